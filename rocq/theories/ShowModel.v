(** * Model of what the inspector prints of a record: msr3_print and the samples.

    libmseed/msrutils.c:227-290, libmseed/lookup.c:38-58, 125-194 and src/msi.c:221-327.  All of it goes
    through ms_log (0, ...), with the parameters of msi.c:94: no prefix, standard output.
    The output is its characters.  "%.10g", "%10.8g" and "%10.10g" are arguments
    ([hz], [g8], [g10]: the text for a value).  The latency (-L), which reads the clock, and the
    raw dump (-p with -r, RawModel.v) are left out. *)

From Coq Require Import String.
From Verif Require Import Base TimeModel TimeStrModel RecModel SampleModel RawModel.
From Coq Require Import SpecFloat.
From Verif Require DblModel.
Open Scope Z_scope.
Open Scope list_scope.

(** ms_log (0, ...) of a text: rlog_int (logging.c:341-427) formats into 200 bytes. *)
Definition say (text : list Z) : list Z := firstn 199 text.

(** "%-[w]d" *)
Definition decl (w : nat) (v : Z) : list Z := dec v ++ repeat 32 (w - length (dec v)).

(** "%X" of a 32-bit value: hexadecimal digits without leading zeros. *)
Definition hexdigit (d : Z) : Z := if d <? 10 then 48 + d else 55 + d.
Fixpoint hex (fuel : nat) (v : Z) : list Z :=
  match fuel with
  | O => []
  | S f => (if v <? 16 then [] else hex f (v / 16)) ++ [hexdigit (v mod 16)]
  end.

(** ms_encodingstr, lookup.c:125-194 *)
Definition encodingstr (enc : Z) : list Z :=
  if enc =? 0 then zs "Text"
  else if enc =? 1 then zs "16-bit integer"
  else if enc =? 2 then zs "24-bit integer"
  else if enc =? 3 then zs "32-bit integer"
  else if enc =? 4 then zs "32-bit float (IEEE single)"
  else if enc =? 5 then zs "64-bit float (IEEE double)"
  else if enc =? 10 then zs "STEIM-1 integer compression"
  else if enc =? 11 then zs "STEIM-2 integer compression"
  else if enc =? 12 then zs "GEOSCOPE Muxed 24-bit integer"
  else if enc =? 13 then zs "GEOSCOPE Muxed 16/3-bit gain/exp"
  else if enc =? 14 then zs "GEOSCOPE Muxed 16/4-bit gain/exp"
  else if enc =? 15 then zs "US National Network compression"
  else if enc =? 16 then zs "CDSN 16-bit gain ranged"
  else if enc =? 17 then zs "Graefenberg 16-bit gain ranged"
  else if enc =? 18 then zs "IPG - Strasbourg 16-bit gain"
  else if enc =? 19 then zs "STEIM-3 integer compression"
  else if enc =? 30 then zs "SRO gain ranged"
  else if enc =? 31 then zs "HGLP"
  else if enc =? 32 then zs "DWWSSN"
  else if enc =? 33 then zs "RSTN 16 bit gain ranged"
  else zs "Unknown".

(** bit (x, y), libmseed.h:202, printed with "%d" *)
Definition bitd (b mask : Z) : list Z := dec (if Z.land b mask =? 0 then 0 else 1).
(** One line that explains a flag, msrutils.c:254-269. *)
Definition flag_line (b mask : Z) (text : list Z) : list Z :=
  if Z.land b mask =? 0 then [] else say (zs "                         " ++ text ++ [10]).

(** The flags, msrutils.c:248-270 *)
Definition flag_lines (b : Z) : list Z :=
  say (zs "                  flags: [" ++ bitd b 128 ++ bitd b 64 ++ bitd b 32 ++ bitd b 16
       ++ bitd b 8 ++ bitd b 4 ++ bitd b 2 ++ bitd b 1 ++ zs "] 8 bits" ++ [10])
  ++ flag_line b 1 (zs "[Bit 0] Calibration signals present")
  ++ flag_line b 2 (zs "[Bit 1] Time tag is questionable")
  ++ flag_line b 4 (zs "[Bit 2] Clock locked")
  ++ flag_line b 8 (zs "[Bit 3] Undefined bit set")
  ++ flag_line b 16 (zs "[Bit 4] Undefined bit set")
  ++ flag_line b 32 (zs "[Bit 5] Undefined bit set")
  ++ flag_line b 64 (zs "[Bit 6] Undefined bit set")
  ++ flag_line b 128 (zs "[Bit 7] Undefined bit set").

(** msr3_print, msrutils.c:227-290.  Without a time string the buffer printed is not initialised. *)
Definition msr_print (hz : DblModel.dbl -> list Z) (m : msr) (details : Z) : res (list Z) :=
  let! t := nstime2timestr (m_start m) ISOMONTHDAY_DOY_Z NANO_MICRO in
  match t with
  | None => UB Uninit
  | Some time =>
    if 0 <? details then
      let! extra :=
        (if (1 <? details) && (0 <? Z.of_nat (length (m_extra m))) then
           let! e := eh_print (m_extra m) (Z.of_nat (length (m_extra m))) 16 in
           Ok (say (zs "          extra headers:" ++ [10]) ++ e)
         else Ok []) in
      Ok (say (m_sid m ++ zs ", version " ++ dec (m_pub m) ++ zs ", " ++ dec (m_reclen m)
               ++ zs " bytes (format: " ++ dec (m_fver m) ++ zs ")" ++ [10])
          ++ say (zs "             start time: " ++ time ++ [10])
          ++ say (zs "      number of samples: " ++ dec (m_cnt m) ++ [10])
          ++ say (zs "       sample rate (Hz): " ++ hz (sampratehz (m_rate m)) ++ [10])
          ++ (if 1 <? details then flag_lines (m_flags m) else [])
          ++ say (zs "                    CRC: 0x" ++ hex 8 (m_crc m) ++ [10])
          ++ say (zs "    extra header length: " ++ dec (Z.of_nat (length (m_extra m))) ++ zs " bytes" ++ [10])
          ++ say (zs "    data payload length: " ++ dec (m_datalen m) ++ zs " bytes" ++ [10])
          ++ say (zs "       payload encoding: " ++ encodingstr (uwrap 8 (m_enc m)) ++ zs " (val: " ++ dec (m_enc m) ++ zs ")" ++ [10])
          ++ extra)
    else
      Ok (say (m_sid m ++ zs ", " ++ dec (m_pub m) ++ zs ", " ++ dec (m_reclen m) ++ zs ", " ++ dec (m_cnt m) ++ zs " samples, "
               ++ hz (sampratehz (m_rate m)) ++ zs " Hz, " ++ time ++ [10]))
  end.

(** ** Samples, msi.c:243-327 *)

(** ms_samplesize, lookup.c:38-58 *)
Definition samplesize (stype : Z) : Z :=
  if (stype =? 116) || (stype =? 97) then 1
  else if (stype =? 105) || (stype =? 102) then 4
  else if stype =? 100 then 8
  else 0.

(** A sample in memory: an integer or a bit pattern, or a float of a GEOSCOPE decoder. *)
Definition sample : Type := (Z + spec_float)%type.
Definition sample_at (s : samples) (i : Z) : res sample :=
  match s with
  | SInt l => let! v := getZ i l in Ok (inl v)
  | SFlt l => let! v := getZ i l in Ok (inr v)
  end.

(** One sample, msi.c:291-300: [cnt * samplesize] is computed as an int. *)
Definition show_sample (mode : ovmode) (g8 g10 : sample -> list Z) (stype : Z) (s : samples) (cnt : Z) : res (list Z) :=
  let! _ := sarith mode 32 (cnt * samplesize stype) in
  if stype =? 105 then
    let! v := sample_at s cnt in
    Ok (say ((match v with inl i => decs 10 i | inr _ => [] end) ++ zs "  "))
  else if stype =? 102 then let! v := sample_at s cnt in Ok (say (g8 v ++ zs "  "))
  else if stype =? 100 then let! v := sample_at s cnt in Ok (say (g10 v ++ zs "  "))
  else Ok [].

(** msi.c:287-304: the columns of a line, of which [col] are left. *)
Fixpoint show_cols (col : nat) (mode : ovmode) (g8 g10 : sample -> list Z) (stype : Z) (s : samples) (n cnt : Z) : res (list Z * Z) :=
  match col with
  | O => Ok ([], cnt)
  | S col =>
    if cnt <? n then
      let! t := show_sample mode g8 g10 stype s cnt in
      let! (rest, cnt) := show_cols col mode g8 g10 stype s n (cnt + 1) in
      Ok (t ++ rest, cnt)
    else show_cols col mode g8 g10 stype s n cnt
  end.

(** msi.c:285-310: [lines] lines are left; [first] is printdata == 1. *)
Fixpoint show_lines (lines : nat) (first : bool) (mode : ovmode) (g8 g10 : sample -> list Z) (stype : Z) (s : samples) (n cnt : Z)
  : res (list Z) :=
  match lines with
  | O => Ok []
  | S lines =>
    let! (t, cnt) := show_cols 6 mode g8 g10 stype s n cnt in
    let line := t ++ say [10] in
    if first then Ok line
    else
      let! rest := show_lines lines first mode g8 g10 stype s n cnt in
      Ok (line ++ rest)
  end.

(** msi.c:266-282: [length] characters from [textdata] on. *)
Fixpoint show_text (fuel : nat) (textdata : list Z) (length : Z) : res (list Z) :=
  match fuel with
  | O => Fuel
  | S fuel =>
    if 199 <? length then
      let! t := text_upto 199 textdata in
      let! rest := show_text fuel (skipn 199 textdata) (length - 199) in
      Ok (say t ++ rest)
    else if 0 <? length then
      let! t := text_upto (Z.to_nat length) textdata in
      Ok (say (t ++ [10]))
    else Ok (say [10])
  end.

(** msi.c:243-311: [unpacked] is the value of msr3_unpack_data, [first] printdata == 1; numsamples is
    the number of samples in memory. *)
Definition show_samples (mode : ovmode) (g8 g10 : sample -> list Z) (first : bool) (stype unpacked : Z) (s : samples) : res (list Z) :=
  if unpacked <=? 0 then Ok []
  else
    let n := samples_len s in
    let lines := swrap 32 (Z.quot n 6 + 1) in
    if stype =? 116 then
      match s with
      | SInt l =>
        let length := swrap 32 n in
        let! t := show_text (S (Z.to_nat n)) l length in
        Ok (say (zs "Text Data:" ++ [10]) ++ t)
      | SFlt _ => Ok []
      end
    else show_lines (Z.to_nat lines) first mode g8 g10 stype s n 0.

(** The bytes written to the binary output file, msi.c:313-326: [mem] is the memory at msr->datasamples. *)
Definition bin_samples (stype n : Z) (mem : list Z) : res (list Z) :=
  let size := samplesize stype in
  if size =? 0 then Ok [] else sliceZ 0 (size * n) mem.

(** ** One record, msi.c:221-311, without -tg or -G only: [offset] is the position printed by -O,
    [raw] the dump of -r, [printdata] 0, 1 (-d) or 2 (-D), [unpacked] the samples that
    msr3_unpack_data leaves ([Err]: it fails). *)
Definition show_record (mode : ovmode) (hz : DblModel.dbl -> list Z) (g8 g10 : sample -> list Z) (offset : option Z) (raw : option (list Z))
  (details printdata stype : Z) (m : msr) (unpacked : res samples) : res (list Z) :=
  let o := match offset with Some p => say (decl 10 p) | None => [] end in
  let! h := match raw with Some t => Ok t | None => msr_print hz m details end in
  let! d :=
    (if printdata =? 0 then Ok []
     else match unpacked with
          | Ok s => show_samples mode g8 g10 (printdata =? 1) stype (samples_len s) s
          | Err c => Ok []
          | UB u => UB u
          | Fuel => Fuel
          end) in
  Ok (o ++ h ++ d).
