(** * Model of version 2 record parsing.

    libmseed/unpack.c:256-990, 1452-1466, 1567-1622, 1644-1667; field offsets in
    libmseed/mseedformat.h:60-585.

    [rec] is the memory at the record pointer; its length is the size of the object and
    may exceed the record length given to the function.  The extra headers are collected
    as the list of requests made to the mseh_ functions; what these produce is an
    argument ([json]).  Log messages, the alignment of the fields read and allocation
    failures are not modelled. *)

From Coq Require Import String.
From Verif Require Export Base TimeModel StrModel RecModel DblModel ConvModel.
Open Scope Z_scope.

(** ** Extra headers *)

(** MSEHEventDetection, libmseed.h:823-837; floats are the bit patterns in the record. *)
Record detection := mk_detection {
  d_type : string; d_detector : list Z; d_amp : Z; d_period : Z; d_back : Z; d_wave : string;
  d_units : string; d_onset : Z; d_medsnr : list Z; d_lookback : Z; d_pick : Z }.

(** MSEHCalibration, libmseed.h:847-869; durations in units of 0.0001 seconds as in the
    record, floats as bit patterns. *)
Record calibration := mk_calibration {
  k_type : string; k_begin : Z; k_end : Z; k_steps : Z; k_first : Z; k_alt : Z; k_trigger : string;
  k_continued : Z; k_amp : Z; k_range : string; k_duration : Z; k_period : Z; k_between : Z;
  k_channel : list Z; k_ref : Z; k_coupling : list Z; k_rolloff : list Z; k_noise : list Z }.

(** MSEHTimingException, libmseed.h:879-888. *)
Record timing := mk_timing {
  x_time : Z; x_vco : Z; x_quality : Z; x_count : Z; x_type : list Z; x_status : list Z }.

(** One request to mseh_set_ptr_r (with type 'b', 'i', 'n', 's') or to one of the
    mseh_add_ functions.  The value of HNum is in units of 0.0001. *)
Inductive ehop :=
| HBool (path : string) | HInt (path : string) (v : Z) | HNum (path : string) (v : Z)
| HStr (path : string) (v : list Z)
| HDet (d : detection) | HCal (c : calibration) | HExc (t : timing).

(** What the extra header functions do with the requests so far, given the text already
    in msr->extra: whether the last request failed, and the serialized headers. *)
Record json := mk_json {
  j_fail : option (list Z) -> list ehop -> bool; j_text : option (list Z) -> list ehop -> list Z }.

Definition chars (s : string) : list Z := map (fun c => Z.of_nat (Ascii.nat_of_ascii c)) (list_ascii_of_string s).

(** "%d" of a byte. *)
Definition byte_text (v : Z) : list Z :=
  if v <? 10 then [48 + v]
  else if v <? 100 then [48 + v / 10; 48 + v mod 10]
  else [48 + v / 100; 48 + v / 10 mod 10; 48 + v mod 10].

(** The text printed at unpack.c:872. *)
Definition quality_text (v : Z) : list Z :=
  chars "{""FDSN"":{""Time"":{""Quality"":" ++ byte_text v ++ chars "}}}".

(** ** Helpers *)

(** ms_nomsamprate, unpack.c:1452-1466, and the double it returns. *)
Definition nomsamprate (factor multiplier : Z) : dbl :=
  let r := if 0 <? factor then dofz factor
           else if factor <? 0 then ddiv (dofz (-1)) (dofz factor) else dzero in
  if 0 <? multiplier then dmul r (dofz multiplier)
  else if multiplier <? 0 then dmul (dofz (-1)) (ddiv r (dofz multiplier)) else r.
Definition dbits (x : dbl) : Z :=
  match x with
  | DFin q => encode_fmt binary64 (Qnum q * unit1 / Zpos (Qden q))
  | DInf s => with_sign binary64 s 0x7FF0000000000000
  | DNaN => 0x7FF8000000000000
  end.

(** ms2_blktlen, unpack.c:1567-1622; [off] is the offset of the blockette. *)
Definition blktlen (hb sw : bool) (type off : Z) (rec : list Z) : res Z :=
  if type =? 100 then Ok 12
  else if type =? 200 then Ok 28
  else if type =? 201 then Ok 36
  else if type =? 300 then Ok 32
  else if type =? 310 then Ok 32
  else if type =? 320 then Ok 28
  else if type =? 390 then Ok 28
  else if type =? 395 then Ok 16
  else if type =? 400 then Ok 16
  else if type =? 500 then Ok 8
  else if type =? 1000 then Ok 8
  else if type =? 1001 then Ok 8
  else if type =? 2000 then rd hb sw 2 (off + 4) rec
  else Ok 0.

(** ms_btime2nstime, unpack.c:1644-1667.  The fraction is multiplied in uint32_t. *)
Definition btime2nstime (hb sw : bool) (mode : ovmode) (off : Z) (rec : list Z) : res Z :=
  let! year := rd hb sw 2 off rec in
  if year =? 0 then Ok NSTUNSET
  else
    let! day := rd hb sw 2 (off + 2) rec in
    let! hour := getZ (off + 4) rec in
    let! min := getZ (off + 5) rec in
    let! sec := getZ (off + 6) rec in
    let! fract := rd hb sw 2 (off + 8) rec in
    time2nstime mode year day hour min sec (uwrap 32 (fract * 100000)).

(** The same where the caller returns MS_GENERROR for NSTERROR. *)
Definition btime_or_fail (hb sw : bool) (mode : ovmode) (off : Z) (rec : list Z) : res Z :=
  let! t := btime2nstime hb sw mode off rec in
  if t =? NSTERROR then Err MS_GENERROR else Ok t.

(** ms_strncpcleantail into a zeroed array of [cap] bytes, and the string there. *)
Definition text_field (cap off len : Z) (rec : list Z) : res (list Z) :=
  let! (d, _) := strncpcleantail (repeat 0 (Z.to_nat cap)) (Some (skipn (Z.to_nat off) rec)) len in
  Ok (until0 d).

(** ** Blockettes *)

(** The variables of the blockette loop: msr->samprate, msr->reclen, msr->encoding,
    B1000offset, B1001offset, blkt_end, blkt_count, msr->extra as set at
    unpack.c:880-886, and the requests made. *)
Record v2st := mk_v2st {
  s_rate : Z; s_reclen : Z; s_enc : Z; s_b1000 : Z; s_b1001 : Z; s_end : Z; s_count : Z;
  s_extra : option (list Z); s_ops : list ehop }.

Definition with_op (o : ehop) (st : v2st) : v2st :=
  mk_v2st (s_rate st) (s_reclen st) (s_enc st) (s_b1000 st) (s_b1001 st) (s_end st) (s_count st)
          (s_extra st) (s_ops st ++ [o]).

(** An mseh_add_ call whose failure ends the parsing. *)
Definition add_op (J : json) (o : ehop) (st : v2st) : res v2st :=
  let st' := with_op o st in
  if j_fail J (s_extra st') (s_ops st') then Err MS_GENERROR else Ok st'.

(** unpack.c:463-503 *)
Definition blk200 (J : json) (hb sw : bool) (mode : ovmode) (rec : list Z) (o : Z) (st : v2st) : res v2st :=
  let! det := text_field 30 (o + 28) 24 rec in
  let! amp := rd hb sw 4 (o + 4) rec in
  let! per := rd hb sw 4 (o + 8) rec in
  let! bck := rd hb sw 4 (o + 12) rec in
  let! fl := getZ (o + 16) rec in
  let wave := if Z.testbit fl 2 then (if Z.testbit fl 0 then "DILATATION" else "COMPRESSION")%string else ""%string in
  let units := if Z.testbit fl 1 then "DECONVOLVED"%string else "COUNTS"%string in
  let! t := btime_or_fail hb sw mode (o + 18) rec in
  add_op J (HDet (mk_detection "GENERIC" det amp per bck wave units t (repeat 0 6) (-1) (-1))) st.

(** unpack.c:506-537 *)
Definition blk201 (J : json) (hb sw : bool) (mode : ovmode) (rec : list Z) (o : Z) (st : v2st) : res v2st :=
  let! det := text_field 30 (o + 36) 24 rec in
  let! amp := rd hb sw 4 (o + 4) rec in
  let! per := rd hb sw 4 (o + 8) rec in
  let! bck := rd hb sw 4 (o + 12) rec in
  let! fl := getZ (o + 16) rec in
  let wave := if Z.testbit fl 0 then "DILATATION"%string else "COMPRESSION"%string in
  let! t := btime_or_fail hb sw mode (o + 18) rec in
  let! snr := sliceZ (o + 28) 6 rec in
  let! lb := getZ (o + 34) rec in
  let! pk := getZ (o + 35) rec in
  add_op J (HDet (mk_detection "MURDOCK" det amp per bck wave "" t snr lb pk)) st.

Definition bit_or (fl i : Z) : Z := if Z.testbit fl i then 1 else -1.
Definition trigger (fl : Z) : string := if Z.testbit fl 2 then "AUTOMATIC"%string else "MANUAL"%string.

(** unpack.c:540-581 *)
Definition blk300 (J : json) (hb sw : bool) (mode : ovmode) (rec : list Z) (o : Z) (st : v2st) : res v2st :=
  let! t := btime_or_fail hb sw mode (o + 4) rec in
  let! steps := getZ (o + 14) rec in
  let! fl := getZ (o + 15) rec in
  let! dur := rd hb sw 4 (o + 16) rec in
  let! btw := rd hb sw 4 (o + 20) rec in
  let! amp := rd hb sw 4 (o + 24) rec in
  let! ch := text_field 30 (o + 28) 3 rec in
  let! ref := rd hb sw 4 (o + 32) rec in
  let! cpl := text_field 30 (o + 36) 12 rec in
  let! rol := text_field 30 (o + 48) 12 rec in
  add_op J (HCal (mk_calibration "STEP" t NSTERROR steps (bit_or fl 0) (bit_or fl 1) (trigger fl) (bit_or fl 3)
                    amp "" dur 0 btw ch ref cpl rol [])) st.

(** unpack.c:584-636 *)
Definition blk310 (J : json) (hb sw : bool) (mode : ovmode) (rec : list Z) (o : Z) (st : v2st) : res v2st :=
  let! t := btime_or_fail hb sw mode (o + 4) rec in
  let! fl := getZ (o + 15) rec in
  let range := if Z.testbit fl 4 then "PEAKTOPEAK"%string else if Z.testbit fl 5 then "ZEROTOPEAK"%string
               else if Z.testbit fl 6 then "RMS"%string else ""%string in
  let! dur := rd hb sw 4 (o + 16) rec in
  let! per := rd hb sw 4 (o + 20) rec in
  let! amp := rd hb sw 4 (o + 24) rec in
  let! ch := text_field 30 (o + 28) 3 rec in
  let! ref := rd hb sw 4 (o + 32) rec in
  let! cpl := text_field 30 (o + 36) 12 rec in
  let! rol := text_field 30 (o + 48) 12 rec in
  add_op J (HCal (mk_calibration "SINE" t NSTERROR (-1) (-1) (-1) (trigger fl) (bit_or fl 3)
                    amp range dur per 0 ch ref cpl rol [])) st.

(** unpack.c:639-685 *)
Definition blk320 (J : json) (hb sw : bool) (mode : ovmode) (rec : list Z) (o : Z) (st : v2st) : res v2st :=
  let! t := btime_or_fail hb sw mode (o + 4) rec in
  let! fl := getZ (o + 15) rec in
  let range := if Z.testbit fl 4 then "RANDOM"%string else ""%string in
  let! dur := rd hb sw 4 (o + 16) rec in
  let! amp := rd hb sw 4 (o + 20) rec in
  let! ch := text_field 30 (o + 24) 3 rec in
  let! ref := rd hb sw 4 (o + 28) rec in
  let! cpl := text_field 30 (o + 32) 12 rec in
  let! rol := text_field 30 (o + 44) 12 rec in
  let! noi := text_field 30 (o + 56) 8 rec in
  add_op J (HCal (mk_calibration "PSEUDORANDOM" t NSTERROR (-1) (-1) (-1) (trigger fl) (bit_or fl 3)
                    amp range dur 0 0 ch ref cpl rol noi)) st.

(** unpack.c:688-731 *)
Definition blk390 (J : json) (hb sw : bool) (mode : ovmode) (rec : list Z) (o : Z) (st : v2st) : res v2st :=
  let! t := btime_or_fail hb sw mode (o + 4) rec in
  let! fl := getZ (o + 15) rec in
  let! dur := rd hb sw 4 (o + 16) rec in
  let! amp := rd hb sw 4 (o + 20) rec in
  let! ch := text_field 30 (o + 24) 3 rec in
  add_op J (HCal (mk_calibration "GENERIC" t NSTERROR (-1) (-1) (-1) (trigger fl) (bit_or fl 3)
                    amp "" dur 0 0 ch 0 [] [] [])) st.

(** unpack.c:734-771 *)
Definition blk395 (J : json) (hb sw : bool) (mode : ovmode) (rec : list Z) (o : Z) (st : v2st) : res v2st :=
  let! t := btime_or_fail hb sw mode (o + 4) rec in
  add_op J (HCal (mk_calibration "ABORT" NSTERROR t (-1) (-1) (-1) "" (-1) 0 "" 0 0 0 [] 0 [] [] [])) st.

(** unpack.c:786-816.  exception.type has 16 bytes, exception.clockstatus 128, sval 64. *)
Definition blk500 (J : json) (hb sw : bool) (mode : ovmode) (rec : list Z) (o : Z) (st : v2st) : res v2st :=
  let! vco := rd hb sw 4 (o + 4) rec in
  let! t := btime_or_fail hb sw mode (o + 8) rec in
  let! us := getZ (o + 18) rec in
  let! t := (if us =? 0 then Ok t else sarith mode 64 (t + swrap 8 us * 1000)) in
  let! q := getZ (o + 19) rec in
  let! cnt := rd hb sw 4 (o + 20) rec in
  let! ty := text_field 16 (o + 24) 16 rec in
  let! cs := text_field 128 (o + 72) 128 rec in
  let! st := add_op J (HExc (mk_timing t vco q cnt ty cs)) st in
  let! model := text_field 64 (o + 40) 32 rec in
  Ok (with_op (HStr "/FDSN/Clock/Model" model) st).

(** unpack.c:818-835 *)
Definition blk1000 (rec : list Z) (o : Z) (st : v2st) : res v2st :=
  let! e := getZ (o + 6) rec in
  if 32 <=? e then UB BadShift
  else
    let! enc := getZ (o + 4) rec in
    Ok (mk_v2st (s_rate st) (swrap 32 (uwrap 32 (Z.shiftl 1 e))) enc o (s_b1001 st) (s_end st) (s_count st)
                (s_extra st) (s_ops st)).

(** unpack.c:837-865.  parsestate is NULL as long as no request was made. *)
Definition blk1001 (rec : list Z) (o : Z) (st : v2st) : res v2st :=
  let! q := getZ (o + 4) rec in
  let st := mk_v2st (s_rate st) (s_reclen st) (s_enc st) (s_b1000 st) o (s_end st) (s_count st)
                    (match s_ops st with [] => Some (quality_text q) | _ => s_extra st end) (s_ops st) in
  Ok (match s_ops st with [] => st | _ => with_op (HInt "/FDSN/Time/Quality" q) st end).

(** The body of the loop for one blockette, unpack.c:457-875. *)
Definition blockette (J : json) (hb sw : bool) (mode : ovmode) (rec : list Z) (type o : Z) (st : v2st) : res v2st :=
  if type =? 100 then
    let! r := rd hb sw 4 (o + 4) rec in
    Ok (mk_v2st (float_to_double r) (s_reclen st) (s_enc st) (s_b1000 st) (s_b1001 st) (s_end st) (s_count st)
                (s_extra st) (s_ops st))
  else if type =? 200 then blk200 J hb sw mode rec o st
  else if type =? 201 then blk201 J hb sw mode rec o st
  else if type =? 300 then blk300 J hb sw mode rec o st
  else if type =? 310 then blk310 J hb sw mode rec o st
  else if type =? 320 then blk320 J hb sw mode rec o st
  else if type =? 390 then blk390 J hb sw mode rec o st
  else if type =? 395 then blk395 J hb sw mode rec o st
  else if type =? 500 then blk500 J hb sw mode rec o st
  else if type =? 1000 then blk1000 rec o st
  else if type =? 1001 then blk1001 rec o st
  else Ok st.

(** blkt_end at unpack.c:455, blkt_count at 899. *)
Definition visited (e : Z) (st : v2st) : v2st :=
  mk_v2st (s_rate st) (s_reclen st) (s_enc st) (s_b1000 st) (s_b1001 st) e (s_count st + 1) (s_extra st) (s_ops st).

(** unpack.c:423-900 *)
Fixpoint blockettes (fuel : nat) (J : json) (hb sw : bool) (mode : ovmode) (rec : list Z) (reclen off : Z)
         (st : v2st) : res v2st :=
  match fuel with
  | O => Fuel
  | S fuel' =>
    if negb (off =? 0) && (off <? reclen) && (off <? MAXRECLEN) then
      let! type := rd hb sw 2 off rec in
      let! next := rd hb sw 2 (off + 2) rec in
      let! len := blktlen hb sw type off rec in
      if len =? 0 then Ok st
      else if reclen <? off + len then Ok st
      else
        let! st := blockette J hb sw mode rec type off (visited (off + len) st) in
        let next := if negb (next =? 0) && (next <? off + len) then 0
                    else if negb (next =? 0) && (reclen <? next) then 0 else next in
        blockettes fuel' J hb sw mode rec reclen next st
    else Ok st
  end.

(** ** The record *)

Definition op_if (b i : Z) (o : ehop) : list ehop := if Z.testbit b i then [o] else [].

(** Requests for the flags and the time correction of the fixed header, unpack.c:356-418. *)
Definition header_ops (act io dq corr : Z) : list ehop :=
  op_if act 2 (HBool "/FDSN/Event/Begin") ++ op_if act 3 (HBool "/FDSN/Event/End") ++
  op_if act 4 (HInt "/FDSN/Time/LeapSecond" 1) ++ op_if act 5 (HInt "/FDSN/Time/LeapSecond" (-1)) ++
  op_if act 6 (HBool "/FDSN/Event/InProgress") ++
  op_if io 0 (HBool "/FDSN/Flags/StationVolumeParityError") ++ op_if io 1 (HBool "/FDSN/Flags/LongRecordRead") ++
  op_if io 2 (HBool "/FDSN/Flags/ShortRecordRead") ++ op_if io 3 (HBool "/FDSN/Flags/StartOfTimeSeries") ++
  op_if io 4 (HBool "/FDSN/Flags/EndOfTimeSeries") ++
  op_if dq 0 (HBool "/FDSN/Flags/AmplifierSaturation") ++ op_if dq 1 (HBool "/FDSN/Flags/DigitizerClipping") ++
  op_if dq 2 (HBool "/FDSN/Flags/Spikes") ++ op_if dq 3 (HBool "/FDSN/Flags/Glitches") ++
  op_if dq 4 (HBool "/FDSN/Flags/MissingData") ++ op_if dq 5 (HBool "/FDSN/Flags/TelemetrySyncError") ++
  op_if dq 6 (HBool "/FDSN/Flags/FilterCharging") ++
  (if corr =? 0 then [] else [HNum "/FDSN/Time/Correction" corr]).

(** unpack.c:343-353 *)
Definition pubversion2 (q : Z) : Z :=
  if q =? 77 then 4 else if q =? 81 then 3 else if q =? 68 then 2 else if q =? 82 then 1 else 0.

(** unpack.c:356-408, the bits kept in msr->flags. *)
Definition flags2 (act io dq : Z) : Z :=
  Z.lor (if Z.testbit act 0 then 1 else 0) (Z.lor (if Z.testbit io 5 then 4 else 0) (if Z.testbit dq 7 then 2 else 0)).

(** msr3_unpack_mseed2, unpack.c:256-990; the identifier is written into the zeroed
    sid[64] of the new MS3Record.  The checks that only log are left out (their reads
    repeat reads made elsewhere). *)
Definition unpack2 (J : json) (hb : bool) (mode : ovmode) (addr flags : Z) (rec : list Z) (reclen : Z) : res msr :=
  if (reclen <? 64) || (MAXRECLEN <? reclen) then
    let! _ := recordsid rec (repeat 0 64) 64 in Err MS_OUTOFRANGE
  else
    let! v := valid2_at 0 rec in
    if negb v then let! _ := recordsid rec (repeat 0 64) 64 in Err MS_NOTSEED
    else
      let! year := rd hb false 2 20 rec in
      let! day := rd hb false 2 22 rec in
      let sw := negb ((1900 <=? year) && (year <=? 2100) && (1 <=? day) && (day <=? 366)) in
      let! (sid, _) := recordsid rec (repeat 0 64) 64 in
      let! fact := rd hb sw 2 32 rec in
      let! mult := rd hb sw 2 34 rec in
      let! cnt := rd hb sw 2 30 rec in
      let! q := getZ 6 rec in
      let! act := getZ 36 rec in
      let! io := getZ 37 rec in
      let! dq := getZ 38 rec in
      let! corr := rd hb sw 4 40 rec in
      let corr := swrap 32 corr in
      let! off := rd hb sw 2 46 rec in
      let rate := dbits (nomsamprate (swrap 16 fact) (swrap 16 mult)) in
      let! st := blockettes (S (Z.to_nat reclen)) J hb sw mode rec reclen off
                            (mk_v2st rate reclen (-1) 0 0 0 0 None (header_ops act io dq corr)) in
      let extra := match s_ops st with
                   | [] => match s_extra st with Some x => x | None => [] end
                   | ops => j_text J (s_extra st) ops
                   end in
      let! start := btime_or_fail hb sw mode 20 rec in
      let! start := (if negb (corr =? 0) && negb (Z.testbit act 1)
                     then sarith mode 64 (start + corr * 100000) else Ok start) in
      let! start := (if negb (s_b1001 st =? 0)
                     then let! us := getZ (s_b1001 st + 5) rec in sarith mode 64 (start + swrap 8 us * 1000)
                     else Ok start) in
      let! doff := rd hb sw 2 44 rec in
      let datalen := if 0 <? doff then uwrap 32 (s_reclen st - doff) else 0 in
      let! swapp := (if negb (s_b1000 st =? 0)
                     then let! bo := getZ (s_b1000 st + 5) rec in Ok (if hb then bo =? 0 else 0 <? bo)
                     else Ok sw) in
      let m := mk_msr (s_reclen st) sw swapp 2 (flags2 act io dq) (until0 sid) start (s_rate st) (s_enc st)
                      (pubversion2 q) cnt 0 extra datalen None in
      if has_flag flags MSF_UNPACKDATA && (0 <? cnt) then
        let! d := unpack_data hb mode addr rec m in
        Ok (mk_msr (s_reclen st) sw swapp 2 (flags2 act io dq) (until0 sid) start (s_rate st) (s_enc st)
                   (pubversion2 q) cnt 0 extra datalen (Some d))
      else Ok m.

(** ** ms3_detect and msr3_parse with the buffer length as a separate argument, to say how
    much memory after the buffer they read.  [mem] is the memory at the buffer pointer;
    with [recbuflen] its length these are [detect] and [parse] of RecModel. *)

(** parseutils.c:225-258 *)
Fixpoint detect2_mem (fuel : nat) (hb sw : bool) (mem : list Z) (recbuflen off : Z) : res (option Z) :=
  match fuel with
  | O => Fuel
  | S fuel' =>
    if negb (off =? 0) && (47 <? off) && (off <=? recbuflen) then
      let! type := rd hb sw 2 off mem in
      let! next := rd hb sw 2 (off + 2) mem in
      if (type =? 1000) && (off + 8 <=? recbuflen) then
        let! e := getZ (off + 6) mem in
        if 64 <=? e then UB BadShift
        else Ok (Some (swrap 64 (uwrap 64 (Z.shiftl 1 e))))
      else if negb (next =? 0) && ((next <? 4) || (next - 4 <=? off)) then Err (-1)
      else detect2_mem fuel' hb sw mem recbuflen next
    else Ok None
  end.

(** parseutils.c:262-280 *)
Fixpoint detect2_scan_mem (fuel : nat) (mem : list Z) (recbuflen pos : Z) : res (option Z) :=
  match fuel with
  | O => Fuel
  | S fuel' =>
    if pos + 48 <? recbuflen then
      let! v := valid2_at pos mem in
      if v then Ok (Some pos) else detect2_scan_mem fuel' mem recbuflen (pos + 64)
    else Ok None
  end.

(** parseutils.c:178-287 *)
Definition detect_mem (hb : bool) (mem : list Z) (recbuflen : Z) : res (Z * Z) :=
  if recbuflen <? MINRECLEN then Ok (0, -1)
  else
    let fuel := S (Z.to_nat recbuflen) in
    let! v3 := valid3 mem in
    if v3 then let! l := detect3 hb mem in Ok (3, l)
    else
      let! v2 := valid2_at 0 mem in
      if negb v2 then Ok (0, -1)
      else
        let! year := rd hb false 2 20 mem in
        let! day := rd hb false 2 22 mem in
        let sw := negb ((1900 <=? year) && (year <=? 2100) && (1 <=? day) && (day <=? 366)) in
        let! off := rd hb sw 2 46 mem in
        match detect2_mem fuel hb sw mem recbuflen off with
        | Ok (Some l) =>
          if l =? -1 then
            let! s := detect2_scan_mem fuel mem recbuflen 64 in
            Ok (2, match s with Some p => p | None => -1 end)
          else Ok (2, l)
        | Ok None =>
          let! s := detect2_scan_mem fuel mem recbuflen 64 in
          Ok (2, match s with Some p => p | None => 0 end)
        | Err c => Ok (2, c)
        | UB u => UB u
        | Fuel => Fuel
        end.

(** parseutils.c:60-155 *)
Definition parse_mem (J : json) (hb : bool) (mode : ovmode) (addr flags : Z) (mem : list Z) (recbuflen : Z) : res parsed :=
  let! (fver, reclen0) := detect_mem hb mem recbuflen in
  let reclen :=
    if (fver =? 2) && (reclen0 =? 0) && has_flag flags MSF_ATENDOFFILE
       && (Z.land recbuflen (recbuflen - 1) =? 0) && (recbuflen <=? MAXRECLEN)
    then recbuflen else reclen0 in
  if reclen <? 0 then Err MS_NOTSEED
  else if reclen =? 0 then Ok (PHint MINRECLEN)
  else if (reclen <? MINRECLEN) || (MAXRECLEN <? reclen) then Err MS_OUTOFRANGE
  else if recbuflen <? reclen then
    let need := reclen - recbuflen in
    Ok (PHint (if MAXRECLEN <? need then MAXRECLEN else need))
  else if fver =? 3 then let! m := unpack3 hb mode addr flags mem reclen in Ok (PRec m)
  else if fver =? 2 then let! m := unpack2 J hb mode addr flags mem reclen in Ok (PRec m)
  else Err MS_GENERROR.
