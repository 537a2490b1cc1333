(** * Model of version 3 record detection, header unpacking, data unpacking and
    msr3_parse.

    libmseed/parseutils.c:60-287, libmseed/unpack.c:73-229, 1020-1093, 1119-1254,
    1274-1443, libmseed/libmseed.h:148-199, libmseed/lookup.c:73-116.

    A buffer is a list of bytes whose length is the size of the object; every read
    is checked against it.  [hb] says whether the host is big-endian, [addr] is the
    address of the buffer modulo 8.  Log messages are not modelled. *)

From Verif Require Export Base TimeModel CrcModel CodecModel.
Open Scope Z_scope.

Definition MINRECLEN : Z := 40.
Definition MAXRECLEN : Z := 10485760.
Definition MS_GENERROR : Z := -1.
Definition MS_NOTSEED : Z := -2.
Definition MS_OUTOFRANGE : Z := -4.
Definition MS_UNKNOWNFORMAT : Z := -5.
Definition MS_INVALIDCRC : Z := -7.
(** Flags, libmseed.h:1464-1468. *)
Definition MSF_UNPACKDATA : Z := 1.
Definition MSF_VALIDATECRC : Z := 4.
Definition MSF_ATENDOFFILE : Z := 16.
Definition has_flag (flags f : Z) : bool := negb (Z.land flags f =? 0).

(** A field of [n] bytes at [off], byte-swapped first if [sw] (HO2u, HO4u, HO8f,
    mseedformat.h:598-650). *)
Definition rd (hb sw : bool) (n off : Z) (buf : list Z) : res Z :=
  let! w := sliceZ off n buf in Ok (ld hb sw w).

(** MS3_ISVALIDHEADER, libmseed.h:166-170; [&&] stops at the first failure. *)
Fixpoint all_at (tests : list (Z * (Z -> bool))) (base : Z) (buf : list Z) : res bool :=
  match tests with
  | [] => Ok true
  | (off, t) :: rest =>
    let! b := getZ (base + off) buf in
    if t b then all_at rest base buf else Ok false
  end.
Definition valid3 (buf : list Z) : res bool :=
  all_at [(0, fun b => b =? 77); (1, fun b => b =? 83); (2, fun b => b =? 3);
          (12, fun b => b <=? 23); (13, fun b => b <=? 59); (14, fun b => b <=? 60)] 0 buf.

(** MS2_ISVALIDHEADER, libmseed.h:188-199 at offset [base]; MS2_ISDATAINDICATOR,
    libmseed.h:148. *)
Definition seq_char (b : Z) : bool := ((48 <=? b) && (b <=? 57)) || (b =? 32) || (b =? 0).
Definition valid2_at (base : Z) (buf : list Z) : res bool :=
  all_at [(0, seq_char); (1, seq_char); (2, seq_char); (3, seq_char); (4, seq_char); (5, seq_char);
          (6, fun b => (b =? 68) || (b =? 82) || (b =? 81) || (b =? 77));
          (7, fun b => (b =? 32) || (b =? 0));
          (24, fun b => b <=? 23); (25, fun b => b <=? 59); (26, fun b => b <=? 60)] base buf.

(** The sum at parseutils.c:207-210 is computed in uint32_t, from the bytes in host
    order. *)
Definition detect3 (hb : bool) (buf : list Z) : res Z :=
  let! sidlen := rd hb false 1 33 buf in
  let! extralen := rd hb false 2 34 buf in
  let! datalen := rd hb false 4 36 buf in
  Ok (uwrap 32 (40 + sidlen + extralen + datalen)).

(** Blockette loop of ms3_detect, parseutils.c:225-258: [None] when the loop ends
    without a length. *)
Fixpoint detect2_loop (fuel : nat) (hb sw : bool) (buf : list Z) (off : Z) : res (option Z) :=
  match fuel with
  | O => Fuel
  | S fuel' =>
    let recbuflen := Z.of_nat (length buf) in
    if negb (off =? 0) && (47 <? off) && (off <=? recbuflen) then
      let! type := rd hb sw 2 off buf in
      let! next := rd hb sw 2 (off + 2) buf in
      if (type =? 1000) && (off + 8 <=? recbuflen) then
        let! e := getZ (off + 6) buf in
        if 64 <=? e then UB BadShift
        else Ok (Some (swrap 64 (uwrap 64 (Z.shiftl 1 e))))
      else if negb (next =? 0) && ((next <? 4) || (next - 4 <=? off)) then Err (-1)
      else detect2_loop fuel' hb sw buf next
    else Ok None
  end.

(** Search for the next header, parseutils.c:262-280. *)
Fixpoint detect2_scan (fuel : nat) (buf : list Z) (pos : Z) : res (option Z) :=
  match fuel with
  | O => Fuel
  | S fuel' =>
    if pos + 48 <? Z.of_nat (length buf) then
      let! v := valid2_at pos buf in
      if v then Ok (Some pos) else detect2_scan fuel' buf (pos + 64)
    else Ok None
  end.

(** ms3_detect, parseutils.c:178-287: format version and record length; the error
    return -1 with format version [v] is [(v, -1)].  The loops run at most once per
    possible offset. *)
Definition detect2 (hb : bool) (buf : list Z) : res Z :=
  let! year := rd hb false 2 20 buf in
  let! day := rd hb false 2 22 buf in
  (* MS_ISVALIDYEARDAY, mseedformat.h:655 *)
  let sw := negb ((1900 <=? year) && (year <=? 2100) && (1 <=? day) && (day <=? 366)) in
  let! off := rd hb sw 2 46 buf in
  match detect2_loop (S (length buf)) hb sw buf off with
  | Ok (Some l) =>
    if l =? -1 then
      let! s := detect2_scan (S (length buf)) buf 64 in
      Ok (match s with Some p => p | None => -1 end)
    else Ok l
  | Ok None =>
    let! s := detect2_scan (S (length buf)) buf 64 in
    Ok (match s with Some p => p | None => 0 end)
  | Err c => Ok c
  | UB u => UB u
  | Fuel => Fuel
  end.

Definition detect (hb : bool) (buf : list Z) : res (Z * Z) :=
  if Z.of_nat (length buf) <? MINRECLEN then Ok (0, -1)
  else
    let! v3 := valid3 buf in
    if v3 then let! l := detect3 hb buf in Ok (3, l)
    else
      let! v2 := valid2_at 0 buf in
      if v2 then let! l := detect2 hb buf in Ok (2, l)
      else Ok (0, -1).

(** ** MS3Record *)

(** Decoded samples: integers, text bytes and float bit patterns, or the computed
    floats of the GEOSCOPE decoders. *)
Inductive samples : Type :=
| SInt (l : list Z)
| SFlt (l : list spec_float).
Definition samples_len (s : samples) : Z :=
  match s with SInt l => Z.of_nat (length l) | SFlt l => Z.of_nat (length l) end.

(** MS3Record (libmseed.h:358-382) as filled by the parser.  [m_sid] is the C string
    (bytes before the first NUL of the 64-byte array), [m_rate] the bit pattern of
    samprate, [m_extra] the extralength bytes at [extra], [m_swaph]/[m_swapp] the two
    bits of swapflag, [m_data] the unpacked samples, if any. *)
Record msr := mk_msr {
  m_reclen : Z; m_swaph : bool; m_swapp : bool; m_fver : Z; m_flags : Z;
  m_sid : list Z; m_start : Z; m_rate : Z; m_enc : Z; m_pub : Z; m_cnt : Z; m_crc : Z;
  m_extra : list Z; m_datalen : Z; m_data : option samples }.

(** The C string in a zero-terminated array. *)
Fixpoint until0 (l : list Z) : list Z :=
  match l with
  | [] => []
  | c :: l' => if c =? 0 then [] else c :: until0 l'
  end.

(** ** Unpacking samples *)

(** ms_encoding_sizetype, lookup.c:73-116: sample size and type. *)
Definition encoding_sizetype (enc : Z) : option (Z * Z) :=
  if enc =? 0 then Some (1, 116)
  else if (enc =? 1) || (enc =? 3) || (enc =? 10) || (enc =? 11) || (enc =? 16) || (enc =? 30)
          || (enc =? 32) then Some (4, 105)
  else if (enc =? 4) || (enc =? 12) || (enc =? 13) || (enc =? 14) then Some (4, 102)
  else if enc =? 5 then Some (8, 100)
  else None.

(** Encodings whose size follows from the sample count, unpack.c:1053-1075. *)
Definition fixed_bytes (enc : Z) : option Z :=
  if enc =? 0 then Some 1
  else if enc =? 1 then Some 2
  else if (enc =? 3) || (enc =? 4) then Some 4
  else if enc =? 5 then Some 8
  else None.

Definition is_steim (enc : Z) : bool := (enc =? 10) || (enc =? 11).

(** Trailing zero frames, unpack.c:1085-1089: the comparison is made at
    record + datasize - 64, as in the code. *)
Fixpoint trim_frames (fuel : nat) (rec : list Z) (datasize : Z) : res Z :=
  match fuel with
  | O => Fuel
  | S fuel' =>
    if 0 <? datasize then
      let! fr := sliceZ (datasize - 64) 64 rec in
      if forallb (Z.eqb 0) fr then trim_frames fuel' rec (datasize - 64) else Ok datasize
    else Ok datasize
  end.

(** msr3_data_bounds, unpack.c:1020-1093: data offset and size.  [rec] is what
    msr->record points to. *)
Definition data_bounds (hb : bool) (rec : list Z) (m : msr) : res (Z * Z) :=
  let! (off, size) :=
    (if m_fver m =? 3 then
       Ok (uwrap 32 (40 + Z.of_nat (length (m_sid m)) + Z.of_nat (length (m_extra m))), m_datalen m)
     else if m_fver m =? 2 then
       let! o := rd hb (m_swaph m) 2 44 rec in Ok (o, uwrap 32 (m_reclen m - o))
     else Err MS_GENERROR) in
  let size1 :=
    match fixed_bytes (m_enc m) with
    | Some w =>
      let rawsize := uwrap 64 (m_cnt m * w) in
      if rawsize <? size then uwrap 16 rawsize else size
    | None => size
    end in
  if (size1 mod 64 =? 0) && is_steim (m_enc m) then
    let! size2 := trim_frames (S (length rec)) rec size1 in Ok (off, size2)
  else Ok (off, size1).

(** ms_decode_data, unpack.c:1274-1443: [input] is the memory at the input pointer,
    [inlen] the declared size. *)
Definition decode_data (hb sw : bool) (mode : ovmode) (input : list Z) (inlen enc cnt outsize : Z)
  : res samples :=
  if cnt =? 0 then Ok (SInt [])
  else
    let size := match encoding_sizetype enc with Some (s, _) => s | None => 0 end in
    let decodedsize := uwrap 64 (cnt * size) in
    if outsize <? decodedsize then Err MS_GENERROR
    else
      let! s :=
        (if enc =? 0 then let! l := sliceZ 0 cnt input in Ok (SInt l)
         else if enc =? 1 then let! l := decode_int16 hb sw input cnt decodedsize in Ok (SInt l)
         else if enc =? 3 then let! l := decode_int32 hb sw input cnt decodedsize in Ok (SInt l)
         else if enc =? 4 then let! l := decode_float32 hb sw input cnt decodedsize in Ok (SInt l)
         else if enc =? 5 then let! l := decode_float64 hb sw input cnt decodedsize in Ok (SInt l)
         else if enc =? 10 then
           let! (l, _) := decode_steim1 hb sw mode input inlen cnt decodedsize in Ok (SInt l)
         else if enc =? 11 then
           let! (l, _) := decode_steim2 hb sw mode input inlen cnt decodedsize in Ok (SInt l)
         else if (enc =? 12) || (enc =? 13) || (enc =? 14) then
           let! l := decode_geoscope enc hb sw input cnt decodedsize in Ok (SFlt l)
         else if enc =? 16 then let! l := decode_cdsn hb sw input cnt decodedsize in Ok (SInt l)
         else if enc =? 30 then let! l := decode_sro hb sw input cnt decodedsize in Ok (SInt l)
         else if enc =? 32 then let! l := decode_dwwssn hb sw input cnt decodedsize in Ok (SInt l)
         else Err MS_UNKNOWNFORMAT) in
      if samples_len s =? cnt then Ok s else Err MS_GENERROR.

(** msr3_unpack_data, unpack.c:1119-1254.  [rec] is the record: the bytes at
    msr->record, [addr] its address modulo 8.  When the payload is not aligned for the
    sample size the decoder works on a copy of datasize bytes. *)
Definition unpack_data (hb : bool) (mode : ovmode) (addr : Z) (rec : list Z) (m : msr)
  : res samples :=
  if m_cnt m <=? 0 then Ok (SInt [])
  else if m_reclen m <? 0 then Err MS_NOTSEED
  else if (m_reclen m <? MINRECLEN) || (MAXRECLEN <? m_reclen m) then Err MS_OUTOFRANGE
  else if 2 ^ 31 - 1 <? m_cnt m then Err MS_GENERROR
  else
    let! (off, size) :=
      match data_bounds hb rec m with Err _ => Err MS_GENERROR | r => r end in
    if (off <? MINRECLEN) || (m_reclen m <=? off) then Err MS_GENERROR
    else
      let enc := if m_enc m <? 0 then 10 else m_enc m in
      match encoding_sizetype (uwrap 8 enc) with
      | None => Err MS_GENERROR
      | Some (ssize, _) =>
        let! input :=
          (if (addr + off) mod ssize =? 0
           then sliceZ off (Z.of_nat (length rec) - off) rec
           else sliceZ off size rec) in
        decode_data hb (m_swapp m) mode input size (uwrap 8 enc) (m_cnt m) (m_cnt m * ssize)
      end.

(** ** msr3_unpack_mseed3, unpack.c:73-229 *)

(** memset of the CRC field, unpack.c:131. *)
Definition zero_crc (buf : list Z) : list Z := firstn 28 buf ++ [0; 0; 0; 0] ++ skipn 32 buf.

Definition unpack3 (hb : bool) (mode : ovmode) (addr flags : Z) (buf : list Z) (reclen : Z)
  : res msr :=
  if (reclen <? MINRECLEN) || (MAXRECLEN <? reclen) then Err MS_OUTOFRANGE
  else
    let! v := valid3 buf in
    if negb v then Err MS_NOTSEED
    else
      let sw := hb in
      let! sidlen := rd hb false 1 33 buf in
      if 64 <=? sidlen then Err MS_GENERROR
      else
        let! crcok :=
          (if has_flag flags MSF_VALIDATECRC then
             let! header_crc := rd hb sw 4 28 buf in
             let! c := ms_crc32c hb (addr mod 4, zero_crc buf) reclen 0 in
             Ok (header_crc =? c)
           else Ok true) in
        if negb crcok then Err MS_INVALIDCRC
        else
          let! fver := getZ 2 buf in
          let! flg := getZ 3 buf in
          let! sid := sliceZ 40 sidlen buf in
          let! year := rd hb sw 2 8 buf in
          let! day := rd hb sw 2 10 buf in
          let! hour := getZ 12 buf in
          let! min := getZ 13 buf in
          let! sec := getZ 14 buf in
          let! nsec := rd hb sw 4 4 buf in
          let! start := time2nstime mode year day hour min sec nsec in
          if start =? NSTERROR then Err MS_GENERROR
          else
            let! enc := getZ 15 buf in
            let! rate := rd hb sw 8 16 buf in
            let! cnt := rd hb sw 4 24 buf in
            let! crc := rd hb sw 4 28 buf in
            let! pub := getZ 32 buf in
            let! extralen := rd hb sw 2 34 buf in
            let! extra := sliceZ (40 + sidlen) extralen buf in
            let! datalen := rd hb sw 4 36 buf in
            let swapp := if is_steim enc then negb hb else sw in
            let m := mk_msr reclen sw swapp fver flg (until0 sid) start rate enc pub cnt crc
                            extra datalen None in
            if has_flag flags MSF_UNPACKDATA && (0 <? cnt) then
              let! d := unpack_data hb mode addr (firstn (Z.to_nat reclen) buf) m in
              Ok (mk_msr reclen sw swapp fver flg (until0 sid) start rate enc pub cnt crc
                         extra datalen (Some d))
            else Ok m.

(** ** msr3_parse, parseutils.c:60-155 *)

(** [PHint n]: more data needed, [n] is the return value; [PRec m]: parsed. *)
Inductive parsed : Type := PHint (n : Z) | PRec (m : msr).

(** [unpack2] stands for msr3_unpack_mseed2, which is modelled separately. *)
Definition parse (unpack2 : list Z -> Z -> res msr) (hb : bool) (mode : ovmode) (addr flags : Z)
           (buf : list Z) : res parsed :=
  let recbuflen := Z.of_nat (length buf) in
  let! (fver, reclen0) := detect hb buf in
  let reclen :=
    if (fver =? 2) && (reclen0 =? 0) && has_flag flags MSF_ATENDOFFILE
       && (Z.land recbuflen (recbuflen - 1) =? 0) && (recbuflen <=? MAXRECLEN)
    then recbuflen else reclen0 in
  if reclen <? 0 then Err MS_NOTSEED
  else if reclen =? 0 then Ok (PHint MINRECLEN)
  else if (reclen <? MINRECLEN) || (MAXRECLEN <? reclen) then Err MS_OUTOFRANGE
  else if recbuflen <? reclen then
    let need := reclen - recbuflen in
    Ok (PHint (if MAXRECLEN <? need then MAXRECLEN else need))
  else if fver =? 3 then let! m := unpack3 hb mode addr flags buf reclen in Ok (PRec m)
  else if fver =? 2 then let! m := unpack2 buf reclen in Ok (PRec m)
  else Err MS_GENERROR.
