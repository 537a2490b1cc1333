(** * Model of the version 2 header with extra headers.

    msr3_pack_header2, libmseed/pack.c:857-1602, for a record with extra headers, and
    ms_timestr2btime, pack.c:2092-2129.  [pack_header2] of Pack2Model is the same function for a
    record without any.

    Extra headers are a tree as in EhModel; reading their text is the argument [rd].  A
    blockette is computed as a whole and written once (the code clears it and writes its fields
    one by one); links, counts and flags are written when the code writes them, several bits at
    once.  Log messages and the release of the document are left out. *)

From Coq Require Import String.
From Verif Require Import TimeStrModel EhModel.
From Verif Require Export Base RecModel PackModel SampleModel StrModel V2Model TlModel Pack2Model.
Open Scope Z_scope.
Open Scope list_scope.

(** ** Queries *)

(** yyjson_ptr_get_str, _num, _uint and _bool, yyjson.h: the value at a pointer if it is of the
    type.  A string is what the C functions see of it; a number is its bit pattern as a double. *)
Definition str_at (v : option jv) (p : string) : option (list Z) :=
  match doc_get v (zs p) with Some (JStr s) => Some (until0 s) | _ => None end.
Definition num_of (v : jv) : option Z :=
  match v with JReal b => Some b | JInt i => Some (dbits (dofz i)) | _ => None end.
Definition num_at (v : option jv) (p : string) : option Z :=
  match doc_get v (zs p) with Some w => num_of w | None => None end.
Definition uint_at (v : option jv) (p : string) : option Z :=
  match doc_get v (zs p) with Some (JInt i) => if 0 <=? i then Some i else None | _ => None end.
Definition bool_at (v : option jv) (p : string) : bool :=
  match doc_get v (zs p) with Some (JBool b) => b | _ => false end.

(** strncasecmp (s, "P", strlen ("P")) == 0 for an upper case P. *)
Fixpoint caseless (p s : list Z) : bool :=
  match p, s with
  | [], _ => true
  | a :: p', b :: s' => (a =? (if (97 <=? b) && (b <=? 122) then b - 32 else b)) && caseless p' s'
  | _, [] => false
  end.
Definition says_ (v : option jv) (p : string) (w : string) : bool :=
  match str_at v p with Some s => caseless (zs w) s | None => false end.

(** ** Fields *)

(** Conversions of a double to integers: undefined out of range. *)
Definition to_uint (w : Z) (x : dbl) : res Z :=
  match x with
  | DFin q => let v := qtrunc q in if in_ub w v then Ok v else UB SignedOverflow
  | _ => UB SignedOverflow
  end.
(** (uint32_t)(x * 10000 + 0.5) and (uint32_t)(x + 0.5) of a member, 0 without it. *)
Definition scaled (b : Z) : dbl := dadd (dmul (dval b) (dofz 10000)) dhalf.
Definition f_scaled (hb : bool) (o : option Z) : res (list Z) :=
  match o with Some b => let! u := to_uint 32 (scaled b) in Ok (be hb 4 u) | None => Ok [0; 0; 0; 0] end.
Definition f_round (hb : bool) (o : option Z) : res (list Z) :=
  match o with Some b => let! u := to_uint 32 (dadd (dval b) dhalf) in Ok (be hb 4 u) | None => Ok [0; 0; 0; 0] end.
(** A float. *)
Definition f_float (hb : bool) (o : option Z) : list Z :=
  match o with Some b => be hb 4 (double_to_float b) | None => [0; 0; 0; 0] end.
(** ms_strncpopen into a cleared field. *)
Definition f_open (n : Z) (o : option (list Z)) : res (list Z) :=
  match o with
  | Some s => let! (d, _) := strncpopen (repeat 0 (Z.to_nat n)) (Some (s ++ [0])) n in Ok d
  | None => Ok (repeat 0 (Z.to_nat n))
  end.
(** An unsigned number of at most [max]. *)
Definition f_upto (max : Z) (o : option Z) : Z := match o with Some u => if u <=? max then u else 0 | None => 0 end.
(** ms_timestr2btime: the ten bytes and the nanoseconds. *)
Definition f_btime (hb : bool) (mode : ovmode) (o : option (list Z)) : res (list Z * Z) :=
  match o with
  | None => Ok (repeat 0 10, 0)
  | Some s =>
    let! t := timestr2nstime mode s in
    if t =? NSTERROR then Err (-1)
    else match nstime2time t with
         | UB u => UB u
         | Fuel => Fuel
         | Err _ => Err (-1)
         | Ok f =>
           let '(year, day, hour, min, sec, nsec) := f in
           Ok (be hb 2 year ++ be hb 2 day ++ [hour; min; sec; 0] ++ be hb 2 (nsec / 100000), nsec)
         end
  end.

(** ** Blockettes *)

(** What follows the type and the link.  Blockette 500, pack.c:1185-1230. *)
Definition body500 (hb : bool) (mode : ovmode) (root : option jv) (v : jv) : res (list Z) :=
  let o := Some v in
  let! (t, nsec) := f_btime hb mode (str_at o "/Time") in
  let us := uwrap 8 (nsec / 1000 - nsec / 100000 * 100) in
  let! ty := f_open 16 (str_at o "/Type") in
  let! mo := f_open 32 (str_at root "/FDSN/Clock/Model") in
  let! cs := f_open 128 (str_at o "/ClockStatus") in
  Ok (f_float hb (num_at o "/VCOCorrection") ++ t ++ [us; f_upto 255 (uint_at o "/ReceptionQuality")]
      ++ be hb 4 (f_upto (2 ^ 32 - 1) (uint_at o "/Count")) ++ ty ++ mo ++ cs).

(** The part blockettes 200 and 201 share, pack.c:1271-1310. *)
Definition body20x (hb : bool) (mode : ovmode) (murdock : bool) (v : jv) : res (list Z) :=
  let o := Some v in
  let wave := match str_at o "/Wave" with
              | Some w => if caseless (zs "DILATATION") w then 1 else 0
              | None => if murdock then 0 else 4
              end in
  let units := match str_at o "/Units" with
               | Some u => if negb murdock && negb (caseless (zs "COUNT") u) then 2 else 0
               | None => 0
               end in
  let! (t, _) := f_btime hb mode (str_at o "/OnsetTime") in
  Ok (f_float hb (num_at o "/SignalAmplitude") ++ f_float hb (num_at o "/SignalPeriod")
      ++ f_float hb (num_at o "/BackgroundEstimate") ++ [wave + units; 0] ++ t).
(** Blockette 200, pack.c:1312-1316. *)
Definition body200 (hb : bool) (mode : ovmode) (v : jv) : res (list Z) :=
  let! a := body20x hb mode false v in
  let! d := f_open 24 (str_at (Some v) "/Detector") in
  Ok (a ++ d).

(** The numbers of an array as uint8_t, pack.c:1326-1336. *)
Fixpoint snr_bytes (l : list jv) : res (list Z) :=
  match l with
  | [] => Ok []
  | v :: l' =>
    match num_of v with
    | None => snr_bytes l'
    | Some b => let! u := to_uint 8 (dval b) in let! r := snr_bytes l' in Ok (u :: r)
    end
  end.
(** [x] in place of the bytes from [i] on. *)
Definition over (i : nat) (x b : list Z) : list Z := firstn i b ++ x ++ skipn (i + List.length x) b.
(** Blockette 201, pack.c:1317-1348.  All numbers of MEDSNR are stored, also beyond the six
    bytes for them and beyond the blockette. *)
Definition body201 (hb : bool) (mode : ovmode) (v : jv) : res (list Z) :=
  let o := Some v in
  let! a := body20x hb mode true v in
  let! snr := (match doc_get o (zs "/MEDSNR") with Some (JArr l) => snr_bytes l | _ => Ok [] end) in
  let b := over 0 snr (repeat 0 32) in
  let b := match uint_at o "/MEDLookback" with Some u => if u <? 255 then over 6 [u] b else b | None => b end in
  let b := match uint_at o "/MEDPickAlgorithm" with Some u => if u <? 255 then over 7 [u] b else b | None => b end in
  let! b := (match str_at o "/Detector" with Some s => let! d := f_open 24 (Some s) in Ok (over 8 d b) | None => Ok b end) in
  Ok (a ++ b).

Definition on (b : bool) (w : Z) : Z := if b then w else 0.
(** Blockettes 300, 310, 320 and 390, pack.c:1417-1560. *)
Definition body300 (hb : bool) (mode : ovmode) (v : jv) : res (list Z) :=
  let o := Some v in
  let! (t, _) := f_btime hb mode (str_at o "/BeginTime") in
  let fl := on (bool_at o "/StepFirstPulsePositive") 1 + on (bool_at o "/StepAlternateSign") 2
            + on (says_ o "/Trigger" "AUTOMATIC") 4 + on (bool_at o "/Continued") 8 in
  let! dur := f_scaled hb (num_at o "/Duration") in
  let! btw := f_scaled hb (num_at o "/StepBetween") in
  let! ch := f_open 3 (str_at o "/InputChannel") in
  let! ref := f_round hb (num_at o "/ReferenceAmplitude") in
  let! cpl := f_open 12 (str_at o "/Coupling") in
  let! rol := f_open 12 (str_at o "/Rolloff") in
  Ok (t ++ [f_upto 255 (uint_at o "/Steps"); fl] ++ dur ++ btw ++ f_float hb (num_at o "/Amplitude") ++ ch ++ [0]
      ++ ref ++ cpl ++ rol).
Definition body310 (hb : bool) (mode : ovmode) (v : jv) : res (list Z) :=
  let o := Some v in
  let! (t, _) := f_btime hb mode (str_at o "/BeginTime") in
  let fl := on (says_ o "/Trigger" "AUTOMATIC") 4 + on (bool_at o "/Continued") 8
            + on (says_ o "/AmplitudeRange" "PEAKTOPEAK") 16 + on (says_ o "/AmplitudeRange" "ZEROTOPEAK") 32
            + on (says_ o "/AmplitudeRange" "RMS") 64 in
  let! dur := f_scaled hb (num_at o "/Duration") in
  let! ch := f_open 3 (str_at o "/InputChannel") in
  let! ref := f_round hb (num_at o "/ReferenceAmplitude") in
  let! cpl := f_open 12 (str_at o "/Coupling") in
  let! rol := f_open 12 (str_at o "/Rolloff") in
  Ok (t ++ [0; fl] ++ dur ++ f_float hb (num_at o "/SinePeriod") ++ f_float hb (num_at o "/Amplitude") ++ ch ++ [0]
      ++ ref ++ cpl ++ rol).
Definition body320 (hb : bool) (mode : ovmode) (v : jv) : res (list Z) :=
  let o := Some v in
  let! (t, _) := f_btime hb mode (str_at o "/BeginTime") in
  let fl := on (says_ o "/Trigger" "AUTOMATIC") 4 + on (bool_at o "/Continued") 8
            + on (says_ o "/AmplitudeRange" "RANDOM") 16 in
  let! dur := f_scaled hb (num_at o "/Duration") in
  let! ch := f_open 3 (str_at o "/InputChannel") in
  let! ref := f_round hb (num_at o "/ReferenceAmplitude") in
  let! cpl := f_open 12 (str_at o "/Coupling") in
  let! rol := f_open 12 (str_at o "/Rolloff") in
  let! noi := f_open 8 (str_at o "/Noise") in
  Ok (t ++ [0; fl] ++ dur ++ f_float hb (num_at o "/Amplitude") ++ ch ++ [0] ++ ref ++ cpl ++ rol ++ noi).
Definition body390 (hb : bool) (mode : ovmode) (v : jv) : res (list Z) :=
  let o := Some v in
  let! (t, _) := f_btime hb mode (str_at o "/BeginTime") in
  let fl := on (says_ o "/Trigger" "AUTOMATIC") 4 + on (bool_at o "/Continued") 8 in
  let! dur := f_scaled hb (num_at o "/Duration") in
  let! ch := f_open 3 (str_at o "/InputChannel") in
  Ok (t ++ [0; fl] ++ dur ++ f_float hb (num_at o "/Amplitude") ++ ch ++ [0]).
(** Blockette 395, pack.c:1562-1593. *)
Definition body395 (hb : bool) (mode : ovmode) (v : jv) : res (list Z) :=
  let! (t, _) := f_btime hb mode (str_at (Some v) "/EndTime") in Ok (t ++ [0; 0]).

(** The record so far: the buffer, [written], the offset of [next_blockette], the number of
    blockettes. *)
Record pst := mk_pst { q_buf : list Z; q_written : Z; q_next : Z; q_count : Z }.
(** Not [recbuflen - written < length]; the difference is unsigned. *)
Definition fits (recbuflen : Z) (st : pst) (len : Z) : bool := negb (uwrap 32 (recbuflen - q_written st) <? len).
(** The link of the last blockette, the count and a blockette. *)
Definition add_blk (hb : bool) (type len : Z) (body : res (list Z)) (st : pst) : res pst :=
  let count := uwrap 8 (q_count st + 1) in
  let! b := put (q_next st) (be hb 2 (uwrap 16 (q_written st))) (q_buf st) in
  let! b := put 39 [count] b in
  let! bytes := body in
  let! b := put (q_written st) (be hb 2 type ++ [0; 0] ++ bytes) b in
  Ok (mk_pst b (q_written st + len) (q_written st + 2) count).
Definition checked (recbuflen : Z) (hb : bool) (type len : Z) (body : res (list Z)) (st : pst) : res pst :=
  if fits recbuflen st len then add_blk hb type len body st else Err (-1).

(** The loops over the three arrays, pack.c:1163-1232, 1235-1352, 1356-1595. *)
Definition add_exception (recbuflen : Z) (hb : bool) (mode : ovmode) (root : option jv) (v : jv) (st : pst) : res pst :=
  checked recbuflen hb 500 200 (body500 hb mode root v) st.
Definition add_detection (recbuflen : Z) (hb : bool) (mode : ovmode) (v : jv) (st : pst) : res pst :=
  if says_ (Some v) "/Type" "MURDOCK" then checked recbuflen hb 201 60 (body201 hb mode v) st
  else checked recbuflen hb 200 52 (body200 hb mode v) st.
Definition add_end (recbuflen : Z) (hb : bool) (mode : ovmode) (v : jv) (st : pst) : res pst :=
  match str_at (Some v) "/EndTime" with
  | Some _ => checked recbuflen hb 395 16 (body395 hb mode v) st
  | None => Ok st
  end.
Definition add_calibration (recbuflen : Z) (hb : bool) (mode : ovmode) (v : jv) (st : pst) : res pst :=
  match str_at (Some v) "/Type" with
  | Some s =>
    let! st :=
      (if caseless (zs "STEP") s then checked recbuflen hb 300 60 (body300 hb mode v) st
       else if caseless (zs "SINE") s then checked recbuflen hb 310 60 (body310 hb mode v) st
       else if caseless (zs "PSEUDORANDOM") s then checked recbuflen hb 320 64 (body320 hb mode v) st
       else if caseless (zs "GENERIC") s then checked recbuflen hb 390 28 (body390 hb mode v) st
       else Err (-1)) in
    add_end recbuflen hb mode v st
  | None =>
    match doc_get (Some v) (zs "/EndTime") with
    | None => Err (-1)
    | Some _ => if fits recbuflen st 16 then add_end recbuflen hb mode v st else Err (-1)
    end
  end.
(** The objects of an array; other elements are skipped. *)
Fixpoint each (f : jv -> pst -> res pst) (l : list jv) (st : pst) : res pst :=
  match l with
  | [] => Ok st
  | v :: l' => match v with JObj _ => let! st := f v st in each f l' st | _ => each f l' st end
  end.
Definition each_at (root : option jv) (p : string) (f : jv -> pst -> res pst) (st : pst) : res pst :=
  match doc_get root (zs p) with Some (JArr l) => each f l st | _ => Ok st end.

(** ** The header *)

(** Data quality, pack.c:990-1014; [MS2_ISDATAINDICATOR], mseedformat.h. *)
Definition quality_at (root : option jv) (pub : Z) : Z :=
  match str_at root "/FDSN/DataQuality" with
  | Some s => let c := hd 0 s in if (c =? 68) || (c =? 82) || (c =? 81) || (c =? 77) then c else quality_of pub
  | None => quality_of pub
  end.
(** The flags, pack.c:1033-1101. *)
Definition act_at (root : option jv) (flags : Z) : Z :=
  on (Z.testbit flags 0) 1 + on (match num_at root "/FDSN/Time/Correction" with Some _ => true | None => false end) 2
  + on (bool_at root "/FDSN/Event/Begin") 4 + on (bool_at root "/FDSN/Event/End") 8
  + match num_at root "/FDSN/Time/LeapSecond" with
    | Some b => if dlt dzero (dval b) then 16 else if dlt (dval b) dzero then 32 else 0
    | None => 0
    end
  + on (bool_at root "/FDSN/Event/InProgress") 64.
Definition io_at (root : option jv) (flags : Z) : Z :=
  on (bool_at root "/FDSN/Flags/StationVolumeParityError") 1 + on (bool_at root "/FDSN/Flags/LongRecordRead") 2
  + on (bool_at root "/FDSN/Flags/ShortRecordRead") 4 + on (bool_at root "/FDSN/Flags/StartOfTimeSeries") 8
  + on (bool_at root "/FDSN/Flags/EndOfTimeSeries") 16 + on (Z.testbit flags 2) 32.
Definition dq_at (root : option jv) (flags : Z) : Z :=
  on (bool_at root "/FDSN/Flags/AmplifierSaturation") 1 + on (bool_at root "/FDSN/Flags/DigitizerClipping") 2
  + on (bool_at root "/FDSN/Flags/Spikes") 4 + on (bool_at root "/FDSN/Flags/Glitches") 8
  + on (bool_at root "/FDSN/Flags/MissingData") 16 + on (bool_at root "/FDSN/Flags/TelemetrySyncError") 32
  + on (bool_at root "/FDSN/Flags/FilterCharging") 64 + on (Z.testbit flags 1) 128.
(** The time correction, pack.c:1089-1101. *)
Definition corr_at (root : option jv) : res Z :=
  match num_at root "/FDSN/Time/Correction" with Some b => to_int (scaled b) | None => Ok 0 end.

(** msr3_pack_header2, pack.c:857-1602: the buffer and the header size.  [stack] is the initial
    content of the four local arrays of 64 bytes. *)
Definition pack_header2x (rd : list Z -> option jv) (hb : bool) (mode : ovmode) (stack : list Z) (recbuflen : Z)
    (m : msr) (buf : list Z) : res (list Z * Z) :=
  let reclen := if m_reclen m <? 0 then 4096 else m_reclen m in
  let encoding := uwrap 8 (if m_enc m <? 0 then 11 else m_enc m) in
  if (reclen <? 128) || (MAXRECLEN <? reclen) then Err (-1)
  else if negb (Z.land reclen (reclen - 1) =? 0) then Err (-1)
  else
    let! e := exp_loop 64 1 1 reclen in
    let! codes := sid2nslc (m_sid m) (mk_nslc (Some stack) (Some stack) (Some stack) (Some stack)) in
    let arr o := match o with Some b => text_of b | None => UB NullDeref end in
    let! net := arr (o_net codes) in
    let! sta := arr (o_sta codes) in
    let! loc := arr (o_loc codes) in
    let! chan := arr (o_chan codes) in
    let len (l : list Z) := Z.of_nat (List.length l) in
    if (2 <? len net) || (5 <? len sta) || (2 <? len loc) || negb (len chan =? 3) then Err (-1)
    else
      match nstime2time (m_start m) with
      | UB u => UB u
      | Fuel => Fuel
      | Err _ => Err (-1)
      | Ok t =>
        let '(year, day, hour, min, sec, nsec) := t in
        let fsec := nsec / 100000 in
        let us := swrap 8 (nsec / 1000 - fsec * 100) in
        let! (factor, multiplier) := genfactmult mode (sampratehz (m_rate m)) in
        let! root := (match m_extra m with
                      | [] => Ok None
                      | x => match rd x with Some j => Ok (Some j) | None => Err (-1) end
                      end) in
        let! b := put 0 [48; 48; 48; 48; 48; 48] buf in
        let! b := put 6 [quality_at root (m_pub m); 32] b in
        let! b := put_open 8 (sta ++ [0]) 5 b in
        let! b := put_open 13 (loc ++ [0]) 2 b in
        let! b := put_open 15 (chan ++ [0]) 3 b in
        let! b := put_open 18 (net ++ [0]) 2 b in
        let! b := put_time2 hb t b in
        let! b := put 27 [0] b in
        let! b := put 30 [0; 0] b in
        let! b := put 32 (be hb 2 factor) b in
        let! b := put 34 (be hb 2 multiplier) b in
        let! corr := corr_at root in
        let! b := put 36 [act_at root (m_flags m); io_at root (m_flags m); dq_at root (m_flags m); 1] b in
        let! b := put 40 (be hb 4 corr ++ [0; 0]) b in
        let! b := put 46 (be hb 2 48) b in
        let! b := put 48 (be hb 2 1000 ++ [0; 0] ++ [encoding; 1; uwrap 8 e; 0]) b in
        let st := mk_pst b 56 50 1 in
        let! st := (match uint_at root "/FDSN/Time/Quality" with
                    | Some q => add_blk hb 1001 8 (Ok [f_upto 255 (Some q); uwrap 8 us; 0; 0]) st
                    | None => if us =? 0 then Ok st else add_blk hb 1001 8 (Ok [0; uwrap 8 us; 0; 0]) st
                    end) in
        let! st := (if dlt d_1em4 (dabs (dsub (sampratehz (m_rate m)) (nomsamprate factor multiplier)))
                    then add_blk hb 100 12 (Ok (be hb 4 (double_to_float (m_rate m)) ++ [0; 0; 0; 0])) st else Ok st) in
        let! st := each_at root "/FDSN/Time/Exception" (add_exception recbuflen hb mode root) st in
        let! st := each_at root "/FDSN/Event/Detection" (add_detection recbuflen hb mode) st in
        let! st := each_at root "/FDSN/Calibration/Sequence" (add_calibration recbuflen hb mode) st in
        Ok (q_buf st, q_written st)
      end.
