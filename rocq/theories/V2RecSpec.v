(** * The version 2 record layout, stated on its own (SEED 2.4 manual, chapter 8). *)

From Coq Require Import String QArith.
From Verif Require Export Base TimeSpec StrSpec ConvSpec RecSpec V2Model.
Open Scope Z_scope.

(** A field of [n] bytes in big-endian or little-endian order. *)
Definition ord (big : bool) (n : nat) (v : Z) : list Z := if big then be_bytes n v else le_bytes n v.

(** ** Times *)

(** A BTIME: the day counted from 1970-01-01, time of day, unused byte, 0.0001 seconds. *)
Record btime := mk_btime { b_day : Z; b_hour : Z; b_min : Z; b_sec : Z; b_unused : Z; b_fract : Z }.
Definition btime_bytes (big : bool) (b : btime) : list Z :=
  ord big 2 (d_year (day_at (b_day b))) ++ ord big 2 (d_yday (day_at (b_day b)))
  ++ [b_hour b; b_min b; b_sec b; b_unused b] ++ ord big 2 (b_fract b).
Definition btime_ns (b : btime) : Z := epoch_ns (b_day b) (b_hour b) (b_min b) (b_sec b) (b_fract b * 100000).
(** 1902-01-01T00:00:00 is the instant whose value is the error code. *)
Definition btime_ok (b : btime) : Prop :=
  1678 <= d_year (day_at (b_day b)) <= 2261 /\ 0 <= b_hour b <= 23 /\ 0 <= b_min b <= 59 /\ 0 <= b_sec b <= 60 /\
  0 <= b_unused b < 256 /\ 0 <= b_fract b <= 9999 /\ btime_ns b <> NSTERROR.

(** ** Texts *)

(** A text in a longer field, filled with spaces or zeros. *)
Record label := mk_label { l_text : list Z; l_fill : Z }.
Definition label_bytes (n : Z) (l : label) : list Z := l_text l ++ repeat (l_fill l) (Z.to_nat (n - lenZ (l_text l))).
Definition label_ok (n : Z) (l : label) : Prop :=
  Forall (fun c => 1 <= c <= 127) (l_text l) /\ (forall t, l_text l <> t ++ [32]) /\ (l_fill l = 32 \/ l_fill l = 0) /\
  lenZ (l_text l) <= n.

(** ** Blockettes *)

(** [amp], [per], [back], [rate], [vco] are bit patterns of floats, [dur], [between] in
    units of 0.0001 seconds. *)
Inductive blk :=
| B100 (rate : Z) (rest : list Z)
| B200 (amp per back fl res : Z) (onset : btime) (detector : label)
| B201 (amp per back fl res : Z) (onset : btime) (snr : list Z) (lookback pick : Z) (detector : label)
| B300 (t : btime) (steps fl dur between amp : Z) (channel : label) (res ref : Z) (coupling rolloff : label)
| B310 (t : btime) (res fl dur per amp : Z) (channel : label) (res2 ref : Z) (coupling rolloff : label)
| B320 (t : btime) (res fl dur amp : Z) (channel : label) (res2 ref : Z) (coupling rolloff noise : label)
| B390 (t : btime) (res fl dur amp : Z) (channel : label) (res2 : Z)
| B395 (t : btime) (rest : list Z)
| B400 (body : list Z)
| B500 (vco : Z) (t : btime) (us quality count : Z) (type model status : label)
| B1000 (enc order exp res : Z)
| B1001 (quality us res frames : Z)
| B2000 (body : list Z).

Definition blk_type (b : blk) : Z :=
  match b with
  | B100 _ _ => 100 | B200 _ _ _ _ _ _ _ => 200 | B201 _ _ _ _ _ _ _ _ _ _ => 201 | B300 _ _ _ _ _ _ _ _ _ _ _ => 300
  | B310 _ _ _ _ _ _ _ _ _ _ _ => 310 | B320 _ _ _ _ _ _ _ _ _ _ _ => 320 | B390 _ _ _ _ _ _ _ => 390
  | B395 _ _ => 395 | B400 _ => 400 | B500 _ _ _ _ _ _ _ _ => 500 | B1000 _ _ _ _ => 1000 | B1001 _ _ _ _ => 1001
  | B2000 _ => 2000
  end.

(** The bytes after type and link. *)
Definition blk_body (big : bool) (b : blk) : list Z :=
  match b with
  | B100 r rest => ord big 4 r ++ rest
  | B200 a p k fl res t det =>
    ord big 4 a ++ ord big 4 p ++ ord big 4 k ++ [fl; res] ++ btime_bytes big t ++ label_bytes 24 det
  | B201 a p k fl res t snr lb pk det =>
    ord big 4 a ++ ord big 4 p ++ ord big 4 k ++ [fl; res] ++ btime_bytes big t ++ snr ++ [lb; pk] ++ label_bytes 24 det
  | B300 t st fl d i a ch res rf cpl rol =>
    btime_bytes big t ++ [st; fl] ++ ord big 4 d ++ ord big 4 i ++ ord big 4 a ++ label_bytes 3 ch ++ [res]
    ++ ord big 4 rf ++ label_bytes 12 cpl ++ label_bytes 12 rol
  | B310 t res fl d p a ch res2 rf cpl rol =>
    btime_bytes big t ++ [res; fl] ++ ord big 4 d ++ ord big 4 p ++ ord big 4 a ++ label_bytes 3 ch ++ [res2]
    ++ ord big 4 rf ++ label_bytes 12 cpl ++ label_bytes 12 rol
  | B320 t res fl d a ch res2 rf cpl rol noi =>
    btime_bytes big t ++ [res; fl] ++ ord big 4 d ++ ord big 4 a ++ label_bytes 3 ch ++ [res2]
    ++ ord big 4 rf ++ label_bytes 12 cpl ++ label_bytes 12 rol ++ label_bytes 8 noi
  | B390 t res fl d a ch res2 =>
    btime_bytes big t ++ [res; fl] ++ ord big 4 d ++ ord big 4 a ++ label_bytes 3 ch ++ [res2]
  | B395 t rest => btime_bytes big t ++ rest
  | B400 body => body
  | B500 v t us q c ty mo cs =>
    ord big 4 v ++ btime_bytes big t ++ [us mod 256; q] ++ ord big 4 c ++ label_bytes 16 ty ++ label_bytes 32 mo
    ++ label_bytes 128 cs
  | B1000 enc bo e res => [enc; bo; e; res]
  | B1001 q us res fc => [q; us mod 256; res; fc]
  | B2000 body => ord big 2 (6 + lenZ body) ++ body
  end.

(** The fields fit their places.  Two texts of a 500 are terminated in their field. *)
Definition blk_ok (b : blk) : Prop :=
  bytes_ok (blk_body true b) /\
  match b with
  | B100 r rest => in_u 32 r /\ lenZ rest = 4
  | B200 a p k fl res t det => in_u 32 a /\ in_u 32 p /\ in_u 32 k /\ btime_ok t /\ label_ok 24 det
  | B201 a p k fl res t snr lb pk det =>
    in_u 32 a /\ in_u 32 p /\ in_u 32 k /\ btime_ok t /\ lenZ snr = 6 /\ label_ok 24 det
  | B300 t st fl d i a ch res rf cpl rol =>
    btime_ok t /\ in_u 32 d /\ in_u 32 i /\ in_u 32 a /\ label_ok 3 ch /\ in_u 32 rf /\ label_ok 12 cpl /\ label_ok 12 rol
  | B310 t res fl d p a ch res2 rf cpl rol =>
    btime_ok t /\ in_u 32 d /\ in_u 32 p /\ in_u 32 a /\ label_ok 3 ch /\ in_u 32 rf /\ label_ok 12 cpl /\ label_ok 12 rol
  | B320 t res fl d a ch res2 rf cpl rol noi =>
    btime_ok t /\ in_u 32 d /\ in_u 32 a /\ label_ok 3 ch /\ in_u 32 rf /\ label_ok 12 cpl /\ label_ok 12 rol /\ label_ok 8 noi
  | B390 t res fl d a ch res2 => btime_ok t /\ in_u 32 d /\ in_u 32 a /\ label_ok 3 ch
  | B395 t rest => btime_ok t /\ lenZ rest = 2
  | B400 body => lenZ body = 12
  | B500 v t us q c ty mo cs =>
    in_u 32 v /\ btime_ok t /\ in_s 8 us /\ in_u 32 c /\ label_ok 15 ty /\ l_fill ty = 0 /\ label_ok 32 mo /\
    label_ok 127 cs /\ l_fill cs = 0
  | B1000 enc bo e res => 0 <= e <= 30
  | B1001 q us res fc => in_s 8 us
  | B2000 body => lenZ body < 65000
  end.

(** What the text of a flag byte of an event or calibration says. *)
Definition bit (fl i : Z) : bool := Z.odd (fl / 2 ^ i).
Definition yes_or_unset (b : bool) : Z := if b then 1 else -1.
Definition how_triggered (fl : Z) : string := if bit fl 2 then "AUTOMATIC"%string else "MANUAL"%string.

(** The extra headers a blockette gives rise to, other than the timing quality. *)
Definition blk_ops (b : blk) : list ehop :=
  match b with
  | B200 a p k fl res t det =>
    [HDet (mk_detection "GENERIC" (l_text det) a p k
             (if bit fl 2 then if bit fl 0 then "DILATATION" else "COMPRESSION" else "")
             (if bit fl 1 then "DECONVOLVED" else "COUNTS") (btime_ns t) [0; 0; 0; 0; 0; 0] (-1) (-1))]
  | B201 a p k fl res t snr lb pk det =>
    [HDet (mk_detection "MURDOCK" (l_text det) a p k (if bit fl 0 then "DILATATION" else "COMPRESSION") ""
             (btime_ns t) snr lb pk)]
  | B300 t st fl d i a ch res rf cpl rol =>
    [HCal (mk_calibration "STEP" (btime_ns t) NSTERROR st (yes_or_unset (bit fl 0)) (yes_or_unset (bit fl 1))
             (how_triggered fl) (yes_or_unset (bit fl 3)) a "" d 0 i (l_text ch) rf (l_text cpl) (l_text rol) [])]
  | B310 t res fl d p a ch res2 rf cpl rol =>
    [HCal (mk_calibration "SINE" (btime_ns t) NSTERROR (-1) (-1) (-1) (how_triggered fl) (yes_or_unset (bit fl 3)) a
             (if bit fl 4 then "PEAKTOPEAK" else if bit fl 5 then "ZEROTOPEAK" else if bit fl 6 then "RMS" else "")
             d p 0 (l_text ch) rf (l_text cpl) (l_text rol) [])]
  | B320 t res fl d a ch res2 rf cpl rol noi =>
    [HCal (mk_calibration "PSEUDORANDOM" (btime_ns t) NSTERROR (-1) (-1) (-1) (how_triggered fl)
             (yes_or_unset (bit fl 3)) a (if bit fl 4 then "RANDOM" else "") d 0 0 (l_text ch) rf (l_text cpl)
             (l_text rol) (l_text noi))]
  | B390 t res fl d a ch res2 =>
    [HCal (mk_calibration "GENERIC" (btime_ns t) NSTERROR (-1) (-1) (-1) (how_triggered fl)
             (yes_or_unset (bit fl 3)) a "" d 0 0 (l_text ch) 0 [] [] [])]
  | B395 t rest =>
    [HCal (mk_calibration "ABORT" NSTERROR (btime_ns t) (-1) (-1) (-1) "" (-1) 0 "" 0 0 0 [] 0 [] [] [])]
  | B500 v t us q c ty mo cs =>
    [HExc (mk_timing (btime_ns t + us * 1000) v q c (l_text ty) (l_text cs)); HStr "/FDSN/Clock/Model" (l_text mo)]
  | _ => []
  end%string.

(** ** The record *)

Record hdr2 := mk_hdr2 {
  f_seq : list Z; f_quality : Z; f_reserved : Z; f_sta : list Z; f_loc : list Z; f_chan : Z * Z * Z; f_net : list Z;
  f_start : btime; f_cnt : Z; f_fact : Z; f_mult : Z; f_act : Z; f_io : Z; f_dq : Z; f_nblk : Z; f_corr : Z;
  f_data : Z }.

(** The fixed header, with the offset [first] of the first blockette. *)
Definition fixed2 (big : bool) (h : hdr2) (first : Z) : list Z :=
  f_seq h ++ [f_quality h; f_reserved h] ++ f_sta h ++ f_loc h
  ++ (let '(a, b, c) := f_chan h in [a; b; c]) ++ f_net h
  ++ btime_bytes big (f_start h) ++ ord big 2 (f_cnt h) ++ ord big 2 (f_fact h) ++ ord big 2 (f_mult h)
  ++ [f_act h; f_io h; f_dq h; f_nblk h] ++ ord big 4 (f_corr h) ++ ord big 2 (f_data h) ++ ord big 2 first.

(** Blockettes in a chain from offset [at_] on, each followed by some unused bytes. *)
Definition blk_size (b : blk) : Z := 4 + lenZ (blk_body true b).
Fixpoint chain_bytes (big : bool) (at_ : Z) (bs : list (blk * list Z)) : list Z :=
  match bs with
  | [] => []
  | (b, gap) :: bs' =>
    let next := at_ + blk_size b + lenZ gap in
    ord big 2 (blk_type b) ++ ord big 2 (match bs' with [] => 0 | _ => next end) ++ blk_body big b ++ gap
    ++ chain_bytes big next bs'
  end.

Definition chain_ok (bs : list (blk * list Z)) : Prop := Forall (fun p => blk_ok (fst p) /\ bytes_ok (snd p)) bs.

(** [lead] are the bytes between the header and the first blockette, [rest] those after
    the last, with the data. *)
Definition layout2 (big : bool) (h : hdr2) (lead : list Z) (bs : list (blk * list Z)) (rest : list Z) : list Z :=
  let first := 48 + lenZ lead in
  fixed2 big h (match bs with [] => 0 | _ => first end) ++ lead ++ chain_bytes big first bs ++ rest.

Definition digit_or_blank (c : Z) : Prop := 48 <= c <= 57 \/ c = 32 \/ c = 0.
Definition hdr2_ok (h : hdr2) : Prop :=
  lenZ (f_seq h) = 6 /\ Forall digit_or_blank (f_seq h) /\ In (f_quality h) [68; 82; 81; 77] /\
  (f_reserved h = 32 \/ f_reserved h = 0) /\ lenZ (f_sta h) = 5 /\ lenZ (f_loc h) = 2 /\ lenZ (f_net h) = 2 /\
  Forall (fun c => 1 <= c <= 127) (f_sta h ++ f_loc h ++ (let '(a, b, c) := f_chan h in [a; b; c]) ++ f_net h) /\
  btime_ok (f_start h) /\ in_u 16 (f_cnt h) /\ in_s 16 (f_fact h) /\ in_s 16 (f_mult h) /\ in_u 8 (f_act h) /\
  in_u 8 (f_io h) /\ in_u 8 (f_dq h) /\ in_u 8 (f_nblk h) /\ in_s 32 (f_corr h) /\ in_u 16 (f_data h).

(** The byte order the library sees: the one of the host if the year and day make sense
    in it, else the other one. *)
Definition plausible (y d : Z) : Prop := 1900 <= y <= 2100 /\ 1 <= d <= 366.
Definition exchanged (v : Z) : Z := v mod 256 * 256 + v / 256.
Definition order_seen (hb big : bool) (h : hdr2) : Prop :=
  let d := day_at (b_day (f_start h)) in
  if Bool.eqb hb big then plausible (d_year d) (d_yday d) else ~ plausible (exchanged (d_year d)) (exchanged (d_yday d)).

(** The last blockette of a kind decides. *)
Fixpoint last_of {A} (f : blk -> option A) (bs : list (blk * list Z)) : option A :=
  match bs with
  | [] => None
  | (b, _) :: bs' => match last_of f bs' with Some x => Some x | None => f b end
  end.
Definition or_else {A} (o : option A) (d : A) : A := match o with Some x => x | None => d end.

(** The extra headers stated by bits of the fixed header, in the order they are added. *)
Definition flag_ops (h : hdr2) : list ehop :=
  let on b i (o : ehop) := if bit b i then [o] else [] in
  concat
    [on (f_act h) 2 (HBool "/FDSN/Event/Begin"); on (f_act h) 3 (HBool "/FDSN/Event/End");
     on (f_act h) 4 (HInt "/FDSN/Time/LeapSecond" 1); on (f_act h) 5 (HInt "/FDSN/Time/LeapSecond" (-1));
     on (f_act h) 6 (HBool "/FDSN/Event/InProgress");
     on (f_io h) 0 (HBool "/FDSN/Flags/StationVolumeParityError"); on (f_io h) 1 (HBool "/FDSN/Flags/LongRecordRead");
     on (f_io h) 2 (HBool "/FDSN/Flags/ShortRecordRead"); on (f_io h) 3 (HBool "/FDSN/Flags/StartOfTimeSeries");
     on (f_io h) 4 (HBool "/FDSN/Flags/EndOfTimeSeries");
     on (f_dq h) 0 (HBool "/FDSN/Flags/AmplifierSaturation"); on (f_dq h) 1 (HBool "/FDSN/Flags/DigitizerClipping");
     on (f_dq h) 2 (HBool "/FDSN/Flags/Spikes"); on (f_dq h) 3 (HBool "/FDSN/Flags/Glitches");
     on (f_dq h) 4 (HBool "/FDSN/Flags/MissingData"); on (f_dq h) 5 (HBool "/FDSN/Flags/TelemetrySyncError");
     on (f_dq h) 6 (HBool "/FDSN/Flags/FilterCharging");
     if f_corr h =? 0 then [] else [HNum "/FDSN/Time/Correction" (f_corr h)]].

(** The decimal digits of a byte and the text that states a timing quality. *)
Definition byte_decimal (q : Z) : list Z :=
  if q <? 10 then [48 + q] else skipn (if q <? 100 then 1 else 0) [48 + q / 100; 48 + q / 10 mod 10; 48 + q mod 10].
Definition quality_doc (q : Z) : list Z := chars "{""FDSN"":{""Time"":{""Quality"":" ++ byte_decimal q ++ chars "}}}".

(** The extra headers of a chain: a timing quality that nothing precedes is written as a
    text of its own (the last one counts), everything else is requested in order. *)
Fixpoint chain_ops (text : option (list Z)) (ops : list ehop) (bs : list (blk * list Z)) : option (list Z) * list ehop :=
  match bs with
  | [] => (text, ops)
  | (B1001 q _ _ _, _) :: bs' =>
    match ops with
    | [] => chain_ops (Some (quality_doc q)) [] bs'
    | _ => chain_ops text (ops ++ [HInt "/FDSN/Time/Quality" q]) bs'
    end
  | (b, _) :: bs' => chain_ops text (ops ++ blk_ops b) bs'
  end.
Definition extra_text (J : json) (h : hdr2) (bs : list (blk * list Z)) : list Z :=
  match chain_ops None (flag_ops h) bs with
  | (text, []) => or_else text []
  | (text, ops) => j_text J text ops
  end.
(** No function that adds an event, calibration or timing exception fails. *)
Definition headers_accepted (J : json) : Prop := forall text ops, j_fail J text ops = false.

(** The nominal rate of factor and multiplier, samples per second. *)
Definition nominal (f m : Z) : Q :=
  ((if 0 <? f then inject_Z f else if f <? 0 then / inject_Z (- f) else 0)
   * (if 0 <? m then inject_Z m else if m <? 0 then / inject_Z (- m) else 1))%Q.
(** The pattern [r] is the rate of the record: that of the last blockette 100, otherwise
    the nominal rate, exact for positive factor and multiplier. *)
Definition rate_ok (h : hdr2) (bs : list (blk * list Z)) (r : Z) : Prop :=
  match last_of (fun b => match b with B100 w _ => Some w | _ => None end) bs with
  | Some w => same_value w r
  | None =>
    exists v, dval r = DFin v /\ (Qabs.Qabs (v - nominal (f_fact h) (f_mult h)) <= nominal (f_fact h) (f_mult h) * (1 # 2 ^ 51))%Q
      /\ (0 < f_fact h -> 0 < f_mult h -> (v == inject_Z (f_fact h * f_mult h))%Q)
  end.

(** Start time: the header time, the correction unless applied already, the microseconds. *)
Definition start2 (h : hdr2) (bs : list (blk * list Z)) : Z :=
  btime_ns (f_start h) + (if bit (f_act h) 1 then 0 else f_corr h * 100000)
  + or_else (last_of (fun b => match b with B1001 _ us _ _ => Some (us * 1000) | _ => None end) bs) 0.
Definition version_of (quality : Z) : Z :=
  match quality with 82 => 1 | 68 => 2 | 81 => 3 | _ => 4 end.
Definition sid2 (h : hdr2) : list Z :=
  let '(a, b, c) := f_chan h in
  sid_text (no_spaces (f_net h)) (no_spaces (f_sta h)) (no_spaces (f_loc h)) [a; 95; b; 95; c].

(** The parsed record; [len] is the length given to the parser, [rate] its rate. *)
Definition rec2_of (J : json) (hb big : bool) (h : hdr2) (bs : list (blk * list Z)) (len rate : Z) : msr :=
  let reclen := or_else (last_of (fun b => match b with B1000 _ _ e _ => Some (2 ^ e) | _ => None end) bs) len in
  mk_msr reclen (negb (Bool.eqb hb big))
         (negb (Bool.eqb hb (or_else (last_of (fun b => match b with B1000 _ o _ _ => Some (negb (o =? 0)) | _ => None end) bs) big)))
         2 ((if bit (f_act h) 0 then 1 else 0) + (if bit (f_dq h) 7 then 2 else 0) + (if bit (f_io h) 5 then 4 else 0))
         (sid2 h) (start2 h bs) rate
         (or_else (last_of (fun b => match b with B1000 enc _ _ _ => Some enc | _ => None end) bs) (-1))
         (version_of (f_quality h)) (f_cnt h) 0 (extra_text J h bs)
         (if f_data h =? 0 then 0 else (reclen - f_data h) mod 2 ^ 32) None.

(** ** Length and samples *)

(** There is a blockette 1000, and each states this length. *)
Definition is_b1000 (b : blk) : Prop := match b with B1000 _ _ _ _ => True | _ => False end.
Definition states_length (len : Z) (bs : list (blk * list Z)) : Prop :=
  Exists (fun p => is_b1000 (fst p)) bs /\ Forall (fun p => match fst p with B1000 _ _ e _ => 2 ^ e = len | _ => True end) bs.

Definition with_samples (m : msr) (d : samples) : msr :=
  mk_msr (m_reclen m) (m_swaph m) (m_swapp m) (m_fver m) (m_flags m) (m_sid m) (m_start m) (m_rate m) (m_enc m) (m_pub m)
         (m_cnt m) (m_crc m) (m_extra m) (m_datalen m) (Some d).

(** The encodings with samples of a fixed size: text, 16 and 32-bit integers, floats and
    doubles (bit patterns). *)
Definition sample_width (enc : Z) : nat := match enc with 0 => 1 | 1 => 2 | 3 | 4 => 4 | _ => 8 end.
Definition sample_fits (enc v : Z) : Prop :=
  match enc with
  | 0 => in_u 8 v | 1 => in_s 16 v | 3 => in_s 32 v | 4 => in_u 32 v | 5 => in_u 64 v
  | _ => False
  end.
Definition samples_stored (big : bool) (enc : Z) (vs : list Z) : list Z := concat (map (ord big (sample_width enc)) vs).
(** The last blockette 1000. *)
Definition last_1000 (bs : list (blk * list Z)) : option (Z * bool * Z) :=
  last_of (fun b => match b with B1000 enc o e _ => Some (enc, negb (o =? 0), 2 ^ e) | _ => None end) bs.

(** A record with its header in byte order [big], followed by the bytes [more] in memory:
    every part fits, the offsets are those of 16 bits and there is a byte after the chain. *)
Definition well_formed (big : bool) (h : hdr2) (lead : list Z) (bs : list (blk * list Z)) (rest more : list Z) : Prop :=
  hdr2_ok h /\ chain_ok bs /\ bytes_ok lead /\ bytes_ok rest /\ bytes_ok more /\ 0 < lenZ rest + lenZ more /\
  64 <= lenZ (layout2 big h lead bs rest) <= MAXRECLEN /\
  48 + lenZ lead + lenZ (chain_bytes big (48 + lenZ lead) bs) < 65536.
(** [vs] are stored at the data offset in the encoding and order the last blockette 1000
    states, with the record length; [rest] is what follows the chain. *)
Definition holds_samples (big : bool) (h : hdr2) (lead : list Z) (bs : list (blk * list Z)) (rest : list Z) (vs : list Z) : Prop :=
  exists gap enc ob tail,
    rest = gap ++ samples_stored ob enc vs ++ tail /\ vs <> [] /\ Forall (sample_fits enc) vs /\
    f_cnt h = lenZ vs /\ f_data h = 48 + lenZ lead + lenZ (chain_bytes big (48 + lenZ lead) bs) + lenZ gap /\
    last_1000 bs = Some (enc, ob, lenZ (layout2 big h lead bs rest)) /\ lenZ (samples_stored ob enc vs) < 65536.
