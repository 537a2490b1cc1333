(** * What a version 2 header states of the extra headers.

    Which blockettes and bits stand for which members of the extra headers, in terms of the
    paths of EhSpec, the record layout of V2RecSpec and the dates of DateSpec. *)

From Coq Require Import String QArith.
From Verif Require Import ConvSpec DateSpec.
From Verif Require Export EhSpec V2RecSpec Pack2Spec.
Open Scope Z_scope.
Open Scope list_scope.

(** ** Documents *)

(** Texts in ASCII, numbers as they can be written. *)
Inductive sound : jv -> Prop :=
| so_null : sound JNull
| so_bool b : sound (JBool b)
| so_int i : - 2 ^ 63 <= i < 2 ^ 64 -> sound (JInt i)
| so_real b : in_u 64 b -> sound (JReal b)
| so_str s : Forall (fun c => 1 <= c <= 127) s -> sound (JStr s)
| so_arr l : Forall sound l -> sound (JArr l)
| so_obj l : (forall k v, In (k, v) l -> sound v) -> sound (JObj l).

(** The document of a record; a record without extra headers is as one with an empty object. *)
Definition doc_of (rd : list Z -> option jv) (m : msr) (j : jv) : Prop :=
  (m_extra m = [] /\ j = JObj []) \/ (m_extra m <> [] /\ rd (m_extra m) = Some j).

Definition at_ (j : jv) (ks : list string) (v : jv) : Prop := at_path j (map zs ks) v.
Definition has_text (j : jv) (ks : list string) (s : list Z) : Prop := at_ j ks (JStr s).
Definition no_text (j : jv) (ks : list string) : Prop := forall s, ~ at_ j ks (JStr s).
(** A whole number is taken as the double nearest to it. *)
Definition number_of (v : jv) (b : Z) : Prop :=
  v = JReal b \/
  exists i q, v = JInt i /\ in_u 64 b /\ dval b = DFin q /\ (Qabs.Qabs (q - inject_Z i) <= inject_Z (Z.abs i) * (1 # 2 ^ 52))%Q.
Definition has_number (j : jv) (ks : list string) (b : Z) : Prop := exists v, at_ j ks v /\ number_of v b.
Definition no_number (j : jv) (ks : list string) : Prop := forall v b, at_ j ks v -> v <> JReal b /\ v <> JInt b.
(** A whole number from 0 on. *)
Definition has_count (j : jv) (ks : list string) (u : Z) : Prop := at_ j ks (JInt u) /\ 0 <= u.
Definition is_set (j : jv) (ks : list string) : Prop := at_ j ks (JBool true).

(** A text that begins with a word, in either case. *)
Definition upper (c : Z) : Z := if (97 <=? c) && (c <=? 122) then c - 32 else c.
Definition begins (w : string) (s : list Z) : Prop := exists a r, s = a ++ r /\ map upper a = zs w.
Definition has_word (j : jv) (ks : list string) (w : string) : Prop := exists s, has_text j ks s /\ begins w s.

(** ** Fields *)

(** A text: cut to the size of the field and filled with spaces; zeros if there is none. *)
Definition label_for (n : Z) (j : jv) (ks : list string) (l : label) : Prop :=
  (exists s, has_text j ks s /\ l = mk_label (firstn (Z.to_nat n) s) 32) \/ (no_text j ks /\ l = mk_label [] 0).
(** A number as the nearest float. *)
Definition float_for (j : jv) (ks : list string) (w : Z) : Prop :=
  (exists b, has_number j ks b /\ nearest_float b w) \/ (no_number j ks /\ w = 0).
(** A number times [k], rounded to 32 bits. *)
Definition rounds (k : Z) (q : Q) (u : Z) : Prop :=
  (Qabs.Qabs (inject_Z u - inject_Z k * q) <= (1 # 2) + (1 # 2 ^ 20))%Q.
Definition rounded_for (k : Z) (j : jv) (ks : list string) (u : Z) : Prop :=
  (exists b q, has_number j ks b /\ dval b = DFin q /\ rounds k q u /\ in_u 32 u) \/ (no_number j ks /\ u = 0).
(** A whole number of at most [max], else zero. *)
Definition upto_for (max : Z) (j : jv) (ks : list string) (u : Z) : Prop :=
  (has_count j ks u /\ u <= max) \/ ((forall n, has_count j ks n -> max < n) /\ u = 0).
(** A bit of a field. *)
Definition bit_for (fl i : Z) (P : Prop) : Prop := bit fl i = true <-> P.

(** A date as of C49 and its instant. *)
Definition time_text (s : list Z) (t : Z) : Prop :=
  exists y r h mi sec ns n, date_text s y r h mi sec ns /\ (List.length s <= 32)%nat /\ names n y r /\ 1678 <= y <= 2262 /\
    good_clock h mi sec /\ t = epoch_ns n h mi sec ns /\ in_s 64 t /\ t <> NSTERROR.
Definition has_time (j : jv) (ks : list string) (t : Z) : Prop := exists s, has_text j ks s /\ time_text s t.

(** ** Entries *)

(** An entry [v] of /FDSN/Time/Exception in the document [j], as a blockette. *)
Inductive excepts (j v : jv) : blk -> Prop :=
| ex_500 vco t q c ty mo cs :
    has_time v ["Time"%string] t -> float_for v ["VCOCorrection"%string] vco ->
    upto_for 255 v ["ReceptionQuality"%string] q -> upto_for (2 ^ 32 - 1) v ["Count"%string] c ->
    label_for 16 v ["Type"%string] ty -> label_for 32 j ["FDSN"%string; "Clock"%string; "Model"%string] mo ->
    label_for 128 v ["ClockStatus"%string] cs ->
    excepts j v (B500 vco (btime_at t) (micros t) q c ty mo cs).

(** An entry of /FDSN/Event/Detection. *)
Inductive detects (v : jv) : blk -> Prop :=
| de_200 a p k fl t det :
    ~ has_word v ["Type"%string] "MURDOCK" -> has_time v ["OnsetTime"%string] t ->
    float_for v ["SignalAmplitude"%string] a -> float_for v ["SignalPeriod"%string] p ->
    float_for v ["BackgroundEstimate"%string] k -> label_for 24 v ["Detector"%string] det ->
    0 <= fl < 8 -> bit_for fl 0 (has_word v ["Wave"%string] "DILATATION") ->
    bit_for fl 1 (exists s, has_text v ["Units"%string] s /\ ~ begins "COUNT" s) -> bit_for fl 2 (no_text v ["Wave"%string]) ->
    detects v (B200 a p k fl 0 (btime_at t) det)
| de_201 a p k fl t snr lb pk det :
    has_word v ["Type"%string] "MURDOCK" -> has_time v ["OnsetTime"%string] t ->
    float_for v ["SignalAmplitude"%string] a -> float_for v ["SignalPeriod"%string] p ->
    float_for v ["BackgroundEstimate"%string] k -> label_for 24 v ["Detector"%string] det ->
    0 <= fl < 2 -> bit_for fl 0 (has_word v ["Wave"%string] "DILATATION") ->
    (exists n, at_ v ["MEDSNR"%string] (JArr (map JInt n)) /\ snr = n ++ repeat 0 (6 - List.length n)) \/
    ((forall l, ~ at_ v ["MEDSNR"%string] (JArr l)) /\ snr = repeat 0 6) ->
    upto_for 254 v ["MEDLookback"%string] lb -> upto_for 254 v ["MEDPickAlgorithm"%string] pk ->
    detects v (B201 a p k fl 0 (btime_at t) snr lb pk det).

(** An entry of /FDSN/Calibration/Sequence: its blockette, and another one for the end. *)
Inductive begun (v : jv) : blk -> Prop :=
| ca_300 t st fl d i a ch rf cpl rol :
    has_word v ["Type"%string] "STEP" -> has_time v ["BeginTime"%string] t -> upto_for 255 v ["Steps"%string] st ->
    0 <= fl < 16 -> bit_for fl 0 (is_set v ["StepFirstPulsePositive"%string]) ->
    bit_for fl 1 (is_set v ["StepAlternateSign"%string]) -> bit_for fl 2 (has_word v ["Trigger"%string] "AUTOMATIC") ->
    bit_for fl 3 (is_set v ["Continued"%string]) ->
    rounded_for 10000 v ["Duration"%string] d -> rounded_for 10000 v ["StepBetween"%string] i ->
    float_for v ["Amplitude"%string] a -> label_for 3 v ["InputChannel"%string] ch ->
    rounded_for 1 v ["ReferenceAmplitude"%string] rf -> label_for 12 v ["Coupling"%string] cpl ->
    label_for 12 v ["Rolloff"%string] rol ->
    begun v (B300 (btime_at t) st fl d i a ch 0 rf cpl rol)
| ca_310 t fl d p a ch rf cpl rol :
    has_word v ["Type"%string] "SINE" -> has_time v ["BeginTime"%string] t ->
    0 <= fl < 128 -> bit_for fl 0 False -> bit_for fl 1 False ->
    bit_for fl 2 (has_word v ["Trigger"%string] "AUTOMATIC") -> bit_for fl 3 (is_set v ["Continued"%string]) ->
    bit_for fl 4 (has_word v ["AmplitudeRange"%string] "PEAKTOPEAK") ->
    bit_for fl 5 (has_word v ["AmplitudeRange"%string] "ZEROTOPEAK") ->
    bit_for fl 6 (has_word v ["AmplitudeRange"%string] "RMS") ->
    rounded_for 10000 v ["Duration"%string] d -> float_for v ["SinePeriod"%string] p ->
    float_for v ["Amplitude"%string] a -> label_for 3 v ["InputChannel"%string] ch ->
    rounded_for 1 v ["ReferenceAmplitude"%string] rf -> label_for 12 v ["Coupling"%string] cpl ->
    label_for 12 v ["Rolloff"%string] rol ->
    begun v (B310 (btime_at t) 0 fl d p a ch 0 rf cpl rol)
| ca_320 t fl d a ch rf cpl rol noi :
    has_word v ["Type"%string] "PSEUDORANDOM" -> has_time v ["BeginTime"%string] t ->
    0 <= fl < 32 -> bit_for fl 0 False -> bit_for fl 1 False ->
    bit_for fl 2 (has_word v ["Trigger"%string] "AUTOMATIC") -> bit_for fl 3 (is_set v ["Continued"%string]) ->
    bit_for fl 4 (has_word v ["AmplitudeRange"%string] "RANDOM") ->
    rounded_for 10000 v ["Duration"%string] d -> float_for v ["Amplitude"%string] a ->
    label_for 3 v ["InputChannel"%string] ch -> rounded_for 1 v ["ReferenceAmplitude"%string] rf ->
    label_for 12 v ["Coupling"%string] cpl -> label_for 12 v ["Rolloff"%string] rol -> label_for 8 v ["Noise"%string] noi ->
    begun v (B320 (btime_at t) 0 fl d a ch 0 rf cpl rol noi)
| ca_390 t fl d a ch :
    has_word v ["Type"%string] "GENERIC" -> has_time v ["BeginTime"%string] t ->
    0 <= fl < 16 -> bit_for fl 0 False -> bit_for fl 1 False ->
    bit_for fl 2 (has_word v ["Trigger"%string] "AUTOMATIC") -> bit_for fl 3 (is_set v ["Continued"%string]) ->
    rounded_for 10000 v ["Duration"%string] d -> float_for v ["Amplitude"%string] a ->
    label_for 3 v ["InputChannel"%string] ch ->
    begun v (B390 (btime_at t) 0 fl d a ch 0).
Inductive calibrates (v : jv) : list blk -> Prop :=
| ca_begun b : begun v b -> no_text v ["EndTime"%string] -> calibrates v [b]
| ca_both b t : begun v b -> has_time v ["EndTime"%string] t -> calibrates v [b; B395 (btime_at t) [0; 0]]
| ca_end t : no_text v ["Type"%string] -> has_time v ["EndTime"%string] t -> calibrates v [B395 (btime_at t) [0; 0]].

(** What entries must be for this: times that are dates, numbers in range, a known type. *)
Definition in_range (k : Z) (v : jv) (ks : list string) : Prop :=
  forall b, has_number v ks b -> exists q, dval b = DFin q /\ (0 <= inject_Z k * q <= inject_Z (2 ^ 32 - 1))%Q.
Definition exception_ok (v : jv) : Prop := exists t, has_time v ["Time"%string] t.
Definition detection_ok (v : jv) : Prop :=
  (exists t, has_time v ["OnsetTime"%string] t) /\
  (forall l, at_ v ["MEDSNR"%string] (JArr l) -> exists n, l = map JInt n /\ (List.length n <= 6)%nat /\ Forall (in_u 8) n).
Definition known_type (v : jv) : Prop :=
  has_word v ["Type"%string] "STEP" \/ has_word v ["Type"%string] "SINE" \/ has_word v ["Type"%string] "PSEUDORANDOM" \/
  has_word v ["Type"%string] "GENERIC".
Definition calibration_ok (v : jv) : Prop :=
  ((known_type v /\ exists t, has_time v ["BeginTime"%string] t) \/
   (no_text v ["Type"%string] /\ exists t, has_time v ["EndTime"%string] t)) /\
  (no_text v ["EndTime"%string] \/ exists t, has_time v ["EndTime"%string] t) /\
  in_range 10000 v ["Duration"%string] /\ in_range 10000 v ["StepBetween"%string] /\ in_range 1 v ["ReferenceAmplitude"%string].

(** ** The document *)

(** The objects of an array at a path. *)
Definition is_obj (v : jv) : bool := match v with JObj _ => true | _ => false end.
Definition objects (j : jv) (ks : list string) (l : list jv) : Prop :=
  (exists a, at_ j ks (JArr a) /\ l = filter is_obj a) \/ ((forall a, ~ at_ j ks (JArr a)) /\ l = []).
Definition exceptions (j : jv) := objects j ["FDSN"%string; "Time"%string; "Exception"%string].
Definition detections (j : jv) := objects j ["FDSN"%string; "Event"%string; "Detection"%string].
Definition calibrations (j : jv) := objects j ["FDSN"%string; "Calibration"%string; "Sequence"%string].

(** All entries as blockettes, in order. *)
Definition entries_say (j : jv) (bs : list blk) : Prop :=
  exists es ds cs xe xd xc, exceptions j es /\ detections j ds /\ calibrations j cs /\
    Forall2 (excepts j) es xe /\ Forall2 detects ds xd /\ Forall2 calibrates cs xc /\ bs = xe ++ xd ++ concat xc.
(** The blockettes of a record: 1000; 1001 for a timing quality or microseconds; 100; the entries. *)
Definition blockettes_say (j : jv) (enc e us : Z) (w : option Z) (bs : list (blk * list Z)) : Prop :=
  exists q xs, upto_for 255 j ["FDSN"%string; "Time"%string; "Quality"%string] q /\ entries_say j xs /\
    ((us <> 0 \/ exists u, has_count j ["FDSN"%string; "Time"%string; "Quality"%string] u) /\
     bs = map (fun b => (b, [])) (B1000 enc 1 e 0 :: B1001 q us 0 0 :: match w with Some w => [B100 w [0; 0; 0; 0]] | None => [] end ++ xs)
     \/ (us = 0 /\ forall u, ~ has_count j ["FDSN"%string; "Time"%string; "Quality"%string] u) /\
     bs = map (fun b => (b, [])) (B1000 enc 1 e 0 :: match w with Some w => [B100 w [0; 0; 0; 0]] | None => [] end ++ xs)).

(** The data quality: that of the extra headers if it is one of the four, else that of the
    publication version. *)
Definition quality_for (j : jv) (pub q : Z) : Prop :=
  (exists s, has_text j ["FDSN"%string; "DataQuality"%string] s /\ q = hd 0 s /\ In q [68; 82; 81; 77]) \/
  (forall s, has_text j ["FDSN"%string; "DataQuality"%string] s -> ~ In (hd 0 s) [68; 82; 81; 77]) /\ q = version_char pub.
Definition positive (b : Z) : Prop := exists q, dval b = DFin q /\ (0 < q)%Q \/ dval b = DInf false.
Definition negative (b : Z) : Prop := exists q, dval b = DFin q /\ (q < 0)%Q \/ dval b = DInf true.
Definition fdsn (a b : string) : list string := ["FDSN"%string; a; b].
(** The time correction must be a number for the field. *)
Definition correction_ok (j : jv) : Prop :=
  forall b, has_number j (fdsn "Time" "Correction") b ->
    exists q, dval b = DFin q /\ (inject_Z (- 2 ^ 31 + 1) <= inject_Z 10000 * q <= inject_Z (2 ^ 31 - 2))%Q.
(** The fixed header: as without extra headers but for quality, flags and correction.  A negative
    correction is not rounded but loses its fraction after a half is added. *)
Definition corrects (q : Q) (u : Z) : Prop :=
  if Qlt_le_dec q 0 then (Qabs.Qabs (inject_Z u - inject_Z 10000 * q - (1 # 2)) <= 1 + (1 # 2 ^ 20))%Q else rounds 10000 q u.
Definition header_says (j : jv) (m : msr) (k : codes) (f mu : Z) (h : hdr2) : Prop :=
  exists q a io dq corr nblk,
    h = mk_hdr2 (repeat 48 6) q 32 (fill 5 (k_sta k)) (fill 2 (k_loc k)) (k_band k, k_source k, k_sub k)
                (fill 2 (k_net k)) (btime_at (m_start m)) 0 f mu a io dq nblk corr 0 /\
    quality_for j (m_pub m) q /\ in_u 8 a /\ in_u 8 io /\ in_u 8 dq /\ in_u 8 nblk /\
    bit_for a 0 (Z.testbit (m_flags m) 0 = true) /\ bit_for a 1 (exists b, has_number j (fdsn "Time" "Correction") b) /\
    bit_for a 2 (is_set j (fdsn "Event" "Begin")) /\ bit_for a 3 (is_set j (fdsn "Event" "End")) /\
    bit_for a 4 (exists b, has_number j (fdsn "Time" "LeapSecond") b /\ positive b) /\
    bit_for a 5 (exists b, has_number j (fdsn "Time" "LeapSecond") b /\ negative b) /\
    bit_for a 6 (is_set j (fdsn "Event" "InProgress")) /\ bit_for a 7 False /\
    bit_for io 0 (is_set j (fdsn "Flags" "StationVolumeParityError")) /\ bit_for io 1 (is_set j (fdsn "Flags" "LongRecordRead")) /\
    bit_for io 2 (is_set j (fdsn "Flags" "ShortRecordRead")) /\ bit_for io 3 (is_set j (fdsn "Flags" "StartOfTimeSeries")) /\
    bit_for io 4 (is_set j (fdsn "Flags" "EndOfTimeSeries")) /\ bit_for io 5 (Z.testbit (m_flags m) 2 = true) /\
    bit_for io 6 False /\ bit_for io 7 False /\
    bit_for dq 0 (is_set j (fdsn "Flags" "AmplifierSaturation")) /\ bit_for dq 1 (is_set j (fdsn "Flags" "DigitizerClipping")) /\
    bit_for dq 2 (is_set j (fdsn "Flags" "Spikes")) /\ bit_for dq 3 (is_set j (fdsn "Flags" "Glitches")) /\
    bit_for dq 4 (is_set j (fdsn "Flags" "MissingData")) /\ bit_for dq 5 (is_set j (fdsn "Flags" "TelemetrySyncError")) /\
    bit_for dq 6 (is_set j (fdsn "Flags" "FilterCharging")) /\ bit_for dq 7 (Z.testbit (m_flags m) 1 = true) /\
    ((exists b v, has_number j (fdsn "Time" "Correction") b /\ dval b = DFin v /\ corrects v corr) \/
     no_number j (fdsn "Time" "Correction") /\ corr = 0).

Definition document_ok (j : jv) : Prop :=
  sound j /\ correction_ok j /\
  (forall l, exceptions j l -> Forall exception_ok l) /\ (forall l, detections j l -> Forall detection_ok l) /\
  (forall l, calibrations j l -> Forall calibration_ok l).

(** The bytes a header with these blockettes takes. *)
Definition header_size (bs : list (blk * list Z)) : Z := 48 + lenZ (chain_bytes true 48 bs).

(** ** What reads back *)

(** A text that does not end in a space where it is cut. *)
Definition clean (n : Z) (j : jv) (ks : list string) : Prop :=
  forall s t, has_text j ks s -> firstn (Z.to_nat n) s <> t ++ [32].
(** A time of a year that can be read. *)
Definition kept_time (v : jv) (ks : list string) : Prop :=
  forall t, has_time v ks t -> 1678 <= d_year (day_at (t / 86400000000000)) <= 2261 /\ tenths t <> NSTERROR.
Definition exception_kept (j v : jv) : Prop :=
  kept_time v ["Time"%string] /\ no_text v ["Type"%string] /\ no_text v ["ClockStatus"%string] /\
  clean 32 j ["FDSN"%string; "Clock"%string; "Model"%string].
Definition detection_kept (v : jv) : Prop := kept_time v ["OnsetTime"%string] /\ clean 24 v ["Detector"%string].
Definition calibration_kept (v : jv) : Prop :=
  kept_time v ["BeginTime"%string] /\ kept_time v ["EndTime"%string] /\ clean 3 v ["InputChannel"%string] /\
  clean 12 v ["Coupling"%string] /\ clean 12 v ["Rolloff"%string] /\ clean 8 v ["Noise"%string].
Definition document_kept (j : jv) : Prop :=
  (forall l, exceptions j l -> Forall (exception_kept j) l) /\ (forall l, detections j l -> Forall detection_kept l) /\
  (forall l, calibrations j l -> Forall calibration_kept l).

(** The members read back as true, with the paths they are read as. *)
Definition switches : list (string * list string) :=
  [("/FDSN/Event/Begin", fdsn "Event" "Begin"); ("/FDSN/Event/End", fdsn "Event" "End");
   ("/FDSN/Event/InProgress", fdsn "Event" "InProgress");
   ("/FDSN/Flags/StationVolumeParityError", fdsn "Flags" "StationVolumeParityError");
   ("/FDSN/Flags/LongRecordRead", fdsn "Flags" "LongRecordRead");
   ("/FDSN/Flags/ShortRecordRead", fdsn "Flags" "ShortRecordRead");
   ("/FDSN/Flags/StartOfTimeSeries", fdsn "Flags" "StartOfTimeSeries");
   ("/FDSN/Flags/EndOfTimeSeries", fdsn "Flags" "EndOfTimeSeries");
   ("/FDSN/Flags/AmplifierSaturation", fdsn "Flags" "AmplifierSaturation");
   ("/FDSN/Flags/DigitizerClipping", fdsn "Flags" "DigitizerClipping"); ("/FDSN/Flags/Spikes", fdsn "Flags" "Spikes");
   ("/FDSN/Flags/Glitches", fdsn "Flags" "Glitches"); ("/FDSN/Flags/MissingData", fdsn "Flags" "MissingData");
   ("/FDSN/Flags/TelemetrySyncError", fdsn "Flags" "TelemetrySyncError");
   ("/FDSN/Flags/FilterCharging", fdsn "Flags" "FilterCharging")]%string.
