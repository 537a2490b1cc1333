(** * C63: the extra headers of a record packed as version 2 *)

From Coq Require Import String QArith.
From Verif Require Import Base BaseLemmas TimeModel TimeSpec TimeStrModel RecModel RecSpec PackModel PackSpec DateSpec ConvSpec
  EhModel EhSpec EhProof V2Model V2RecSpec V2RecParse Pack2Model Pack2Spec Pack2Rate DateProof
  EhPackModel EhPackSpec EhPackHdr EhPackRead.
Open Scope list_scope.
Open Scope Z_scope.

(** The header: quality, flags and time correction are those of the extra headers, and so are
    the blockettes, one after the other; it fails if they do not fit into the record. *)
Theorem C63_header : forall rd hb mode stack R m k f mu j,
  sendable m k -> (64 <= List.length stack)%nat -> lenZ R = maxlen m - 48 -> doc_of rd m j -> document_ok j ->
  genfactmult mode (sampratehz (m_rate m)) = Ok (f, mu) ->
  exists h e w bs, maxlen m = 2 ^ e /\ header_says j m k f mu h /\ f_nblk h = lenZ bs mod 256 /\
    blockettes_say j (encoding_of m) e (micros (m_start m)) w bs /\
    (forall rate, rate_ok h bs rate -> rate_back (m_rate m) rate) /\
    pack_header2x rd hb mode stack (maxlen m) m (repeat 0 48 ++ R) =
    (if header_size bs <=? maxlen m
     then Ok (layout2 true h [] bs (skipn (Z.to_nat (header_size bs - 48)) R), header_size bs) else Err (-1)).
Proof. exact header_all. Qed.
Print Assumptions C63_header.

(** A record of it reads back on any host: its fields, and the extra headers its bits and
    blockettes stand for. *)
Theorem C63_read : forall J rd hb hb2 mode m2 addr pf stack R m k f mu j, headers_accepted J ->
  sendable m k -> (64 <= List.length stack)%nat -> lenZ R = maxlen m - 48 -> bytes_ok R -> in_u 8 (encoding_of m) ->
  doc_of rd m j -> document_ok j -> document_kept j -> genfactmult mode (sampratehz (m_rate m)) = Ok (f, mu) ->
  dated hb2 (m_start m) ->
  exists h e w bs, 7 <= e <= 17 /\ maxlen m = 2 ^ e /\ header_says j m k f mu h /\
    blockettes_say j (encoding_of m) e (micros (m_start m)) w bs /\
    (header_size bs < maxlen m -> header_size bs < 65536 ->
     exists r rate datalen, pack_header2x rd hb mode stack (maxlen m) m (repeat 0 48 ++ R) = Ok (r, header_size bs) /\
       rate_back (m_rate m) rate /\
       parse (unpack2 J hb2 m2 addr pf) hb2 m2 addr pf r =
       Ok (PRec (mk_msr (maxlen m) (negb hb2) (negb hb2) 2 (m_flags m mod 8) (m_sid m)
                        (tenths (m_start m) + micros (m_start m) * 1000) rate (encoding_of m) (version_of (f_quality h))
                        0 0 (extra_text J h bs) datalen None))).
Proof. exact read_back_ok. Qed.
Print Assumptions C63_read.

(** The bits read back as the members that are true, and the sign of the leap second. *)
Theorem C63_switches : forall j m k f mu h, header_says j m k f mu h ->
  Forall (fun s : string * list string => In (HBool (fst s)) (flag_ops h) <-> is_set j (snd s)) switches /\
  (forall i, In (HInt "/FDSN/Time/LeapSecond" i) (flag_ops h) <->
     (i = 1 /\ exists b, has_number j (fdsn "Time" "LeapSecond") b /\ positive b) \/
     (i = -1 /\ exists b, has_number j (fdsn "Time" "LeapSecond") b /\ negative b)).
Proof. intros j m k f mu h H. split; [exact (switches_ok j m k f mu h H)|exact (leap_ok j m k f mu h H)]. Qed.
Print Assumptions C63_switches.

(** Text that is not a document is refused. *)
Theorem C63_refused : forall rd hb mode stack R m k f,
  sendable m k -> (64 <= List.length stack)%nat -> m_extra m <> [] -> rd (m_extra m) = None ->
  genfactmult mode (sampratehz (m_rate m)) = Ok f ->
  pack_header2x rd hb mode stack (maxlen m) m R = Err (-1).
Proof. exact header_refused. Qed.
Print Assumptions C63_refused.

(** ** Instances *)

Definition kx : codes := mk_codes (chars "XX") (chars "ABCD") (chars "00") 66 72 90.
Definition mx (reclen : Z) (extra : list Z) : msr :=
  mk_msr reclen false false 2 5 (codes_sid kx) 1580552430123456789 0x4008000000000000 3 4 0 0 extra 0 None.
Definition sx : list Z := repeat 170 64.
Definition ob (l : list (string * jv)) : jv := JObj (map (fun p => (zs (fst p), snd p)) l).
Definition tx (s : string) : jv := JStr (zs s).
Definition detection0 : jv :=
  ob [("OnsetTime", tx "2020-02-01T10:20Z"); ("Detector", tx "AB"); ("SignalAmplitude", JInt 2); ("Wave", tx "DILATATION"); ("Units", tx "COUNTS")]%string.
Definition calibration0 : jv := ob [("EndTime", tx "2020-02-01T10:20Z")]%string.
Definition docx : jv :=
  ob [("FDSN", ob [("DataQuality", tx "Q"); ("Time", ob [("Quality", JInt 90); ("LeapSecond", JInt 1)]);
                   ("Event", ob [("Begin", JBool true); ("Detection", JArr [detection0])]);
                   ("Flags", ob [("Spikes", JBool true)]);
                   ("Calibration", ob [("Sequence", JArr [calibration0; JNull])])])]%string.
Definition rdx (j : jv) (t : list Z) : option jv := match t with [1] => Some j | _ => None end.

Ltac dig := split; [discriminate|apply Forall_forall; intros x I; cbn in I; lia].
Lemma time0 : time_text (zs "2020-02-01T10:20Z") 1580552400000000000.
Proof.
  exists 2020, (Md 2 1), 10, 20, 0, 0, 18293. split.
  { apply (date_md (zs "2020") 45 (zs "02") 45 (zs "01") (zs "T10:20Z") 10 20 0 0); [dig|dig|dig|left; reflexivity|left; reflexivity|].
    apply (later_clock t_or_space 84 (zs "10:20") (zs "Z")); [left; reflexivity| |right; left; reflexivity].
    apply (clock_m (zs "10") 58 (zs "20")); [dig|right; right; reflexivity|dig]. }
  split; [cbn; lia|]. split; [split; [reflexivity|split; reflexivity]|]. split; [lia|]. split; [unfold good_clock; lia|].
  split; [reflexivity|]. split; [unfold in_s; lia|]. unfold NSTERROR. lia.
Qed.

(** Whether a member is there is decided by computing. *)
Ltac found := apply look_spec; vm_compute; reflexivity.
Ltac absent H := apply look_spec in H; vm_compute in H; discriminate H.
Ltac snd0 := repeat first [apply so_bool | apply so_null | apply so_int; lia | apply so_str; apply Forall_forall; intros x I; cbn in I; lia
   | apply so_arr; repeat (apply Forall_cons; [|]); try apply Forall_nil
   | apply so_obj; let I := fresh in intros k v I; cbn in I; repeat destruct I as [I|I]; try (destruct I; fail); injection I as <- <- ].
Lemma sound0 : sound docx.
Proof. unfold docx, detection0, calibration0, ob, tx. cbn [map fst snd]. snd0. Qed.

Lemma one_array j ks a l : at_ j ks (JArr a) -> objects j ks l -> l = filter is_obj a.
Proof. intros A [(b & B & ->)|[N _]]; [pose proof (at_fun _ _ _ _ A B); congruence|destruct (N _ A)]. Qed.
Lemma no_array j ks l : (forall a, ~ at_ j ks (JArr a)) -> objects j ks l -> l = [].
Proof. intros N [(b & B & _)|[_ E]]; [destruct (N _ B)|exact E]. Qed.
Lemma detections0 l : detections docx l -> l = [detection0].
Proof. intros H. refine (one_array docx _ [detection0] _ _ H). found. Qed.
Lemma calibrations0 l : calibrations docx l -> l = [calibration0].
Proof. intros H. refine (one_array docx _ [calibration0; JNull] _ _ H). found. Qed.
Lemma exceptions0 l : exceptions docx l -> l = [].
Proof. intros H. refine (no_array docx _ _ _ H). intros a A. absent A. Qed.

Lemma docx_ok : document_ok docx.
Proof.
  split; [exact sound0|]. split. { intros b (v & A & _). absent A. }
  split; [intros l H; rewrite (exceptions0 _ H); constructor|]. split; intros l H.
  - rewrite (detections0 _ H). constructor; [|constructor]. split; [exists 1580552400000000000, (zs "2020-02-01T10:20Z"); split; [found|exact time0]|].
    intros a A. absent A.
  - rewrite (calibrations0 _ H). constructor; [|constructor].
    assert (E : has_time calibration0 ["EndTime"%string] 1580552400000000000) by (exists (zs "2020-02-01T10:20Z"); split; [found|exact time0]).
    split; [right; split; [intros s A; absent A|eauto]|]. split; [right; eauto|].
    split; [intros b (v & A & _); absent A|]. split; intros b (v & A & _); absent A.
Qed.
Lemma kept0 v ks : at_ v ks (tx "2020-02-01T10:20Z") -> kept_time v ks.
Proof.
  intros A t (s & T & y & r & h & mi & sec & ns & n & Hd & L & Nm & Y & C & Et & I & Ne).
  pose proof (at_fun _ _ _ _ A T) as Es. injection Es as <-. subst t. pose proof (dates_ok Strict _ y r h mi sec ns n Hd L Nm Y C I) as B.
  assert (E : timestr2nstime Strict (zs "2020-02-01T10:20Z") = Ok 1580552400000000000) by (vm_compute; reflexivity).
  change (zs "2020-02-01T10:20Z") with [50; 48; 50; 48; 45; 48; 50; 45; 48; 49; 84; 49; 48; 58; 50; 48; 90] in E. rewrite E in B. injection B as <-.
  split; [vm_compute; split; discriminate|vm_compute; discriminate].
Qed.
Lemma never v ks : (forall s, ~ has_text v ks s) -> kept_time v ks.
Proof. intros N t (s & T & _). destruct (N s T). Qed.
Lemma docx_kept : document_kept docx.
Proof.
  split; [intros l H; rewrite (exceptions0 _ H); constructor|]. split; intros l H.
  - rewrite (detections0 _ H). constructor; [|constructor]. split; [apply kept0; found|].
    intros s t T. apply look_spec in T. vm_compute in T. injection T as <-. cbn [firstn Z.to_nat Pos.to_nat Pos.iter_op Nat.add].
    intros E. apply (f_equal (@rev Z)) in E. rewrite rev_app_distr in E. discriminate E.
  - rewrite (calibrations0 _ H). constructor; [|constructor]. split; [apply never; intros s T; absent T|]. split; [apply kept0; found|].
    repeat split; intros s t T; absent T.
Qed.
Lemma sendable0 reclen x : reclen2_ok reclen -> sendable (mx reclen x) kx.
Proof.
  intros L. assert (H : forall n s, (lenZ s <=? n) && forallb (fun c => (1 <=? c) && (c <=? 127) && negb (c =? 32) && negb (c =? 95) && negb (c =? 58)) s = true -> code_ok n s).
  { intros n s H. apply andb_prop in H. destruct H as [H1 H2]. split; [lia|]. rewrite forallb_forall in H2. apply Forall_forall. intros y I. specialize (H2 y I). lia. }
  split. { unfold codes_ok, kx, band_ok. cbn [k_net k_sta k_loc k_band k_source k_sub].
           split; [apply H; reflexivity|]. split; [apply H; reflexivity|]. split; [apply H; reflexivity|]. lia. }
  split; [reflexivity|].
  split. { unfold maxlen, mx. cbn [m_reclen]. destruct L as (e & He & ->). exists e. split; [exact He|].
           pose proof (Z.pow_pos_nonneg 2 e ltac:(lia) ltac:(lia)). replace (2 ^ e <? 0) with false by lia. reflexivity. }
  split; [vm_compute; split; [discriminate|reflexivity]|]. split; [vm_compute; split; [discriminate|reflexivity]|]. eexists. vm_compute. reflexivity.
Qed.

Definition ops0 (o : ehop) : list Z :=
  match o with
  | HBool p => zs p ++ [10]
  | HInt p i => zs p ++ [61; 48 + i] ++ [10]
  | HDet d => zs (V2Model.d_type d) ++ [58] ++ zs (V2Model.d_wave d) ++ [58] ++ V2Model.d_detector d ++ [10]
  | HCal c => zs (V2Model.k_type c) ++ [10]
  | _ => [63; 10]
  end.
(** A writer that lists what is requested. *)
Definition Jx : json := mk_json (fun _ _ => false) (fun t ops => concat (map ops0 ops)).
Definition packed (reclen : Z) (j : jv) : res (list Z * Z) :=
  pack_header2x (rdx j) false Strict sx reclen (mx reclen [1]) (repeat 0 48 ++ repeat 7 (Z.to_nat (reclen - 48))).
Definition read_extra (r : list Z) : res (list Z) :=
  let! p := parse (unpack2 Jx true Strict 0 0) true Strict 0 0 r in match p with PRec m => Ok (m_extra m) | _ => Ok [] end.

Example C63_instance :
  sendable (mx 256 [1]) kx /\ doc_of (rdx docx) (mx 256 [1]) docx /\ document_ok docx /\ document_kept docx /\
  genfactmult Strict (sampratehz (m_rate (mx 256 [1]))) = Ok (3, 1) /\
  exists r, packed 256 docx = Ok (r, 132) /\ slice 36 4 r = Ok [21; 32; 4; 4] /\ slice 56 8 r = Ok [3; 233; 0; 64; 90; 56; 0; 0] /\
    slice 64 4 r = Ok [0; 200; 0; 116] /\ slice 116 4 r = Ok [1; 139; 0; 0] /\
    read_extra r = Ok (zs "/FDSN/Event/Begin" ++ [10] ++ zs "/FDSN/Time/LeapSecond=1" ++ [10] ++ zs "/FDSN/Flags/Spikes" ++ [10] ++ zs "/FDSN/Time/Quality=" ++ [138; 10]
                       ++ zs "GENERIC::AB" ++ [10] ++ zs "ABORT" ++ [10]).
Proof.
  split; [apply sendable0; exists 8; split; [lia|reflexivity]|]. split; [right; split; [discriminate|reflexivity]|].
  split; [exact docx_ok|]. split; [exact docx_kept|]. split; [vm_compute; reflexivity|].
  eexists. split; [vm_compute; reflexivity|]. repeat split; vm_compute; reflexivity.
Qed.

Example C63_refused_instance : sendable (mx 256 [2]) kx /\ rdx docx (m_extra (mx 256 [2])) = None /\
  pack_header2x (rdx docx) false Strict sx 256 (mx 256 [2]) (repeat 0 256) = Err (-1).
Proof. split; [apply sendable0; exists 8; split; [lia|reflexivity]|]. split; vm_compute; reflexivity. Qed.

(** No room for the calibration. *)
Example C63_full_instance : sendable (mx 128 [1]) kx /\ packed 128 docx = Err (-1).
Proof. split; [apply sendable0; exists 7; split; [lia|reflexivity]|]. vm_compute. reflexivity. Qed.

(** ** Where the claim fails *)

Definition with_detection (l : list (string * jv)) : jv :=
  ob [("FDSN", ob [("Event", ob [("Detection", JArr [ob l])])])]%string.
Definition with_calibration (l : list (string * jv)) : jv :=
  ob [("FDSN", ob [("Calibration", ob [("Sequence", JArr [ob l])])])]%string.
Definition with_time (l : list (string * jv)) : jv := ob [("FDSN", ob [("Time", ob l)])]%string.

(** Numbers in MEDSNR beyond the six of a blockette 201 are written over what follows it, and
    beyond the record. *)
Theorem C63_snr_refuted :
  packed 128 (with_detection [("Type", tx "MURDOCK"); ("OnsetTime", tx "2020-02-01T10:20Z"); ("MEDSNR", JArr (repeat (JInt 1) 40))]%string)
  = UB OOBWrite.
Proof. vm_compute. reflexivity. Qed.

(** The bit of a wave in blockette 200 is written as its opposite is read: COMPRESSION is lost,
    and a detection without a wave reads back as one of COMPRESSION. *)
Theorem C63_wave_refuted :
  (let! (r, _) := packed 256 (with_detection [("OnsetTime", tx "2020-02-01T10:20Z"); ("Wave", tx "COMPRESSION")]%string) in read_extra r)
    = Ok (zs "GENERIC::" ++ [10]) /\
  (let! (r, _) := packed 256 (with_detection [("OnsetTime", tx "2020-02-01T10:20Z")]%string) in read_extra r)
    = Ok (zs "GENERIC:COMPRESSION:" ++ [10]).
Proof. split; vm_compute; reflexivity. Qed.

(** A calibration abort reads back as one of type ABORT, which is refused. *)
Theorem C63_abort_refuted :
  (exists r n, packed 256 (with_calibration [("EndTime", tx "2020-02-01T10:20Z")]%string) = Ok (r, n) /\
     read_extra r = Ok (zs "ABORT" ++ [10])) /\
  packed 256 (with_calibration [("Type", tx "ABORT"); ("EndTime", tx "2020-02-01T10:20Z")]%string) = Err (-1).
Proof.
  split; [|vm_compute; reflexivity]. eexists. eexists. split; [vm_compute; reflexivity|]. vm_compute. reflexivity.
Qed.

(** A time correction of -0.0003 seconds is stored as -0.0002. *)
Theorem C63_correction_refuted : exists r n,
  packed 256 (with_time [("Correction", JReal 0xBF33A92A30553261)]%string) = Ok (r, n) /\ slice 40 4 r = Ok [255; 255; 255; 254].
Proof. eexists. eexists. split; [vm_compute; reflexivity|]. vm_compute. reflexivity. Qed.

(** The conversion of a negative duration is undefined. *)
Theorem C63_duration_refuted :
  packed 256 (with_calibration [("Type", tx "SINE"); ("BeginTime", tx "2020-02-01T10:20Z"); ("Duration", JInt (-1))]%string) = UB SignedOverflow.
Proof. vm_compute. reflexivity. Qed.

(** The type of a timing exception is filled up with spaces, and reading it back writes beyond
    the array for it. *)
Theorem C63_exception_refuted :
  (let! (r, _) := packed 512 (with_time [("Exception", JArr [ob [("Time", tx "2020-02-01T10:20Z"); ("Type", tx "MISSING")]])]%string) in read_extra r)
  = UB OOBWrite.
Proof. vm_compute. reflexivity. Qed.

(** A pick algorithm of 255 is dropped. *)
Theorem C63_pick_refuted : exists r n,
  packed 256 (with_detection [("Type", tx "MURDOCK"); ("OnsetTime", tx "2020-02-01T10:20Z"); ("MEDPickAlgorithm", JInt 255)]%string) = Ok (r, n) /\
  sliceZ 99 1 r = Ok [0].
Proof. eexists. eexists. split; [vm_compute; reflexivity|]. vm_compute. reflexivity. Qed.
