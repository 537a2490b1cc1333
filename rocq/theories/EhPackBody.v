(** * The blockettes written for entries of the extra headers. *)

From Coq Require Import String QArith.
From Verif Require Import Base BaseLemmas TimeModel TimeSpec TimeProof RecSpec RecProof PackModel PackSpec PackProof ConvSpec
  EhModel EhSpec EhProof V2Model V2RecSpec V2RecProof Pack2Model Pack2Spec Pack2Hdr EhPackModel EhPackSpec EhPackFields.
Open Scope Z_scope.
Open Scope list_scope.

Ltac nm := split; [reflexivity|discriminate].

Lemma root_some v : root_is (Some v) v.
Proof. left. reflexivity. Qed.

Lemma micro_byte t : uwrap 8 (t mod 1000000000 / 1000 - t mod 1000000000 / 100000 * 100) = micros t mod 256.
Proof. unfold uwrap, micros. replace (t mod 1000000000 / 1000 - t mod 1000000000 / 100000 * 100) with (t / 1000 mod 100) by lia. reflexivity. Qed.

(** Bits set one by one. *)
Lemma bits8 a b c d e f g h : let fl := on a 1 + on b 2 + on c 4 + on d 8 + on e 16 + on f 32 + on g 64 + on h 128 in
  bit fl 0 = a /\ bit fl 1 = b /\ bit fl 2 = c /\ bit fl 3 = d /\ bit fl 4 = e /\ bit fl 5 = f /\ bit fl 6 = g /\ bit fl 7 = h /\ 0 <= fl < 256.
Proof. destruct a, b, c, d, e, f, g, h; vm_compute; repeat split; congruence. Qed.

Lemma bit_of fl i x P : bit fl i = x -> (x = true <-> P) -> bit_for fl i P.
Proof. intros <- H. exact H. Qed.
Lemma bit_no fl i : bit fl i = false -> bit_for fl i False.
Proof. intros E. unfold bit_for. rewrite E. split; [discriminate|tauto]. Qed.

Lemma body500_ok hb mode root j v : root_is root j -> sound j -> sound v -> exception_ok v ->
  exists b, body500 hb mode root v = Ok (blk_body true b) /\ excepts j v b.
Proof.
  intros R Sj S (t & T). pose proof (root_some v) as V.
  destruct (time_spec _ _ "/Time" ["Time"%string] hb mode t V ltac:(nm) S T) as [Et _].
  destruct (open_spec _ _ "/Type" ["Type"%string] 16 V ltac:(nm) S ltac:(lia)) as (ty & Ety & Hty).
  destruct (open_spec _ _ "/FDSN/Clock/Model" ["FDSN"%string; "Clock"%string; "Model"%string] 32 R ltac:(nm) Sj ltac:(lia)) as (mo & Emo & Hmo).
  destruct (open_spec _ _ "/ClockStatus" ["ClockStatus"%string] 128 V ltac:(nm) S ltac:(lia)) as (cs & Ecs & Hcs).
  destruct (float_spec _ _ "/VCOCorrection" ["VCOCorrection"%string] hb V ltac:(nm) S) as (vco & Ev & Hv & _).
  destruct (upto_spec _ _ "/ReceptionQuality" ["ReceptionQuality"%string] 255 V ltac:(nm) ltac:(lia)) as [Hq _].
  destruct (upto_spec _ _ "/Count" ["Count"%string] (2 ^ 32 - 1) V ltac:(nm) ltac:(lia)) as [Hc _].
  unfold body500. rewrite Et. cbn [bind]. rewrite Ety, Emo, Ecs, Ev. cbn [bind]. rewrite micro_byte, be_ord.
  eexists. split; [|eapply ex_500; eassumption]. reflexivity.
Qed.

Lemma wave_bits v (murdock : bool) : sound v ->
  let o := Some v in
  let wave := match str_at o "/Wave" with
              | Some w => if caseless (zs "DILATATION") w then 1 else 0
              | None => if murdock then 0 else 4
              end in
  let units := match str_at o "/Units" with
               | Some u => if negb murdock && negb (caseless (zs "COUNT") u) then 2 else 0
               | None => 0
               end in
  let fl := wave + units in
  bit_for fl 0 (has_word v ["Wave"%string] "DILATATION") /\
  if murdock then 0 <= fl < 2
  else 0 <= fl < 8 /\ bit_for fl 1 (exists s, has_text v ["Units"%string] s /\ ~ begins "COUNT" s) /\ bit_for fl 2 (no_text v ["Wave"%string]).
Proof.
  intros S o wave units fl. pose proof (root_some v) as V.
  pose proof (word_spec _ _ "/Wave" ["Wave"%string] "DILATATION" V ltac:(nm) S) as W. unfold says_ in W. fold o in W.
  pose proof (str_spec _ _ "/Wave" ["Wave"%string] V ltac:(nm) S) as A. fold o in A.
  pose proof (str_spec _ _ "/Units" ["Units"%string] V ltac:(nm) S) as B. fold o in B.
  set (dil := match str_at o "/Wave" with Some s => caseless (zs "DILATATION") s | None => false end) in *.
  set (none := match str_at o "/Wave" with Some s => false | None => true end).
  set (unit := match str_at o "/Units" with Some u => negb (caseless (zs "COUNT") u) | None => false end).
  assert (Nn : none = true <-> no_text v ["Wave"%string]).
  { unfold none. destruct (str_at o "/Wave"); [|tauto]. split; [discriminate|]. intros Nt. destruct (Nt _ (proj1 A)). }
  assert (Un : unit = true <-> exists s, has_text v ["Units"%string] s /\ ~ begins "COUNT" s).
  { unfold unit. destruct (str_at o "/Units") as [u|].
    - rewrite negb_true_iff. split.
      + intros C. exists u. split; [apply B|]. rewrite <- begins_spec. congruence.
      + intros (s & T & Nb). rewrite <- (text_fun _ _ _ _ (proj1 B) T) in Nb. rewrite <- begins_spec in Nb. now destruct (caseless (zs "COUNT") u).
    - split; [discriminate|]. intros (s & T & _). destruct (B s T). }
  assert (E : fl = on dil 1 + on (negb murdock && unit) 2 + on (negb murdock && none) 4 + on false 8 + on false 16 + on false 32 + on false 64 + on false 128).
  { unfold fl, wave, units, dil, none, unit. destruct murdock, (str_at o "/Wave") as [s|], (str_at o "/Units") as [s'|]; cbn [negb andb on];
      repeat match goal with |- context [caseless ?a ?b] => destruct (caseless a b) end; reflexivity. }
  clearbody fl. subst fl. destruct (bits8 dil (negb murdock && unit) (negb murdock && none) false false false false false) as (B0 & B1 & B2 & _).
  split; [exact (bit_of _ _ _ _ B0 W)|]. destruct murdock; cbn [negb andb] in *.
  - destruct dil; vm_compute; split; congruence.
  - split; [destruct dil, unit, none; vm_compute; split; congruence|]. split; [exact (bit_of _ _ _ _ B1 Un)|exact (bit_of _ _ _ _ B2 Nn)].
Qed.

Lemma body200_ok hb mode v : sound v -> detection_ok v -> ~ has_word v ["Type"%string] "MURDOCK" ->
  exists b, body200 hb mode v = Ok (blk_body true b) /\ detects v b /\ blk_type b = 200.
Proof.
  intros S ((t & T) & _) Nm. pose proof (root_some v) as V.
  destruct (time_spec _ _ "/OnsetTime" ["OnsetTime"%string] hb mode t V ltac:(nm) S T) as [Et _].
  destruct (open_spec _ _ "/Detector" ["Detector"%string] 24 V ltac:(nm) S ltac:(lia)) as (de & Ede & Hde).
  destruct (float_spec _ _ "/SignalAmplitude" ["SignalAmplitude"%string] hb V ltac:(nm) S) as (a & Ea & Ha & _).
  destruct (float_spec _ _ "/SignalPeriod" ["SignalPeriod"%string] hb V ltac:(nm) S) as (p & Ep & Hp & _).
  destruct (float_spec _ _ "/BackgroundEstimate" ["BackgroundEstimate"%string] hb V ltac:(nm) S) as (k & Ek & Hk & _).
  destruct (wave_bits v false S) as (F0 & Fr & F1 & F2).
  unfold body200, body20x. rewrite Et. cbn [bind]. rewrite Ede. cbn [bind]. rewrite Ea, Ep, Ek.
  eexists. split; [|split; [eapply de_200; eassumption|reflexivity]]. cbn [blk_body]. rewrite <- !app_assoc. reflexivity.
Qed.

Lemma snr_ok n : Forall (in_u 8) n -> snr_bytes (map JInt n) = Ok n.
Proof.
  induction 1 as [|u n U F IH]; [reflexivity|]. cbn [map snr_bytes num_of]. 
  assert (Z0 : forallb (fun i => match to_uint 8 (dval (dbits (dofz i))) with Ok w => w =? i | _ => false end) (map Z.of_nat (seq 0 256)) = true) by (vm_compute; reflexivity).
  rewrite forallb_forall in Z0. specialize (Z0 u). unfold in_u in U.
  assert (I : In u (map Z.of_nat (seq 0 256))) by (apply in_map_iff; exists (Z.to_nat u); split; [lia|apply in_seq; lia]).
  specialize (Z0 I). destruct (to_uint 8 (dval (dbits (dofz u)))) as [w| | |]; try discriminate. cbn [bind]. rewrite IH. cbn [bind].
  apply Z.eqb_eq in Z0. now subst w.
Qed.

Lemma snr_at v : detection_ok v ->
  exists n, (match doc_get (Some v) (zs "/MEDSNR") with Some (JArr l) => snr_bytes l | _ => Ok [] end) = Ok n /\ (List.length n <= 6)%nat /\
    ((exists n', at_ v ["MEDSNR"%string] (JArr (map JInt n')) /\ n ++ repeat 0 (6 - List.length n) = n' ++ repeat 0 (6 - List.length n')) \/
     ((forall l, ~ at_ v ["MEDSNR"%string] (JArr l)) /\ n ++ repeat 0 (6 - List.length n) = repeat 0 6)).
Proof.
  intros [_ H]. assert (N : names_ "/MEDSNR" ["MEDSNR"%string]) by nm. rewrite (get_root _ _ _ _ (root_some v) N).
  destruct (look v (map zs ["MEDSNR"%string])) as [w|] eqn:E.
  - apply look_spec in E.
    assert (D : (exists l, w = JArr l) \/ forall l, w <> JArr l) by (destruct w; try (right; discriminate); left; eauto).
    destruct D as [[l ->]|D].
    + destruct (H l E) as (n & -> & L & F). exists n. rewrite snr_ok by exact F. split; [reflexivity|]. split; [exact L|]. left. exists n. auto.
    + exists []. split; [destruct w; try reflexivity; destruct (D l eq_refl)|]. split; [cbn; lia|]. right. split; [|reflexivity].
      intros l A. apply (D l), (at_fun _ _ _ _ E A).
  - exists []. split; [reflexivity|]. split; [cbn; lia|]. right. split; [|reflexivity]. intros l A. exact (proj1 (look_none _ _) E _ A).
Qed.

Lemma upto_lt o : match o with Some u => if u <? 255 then Some u else None | None => @None Z end = match o with Some u => if u <=? 254 then Some u else None | None => None end.
Proof. destruct o as [u|]; [|reflexivity]. destruct (Z.ltb_spec u 255), (Z.leb_spec u 254); try lia; reflexivity. Qed.

(** The thirty-two bytes of a blockette 201 from the SNR values on. *)
Lemma med_bytes (n : list Z) olb opk : (List.length n <= 6)%nat ->
  let b := over 0 n (repeat 0 32) in
  let b := match olb with Some u => if u <? 255 then over 6 [u] b else b | None => b end in
  let b := match opk with Some u => if u <? 255 then over 7 [u] b else b | None => b end in
  b = (n ++ repeat 0 (6 - List.length n)) ++ [f_upto 254 olb; f_upto 254 opk] ++ repeat 0 24.
Proof.
  intros L. cbv zeta.
  assert (E0 : over 0 n (repeat 0 32) = (n ++ repeat 0 (6 - List.length n)) ++ [0; 0] ++ repeat 0 24).
  { unfold over. cbn [firstn app]. do 7 (destruct n as [|? n]; [reflexivity|]; try (cbn [List.length] in L; lia)). }
  rewrite E0. clear E0. set (x := n ++ repeat 0 (6 - List.length n)).
  assert (Lx : List.length x = 6%nat) by (unfold x; rewrite app_length, repeat_length; lia). clearbody x.
  do 7 (destruct x as [|? x]; cbn [List.length] in Lx; try lia).
  destruct olb as [a|]; cbn [f_upto]; [destruct (Z.ltb_spec a 255), (Z.leb_spec a 254); try lia|];
    (destruct opk as [c|]; cbn [f_upto]; [destruct (Z.ltb_spec c 255), (Z.leb_spec c 254); try lia|]); reflexivity.
Qed.

Lemma over_tail x a b d : List.length x = 6%nat -> List.length d = 24%nat -> over 8 d (x ++ [a; b] ++ repeat 0 24) = x ++ [a; b] ++ d.
Proof.
  intros Lx Ld. unfold over. do 7 (destruct x as [|? x]; cbn [List.length] in Lx; try lia). rewrite Ld. cbn [firstn app]. 
  do 8 f_equal. rewrite <- (app_nil_r d) at 2. f_equal.
Qed.

Lemma open_absent n root j p ks : root_is root j -> names_ p ks -> sound j -> 0 <= n ->
  match str_at root p with Some s => True | None => label_for n j ks (mk_label [] 0) end.
Proof. intros R N S Hn. pose proof (str_spec _ _ _ _ R N S) as H. destruct (str_at root p); [exact I|]. right. auto. Qed.

Lemma label_len n l : lenZ (l_text l) <= n -> lenZ (label_bytes n l) = n.
Proof. intros L. unfold label_bytes. rewrite lenZ_app. unfold lenZ in *. rewrite repeat_length. lia. Qed.
Lemma label_for_len n j ks l : 0 <= n -> label_for n j ks l -> lenZ (l_text l) <= n.
Proof. intros N [(s & _ & ->)|[_ ->]]; cbn [l_text]; unfold lenZ; [rewrite firstn_length|cbn [List.length]]; lia. Qed.

Lemma body201_ok hb mode v : sound v -> detection_ok v -> has_word v ["Type"%string] "MURDOCK" ->
  exists b, body201 hb mode v = Ok (blk_body true b) /\ detects v b /\ blk_type b = 201.
Proof.
  intros S D Nm. pose proof D as ((t & T) & _). pose proof (root_some v) as V.
  destruct (time_spec _ _ "/OnsetTime" ["OnsetTime"%string] hb mode t V ltac:(nm) S T) as [Et _].
  destruct (open_spec _ _ "/Detector" ["Detector"%string] 24 V ltac:(nm) S ltac:(lia)) as (de & Ede & Hde).
  destruct (float_spec _ _ "/SignalAmplitude" ["SignalAmplitude"%string] hb V ltac:(nm) S) as (a & Ea & Ha & _).
  destruct (float_spec _ _ "/SignalPeriod" ["SignalPeriod"%string] hb V ltac:(nm) S) as (p & Ep & Hp & _).
  destruct (float_spec _ _ "/BackgroundEstimate" ["BackgroundEstimate"%string] hb V ltac:(nm) S) as (k & Ek & Hk & _).
  destruct (wave_bits v true S) as (F0 & Fr).
  destruct (snr_at v D) as (n & En & Ln & Hn).
  destruct (upto_spec _ _ "/MEDLookback" ["MEDLookback"%string] 254 V ltac:(nm) ltac:(lia)) as [Hlb _].
  destruct (upto_spec _ _ "/MEDPickAlgorithm" ["MEDPickAlgorithm"%string] 254 V ltac:(nm) ltac:(lia)) as [Hpk _].
  unfold body201, body20x. rewrite Et. cbn [bind]. rewrite En. cbn [bind]. rewrite Ea, Ep, Ek.
  rewrite (med_bytes n (uint_at (Some v) "/MEDLookback") (uint_at (Some v) "/MEDPickAlgorithm") Ln).
  set (x := n ++ repeat 0 (6 - List.length n)) in *.
  assert (Lx : List.length x = 6%nat) by (unfold x; rewrite app_length, repeat_length; lia).
  set (lb := f_upto 254 (uint_at (Some v) "/MEDLookback")) in *. set (pk := f_upto 254 (uint_at (Some v) "/MEDPickAlgorithm")) in *.
  assert (Ed : (match str_at (Some v) "/Detector" with
                | Some s => let! d := f_open 24 (Some s) in Ok (over 8 d (x ++ [lb; pk] ++ repeat 0 24))
                | None => Ok (x ++ [lb; pk] ++ repeat 0 24)
                end) = Ok (x ++ [lb; pk] ++ label_bytes 24 de)).
  { destruct (str_at (Some v) "/Detector") as [s|].
    - rewrite Ede. cbn [bind]. rewrite over_tail; [reflexivity|exact Lx|]. pose proof (label_len 24 de (label_for_len 24 _ _ _ ltac:(lia) Hde)) as L. unfold lenZ in L. lia.
    - cbn [f_open] in Ede. injection Ede as <-. reflexivity. }
  rewrite Ed. cbn [bind].
  eexists. split; [|split; [eapply (de_201 v a p k _ t x lb pk de); try eassumption|reflexivity]]. { cbn [blk_body]. rewrite <- !app_assoc. reflexivity. }
Qed.

(** ** Calibrations *)

Lemma on_sum4 a b c d : on a 1 + on b 2 + on c 4 + on d 8 = on a 1 + on b 2 + on c 4 + on d 8 + on false 16 + on false 32 + on false 64 + on false 128.
Proof. cbn [on]. lia. Qed.

Lemma body300_ok hb mode v : sound v -> calibration_ok v -> (exists t, has_time v ["BeginTime"%string] t) -> has_word v ["Type"%string] "STEP" ->
  exists b, body300 hb mode v = Ok (blk_body true b) /\ begun v b /\ blk_type b = 300.
Proof.
  intros S (_ & _ & Rd & Rs & Rr) (t & T) Ty. pose proof (root_some v) as V.
  destruct (time_spec _ _ "/BeginTime" ["BeginTime"%string] hb mode t V ltac:(nm) S T) as [Et _].
  destruct (upto_spec _ _ "/Steps" ["Steps"%string] 255 V ltac:(nm) ltac:(lia)) as [Hst _].
  destruct (scaled_spec _ _ "/Duration" ["Duration"%string] hb V ltac:(nm) S Rd) as (d & Ed & Hd & _).
  destruct (scaled_spec _ _ "/StepBetween" ["StepBetween"%string] hb V ltac:(nm) S Rs) as (i & Ei & Hi & _).
  destruct (float_spec _ _ "/Amplitude" ["Amplitude"%string] hb V ltac:(nm) S) as (a & Ea & Ha & _).
  destruct (open_spec _ _ "/InputChannel" ["InputChannel"%string] 3 V ltac:(nm) S ltac:(lia)) as (ch & Ech & Hch).
  destruct (round_spec _ _ "/ReferenceAmplitude" ["ReferenceAmplitude"%string] hb V ltac:(nm) S Rr) as (rf & Erf & Hrf & _).
  destruct (open_spec _ _ "/Coupling" ["Coupling"%string] 12 V ltac:(nm) S ltac:(lia)) as (cpl & Ecp & Hcp).
  destruct (open_spec _ _ "/Rolloff" ["Rolloff"%string] 12 V ltac:(nm) S ltac:(lia)) as (rol & Ero & Hro).
  unfold body300. rewrite Et. cbn [bind]. rewrite Ed, Ei, Ech, Erf, Ecp, Ero. cbn [bind]. rewrite Ea, on_sum4.
  destruct (bits8 (bool_at (Some v) "/StepFirstPulsePositive") (bool_at (Some v) "/StepAlternateSign") (says_ (Some v) "/Trigger" "AUTOMATIC")
              (bool_at (Some v) "/Continued") false false false false) as (B0 & B1 & B2 & B3 & _).
  set (fl := on _ 1 + _ + _ + _ + _ + _ + _ + _) in *.
  assert (Fr : 0 <= fl < 16) by (unfold fl; destruct (bool_at _ "/StepFirstPulsePositive"), (bool_at _ "/StepAlternateSign"), (says_ _ _ _), (bool_at _ _); cbn [on]; lia).
  eexists. split; [|split; [eapply (ca_300 v t _ fl d i a ch rf cpl rol); try eassumption|reflexivity]]; [reflexivity|..].
  - eapply bit_of; [exact B0|]. apply bool_spec; [exact V|nm].
  - eapply bit_of; [exact B1|]. apply bool_spec; [exact V|nm].
  - eapply bit_of; [exact B2|]. apply word_spec; [exact V|nm|exact S].
  - eapply bit_of; [exact B3|]. apply bool_spec; [exact V|nm].
Qed.

Lemma body310_ok hb mode v : sound v -> calibration_ok v -> (exists t, has_time v ["BeginTime"%string] t) -> has_word v ["Type"%string] "SINE" ->
  exists b, body310 hb mode v = Ok (blk_body true b) /\ begun v b /\ blk_type b = 310.
Proof.
  intros S (_ & _ & Rd & Rs & Rr) (t & T) Ty. pose proof (root_some v) as V.
  destruct (time_spec _ _ "/BeginTime" ["BeginTime"%string] hb mode t V ltac:(nm) S T) as [Et _].
  destruct (scaled_spec _ _ "/Duration" ["Duration"%string] hb V ltac:(nm) S Rd) as (d & Ed & Hd & _).
  destruct (float_spec _ _ "/SinePeriod" ["SinePeriod"%string] hb V ltac:(nm) S) as (p & Ep & Hp & _).
  destruct (float_spec _ _ "/Amplitude" ["Amplitude"%string] hb V ltac:(nm) S) as (a & Ea & Ha & _).
  destruct (open_spec _ _ "/InputChannel" ["InputChannel"%string] 3 V ltac:(nm) S ltac:(lia)) as (ch & Ech & Hch).
  destruct (round_spec _ _ "/ReferenceAmplitude" ["ReferenceAmplitude"%string] hb V ltac:(nm) S Rr) as (rf & Erf & Hrf & _).
  destruct (open_spec _ _ "/Coupling" ["Coupling"%string] 12 V ltac:(nm) S ltac:(lia)) as (cpl & Ecp & Hcp).
  destruct (open_spec _ _ "/Rolloff" ["Rolloff"%string] 12 V ltac:(nm) S ltac:(lia)) as (rol & Ero & Hro).
  unfold body310. rewrite Et. cbn [bind]. rewrite Ed, Ech, Erf, Ecp, Ero. cbn [bind]. rewrite Ea, Ep.
  destruct (bits8 false false (says_ (Some v) "/Trigger" "AUTOMATIC") (bool_at (Some v) "/Continued") (says_ (Some v) "/AmplitudeRange" "PEAKTOPEAK")
              (says_ (Some v) "/AmplitudeRange" "ZEROTOPEAK") (says_ (Some v) "/AmplitudeRange" "RMS") false) as (B0 & B1 & B2 & B3 & B4 & B5 & B6 & _).
  set (fl := on (says_ (Some v) "/Trigger" "AUTOMATIC") 4 + _ + _ + _ + _).
  assert (Ef : on false 1 + on false 2 + on (says_ (Some v) "/Trigger" "AUTOMATIC") 4 + on (bool_at (Some v) "/Continued") 8 + on (says_ (Some v) "/AmplitudeRange" "PEAKTOPEAK") 16
     + on (says_ (Some v) "/AmplitudeRange" "ZEROTOPEAK") 32 + on (says_ (Some v) "/AmplitudeRange" "RMS") 64 + on false 128 = fl) by (unfold fl; cbn [on]; lia).
  rewrite Ef in *.
  assert (Fr : 0 <= fl < 128) by (unfold fl; repeat match goal with |- context [on ?b _] => destruct b; cbn [on] end; lia).
  eexists. split; [|split; [eapply (ca_310 v t fl d p a ch rf cpl rol); try eassumption|reflexivity]]; [reflexivity|..].
  - now apply bit_no.
  - now apply bit_no.
  - eapply bit_of; [exact B2|]. apply word_spec; [exact V|nm|exact S].
  - eapply bit_of; [exact B3|]. apply bool_spec; [exact V|nm].
  - eapply bit_of; [exact B4|]. apply word_spec; [exact V|nm|exact S].
  - eapply bit_of; [exact B5|]. apply word_spec; [exact V|nm|exact S].
  - eapply bit_of; [exact B6|]. apply word_spec; [exact V|nm|exact S].
Qed.

Lemma body320_ok hb mode v : sound v -> calibration_ok v -> (exists t, has_time v ["BeginTime"%string] t) -> has_word v ["Type"%string] "PSEUDORANDOM" ->
  exists b, body320 hb mode v = Ok (blk_body true b) /\ begun v b /\ blk_type b = 320.
Proof.
  intros S (_ & _ & Rd & Rs & Rr) (t & T) Ty. pose proof (root_some v) as V.
  destruct (time_spec _ _ "/BeginTime" ["BeginTime"%string] hb mode t V ltac:(nm) S T) as [Et _].
  destruct (scaled_spec _ _ "/Duration" ["Duration"%string] hb V ltac:(nm) S Rd) as (d & Ed & Hd & _).
  destruct (float_spec _ _ "/Amplitude" ["Amplitude"%string] hb V ltac:(nm) S) as (a & Ea & Ha & _).
  destruct (open_spec _ _ "/InputChannel" ["InputChannel"%string] 3 V ltac:(nm) S ltac:(lia)) as (ch & Ech & Hch).
  destruct (round_spec _ _ "/ReferenceAmplitude" ["ReferenceAmplitude"%string] hb V ltac:(nm) S Rr) as (rf & Erf & Hrf & _).
  destruct (open_spec _ _ "/Coupling" ["Coupling"%string] 12 V ltac:(nm) S ltac:(lia)) as (cpl & Ecp & Hcp).
  destruct (open_spec _ _ "/Rolloff" ["Rolloff"%string] 12 V ltac:(nm) S ltac:(lia)) as (rol & Ero & Hro).
  destruct (open_spec _ _ "/Noise" ["Noise"%string] 8 V ltac:(nm) S ltac:(lia)) as (noi & Eno & Hno).
  unfold body320. rewrite Et. cbn [bind]. rewrite Ed, Ech, Erf, Ecp, Ero, Eno. cbn [bind]. rewrite Ea.
  destruct (bits8 false false (says_ (Some v) "/Trigger" "AUTOMATIC") (bool_at (Some v) "/Continued") (says_ (Some v) "/AmplitudeRange" "RANDOM")
              false false false) as (B0 & B1 & B2 & B3 & B4 & _).
  set (fl := on (says_ (Some v) "/Trigger" "AUTOMATIC") 4 + _ + _).
  assert (Ef : on false 1 + on false 2 + on (says_ (Some v) "/Trigger" "AUTOMATIC") 4 + on (bool_at (Some v) "/Continued") 8 + on (says_ (Some v) "/AmplitudeRange" "RANDOM") 16
     + on false 32 + on false 64 + on false 128 = fl) by (unfold fl; cbn [on]; lia).
  rewrite Ef in *.
  assert (Fr : 0 <= fl < 32) by (unfold fl; repeat match goal with |- context [on ?b _] => destruct b; cbn [on] end; lia).
  eexists. split; [|split; [eapply (ca_320 v t fl d a ch rf cpl rol noi); try eassumption|reflexivity]]; [reflexivity|..].
  - now apply bit_no.
  - now apply bit_no.
  - eapply bit_of; [exact B2|]. apply word_spec; [exact V|nm|exact S].
  - eapply bit_of; [exact B3|]. apply bool_spec; [exact V|nm].
  - eapply bit_of; [exact B4|]. apply word_spec; [exact V|nm|exact S].
Qed.

Lemma body390_ok hb mode v : sound v -> calibration_ok v -> (exists t, has_time v ["BeginTime"%string] t) -> has_word v ["Type"%string] "GENERIC" ->
  exists b, body390 hb mode v = Ok (blk_body true b) /\ begun v b /\ blk_type b = 390.
Proof.
  intros S (_ & _ & Rd & Rs & Rr) (t & T) Ty. pose proof (root_some v) as V.
  destruct (time_spec _ _ "/BeginTime" ["BeginTime"%string] hb mode t V ltac:(nm) S T) as [Et _].
  destruct (scaled_spec _ _ "/Duration" ["Duration"%string] hb V ltac:(nm) S Rd) as (d & Ed & Hd & _).
  destruct (float_spec _ _ "/Amplitude" ["Amplitude"%string] hb V ltac:(nm) S) as (a & Ea & Ha & _).
  destruct (open_spec _ _ "/InputChannel" ["InputChannel"%string] 3 V ltac:(nm) S ltac:(lia)) as (ch & Ech & Hch).
  unfold body390. rewrite Et. cbn [bind]. rewrite Ed, Ech. cbn [bind]. rewrite Ea.
  destruct (bits8 false false (says_ (Some v) "/Trigger" "AUTOMATIC") (bool_at (Some v) "/Continued") false false false false) as (B0 & B1 & B2 & B3 & _).
  set (fl := on (says_ (Some v) "/Trigger" "AUTOMATIC") 4 + _).
  assert (Ef : on false 1 + on false 2 + on (says_ (Some v) "/Trigger" "AUTOMATIC") 4 + on (bool_at (Some v) "/Continued") 8 + on false 16
     + on false 32 + on false 64 + on false 128 = fl) by (unfold fl; cbn [on]; lia).
  rewrite Ef in *.
  assert (Fr : 0 <= fl < 16) by (unfold fl; repeat match goal with |- context [on ?b _] => destruct b; cbn [on] end; lia).
  eexists. split; [|split; [eapply (ca_390 v t fl d a ch); try eassumption|reflexivity]]; [reflexivity|..].
  - now apply bit_no.
  - now apply bit_no.
  - eapply bit_of; [exact B2|]. apply word_spec; [exact V|nm|exact S].
  - eapply bit_of; [exact B3|]. apply bool_spec; [exact V|nm].
Qed.

Lemma body395_ok hb mode v t : sound v -> has_time v ["EndTime"%string] t ->
  body395 hb mode v = Ok (blk_body true (B395 (btime_at t) [0; 0])).
Proof.
  intros S T. destruct (time_spec _ _ "/EndTime" ["EndTime"%string] hb mode t (root_some v) ltac:(nm) S T) as [Et _].
  unfold body395. rewrite Et. reflexivity.
Qed.
