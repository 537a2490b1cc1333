(** * Proofs about the gap list. *)

From Coq Require Import Lqa.
From Verif Require Import Base BaseLemmas FloatOpsProof SampleSpec SampleProof TlModel TlSpec TlHeap TlProof TlTime TlIds RateProof GapModel GapSpec.
Open Scope Z_scope.

Notation E53 := (1 # 9007199254740992)%Q (only parsing).

(** One rounding of a number that is zero or in the normal range. *)
Lemma rnd_pos_near x : (inject_Z 1 / inject_Z (2 ^ 1000) <= x)%Q -> (x <= inject_Z (2 ^ 1000))%Q ->
  exists v, drnd x = DFin v /\ (x * (1 - E53) <= v <= x * (1 + E53))%Q.
Proof.
  intros H0 H1. destruct (rnd64_rel x) as (v & E & B).
  - eapply Qle_trans; [|exact H0]. vm_compute. discriminate.
  - eapply Qle_lt_trans; [exact H1|]. vm_compute. reflexivity.
  - exists v. split; [unfold drnd; now rewrite E|]. change (P2 (-53)) with E53 in B. exact B.
Qed.

Lemma drnd_opp x v : drnd x = DFin v -> drnd (- x) = DFin (- v).
Proof. unfold drnd. rewrite rnd64_opp. destruct (rnd64 x); congruence. Qed.

Lemma qnum_zero x : (x == 0)%Q -> Qnum x = 0.
Proof. unfold Qeq. cbn. lia. Qed.

Lemma drnd_zero x : (x == 0)%Q -> drnd x = DFin 0%Q.
Proof. intro H. unfold drnd, rnd64. now rewrite (qnum_zero x H). Qed.

Lemma drnd_near x : ((x == 0) \/ (inject_Z 1 / inject_Z (2 ^ 1000) <= Qabs x <= inject_Z (2 ^ 1000)))%Q ->
  exists v, drnd x = DFin v /\ (Qabs (v - x) <= Qabs x * E53)%Q.
Proof.
  intros [H|[H0 H1]].
  - exists 0%Q. split; [now apply drnd_zero|]. rewrite H. vm_compute. discriminate.
  - destruct (Qlt_le_dec x 0) as [C|C].
    + pose proof (Qabs_neg x ltac:(lra)) as W. rewrite W in *. destruct (rnd_pos_near (- x) H0 H1) as (v & E & B).
      exists (- v)%Q. split; [apply drnd_opp in E; rewrite qopp_opp in E; exact E|]. apply Qabs_Qle_condition. split; lra.
    + pose proof (Qabs_pos x C) as W. rewrite W in *. destruct (rnd_pos_near x H0 H1) as (v & E & B).
      exists v. split; [exact E|]. apply Qabs_Qle_condition. split; lra.
Qed.

Ltac bigs := change (inject_Z 1 / inject_Z (2 ^ 1000))%Q with (1 # Z.to_pos (2 ^ 1000)) in *.

Lemma small_normal : (inject_Z 1 / inject_Z (2 ^ 1000) <= 1 # (10 ^ 280))%Q.
Proof. vm_compute. discriminate. Qed.
Lemma big_normal : (inject_Z (2 ^ 950) <= inject_Z (2 ^ 1000))%Q.
Proof. vm_compute. discriminate. Qed.

(** Integers in seconds. *)
Lemma seconds_near mode x y : Z.abs (x - y) <= 2 * time_max ->
  exists g, seconds mode x y = Ok (DFin g) /\ (Qabs (g - secs (x - y)) <= Qabs (secs (x - y)) * (3 * E53))%Q.
Proof.
  intros H. unfold seconds. rewrite sarith_ok by (unfold in_s; lia). cbn [bind]. remember (x - y) as d eqn:Ed. clear Ed x y.
  destruct (Z.eq_dec d 0) as [->|Hd].
  - exists 0%Q. split; [vm_compute; reflexivity|vm_compute; discriminate].
  - assert (A : (1 <= Qabs (inject_Z d) <= inject_Z (2 * time_max))%Q).
    { change (Qabs (inject_Z d)) with (inject_Z (Z.abs d)). change 1%Q with (inject_Z 1). rewrite <- !zq_le. lia. }
    change (inject_Z (2 * time_max)) with (8000000000000000000 # 1) in A.
    destruct (drnd_near (inject_Z d)) as (a & Ea & Ba).
    { right. split; [eapply Qle_trans; [exact small_normal|]; eapply Qle_trans; [|apply A]; vm_compute; discriminate|].
      eapply Qle_trans; [apply A|]. vm_compute; discriminate. }
    unfold dofz. rewrite Ea. unfold d1e9, ddiv. change (qzero (inject_Z NSTMODULUS)) with false. cbv iota.
    assert (Sa : (Qabs (a / inject_Z NSTMODULUS) == Qabs a * (1 # 1000000000))%Q).
    { unfold Qdiv. rewrite Qabs_Qmult. reflexivity. }
    assert (Sd : (Qabs (secs d) == Qabs (inject_Z d) * (1 # 1000000000))%Q).
    { unfold secs, Qdiv. rewrite Qabs_Qmult. reflexivity. }
    assert (Aa : (Qabs (inject_Z d) * (1 - E53) <= Qabs a <= Qabs (inject_Z d) * (1 + E53))%Q).
    { pose proof (Qabs_triangle_reverse a (inject_Z d)). pose proof (Qabs_triangle_reverse (inject_Z d) a).
      rewrite (Qabs_Qminus (inject_Z d) a) in H1. split; lra. }
    destruct (drnd_near (a / inject_Z NSTMODULUS)) as (g & Eg & Bg).
    { right. rewrite Sa. split; [eapply Qle_trans; [exact small_normal|]|eapply Qle_trans; [|exact big_normal]].
      - eapply Qle_trans; [|apply Qmult_le_compat_r; [apply Aa|discriminate]].
        eapply Qle_trans; [|apply Qmult_le_compat_r; [apply Qmult_le_compat_r; [apply A|discriminate]|discriminate]]. vm_compute. discriminate.
      - eapply Qle_trans; [apply Qmult_le_compat_r; [apply Aa|discriminate]|].
        eapply Qle_trans; [apply Qmult_le_compat_r; [apply Qmult_le_compat_r; [apply A|discriminate]|discriminate]|]. vm_compute. discriminate. }
    exists g. split; [now rewrite Eg|]. rewrite Sa in Bg. rewrite Sd.
    setoid_replace (g - secs d)%Q with ((g - a / inject_Z NSTMODULUS) + (a - inject_Z d) * (1 # 1000000000))%Q
      by (unfold secs; change NSTMODULUS with 1000000000; field).
    eapply Qle_trans; [apply Qabs_triangle|]. rewrite (Qabs_Qmult _ (1 # 1000000000)). change (Qabs (1 # 1000000000)) with (1 # 1000000000). lra.
Qed.

Lemma secs_bound d : Z.abs d <= 2 * time_max -> ((secs d == 0) \/ ((1 # 1000000000) <= Qabs (secs d)))%Q /\ (Qabs (secs d) <= 8000000000 # 1)%Q.
Proof.
  intros H. assert (Sd : (Qabs (secs d) == Qabs (inject_Z d) * (1 # 1000000000))%Q) by (unfold secs, Qdiv; rewrite Qabs_Qmult; reflexivity).
  split.
  - destruct (Z.eq_dec d 0) as [->|Hd]; [left; reflexivity|right]. rewrite Sd. change (Qabs (inject_Z d)) with (inject_Z (Z.abs d)).
    assert (inject_Z 1 <= inject_Z (Z.abs d))%Q by (rewrite <- zq_le; lia). change (inject_Z 1) with 1%Q in *. lra.
  - rewrite Sd. change (Qabs (inject_Z d)) with (inject_Z (Z.abs d)).
    assert (inject_Z (Z.abs d) <= inject_Z (2 * time_max))%Q by (rewrite <- zq_le; lia). change (inject_Z (2 * time_max)) with (8000000000000000000 # 1) in *. lra.
Qed.

Lemma rel_pos v q e : (0 <= q)%Q -> (Qabs (v - q) <= q * e)%Q -> (q * (1 - e) <= v <= q * (1 + e))%Q.
Proof. intros H B. apply Qabs_Qle_condition in B. destruct B. split; lra. Qed.

Lemma inv_bounds h lo hi : (0 < lo)%Q -> (lo <= h <= hi)%Q -> (1 / hi <= 1 / h <= 1 / lo)%Q.
Proof.
  intros L [A B]. split; (apply Qle_shift_div_l; [lra|]);
    [setoid_replace (1 / hi * h)%Q with (h / hi)%Q by (field; lra)|setoid_replace (1 / h * lo)%Q with (lo / h)%Q by (field; lra)];
    apply Qle_shift_div_r; lra.
Qed.

Lemma is_zero_eq q : is_zero (DFin q) = Qeq_bool q 0.
Proof. unfold is_zero, qzero. unfold Qeq_bool, Zeq_bool. cbn [Qnum Qden]. rewrite Z.mul_1_r, Z.mul_0_l. destruct (Z.compare_spec (Qnum q) 0); lia. Qed.

Lemma cov_near mode b : gap_seg b ->
  exists c1 c, seconds mode (s_end b) (s_start b) = Ok (DFin c1)
    /\ dadd (DFin c1) (if is_zero (s_hz b) then dzero else ddiv (DFin 1%Q) (s_hz b)) = DFin c
    /\ (0 <= coverage b <= 1000008000000000 # 1)%Q /\ (coverage b * (1 - 5 * E53) <= c <= coverage b * (1 + 5 * E53))%Q.
Proof.
  intros (H1 & H2 & H3 & h & Eh & Hh). destruct (seconds_near mode (s_end b) (s_start b) ltac:(lia)) as (c1 & E1 & B1).
  destruct (secs_bound (s_end b - s_start b) ltac:(lia)) as [S1 S2].
  assert (S0 : (0 <= secs (s_end b - s_start b))%Q).
  { unfold secs. apply Qle_shift_div_l; [reflexivity|]. rewrite Qmult_0_l. change 0%Q with (inject_Z 0). rewrite <- zq_le. lia. }
  pose proof (Qabs_pos _ S0) as W. rewrite W in *. apply rel_pos in B1; [|exact S0].
  unfold coverage, rate_of. rewrite Eh. rewrite is_zero_eq.
  remember (secs (s_end b - s_start b)) as z eqn:Ez. exists c1. destruct (Qeq_bool h 0) eqn:Ez0.
  - assert (X : exists c, dadd (DFin c1) dzero = DFin c /\ (Qabs (c - (c1 + 0)) <= Qabs (c1 + 0) * E53)%Q).
    { unfold dadd, dzero. apply drnd_near. destruct S1 as [S1|S1]; [left; lra|right]. rewrite Qabs_pos by lra. split.
      - eapply Qle_trans; [exact small_normal|]. apply Qle_trans with (1 # 10000000000); [vm_compute; discriminate|lra].
      - eapply Qle_trans; [|exact big_normal]. apply Qle_trans with (10000000000 # 1); [lra|vm_compute; discriminate]. }
    destruct X as (c & Ec & Bc). exists c. rewrite (Qabs_pos (c1 + 0)) in Bc by lra. apply rel_pos in Bc; [|lra].
    split; [exact E1|]. split; [exact Ec|]. split; [split; lra|split; lra].
  - apply Qeq_bool_neq in Ez0. destruct Hh as [Hh|Hh]; [contradiction|].
    pose proof (inv_bounds h (1 # 1000000000000) (inject_Z (2 ^ 900)) ltac:(reflexivity) Hh) as Bi.
    assert (Li : (1 # (10 ^ 275) <= 1 / inject_Z (2 ^ 900))%Q) by (vm_compute; discriminate).
    change (1 / (1 # 1000000000000))%Q with (1000000000000 # 1) in Bi.
    assert (P : (0 < 1 / h)%Q) by (eapply Qlt_le_trans; [|apply Bi]; reflexivity).
    assert (L : (1 # (10 ^ 275) <= 1 / h)%Q) by (eapply Qle_trans; [exact Li|apply Bi]).
    assert (U : (1 / h <= 1000000000000 # 1)%Q) by apply Bi. clear Bi Li.
    destruct (drnd_near (1 / h)) as (d & Ed & Bd).
    { right. rewrite Qabs_pos by lra. split.
      - eapply Qle_trans; [exact small_normal|]. eapply Qle_trans; [|exact L]. vm_compute; discriminate.
      - eapply Qle_trans; [exact U|]. vm_compute; discriminate. }
    rewrite (Qabs_pos (1 / h)) in Bd by lra. apply rel_pos in Bd; [|lra].
    unfold ddiv. replace (qzero h) with false by (symmetry; rewrite <- (is_zero_eq h) || idtac; unfold qzero; apply Z.eqb_neq; intro C; apply Ez0; unfold Qeq; cbn; lia).
    rewrite Ed. remember (1 / h)%Q as i eqn:Ei.
    assert (L' : (1 # (10 ^ 276) <= c1 + d)%Q).
    { apply Qle_trans with ((1 # 10 ^ 275) * (1 - E53))%Q; [vm_compute; discriminate|]. 
      apply Qle_trans with (i * (1 - E53))%Q; [apply Qmult_le_compat_r; [exact L|discriminate]|]. lra. }
    assert (X : exists c, dadd (DFin c1) (DFin d) = DFin c /\ (Qabs (c - (c1 + d)) <= Qabs (c1 + d) * E53)%Q).
    { unfold dadd. apply drnd_near. right. rewrite Qabs_pos by lra. split.
      - eapply Qle_trans; [exact small_normal|]. eapply Qle_trans; [|exact L']. vm_compute; discriminate.
      - eapply Qle_trans; [|exact big_normal]. apply Qle_trans with (10000000000000000 # 1); [lra|vm_compute; discriminate]. }
    destruct X as (c & Ec & Bc). exists c. clear L L'. rewrite (Qabs_pos (c1 + d)) in Bc by lra. apply rel_pos in Bc; [|lra].
    split; [exact E1|]. split; [exact Ec|]. split; [split; lra|split; lra].
Qed.

Lemma close_abs v q : close v q -> (Qabs q * (1 - 8 * E53) <= Qabs v <= Qabs q * (1 + 8 * E53))%Q.
Proof.
  unfold close. intro H.
  pose proof (Qabs_triangle_reverse v q). pose proof (Qabs_triangle_reverse q v). rewrite (Qabs_Qminus q v) in H1. split; lra.
Qed.

Lemma gap_near mode a b : gap_seg a -> gap_seg b ->
  exists v, gap_of mode a b = Ok (DFin v) /\ close v (to_report a b)
    /\ ((v == 0)%Q \/ ((1 # 10 ^ 280) <= Qabs v)%Q) /\ (Qabs v <= 8000000001 # 1)%Q.
Proof.
  intros Ha Hb. pose proof Ha as (A1 & A2 & A3 & _). pose proof Hb as (B1 & B2 & B3 & hb & Ehb & Hhb).
  destruct (seconds_near mode (s_start b) (s_end a) ltac:(lia)) as (g & Eg & Bg).
  destruct (secs_bound (s_start b - s_end a) ltac:(lia)) as [S1 S2].
  destruct (cov_near mode b Hb) as (c1 & c & E1 & Ec & Cb & Bc).
  assert (LC : (coverage b == 0)%Q \/ ((1 # 10 ^ 276) <= coverage b)%Q).
  { clear - B1 B2 B3 Ehb Hhb. unfold coverage, rate_of. rewrite Ehb. destruct (secs_bound (s_end b - s_start b) ltac:(lia)) as [S1 _].
    assert (S0 : (0 <= secs (s_end b - s_start b))%Q).
    { unfold secs. apply Qle_shift_div_l; [reflexivity|]. rewrite Qmult_0_l. change 0%Q with (inject_Z 0). rewrite <- zq_le. lia. }
    rewrite (Qabs_pos _ S0) in S1. destruct (Qeq_bool hb 0) eqn:E.
    - destruct S1 as [S1|S1]; [left; lra|right]. apply Qle_trans with (1 # 1000000000); [vm_compute; discriminate|lra].
    - right. apply Qeq_bool_neq in E. destruct Hhb as [Hh|Hh]; [contradiction|].
      pose proof (inv_bounds hb (1 # 1000000000000) (inject_Z (2 ^ 900)) ltac:(reflexivity) Hh) as [Bi _].
      apply Qle_trans with (1 / inject_Z (2 ^ 900))%Q; [vm_compute; discriminate|]. lra. }
  unfold gap_of. rewrite Eg. cbn [bind]. unfold to_report, exact_gap.
  remember (secs (s_start b - s_end a)) as z eqn:Ez. clear Ez.
  destruct (Qle_bool 0 z) eqn:Ez.
  - apply Qle_bool_iff in Ez. pose proof (Qabs_pos z Ez) as W. rewrite W in *. apply rel_pos in Bg; [|exact Ez].
    replace (dlt (DFin g) dzero) with false.
    2:{ symmetry. destruct (dlt (DFin g) dzero) eqn:D; [|reflexivity]. apply dlt_fin in D. lra. }
    exists g. split; [reflexivity|]. unfold close. rewrite W. split; [apply Qabs_Qle_condition; split; lra|]. rewrite (Qabs_pos g) by lra.
    split; [|lra]. destruct S1 as [S1|S1]; [left; lra|right]. apply Qle_trans with (1 # 10000000000); [vm_compute; discriminate|lra].
  - assert (Hz : (z < 0)%Q). { apply Qnot_le_lt. intro C. apply Qle_bool_iff in C. congruence. }
    pose proof (Qabs_neg z ltac:(lra)) as W. rewrite W in *. destruct S1 as [S1|S1]; [lra|].
    apply Qabs_Qle_condition in Bg. replace (dlt (DFin g) dzero) with true by (symmetry; apply dlt_fin; lra).
    rewrite E1. cbn [bind]. rewrite Ec.
    destruct (drnd_near (g * (-1 # 1))) as (m & Em & Bm).
    { right. rewrite Qabs_pos by lra. split.
      - eapply Qle_trans; [exact small_normal|]. apply Qle_trans with (1 # 10000000000); [vm_compute; discriminate|lra].
      - eapply Qle_trans; [|exact big_normal]. apply Qle_trans with (10000000000 # 1); [lra|vm_compute; discriminate]. }
    rewrite (Qabs_pos (g * (-1 # 1))) in Bm by lra. apply rel_pos in Bm; [|lra].
    unfold dmul. rewrite Em. destruct (dlt (DFin c) (DFin m)) eqn:D.
    + apply dlt_fin in D. exists (- c)%Q. split; [reflexivity|]. split; [|split].
      * destruct (Qle_bool (- coverage b) z) eqn:Q; unfold close; [rewrite W|pose proof (Qabs_neg (- coverage b) ltac:(lra)) as W'; rewrite W'];
          apply Qabs_Qle_condition; [apply Qle_bool_iff in Q|clear Q]; split; lra.
      * rewrite Qabs_opp. rewrite (Qabs_pos c) by lra. destruct LC as [LC|LC]; [left; lra|right].
        apply Qle_trans with ((1 # 10 ^ 276) * (1 - 5 * E53))%Q; [vm_compute; discriminate|].
        eapply Qle_trans; [apply Qmult_le_compat_r; [exact LC|vm_compute; discriminate]|]. lra.
      * rewrite Qabs_opp. rewrite (Qabs_pos c) by lra. lra.
    + assert (D' : (m <= c)%Q). { apply Qnot_lt_le. intro C. apply dlt_fin in C. congruence. } clear D.
      exists g. split; [reflexivity|]. split; [|split].
      * destruct (Qle_bool (- coverage b) z) eqn:Q; unfold close; [rewrite W|pose proof (Qabs_neg (- coverage b) ltac:(lra)) as W'; rewrite W'];
          apply Qabs_Qle_condition; [apply Qle_bool_iff in Q; clear LC; split; lra|].
        assert (z < - coverage b)%Q. { apply Qnot_le_lt. intro C. apply Qle_bool_iff in C. congruence. } clear LC. split; lra.
      * right. rewrite (Qabs_neg g) by lra. apply Qle_trans with (1 # 10000000000); [vm_compute; discriminate|lra].
      * rewrite (Qabs_neg g) by lra. lra.
Qed.

Lemma drnd_any x : (Qabs x <= inject_Z (2 ^ 950))%Q -> exists v, drnd x = DFin v /\ (Qabs (v - x) <= Qabs x * E53 + (1 # 10 ^ 40))%Q.
Proof.
  assert (B : (inject_Z (2 ^ 950) < P2 1000)%Q) by (vm_compute; reflexivity).
  intros H. destruct (Qlt_le_dec x 0) as [C|C].
  - pose proof (Qabs_neg x ltac:(lra)) as W. rewrite W in *. destruct (rnd_bound (- x)) as (v & E & Bv); [lra|eapply Qle_lt_trans; eassumption|].
    exists (- v)%Q. split; [apply drnd_opp with (x := (- x)%Q) in E || idtac; assert (E' : drnd (- x) = DFin v) by (unfold drnd; now rewrite E); apply drnd_opp in E'; rewrite qopp_opp in E'; exact E'|].
    unfold eps, tiny in Bv. clear B H. change (10 ^ 40)%positive with 10000000000000000000000000000000000000000%positive. apply Qabs_Qle_condition. split; lra.
  - pose proof (Qabs_pos x C) as W. rewrite W in *. destruct (rnd_bound x) as (v & E & Bv); [lra|eapply Qle_lt_trans; eassumption|].
    exists v. split; [unfold drnd; now rewrite E|]. unfold eps, tiny in Bv. clear B H. change (10 ^ 40)%positive with 10000000000000000000000000000000000000000%positive. apply Qabs_Qle_condition. split; lra.
Qed.

Lemma dlt_false a b : dlt (DFin a) (DFin b) = false <-> (b <= a)%Q.
Proof.
  rewrite <- Bool.not_true_iff_false, dlt_fin. split; [intro H; now apply Qnot_lt_le|intros H C; lra].
Qed.
Lemma dle_fin a b : dle (DFin a) (DFin b) = true <-> (a <= b)%Q.
Proof. unfold dle. rewrite Bool.negb_true_iff. apply dlt_false. Qed.

Lemma samples_near v h : (Qabs v <= 8000000001 # 1)%Q -> (0 <= h <= inject_Z (2 ^ 900))%Q ->
  exists n, gap_samples (DFin v) (DFin h) = DFin n
    /\ (Qabs (n - (Qabs v * h + (if Qle_bool v 0 then 1 else - (1)))) <= (Qabs v * h + 1) * (1 # 1125899906842624))%Q.
Proof.
  intros Hv [H0 H1]. unfold gap_samples. destruct (dabs_fin v) as (w & Ew & Hw). rewrite Ew. unfold dmul.
  pose proof (Qabs_nonneg v) as V0.
  assert (P0 : (0 <= w * h)%Q) by (rewrite Hw; apply Qmult_le_0_compat; assumption).
  assert (PU : (w * h <= (8000000001 # 1) * inject_Z (2 ^ 900))%Q).
  { rewrite Hw. eapply Qle_trans; [apply Qmult_le_compat_r; [exact Hv|exact H0]|]. rewrite !(Qmult_comm (8000000001 # 1)). apply Qmult_le_compat_r; [exact H1|discriminate]. }
  assert (PX : (Qabs v * h == w * h)%Q) by (rewrite Hw; reflexivity).
  cut (exists n, (if dlt dzero (DFin v) then dadd (drnd (w * h)) (DFin (-1 # 1)) else dadd (drnd (w * h)) (DFin 1%Q)) = DFin n
    /\ (Qabs (n - (w * h + (if Qle_bool v 0 then 1 else - (1)))) <= (w * h + 1) * (1 # 1125899906842624))%Q).
  { intros (n & En & Bn). exists n. split; [exact En|]. rewrite PX. exact Bn. }
  remember (w * h)%Q as p eqn:Ep. clear Ep PX.
  destruct (drnd_any p) as (q & Eq & Bq).
  { rewrite Qabs_pos by exact P0. eapply Qle_trans; [exact PU|]. vm_compute; discriminate. }
  rewrite (Qabs_pos p P0) in Bq. apply Qabs_Qle_condition in Bq.
  assert (QB : (Qabs q <= 16000000002 * inject_Z (2 ^ 900))%Q).
  { apply Qabs_Qle_condition. assert ((1 # 10 ^ 40) <= 1)%Q by (vm_compute; discriminate). assert (1 <= inject_Z (2 ^ 900))%Q by (vm_compute; discriminate). clear H1. remember (inject_Z (2 ^ 900)) as big eqn:Eb. clear Eb. split; lra. }
  rewrite Eq.
  assert (G : forall d : Q, (-1 <= d <= 1)%Q -> exists n, dadd (DFin q) (DFin d) = DFin n /\ (Qabs (n - (p + d)) <= (p + 1) * (1 # 1125899906842624))%Q).
  { intros d Hd. unfold dadd. destruct (drnd_any (q + d)) as (n & En & Bn).
    { eapply Qle_trans; [apply Qabs_triangle|]. assert (Qabs d <= 1)%Q by (apply Qabs_Qle_condition; exact Hd).
      apply Qle_trans with (16000000002 * inject_Z (2 ^ 900) + 1)%Q; [lra|]. vm_compute; discriminate. }
    exists n. split; [exact En|]. clear QB PU H1. assert (T : ((1 # 10 ^ 40) <= 1 # 9007199254740992)%Q) by (vm_compute; discriminate).
    assert (D : (Qabs (q + d) <= p * (1 + E53) + (1 # 10 ^ 40) + 1)%Q) by (apply Qabs_Qle_condition; split; lra).
    apply Qabs_Qle_condition in Bn. apply Qabs_Qle_condition. remember (1 # 10 ^ 40)%Q as tt eqn:Et. clear Et. split; lra. }
  destruct (dlt dzero (DFin v)) eqn:D.
  - apply dlt_fin in D. destruct (Qle_bool v 0) eqn:Q; [apply Qle_bool_iff in Q; lra|]. apply G. split; discriminate.
  - apply dlt_false in D. replace (Qle_bool v 0) with true by (symmetry; apply Qle_bool_iff; exact D). apply G. split; discriminate.
Qed.

Lemma div_close v d : ((1 # 10 ^ 280) <= Qabs v <= 8000000001 # 1)%Q -> 1 <= d <= 86400 ->
  exists w, ddiv (DFin v) (DFin (inject_Z d)) = DFin w /\ close w (v / inject_Z d).
Proof.
  intros [H1 H2] Hd. unfold ddiv. replace (qzero (inject_Z d)) with false by (unfold qzero; cbn; lia).
  assert (D0 : (1 <= inject_Z d <= 86400 # 1)%Q) by (change 1%Q with (inject_Z 1); change (86400 # 1) with (inject_Z 86400); rewrite <- !zq_le; lia).
  assert (A : (Qabs (v / inject_Z d) == Qabs v * (1 / inject_Z d))%Q).
  { unfold Qdiv. rewrite Qabs_Qmult. rewrite Qmult_1_l. rewrite (Qabs_pos (/ inject_Z d)); [reflexivity|]. apply Qinv_le_0_compat. lra. }
  assert (I : (1 # 86400 <= 1 / inject_Z d <= 1)%Q).
  { pose proof (inv_bounds (inject_Z d) 1 (86400 # 1) ltac:(reflexivity) D0) as B. change (1 / (86400 # 1))%Q with (1 # 86400) in B. change (1 / 1)%Q with 1%Q in B. exact B. }
  pose proof (Qabs_nonneg v) as V0.
  destruct (drnd_near (v / inject_Z d)) as (w & Ew & Bw).
  { right. rewrite A. split.
    - apply Qle_trans with ((1 # 10 ^ 280) * (1 # 86400))%Q; [vm_compute; discriminate|].
      eapply Qle_trans; [apply Qmult_le_compat_r; [exact H1|discriminate]|]. rewrite !(Qmult_comm (Qabs v)). apply Qmult_le_compat_r; [apply I|exact V0].
    - eapply Qle_trans; [|exact big_normal]. apply Qle_trans with (8000000001 # 1); [|vm_compute; discriminate].
      eapply Qle_trans; [|exact H2]. rewrite <- (Qmult_1_r (Qabs v)) at 2. rewrite !(Qmult_comm (Qabs v)). apply Qmult_le_compat_r; [apply I|exact V0]. }
  exists w. split; [exact Ew|]. unfold close. eapply Qle_trans; [exact Bw|]. rewrite !(Qmult_comm (Qabs (v / inject_Z d))). apply Qmult_le_compat_r; [vm_compute; discriminate|apply Qabs_nonneg].
Qed.

Lemma shown_ok v : ((v == 0) \/ ((1 # 10 ^ 280) <= Qabs v))%Q -> (Qabs v <= 8000000001 # 1)%Q ->
  exists w, snd (gap_shown (DFin v)) = DFin w /\
    match fst (gap_shown (DFin v)) with
    | Days => (inject_Z 86400 <= Qabs v)%Q /\ close w (v / inject_Z 86400)
    | Hours => (inject_Z 3600 <= Qabs v < inject_Z 86400)%Q /\ close w (v / inject_Z 3600)
    | Zero => (v == 0)%Q
    | Seconds => (Qabs v < inject_Z 3600)%Q /\ ~ (v == 0)%Q /\ w = v
    end.
Proof.
  intros Hv HU. unfold gap_shown. cbn [dopp].
  assert (T : forall d, dle (DFin (inject_Z d)) (DFin v) || dle (DFin v) (DFin (- inject_Z d)) = true -> (inject_Z d <= Qabs v)%Q).
  { intros d H. apply Bool.orb_true_iff in H as [H|H]; apply dle_fin in H; [pose proof (Qle_Qabs v); lra|].
    pose proof (Qle_Qabs (- v)) as Q. rewrite Qabs_opp in Q. lra. }
  assert (F : forall d, dle (DFin (inject_Z d)) (DFin v) || dle (DFin v) (DFin (- inject_Z d)) = false -> (Qabs v < inject_Z d)%Q).
  { intros d H. apply Bool.orb_false_iff in H as [H1 H2]. unfold dle in H1, H2. apply Bool.negb_false_iff, dlt_fin in H1. apply Bool.negb_false_iff, dlt_fin in H2.
    apply Qabs_Qlt_condition. split; lra. }
  assert (N : forall d, 0 < d -> (inject_Z d <= Qabs v)%Q -> ((1 # 10 ^ 280) <= Qabs v <= 8000000001 # 1)%Q).
  { intros d Hd H. destruct Hv as [Hv|Hv]; [|split; assumption]. rewrite Hv in H. apply zq_lt in Hd. change (Qabs 0) with 0%Q in H. change (inject_Z 0) with 0%Q in Hd. lra. }
  destruct (dle (DFin (inject_Z 86400)) (DFin v) || dle (DFin v) (DFin (- inject_Z 86400))) eqn:D.
  - apply T in D. destruct (div_close v 86400 (N 86400 ltac:(lia) D) ltac:(lia)) as (w & E & C). exists w. split; [exact E|]. cbn [fst]. repeat split; assumption || apply C || apply D || apply D'.
  - apply F in D. destruct (dle (DFin (inject_Z 3600)) (DFin v) || dle (DFin v) (DFin (- inject_Z 3600))) eqn:D'.
    + apply T in D'. destruct (div_close v 3600 (N 3600 ltac:(lia) D') ltac:(lia)) as (w & E & C). exists w. split; [exact E|]. cbn [fst]. repeat split; assumption || apply C || apply D || apply D'.
    + apply F in D'. rewrite is_zero_eq. destruct (Qeq_bool v 0) eqn:Z; exists v; (split; [reflexivity|]); cbn [fst].
      * now apply Qeq_bool_iff.
      * apply Qeq_bool_neq in Z. auto.
Qed.

Lemma printed_ok lo hi v : printed (fin lo) (fin hi) (DFin v) = true <-> ~ outside lo hi v.
Proof.
  unfold printed, outside, fin. rewrite Bool.andb_true_iff, !Bool.negb_true_iff. split.
  - intros [A B] [(m & -> & C)|(m & -> & C)]; apply dlt_fin in C; congruence.
  - intro N. split.
    + destruct lo as [m|]; [|reflexivity]. apply dlt_false. apply Qnot_lt_le. intro C. apply N. left. eauto.
    + destruct hi as [m|]; [|reflexivity]. apply dlt_false. apply Qnot_lt_le. intro C. apply N. right. eauto.
Qed.

Lemma line_ok mode lo hi sid a b : gap_seg a -> gap_seg b ->
  exists l, gap_line mode (fin lo) (fin hi) sid a b = Ok l /\
    forall ps ls, reports lo hi sid ps ls -> reports lo hi sid ((a, b) :: ps) (l ++ ls).
Proof.
  intros Ha Hb. unfold gap_line. pose proof Ha as (_ & _ & _ & h & Eh & Hh). rewrite Eh, is_zero_eq. destruct (Qeq_bool h 0) eqn:Z.
  - exists []. split; [reflexivity|]. intros ps ls R. apply rp_no_rate; [|exact R]. intros (h' & Eh' & N). rewrite Eh in Eh'. injection Eh' as <-.
    apply Qeq_bool_iff in Z. contradiction.
  - apply Qeq_bool_neq in Z. destruct Hh as [Hh|Hh]; [contradiction|].
    destruct (gap_near mode a b Ha Hb) as (v & Ev & Cv & Nv & Uv). rewrite Ev. cbn [bind].
    assert (HR : has_rate a) by (exists h; auto).
    destruct (printed (fin lo) (fin hi) (DFin v)) eqn:P.
    + apply printed_ok in P. destruct (gap_shown (DFin v)) as [u w'] eqn:G. eexists. split; [reflexivity|]. intros ps ls R. cbn [app].
      eapply rp_in; [exact HR|exact Cv|exact P| |exact R]. destruct (shown_ok v Nv Uv) as (w & Ew & Hw). rewrite G in Ew, Hw. cbn in Ew, Hw.
      destruct (samples_near v h Uv) as (n & En & Bn).
      { split; [|apply Hh]. apply Qle_trans with (1 # 1000000000000); [discriminate|apply Hh]. }
      unfold line_of, rate_of. cbn. rewrite Eh. repeat (split; [reflexivity|]). split; [exists n; auto|]. exists w. auto.
    + exists []. split; [reflexivity|]. intros ps ls R. cbn [app]. eapply rp_out; [exact HR|exact Cv| |exact R].
      (* outside is decidable *)
      unfold printed, fin in P. apply Bool.andb_false_iff in P as [P|P]; apply Bool.negb_false_iff in P.
      * destruct lo as [m|]; [|discriminate]. apply dlt_fin in P. left. eauto.
      * destruct hi as [m|]; [|discriminate]. apply dlt_fin in P. right. eauto.
Qed.

Lemma segs_gaps mode lo hi sid h : forall fuel p segs, walk_segs fuel h p = Ok segs -> segs <> [] -> Forall gap_seg segs ->
  exists ls, gap_segs fuel mode (fin lo) (fin hi) sid h p = Ok ls /\ reports lo hi sid (consecutive segs) ls.
Proof.
  induction fuel as [|fuel IH]; intros p segs W N F; [discriminate|]. cbn [walk_segs] in W. destruct p as [a|]; [|injection W as <-; contradiction].
  cbn [gap_segs]. destruct (deref h (Some a)) as [n| | |] eqn:D; try discriminate. cbn [bind] in *.
  destruct (walk_segs fuel h (n_next n)) as [l| | |] eqn:W'; try discriminate. cbn [bind] in W. injection W as <-.
  destruct (n_next n) as [b|] eqn:En.
  - destruct fuel as [|fuel]; [discriminate|]. pose proof W' as W2. cbn [walk_segs] in W'.
    destruct (deref h (Some b)) as [nb| | |] eqn:Db; try discriminate. cbn [bind] in *.
    destruct (walk_segs fuel h (n_next nb)) as [l'| | |] eqn:W3; try discriminate. cbn [bind] in W'. injection W' as <-.
    inversion F as [|? ? Fa F']; subst. inversion F' as [|? ? Fb F'']; subst.
    destruct (line_ok mode lo hi sid (n_seg n) (n_seg nb) Fa Fb) as (x & Ex & Rx). rewrite Ex. cbn [bind].
    destruct (IH (Some b) _ W2 ltac:(discriminate) F') as (ls & El & Rl). rewrite El. cbn [bind]. eexists. split; [reflexivity|].
    unfold consecutive in *. cbn [tl combine]. apply Rx. cbn [tl] in Rl. exact Rl.
  - destruct fuel as [|fuel]; [discriminate|]. cbn in W'. injection W' as <-. exists []. split; [reflexivity|]. constructor.
Qed.

Lemma ids_gaps mode lo hi ids : forall segss, Forall2 (fun t segs => tid_segs t = Ok segs /\ segs <> [] /\ Forall gap_seg segs) ids segss ->
  exists lss, gap_ids mode (fin lo) (fin hi) ids = Ok (concat lss)
    /\ Forall2 (fun t ls => exists segs, tid_segs t = Ok segs /\ reports lo hi (t_sid t) (consecutive segs) ls) ids lss.
Proof.
  intros segss F. induction F as [|t segs ids segss (W & N & G) F (lss & E & R)]; [exists []; split; [reflexivity|constructor]|].
  destruct (segs_gaps mode lo hi (t_sid t) (t_heap t) _ _ _ W N G) as (ls & El & Rl). exists (ls :: lss). cbn [gap_ids concat].
  rewrite El. cbn [bind]. rewrite E. cbn [bind]. split; [reflexivity|]. constructor; [exists segs; auto|exact R].
Qed.

Lemma list_gaps mode lo hi k ids : tl_ids k = Ok ids ->
  Forall (fun t => exists segs, tid_segs t = Ok segs /\ segs <> [] /\ Forall gap_seg segs) ids ->
  exists lss, (Z.of_nat (length (concat lss)) < 2 ^ 31 -> gap_list mode k (fin lo) (fin hi) = Ok (concat lss, Z.of_nat (length (concat lss))))
    /\ Forall2 (fun t ls => exists segs, tid_segs t = Ok segs /\ reports lo hi (t_sid t) (consecutive segs) ls) ids lss.
Proof.
  intros E F. assert (X : exists segss, Forall2 (fun t segs => tid_segs t = Ok segs /\ segs <> [] /\ Forall gap_seg segs) ids segss).
  { clear E. induction F as [|t ids (segs & H) F (segss & IH)]; [exists []; constructor|]. exists (segs :: segss). constructor; assumption. }
  destruct X as (segss & X). destruct (ids_gaps mode lo hi ids segss X) as (lss & El & R). exists lss. split; [|exact R].
  intro B. unfold gap_list. rewrite E. cbn [bind]. rewrite El. cbn [bind]. rewrite sarith_ok by (unfold in_s; lia). reflexivity.
Qed.

(** Rates of ordinary records. *)
Lemma hz_bounds r h : ordinary r -> sampratehz (r_rate r) = DFin h -> ((1 # 1000000000000) <= h)%Q.
Proof.
  intros (q & Hq & Hn & HP & _) Hh. unfold period_ns in HP. unfold sampratehz in Hh. rewrite Hq, dlt_zero' in Hh.
  destruct (Qnum q <? 0) eqn:E.
  - replace (0 <? Qnum q) with false in HP by lia. assert (Q0 : (q < 0)%Q) by (unfold Qlt; cbn; lia).
    change (inject_Z 1000000000) with (1000000000 # 1) in HP. change (inject_Z 900000000000000000) with (900000000000000000 # 1) in HP.
    unfold ddiv, qzero in Hh. replace (Qnum q =? 0) with false in Hh by lia.
    assert (X : ((-1 # 1) / q == 1 / - q)%Q) by (field; lra).
    assert (L : (1 # 1000000000 <= (-1 # 1) / q)%Q).
    { rewrite X. apply Qle_shift_div_l; [lra|]. lra. }
    unfold drnd in Hh. destruct (Qlt_le_dec ((-1 # 1) / q) 1) as [C|C].
    + destruct (rnd_bound ((-1 # 1) / q)) as (v & Ev & Bv); [lra|eapply Qlt_le_trans; [exact C|vm_compute; discriminate]|].
      rewrite Ev in Hh. injection Hh as <-. unfold eps, tiny in Bv. lra.
    + destruct (rnd64_big _ C) as [E'|(v & Ev & Bv)]; [rewrite E' in Hh; discriminate|]. rewrite Ev in Hh. injection Hh as <-. unfold eps in Bv. lra.
  - injection Hh as <-. replace (0 <? Qnum q) with true in HP by lia. assert (Q0 : (0 < q)%Q) by (unfold Qlt; cbn; lia).
    change (inject_Z 1000000000) with (1000000000 # 1) in HP. change (inject_Z 900000000000000000) with (900000000000000000 # 1) in HP.
    assert (Y : (1000000000 # 1 == (1000000000 # 1) / q * q)%Q) by (field; lra).
    pose proof (Qmult_le_compat_r _ _ q HP ltac:(lra)) as Z. lra.
Qed.

Lemma records_segs f rs k : given rs -> f_mode f = Strict -> f_ttol f = None -> Forall ordinary (map fst rs) ->
  Forall rated (map fst rs) -> add_all f tl_init rs = Ok k ->
  exists ids, tl_ids k = Ok ids /\ Forall (fun t => exists segs, well_formed t segs /\ Forall gap_seg segs) ids.
Proof.
  intros G M T O R E. destruct (all_conserved f rs k G E) as (ids & gss & H & _ & C).
  specialize (C M (ordinary_all_narrow f _ T O)). destruct H as (Ei & _ & _ & F & P & TM).
  exists ids. split; [exact Ei|]. assert (Q : Forall (fun x => (ordinary (fst x) /\ rated (fst x)) /\ timed f x) (concat (concat gss))).
    { apply Forall_forall. intros x Hx. split; [|rewrite Forall_forall in TM; auto].
      assert (I : In (fst x) (map fst rs)) by (eapply Permutation_in; [exact P|]; now apply in_map).
      rewrite Forall_forall in O, R. auto. }
  clear - F C Q M T. induction F as [|t gs ids gss [(segs & W & Ms) _] F IH]; [constructor|].
    inversion C as [|? ? ? ? (segs' & Es & Cs) C']; subst. cbn [concat] in Q. rewrite concat_app in Q. apply Forall_app in Q as [Q1 Q2].
    constructor; [|apply IH; assumption]. pose proof W as (_ & W1 & _). rewrite W1 in Es. injection Es as <-. exists segs. split; [exact W|].
    clear - Ms Cs Q1 M. induction Ms as [|s g segs gs Mg Ms IH]; [constructor|]. inversion Cs as [|? ? ? ? Cg Cs']; subst. cbn [concat] in Q1.
    apply Forall_app in Q1 as [Qg Q1]. constructor; [|apply IH; assumption]. rewrite Forall_forall in Qg, Cg.
    destruct (md_start _ _ _ Mg) as (x & L' & EL & ES). destruct (md_end _ _ _ Mg) as (L'' & y & EL' & EE).
    assert (Ix : In x g) by (rewrite EL; left; reflexivity).
    assert (Iy : In y g) by (rewrite EL'; apply in_or_app; right; left; reflexivity).
    destruct (Qg x Ix) as [[Ox _] Tx]. destruct (Qg y Iy) as [[Oy _] Ty].
    destruct (ordinary_end f _ Ox) as (ex & Eex & Bx). unfold timed in Tx, Ty. rewrite Tx in Eex. injection Eex as <-.
    destruct (ordinary_end f _ Oy) as (ey & Eey & By). rewrite Ty in Eey. injection Eey as <-.
    destruct (Cg x Ix) as [Cx1 Cx2]. destruct Ox as (qx & _ & _ & _ & _ & Bsx & _). destruct Oy as (qy & _ & _ & _ & _ & Bsy & _).
    destruct (md_hz _ _ _ Mg) as (z & Iz & Hz & _). destruct (Qg z Iz) as [[Oz (h & Eh & Hh)] _].
    split; [|split; [|split]]; [rewrite ES; lia|rewrite EE; lia|lia|]. exists h. rewrite Hz. split; [exact Eh|]. right. split; [|exact Hh].
    eapply hz_bounds; eassumption.
Qed.

Lemma records_gaps f rs k mode lo hi : given rs -> f_mode f = Strict -> f_ttol f = None -> Forall ordinary (map fst rs) ->
  Forall rated (map fst rs) -> add_all f tl_init rs = Ok k ->
  exists ids lss, tl_ids k = Ok ids
    /\ (Z.of_nat (length (concat lss)) < 2 ^ 31 -> gap_list mode k (fin lo) (fin hi) = Ok (concat lss, Z.of_nat (length (concat lss))))
    /\ Forall2 (fun t ls => exists segs, tid_segs t = Ok segs /\ reports lo hi (t_sid t) (consecutive segs) ls) ids lss.
Proof.
  intros G M T O R E. destruct (records_segs f rs k G M T O R E) as (ids & Ei & X).
  assert (X' : Forall (fun t => exists segs, tid_segs t = Ok segs /\ segs <> [] /\ Forall gap_seg segs) ids).
  { eapply Forall_impl; [|exact X]. intros t (segs & (N & W & _) & F). exists segs. auto. }
  destruct (list_gaps mode lo hi k ids Ei X') as (lss & EL & RL). exists ids, lss. auto.
Qed.

Lemma overlap_bound a b v : close v (to_report a b) -> (exact_gap a b < 0)%Q -> (0 <= coverage b)%Q ->
  (v <= 0)%Q /\ (- v <= coverage b * (1 + (1 # 1125899906842624)))%Q /\ (- v <= - exact_gap a b * (1 + (1 # 1125899906842624)))%Q.
Proof.
  unfold close, to_report. intros C N H. destruct (Qle_bool 0 (exact_gap a b)) eqn:E; [apply Qle_bool_iff in E; lra|].
  destruct (Qle_bool (- coverage b) (exact_gap a b)) eqn:E'.
  - apply Qle_bool_iff in E'. pose proof (Qabs_neg (exact_gap a b) ltac:(lra)) as W. rewrite W in C. apply Qabs_Qle_condition in C. split; [|split]; lra.
  - assert (exact_gap a b < - coverage b)%Q. { apply Qnot_le_lt. intro X. apply Qle_bool_iff in X. congruence. }
    pose proof (Qabs_neg (- coverage b) ltac:(lra)) as W. rewrite W in C. apply Qabs_Qle_condition in C. split; [|split]; lra.
Qed.

Lemma gap_value a b v : close v (to_report a b) -> (0 <= exact_gap a b)%Q -> close v (exact_gap a b).
Proof. unfold to_report. intros C H. apply Qle_bool_iff in H. rewrite H in C. exact C. Qed.
