(** * The comparison of sampling rates. *)

From Coq Require Import Lqa Psatz.
From Verif Require Import Base BaseLemmas FloatLemmas FloatOpsProof SampleSpec SampleProof TlModel TlSpec.
Open Scope Z_scope.

Lemma qopp_opp q : Qopp (Qopp q) = q.
Proof. destruct q as [n d]. unfold Qopp. cbn. now rewrite Z.opp_involutive. Qed.

Lemma rnd64_opp x : rnd64 (- x) = match rnd64 x with Some v => Some (Qopp v) | None => None end.
Proof.
  destruct x as [n d]. unfold rnd64. cbn [Qopp Qnum Qden]. destruct n as [|n|n]; cbn [Z.opp]; [reflexivity| |];
    destruct (rnd_pos _ _) as [m e]; destruct (Qle_bool _ _); try reflexivity. now rewrite qopp_opp.
Qed.

Lemma rnd64_big x : (1 <= x)%Q -> rnd64 x = None \/ exists v, rnd64 x = Some v /\ (x * (1 - eps) <= v)%Q.
Proof.
  intros H0. destruct x as [n d]. unfold rnd64. cbn [Qnum Qden].
  destruct n as [|n|n]; [unfold Qle in H0; simpl in *; lia| |unfold Qle in H0; simpl in *; lia].
  pose proof (rnd_pos_err (Zpos n) (Zpos d) ltac:(lia) ltac:(lia)) as R.
  destruct (rnd_pos (Z.pos n) (Z.pos d)) as [m e]. destruct R as (Hm & He & R).
  pose proof (flog2_ok (Zpos n) (Zpos d) ltac:(lia) ltac:(lia)) as [F1 F2].
  rewrite (Qmake_div (Z.pos n) d) in H0. set (x := (inject_Z (Z.pos n) / inject_Z (Z.pos d))%Q) in *.
  destruct (Qle_bool _ _); [left; reflexivity|right]. exists (dyadic m e). split; [reflexivity|].
  assert (L' : -1 < flog2 (Z.pos n) (Z.pos d)).
  { enough (0 < flog2 (Z.pos n) (Z.pos d) + 1) by lia. apply P2_lt_inv. change (P2 0) with 1%Q. lra. }
  assert (E : e - 1 = flog2 (Z.pos n) (Z.pos d) + -53) by lia.
  rewrite E, P2_add in R. rewrite (Qmake_div (Z.pos n) d). fold x. rewrite dyadic_P2.
  change (P2 (-53)) with eps in R. unfold eps in *. nra.
Qed.

(** One rounding of a value of either sign. *)
Lemma rnd_signed x : (-4 <= x <= 4)%Q -> exists v, rnd64 x = Some v /\ (Qabs (v - x) <= 5 * eps)%Q.
Proof.
  intros [H1 H2]. pose proof P2_1000 as Pb.
  change (inject_Z (2 ^ 200)) with (1606938044258990275541962092341162602522202993782792835301376 # 1) in Pb.
  destruct (Qlt_le_dec x 0) as [C|C].
  - destruct (rnd_bound (- x)) as (v & E & A & B); [lra|lra|]. exists (- v)%Q. rewrite <- (qopp_opp x), rnd64_opp, E. split; [reflexivity|].
    rewrite qopp_opp. apply Qabs_Qle_condition. unfold eps, tiny in *. lra.
  - destruct (rnd_bound x) as (v & E & A & B); [lra|lra|]. exists v. split; [exact E|].
    apply Qabs_Qle_condition. unfold eps, tiny in *. lra.
Qed.

Lemma d1e4_val : exists t, d_1e4 = DFin t /\ (Qabs (t - (1 # 10000)) <= eps)%Q.
Proof. eexists. split; [vm_compute; reflexivity|]. vm_compute. discriminate. Qed.

Lemma dabs_fin q : exists v, dabs (DFin q) = DFin v /\ (v == Qabs q)%Q.
Proof.
  unfold dabs. rewrite dlt_zero'. destruct (Qnum q <? 0) eqn:E.
  - exists (- q)%Q. split; [reflexivity|]. symmetry. apply Qabs_neg. unfold Qle. cbn. lia.
  - exists q. split; [reflexivity|]. symmetry. apply Qabs_pos. unfold Qle. cbn. lia.
Qed.

Lemma dlt_fin a b : dlt (DFin a) (DFin b) = true <-> (a < b)%Q.
Proof.
  unfold dlt. rewrite Bool.negb_true_iff. split.
  - intro H. apply Qnot_le_lt. intro C. apply Qle_bool_iff in C. congruence.
  - intro H. destruct (Qle_bool b a) eqn:E; [|reflexivity]. apply Qle_bool_iff in E. lra.
Qed.

(** The comparison without a supplied tolerance. *)
Lemma tolerable_ok a b : (0 < a)%Q -> (0 < b)%Q ->
  ((Qabs (1 - a / b) <= (1 # 10000) - (1 # 100000000000000))%Q -> rate_tolerable (DFin a) (DFin b) = true)
  /\ ((Qabs (1 - a / b) >= (1 # 10000) + (1 # 100000000000000))%Q -> rate_tolerable (DFin a) (DFin b) = false).
Proof.
  intros Ha Hb. unfold rate_tolerable, ddiv, qzero. replace (Qnum b =? 0) with false by (unfold Qlt in Hb; cbn in Hb; lia).
  assert (X0 : (0 < a / b)%Q). { pose proof (Qinv_lt_0_compat b Hb). unfold Qdiv. nra. }
  set (x := (a / b)%Q) in *. clearbody x. destruct d1e4_val as (t & -> & Ht). apply Qabs_Qle_condition in Ht.
  destruct (Qlt_le_dec x 2) as [C|C].
  - destruct (rnd_signed x) as (v & Ev & Bv); [lra|]. apply Qabs_Qle_condition in Bv. assert (Ed : drnd x = DFin v) by (unfold drnd; now rewrite Ev). rewrite !Ed.
    unfold dsub, dopp, dadd. unfold eps in *.
    destruct (rnd_signed (1 + - v)%Q) as (w & Ew & Bw); [lra|]. apply Qabs_Qle_condition in Bw. unfold eps in *.
    assert (Ed2 : drnd (1 + - v) = DFin w) by (unfold drnd; now rewrite Ew). rewrite !Ed2. destruct (dabs_fin w) as (z & Ez & Hz). rewrite !Ez.
    assert (D : (Qabs (Qabs w - Qabs (1 - x)) <= 10 * (1 # 9007199254740992))%Q).
    { eapply Qle_trans; [|apply (proj2 (Qabs_Qle_condition (w - (1 - x)) (10 * (1 # 9007199254740992)))); lra].
      apply Qabs_Qle_condition. pose proof (Qabs_triangle_reverse w (1 - x)). pose proof (Qabs_triangle_reverse (1 - x) w).
      rewrite (Qabs_Qminus (1 - x) w) in H0. lra. }
    apply Qabs_Qle_condition in D. split; intro H.
    + apply dlt_fin. lra.
    + apply Bool.not_true_iff_false. rewrite dlt_fin. lra.
  - split; intro H.
    + exfalso. rewrite Qabs_neg in H by lra. lra.
    + unfold drnd at 1. destruct (rnd64_big x) as [->|(v & -> & Bv)]; [lra| |].
      * unfold qneg. replace (Qnum x <? 0) with false by (unfold Qlt in X0; cbn in X0; lia). reflexivity.
      * unfold eps in Bv. unfold dsub, dopp, dadd, drnd.
        assert (E1 : (1 + - v == - (v - 1))%Q) by ring.
        destruct (Qlt_le_dec v 3) as [C2|C2].
        -- destruct (rnd_signed (1 + - v)%Q) as (w & Ew & Bw); [lra|]. apply Qabs_Qle_condition in Bw. unfold eps in *.
           rewrite Ew. destruct (dabs_fin w) as (z & -> & Hz). apply Bool.not_true_iff_false. rewrite dlt_fin.
           rewrite Hz, Qabs_neg by lra. lra.
        -- pose proof (rnd64_big (- (1 + - v))%Q ltac:(lra)) as R. rewrite <- (qopp_opp (1 + - v)%Q), rnd64_opp.
           destruct R as [->|(w & -> & Bw)].
           ++ assert (N : (1 + - v < 0)%Q) by lra. unfold qneg. replace (Qnum (- - (1 + - v)) <? 0) with true; [reflexivity|].
              rewrite qopp_opp. unfold Qlt in N. cbn [Qnum Qden] in *. symmetry. apply Z.ltb_lt. cbn in *. lia.
           ++ unfold eps in Bw. destruct (dabs_fin (- w)) as (z & -> & Hz). apply Bool.not_true_iff_false. rewrite dlt_fin.
              rewrite Hz, Qabs_opp, Qabs_pos by lra. unfold eps in Ht. lra.
Qed.

Lemma tolerable_self a : (0 < a)%Q -> rate_tolerable (DFin a) (DFin a) = true.
Proof.
  intro H. apply tolerable_ok; auto. assert (E : (a / a == 1)%Q) by (field; lra). rewrite E. vm_compute. discriminate.
Qed.

(** A supplied tolerance makes a rate differ from itself. *)
Lemma supplied_self a tol : dlt dzero tol = true -> rate_similar (DFin a) (DFin a) tol = false.
Proof.
  intro H. unfold rate_similar. rewrite H. unfold dsub, dopp, dadd, drnd.
  assert (E : rnd64 (a + - a) = Some 0%Q). { unfold rnd64. replace (Qnum (a + - a)) with 0; [reflexivity|]. cbn. lia. }
  rewrite E. destruct tol as [t|s|]; [|destruct s; [discriminate|reflexivity]|reflexivity].
  change (dabs (DFin 0)) with (DFin 0). apply Bool.not_true_iff_false. unfold dzero in H. rewrite dlt_fin in *. lra.
Qed.

(** With a supplied tolerance, finite rates are taken for each other exactly when their
    difference, up to its rounding, exceeds the tolerance. *)
Lemma supplied_ok a b t : (0 < t)%Q -> (Qabs (a - b) < P2 1000)%Q ->
  ((Qabs (a - b) * (1 + eps) + tiny <= t)%Q -> rate_similar (DFin a) (DFin b) (DFin t) = false)
  /\ ((Qabs (a - b) * (1 - eps) - tiny > t)%Q -> rate_similar (DFin a) (DFin b) (DFin t) = true).
Proof.
  intros Ht HB. unfold rate_similar. replace (dlt dzero (DFin t)) with true by (symmetry; apply dlt_fin; exact Ht).
  unfold dsub, dopp, dadd, drnd.
  assert (R : exists w, rnd64 (a + - b) = Some w /\ (Qabs (a - b) * (1 - eps) - tiny <= Qabs w <= Qabs (a - b) * (1 + eps) + tiny)%Q).
  { assert (T0 : (0 < tiny)%Q) by reflexivity. assert (E0 : (0 < eps)%Q) by reflexivity. assert (E1 : (eps < 1)%Q) by reflexivity.
    destruct (Qlt_le_dec (a - b) 0) as [C|C].
    - pose proof (Qabs_neg (a - b) ltac:(lra)) as AB. rewrite AB in HB.
      destruct (rnd_bound (- (a + - b))%Q) as (v & E & A & B); [lra|unfold Qminus in HB; lra|].
      exists (- v)%Q. rewrite <- (qopp_opp (a + - b)%Q), rnd64_opp, E. split; [reflexivity|].
      pose proof (Qabs_opp v) as W0.
      destruct (Qlt_le_dec v 0) as [V|V]; [pose proof (Qabs_neg v ltac:(lra)) as W|pose proof (Qabs_pos v ltac:(lra)) as W]; rewrite W0, W; rewrite AB; split; nra.
    - pose proof (Qabs_pos (a - b) ltac:(lra)) as AB. rewrite AB in HB.
      destruct (rnd_bound (a + - b)%Q) as (v & E & A & B); [lra|unfold Qminus in HB; lra|].
      exists v. split; [exact E|]. destruct (Qlt_le_dec v 0) as [V|V]; [pose proof (Qabs_neg v ltac:(lra)) as W|pose proof (Qabs_pos v ltac:(lra)) as W]; rewrite W, AB; split; nra. }
  destruct R as (w & -> & Bw).
  destruct (dabs_fin w) as (z & -> & Hz).
  split; intro H; [apply Bool.not_true_iff_false|]; rewrite dlt_fin; lra.
Qed.

(** The rate in hertz is positive. *)
Lemma sampratehz_pos rate q : dval rate = DFin q -> Qnum q <> 0 ->
  (exists h, sampratehz rate = DFin h /\ (0 <= h)%Q) \/ sampratehz rate = DInf false.
Proof.
  intros Hr Hq. unfold sampratehz. rewrite Hr, dlt_zero'. destruct (Qnum q <? 0) eqn:E.
  - unfold ddiv, qzero. replace (Qnum q =? 0) with false by lia.
    assert (X : ((-1 # 1) / q == / - q)%Q) by (field; intro C; unfold Qeq in C; cbn in C; lia).
    assert (P : (0 < / - q)%Q) by (apply Qinv_lt_0_compat; unfold Qlt; cbn; lia).
    unfold drnd. destruct (Qlt_le_dec ((-1 # 1) / q) 1) as [C|C].
    + left. destruct (rnd64_err ((-1 # 1) / q)%Q 0) as (v & -> & V & _); [lia|lra|exact C|]. eauto.
    + destruct (rnd64_big _ C) as [->|(v & -> & V)].
      * right. unfold qneg. replace (Qnum ((-1 # 1) / q) <? 0) with false; [reflexivity|]. symmetry. apply Z.ltb_ge.
        assert (0 < (-1 # 1) / q)%Q by lra. unfold Qlt in H. cbn [Qnum Qden] in H. lia.
      * left. exists v. split; [reflexivity|]. unfold eps in V. nra.
  - left. exists q. split; [reflexivity|]. unfold Qle. cbn. lia.
Qed.

Lemma default_tolerance a b tol : (0 < a)%Q -> (0 < b)%Q -> dlt dzero tol = false ->
  ((Qabs (1 - a / b) <= (1 # 10000) - (1 # 100000000000000))%Q -> rate_similar (DFin a) (DFin b) tol = true)
  /\ ((Qabs (1 - a / b) >= (1 # 10000) + (1 # 100000000000000))%Q -> rate_similar (DFin a) (DFin b) tol = false).
Proof. intros Ha Hb Ht. unfold rate_similar. rewrite Ht. apply tolerable_ok; assumption. Qed.

Lemma supplied_inverted a b t : (0 < t)%Q -> (Qabs (a - b) <= inject_Z (2 ^ 100))%Q ->
  ((Qabs (a - b) * (1 + (1 # 9007199254740992)) + (1 # 10000000000000000000000000000000000000000) <= t)%Q
     -> rate_similar (DFin a) (DFin b) (DFin t) = false)
  /\ ((Qabs (a - b) * (1 - (1 # 9007199254740992)) - (1 # 10000000000000000000000000000000000000000) > t)%Q
     -> rate_similar (DFin a) (DFin b) (DFin t) = true).
Proof.
  intros Ht HB. apply supplied_ok; [exact Ht|]. eapply Qle_lt_trans; [exact HB|].
  pose proof (P2_nonneg 1000 ltac:(lia)) as W. rewrite W. rewrite <- Zlt_Qlt. apply Z.pow_lt_mono_r; lia.
Qed.
