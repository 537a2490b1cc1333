(** * Exactness of IEEE operations whose result is representable. *)

From Verif Require Import Base BaseLemmas FloatSpec.
Open Scope Z_scope.

Lemma dyadic_eq m1 e1 m2 e2 k :
  k <= e1 -> k <= e2 -> m1 * 2 ^ (e1 - k) = m2 * 2 ^ (e2 - k) -> Qeq (dyadic m1 e1) (dyadic m2 e2).
Proof.
  intros H1 H2 E.
  assert (P : forall m e, k <= e -> exists j, 0 <= j /\ 0 <= k + j /\
            Qeq (dyadic m e) (Qmake (m * 2 ^ (e - k) * 2 ^ (k + j)) (Z.to_pos (2 ^ j)))).
  { intros m e He. exists (Z.max 0 (- k)). split; [lia|]. split; [lia|].
    unfold dyadic, Qeq. destruct (Z.leb_spec 0 e); cbn [inject_Z Qnum Qden].
    - rewrite Z2Pos.id by (apply Z.pow_pos_nonneg; lia).
      replace (m * 2 ^ (e - k) * 2 ^ (k + Z.max 0 (- k))) with (m * (2 ^ (e - k) * 2 ^ (k + Z.max 0 (-k)))) by ring.
      rewrite <- Z.pow_add_r by lia.
      replace (m * 2 ^ e * 2 ^ Z.max 0 (- k)) with (m * (2 ^ e * 2 ^ Z.max 0 (-k))) by ring.
      rewrite <- Z.pow_add_r by lia. replace (e - k + (k + Z.max 0 (-k))) with (e + Z.max 0 (-k)) by lia. lia.
    - rewrite !Z2Pos.id by (apply Z.pow_pos_nonneg; lia).
      replace (Z.max 0 (-k)) with (- k) by lia. replace (k + - k) with 0 by lia. rewrite Z.mul_1_r.
      replace (m * 2 ^ (e - k) * 2 ^ (- e)) with (m * (2 ^ (e - k) * 2 ^ (- e))) by ring.
      rewrite <- Z.pow_add_r by lia. f_equal. f_equal. lia. }
  destruct (P m1 e1 H1) as (j1 & J1 & K1 & Q1). destruct (P m2 e2 H2) as (j2 & J2 & K2 & Q2).
  rewrite Q1, Q2, E. unfold Qeq. cbn [Qnum Qden].
  rewrite !Z2Pos.id by (apply Z.pow_pos_nonneg; lia).
  rewrite <- !Z.mul_assoc. f_equal. f_equal. rewrite <- !Z.pow_add_r by lia. f_equal. lia.
Qed.

Lemma dyadic_eq_inv m1 e1 m2 e2 : Qeq (dyadic m1 e1) (dyadic m2 e2) ->
  exists k, k <= e1 /\ k <= e2 /\ m1 * 2 ^ (e1 - k) = m2 * 2 ^ (e2 - k).
Proof.
  intros E. exists (Z.min 0 (Z.min e1 e2)). split; [lia|]. split; [lia|].
  unfold dyadic in E.
  destruct (Z.leb_spec 0 e1), (Z.leb_spec 0 e2); unfold Qeq in E; cbn [inject_Z Qnum Qden] in E;
    rewrite ?Z2Pos.id in E by (apply pow2_pos; lia).
  - rewrite (Z.min_l 0) by lia. rewrite !Z.sub_0_r. lia.
  - replace (Z.min 0 (Z.min e1 e2)) with e2 by lia. rewrite Z.sub_diag.
    replace (e1 - e2) with (e1 + - e2) by lia. rewrite Z.pow_add_r by lia. change (2 ^ 0) with 1. lia.
  - replace (Z.min 0 (Z.min e1 e2)) with e1 by lia. rewrite Z.sub_diag.
    replace (e2 - e1) with (e2 + - e1) by lia. rewrite Z.pow_add_r by lia. change (2 ^ 0) with 1. lia.
  - destruct (Z.le_ge_cases e1 e2).
    + replace (Z.min 0 (Z.min e1 e2)) with e1 by lia. rewrite Z.sub_diag.
      replace (- e1) with (- e2 + (e2 - e1)) in E by lia. rewrite Z.pow_add_r in E by lia.
      pose proof (pow2_pos (- e2)). change (2 ^ 0) with 1. nia.
    + replace (Z.min 0 (Z.min e1 e2)) with e2 by lia. rewrite Z.sub_diag.
      replace (- e2) with (- e1 + (e1 - e2)) in E by lia. rewrite Z.pow_add_r in E by lia.
      pose proof (pow2_pos (- e1)). change (2 ^ 0) with 1. nia.
Qed.

Lemma digits2_log2 p : Z.pos (digits2_pos p) = Z.log2 (Z.pos p) + 1.
Proof.
  induction p as [p IH|p IH|]; cbn [digits2_pos].
  - rewrite Pos2Z.inj_succ, IH. rewrite (Pos2Z.inj_xI p), Z.log2_succ_double by lia. lia.
  - rewrite Pos2Z.inj_succ, IH. rewrite (Pos2Z.inj_xO p), Z.log2_double by lia. lia.
  - reflexivity.
Qed.

Lemma Zdigits2_log2 m : 0 < m -> Zdigits2 m = Z.log2 m + 1.
Proof. destruct m as [|p|p]; try lia. intros _. apply digits2_log2. Qed.

Lemma log2_mul_pow2' a n : 0 < a -> 0 <= n -> Z.log2 (a * 2 ^ n) = Z.log2 a + n.
Proof. intros. rewrite Z.log2_mul_pow2 by lia. lia. Qed.

Lemma shr_1_even m : 0 < m -> shr_1 (Build_shr_record (2 * m) false false) = Build_shr_record m false false.
Proof. destruct m as [|p|p]; try lia. reflexivity. Qed.

Lemma iter_pos_shift p : forall m, 0 < m ->
  SpecFloat.iter_pos shr_1 p (Build_shr_record (m * 2 ^ Z.pos p) false false) = Build_shr_record m false false.
Proof.
  induction p as [p IH|p IH|]; intros m Hm; cbn [SpecFloat.iter_pos].
  - assert (0 < 2 ^ Z.pos p) by (apply Z.pow_pos_nonneg; lia).
    replace (m * 2 ^ Z.pos p~1) with (2 * (m * 2 ^ Z.pos p * 2 ^ Z.pos p)).
    2:{ rewrite (Pos2Z.inj_xI p). rewrite Z.pow_add_r, Z.pow_mul_r by lia.
        replace ((2 ^ 2) ^ Z.pos p) with (2 ^ Z.pos p * 2 ^ Z.pos p) by (rewrite <- Z.pow_mul_l; reflexivity).
        change (2 ^ 1) with 2. ring. }
    rewrite shr_1_even by nia. rewrite IH by nia. apply IH; auto.
  - assert (0 < 2 ^ Z.pos p) by (apply Z.pow_pos_nonneg; lia).
    replace (m * 2 ^ Z.pos p~0) with (m * 2 ^ Z.pos p * 2 ^ Z.pos p).
    2:{ rewrite (Pos2Z.inj_xO p). rewrite Z.pow_mul_r by lia.
        replace ((2 ^ 2) ^ Z.pos p) with (2 ^ Z.pos p * 2 ^ Z.pos p) by (rewrite <- Z.pow_mul_l; reflexivity). ring. }
    rewrite IH by nia. apply IH; auto.
  - change (2 ^ 1) with 2. rewrite (Z.mul_comm m 2). apply shr_1_even; auto.
Qed.

Section Exact.
  Variables prec emax : Z.
  Hypothesis prec_pos : 0 < prec.
  Let emin := SpecFloat.emin prec emax.

  (** Rounding a positive number that equals [m * 2^e] with [m] of at most
      [prec] bits: the canonical representation. *)
  Definition canon_e (M E : Z) : Z := Z.max (Z.log2 M + 1 + E - prec) emin.

  Lemma shr_fexp_canon M E m e :
    0 < M -> 0 < m -> m < 2 ^ prec -> emin <= e -> canon_e M E - E >= 0 ->
    (exists k, k <= E /\ k <= e /\ M * 2 ^ (E - k) = m * 2 ^ (e - k)) ->
    exists M', 0 < M' /\ M = M' * 2 ^ (canon_e M E - E) /\
      shr_fexp prec emax M E loc_Exact = (Build_shr_record M' false false, canon_e M E).
  Proof.
    intros HM Hm Hlt He Hc (k & K1 & K2 & EQ).
    assert (Hd : Z.log2 M + E = Z.log2 m + e).
    { apply (f_equal Z.log2) in EQ. rewrite !log2_mul_pow2' in EQ by lia. lia. }
    assert (Hl : Z.log2 m < prec) by (apply Z.log2_lt_pow2; lia).
    assert (Hce : canon_e M E <= e) by (unfold canon_e; lia).
    assert (HMm : M = m * 2 ^ (e - E)).
    { replace (e - k) with ((e - E) + (E - k)) in EQ by lia. rewrite Z.pow_add_r in EQ by lia.
      rewrite Z.mul_assoc in EQ. apply Z.mul_cancel_r in EQ; auto.
      assert (0 < 2 ^ (E - k)) by (apply Z.pow_pos_nonneg; lia). lia. }
    assert (HM' : M = m * 2 ^ (e - canon_e M E) * 2 ^ (canon_e M E - E)).
    { rewrite <- Z.mul_assoc, <- Z.pow_add_r by lia.
      replace (e - canon_e M E + (canon_e M E - E)) with (e - E) by lia. exact HMm. }
    exists (m * 2 ^ (e - canon_e M E)).
    assert (P : 0 < m * 2 ^ (e - canon_e M E)).
    { assert (0 < 2 ^ (e - canon_e M E)) by (apply Z.pow_pos_nonneg; lia). nia. }
    split; [exact P|]. split; [exact HM'|].
    unfold shr_fexp. rewrite Zdigits2_log2 by auto.
    change (fexp prec emax (Z.log2 M + 1 + E)) with (canon_e M E).
    cbn [shr_record_of_loc].
    remember (canon_e M E) as ce eqn:Ece. clear Ece.
    remember (m * 2 ^ (e - ce)) as M' eqn:EM'.
    unfold shr. destruct (ce - E) as [|p|p] eqn:Ep; try lia.
    - rewrite Z.mul_1_r in HM'. subst M'. rewrite <- HM'. f_equal. lia.
    - rewrite HM'. rewrite iter_pos_shift by auto. f_equal. lia.
  Qed.

  Lemma binary_round_aux_exact s M E m e :
    0 < M -> 0 < m -> m < 2 ^ prec -> emin <= e -> e + prec <= emax -> canon_e M E - E >= 0 ->
    (exists k, k <= E /\ k <= e /\ M * 2 ^ (E - k) = m * 2 ^ (e - k)) ->
    sf_is (binary_round_aux prec emax s M E loc_Exact) (dyadic (if s then - m else m) e).
  Proof.
    intros HM Hm Hlt He Hmax Hc HK.
    destruct (shr_fexp_canon M E m e HM Hm Hlt He Hc HK) as (M' & P & EM & ES).
    destruct HK as (k & K1 & K2 & EQ).
    assert (Hd : Z.log2 M + E = Z.log2 m + e).
    { apply (f_equal Z.log2) in EQ. rewrite !log2_mul_pow2' in EQ by lia. lia. }
    assert (Hl : Z.log2 m < prec) by (apply Z.log2_lt_pow2; lia).
    unfold binary_round_aux. rewrite ES. cbn [shr_m loc_of_shr_record round_nearest_even].
    assert (Hlog : Z.log2 M' + canon_e M E = Z.log2 M + E).
    { rewrite EM at 2. rewrite log2_mul_pow2' by lia. lia. }
    assert (ES2 : shr_fexp prec emax M' (canon_e M E) loc_Exact =
                  (Build_shr_record M' false false, canon_e M E)).
    { unfold shr_fexp. rewrite Zdigits2_log2 by auto. unfold fexp.
      change (SpecFloat.emin prec emax) with emin.
      replace (Z.max (Z.log2 M' + 1 + canon_e M E - prec) emin - canon_e M E) with 0; [reflexivity|].
      unfold canon_e in *. lia. }
    rewrite ES2. cbn [shr_m]. destruct M' as [|p|p]; try lia.
    assert (Hce : canon_e M E <= e) by (unfold canon_e; lia).
    assert (HeL : canon_e M E <= emax - prec) by lia.
    apply Z.leb_le in HeL. fold (Z.leb (canon_e M E) (emax - prec)) in *.
    rewrite HeL. cbn [sf_is sf_int].
    apply dyadic_eq with (k := Z.min k (canon_e M E)); try lia.
    assert (G : m * 2 ^ (e - Z.min k (canon_e M E)) = Z.pos p * 2 ^ (canon_e M E - Z.min k (canon_e M E))).
    { destruct (Z.le_gt_cases k (canon_e M E)).
      - replace (Z.min k (canon_e M E)) with k by lia. rewrite <- EQ. rewrite EM at 1.
        rewrite <- Z.mul_assoc, <- Z.pow_add_r by lia. f_equal. f_equal. lia.
      - lia. }
    destruct s; cbn [sf_int]; [|exact G]. change (Z.neg p) with (- Z.pos p). rewrite !Z.mul_opp_l. now rewrite G.
  Qed.

  Lemma shift_pos_mul d p : Z.pos (shift_pos d p) = Z.pos p * 2 ^ Z.pos d.
  Proof. rewrite shift_pos_correct. rewrite Zpower_pos_nat, Zpower_nat_Z. rewrite positive_nat_Z. lia. Qed.

  Lemma binary_round_exact s p E m e :
    0 < m -> m < 2 ^ prec -> emin <= e -> e + prec <= emax ->
    (exists k, k <= E /\ k <= e /\ Z.pos p * 2 ^ (E - k) = m * 2 ^ (e - k)) ->
    sf_is (binary_round prec emax s p E) (dyadic (if s then - m else m) e).
  Proof.
    intros Hm Hlt He Hmax (k & K1 & K2 & EQ).
    unfold binary_round. rewrite digits2_log2.
    change (fexp prec emax (Z.log2 (Z.pos p) + 1 + E)) with (canon_e (Z.pos p) E).
    unfold shl_align. destruct (canon_e (Z.pos p) E - E) as [|d|d] eqn:Ed.
    - apply binary_round_aux_exact; auto; try lia. exists k; auto.
    - apply binary_round_aux_exact; auto; try lia. exists k; auto.
    - assert (Hlog : Z.log2 (Z.pos (shift_pos d p)) = Z.log2 (Z.pos p) + Z.pos d).
      { rewrite shift_pos_mul, log2_mul_pow2'; lia. }
      apply binary_round_aux_exact; auto; try lia.
      + unfold canon_e in *. lia.
      + exists (Z.min k (canon_e (Z.pos p) E)). split; [lia|]. split; [lia|].
        rewrite shift_pos_mul. rewrite <- Z.mul_assoc, <- Z.pow_add_r by lia.
        set (k' := Z.min k (canon_e (Z.pos p) E)).
        replace (Z.pos d + (canon_e (Z.pos p) E - k')) with ((E - k) + (k - k')) by lia.
        replace (e - k') with ((e - k) + (k - k')) by lia.
        rewrite !Z.pow_add_r by lia. rewrite !Z.mul_assoc, EQ. ring.
  Qed.

  Lemma binary_normalize_exact M E m e sz :
    Z.abs m < 2 ^ prec -> emin <= e -> e + prec <= emax ->
    (exists k, k <= E /\ k <= e /\ M * 2 ^ (E - k) = m * 2 ^ (e - k)) ->
    sf_is (binary_normalize prec emax M E sz) (dyadic m e).
  Proof.
    intros Hlt He Hmax (k & K1 & K2 & EQ).
    assert (P1 : 0 < 2 ^ (E - k)) by (apply Z.pow_pos_nonneg; lia).
    assert (P2 : 0 < 2 ^ (e - k)) by (apply Z.pow_pos_nonneg; lia).
    destruct M as [|p|p]; cbn [binary_normalize].
    - assert (m = 0) by nia. subst m. cbn [sf_is]. unfold dyadic. destruct (0 <=? e); reflexivity.
    - apply (binary_round_exact false p E m e); try nia. exists k. auto.
    - replace m with (- (- m)) by lia.
      apply (binary_round_exact true p E (- m) e); try nia. exists k. repeat split; try lia.
  Qed.
End Exact.

(** Equality of the value is all that matters. *)
Lemma sf_is_proper x q1 q2 : Qeq q1 q2 -> sf_is x q1 -> sf_is x q2.
Proof. intros E. destruct x; cbn [sf_is]; auto; intros H; rewrite <- E; exact H. Qed.
