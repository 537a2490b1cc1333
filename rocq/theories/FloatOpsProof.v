(** * Error bounds for the rounding of FloatOps.v *)
From Coq Require Import Lqa.
From Verif Require Import BaseLemmas FloatOps FloatLemmas.
Open Scope Z_scope.

(** Powers of two as rationals. *)
Definition P2 (k : Z) : Q := dyadic 1 k.

Lemma P2_nonneg k : 0 <= k -> Qeq (P2 k) (inject_Z (2 ^ k)).
Proof. intros H. unfold P2, dyadic. destruct (Z.leb_spec 0 k); [|lia]. now rewrite Z.mul_1_l. Qed.

Lemma dyadic_P2 m e : Qeq (dyadic m e) (inject_Z m * P2 e).
Proof.
  unfold P2, dyadic. destruct (Z.leb_spec 0 e).
  - rewrite <- inject_Z_mult. now rewrite Z.mul_1_l.
  - unfold Qeq, Qmult, inject_Z; simpl. lia.
Qed.

Lemma P2_add a b : Qeq (P2 (a + b)) (P2 a * P2 b).
Proof.
  unfold P2. transitivity (dyadic (1 * 1) (a + b)); [reflexivity|].
  assert (G : forall e, exists p q, 0 < p /\ 0 < q /\ dyadic 1 e = Qmake p (Z.to_pos q) /\ 
            p * 2 ^ (Z.max 0 (- e)) = q * 2 ^ (Z.max 0 e)).
  { intros e. unfold dyadic. destruct (Z.leb_spec 0 e).
    - exists (1 * 2 ^ e), 1. pose proof (pow2_pos e H). repeat split; try lia.
      rewrite Z.max_l, Z.max_r by lia. lia.
    - exists 1, (2 ^ (- e)). pose proof (pow2_pos (- e) ltac:(lia)). repeat split; try lia.
      rewrite Z.max_r, Z.max_l by lia. lia. }
  destruct (G a) as (p1 & q1 & Hp1 & Hq1 & -> & E1). destruct (G b) as (p2 & q2 & Hp2 & Hq2 & -> & E2).
  change (1 * 1) with 1.
  destruct (G (a + b)) as (p3 & q3 & Hp3 & Hq3 & -> & E3).
  unfold Qeq, Qmult; simpl. rewrite Pos2Z.inj_mul, !Z2Pos.id by lia.
  set (A := 2 ^ Z.max 0 a) in *. set (A' := 2 ^ Z.max 0 (- a)) in *.
  set (B := 2 ^ Z.max 0 b) in *. set (B' := 2 ^ Z.max 0 (- b)) in *.
  set (C := 2 ^ Z.max 0 (a + b)) in *. set (C' := 2 ^ Z.max 0 (- (a + b))) in *.
  assert (K : A * B * C' = A' * B' * C).
  { subst A A' B B' C C'. rewrite <- !Z.pow_add_r by lia. f_equal. lia. }
  assert (0 < A' /\ 0 < B' /\ 0 < C' /\ 0 < A /\ 0 < B /\ 0 < C).
  { subst A A' B B' C C'. repeat split; apply Z.pow_pos_nonneg; lia. }
  assert (0 < C' * A' * B') by (apply Z.mul_pos_pos; [apply Z.mul_pos_pos|]; tauto).
  apply (Z.mul_cancel_r _ _ (C' * A' * B')); [apply Z.neq_sym, Z.lt_neq; assumption|].
  transitivity ((p3 * C') * (q1 * q2) * (A' * B')); [ring|].
  transitivity ((p1 * A') * (p2 * B') * q3 * C'); [|ring].
  rewrite E1, E2, E3.
  transitivity (q3 * q1 * q2 * (A' * B' * C)); [ring|]. rewrite <- K. ring.
Qed.

Lemma P2_pos k : (0 < P2 k)%Q.
Proof.
  unfold P2, dyadic. destruct (Z.leb_spec 0 k).
  - change 0%Q with (inject_Z 0). rewrite <- Zlt_Qlt. pose proof (pow2_pos k H). lia.
  - reflexivity.
Qed.

Lemma P2_le a b : a <= b -> (P2 a <= P2 b)%Q.
Proof.
  intros H. replace b with (a + (b - a)) by lia. rewrite P2_add.
  assert (1 <= P2 (b - a))%Q.
  { rewrite P2_nonneg by lia. pose proof (pow2_pos (b - a) ltac:(lia)).
    change 1%Q with (inject_Z 1). rewrite <- Zle_Qle. lia. }
  pose proof (P2_pos a). nra.
Qed.

Lemma P2_lt_inv a b : (P2 a < P2 b)%Q -> a < b.
Proof.
  intros H. destruct (Z.lt_ge_cases a b) as [L|L]; auto. pose proof (P2_le b a L). lra.
Qed.

(** [num_pow n k / den_pow d k = n / d * 2^k] *)
Lemma num_den_pow n d k : 0 < d -> 
  0 < den_pow d k /\ Qeq (inject_Z (num_pow n k)) (inject_Z n / inject_Z d * P2 k * inject_Z (den_pow d k)).
Proof.
  intros Hd. unfold num_pow, den_pow. 
  assert (D : ~ (inject_Z d == 0)%Q) by (unfold Qeq, inject_Z; simpl; lia).
  destruct (Z.leb_spec 0 k).
  - split; [lia|]. rewrite P2_nonneg, inject_Z_mult by lia. field. auto.
  - pose proof (pow2_pos (- k) ltac:(lia)). split; [nia|].
    rewrite inject_Z_mult, <- P2_nonneg by lia.
    assert (E : (P2 k * P2 (- k) == 1)%Q) by (rewrite <- P2_add; replace (k + - k) with 0 by lia; reflexivity).
    transitivity (inject_Z n * (P2 k * P2 (- k)))%Q; [rewrite E; ring|]. field. auto.
Qed.

Lemma rne_div_err n d : 0 <= n -> 0 < d -> 0 <= rne_div n d /\ - d <= 2 * (rne_div n d * d - n) <= d.
Proof.
  intros Hn Hd. unfold rne_div. pose proof (Z.div_mod n d ltac:(lia)). pose proof (Z.mod_pos_bound n d Hd).
  assert (0 <= n / d) by (apply Z.div_pos; lia).
  destruct (Z.ltb_spec (2 * (n mod d)) d); [split; nia|].
  destruct (Z.ltb_spec d (2 * (n mod d))); [split; nia|].
  destruct (Z.even (n / d)); split; nia.
Qed.

Lemma zq_lt a b : a < b <-> (inject_Z a < inject_Z b)%Q.
Proof. rewrite Zlt_Qlt. reflexivity. Qed.
Lemma zq_le a b : a <= b <-> (inject_Z a <= inject_Z b)%Q.
Proof. rewrite Zle_Qle. reflexivity. Qed.

(** [n / d] as a rational and [flog2]. *)
Lemma log2_P2 n : 0 < n -> (P2 (Z.log2 n) <= inject_Z n < P2 (Z.log2 n + 1))%Q.
Proof.
  intros H. pose proof (Z.log2_spec n H) as [A B]. pose proof (Z.log2_nonneg n).
  rewrite !P2_nonneg by lia. split; [now apply (proj1 (zq_le _ _))|]. rewrite <- Z.add_1_r in B. now apply (proj1 (zq_lt _ _)).
Qed.

Lemma flog2_ok n d : 0 < n -> 0 < d ->
  (P2 (flog2 n d) <= inject_Z n / inject_Z d < P2 (flog2 n d + 1))%Q.
Proof.
  intros Hn Hd. unfold flog2. set (l := Z.log2 n - Z.log2 d).
  assert (D : (0 < inject_Z d)%Q) by (change 0%Q with (inject_Z 0); now apply (proj1 (zq_lt _ _))).
  assert (U : (inject_Z n / inject_Z d < P2 (l + 1))%Q /\ (P2 (l - 1) <= inject_Z n / inject_Z d)%Q).
  { pose proof (log2_P2 n Hn) as [N1 N2]. pose proof (log2_P2 d Hd) as [D1 D2].
    split.
    - apply Qlt_shift_div_r; auto.
      eapply Qlt_le_trans; [exact N2|]. replace (Z.log2 n + 1) with (l + 1 + Z.log2 d) by (subst l; lia).
      rewrite P2_add. pose proof (P2_pos (l + 1)). nra.
    - apply Qle_shift_div_l; auto.
      eapply Qle_trans; [|exact N1]. replace (Z.log2 n) with (l - 1 + (Z.log2 d + 1)) by (subst l; lia).
      rewrite P2_add. pose proof (P2_pos (l - 1)). nra. }
  destruct U as [U1 U2].
  destruct (num_den_pow n d (- l) Hd) as [K1 K2].
  assert (E : (P2 l * P2 (- l) == 1)%Q) by (rewrite <- P2_add; replace (l + - l) with 0 by lia; reflexivity).
  assert (K1' : (0 < inject_Z (den_pow d (- l)))%Q) by (change 0%Q with (inject_Z 0); now apply (proj1 (zq_lt _ _))).
  pose proof (P2_pos l). pose proof (P2_pos (- l)).
  set (x := (inject_Z n / inject_Z d)%Q) in *. clearbody x.
  destruct (Z.ltb_spec (num_pow n (- l)) (den_pow d (- l))) as [L|L].
  - replace (l - 1 + 1) with l by lia. split; [exact U2|].
    rewrite zq_lt, K2 in L.
    assert (x * P2 (- l) < 1)%Q by nra. nra.
  - split; [|exact U1]. rewrite zq_le, K2 in L.
    assert (1 <= x * P2 (- l))%Q by nra. nra.
Qed.

Lemma rnd_pos_err n d : 0 < n -> 0 < d ->
  let '(m, e) := rnd_pos n d in
  0 <= m /\ e = Z.max (-1074) (flog2 n d - 52) /\
  (- P2 (e - 1) <= inject_Z m * P2 e - inject_Z n / inject_Z d <= P2 (e - 1))%Q.
Proof.
  intros Hn Hd. unfold rnd_pos. set (e := Z.max _ _).
  destruct (num_den_pow n d (- e) Hd) as [K1 K2].
  assert (0 <= num_pow n (- e)).
  { unfold num_pow. destruct (Z.leb_spec 0 (- e)); [pose proof (pow2_pos (- e))|]; nia. }
  destruct (rne_div_err (num_pow n (- e)) (den_pow d (- e)) H K1) as [M0 M1].
  set (m := rne_div _ _) in *. split; [exact M0|]. split; [reflexivity|].
  set (dd := den_pow d (- e)) in *. set (nn := num_pow n (- e)) in *. clearbody m dd nn.
  assert (K1' : (0 < inject_Z dd)%Q) by (change 0%Q with (inject_Z 0); now apply (proj1 (zq_lt _ _))).
  assert (E : (P2 e * P2 (- e) == 1)%Q) by (rewrite <- P2_add; replace (e + - e) with 0 by lia; reflexivity).
  assert (F : (P2 e == 2 * P2 (e - 1))%Q).
  { replace e with (1 + (e - 1)) at 1 by lia. rewrite P2_add. reflexivity. }
  pose proof (P2_pos (e - 1)). pose proof (P2_pos e). pose proof (P2_pos (- e)).
  set (x := (inject_Z n / inject_Z d)%Q) in *. clearbody x.
  destruct M1 as [M1 M2].
  rewrite zq_le in M1, M2.
  rewrite inject_Z_mult in M1, M2. unfold Zminus in M1, M2.
  rewrite inject_Z_plus, inject_Z_mult, !inject_Z_opp in M1, M2. rewrite (inject_Z_opp nn) in M1. rewrite K2 in M1, M2.
  change (inject_Z 2) with 2%Q in *.
  assert (X : (- (1#2) <= inject_Z m - x * P2 (- e) <= 1 # 2)%Q).
  { split.
    - apply (Qmult_le_l _ _ (2 * inject_Z dd)); [lra|]. lra.
    - apply (Qmult_le_l _ _ (2 * inject_Z dd)); [lra|]. lra. }
  assert (Y : (x == x * P2 (- e) * P2 e)%Q) by (rewrite <- Qmult_assoc, (Qmult_comm (P2 (- e))), E; ring).
  rewrite Y. set (z := (inject_Z m - x * P2 (- e))%Q) in *.
  assert (W : (inject_Z m * P2 e - x * P2 (- e) * P2 e == z * P2 e)%Q) by (subst z; ring).
  rewrite W. rewrite F. clearbody z. nra.
Qed.

Lemma Qmake_div n d : (Qmake n d == inject_Z n / inject_Z (Zpos d))%Q.
Proof. rewrite Qmake_Qdiv. reflexivity. Qed.

(** Absolute error of rounding a value in [0, 2^b). *)
Lemma rnd64_err x b : -1021 <= b <= 1023 -> (0 <= x)%Q -> (x < P2 b)%Q ->
  exists v, rnd64 x = Some v /\ (0 <= v)%Q /\ (- P2 (b - 54) <= v - x <= P2 (b - 54))%Q.
Proof.
  intros Hb H0 H1. destruct x as [n d]. unfold rnd64. cbn [Qnum Qden].
  destruct n as [|n|n]; [| |unfold Qle in H0; simpl in H0; lia].
  - exists 0%Q. split; [reflexivity|]. pose proof (P2_pos (b - 54)). split; [lra|].
    assert (Z0 : (0 # d == 0)%Q) by (unfold Qeq; simpl; lia). rewrite Z0. lra.
  - pose proof (rnd_pos_err (Zpos n) (Zpos d) ltac:(lia) ltac:(lia)) as R.
    destruct (rnd_pos (Z.pos n) (Z.pos d)) as [m e]. destruct R as (Hm & He & R).
    pose proof (flog2_ok (Zpos n) (Zpos d) ltac:(lia) ltac:(lia)) as [F1 F2].
    rewrite (Qmake_div (Z.pos n) d) in H1.  set (x := (inject_Z (Z.pos n) / inject_Z (Z.pos d))%Q) in *.
    assert (L : flog2 (Z.pos n) (Z.pos d) < b) by (apply P2_lt_inv; lra).
    assert (E : e - 1 <= b - 54) by lia. pose proof (P2_le _ _ E) as Ple.
    assert (V : (0 <= inject_Z m * P2 e)%Q).
    { pose proof (P2_pos e). assert (0 <= inject_Z m)%Q by (change 0%Q with (inject_Z 0); now apply (proj1 (zq_le _ _))). nra. }
    assert (NO : Qle_bool (dyadic 1 1024) (dyadic m e) = false).
    { destruct (Qle_bool _ _) eqn:Q; auto. apply Qle_bool_imp_le in Q. fold (P2 1024) in Q. rewrite dyadic_P2 in Q.
      pose proof (P2_le b 1023 ltac:(lia)). pose proof (P2_le (b - 54) 1023 ltac:(lia)).
      assert (T : (P2 1024 == 2 * P2 1023)%Q) by (change 1024 with (1 + 1023); rewrite P2_add; reflexivity).
      lra. }
    rewrite NO. exists (dyadic m e). split; [reflexivity|]. rewrite (Qmake_div (Z.pos n) d). fold x. rewrite dyadic_P2. split; [exact V|]. lra.
Qed.

(** Relative error of rounding a positive normal value. *)
Lemma rnd64_rel x : (P2 (-1022) <= x)%Q -> (x < P2 1023)%Q ->
  exists v, rnd64 x = Some v /\ (x * (1 - P2 (-53)) <= v <= x * (1 + P2 (-53)))%Q.
Proof.
  intros H0 H1. destruct x as [n d]. unfold rnd64. cbn [Qnum Qden].
  pose proof (P2_pos (-1022)).
  destruct n as [|n|n];
    [unfold Qle in H0; unfold Qlt in H; simpl in *; lia| |unfold Qle in H0; unfold Qlt in H; simpl in *; lia].
  pose proof (rnd_pos_err (Zpos n) (Zpos d) ltac:(lia) ltac:(lia)) as R.
  destruct (rnd_pos (Z.pos n) (Z.pos d)) as [m e]. destruct R as (Hm & He & R).
  pose proof (flog2_ok (Zpos n) (Zpos d) ltac:(lia) ltac:(lia)) as [F1 F2].
  rewrite (Qmake_div (Z.pos n) d) in H0, H1.  set (x := (inject_Z (Z.pos n) / inject_Z (Z.pos d))%Q) in *.
  assert (L : flog2 (Z.pos n) (Z.pos d) < 1023) by (apply P2_lt_inv; lra).
  assert (L' : -1022 - 1 < flog2 (Z.pos n) (Z.pos d)).
  { enough (-1022 < flog2 (Z.pos n) (Z.pos d) + 1) by lia. apply P2_lt_inv. lra. }
  assert (E : e - 1 = flog2 (Z.pos n) (Z.pos d) + -53) by lia.
  rewrite E, P2_add in R. pose proof (P2_pos (-53)).
  assert (NO : Qle_bool (dyadic 1 1024) (dyadic m e) = false).
  { destruct (Qle_bool _ _) eqn:Q; auto. apply Qle_bool_imp_le in Q. fold (P2 1024) in Q. rewrite dyadic_P2 in Q.
    assert (T : (P2 1024 == 2 * P2 1023)%Q) by (change 1024 with (1 + 1023); rewrite P2_add; reflexivity).
    assert (P2 (-53) <= 1)%Q by (compute; congruence).
    pose proof (P2_pos (flog2 (Z.pos n) (Z.pos d))). nra. }
  rewrite NO. exists (dyadic m e). split; [reflexivity|]. rewrite (Qmake_div (Z.pos n) d). fold x. rewrite dyadic_P2. nra.
Qed.
