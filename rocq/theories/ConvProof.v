(** * Proofs about the conversion of sample types. *)

From Verif Require Import Base BaseLemmas FloatOps ConvModel ConvSpec.
Open Scope Z_scope.

(** ** Formats *)

Definition good (F : format) : Prop := 1 <= fb F /\ 2 <= eb F /\ 0 <= sh F.
Lemma good32 : good binary32. Proof. unfold good, binary32. cbn. lia. Qed.
Lemma good64 : good binary64. Proof. unfold good, binary64. cbn. lia. Qed.

(** The magnitude of a pattern without sign, the exponent not bounded. *)
Definition mag (F : format) (b : Z) : Z :=
  let e := b / 2 ^ fb F in let f := b mod 2 ^ fb F in
  (if e =? 0 then f else (f + 2 ^ fb F) * 2 ^ (e - 1)) * 2 ^ sh F.

Lemma pow_pos k : 0 <= k -> 0 < 2 ^ k. Proof. intros H. apply Z.pow_pos_nonneg; lia. Qed.

Lemma mag_grid F e q : good F -> 0 <= e -> 0 <= q <= 2 ^ (fb F + 1) -> (0 < e -> 2 ^ fb F <= q) ->
  mag F (e * 2 ^ fb F + q) = q * 2 ^ (e + sh F).
Proof.
  intros (G1 & G2 & G3) He Hq Hn. unfold mag. set (P := 2 ^ fb F) in *.
  assert (HP : 0 < P) by (apply pow_pos; lia).
  replace (2 ^ (fb F + 1)) with (2 * P) in Hq by (unfold P; rewrite Z.pow_add_r by lia; lia).
  rewrite Z.pow_add_r by lia. rewrite Z.mul_assoc. f_equal.
  destruct (Z.lt_ge_cases q P) as [Q1|Q1].
  - assert (e = 0) by (destruct (Z.eq_dec e 0); lia). subst e.
    rewrite Z.div_small, Z.mod_small by lia. rewrite Z.eqb_refl. cbn. lia.
  - destruct (Z.eq_dec q (2 * P)) as [Q2|Q2].
    + subst q. replace (e * P + 2 * P) with (0 + (e + 2) * P) by ring. rewrite Z.div_add, Z_mod_plus_full by lia.
      rewrite Z.div_small, Z.mod_small by lia. destruct (Z.eqb_spec (0 + (e + 2)) 0); [lia|].
      replace (0 + (e + 2) - 1) with (1 + e) by lia. rewrite Z.pow_add_r by lia. lia.
    + replace (e * P + q) with ((q - P) + (e + 1) * P) by ring. rewrite Z.div_add, Z_mod_plus_full by lia.
      rewrite Z.div_small, Z.mod_small by lia. destruct (Z.eqb_spec (0 + (e + 1)) 0); [lia|].
      replace (0 + (e + 1) - 1) with e by lia. f_equal. lia.
Qed.

(** Every pattern is on a grid. *)
Lemma mag_form F b : good F -> 0 <= b -> exists e q, 0 <= e /\ 0 <= q < 2 ^ (fb F + 1) /\ (0 < e -> 2 ^ fb F <= q) /\ b = e * 2 ^ fb F + q.
Proof.
  intros (G1 & G2 & G3) Hb. set (P := 2 ^ fb F) in *. assert (HP : 0 < P) by (apply pow_pos; lia).
  replace (2 ^ (fb F + 1)) with (2 * P) by (unfold P; rewrite Z.pow_add_r by lia; lia).
  pose proof (Z.div_mod b P ltac:(lia)). pose proof (Z.mod_pos_bound b P HP). pose proof (Z.div_pos b P Hb HP).
  destruct (Z.eq_dec (b / P) 0) as [E|E].
  - exists 0, b. rewrite E in *. repeat split; lia.
  - exists (b / P - 1), (b mod P + P). repeat split; lia.
Qed.

Lemma mag_succ F b : good F -> 0 <= b -> mag F b < mag F (b + 1).
Proof.
  intros G Hb. destruct (mag_form F b G Hb) as (e & q & He & Hq & Hn & ->).
  rewrite (mag_grid F e q G He) by (auto; lia). replace (e * 2 ^ fb F + q + 1) with (e * 2 ^ fb F + (q + 1)) by ring.
  rewrite (mag_grid F e (q + 1) G He) by lia.
  assert (0 < 2 ^ (e + sh F)) by (apply pow_pos; unfold good in G; lia). nia.
Qed.

Lemma mag_le F a b : good F -> 0 <= a <= b -> mag F a <= mag F b.
Proof.
  intros G [Ha Hab]. replace b with (a + Z.of_nat (Z.to_nat (b - a))) by lia. generalize (Z.to_nat (b - a)). clear b Hab.
  induction n as [|n IH]; [replace (a + Z.of_nat 0) with a by lia; lia|].
  replace (a + Z.of_nat (S n)) with (a + Z.of_nat n + 1) by lia. pose proof (mag_succ F (a + Z.of_nat n) G ltac:(lia)). lia.
Qed.
Lemma mag_lt F a b : good F -> 0 <= a < b -> mag F a < mag F b.
Proof. intros G H. pose proof (mag_succ F a G ltac:(lia)). pose proof (mag_le F (a + 1) b G ltac:(lia)). lia. Qed.
Lemma mag_inj F a b : good F -> 0 <= a -> 0 <= b -> mag F a = mag F b -> a = b.
Proof.
  intros G Ha Hb E. destruct (Z.lt_trichotomy a b) as [L|[L|L]]; [|exact L|].
  - pose proof (mag_lt F a b G ltac:(lia)). lia.
  - pose proof (mag_lt F b a G ltac:(lia)). lia.
Qed.
Lemma mag_0 F : good F -> mag F 0 = 0.
Proof. intros G. exact (mag_grid F 0 0 G ltac:(lia) ltac:(pose proof (pow_pos (fb F + 1) ltac:(unfold good in G; lia)); lia) ltac:(lia)). Qed.
Lemma mag_nonneg F b : good F -> 0 <= b -> 0 <= mag F b.
Proof. intros G H. rewrite <- (mag_0 F G). apply mag_le; auto. lia. Qed.

(** Rounding without the bound of the exponent. *)
Definition round0 (F : format) (n : Z) : Z :=
  let e := Z.max 0 (Z.log2 n - sh F - fb F) in e * 2 ^ fb F + rne_div n (2 ^ (e + sh F)).
Definition inf_pat (F : format) : Z := (2 ^ eb F - 1) * 2 ^ fb F.

Lemma round_mag_0 F n : round_mag F n = Z.min (round0 F n) (inf_pat F). Proof. reflexivity. Qed.

Lemma rne_cases n d : 0 < d -> 0 <= n ->
  (rne_div n d = n / d /\ 2 * (n mod d) <= d /\ (2 * (n mod d) = d -> Z.even (n / d) = true)) \/
  (rne_div n d = n / d + 1 /\ d <= 2 * (n mod d) /\ (2 * (n mod d) = d -> Z.even (n / d) = false)).
Proof.
  intros Hd Hn. unfold rne_div. destruct (Z.ltb_spec (2 * (n mod d)) d); [left; repeat split; lia|].
  destruct (Z.ltb_spec d (2 * (n mod d))); [right; repeat split; lia|].
  destruct (Z.even (n / d)) eqn:E; [left|right]; repeat split; auto; lia.
Qed.

Lemma round0_bracket F n : good F -> 0 <= n -> exists b, 0 <= b /\ mag F b <= n < mag F (b + 1) /\
  ((round0 F n = b /\ 2 * n <= mag F b + mag F (b + 1) /\ (2 * n = mag F b + mag F (b + 1) -> Z.even b = true)) \/
   (round0 F n = b + 1 /\ mag F b + mag F (b + 1) <= 2 * n /\ (2 * n = mag F b + mag F (b + 1) -> Z.even b = false))).
Proof.
  intros G Hn. pose proof G as (G1 & G2 & G3). unfold round0. set (e := Z.max 0 (Z.log2 n - sh F - fb F)). cbv zeta.
  set (d := 2 ^ (e + sh F)). assert (He : 0 <= e) by (unfold e; lia). assert (Hd : 0 < d) by (apply pow_pos; lia).
  set (P := 2 ^ fb F). assert (HP : 0 < P) by (apply pow_pos; lia).
  pose proof (Z.div_mod n d ltac:(lia)) as DM. pose proof (Z.mod_pos_bound n d Hd) as MB. pose proof (Z.div_pos n d Hn Hd) as DP.
  set (q := n / d) in *. set (r := n mod d) in *.
  assert (Q2 : q < 2 * P).
  { apply Z.div_lt_upper_bound; [lia|]. destruct (Z.eq_dec n 0) as [->|N]; [nia|].
    destruct (Z.log2_spec n ltac:(lia)) as [_ L]. eapply Z.lt_le_trans; [exact L|].
    replace (d * (2 * P)) with (2 ^ (e + sh F + (1 + fb F))) by (unfold d, P; rewrite !Z.pow_add_r by lia; ring).
    apply Z.pow_le_mono_r; lia. }
  assert (Q1 : 0 < e -> P <= q).
  { intros He'. apply Z.div_le_lower_bound; [lia|]. assert (0 < n) by (destruct (Z.eq_dec n 0) as [->|]; [unfold e in He'; cbn in He'; lia|lia]).
    destruct (Z.log2_spec n ltac:(lia)) as [L _]. eapply Z.le_trans; [|exact L].
    unfold d, P. rewrite <- Z.pow_add_r by lia. apply Z.pow_le_mono_r; lia. }
  exists (e * P + q). unfold P in *.
  assert (E2 : 2 ^ (fb F + 1) = 2 * 2 ^ fb F) by (rewrite Z.pow_add_r by lia; lia).
  replace (e * 2 ^ fb F + q + 1) with (e * 2 ^ fb F + (q + 1)) by ring.
  rewrite (mag_grid F e q G He) by (auto; lia). rewrite (mag_grid F e (q + 1) G He) by lia. fold d.
  assert (Ev : Z.even (e * 2 ^ fb F + q) = Z.even q).
  { rewrite Z.even_add, Z.even_mul, Z.even_pow by lia. cbn. rewrite Bool.orb_true_r. destruct (Z.even q); reflexivity. }
  split; [nia|]. split; [nia|]. rewrite Ev.
  destruct (rne_cases n d Hd Hn) as [(R & A & B)|(R & A & B)]; fold q r in R, A, B; rewrite R; [left|right].
  - split; [reflexivity|]. split; [nia|]. intros X. apply B. nia.
  - split; [ring|]. split; [nia|]. intros X. apply B. nia.
Qed.

(** Nearest among all patterns without sign. *)
Lemma round0_nearest F n b' : good F -> 0 <= n -> 0 <= b' ->
  Z.abs (n - mag F (round0 F n)) <= Z.abs (n - mag F b') /\
  (Z.abs (n - mag F (round0 F n)) = Z.abs (n - mag F b') -> mag F (round0 F n) = mag F b' \/ Z.even (round0 F n) = true).
Proof.
  intros G Hn Hb'. destruct (round0_bracket F n G Hn) as (b & B0 & B1 & C).
  assert (D : b' <= b \/ b + 1 <= b') by lia.
  destruct C as [(-> & C1 & C2)|(-> & C1 & C2)]; destruct D as [D|D].
  - pose proof (mag_le F b' b G ltac:(lia)). split; [lia|]. intros X. left. lia.
  - pose proof (mag_le F (b + 1) b' G ltac:(lia)). split; [lia|]. intros X. right. apply C2. lia.
  - pose proof (mag_le F b' b G ltac:(lia)). split; [lia|]. intros X. right. rewrite Z.even_add, C2 by lia. reflexivity.
  - pose proof (mag_le F (b + 1) b' G ltac:(lia)). split; [lia|]. intros X. left. lia.
Qed.
Lemma round0_nonneg F n : good F -> 0 <= n -> 0 <= round0 F n.
Proof. intros G Hn. destruct (round0_bracket F n G Hn) as (b & B0 & _ & [(-> & _)|(-> & _)]); lia. Qed.

(** A value of the format is not changed. *)
Lemma round0_exact F b : good F -> 0 <= b -> round0 F (mag F b) = b.
Proof.
  intros G Hb. pose proof (mag_nonneg F b G Hb). pose proof (round0_nonneg F (mag F b) G ltac:(lia)).
  destruct (round0_nearest F (mag F b) b G ltac:(lia) Hb) as [D _]. apply (mag_inj F); auto. lia.
Qed.

Lemma inf_pat_even F : good F -> Z.even (inf_pat F) = true.
Proof. intros (G1 & G2 & G3). unfold inf_pat. rewrite Z.even_mul, (Z.even_pow 2 (fb F)) by lia. cbn. apply Bool.orb_true_r. Qed.

(** When the rounded value is infinite. *)
Lemma round0_inf F n : good F -> 0 <= n -> inf_pat F <= round0 F n <-> mag F (inf_pat F - 1) + mag F (inf_pat F) <= 2 * n.
Proof.
  intros G Hn. pose proof G as (G1 & G2 & G3). set (I := inf_pat F).
  assert (HI : 1 <= I).
  { unfold I, inf_pat. pose proof (pow_pos (fb F) ltac:(lia)). pose proof (Z.pow_le_mono_r 2 2 (eb F) ltac:(lia) ltac:(lia)). nia. }
  destruct (round0_bracket F n G Hn) as (b & B0 & B1 & C). pose proof (inf_pat_even F G) as EV. fold I in EV.
  destruct (Z.lt_trichotomy (b + 1) I) as [L|[L|L]].
  - pose proof (mag_le F (b + 1) (I - 1) G ltac:(lia)). pose proof (mag_lt F (I - 1) I G ltac:(lia)).
    destruct C as [(-> & C1 & C2)|(-> & C1 & C2)]; lia.
  - subst I. replace (inf_pat F - 1) with b by lia. rewrite <- L.
    destruct C as [(-> & C1 & C2)|(-> & C1 & C2)]; [|lia]. split; [lia|]. intros X.
    exfalso. specialize (C2 ltac:(lia)). rewrite <- L in EV. rewrite Z.even_add, C2 in EV. discriminate.
  - pose proof (mag_le F I b G ltac:(lia)). pose proof (mag_lt F (I - 1) I G ltac:(lia)).
    destruct C as [(-> & C1 & C2)|(-> & C1 & C2)]; lia.
Qed.

(** Representable values. *)
Lemma grid_exact F m e : good F -> 0 <= m < 2 ^ (fb F + 1) -> sh F <= e -> exists b, 0 <= b /\ mag F b = m * 2 ^ e.
Proof.
  intros G Hm He. pose proof G as (G1 & G2 & G3).
  pose proof (pow_pos e ltac:(lia)). set (n := m * 2 ^ e). assert (Hn : 0 <= n) by (unfold n; nia).
  exists (round0 F n). split; [apply round0_nonneg; auto|].
  unfold round0. set (k := Z.max 0 (Z.log2 n - sh F - fb F)). cbv zeta.
  assert (K : k + sh F <= e).
  { unfold k. destruct (Z.eq_dec m 0) as [->|M]; [unfold n; cbn; lia|].
    assert (Z.log2 n < e + fb F + 1); [|lia]. apply Z.log2_lt_pow2; [unfold n; nia|].
    replace (e + fb F + 1) with ((fb F + 1) + e) by ring. rewrite Z.pow_add_r by lia. unfold n. nia. }
  assert (Hk : 0 <= k) by (unfold k; lia).
  set (d := 2 ^ (k + sh F)). assert (Hd : 0 < d) by (apply pow_pos; lia).
  assert (ND : n = m * 2 ^ (e - (k + sh F)) * d).
  { unfold n, d. rewrite <- Z.mul_assoc, <- Z.pow_add_r by lia. do 2 f_equal. lia. }
  assert (R : rne_div n d = m * 2 ^ (e - (k + sh F))).
  { unfold rne_div. rewrite ND, Z.div_mul, Z_mod_mult by lia. cbn [Z.mul]. destruct (Z.ltb_spec 0 d); lia. }
  rewrite R. set (q := m * 2 ^ (e - (k + sh F))) in *.
  assert (Hq : 0 <= q) by (pose proof (pow_pos (e - (k + sh F)) ltac:(lia)); unfold q; nia).
  rewrite (mag_grid F k q G Hk).
  - fold d. lia.
  - split; [lia|]. apply Z.lt_le_incl. destruct (Z.eq_dec n 0) as [N0|N0].
    { pose proof (pow_pos (fb F + 1) ltac:(lia)). nia. }
    destruct (Z.log2_spec n ltac:(lia)) as [_ L]. apply (Z.mul_lt_mono_pos_r d); [lia|]. rewrite <- ND.
    eapply Z.lt_le_trans; [exact L|]. unfold d. rewrite <- Z.pow_add_r by lia. apply Z.pow_le_mono_r; [lia|]. unfold k. lia.
  - intros Hk'. destruct (Z.eq_dec n 0) as [N0|N0]; [unfold k in Hk'; rewrite N0 in Hk'; cbn in Hk'; lia|].
    destruct (Z.log2_spec n ltac:(lia)) as [L _]. apply (Z.mul_le_mono_pos_r _ _ d); [lia|]. rewrite <- ND.
    eapply Z.le_trans; [|exact L]. unfold d. rewrite <- Z.pow_add_r by lia. apply Z.pow_le_mono_r; [lia|]. unfold k in *. lia.
Qed.

(** ** Patterns with sign *)

Definition val (F : format) (b : Z) : option Z :=
  match decode_fmt F b with FFin neg m => Some (signed_mag neg m) | _ => None end.

Lemma pat_bounds F b : good F -> 0 <= b < 2 ^ (fb F + eb F) ->
  0 <= b / 2 ^ fb F < 2 ^ eb F /\ (b / 2 ^ fb F = 2 ^ eb F - 1 <-> inf_pat F <= b) /\ (b mod 2 ^ fb F = 0 -> b / 2 ^ fb F = 2 ^ eb F - 1 -> b = inf_pat F).
Proof.
  intros (G1 & G2 & G3) Hb. unfold inf_pat. rewrite Z.pow_add_r in Hb by lia.
  assert (0 < 2 ^ fb F) by (apply pow_pos; lia). assert (0 < 2 ^ eb F) by (apply pow_pos; lia).
  set (P := 2 ^ fb F) in *. set (E := 2 ^ eb F) in *.
  pose proof (Z.div_mod b P ltac:(lia)). pose proof (Z.mod_pos_bound b P ltac:(lia)).
  assert (0 <= b / P) by (apply Z.div_pos; lia). assert (b / P < E) by (apply Z.div_lt_upper_bound; lia).
  split; [lia|]. split; [|intros A B; rewrite B, A in *; lia]. split; intros X; [rewrite X in *; nia|].
  assert (E - 1 <= b / P); [|lia]. apply Z.div_le_lower_bound; lia.
Qed.

Lemma sign_split F neg b : good F -> 0 <= b < 2 ^ (fb F + eb F) ->
  (2 ^ (fb F + eb F) <=? with_sign F neg b) = neg /\ with_sign F neg b / 2 ^ fb F mod 2 ^ eb F = b / 2 ^ fb F /\
  with_sign F neg b mod 2 ^ fb F = b mod 2 ^ fb F /\ 0 <= with_sign F neg b < 2 ^ (fb F + eb F + 1).
Proof.
  intros G Hb. destruct (pat_bounds F b G Hb) as (A & _ & _). destruct G as (G1 & G2 & G3).
  rewrite (Z.pow_add_r 2 (fb F + eb F) 1) by lia. unfold with_sign.
  assert (0 < 2 ^ fb F) by (apply pow_pos; lia). assert (0 < 2 ^ eb F) by (apply pow_pos; lia).
  destruct neg.
  - rewrite Z.pow_add_r in * by lia. set (P := 2 ^ fb F) in *. set (E := 2 ^ eb F) in *.
    split; [apply Z.leb_le; lia|]. replace (P * E + b) with (b + E * P) by ring. rewrite Z.div_add, Z_mod_plus_full by lia.
    split; [|split; [reflexivity|lia]]. replace (b / P + E) with (b / P + 1 * E) by ring. rewrite Z_mod_plus_full, Z.mod_small; lia.
  - split; [apply Z.leb_gt; lia|]. split; [apply Z.mod_small; lia|]. split; [reflexivity|lia].
Qed.

Lemma sign_cover F w : good F -> 0 <= w < 2 ^ (fb F + eb F + 1) -> exists neg b, w = with_sign F neg b /\ 0 <= b < 2 ^ (fb F + eb F).
Proof.
  intros (G1 & G2 & G3). rewrite (Z.pow_add_r 2 (fb F + eb F) 1) by lia. intros H.
  destruct (Z.lt_ge_cases w (2 ^ (fb F + eb F))); [exists false, w|exists true, (w - 2 ^ (fb F + eb F))]; unfold with_sign; split; lia.
Qed.

Lemma decode_pat F neg b : good F -> 0 <= b < 2 ^ (fb F + eb F) ->
  decode_fmt F (with_sign F neg b) =
  if b <? inf_pat F then FFin neg (mag F b) else if b =? inf_pat F then FInf neg else FNan neg (b mod 2 ^ fb F).
Proof.
  intros G Hb. destruct (sign_split F neg b G Hb) as (S1 & S2 & S3 & _). destruct (pat_bounds F b G Hb) as (A & B & C).
  unfold decode_fmt. rewrite S1, S2, S3. destruct (Z.ltb_spec b (inf_pat F)) as [L|L].
  - destruct (Z.eqb_spec (b / 2 ^ fb F) (2 ^ eb F - 1)) as [X|X]; [apply B in X; lia|]. reflexivity.
  - destruct (Z.eqb_spec (b / 2 ^ fb F) (2 ^ eb F - 1)) as [X|X]; [|exfalso; apply X; apply B; lia].
    destruct (Z.eqb_spec (b mod 2 ^ fb F) 0) as [Y|Y].
    + rewrite (C Y X), Z.eqb_refl. reflexivity.
    + destruct (Z.eqb_spec b (inf_pat F)) as [Q|Q]; [|reflexivity]. exfalso. apply Y. rewrite Q. unfold inf_pat. apply Z_mod_mult.
Qed.

Lemma inf_in F : good F -> 1 <= inf_pat F < 2 ^ (fb F + eb F).
Proof.
  intros (G1 & G2 & G3). unfold inf_pat. rewrite Z.pow_add_r by lia.
  pose proof (pow_pos (fb F) ltac:(lia)). pose proof (Z.pow_le_mono_r 2 2 (eb F) ltac:(lia) ltac:(lia)). nia.
Qed.

Lemma even_sign F neg b : good F -> Z.even (with_sign F neg b) = Z.even b.
Proof.
  intros (G1 & G2 & G3). unfold with_sign. destruct neg; [|reflexivity].
  rewrite Z.even_add, Z.even_pow by lia. cbn. destruct (Z.even b); reflexivity.
Qed.

(** Rounding a signed value gives the nearest pattern. *)
Lemma round_nearest F neg m : good F -> 0 <= m -> round0 F m < inf_pat F ->
  nearest_pattern (val F) (fb F + eb F + 1) (signed_mag neg m) (with_sign F neg (round_mag F m)).
Proof.
  intros G Hm Hr. pose proof (inf_in F G) as HI. pose proof (round0_nonneg F m G Hm) as R0.
  assert (E : round_mag F m = round0 F m) by (rewrite round_mag_0; lia). rewrite E.
  destruct (sign_split F neg (round0 F m) G ltac:(lia)) as (_ & _ & _ & RG). split; [exact RG|].
  exists (signed_mag neg (mag F (round0 F m))). split.
  { unfold val. rewrite decode_pat by (auto; lia). destruct (Z.ltb_spec (round0 F m) (inf_pat F)); [reflexivity|lia]. }
  intros w v' Hw Hv. destruct (sign_cover F w G Hw) as (neg' & b' & -> & Hb').
  unfold val in Hv. rewrite decode_pat in Hv by auto. destruct (Z.ltb_spec b' (inf_pat F)) as [L|L]; [|destruct (b' =? inf_pat F); discriminate].
  injection Hv as <-. rewrite even_sign by exact G.
  destruct (round0_nearest F m b' G Hm ltac:(lia)) as [D1 D2]. destruct (round0_nearest F m 0 G Hm ltac:(lia)) as [D3 D4].
  rewrite mag_0 in D3, D4 by exact G. pose proof (mag_nonneg F b' G ltac:(lia)).
  unfold signed_mag. destruct neg, neg'.
  - split; [lia|]. intros X. destruct D2 as [Q|Q]; [lia|left; lia|right; exact Q].
  - split; [lia|]. intros X. destruct D4 as [Q|Q]; [lia|left; lia|right; exact Q].
  - split; [lia|]. intros X. destruct D4 as [Q|Q]; [lia|left; lia|right; exact Q].
  - split; [lia|]. intros X. destruct D2 as [Q|Q]; [lia|left; lia|right; exact Q].
Qed.

(** ** The two formats *)

Lemma nearest_ext u1 u2 w x b : (forall b, 0 <= b < 2 ^ w -> u1 b = u2 b) -> nearest_pattern u1 w x b -> nearest_pattern u2 w x b.
Proof.
  intros E (R & v & V & N). split; [exact R|]. exists v. split; [rewrite <- E; auto|]. intros b' v' B V'. apply (N b'); [exact B|]. rewrite E; auto.
Qed.

Lemma val32 b : 0 <= b < 2 ^ 32 -> val binary32 b = units32 b.
Proof.
  intros H. unfold val, decode_fmt, units32. cbn [fb eb sh binary32]. change (23 + 8) with 31.
  replace (b / 2 ^ 23 mod 2 ^ 8) with (b mod 2 ^ 31 / 2 ^ 23) by lia. change (2 ^ 8 - 1) with 255.
  set (e := b mod 2 ^ 31 / 2 ^ 23). destruct (Z.eqb_spec e 255) as [A|A].
  - destruct (b mod 2 ^ 23 =? 0); reflexivity.
  - f_equal. set (m := if e =? 0 then _ else _). replace (if e =? 0 then b mod 2 ^ 23 else (2 ^ 23 + b mod 2 ^ 23) * 2 ^ (e - 1)) with m
      by (unfold m; rewrite (Z.add_comm (2 ^ 23)); reflexivity).
    unfold signed_mag. destruct (Z.leb_spec (2 ^ 31) b), (Z.ltb_spec b (2 ^ 31)); try lia; ring.
Qed.
Lemma val64 b : 0 <= b < 2 ^ 64 -> val binary64 b = units64 b.
Proof.
  intros H. unfold val, decode_fmt, units64. cbn [fb eb sh binary64]. change (52 + 11) with 63.
  replace (b / 2 ^ 52 mod 2 ^ 11) with (b mod 2 ^ 63 / 2 ^ 52) by lia. change (2 ^ 11 - 1) with 2047.
  set (e := b mod 2 ^ 63 / 2 ^ 52). destruct (Z.eqb_spec e 2047) as [A|A].
  - destruct (b mod 2 ^ 52 =? 0); reflexivity.
  - f_equal. set (m := if e =? 0 then _ else _). replace (if e =? 0 then b mod 2 ^ 52 else (2 ^ 52 + b mod 2 ^ 52) * 2 ^ (e - 1)) with m
      by (unfold m; rewrite (Z.add_comm (2 ^ 52)); reflexivity).
    unfold signed_mag. change (2 ^ 0) with 1. destruct (Z.leb_spec (2 ^ 63) b), (Z.ltb_spec b (2 ^ 63)); try lia; ring.
Qed.

Lemma mag_inf F : good F -> mag F (inf_pat F) = 2 ^ (fb F + (2 ^ eb F - 2) + sh F).
Proof.
  intros G. pose proof G as (G1 & G2 & G3). pose proof (pow_pos (fb F) ltac:(lia)). pose proof (Z.pow_le_mono_r 2 2 (eb F) ltac:(lia) ltac:(lia)).
  unfold inf_pat. replace ((2 ^ eb F - 1) * 2 ^ fb F) with ((2 ^ eb F - 2) * 2 ^ fb F + 2 ^ fb F) by ring.
  change (2 ^ 2) with 4 in *. rewrite (mag_grid F (2 ^ eb F - 2) (2 ^ fb F) G ltac:(lia)); [|rewrite Z.pow_add_r by lia; lia|lia].
  rewrite <- Z.pow_add_r by lia. f_equal. lia.
Qed.

(** A value of the format below infinity is kept. *)
Lemma exact_value F b : good F -> 0 <= b -> mag F b < mag F (inf_pat F) -> round_mag F (mag F b) = b /\ b < inf_pat F.
Proof.
  intros G Hb H. assert (b < inf_pat F). { destruct (Z.lt_ge_cases b (inf_pat F)); [assumption|]. pose proof (mag_le F (inf_pat F) b G ltac:(pose proof (inf_in F G); lia)). lia. }
  rewrite round_mag_0, round0_exact by auto. split; lia.
Qed.
Lemma decode_exact F neg b : good F -> 0 <= b -> b < inf_pat F -> decode_fmt F (with_sign F neg b) = FFin neg (mag F b).
Proof. intros G Hb H. pose proof (inf_in F G). rewrite decode_pat by (auto; lia). destruct (Z.ltb_spec b (inf_pat F)); [reflexivity|lia]. Qed.

Lemma pow_le a b : 0 <= a <= b -> 2 ^ a <= 2 ^ b. Proof. intros H. apply Z.pow_le_mono_r; lia. Qed.

Lemma encode_split F x : encode_fmt F x = with_sign F (x <? 0) (round_mag F (Z.abs x)). Proof. reflexivity. Qed.
Lemma signed_abs x : signed_mag (x <? 0) (Z.abs x) = x.
Proof. unfold signed_mag. destruct (Z.ltb_spec x 0); lia. Qed.

Lemma inf64 : mag binary64 (inf_pat binary64) = 2 ^ 2098. Proof. exact (mag_inf binary64 good64). Qed.
Lemma inf32 : mag binary32 (inf_pat binary32) = 2 ^ 1202. Proof. exact (mag_inf binary32 good32). Qed.

(** Integers to doubles. *)
Lemma int_double z : in_s 32 z -> let b := int_to_fmt binary64 z in 0 <= b < 2 ^ 64 /\ units64 b = Some (z * one).
Proof.
  intros Hz. cbv zeta. unfold int_to_fmt. rewrite encode_split. unfold in_s in Hz. change (2 ^ (32 - 1)) with 2147483648 in Hz.
  assert (HO : 0 < unit1) by (apply pow_pos; lia).
  destruct (grid_exact binary64 (Z.abs z) 1074 good64) as (b & B0 & BM); [cbn [fb binary64]; change (2 ^ (52 + 1)) with 9007199254740992; lia|cbn; lia|].
  assert (A : Z.abs (z * unit1) = mag binary64 b) by (rewrite BM, Z.abs_mul, (Z.abs_eq unit1) by lia; reflexivity). rewrite A.
  assert (L : mag binary64 b < mag binary64 (inf_pat binary64)).
  { rewrite BM, inf64. pose proof (pow_le (32 + 1074) 2098 ltac:(lia)). pose proof (pow_pos 1074 ltac:(lia)).
    rewrite Z.pow_add_r in H by lia. change (2 ^ 32) with 4294967296 in H. nia. }
  destruct (exact_value binary64 b good64 B0 L) as [-> HB].
  destruct (sign_split binary64 (z * unit1 <? 0) b good64 ltac:(pose proof (inf_in binary64 good64); lia)) as (_ & _ & _ & R).
  split; [exact R|]. rewrite <- val64 by exact R. unfold val. rewrite decode_exact by (auto using good64).
  rewrite <- A, signed_abs. reflexivity.
Qed.

(** Integers to floats. *)
Lemma int_float z : in_s 32 z -> nearest_pattern units32 32 (z * one) (int_to_fmt binary32 z).
Proof.
  intros Hz. unfold in_s in Hz. change (2 ^ (32 - 1)) with 2147483648 in Hz. unfold int_to_fmt. rewrite encode_split.
  apply (nearest_ext (val binary32)); [exact val32|]. rewrite <- (signed_abs (z * one)) at 1.
  apply round_nearest; [exact good32|lia|]. apply Z.lt_nge. rewrite round0_inf by (try exact good32; lia).
  rewrite inf32. pose proof (mag_nonneg binary32 (inf_pat binary32 - 1) good32 ltac:(pose proof (inf_in binary32 good32); lia)).
  pose proof (pow_le (33 + 1074) 1202 ltac:(lia)) as P. rewrite Z.pow_add_r in P by lia. change (2 ^ 33) with 8589934592 in P.
  unfold unit1. rewrite Z.abs_mul, (Z.abs_eq (2 ^ 1074)) by (pose proof (pow_pos 1074 ltac:(lia)); lia).
  pose proof (pow_pos 1074 ltac:(lia)). nia.
Qed.

(** Every float is a double. *)
Lemma float_in_double b : 0 <= b < inf_pat binary32 -> exists b', 0 <= b' < inf_pat binary64 /\ mag binary64 b' = mag binary32 b.
Proof.
  intros Hb. destruct (mag_form binary32 b good32 ltac:(lia)) as (e & q & He & Hq & Hn & E).
  assert (M : mag binary32 b = q * 2 ^ (e + 925)) by (rewrite E; apply mag_grid; try exact good32; auto; lia).
  destruct (grid_exact binary64 q (e + 925) good64) as (b' & B0 & BM).
  - cbn [fb binary64 binary32] in *. change (2 ^ (23 + 1)) with 16777216 in Hq. change (2 ^ (52 + 1)) with 9007199254740992. lia.
  - cbn. lia.
  - exists b'. split; [|congruence]. pose proof (mag_lt binary32 b (inf_pat binary32) good32 ltac:(lia)) as L. rewrite inf32 in L.
    split; [exact B0|]. apply (exact_value binary64 b' good64 B0). rewrite inf64, BM, <- M. pose proof (pow_le 1202 2098 ltac:(lia)). lia.
Qed.

Lemma lor_quiet f : 0 <= f < 2 ^ 23 -> 0 < Z.lor f (2 ^ 22) < 2 ^ 23.
Proof.
  intros H. assert (N : 0 <= Z.lor f (2 ^ 22)) by (apply Z.lor_nonneg; lia).
  assert (Z0 : Z.lor f (2 ^ 22) <> 0). { intros X. apply Z.lor_eq_0_iff in X. destruct X as [_ X]. discriminate. }
  split; [lia|]. apply Z.log2_lt_pow2; [lia|]. rewrite Z.log2_lor by lia. change (Z.log2 (2 ^ 22)) with 22.
  destruct (Z.eq_dec f 0) as [->|]; [cbn; lia|]. assert (Z.log2 f < 23) by (apply Z.log2_lt_pow2; lia). lia.
Qed.

Lemma float_double w : 0 <= w < 2 ^ 32 -> same_value w (float_to_double w).
Proof.
  intros Hw. destruct (sign_cover binary32 w good32 Hw) as (neg & b & E & Hb).
  change (2 ^ (fb binary32 + eb binary32)) with 2147483648 in Hb.
  assert (V : val binary32 w = units32 w) by (apply val32; exact Hw).
  unfold float_to_double. unfold val in V. rewrite E in V |- *. rewrite decode_pat in V |- * by (try exact good32; exact Hb).
  change (inf_pat binary32) with 2139095040 in *. change (2 ^ fb binary32) with 8388608 in *.
  assert (W : w = (if neg then 2147483648 + b else b)) by (rewrite E; destruct neg; reflexivity). rewrite <- E in *. clear E.
  destruct (Z.ltb_spec b 2139095040) as [L|L].
  - destruct (float_in_double b ltac:(change (inf_pat binary32) with 2139095040; lia)) as (b' & B' & M). rewrite <- M in *.
    destruct (exact_value binary64 b' good64 ltac:(lia) ltac:(apply mag_lt; try exact good64; lia)) as [-> _].
    pose proof (inf_in binary64 good64) as IN.
    destruct (sign_split binary64 neg b' good64 ltac:(lia)) as (S1 & _ & _ & R). change (2 ^ (fb binary64 + eb binary64)) with (2 ^ 63) in S1.
    unfold same_value. split; [exact R|]. split; [destruct neg; [apply Z.leb_le in S1|apply Z.leb_gt in S1]; lia|].
    split; [|split].
    + intros v Hv. rewrite <- V in Hv. injection Hv as <-. rewrite <- val64 by exact R. unfold val. rewrite decode_exact by (try exact good64; lia). reflexivity.
    + intros ng Hn. exfalso. unfold infinity32 in Hn. destruct ng, neg; lia.
    + intros Hn. exfalso. unfold nan32 in Hn. destruct neg; lia.
  - destruct (Z.eqb_spec b 2139095040) as [Q|Q].
    + unfold same_value, with_sign. cbn [fb eb binary64]. change (52 + 11) with 63.
      split; [destruct neg; lia|]. split; [destruct neg; lia|]. split; [intros v Hv; rewrite Hv in V; discriminate|].
      split; [intros ng Hn; unfold infinity32 in Hn; unfold infinity64; destruct ng, neg; lia|].
      intros Hn. exfalso. unfold nan32 in Hn. destruct neg; lia.
    + pose proof (lor_quiet (b mod 8388608) ltac:(lia)) as LQ. unfold same_value, with_sign. cbn [fb eb binary64]. change (52 + 11) with 63.
      set (y := Z.lor _ _) in *. clearbody y.
      split; [destruct neg; lia|]. split; [destruct neg; lia|]. split; [intros v Hv; rewrite Hv in V; discriminate|].
      split; [intros ng Hn; exfalso; unfold infinity32 in Hn; destruct ng, neg; lia|].
      intros _. unfold nan64. destruct neg; lia.
Qed.

(** Doubles to floats. *)
Lemma beyond_mag : mag binary32 (inf_pat binary32 - 1) + mag binary32 (inf_pat binary32) = 2 * ((2 ^ 25 - 1) * 2 ^ 103 * one).
Proof. vm_compute. reflexivity. Qed.

Lemma double_float b : 0 <= b < 2 ^ 64 -> nearest_float b (double_to_float b).
Proof.
  intros Hw. destruct (sign_cover binary64 b good64 Hw) as (neg & a & E & Hb).
  change (2 ^ (fb binary64 + eb binary64)) with (2 ^ 63) in Hb.
  assert (V : val binary64 b = units64 b) by (apply val64; exact Hw).
  unfold double_to_float. unfold val in V. rewrite E in V |- *. rewrite decode_pat in V |- * by (try exact good64; exact Hb).
  change (inf_pat binary64) with (2047 * 2 ^ 52) in *. change (2 ^ fb binary64) with (2 ^ 52) in *.
  assert (W : b = (if neg then 2 ^ 63 + a else a)) by (rewrite E; destruct neg; reflexivity). rewrite <- E in *. clear E.
  pose proof (inf_in binary32 good32) as IN. change (2 ^ (fb binary32 + eb binary32)) with 2147483648 in IN.
  change (inf_pat binary32) with 2139095040 in IN.
  destruct (Z.ltb_spec a (2047 * 2 ^ 52)) as [L|L].
  - set (m := mag binary64 a) in *. assert (Hm : 0 <= m) by (apply mag_nonneg; [exact good64|lia]).
    pose proof (round0_nonneg binary32 m good32 Hm) as R0. pose proof (round0_inf binary32 m good32 Hm) as RI. rewrite beyond_mag in RI.
    assert (RM : round_mag binary32 m = Z.min (round0 binary32 m) 2139095040) by reflexivity.
    destruct (sign_split binary32 neg (round_mag binary32 m) good32 ltac:(change (2 ^ (fb binary32 + eb binary32)) with 2147483648; lia)) as (S1 & _ & _ & R).
    change (2 ^ (fb binary32 + eb binary32)) with (2 ^ 31) in S1. change (2 ^ (fb binary32 + eb binary32 + 1)) with (2 ^ 32) in R.
    change (inf_pat binary32) with 2139095040 in RI. unfold nearest_float.
    split; [exact R|]. split; [destruct neg; [apply Z.leb_le in S1|apply Z.leb_gt in S1]; lia|].
    assert (AB : Z.abs (signed_mag neg m) = m) by (unfold signed_mag; destruct neg; lia).
    split; [|split; [|split]].
    + intros v Hv NB. rewrite <- V in Hv. injection Hv as <-. apply (nearest_ext (val binary32)); [exact val32|].
      apply (round_nearest binary32 neg m good32 Hm). change (inf_pat binary32) with 2139095040. unfold beyond_float in NB. rewrite AB in NB.
      generalize dependent ((2 ^ 25 - 1) * 2 ^ 103 * one). intros. lia.
    + intros v Hv NB. rewrite <- V in Hv. injection Hv as <-. unfold beyond_float in NB. rewrite AB in NB.
      assert (B : 2139095040 <= round0 binary32 m) by (generalize dependent ((2 ^ 25 - 1) * 2 ^ 103 * one); intros; lia).
      rewrite RM, Z.min_r by lia. unfold with_sign, infinity32. cbn [fb eb binary32].
      assert (0 < m). { pose proof (pow_pos 103 ltac:(lia)). pose proof (pow_pos 1074 ltac:(lia)). unfold one in NB. change (2 ^ 25 - 1) with 33554431 in NB. nia. }
      unfold signed_mag. destruct neg.
      * destruct (Z.ltb_spec (- m) 0); [reflexivity|lia].
      * destruct (Z.ltb_spec m 0); [lia|reflexivity].
    + intros ng Hn. exfalso. unfold infinity64 in Hn. destruct ng, neg; lia.
    + intros Hn. exfalso. unfold nan64 in Hn. destruct neg; lia.
  - destruct (Z.eqb_spec a (2047 * 2 ^ 52)) as [Q|Q].
    + unfold nearest_float, with_sign. cbn [fb eb binary32]. change (23 + 8) with 31.
      split; [destruct neg; lia|]. split; [destruct neg; lia|]. split; [intros v Hv; rewrite Hv in V; discriminate|]. split; [intros v Hv; rewrite Hv in V; discriminate|].
      split; [intros ng Hn; unfold infinity64 in Hn; unfold infinity32; destruct ng, neg; lia|].
      intros Hn. exfalso. unfold nan64 in Hn. destruct neg; lia.
    + pose proof (lor_quiet (a mod 2 ^ 52 / 2 ^ 29) ltac:(lia)) as LQ. unfold nearest_float, with_sign. cbn [fb eb binary32]. change (23 + 8) with 31.
      set (y := Z.lor _ _) in *. clearbody y.
      split; [destruct neg; lia|]. split; [destruct neg; lia|]. split; [intros v Hv; rewrite Hv in V; discriminate|]. split; [intros v Hv; rewrite Hv in V; discriminate|].
      split; [intros ng Hn; exfalso; unfold infinity64 in Hn; destruct ng, neg; lia|].
      intros _. unfold nan32. destruct neg; lia.
Qed.

(** ** To integers *)

(** Powers that arithmetic tactics do not compute. *)
Definition pw (k : Z) : Z := 2 ^ k.
Lemma pw_pos k : 0 <= k -> 0 < pw k. Proof. exact (pow_pos k). Qed.
Lemma pw_add a b : 0 <= a -> 0 <= b -> pw (a + b) = pw a * pw b. Proof. intros. apply Z.pow_add_r; assumption. Qed.
Lemma pw_le a b : 0 <= a -> a <= b -> pw a <= pw b. Proof. intros. apply pow_le. split; assumption. Qed.
Lemma pw53 : pw 53 = 9007199254740992. Proof. reflexivity. Qed.

Lemma half_is : half_units = pw 1073. Proof. vm_compute. reflexivity. Qed.
Lemma one_pw : one = pw 1074. Proof. reflexivity. Qed.
Lemma one_two : one = 2 * pw 1073. Proof. exact (pw_add 1 1073 ltac:(lia) ltac:(lia)). Qed.
Lemma one_pos : 0 < one. Proof. exact (pw_pos 1074 ltac:(lia)). Qed.
Lemma grid64 m e : 0 <= m < 9007199254740992 -> 0 <= e -> exists a, 0 <= a /\ mag binary64 a = m * pw e.
Proof. intros H1 H2. exact (grid_exact binary64 m e good64 H1 H2). Qed.
Lemma form64 b : 0 <= b -> exists e q, 0 <= e /\ 0 <= q < 9007199254740992 /\ (0 < e -> 4503599627370496 <= q) /\ mag binary64 b = q * pw e.
Proof.
  intros Hb. destruct (mag_form binary64 b good64 Hb) as (e & q & He & Hq & Hq1 & EB). exists e, q. split; [exact He|]. split; [exact Hq|]. split; [exact Hq1|].
  rewrite EB. unfold pw. replace (2 ^ e) with (2 ^ (e + sh binary64)) by (f_equal; cbn; lia). apply mag_grid; [exact good64|exact He| |exact Hq1].
  change (2 ^ (fb binary64 + 1)) with 9007199254740992 in *. lia.
Qed.

Lemma below_half_up : round0 binary64 (below_half + pw 1073) = 4607182418800017408 /\ mag binary64 4607182418800017408 = one.
Proof. split; vm_compute; reflexivity. Qed.

Lemma mul_between A q B T : 0 < A -> T <= q + B -> q < T -> T * A <= q * A + B * A < T * A + B * A.
Proof. nia. Qed.
Lemma mul_le_pos a b c : 0 < c -> a <= b -> a * c <= b * c. Proof. intros. apply Z.mul_le_mono_nonneg_r; lia. Qed.
Lemma mul_lt_pos a b c : 0 < c -> a < b -> a * c < b * c. Proof. intros. apply Z.mul_lt_mono_pos_r; lia. Qed.
Lemma quot_lt n o y T : 0 < o -> n * o <= y -> y < T * o -> n < T. Proof. intros. apply (Z.mul_lt_mono_pos_r o); lia. Qed.

(** Rounding the sum with one half never passes an integer, but for [below_half]. *)
Lemma half_sum b : 0 <= b -> let m := mag binary64 b in 2 * m < 4294967295 * one -> m <> below_half ->
  let r := mag binary64 (round0 binary64 (m + pw 1073)) in r / one = (m + pw 1073) / one.
Proof.
  intros Hb m Hm NE r. assert (HH : 0 < pw 1073) by (apply pw_pos; lia). pose proof one_two as O2. pose proof one_pos as OP.
  assert (Hm0 : 0 <= m) by (apply mag_nonneg; [exact good64|exact Hb]).
  destruct (form64 b Hb) as (e & q & He & Hq & Hq1 & M). fold m in M. clearbody m.
  set (y := m + pw 1073) in *. assert (Hy : 0 <= y) by (unfold y; lia).
  assert (NR : forall v, (exists a, 0 <= a /\ mag binary64 a = v) -> Z.abs (y - r) <= Z.abs (y - v)).
  { intros v (a & A0 & <-). exact (proj1 (round0_nearest binary64 y a good64 Hy A0)). }
  clearbody r. assert (EY : y = m + pw 1073) by reflexivity. clearbody y.
  set (n := y / one). assert (DM : n * one <= y < (n + 1) * one).
  { pose proof (Z.div_mod y one ltac:(lia)). pose proof (Z.mod_pos_bound y one ltac:(lia)). unfold n. lia. }
  assert (Hn : 0 <= n) by (apply Z.div_pos; lia).
  assert (Hn2 : n < 2147483648) by (apply (quot_lt n one y); lia).
  assert (NRn : Z.abs (y - r) <= Z.abs (y - n * one)) by (apply NR; apply (grid64 n 1074); lia).
  assert (LOW : n * one <= r) by lia.
  assert (UP : r < (n + 1) * one); [|symmetry; apply Z.div_unique with (r := r - n * one); lia].
  assert (PE : 0 < pw e) by (apply pw_pos; lia).
  assert (E1 : e < 1073).
  { destruct (Z.lt_ge_cases e 1073); [assumption|]. exfalso. specialize (Hq1 ltac:(lia)). pose proof (pw_le 1073 e ltac:(lia) ltac:(lia)).
    pose proof (mul_le_pos 4503599627370496 q (pw e) PE Hq1). lia. }
  assert (S1 : pw 1073 = pw (1073 - e) * pw e) by (rewrite <- pw_add by lia; f_equal; lia).
  pose proof (pw_pos (1073 - e) ltac:(lia)) as PB.
  destruct (Z.lt_ge_cases (q + pw (1073 - e)) 9007199254740992) as [C|C].
  { (* the sum is a double *)
    assert (Z.abs (y - r) <= Z.abs (y - y)); [|lia]. apply NR. replace y with ((q + pw (1073 - e)) * pw e) by (rewrite EY, S1, M; ring).
    apply grid64; lia. }
  destruct (Z.lt_ge_cases e 1020) as [C1|C1].
  { (* less than one quarter *)
    assert (m < pw 1072).
    { change 1072 with (53 + 1019). rewrite pw_add, pw53 by lia. pose proof (pw_le e 1019 ltac:(lia) ltac:(lia)).
      pose proof (mul_lt_pos q 9007199254740992 (pw e) PE ltac:(lia)). lia. }
    assert (pw 1073 = 2 * pw 1072) by (exact (pw_add 1 1072 ltac:(lia) ltac:(lia))).
    assert (Z.abs (y - r) <= Z.abs (y - pw 1073)).
    { apply NR. destruct (grid64 1 1073) as (a & A & B); [lia|lia|]. exists a. split; [exact A|]. lia. }
    assert (n = 0); [|lia]. symmetry. apply Z.div_unique with (r := y); lia. }
  destruct (Z.eq_dec e 1020) as [C2|C2].
  { (* from one quarter to one half *)
    assert (Q : q <> 9007199254740991) by (intros Q; apply NE; rewrite M, Q, C2; reflexivity).
    assert (P : pw 1073 = 9007199254740992 * pw 1020) by (change 1073 with (53 + 1020); rewrite pw_add, pw53 by lia; reflexivity).
    assert (P1 : pw 1021 = 2 * pw 1020) by (exact (pw_add 1 1020 ltac:(lia) ltac:(lia))).
    rewrite C2 in *. assert (Z.abs (y - r) <= Z.abs (y - 9007199254740991 * pw 1021)) by (apply NR; apply grid64; lia).
    pose proof (mul_le_pos q 9007199254740990 (pw 1020) PE ltac:(lia)).
    assert (n = 0); [|lia]. symmetry. apply Z.div_unique with (r := y); lia. }
  (* the sum is in the next binade *)
  assert (P : pw (53 + e) = 9007199254740992 * pw e) by (rewrite pw_add, pw53 by lia; reflexivity).
  assert (P2 : pw (53 + e) = pw (53 + e - 1074) * one) by (rewrite one_pw, <- pw_add by lia; f_equal; lia).
  pose proof (pw_pos (53 + e - 1074) ltac:(lia)) as PP. set (k := pw (53 + e - 1074)) in *. clearbody k.
  pose proof (mul_between (pw e) q (pw (1073 - e)) 9007199254740992 PE C ltac:(lia)) as MB.
  rewrite <- S1, <- M, <- P, P2 in MB.
  assert (n = k) by (unfold n; symmetry; apply Z.div_unique with (r := y - k * one); lia). lia.
Qed.

Lemma rep_decode F v : good F -> 0 <= v -> (exists a, 0 <= a /\ mag F a = v) -> v < mag F (inf_pat F) -> decode_fmt F (encode_fmt F v) = FFin false v.
Proof.
  intros G Hv (a & A & E) L. rewrite encode_split, Z.abs_eq by exact Hv. destruct (Z.ltb_spec v 0); [lia|].
  rewrite <- E in L |- *. destruct (exact_value F a G A L) as [-> HI]. apply decode_exact; assumption.
Qed.

(** The integer part and the rest of a value are values of the format. *)
Lemma parts F b : good F -> 0 <= b -> let m := mag F b in
  (exists a, 0 <= a /\ mag F a = m / one * one) /\ (exists a, 0 <= a /\ mag F a = m mod one).
Proof.
  intros G Hb m. destruct (mag_form F b G Hb) as (e & q & He & Hq & Hq1 & EB). pose proof G as (G1 & G2 & G3).
  assert (M : m = q * pw (e + sh F)) by (unfold m; rewrite EB; apply mag_grid; auto; lia).
  pose proof one_pos as OP. set (E := e + sh F) in *. assert (HE : sh F <= E) by (unfold E; lia).
  pose proof (pw_pos E ltac:(lia)) as PE.
  destruct (Z.lt_ge_cases E 1074) as [C|C].
  - set (D := pw (1074 - E)). assert (HD : 0 < D) by (apply pw_pos; lia).
    assert (O : one = D * pw E) by (rewrite one_pw; unfold D; rewrite <- pw_add by lia; f_equal; lia).
    assert (T : m / one * one = q / D * D * pw E) by (rewrite M, O, Z.div_mul_cancel_r by lia; ring).
    assert (R : m mod one = q mod D * pw E) by (rewrite M, O, Zmult_mod_distr_r; reflexivity).
    pose proof (Z.div_mod q D ltac:(lia)). pose proof (Z.mod_pos_bound q D HD). pose proof (Z.div_pos q D ltac:(lia) HD).
    assert (0 <= q / D * D) by (apply Z.mul_nonneg_nonneg; lia).
    split; [rewrite T|rewrite R]; apply grid_exact; auto; lia.
  - assert (O : m = q * pw (E - 1074) * one) by (rewrite M, one_pw, <- Z.mul_assoc, <- pw_add by lia; do 2 f_equal; lia).
    split.
    + exists b. split; [exact Hb|]. fold m. rewrite O at 2. rewrite Z.div_mul by lia. exact O.
    + exists 0. split; [lia|]. rewrite O, Z_mod_mult. apply mag_0. exact G.
Qed.

Lemma limit_is : decode_fmt binary64 0x3EB0C6F7A0B5ED8D = FFin false millionth.
Proof. vm_compute. reflexivity. Qed.

Lemma to_int32_ok neg m : 0 <= m -> m / one < 2147483648 -> to_int32 (FFin neg m) = Ok (signed_mag neg (m / one)).
Proof.
  intros Hm H. unfold to_int32. change unit1 with one. pose proof (Z.div_pos m one Hm one_pos).
  replace (in_sb 32 (signed_mag neg (m / one))) with true; [reflexivity|].
  symmetry. unfold in_sb, signed_mag. destruct neg; lia.
Qed.

Lemma below_one : 0 <= 4607182418800017408 /\ mag binary64 4607182418800017408 < pw 2000 /\
  to_int32 (FFin false (mag binary64 4607182418800017408)) = Ok 1.
Proof.
  split; [lia|]. rewrite (proj2 below_half_up). split; [exact (Z.pow_lt_mono_r 2 1074 2000 ltac:(lia) ltac:(lia) ltac:(lia))|].
  rewrite to_int32_ok; [|pose proof one_pos; lia|]; rewrite Z.div_same by (pose proof one_pos; lia); [reflexivity|lia].
Qed.

Lemma sample_int F b neg truncate : good F -> 0 <= b < inf_pat F -> (exists b', 0 <= b' < inf_pat binary64 /\ mag binary64 b' = mag F b) ->
  let x := signed_mag neg (mag F b) in fits_int x ->
  exists z, sample_to_int F truncate (FFin neg (mag F b)) = Ok (if negb truncate && lossy x then None else Some z) /\
    0 <= z < 2147483648 /\ (nearest_int x z \/ x = below_half /\ z = 1).
Proof.
  intros G Hb (b' & Hb' & E64) x (Hx & Hx2). change (2 ^ 32 - 1) with 4294967295 in Hx2.
  set (m := mag F b) in *. assert (Hm : 0 <= m) by (apply mag_nonneg; [exact G|lia]).
  assert (XM : x = m) by (unfold x, signed_mag in *; destruct neg; lia).
  assert (S0 : forall d, 0 <= d -> (m = 0 -> d = 0) -> signed_mag neg d = d).
  { intros d D0 D. unfold x, signed_mag in *. destruct neg; [|reflexivity]. rewrite D; lia. }
  pose proof one_pos as OP. pose proof one_two as O2. pose proof (pw_pos 1073 ltac:(lia)) as HP.
  assert (MI : m < mag F (inf_pat F)) by (apply mag_lt; [exact G|lia]).
  pose proof (Z.div_mod m one ltac:(lia)) as DM. pose proof (Z.mod_pos_bound m one OP) as MB. pose proof (Z.div_pos m one Hm OP) as DP.
  assert (T1 : m / one < 2147483648) by (apply (quot_lt _ one m); lia).
  (* the check *)
  assert (LOSS : forall (A : Type) (k : bool -> res A),
     (let! lost := (if truncate then Ok false else let! t := to_int32 (FFin neg m) in
        Ok (above_limit (match decode_fmt F (int_to_fmt F t) with FFin ng mg => add_units F (FFin neg m) (- signed_mag ng mg) | y => y end))) in k lost)
     = k (negb truncate && lossy x)).
  { intros A k. destruct truncate; [reflexivity|]. rewrite to_int32_ok by assumption. cbn [bind negb andb]. f_equal.
    rewrite S0 by (try lia; intros ->; rewrite Z.div_0_l; lia).
    destruct (parts F b G ltac:(lia)) as [P1 P2]. fold m in P1, P2. unfold int_to_fmt. change unit1 with one.
    rewrite (rep_decode F (m / one * one) G) by (try assumption; try lia). unfold add_units. rewrite S0 by (auto; lia).
    cbn [signed_mag]. replace (m + - (m / one * one)) with (m mod one) by lia.
    rewrite (rep_decode F (m mod one) G) by (try assumption; lia).
    unfold above_limit. rewrite limit_is. cbn [signed_mag]. unfold lossy. rewrite XM. reflexivity. }
  unfold sample_to_int. rewrite LOSS. clear LOSS DM MB DP T1.
  (* the sum *)
  assert (S64 : forall r, 0 <= r -> round0 binary64 (m + pw 1073) = r -> mag binary64 r < pw 2000 -> add_units binary64 (FFin neg m) half_units = FFin false (mag binary64 r)).
  { intros r R0 R RL. unfold add_units. rewrite S0 by (auto; lia). rewrite half_is, encode_split.
    rewrite (Z.abs_eq (m + pw 1073)) by lia. destruct (Z.ltb_spec (m + pw 1073) 0); [lia|]. rewrite round_mag_0, R.
    assert (r < inf_pat binary64).
    { destruct (Z.lt_ge_cases r (inf_pat binary64)); [assumption|]. pose proof (inf_in binary64 good64).
      pose proof (mag_le binary64 (inf_pat binary64) r good64 ltac:(lia)) as ML. rewrite inf64 in ML. pose proof (pw_le 2000 2098 ltac:(lia) ltac:(lia)). change (2 ^ 2098) with (pw 2098) in ML. lia. }
    rewrite Z.min_l by lia. apply decode_exact; auto using good64. }
  destruct (Z.eq_dec m below_half) as [C|C].
  - exists 1. rewrite (S64 4607182418800017408 (proj1 below_one) (eq_trans (f_equal (fun v => round0 binary64 (v + pw 1073)) C) (proj1 below_half_up)) (proj1 (proj2 below_one))).
    rewrite (proj2 (proj2 below_one)). split; [destruct (negb truncate && lossy x); reflexivity|]. split; [clear; lia|]. right. split; [congruence|reflexivity].
  - pose proof (half_sum b' (proj1 Hb')) as HS. cbv zeta in HS. rewrite E64 in HS. rewrite XM in Hx2. specialize (HS Hx2 C).
    set (r := round0 binary64 (m + pw 1073)) in *.
    assert (Y0 : 0 <= m + pw 1073) by lia.
    assert (R0 : 0 <= r) by (apply round0_nonneg; [exact good64|exact Y0]).
    pose proof (mag_nonneg binary64 r good64 R0) as MR. specialize (S64 r R0 eq_refl).
    assert (N0 : one <> 0) by (clear; pose proof one_pos; lia).
    pose proof (Z.div_mod (m + pw 1073) one N0) as ZM. pose proof (Z.mod_pos_bound (m + pw 1073) one OP) as ZB.
    pose proof (Z.div_pos (m + pw 1073) one Y0 OP) as Z0.
    pose proof (Z.div_mod (mag binary64 r) one N0) as RM. pose proof (Z.mod_pos_bound (mag binary64 r) one OP) as RB. rewrite HS in RM.
    pose proof (to_int32_ok false (mag binary64 r) MR) as TI. rewrite HS in TI. clear HS.
    generalize dependent ((m + pw 1073) / one). generalize dependent ((m + pw 1073) mod one). generalize dependent (mag binary64 r mod one).
    intros d2 RB d1 ZB z ZM Z0 RM TI.
    assert (Z1 : z < 2147483648) by (apply (quot_lt z one (m + pw 1073)); lia).
    assert (BD : mag binary64 r < pw 2000).
    { pose proof (mul_lt_pos z 2147483648 one OP Z1). pose proof (pw_le (32 + 1074) 2000 ltac:(clear; lia) ltac:(clear; lia)) as PL.
      rewrite pw_add, <- one_pw in PL by (clear; lia). change (pw 32) with 4294967296 in PL. lia. }
    rewrite (S64 BD), (TI Z1). cbn [signed_mag]. exists z. split; [destruct (negb truncate && lossy x); reflexivity|].
    split; [lia|]. left. unfold nearest_int. lia.
Qed.
