(** * Accuracy of the square root used for the factor of a rate. *)

From Coq Require Import Lqa Qabs.
From Verif Require Import Base BaseLemmas FloatOps FloatLemmas FloatOpsProof SampleProof RateProof DblModel ConvModel ConvSpec ConvProof V2Model V2RecSpec V2Rate
  Pack2Model Pack2Spec Pack2Rate.
Open Scope Z_scope.

Definition tiny : Q := 1 # 2251799813685248.   (* 2^-51 *)

(** ** Bounds of the first estimate *)

Lemma qsq x : (0 <= x * x)%Q.
Proof. unfold Qle, Qmult. cbn [Qnum Qden]. nia. Qed.

Lemma cubic_max x y : (0 <= x)%Q -> (0 <= y)%Q -> (27 * (x * (y * y)) <= (x + 2 * y) * (x + 2 * y) * (x + 2 * y))%Q.
Proof.
  intros X Y. assert (0 <= (x - y) * (x - y) * (x + 8 * y))%Q; [|lra].
  apply Qmult_le_0_compat; [apply qsq|lra].
Qed.

Lemma first_even f g : (0 <= f)%Q -> (f <= 1)%Q -> ((19324 # 10000) <= g + f * (1 # 2))%Q -> (g + f * (1 # 2) <= (19325 # 10000))%Q ->
  ((372 # 100) <= (1 + f) * (g * g))%Q /\ ((1 + f) * (g * g) <= (428 # 100))%Q.
Proof.
  intros F0 F1 G0 G1. split.
  - assert ((19324 # 10000) - f * (1 # 2) <= g)%Q by lra. set (h := ((19324 # 10000) - f * (1 # 2))%Q) in *.
    assert (0 <= h)%Q by (unfold h; lra). assert (h * h <= g * g)%Q by nra.
    assert ((372 # 100) <= (1 + f) * (h * h))%Q; [|nra]. unfold h. nra.
  - pose proof (cubic_max (1 + f) g ltac:(lra) ltac:(lra)) as C. 
    assert ((1 + f + 2 * g) <= (48650 # 10000))%Q by lra. set (s := (1 + f + 2 * g)%Q) in *. assert (0 <= s)%Q by (unfold s; lra).
    assert (s * s * s <= 1152 # 10)%Q by nra. lra.
Qed.

Lemma first_odd f g : (0 <= f)%Q -> (f <= (8650 # 10000))%Q -> ((14324 # 10000) <= g + f * (1 # 2))%Q -> (g + f * (1 # 2) <= (14325 # 10000))%Q ->
  ((186 # 100) <= (1 + f) * (g * g))%Q /\ ((1 + f) * (g * g) <= (214 # 100))%Q.
Proof.
  intros F0 F1 G0 G1. split.
  - assert ((14324 # 10000) - f * (1 # 2) <= g)%Q by lra. set (h := ((14324 # 10000) - f * (1 # 2))%Q) in *.
    assert (0 <= h)%Q by (unfold h; lra). assert (h * h <= g * g)%Q by nra.
    assert ((186 # 100) <= (1 + f) * (h * h))%Q; [|nra]. unfold h.
    assert (T : (0 <= (f - (8 # 10)) * (f - (8 # 10)) * (f + (16 # 10)))%Q) by (apply Qmult_le_0_compat; [apply qsq|lra]).
    assert (T2 : (0 <= f * (f * f))%Q) by (apply Qmult_le_0_compat; [lra|apply qsq]).
    destruct (Qlt_le_dec f (1 # 2)) as [L|L].
    + assert (0 <= f * ((1 # 2) - f))%Q by (apply Qmult_le_0_compat; lra). lra.
    + assert (0 <= (f - (1 # 2)) * ((8650 # 10000) - f))%Q by (apply Qmult_le_0_compat; lra). lra.
  - pose proof (cubic_max (1 + f) g ltac:(lra) ltac:(lra)) as C. 
    assert ((1 + f + 2 * g) <= (38650 # 10000))%Q by lra. set (s := (1 + f + 2 * g)%Q) in *. assert (0 <= s)%Q by (unfold s; lra).
    assert (s * s * s <= 5775 # 100)%Q by nra. lra.
Qed.

Lemma first_odd2 f g : ((8648 # 10000) <= f)%Q -> (f <= 1)%Q -> ((24324 # 10000) <= g + f * (1 # 2))%Q -> (g + f * (1 # 2) <= (24325 # 10000))%Q ->
  ((744 # 100) <= (1 + f) * (g * g))%Q /\ ((1 + f) * (g * g) <= (856 # 100))%Q.
Proof.
  intros F0 F1 G0 G1. assert (1932 # 1000 <= g)%Q by lra. assert (g <= 2001 # 1000)%Q by lra.
  assert ((1932 # 1000) * (1932 # 1000) <= g * g)%Q by nra. assert (g * g <= (2001 # 1000) * (2001 # 1000))%Q by nra.
  split; [|nra].
  assert ((24324 # 10000) - f * (1 # 2) <= g)%Q by lra. set (h := ((24324 # 10000) - f * (1 # 2))%Q) in *.
  assert (0 <= h)%Q by (unfold h; lra). assert (h * h <= g * g)%Q by nra.
  assert ((744 # 100) <= (1 + f) * (h * h))%Q; [|nra]. unfold h. nra.
Qed.

(** A positive normal pattern as a fraction and an exponent. *)
Lemma normal_value e f : 1 <= e <= 2046 -> 0 <= f < 2 ^ 52 ->
  exists v, dval (e * 2 ^ 52 + f) = DFin v /\ (v == (1 + (inject_Z f * (1 # 4503599627370496))) * P2 (e - 1023))%Q.
Proof.
  intros E F. unfold dval. replace ((e * 2 ^ 52 + f) mod 2 ^ 64) with (e * 2 ^ 52 + f) by lia.
  replace (2 ^ 63 <=? e * 2 ^ 52 + f) with false by lia.
  replace ((e * 2 ^ 52 + f) / 2 ^ 52 mod 2048) with e by lia. replace ((e * 2 ^ 52 + f) mod 2 ^ 52) with f by lia.
  replace (e =? 2047) with false by lia. replace (e =? 0) with false by lia.
  eexists. split; [reflexivity|]. rewrite dyadic_P2. replace (e - 1023) with (52 + (e - 1075)) by lia. rewrite P2_add.
  change (P2 52) with (inject_Z 4503599627370496). rewrite inject_Z_plus. change (inject_Z (2 ^ 52)) with (inject_Z 4503599627370496). 
  assert (I : (inject_Z 4503599627370496 * (1 # 4503599627370496) == 1)%Q) by reflexivity.
  set (u := inject_Z 4503599627370496) in *. set (w := (1 # 4503599627370496)%Q) in *. clearbody u w. rewrite Qmult_assoc. apply Qmult_comp; [|reflexivity].
  rewrite Qmult_plus_distr_l, <- Qmult_assoc, (Qmult_comm w), I. ring.
Qed.

Lemma pattern_split v b v' : (1 <= v)%Q -> 0 <= b < 2 ^ 64 -> dval b = DFin v' -> (v' == v)%Q ->
  exists e f, b = e * 2 ^ 52 + f /\ 1 <= e <= 2046 /\ 0 <= f < 2 ^ 52.
Proof.
  intros V B D EQ. unfold dval in D. replace (b mod 2 ^ 64) with b in D by lia.
  destruct (b / 2 ^ 52 mod 2048 =? 2047) eqn:E7; [destruct (b mod 2 ^ 52 =? 0); discriminate|].
  apply (f_equal (fun d => match d with DFin q => q | _ => 0%Q end)) in D. cbv beta iota zeta in D. subst v'. destruct (Z.leb_spec (2 ^ 63) b) as [S|S].
  - exfalso. destruct (b / 2 ^ 52 mod 2048 =? 0).
    + rewrite dyadic_P2 in EQ. pose proof (P2_pos (-1074)).
      assert (0 <= inject_Z (b mod 2 ^ 52))%Q by (change 0%Q with (inject_Z 0); rewrite <- Zle_Qle; lia).
      assert (0 <= inject_Z (b mod 2 ^ 52) * P2 (-1074))%Q by (apply Qmult_le_0_compat; lra). lra.
    + rewrite dyadic_P2 in EQ. set (c := b / 2 ^ 52 mod 2048 - 1075) in *. pose proof (P2_pos c).
      assert (0 <= inject_Z (b mod 2 ^ 52 + 2 ^ 52))%Q by (change 0%Q with (inject_Z 0); rewrite <- Zle_Qle; lia).
      assert (0 <= inject_Z (b mod 2 ^ 52 + 2 ^ 52) * P2 c)%Q by (apply Qmult_le_0_compat; lra). lra.
  - destruct (Z.eqb_spec (b / 2 ^ 52 mod 2048) 0) as [Z0|Z0].
    + exfalso. rewrite dyadic_P2 in EQ. pose proof (P2_pos (-1074)). pose proof (P2_le (-1074) (-52) ltac:(lia)).
      change (P2 (-52)) with (1 # 4503599627370496) in *.
      assert (F0 : (0 <= inject_Z (b mod 2 ^ 52))%Q) by (change 0%Q with (inject_Z 0); rewrite <- Zle_Qle; lia).
      assert (F1 : (inject_Z (b mod 2 ^ 52) <= inject_Z 4503599627370495)%Q) by (rewrite <- Zle_Qle; lia).
      change (inject_Z 4503599627370495) with (4503599627370495 # 1)%Q in F1.
      set (z := inject_Z (b mod 2 ^ 52)) in *. assert (z * P2 (-1074) <= z * (1 # 4503599627370496))%Q by nra. lra.
    + exists (b / 2 ^ 52), (b mod 2 ^ 52). lia.
Qed.

(** ** Patterns of doubles *)

Lemma units_of v s : (v == inject_Z s * P2 (-1074))%Q -> Qnum v * unit1 / Z.pos (Qden v) = s.
Proof.
  intros Vk. assert (Qnum v * unit1 = s * Z.pos (Qden v)) as ->; [|apply Z.div_mul; lia].
  assert (W : (v * P2 1074 == inject_Z s)%Q). { rewrite Vk, <- Qmult_assoc, <- P2_add. change (P2 (-1074 + 1074)) with 1%Q. ring. }
  rewrite (P2_nonneg 1074) in W by lia. unfold Qeq in W. destruct v as [a b]. cbn [Qnum Qden inject_Z Qmult] in *. unfold unit1.
  rewrite !Z.mul_1_r in W. rewrite Pos.mul_1_r in W. lia.
Qed.

(** A value of at least 1 that some pattern has is one whose pattern is computed right. *)
Definition is_double (v : Q) : Prop := 0 <= dbits (DFin v) < 2 ^ 64 /\ exists v', dval (dbits (DFin v)) = DFin v' /\ (v' == v)%Q.

Lemma pattern_double r v : 0 <= r < 2 ^ 64 -> dval r = DFin v -> (1 <= v)%Q -> is_double v.
Proof.
  intros B D V. destruct (pattern_split v r v V B D (Qeq_refl v)) as (e & f & Er & E & F).
  assert (U : units64 r = Some ((2 ^ 52 + f) * 2 ^ (e - 1))).
  { subst r. unfold units64. replace ((e * 2 ^ 52 + f) mod 2 ^ 63 / 2 ^ 52) with e by lia. replace ((e * 2 ^ 52 + f) mod 2 ^ 52) with f by lia.
    replace (e =? 2047) with false by lia. replace (e =? 0) with false by lia. replace (e * 2 ^ 52 + f <? 2 ^ 63) with true by lia.
    rewrite Z.mul_1_l. reflexivity. }
  destruct (dval_units r _ B U) as (v' & D' & V'). rewrite D in D'. injection D' as <-.
  assert (ED : dbits (DFin v) = r).
  { unfold dbits. rewrite (units_of _ _ V'). rewrite encode_split.
    pose proof (ConvProof.pow_pos (e - 1) ltac:(lia)) as PP. 
    assert (N : 0 <= (2 ^ 52 + f) * 2 ^ (e - 1)) by (apply Z.mul_nonneg_nonneg; lia).
    rewrite Z.abs_eq by exact N. replace ((2 ^ 52 + f) * 2 ^ (e - 1) <? 0) with false by (symmetry; apply Z.ltb_ge; exact N).
    assert (M : mag binary64 r = (2 ^ 52 + f) * 2 ^ (e - 1)).
    { unfold mag. cbn [fb sh binary64]. subst r. replace ((e * 2 ^ 52 + f) / 2 ^ 52) with e by lia. replace ((e * 2 ^ 52 + f) mod 2 ^ 52) with f by lia.
      replace (e =? 0) with false by lia. change (2 ^ 0) with 1. ring. }
    rewrite <- M. destruct (exact_value binary64 r good64 ltac:(lia)) as [X _]; [|rewrite X; reflexivity].
    assert (r < inf_pat binary64) by (unfold inf_pat; cbn [eb fb binary64]; lia).
    apply mag_lt; [exact good64|lia]. }
  unfold is_double. rewrite ED. split; [exact B|]. exists v. split; [exact D|reflexivity].
Qed.

Definition magic : Z := 0x5fe6eb50c7b537a9.

Lemma first_root v : is_double v -> (32767 <= v)%Q -> (v < 1073741824)%Q ->
  exists y, dval (uwrap 64 (magic - Z.shiftr (dbits (DFin v)) 1)) = DFin y /\ (0 < y)%Q /\
    ((93 # 100) <= v * (y * y))%Q /\ (v * (y * y) <= (107 # 100))%Q.
Proof.
  intros R V0 V1. destruct R as (B & v' & D & EV). set (b := dbits (DFin v)) in *. clearbody b.
  destruct (pattern_split v b v' ltac:(lra) B D EV) as (e & F & Eb & E & HF). subst b.
  destruct (normal_value e F E HF) as (v2 & D2 & E2). rewrite D in D2. injection D2 as <-. rewrite EV in E2. clear D EV v' B.
  set (f := (inject_Z F * (1 # 4503599627370496))%Q) in *.
  assert (F0 : (0 <= f)%Q). { unfold f. apply Qmult_le_0_compat; [change 0%Q with (inject_Z 0); rewrite <- Zle_Qle; lia|lra]. }
  assert (F1 : (f < 1)%Q). { unfold f. assert (inject_Z F <= inject_Z 4503599627370495)%Q by (rewrite <- Zle_Qle; lia). change (inject_Z 4503599627370495) with (4503599627370495 # 1)%Q in *. lra. }
  pose proof (P2_pos (e - 1023)) as Pe.
  assert (E15 : 1037 <= e).
  { destruct (Z_lt_le_dec e 1037) as [L|L]; [|exact L]. exfalso. pose proof (P2_le (e - 1023) 13 ltac:(lia)) as Q. change (P2 13) with (8192 # 1)%Q in Q.
    assert ((1 + f) * P2 (e - 1023) < 2 * (8192 # 1))%Q by nra. lra. }
  assert (E30 : e <= 1052).
  { destruct (Z_lt_le_dec 1052 e) as [L|L]; [|exact L]. exfalso. pose proof (P2_le 30 (e - 1023) ltac:(lia)) as Q. change (P2 30) with (1073741824 # 1)%Q in Q.
    assert (P2 (e - 1023) <= (1 + f) * P2 (e - 1023))%Q by nra. lra. }
  clear V0 V1.
  assert (H : Z.shiftr (e * 2 ^ 52 + F) 1 = (e * 2 ^ 52 + F) / 2) by (rewrite Z.shiftr_div_pow2 by lia; reflexivity). rewrite H. clear H.
  (* the fraction and the exponent of the estimate *)
  assert (G : exists k e' G, magic - (e * 2 ^ 52 + F) / 2 = e' * 2 ^ 52 + G /\ 0 <= G < 2 ^ 52 /\ 900 <= e' <= 1100 /\
    ((e - 1023 = 2 * k /\ e' - 1023 = -1 - k /\ 8398763708804946 <= 2 * G + F <= 8398763708804947)
     \/ (e - 1023 = 1 + 2 * k /\ e' - 1023 = -1 - k /\ F <= 3895164081434451 /\ 3895164081434450 <= 2 * G + F <= 3895164081434451)
     \/ (e - 1023 = 1 + 2 * k /\ e' - 1023 = -2 - k /\ 3895164081434450 <= F /\ 12902363336175442 <= 2 * G + F <= 12902363336175443))).
  { clear - E15 E30 HF. unfold magic. change (2 ^ 52) with 4503599627370496 in *.
    assert (M : (exists j, e = 2 * j) \/ exists j, e = 2 * j + 1) by (pose proof (Z.div_mod e 2); destruct (Z.eq_dec (e mod 2) 0); [left|right]; exists (e / 2); lia).
    destruct M as [[j ->]|[j ->]].
    - exists (j - 512). replace (2 * j * 4503599627370496 + F) with (F + j * 4503599627370496 * 2) by ring. rewrite Z.div_add by lia.
      assert (L : F <= 3895164081434451 \/ 3895164081434452 <= F) by lia. destruct L as [L|L].
      + exists (1534 - j), (1947582040717225 - F / 2). split; [lia|]. split; [lia|]. split; [lia|]. right. left. lia.
      + exists (1533 - j), (6451181668087721 - F / 2). split; [lia|]. split; [lia|]. split; [lia|]. right. right. lia.
    - exists (j - 511). replace ((2 * j + 1) * 4503599627370496 + F) with (F + (j * 4503599627370496 + 2251799813685248) * 2) by ring. rewrite Z.div_add by lia.
      exists (1533 - j), (4199381854402473 - F / 2). split; [lia|]. split; [lia|]. split; [lia|]. left. lia. }
  destruct G as (k & e' & G & EG & HG & He' & C). rewrite EG.
  assert (U : uwrap 64 (e' * 2 ^ 52 + G) = e' * 2 ^ 52 + G) by (unfold uwrap; apply Z.mod_small; lia). rewrite U. clear U EG.
  destruct (normal_value e' G ltac:(lia) HG) as (y & D & EY). exists y. split; [exact D|].
  set (g := (1 + inject_Z G * (1 # 4503599627370496))%Q) in *.
  assert (G0 : (0 <= inject_Z G)%Q) by (change 0%Q with (inject_Z 0); rewrite <- Zle_Qle; lia).
  pose proof (P2_pos (e' - 1023)) as Pe'. split; [rewrite EY; apply Qmult_lt_0_compat; [unfold g; lra|exact Pe']|].
  assert (A : (v * (y * y) == (1 + f) * (g * g) * (P2 (e - 1023) * (P2 (e' - 1023) * P2 (e' - 1023))))%Q) by (rewrite EY, E2; ring).
  assert (S : forall lo hi, lo <= 2 * G + F <= hi -> (inject_Z lo <= 2 * inject_Z G + inject_Z F)%Q /\ (2 * inject_Z G + inject_Z F <= inject_Z hi)%Q).
  { intros lo hi HS. change 2%Q with (inject_Z 2). rewrite <- inject_Z_mult, <- inject_Z_plus, <- !Zle_Qle. lia. }
  rewrite !A. rewrite <- !P2_add.
  destruct C as [(K1 & K2 & C)|[(K1 & K2 & CF & C)|(K1 & K2 & CF & C)]]; rewrite K1, K2; destruct (S _ _ C) as [S1 S2].
  - replace (2 * k + (-1 - k + (-1 - k))) with (-2) by lia. change (P2 (-2)) with (1 # 4)%Q.
    change (inject_Z 8398763708804946) with (8398763708804946 # 1)%Q in S1. change (inject_Z 8398763708804947) with (8398763708804947 # 1)%Q in S2.
    destruct (first_even f g F0 ltac:(lra)) as [X1 X2]; [unfold f, g; lra|unfold f, g; lra|]. split; lra.
  - replace (1 + 2 * k + (-1 - k + (-1 - k))) with (-1) by lia. change (P2 (-1)) with (1 # 2)%Q.
    change (inject_Z 3895164081434450) with (3895164081434450 # 1)%Q in S1. change (inject_Z 3895164081434451) with (3895164081434451 # 1)%Q in S2.
    rewrite Zle_Qle in CF. change (inject_Z 3895164081434451) with (3895164081434451 # 1)%Q in CF.
    destruct (first_odd f g F0) as [X1 X2]; [unfold f; lra|unfold f, g; lra|unfold f, g; lra|]. split; lra.
  - replace (1 + 2 * k + (-2 - k + (-2 - k))) with (-3) by lia. change (P2 (-3)) with (1 # 8)%Q.
    change (inject_Z 12902363336175442) with (12902363336175442 # 1)%Q in S1. change (inject_Z 12902363336175443) with (12902363336175443 # 1)%Q in S2.
    rewrite Zle_Qle in CF. change (inject_Z 3895164081434450) with (3895164081434450 # 1)%Q in CF.
    destruct (first_odd2 f g) as [X1 X2]; [unfold f; lra|lra|unfold f, g; lra|unfold f, g; lra|]. split; lra.
Qed.

(** ** One step *)

Definition slack : Q := 1 # 100000000000000.      (* 1e-14 *)

Lemma mul_mono_r a b c : (a <= b)%Q -> (0 <= c)%Q -> (a * c <= b * c)%Q.
Proof. intros. apply Qmult_le_compat_r; assumption. Qed.

Lemma near_mul e x lo hi c : (0 <= c)%Q -> (lo <= x)%Q -> (x <= hi)%Q -> e = (x * c)%Q -> (lo * c <= e)%Q /\ (e <= hi * c)%Q.
Proof. intros C L H ->. split; apply mul_mono_r; assumption. Qed.

Lemma sq_mono a b : (0 <= a)%Q -> (a <= b)%Q -> (a * a <= b * b)%Q.
Proof. intros. nra. Qed.

Lemma newton_pure a D r w : (0 <= D)%Q -> (D <= 7 # 100)%Q -> (1 - D <= a)%Q -> (a <= 1 + D)%Q ->
  ((3 - a) * (1 # 2) - 5 * eps <= r)%Q -> (r <= (3 - a) * (1 # 2) + 5 * eps)%Q ->
  (a * (r * r) * ((1 - eps) * (1 - eps)) <= w)%Q -> (w <= a * (r * r) * ((1 + eps) * (1 + eps)))%Q ->
  (1 - (77 # 100) * (D * D) - slack <= w)%Q /\ (w <= 1 + slack)%Q.
Proof.
  intros D0 D1 A0 A1 R0 R1 W0 W1. set (T := ((3 - a) * (1 # 2))%Q) in *.
  assert (T0 : (96 # 100 <= T)%Q) by (unfold T; lra). assert (T1 : (T <= 104 # 100)%Q) by (unfold T; lra).
  assert (I : (a * (T * T) == 1 - (1 - a) * (1 - a) * ((4 - a) * (1 # 4)))%Q) by (unfold T; ring).
  assert (S : ((1 - a) * (1 - a) <= D * D)%Q) by nra. pose proof (qsq (1 - a)) as S0.
  assert (I0 : (1 - (77 # 100) * (D * D) <= a * (T * T))%Q) by nra.
  assert (I1 : (a * (T * T) <= 1)%Q) by nra.
  unfold eps, slack in *.
  assert (RR1 : (r * r <= T * T + 12 * (1 # 9007199254740992))%Q). 
  { assert (X : (r * r <= (T + 5 * (1 # 9007199254740992)) * (T + 5 * (1 # 9007199254740992)))%Q) by (apply sq_mono; lra). lra. }
  assert (RR0 : (T * T - 12 * (1 # 9007199254740992) <= r * r)%Q). 
  { assert (X : ((T - 5 * (1 # 9007199254740992)) * (T - 5 * (1 # 9007199254740992)) <= r * r)%Q) by (apply sq_mono; lra). lra. }
  assert (AR1 : (a * (r * r) <= 1 + 13 * (1 # 9007199254740992))%Q) by (clear W0 W1; nra).
  assert (AR0 : (1 - (77 # 100) * (D * D) - 13 * (1 # 9007199254740992) <= a * (r * r))%Q) by (clear W0 W1; nra).
  set (z := (a * (r * r))%Q) in *. clearbody z. pose proof (qsq D). lra.
Qed.

Definition newton (x2 y : dbl) : dbl := dmul y (dsub (DFin (3 # 2)) (dmul (dmul x2 y) y)).

Lemma newton_step v h y D : (32767 <= v)%Q -> (v < 1073741824)%Q ->
  (v * (1 # 2) * (1 - eps) <= h)%Q -> (h <= v * (1 # 2) * (1 + eps))%Q ->
  (0 <= D)%Q -> (D <= 7 # 100)%Q -> (0 < y)%Q -> (1 - D <= v * (y * y))%Q -> (v * (y * y) <= 1 + D)%Q ->
  exists y', newton (DFin h) (DFin y) = DFin y' /\ (0 < y')%Q /\
    (1 - (77 # 100) * (D * D) - slack <= v * (y' * y'))%Q /\ (v * (y' * y') <= 1 + slack)%Q.
Proof.
  intros V0 V1 H0 H1 D0 D1 Y0 A0 A1. set (a := (v * (y * y))%Q) in *.
  assert (Ylo : (1 # 65536 <= y)%Q).
  { destruct (Qlt_le_dec y (1 # 65536)) as [L|L]; [|exact L]. exfalso.
    assert (y * y <= (1 # 65536) * (1 # 65536))%Q by (apply sq_mono; lra).
    assert (a <= 1073741824 * ((1 # 65536) * (1 # 65536)))%Q by (unfold a; pose proof (qsq y); nra). lra. }
  assert (Yhi : (y <= 1 # 128)%Q).
  { destruct (Qlt_le_dec (1 # 128) y) as [L|L]; [|lra]. exfalso.
    assert ((1 # 128) * (1 # 128) <= y * y)%Q by (apply sq_mono; lra).
    assert (32767 * ((1 # 128) * (1 # 128)) <= a)%Q by (unfold a; nra). lra. }
  assert (Hlo : (16000 <= h)%Q) by (unfold eps in *; lra). assert (Hhi : (h <= 1073741824)%Q) by (unfold eps in *; lra).
  assert (P0 : ((1 # 8) <= h * y)%Q) by (clear - Hlo Ylo; nra). assert (P1 : (h * y <= 8388608)%Q) by (clear - Hlo Hhi Ylo Yhi; nra).
  destruct (drnd_pos (h * y)) as (p & Ep & _ & Rp); [lra|lra|]. destruct Rp as [Rp0 Rp1].
  assert (Py : (h * y * (1 - eps) * y <= p * y)%Q /\ (p * y <= h * y * (1 + eps) * y)%Q).
  { split; apply mul_mono_r; lra. }
  destruct Py as [Py0 Py1].
  assert (Hy : (v * (1 # 2) * (1 - eps) * (y * y) <= h * (y * y))%Q /\ (h * (y * y) <= v * (1 # 2) * (1 + eps) * (y * y))%Q).
  { pose proof (qsq y). split; apply mul_mono_r; lra. }
  destruct Hy as [Hy0 Hy1].
  assert (N0 : (v * (1 # 2) * (1 - eps) * (y * y) == a * ((1 # 2) * (1 - eps)))%Q) by (unfold a; ring).
  assert (N1 : (v * (1 # 2) * (1 + eps) * (y * y) == a * ((1 # 2) * (1 + eps)))%Q) by (unfold a; ring).
  assert (N2 : (h * y * (1 - eps) * y == h * (y * y) * (1 - eps))%Q) by ring.
  assert (N3 : (h * y * (1 + eps) * y == h * (y * y) * (1 + eps))%Q) by ring.
  rewrite N0 in Hy0. rewrite N1 in Hy1. rewrite N2 in Py0. rewrite N3 in Py1. clear N0 N1 N2 N3.
  set (hy := (h * (y * y))%Q) in *. clearbody hy.
  assert (Q0 : (a * (1 # 2) * (1 - 3 * eps) <= p * y)%Q) by (unfold eps in *; lra).
  assert (Q1 : (p * y <= a * (1 # 2) * (1 + 3 * eps))%Q) by (unfold eps in *; lra).
  destruct (drnd_pos (p * y)) as (q & Eq & _ & Rq); [unfold eps in *; lra|unfold eps in *; lra|]. destruct Rq as [Rq0 Rq1].
  assert (q0 : (a * (1 # 2) - 3 * eps <= q)%Q) by (unfold eps in *; lra).
  assert (q1 : (q <= a * (1 # 2) + 3 * eps)%Q) by (unfold eps in *; lra).
  destruct (drnd_pos ((3 # 2) + - q)) as (r & Er & _ & Rr); [unfold eps in *; lra|unfold eps in *; lra|]. destruct Rr as [Rr0 Rr1].
  assert (r0 : ((3 - a) * (1 # 2) - 5 * eps <= r)%Q) by (unfold eps in *; lra).
  assert (r1 : (r <= (3 - a) * (1 # 2) + 5 * eps)%Q) by (unfold eps in *; lra).
  assert (rl : (9 # 10 <= r)%Q) by (unfold eps in *; lra). assert (rh : (r <= 11 # 10)%Q) by (unfold eps in *; lra).
  assert (yr0 : (1 # 131072 <= y * r)%Q) by (clear - Ylo rl; nra). assert (yr1 : (y * r <= 1)%Q) by (clear - Ylo Yhi rl rh; nra).
  destruct (drnd_pos (y * r)) as (y' & Ey & _ & Ry); [lra|lra|]. destruct Ry as [Ry0 Ry1].
  exists y'. split; [unfold newton, dsub; cbn [dmul]; rewrite Ep; cbn [dmul]; rewrite Eq; cbn [dopp dadd]; rewrite Er; cbn [dmul]; exact Ey|].
  assert (Y'0 : (0 < y')%Q) by (unfold eps in *; lra). split; [exact Y'0|].
  apply (newton_pure a D r); try assumption.
  - assert (X : ((y * r * (1 - eps)) * (y * r * (1 - eps)) <= y' * y')%Q) by (apply sq_mono; [unfold eps in *; lra|exact Ry0]).
    assert (J : (a * (r * r) * ((1 - eps) * (1 - eps)) == v * ((y * r * (1 - eps)) * (y * r * (1 - eps))))%Q) by (unfold a; ring).
    rewrite J. apply Qmult_le_l; lra.
  - assert (X : (y' * y' <= (y * r * (1 + eps)) * (y * r * (1 + eps)))%Q) by (apply sq_mono; [lra|exact Ry1]).
    assert (J : (a * (r * r) * ((1 + eps) * (1 + eps)) == v * ((y * r * (1 + eps)) * (y * r * (1 + eps))))%Q) by (unfold a; ring).
    rewrite J. apply Qmult_le_l; lra.
Qed.

(** The reciprocal of the result: its square is the argument, with an error of 1e-10. *)
Lemma root_near v : is_double v -> (32767 <= v)%Q -> (v < 1073741824)%Q ->
  exists w, ddiv done_ (rsqrt64 (DFin v)) = DFin w /\ (0 < w)%Q /\
    (v * (1 - (1 # 5000000000)) <= w * w)%Q /\ (w * w <= v * (1 + (1 # 5000000000)))%Q.
Proof.
  intros R V0 V1. destruct (first_root v R V0 V1) as (y & Dy & Y0 & A0 & A1).
  destruct (drnd_pos (v * (1 # 2))) as (h & Eh & _ & H0 & H1); [lra|lra|].
  destruct (newton_step v h y (7 # 100) V0 V1 H0 H1) as (y1 & E1 & P1 & B1 & C1); [lra|lra|exact Y0|lra|lra|].
  destruct (newton_step v h y1 (38 # 10000) V0 V1 H0 H1) as (y2 & E2 & P2 & B2 & C2); [lra|lra|exact P1|unfold slack in *; lra|unfold slack in *; lra|].
  destruct (newton_step v h y2 (112 # 10000000) V0 V1 H0 H1) as (y3 & E3 & P3 & B3 & C3); [lra|lra|exact P2|unfold slack in *; lra|unfold slack in *; lra|].
  assert (RS : rsqrt64 (DFin v) = DFin y3).
  { transitivity (newton (dmul (DFin v) dhalf) (newton (dmul (DFin v) dhalf) (newton (dmul (DFin v) dhalf) (dval (uwrap 64 (magic - Z.shiftr (dbits (DFin v)) 1)))))); [reflexivity|].
    change (dmul (DFin v) dhalf) with (drnd (v * (1 # 2))). rewrite Eh, Dy, E1, E2. exact E3. }
  rewrite RS. clear RS E1 E2 E3 Eh Dy.
  unfold slack in *.
  assert (Ylo : (1 # 65536 <= y3)%Q).
  { destruct (Qlt_le_dec y3 (1 # 65536)) as [L|L]; [|exact L]. exfalso.
    assert (y3 * y3 <= (1 # 65536) * (1 # 65536))%Q by (apply sq_mono; lra). pose proof (qsq y3). clear - V0 V1 B3 H H2. nra. }
  assert (Yhi : (y3 <= 1 # 128)%Q).
  { destruct (Qlt_le_dec (1 # 128) y3) as [L|L]; [|lra]. exfalso.
    assert ((1 # 128) * (1 # 128) <= y3 * y3)%Q by (apply sq_mono; lra). clear - V0 V1 C3 H. nra. }
  cbn [ddiv done_]. assert (NZ : qzero y3 = false). { unfold qzero. unfold Qlt in P3. cbn in P3. lia. } rewrite NZ.
  assert (I0 : (1 / y3 == / y3)%Q) by (field; lra).
  assert (I1 : (y3 * / y3 == 1)%Q) by (field; lra). set (i := (/ y3)%Q) in *.
  assert (i0 : (128 <= i)%Q).
  { unfold i. apply (Qmult_le_l _ _ y3); [lra|]. rewrite Qmult_inv_r by lra. lra. }
  assert (i1 : (i <= 65536)%Q).
  { unfold i. apply (Qmult_le_l _ _ y3); [lra|]. rewrite Qmult_inv_r by lra. lra. }
  destruct (drnd_pos (1 / y3)) as (w & Ew & _ & W0 & W1); [rewrite I0; fold i; lra|rewrite I0; fold i; lra|].
  exists w. split; [exact Ew|]. rewrite I0 in W0, W1. fold i in W0, W1. clearbody i.
  assert (Z : (i * i * (v * (y3 * y3)) == v)%Q). { transitivity (v * ((y3 * i) * (y3 * i)))%Q; [ring|]. rewrite I1. ring. }
  set (a := (v * (y3 * y3))%Q) in *. set (s := (i * i)%Q) in *.
  assert (S0 : (16384 <= s)%Q) by (unfold s; clear - i0; nra).
  assert (L1 : (s * (1 - eps) * (1 - eps) <= w * w)%Q).
  { assert (X : ((i * (1 - eps)) * (i * (1 - eps)) <= w * w)%Q) by (apply sq_mono; unfold eps in *; lra). unfold s. lra. }
  assert (L2 : (w * w <= s * (1 + eps) * (1 + eps))%Q).
  { assert (X : (w * w <= (i * (1 + eps)) * (i * (1 + eps)))%Q) by (apply sq_mono; unfold eps in *; lra). unfold s. lra. }
  clearbody a s. split; [unfold eps in *; lra|]. unfold eps in *.
  assert (s * (1 - (1 # 9000000000)) <= v)%Q by (clear - Z S0 B3; nra). assert (v <= s * (1 + (1 # 9000000000)))%Q by (clear - Z S0 C3; nra). lra.
Qed.
