(** * The nominal sample rate as a double. *)

From Coq Require Import Lqa.
From Verif Require Import Base BaseLemmas FloatOps FloatLemmas FloatOpsProof SampleProof RateProof DblModel ConvModel ConvSpec ConvProof V2Model V2RecSpec.
Open Scope Z_scope.

(** ** Rounding *)

Lemma rnd64_form x v : rnd64 x = Some v -> exists neg m e, 0 <= m <= 2 ^ 53 /\ -1074 <= e /\
  v = (if neg : bool then Qopp (dyadic m e) else dyadic m e) /\ (dyadic m e < P2 1024)%Q.
Proof.
  assert (R : forall n d, let '(m, e) := rnd_pos (Zpos n) (Zpos d) in 0 <= m <= 2 ^ 53 /\ -1074 <= e).
  { intros n d. pose proof (rnd_pos_err (Zpos n) (Zpos d) ltac:(lia) ltac:(lia)) as R.
    destruct (rnd_pos (Z.pos n) (Z.pos d)) as [m e]. destruct R as (Hm & He & R).
    pose proof (flog2_ok (Zpos n) (Zpos d) ltac:(lia) ltac:(lia)) as [F1 F2]. split; [|lia]. split; [lia|].
    set (x0 := (inject_Z (Z.pos n) / inject_Z (Z.pos d))%Q) in *.
    pose proof (P2_le (flog2 (Z.pos n) (Z.pos d) + 1) (e + 53) ltac:(lia)) as L. rewrite (P2_add e 53) in L.
    assert (F : (P2 e == 2 * P2 (e - 1))%Q). { replace e with (1 + (e - 1)) at 1 by lia. rewrite P2_add. reflexivity. }
    pose proof (P2_pos (e - 1)) as Pp. change (P2 53) with (9007199254740992 # 1) in L.
    assert (inject_Z m < inject_Z (2 ^ 53 + 1))%Q; [|rewrite <- zq_lt in H; lia].
    change (inject_Z (2 ^ 53 + 1)) with (9007199254740993 # 1).
    apply (Qmult_lt_r _ _ (P2 (e - 1))); [exact Pp|]. rewrite F in R, L. lra. }
  unfold rnd64. destruct x as [n d]. cbn [Qnum Qden]. destruct n as [|n|n].
  - intros H. injection H as <-. exists false, 0, 0. split; [lia|]. split; [lia|]. split; reflexivity.
  - specialize (R n d). destruct (rnd_pos _ _) as [m e]. destruct (Qle_bool _ _) eqn:Q; [discriminate|]. intros H. injection H as <-.
    exists false, m, e. destruct R. split; [lia|]. split; [lia|]. split; [reflexivity|].
    destruct (Qlt_le_dec (dyadic m e) (P2 1024)) as [G|G]; [exact G|]. apply Qle_bool_iff in G. unfold P2 in G. congruence.
  - specialize (R n d). destruct (rnd_pos _ _) as [m e]. destruct (Qle_bool _ _) eqn:Q; [discriminate|]. intros H. injection H as <-.
    exists true, m, e. destruct R. split; [lia|]. split; [lia|]. split; [reflexivity|].
    destruct (Qlt_le_dec (dyadic m e) (P2 1024)) as [G|G]; [exact G|]. apply Qle_bool_iff in G. unfold P2 in G. congruence.
Qed.

Lemma rnd64_int x z : (x == inject_Z z)%Q -> Z.abs z < 2 ^ 53 -> exists v, rnd64 x = Some v /\ (v == x)%Q.
Proof.
  assert (P : forall n d z, Zpos n = z * Zpos d -> z < 2 ^ 53 -> exists v, rnd64 (Zpos n # d) = Some v /\ (v == inject_Z z)%Q).
  { intros n d z' E L. unfold rnd64. cbn [Qnum Qden]. unfold rnd_pos.
    pose proof (flog2_ok (Zpos n) (Zpos d) ltac:(lia) ltac:(lia)) as [F1 F2].
    assert (X : (inject_Z (Z.pos n) / inject_Z (Z.pos d) == inject_Z z')%Q).
    { rewrite <- Qmake_div. unfold Qeq. cbn [Qnum Qden inject_Z]. lia. }
    rewrite X in F1. assert (G : flog2 (Z.pos n) (Z.pos d) < 53).
    { apply P2_lt_inv. apply Qle_lt_trans with (1 := F1). change (P2 53) with (inject_Z (2 ^ 53)). rewrite <- zq_lt. exact L. }
    set (e := Z.max _ _). assert (He : e <= 0) by lia.
    unfold num_pow, den_pow. replace (0 <=? - e) with true by lia.
    assert (M : rne_div (Z.pos n * 2 ^ (- e)) (Z.pos d) = z' * 2 ^ (- e)).
    { unfold rne_div. rewrite E. replace (z' * Z.pos d * 2 ^ (- e)) with (z' * 2 ^ (- e) * Z.pos d) by ring.
      rewrite Z.div_mul, Z_mod_mult by lia. cbn [Z.mul]. reflexivity. }
    rewrite M. assert (D : (dyadic (z' * 2 ^ (- e)) e == inject_Z z')%Q).
    { rewrite dyadic_P2, inject_Z_mult, <- (P2_nonneg (- e)) by lia. rewrite <- Qmult_assoc, <- P2_add.
      replace (- e + e) with 0 by lia. change (P2 0) with 1%Q. ring. }
    destruct (Qle_bool _ _) eqn:Q.
    - exfalso. apply Qle_bool_imp_le in Q. rewrite D in Q. fold (P2 1024) in Q.
      assert (inject_Z (2 ^ 53) <= P2 1024)%Q by (rewrite <- P2_nonneg by lia; apply P2_le; lia).
      rewrite zq_lt in L. lra.
    - exists (dyadic (z' * 2 ^ (- e)) e). split; [reflexivity|exact D]. }
  destruct x as [[|n|n] d]; intros E L; unfold Qeq in E; cbn [Qnum Qden inject_Z] in E.
  - exists 0%Q. split; [reflexivity|]. unfold Qeq. reflexivity.
  - destruct (P n d z) as (v & V & W); [lia|lia|]. exists v. split; [exact V|]. rewrite W. unfold Qeq. cbn [Qnum Qden inject_Z]. lia.
  - destruct (P n d (- z)) as (v & V & W); [lia|lia|]. exists (- v)%Q. split.
    + change (Z.neg n # d) with (- (Z.pos n # d))%Q. rewrite rnd64_opp, V. reflexivity.
    + rewrite W. unfold Qeq. cbn [Qnum Qden inject_Z Qopp]. lia.
Qed.

(** ** Values and patterns *)

Lemma dval_units b u : 0 <= b < 2 ^ 64 -> units64 b = Some u -> exists v, dval b = DFin v /\ (v == inject_Z u * P2 (-1074))%Q.
Proof.
  intros H U. unfold units64 in U. unfold dval.
  replace (b mod 2 ^ 64) with b by (clear U; lia). replace (b / 2 ^ 52 mod 2048) with (b mod 2 ^ 63 / 2 ^ 52) by (clear U; lia). set (e := b mod 2 ^ 63 / 2 ^ 52) in *.
  assert (E0 : 0 <= e) by (unfold e; lia).
  destruct (e =? 2047); [discriminate|]. apply (f_equal (fun o => match o with Some x => x | None => 0 end)) in U. cbv beta iota in U. subst u.
  clearbody e. generalize dependent (b mod 2 ^ 52). intros f.
  assert (A : (dyadic f (-1074) == inject_Z f * P2 (-1074))%Q) by apply dyadic_P2.
  eexists. split; [reflexivity|].
  destruct (Z.eqb_spec e 0) as [Z0|Z0].
  - destruct (Z.leb_spec (2 ^ 63) b), (Z.ltb_spec b (2 ^ 63)); try lia; rewrite A.
    + rewrite (inject_Z_mult (-1)). change (inject_Z (-1)) with (-1)%Q. ring.
    + rewrite Z.mul_1_l. reflexivity.
  - assert (B : (dyadic (f + 2 ^ 52) (e - 1075) == inject_Z ((2 ^ 52 + f) * 2 ^ (e - 1)) * P2 (-1074))%Q).
    { rewrite dyadic_P2, inject_Z_mult, <- (P2_nonneg (e - 1)) by lia. rewrite <- Qmult_assoc, <- P2_add.
      replace (e - 1 + -1074) with (e - 1075) by lia. rewrite (Z.add_comm (2 ^ 52)). reflexivity. }
    destruct (Z.leb_spec (2 ^ 63) b), (Z.ltb_spec b (2 ^ 63)); try lia; rewrite B.
    + rewrite (inject_Z_mult (-1)). change (inject_Z (-1)) with (-1)%Q. ring.
    + rewrite Z.mul_1_l. reflexivity.
Qed.

Lemma dbits_value x v : rnd64 x = Some v -> 0 <= dbits (DFin v) < 2 ^ 64 /\ exists v', dval (dbits (DFin v)) = DFin v' /\ (v' == v)%Q.
Proof.
  intros H. destruct (rnd64_form _ _ H) as (neg & m & e & M & Le & Ev & B). unfold dbits.
  set (k := m * 2 ^ (e + 1074)). assert (K0 : 0 <= k) by (pose proof (ConvProof.pow_pos (e + 1074) ltac:(lia)); unfold k; nia).
  assert (Vk : (v == inject_Z (if neg then - k else k) * P2 (-1074))%Q).
  { assert (D : (dyadic m e == inject_Z k * P2 (-1074))%Q).
    { unfold k. rewrite dyadic_P2, inject_Z_mult, <- (P2_nonneg (e + 1074)), <- Qmult_assoc, <- P2_add by lia. replace (e + 1074 + -1074) with e by lia. reflexivity. }
    rewrite Ev. destruct neg; rewrite D; [|reflexivity]. rewrite inject_Z_opp. ring. }
  assert (U : Qnum v * unit1 / Z.pos (Qden v) = if neg then - k else k).
  { set (s := if neg then - k else k) in *. clearbody s. 
    assert (Qnum v * unit1 = s * Z.pos (Qden v)) as ->; [|apply Z.div_mul; lia].
    assert (W : (v * P2 1074 == inject_Z s)%Q). { rewrite Vk, <- Qmult_assoc, <- P2_add. change (P2 (-1074 + 1074)) with 1%Q. ring. }
    rewrite (P2_nonneg 1074) in W by lia. unfold Qeq in W. destruct v as [a b]. cbn [Qnum Qden inject_Z Qmult] in *. unfold unit1.
    rewrite !Z.mul_1_r in W. rewrite Pos.mul_1_r in W. lia. }
  rewrite U. rewrite encode_split.
  assert (AB : Z.abs (if neg then - k else k) = k) by (destruct neg; lia). rewrite AB.
  assert (G : exists b, 0 <= b /\ mag binary64 b = k).
  { destruct (Z.eq_dec m (2 ^ 53)) as [->|N].
    - destruct (grid_exact binary64 (2 ^ 52) (e + 1075) good64) as (b & B0 & B1); [cbn; lia|cbn; lia|].
      exists b. split; [exact B0|]. rewrite B1. unfold k. replace (e + 1075) with (1 + (e + 1074)) by lia.
      rewrite (Z.pow_add_r 2 1) by lia. change (2 ^ 53) with (2 ^ 52 * 2 ^ 1). ring.
    - destruct (grid_exact binary64 m (e + 1074) good64) as (b & B0 & B1); [cbn; lia|cbn; lia|]. exists b. split; [exact B0|exact B1]. }
  destruct G as (b & B0 & B1).
  assert (KI : k < 2 ^ 2098).
  { rewrite zq_lt. apply (Qmult_lt_r _ _ (P2 (-1074))); [apply P2_pos|].
    rewrite <- (P2_nonneg 2098), <- P2_add by lia. change (2098 + -1074) with 1024.
    unfold k. rewrite inject_Z_mult, <- (P2_nonneg (e + 1074)), <- Qmult_assoc, <- P2_add by lia.
    replace (e + 1074 + -1074) with e by lia. rewrite <- dyadic_P2. exact B. }
  destruct (exact_value binary64 b good64 B0) as [X L]; [rewrite inf64, B1; exact KI|].
  rewrite <- B1 at 2. rewrite <- B1 in *. rewrite X. set (sg := (if neg then - mag binary64 b else mag binary64 b) <? 0).
  pose proof (inf_in binary64 good64) as II. destruct (sign_split binary64 sg b good64 ltac:(lia)) as (_ & _ & _ & RG).
  split; [exact RG|].
  destruct (dval_units (with_sign binary64 sg b) (signed_mag sg (mag binary64 b))) as (v' & V1 & V2).
  { exact RG. }
  { rewrite <- val64 by exact RG. unfold val. rewrite decode_exact by (auto using good64). reflexivity. }
  exists v'. split; [exact V1|]. rewrite V2, Vk. apply Qmult_comp; [|reflexivity]. f_equiv.
  unfold sg, signed_mag. destruct neg; destruct (Z.ltb_spec (- mag binary64 b) 0), (Z.ltb_spec (mag binary64 b) 0); lia.
Qed.

(** ** The nominal rate *)

Lemma drnd_pos x : (1 # 1099511627776 <= x)%Q -> (x <= (1099511627776 # 1))%Q ->
  exists v, drnd x = DFin v /\ rnd64 x = Some v /\ (x * (1 - eps) <= v <= x * (1 + eps))%Q.
Proof.
  intros L H. destruct (rnd64_rel x) as (v & E & A).
  - pose proof (P2_le (-1022) (-40) ltac:(lia)). assert (P2 (-40) == 1 # 1099511627776)%Q by reflexivity. lra.
  - pose proof (P2_le 41 1023 ltac:(lia)). assert (P2 41 == inject_Z (2 ^ 41))%Q by reflexivity.
    change (inject_Z (2 ^ 41)) with (2199023255552 # 1) in *. lra.
  - exists v. unfold drnd. rewrite E. rewrite P2_53 in A. auto.
Qed.

Lemma drnd_neg x : (1 # 1099511627776 <= - x)%Q -> (- x <= (1099511627776 # 1))%Q ->
  exists v, drnd x = DFin v /\ rnd64 x = Some v /\ ((- x) * (1 - eps) <= - v <= (- x) * (1 + eps))%Q.
Proof.
  intros L H. destruct (drnd_pos (- x)%Q L H) as (v & _ & E & A).
  exists (- v)%Q. unfold drnd. rewrite <- (qopp_opp x) at 1 2. rewrite rnd64_opp, E. split; [reflexivity|]. split; [reflexivity|]. 
  rewrite qopp_opp. exact A.
Qed.

Lemma dofz_int z : Z.abs z < 2 ^ 53 -> exists v, dofz z = DFin v /\ rnd64 (inject_Z z) = Some v /\ (v == inject_Z z)%Q.
Proof.
  intros L. destruct (rnd64_int (inject_Z z) z) as (v & E & A); [reflexivity|exact L|]. exists v. unfold dofz, drnd. rewrite E. auto.
Qed.

Lemma recip_bounds n : 1 <= n <= 32768 -> (1 # 32768 <= / inject_Z n <= 1)%Q.
Proof.
  intros H. assert (P : (0 < inject_Z n)%Q) by (change 0%Q with (inject_Z 0); rewrite <- zq_lt; lia).
  assert (1 <= inject_Z n)%Q by (change 1%Q with (inject_Z 1); rewrite <- zq_le; lia).
  assert (inject_Z n <= 32768)%Q by (change 32768%Q with (inject_Z 32768); rewrite <- zq_le; lia).
  assert (E : (inject_Z n * / inject_Z n == 1)%Q) by (field; lra). split.
  - apply (Qmult_le_l _ _ (inject_Z n) P). rewrite E. lra.
  - apply (Qmult_le_l _ _ (inject_Z n) P). rewrite E. lra.
Qed.

Lemma int_bounds n : 1 <= n <= 32768 -> (1 <= inject_Z n <= 32768)%Q.
Proof.
  intros H. change 1%Q with (inject_Z 1). change 32768%Q with (inject_Z 32768). rewrite <- !zq_le. exact H.
Qed.

(** The first factor. *)
Definition part (f : Z) : Q := if 0 <? f then inject_Z f else if f <? 0 then (/ inject_Z (- f))%Q else 0%Q.

Lemma first_ok f : in_s 16 f -> exists x v, (if 0 <? f then dofz f else if f <? 0 then ddiv (dofz (-1)) (dofz f) else dzero) = DFin v
  /\ rnd64 x = Some v /\ (part f * (1 - eps) <= v <= part f * (1 + eps))%Q /\ (0 < f -> (v == inject_Z f)%Q)
  /\ (0 <= part f <= 32768)%Q /\ (f <> 0 -> (1 # 32768 <= part f)%Q).
Proof.
  intros F. unfold in_s in F. change (2 ^ (16 - 1)) with 32768 in F. unfold part. destruct (Z.ltb_spec 0 f) as [P|P].
  - destruct (dofz_int f) as (v & E & R & A); [lia|]. exists (inject_Z f), v. split; [exact E|]. split; [exact R|].
    pose proof (int_bounds f ltac:(lia)). rewrite A. unfold eps. repeat split; try lra; reflexivity.
  - destruct (Z.ltb_spec f 0) as [N|N].
    + destruct (dofz_int (-1)) as (u & Eu & _ & Au); [lia|]. destruct (dofz_int f) as (w & Ew & _ & Aw); [lia|]. rewrite Eu, Ew.
      pose proof (int_bounds (- f) ltac:(lia)) as IB. pose proof (recip_bounds (- f) ltac:(lia)) as RB.
      rewrite inject_Z_opp in IB.
      unfold ddiv. replace (qzero w) with false. 2:{ symmetry. unfold qzero. apply Z.eqb_neq. intros Z. assert (W0 : (w == 0)%Q) by (unfold Qeq; cbn; lia). rewrite Aw in W0. destruct IB. lra. }
      assert (X : (u / w == / inject_Z (- f))%Q). { rewrite Au, Aw, inject_Z_opp. change (inject_Z (-1)) with (-1)%Q. field. lra. }
      destruct (drnd_pos (u / w)%Q) as (v & E & R & A); [rewrite X; lra|rewrite X;  lra|].
      exists (u / w)%Q, v. split; [exact E|]. split; [exact R|]. rewrite X in A. repeat split; try (intros; lra || lia); apply A.
    + exists 0%Q, 0%Q. split; [reflexivity|]. split; [reflexivity|]. repeat split; try lra; try lia. 
Qed.

Lemma nominal_ok f m : in_s 16 f -> in_s 16 m -> exists x v, nomsamprate f m = DFin v /\ rnd64 x = Some v
  /\ (Qabs (v - nominal f m) <= nominal f m * (1 # 2 ^ 51))%Q /\ (0 < f -> 0 < m -> (v == inject_Z (f * m))%Q).
Proof.
  intros F M. destruct (first_ok f F) as (x & v & E & R & A & Ex & B & B0). unfold nomsamprate. cbv zeta. rewrite E. clear E.
  unfold nominal. fold (part f). unfold in_s in F, M. change (2 ^ (16 - 1)) with 32768 in F, M.
  destruct (Z.eq_dec f 0) as [->|NZ].
  { assert (v == 0)%Q as V0 by (cbn in A; lra).
    assert (Q0 : forall q, (q == 0)%Q -> rnd64 q = Some 0%Q). { intros q Q. unfold rnd64. unfold Qeq in Q. cbn in Q. destruct (Qnum q); try reflexivity; lia. }
    assert (PZ : (part 0 == 0)%Q) by reflexivity.
    destruct (Z.ltb_spec 0 m) as [P|P].
    - destruct (dofz_int m) as (w & Ew & _ & Aw); [lia|]. rewrite Ew. unfold dmul, drnd. rewrite Q0 by (rewrite V0; ring).
      exists 0%Q, 0%Q. split; [reflexivity|]. split; [reflexivity|]. split; [|lia]. rewrite PZ. 
      setoid_replace (0 - 0 * inject_Z m)%Q with 0%Q by ring. cbn. lra.
    - destruct (Z.ltb_spec m 0) as [N|N].
      + destruct (dofz_int m) as (w & Ew & _ & Aw); [lia|]. rewrite Ew. unfold ddiv.
        pose proof (int_bounds (- m) ltac:(lia)) as IB. rewrite inject_Z_opp in IB.
        replace (qzero w) with false. 2:{ symmetry. unfold qzero. apply Z.eqb_neq. intros Z. assert (W0 : (w == 0)%Q) by (unfold Qeq; cbn; lia). rewrite Aw in W0. destruct IB. lra. }
        unfold drnd at 1. rewrite Q0 by (rewrite V0; field; lra). destruct (dofz_int (-1)) as (u & Eu & _ & Au); [lia|]. rewrite Eu.
        unfold dmul, drnd. rewrite Q0 by ring.
        exists 0%Q, 0%Q. split; [reflexivity|]. split; [reflexivity|]. split; [|lia]. rewrite PZ.
        setoid_replace (0 - 0 * / inject_Z (- m))%Q with 0%Q by ring. cbn. lra.
      + exists x, v. split; [reflexivity|]. split; [exact R|]. split; [|lia]. rewrite V0, PZ.
        setoid_replace (0 - 0 * 1)%Q with 0%Q by ring. cbn. lra. }
  specialize (B0 NZ). set (p := part f) in *. clearbody p.
  destruct (Z.ltb_spec 0 m) as [P|P].
  - destruct (dofz_int m) as (w & Ew & _ & Aw); [lia|]. rewrite Ew. unfold dmul. pose proof (int_bounds m ltac:(lia)) as IB.
    destruct (Z_lt_dec 0 f) as [FP|FN].
    + specialize (Ex FP). destruct (rnd64_int (v * w)%Q (f * m)) as (z & Ez & Az).
      { rewrite Ex, Aw, inject_Z_mult. reflexivity. } { assert (0 < f * m <= 32768 * 32768) by nia. lia. }
      unfold drnd. rewrite Ez. exists (v * w)%Q, z. split; [reflexivity|]. split; [exact Ez|].
      rewrite Az, Aw, Ex. rewrite Ex in A. split.
      * apply Qabs_Qle_condition. unfold eps in A. set (q := inject_Z m) in *. clearbody q. set (a := inject_Z f) in *. clearbody a.
        change (1 # 2 ^ 51) with (1 # 2251799813685248). split; nra.
      * intros _ _. rewrite inject_Z_mult. reflexivity.
    + set (q := inject_Z m) in *. clearbody q.
      assert (X : (p * q * (1 - eps) <= v * w <= p * q * (1 + eps))%Q) by (rewrite Aw; unfold eps in *; nra).
      assert (P0 : (1 # 32768 <= p * q <= 1073741824)%Q) by nra.
      destruct (drnd_pos (v * w)%Q) as (z & Ez & Rz & Az); [unfold eps in *; lra| unfold eps in *; lra|].
      exists (v * w)%Q, z. split; [exact Ez|]. split; [exact Rz|]. split; [|lia]. apply Qabs_Qle_condition.
      change (1 # 2 ^ 51) with (1 # 2251799813685248). unfold eps in *. set (t := (p * q)%Q) in *. clearbody t. lra.
  - destruct (Z.ltb_spec m 0) as [N|N].
    + destruct (dofz_int m) as (w & Ew & _ & Aw); [lia|]. rewrite Ew. unfold ddiv.
      pose proof (int_bounds (- m) ltac:(lia)) as IB. pose proof (recip_bounds (- m) ltac:(lia)) as RB. rewrite inject_Z_opp in IB.
      replace (qzero w) with false. 2:{ symmetry. unfold qzero. apply Z.eqb_neq. intros Z. assert (W0 : (w == 0)%Q) by (unfold Qeq; cbn; lia). rewrite Aw in W0. destruct IB. lra. }
      assert (W : (v / w == - (v * / inject_Z (- m)))%Q). { rewrite Aw, inject_Z_opp. field. lra. }
      set (q := (/ inject_Z (- m))%Q) in *. clearbody q. 
      assert (X : (p * q * (1 - eps) <= v * q <= p * q * (1 + eps))%Q) by (unfold eps in *; nra).
      assert (P0 : (1 # 1073741824 <= p * q <= 32768)%Q) by nra.
      set (t := (p * q)%Q) in *. clearbody t. set (vq := (v * q)%Q) in *. clearbody vq.
      destruct (drnd_neg (v / w)%Q) as (y & Ey & Ry & Ay); [rewrite W; unfold eps in *; lra|rewrite W;  unfold eps in *; lra|].
      rewrite Ey. destruct (dofz_int (-1)) as (u & Eu & _ & Au); [lia|]. rewrite Eu. unfold dmul.
      assert (Y : (u * y == - y)%Q). { rewrite Au. change (inject_Z (-1)) with (-1)%Q. ring. }
      rewrite W in Ay.
      destruct (drnd_pos (u * y)%Q) as (z & Ez & Rz & Az); [rewrite Y; unfold eps in *; lra|rewrite Y;  unfold eps in *; lra|].
      exists (u * y)%Q, z. split; [exact Ez|]. split; [exact Rz|]. split; [|lia]. rewrite Y in Az. apply Qabs_Qle_condition.
      change (1 # 2 ^ 51) with (1 # 2251799813685248). unfold eps in *. lra.
    + exists x, v. split; [reflexivity|]. split; [exact R|]. split; [|lia]. apply Qabs_Qle_condition.
      change (1 # 2 ^ 51) with (1 # 2251799813685248). unfold eps in *. lra.
Qed.

Lemma nominal_bits f m : in_s 16 f -> in_s 16 m -> exists v, dval (dbits (nomsamprate f m)) = DFin v
  /\ (Qabs (v - nominal f m) <= nominal f m * (1 # 2 ^ 51))%Q /\ (0 < f -> 0 < m -> (v == inject_Z (f * m))%Q).
Proof.
  intros F M. destruct (nominal_ok f m F M) as (x & v & E & R & A & X). rewrite E. destruct (dbits_value x v R) as (_ & v' & D & V).
  exists v'. split; [exact D|]. rewrite V. split; assumption.
Qed.
