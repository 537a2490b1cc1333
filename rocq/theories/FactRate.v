(** * Factor and multiplier of a rate given as a pattern. *)

From Coq Require Import Lqa Qabs.
From Verif Require Import Base BaseLemmas FloatOps FloatLemmas FloatOpsProof SampleModel SampleProof DblModel V2RecSpec V2Rate
  Pack2Model Pack2Rate FactRoot FactProof.
Open Scope Z_scope.

Lemma qzero_pos q : (0 < q)%Q -> qzero q = false.
Proof. intros H. unfold qzero. unfold Qlt in H. cbn in H. lia. Qed.

Lemma dlt_no a b : (b <= a)%Q -> dlt (DFin a) (DFin b) = false.
Proof. intros H. destruct (dlt (DFin a) (DFin b)) eqn:E; [|reflexivity]. apply dlt_fin in E. lra. Qed.

(** ** Rates in samples per second *)

Lemma hertz_up mode r v : dval r = DFin v -> (1 <= v)%Q -> genfactmult mode (sampratehz r) = reduce_rate mode (DFin v).
Proof.
  intros D V. unfold sampratehz. rewrite D. unfold genfactmult, dzero. rewrite !dlt_no by lra. cbv iota. rewrite qzero_pos by lra.
  unfold dge, done_. rewrite dlt_no by lra. reflexivity.
Qed.

Lemma rate_zero mode r v : dval r = DFin v -> (v == 0)%Q -> genfactmult mode (sampratehz r) = Ok (0, 0).
Proof.
  intros D V. unfold sampratehz. rewrite D. unfold genfactmult, dzero. rewrite !dlt_no by lra. cbv iota.
  replace (qzero v) with true; [reflexivity|]. unfold qzero. unfold Qeq in V. cbn in V. lia.
Qed.

(** ** Periods *)

Lemma inv_le a b : (0 < a)%Q -> (a <= b)%Q -> (1 / b <= 1 / a)%Q.
Proof. intros A B. apply Qle_shift_div_l; [lra|]. setoid_replace (1 / b * a)%Q with (a / b)%Q by (field; lra). apply Qle_shift_div_r; lra. Qed.

Lemma twice x h y : (0 < x)%Q -> (1 / x * (1 - eps) <= h)%Q -> (h <= 1 / x * (1 + eps))%Q -> (1 / h * (1 - eps) <= y)%Q -> (y <= 1 / h * (1 + eps))%Q ->
  (x * (1 - (1 # 4000000000000000)) <= y <= x * (1 + (1 # 4000000000000000)))%Q.
Proof.
  intros X H0 H1 Y0 Y1.
  assert (I : (0 < 1 / x)%Q) by (apply Qlt_shift_div_l; lra).
  assert (HP : (0 < h)%Q) by (unfold eps in *; lra).
  assert (XI : (x * (1 / x) == 1)%Q) by (field; lra).
  assert (HI : (h * (1 / h) == 1)%Q) by (field; lra).
  assert (A : (1 - eps <= x * h)%Q). { setoid_replace (1 - eps)%Q with (x * (1 / x * (1 - eps)))%Q by (field; lra). apply Qmult_le_l; assumption. }
  assert (B : (x * h <= 1 + eps)%Q). { setoid_replace (1 + eps)%Q with (x * (1 / x * (1 + eps)))%Q by (field; lra). apply Qmult_le_l; assumption. }
  set (g := (1 / h)%Q) in *. assert (G : (0 < g)%Q) by (unfold g; apply Qlt_shift_div_l; lra).
  assert (C : ((1 - eps) * g <= x)%Q). { setoid_replace x with (x * h * g)%Q at 1 by (rewrite <- Qmult_assoc, HI; ring). apply Qmult_le_r; assumption. }
  assert (D : (x <= (1 + eps) * g)%Q). { setoid_replace x with (x * h * g)%Q at 1 by (rewrite <- Qmult_assoc, HI; ring). apply Qmult_le_r; assumption. }
  clearbody g. clear - A B C D X G Y0 Y1. unfold eps in *. split; lra.
Qed.

Lemma period_back mode r v : dval r = DFin v -> (v <= -51 # 50)%Q -> (-268435457 # 1 <= v)%Q ->
  exists x y, rnd64 x = Some y /\ (- v * (1 - (1 # 4000000000000000)) <= y <= - v * (1 + (1 # 4000000000000000)))%Q /\
    genfactmult mode (sampratehz r) = let! (f1, f2) := reduce_rate mode (DFin y) in Ok (swrap 16 (- f1), swrap 16 (- f2)).
Proof.
  intros D V0 V1. unfold sampratehz. rewrite D. assert (L : dlt (DFin v) dzero = true) by (apply dlt_fin; lra). rewrite L. cbn [ddiv].
  assert (NZ : qzero v = false). { unfold qzero. unfold Qle in V0. cbn in V0. lia. } rewrite NZ.
  assert (EI : ((-1 # 1) / v == 1 / - v)%Q) by (field; lra).
  assert (I0 : (1 / (268435457 # 1) <= 1 / - v)%Q) by (apply inv_le; lra).
  assert (I1 : (1 / - v <= 1 / (51 # 50))%Q) by (apply inv_le; lra).
  change (1 / (268435457 # 1))%Q with (1 # 268435457)%Q in I0. change (1 / (51 # 50))%Q with (50 # 51)%Q in I1.
  destruct (drnd_pos ((-1 # 1) / v)) as (h & E & _ & H0 & H1); [rewrite EI; lra|rewrite EI; lra|]. rewrite EI in H0, H1.
  assert (HP : (1 # 300000000 <= h)%Q) by (unfold eps in *; lra). assert (H2 : (h <= 99 # 100)%Q) by (unfold eps in *; lra).
  assert (J0 : (1 / (99 # 100) <= 1 / h)%Q) by (apply inv_le; lra).
  assert (J1 : (1 / h <= 1 / (1 # 300000000))%Q) by (apply inv_le; lra).
  change (1 / (99 # 100))%Q with (100 # 99)%Q in J0. change (1 / (1 # 300000000))%Q with (300000000 # 1)%Q in J1.
  destruct (drnd_pos (1 / h)) as (y & E' & R & Y0 & Y1); [lra|lra|].
  exists (1 / h)%Q, y. split; [exact R|]. split; [apply (twice (- v) h y); try assumption; lra|].
  rewrite E. unfold genfactmult, dzero. rewrite dlt_no by lra. rewrite qzero_pos by lra. unfold dge, done_.
  assert (Lh : dlt (DFin h) (DFin 1) = true) by (apply dlt_fin; lra). rewrite Lh. cbn [negb ddiv]. rewrite qzero_pos by lra. rewrite E'. reflexivity.
Qed.

(** A negative number of at most 32767 as an int16_t. *)
Lemma swrap16_opp n : 0 <= n <= 32767 -> swrap 16 (- n) = - n.
Proof.
  intros N. unfold swrap. change (2 ^ (16 - 1)) with 32768. change (2 ^ 16) with 65536.
  destruct (Z.eq_dec n 0) as [->|]; [reflexivity|].
  assert (M : (- n) mod 65536 = 65536 - n) by (symmetry; apply (Z.mod_unique_pos _ _ (-1)); lia). rewrite M.
  replace (65536 - n <? 32768) with false by lia. lia.
Qed.

(** ** Whole numbers *)

Lemma whole_rate mode r v n : dval r = DFin v -> (1 <= v)%Q -> 1 <= n <= 32767 -> close v n -> genfactmult mode (sampratehz r) = Ok (n, 1).
Proof. intros D V N C. rewrite (hertz_up mode r v D V). now apply reduce_small. Qed.

Lemma large_rate mode r v n : 0 <= r < 2 ^ 64 -> dval r = DFin v -> close v n -> 32768 <= n <= 32767 * 32767 ->
  (exists f mu, genfactmult mode (sampratehz r) = Ok (f, mu) /\ 1 <= f <= 32767 /\ 1 <= mu <= 32767 /\ 0 <= n - f * mu < f /\ f * f <= n /\
    (forall a b, n = a * b -> 1 <= a < b -> b <= 32767 -> n < 32764 * 32768 -> f * mu = n))
  \/ (32764 * 32768 <= n /\ genfactmult mode (sampratehz r) = Err (-1)).
Proof.
  intros B D C N. pose proof (close_range v n C) as [C0 C1].
  destruct (zq_range n 32768 (32767 * 32767) ltac:(lia)) as [N0 _]. change (inject_Z 32768) with (32768 # 1)%Q in N0.
  assert (V : (1 <= v)%Q) by lra. rewrite (hertz_up mode r v D V). apply reduce_large; [|exact C|exact N]. eapply pattern_double; eassumption.
Qed.

Definition near_period (v : Q) (p : Z) : Prop := (Qabs (v + inject_Z p) <= 1 # 100000000)%Q.

Lemma period_close mode r v p : dval r = DFin v -> near_period v p -> 2 <= p <= 268435456 ->
  exists x y, rnd64 x = Some y /\ close y p /\ (1 <= y)%Q /\
    genfactmult mode (sampratehz r) = let! (f1, f2) := reduce_rate mode (DFin y) in Ok (swrap 16 (- f1), swrap 16 (- f2)).
Proof.
  intros D C P. apply Qabs_Qle_condition in C. destruct (zq_range p 2 268435456 P) as [P0 P1].
  change (inject_Z 2) with (2 # 1)%Q in P0. change (inject_Z 268435456) with (268435456 # 1)%Q in P1.
  destruct (period_back mode r v D) as (x & y & R & Y & E); [lra|lra|]. exists x, y. split; [exact R|]. split.
  - apply Qabs_Qle_condition. split; lra.
  - split; [lra|exact E].
Qed.

Lemma whole_period mode r v p : dval r = DFin v -> near_period v p -> 2 <= p <= 32767 -> genfactmult mode (sampratehz r) = Ok (- p, -1).
Proof.
  intros D C P. destruct (period_close mode r v p D C ltac:(lia)) as (x & y & _ & Cy & _ & ->).
  rewrite (reduce_small mode y p ltac:(lia) Cy). cbn [bind]. rewrite swrap16_opp by lia. reflexivity.
Qed.

Lemma large_period mode r v p : dval r = DFin v -> near_period v p -> 32768 <= p <= 268435456 ->
  exists f mu, genfactmult mode (sampratehz r) = Ok (- f, - mu) /\ 1 <= f <= 32767 /\ 1 <= mu <= 32767 /\ 0 <= p - f * mu < f /\ f * f <= p /\
    (forall a b, p = a * b -> 1 <= a < b -> b <= 32767 -> f * mu = p).
Proof.
  intros D C P. destruct (period_close mode r v p D C ltac:(lia)) as (x & y & R & Cy & _ & ->).
  destruct (reduce_large mode y p) as [(f & mu & -> & F & M & X & S & Z)|[L _]]; [exact (dbits_value _ _ R)|exact Cy|lia| |lia].
  exists f, mu. cbn [bind]. rewrite !swrap16_opp by lia. repeat (split; [first [reflexivity|lia]|]). intros a b Eab AB Bb. apply (Z a b Eab AB Bb). lia.
Qed.

(** ** A whole number and a unit fraction *)

Lemma em8 : exists c, d_1em8 = DFin c /\ (99 # 10000000000 <= c)%Q /\ (c <= 101 # 10000000000)%Q.
Proof. eexists. split; [vm_compute; reflexivity|]. split; vm_compute; discriminate. Qed.

Lemma unit_range k : 2 <= k <= 30 -> (inject_Z k * / inject_Z k == 1)%Q /\ (1 # 30 <= / inject_Z k)%Q /\ (/ inject_Z k <= 1 # 2)%Q /\ (2 <= inject_Z k)%Q /\ (inject_Z k <= 30)%Q.
Proof.
  intros K. destruct (zq_range k 2 30 K) as [K0 K1]. change (inject_Z 2) with 2%Q in K0. change (inject_Z 30) with 30%Q in K1.
  split; [apply Qmult_inv_r; lra|]. split; [|split; [|split; assumption]].
  - pose proof (inv_le (inject_Z k) 30 ltac:(lra) K1) as H. setoid_replace (1 / inject_Z k)%Q with (/ inject_Z k)%Q in H by (field; lra). change (1 / 30)%Q with (1 # 30)%Q in H. exact H.
  - pose proof (inv_le 2 (inject_Z k) ltac:(lra) K0) as H. setoid_replace (1 / inject_Z k)%Q with (/ inject_Z k)%Q in H by (field; lra). change (1 / 2)%Q with (1 # 2)%Q in H. exact H.
Qed.

(** The size of a computed difference. *)
Lemma diff_size a b : (Qabs (a - b) <= 1)%Q ->
  exists w, dabs (dsub (DFin a) (DFin b)) = DFin w /\ (Qabs (a - b) - (1 # 1000000000000000) <= w)%Q /\ (w <= Qabs (a - b) + (1 # 1000000000000000))%Q.
Proof.
  intros A. unfold dsub. cbn [dopp dadd]. destruct (rnd64_small (a + - b)%Q A) as (w & Ew & W). unfold drnd. rewrite Ew.
  change (a + - b)%Q with (a - b)%Q in W. set (x := (a - b)%Q) in *. clearbody x.
  assert (E : (Qabs (w - x) <= 1 # 1000000000000000)%Q). { eapply Qle_trans; [exact W|]. pose proof (Qabs_nonneg x). qlra. }
  apply Qabs_Qle_condition in E. unfold dabs. destruct (dlt (DFin w) dzero) eqn:L; cbn [dopp].
  - apply dlt_fin in L. exists (- w)%Q. split; [reflexivity|]. destruct (Qlt_le_dec x 0) as [X|X].
    + rewrite (Qabs_neg x) by lra. lra.
    + rewrite (Qabs_pos x) by lra. lra.
  - apply dlt_fin_false in L. exists w. split; [reflexivity|]. destruct (Qlt_le_dec x 0) as [X|X].
    + rewrite (Qabs_neg x) by lra. lra.
    + rewrite (Qabs_pos x) by lra. lra.
Qed.

Definition near_unit (v : Q) (n k : Z) : Prop := (Qabs (v - (inject_Z n + / inject_Z k)) <= 1 # 100000000000)%Q.

Lemma quotient_back i k d g : (k * i == 1)%Q -> (1 # 30 <= i)%Q -> (i <= 1 # 2)%Q -> (2 <= k)%Q -> (k <= 30)%Q ->
  (i - (101 # 10000000000000) <= d)%Q -> (d <= i + (101 # 10000000000000))%Q -> (1 / d * (1 - eps) <= g)%Q -> (g <= 1 / d * (1 + eps))%Q ->
  (k - (93 # 10000000000) <= g)%Q /\ (g <= k + (4 # 10))%Q.
Proof.
  intros KI I0 I1 K0 K1 D0 D1 G0 G1.
  assert (DI : (d * (1 / d) == 1)%Q) by (field; lra). assert (P : (0 < 1 / d)%Q) by (apply Qlt_shift_div_l; lra).
  set (h := (1 / d)%Q) in *. clearbody h. split.
  - assert (A : ((k - (93 # 10000000000)) * d <= 1 - eps)%Q).
    { apply Qle_trans with ((k - (93 # 10000000000)) * (i + (101 # 10000000000000)))%Q; [apply Qmult_le_l; lra|].
      setoid_replace ((k - (93 # 10000000000)) * (i + (101 # 10000000000000)))%Q with (k * i + k * (101 # 10000000000000) - (93 # 10000000000) * i - (93 # 10000000000) * (101 # 10000000000000))%Q by ring.
      rewrite KI. unfold eps. lra. }
    apply Qle_trans with (h * (1 - eps))%Q; [|exact G0].
    setoid_replace (k - (93 # 10000000000))%Q with (h * ((k - (93 # 10000000000)) * d))%Q.
    + apply Qmult_le_l; assumption.
    + setoid_replace (h * ((k - (93 # 10000000000)) * d))%Q with ((k - (93 # 10000000000)) * (d * h))%Q by ring. rewrite DI. ring.
  - assert (A : (1 + eps <= (k + (4 # 10)) * d)%Q).
    { apply Qle_trans with ((k + (4 # 10)) * (i - (101 # 10000000000000)))%Q; [|apply Qmult_le_l; lra].
      setoid_replace ((k + (4 # 10)) * (i - (101 # 10000000000000)))%Q with (k * i - k * (101 # 10000000000000) + (4 # 10) * i - (4 # 10) * (101 # 10000000000000))%Q by ring.
      rewrite KI. unfold eps. lra. }
    apply Qle_trans with (h * (1 + eps))%Q; [exact G1|].
    setoid_replace (k + (4 # 10))%Q with (h * ((k + (4 # 10)) * d))%Q.
    + apply Qmult_le_l; assumption.
    + setoid_replace (h * ((k + (4 # 10)) * d))%Q with ((k + (4 # 10)) * (d * h))%Q by ring. rewrite DI. ring.
Qed.

Lemma sarith_small mode x : 0 <= x < 2 ^ 31 -> sarith mode 32 x = Ok x.
Proof.
  intros X. unfold sarith. replace (in_sb 32 x) with true by (unfold in_sb; lia). reflexivity.
Qed.

Lemma ratapprox_unit mode v n k : 1 <= n -> 2 <= k <= 30 -> n * k + 1 < 32767 -> near_unit v n k -> ratapprox mode (DFin v) = Ok (n * k + 1, k).
Proof.
  intros N K NK C. destruct (unit_range k K) as (KI & I0 & I1 & K0 & K1).
  assert (NB : n <= 16383) by nia. destruct (zq_range n 1 16383 ltac:(lia)) as [N0 N1]. change (inject_Z 1) with 1%Q in N0. change (inject_Z 16383) with 16383%Q in N1.
  apply Qabs_Qle_condition in C. set (i := (/ inject_Z k)%Q) in *.
  destruct em8 as (c & Ec & C0 & C1). unfold ratapprox. rewrite Ec.
  (* the whole part *)
  cbn [dadd]. destruct (drnd_pos (v + c)) as (w & -> & _ & W); [lra|lra|]. unfold eps in W.
  rewrite (to_int_pos w n) by first [lia|lra]. cbn [bind].
  destruct (dofz_int n ltac:(lia)) as (u & Eu & _ & U). rewrite Eu.
  assert (S1 : (Qabs (v - u) <= 1)%Q) by (apply Qabs_Qle_condition; rewrite U; lra).
  unfold dsub at 1. cbn [dopp dadd]. destruct (rnd64_small (v + - u)%Q S1) as (d & Ed & D). unfold drnd at 1. rewrite Ed.
  assert (D' : (Qabs (d - (v - u)) <= 1 # 1000000000000000)%Q). { eapply Qle_trans; [exact D|]. change (v + - u)%Q with (v - u)%Q. qlra. }
  apply Qabs_Qle_condition in D'. rewrite U in D'. clear D.
  unfold done_ at 1. cbn [ddiv]. rewrite qzero_pos by lra.
  assert (J0 : (1 / 1 <= 1 / d)%Q) by (apply inv_le; lra). assert (J1 : (1 / d <= 1 / (1 # 31))%Q) by (apply inv_le; lra).
  change (1 / 1)%Q with 1%Q in J0. change (1 / (1 # 31))%Q with (31 # 1)%Q in J1.
  destruct (drnd_pos (1 / d)) as (g & Eg & _ & G0 & G1); [lra|lra|].
  destruct (quotient_back i (inject_Z k) d g) as [Q0 Q1]; try assumption; try lra.
  (* first pass *)
  unfold drnd at 1. fold (drnd (1 / d)). rewrite Eg.
  destruct (dofz_int 1 ltac:(lia)) as (u1 & Eu1 & _ & U1). change (inject_Z 1) with 1%Q in U1.
  destruct (rnd64_int (u / u1) n) as (q & Rq & Vq); [rewrite U, U1; field|lia|].
  rewrite U, U1 in Vq. setoid_replace (inject_Z n / 1)%Q with (inject_Z n) in Vq by field.
  assert (S2 : (Qabs (v - q) <= 1)%Q) by (apply Qabs_Qle_condition; rewrite Vq; lra).
  destruct (diff_size v q S2) as (w1 & E1 & W1 & _). rewrite (Qabs_pos (v - q)) in W1 by (rewrite Vq; lra). rewrite Vq in W1.
  replace 100%nat with (S (S 98)) by reflexivity. set (fu := 98%nat). clearbody fu. cbn [rat_loop]. rewrite Eu, Eu1. cbn [ddiv]. rewrite qzero_pos by (rewrite U1; lra).
  unfold drnd at 1. rewrite Rq, E1, Ec.
  assert (L1 : dlt (DFin c) (DFin w1) = true) by (apply dlt_fin; lra). rewrite L1.
  replace (n <? 32767) with true by lia. change (1 <? 32767) with true. cbn [andb dadd].
  destruct (drnd_pos (g + c)) as (w2 & -> & _ & W2); [lra|lra|]. unfold eps in W2.
  rewrite (to_int_pos w2 k) by first [lia|lra]. cbn [bind]. rewrite !(sarith_small mode (k * _)) by lia. cbn [bind]. rewrite !sarith_small by lia. cbn [bind].
  (* second pass *)
  replace (k * 1 + 0) with k by lia. replace (k * n + 1) with (n * k + 1) by lia.
  destruct (dofz_int (n * k + 1) ltac:(lia)) as (a & Ea & _ & A). destruct (dofz_int k ltac:(lia)) as (b & Eb & _ & B). rewrite Ea, Eb.
  cbn [ddiv]. rewrite qzero_pos by (rewrite B; lra).
  assert (AB : (a / b == inject_Z n + i)%Q). { rewrite A, B, inject_Z_plus, inject_Z_mult. unfold i. change (inject_Z 1) with 1%Q. field. lra. }
  destruct (drnd_pos (a / b)) as (q2 & -> & _ & Q2); [rewrite AB; lra|rewrite AB; lra|]. rewrite AB in Q2. unfold eps in Q2.
  assert (S3 : (Qabs (v - q2) <= 1 # 50000000000)%Q) by (apply Qabs_Qle_condition; lra).
  destruct (diff_size v q2 ltac:(lra)) as (w3 & -> & _ & W3). rewrite (dlt_no c w3) by lra. cbn [andb bind].
  replace (n * k + 1 <? 32767) with true by lia. replace (k <? 32767) with true by lia. reflexivity.
Qed.

Lemma reduce_unit mode v n k : 1 <= n -> 2 <= k <= 30 -> n * k + 1 < 32767 -> near_unit v n k -> reduce_rate mode (DFin v) = Ok (n * k + 1, - k).
Proof.
  intros N K NK C. pose proof (ratapprox_unit mode v n k N K NK C) as R. destruct (unit_range k K) as (KI & I0 & I1 & K0 & K1).
  assert (NB : n <= 16383) by nia. destruct (zq_range n 1 16383 ltac:(lia)) as [N0 N1]. change (inject_Z 1) with 1%Q in N0. change (inject_Z 16383) with 16383%Q in N1.
  apply Qabs_Qle_condition in C. set (i := (/ inject_Z k)%Q) in *. unfold reduce_rate.
  assert (T : exists m, to_int (dadd (DFin v) dhalf) = Ok m /\ (m = n \/ m = n + 1)).
  { cbn [dadd dhalf]. destruct (drnd_pos (v + (1 # 2))) as (w & E & _ & W0 & W1); [lra|lra|]. rewrite E. unfold eps in *.
    destruct (Qlt_le_dec w (inject_Z n + 1)) as [L|G].
    - exists n. split; [apply to_int_pos; [lia|lra|lra]|auto].
    - exists (n + 1). split; [apply to_int_pos; [lia| |]|auto]; rewrite inject_Z_plus; change (inject_Z 1) with 1%Q; lra. }
  destruct T as (m & -> & Hm). cbn [bind].
  destruct (dofz_int m ltac:(lia)) as (u & -> & _ & U).
  assert (Q : (1 # 31 <= Qabs (v - u))%Q /\ (Qabs (v - u) <= 1)%Q).
  { rewrite U. destruct Hm as [-> | ->].
    - rewrite Qabs_pos by lra. lra.
    - rewrite inject_Z_plus. change (inject_Z 1) with 1%Q. rewrite Qabs_neg by lra. lra. }
  destruct Q as [Q0 Q1]. destruct (diff_size v u Q1) as (w & -> & W & _). destruct em7 as (c & -> & _ & C1). rewrite (dlt_no w c) by lra.
  unfold dge. rewrite dlt_no by lra. cbn [negb]. rewrite R. cbn [bind]. rewrite swrap16 by lia. rewrite swrap16_opp by lia. reflexivity.
Qed.

Lemma unit_rate mode r v n k : dval r = DFin v -> 1 <= n -> 2 <= k <= 30 -> n * k + 1 < 32767 -> near_unit v n k ->
  genfactmult mode (sampratehz r) = Ok (n * k + 1, - k).
Proof.
  intros D N K NK C. assert (V : (1 <= v)%Q).
  { destruct (unit_range k K) as (_ & I0 & _). apply Qabs_Qle_condition in C. destruct (zq_range n 1 n ltac:(lia)) as [N0 _]. change (inject_Z 1) with 1%Q in N0. lra. }
  rewrite (hertz_up mode r v D V). now apply reduce_unit.
Qed.

Lemma unit_period mode r v n k : dval r = DFin v -> 1 <= n -> 2 <= k <= 30 -> n * k + 1 < 32767 ->
  (Qabs (v + (inject_Z n + / inject_Z k)) <= 1 # 1000000000000)%Q ->
  genfactmult mode (sampratehz r) = Ok (- (n * k + 1), k).
Proof.
  intros D N K NK C. destruct (unit_range k K) as (_ & I0 & I1 & _).
  assert (NB : n <= 16383) by nia. destruct (zq_range n 1 16383 ltac:(lia)) as [N0 N1]. change (inject_Z 1) with 1%Q in N0. change (inject_Z 16383) with 16383%Q in N1.
  apply Qabs_Qle_condition in C. destruct (period_back mode r v D) as (x & y & _ & Y & ->); [lra|lra|].
  rewrite (reduce_unit mode y n k N K NK); [|apply Qabs_Qle_condition; split; lra]. cbn [bind].
  rewrite swrap16_opp by lia. rewrite Z.opp_involutive, swrap16 by lia. reflexivity.
Qed.

(** ** Rates too large to convert *)

Lemma too_large mode r v : dval r = DFin v -> (2147483648 <= v)%Q -> genfactmult mode (sampratehz r) = UB SignedOverflow.
Proof.
  intros D V. rewrite (hertz_up mode r v D ltac:(lra)). unfold reduce_rate. cbn [dadd dhalf].
  assert (T : to_int (drnd (v + (1 # 2))) = UB SignedOverflow); [|rewrite T; reflexivity].
  unfold drnd. destruct (rnd64 (v + (1 # 2))) as [w|] eqn:R; [|reflexivity]. apply rnd64_near in R. rewrite (Qabs_pos (v + (1 # 2))) in R by lra.
  apply Qabs_Qle_condition in R. assert (W : (2147483648 <= w)%Q) by qlra. unfold to_int. cbv zeta.
  replace (in_sb 32 (qtrunc w)) with false; [reflexivity|]. unfold qtrunc. destruct w as [a b]. unfold Qle in W. cbn [Qnum Qden] in *.
  assert (2147483648 <= Z.quot a (Z.pos b)) by (apply Z.quot_le_lower_bound; lia). unfold in_sb. lia.
Qed.

(** ** What the reader takes for the rate *)

Lemma inject_ne k : 0 < k -> ~ (inject_Z k == 0)%Q.
Proof. intros K H. unfold Qeq in H. cbn in H. lia. Qed.

Lemma nominal_pp f m : 0 < f -> 0 < m -> (nominal f m == inject_Z (f * m))%Q.
Proof.
  intros F M. unfold nominal. replace (0 <? f) with true by lia. replace (0 <? m) with true by lia. now rewrite inject_Z_mult.
Qed.
Lemma nominal_pn f m : 0 < f -> 0 < m -> (nominal f (- m) == inject_Z f / inject_Z m)%Q.
Proof.
  intros F M. unfold nominal. replace (0 <? f) with true by lia. replace (0 <? - m) with false by lia. replace (- m <? 0) with true by lia.
  rewrite Z.opp_involutive. reflexivity.
Qed.
Lemma nominal_nn f m : 0 < f -> 0 < m -> (nominal (- f) (- m) == / inject_Z (f * m))%Q.
Proof.
  intros F M. unfold nominal. replace (0 <? - f) with false by lia. replace (- f <? 0) with true by lia. replace (0 <? - m) with false by lia.
  replace (- m <? 0) with true by lia. rewrite !Z.opp_involutive, inject_Z_mult. field. split; apply inject_ne; lia.
Qed.
Lemma nominal_np f m : 0 < f -> 0 < m -> (nominal (- f) m == inject_Z m / inject_Z f)%Q.
Proof.
  intros F M. unfold nominal. replace (0 <? - f) with false by lia. replace (- f <? 0) with true by lia. replace (0 <? m) with true by lia.
  rewrite Z.opp_involutive. field. apply inject_ne; lia.
Qed.

Lemma whole_nominal mode r v n : dval r = DFin v -> (1 <= v)%Q -> 1 <= n <= 32767 -> (Qabs (v - inject_Z n) <= 9 # 100000000)%Q ->
  genfactmult mode (sampratehz r) = Ok (n, 1) /\ (nominal n 1 == inject_Z n)%Q.
Proof.
  intros D V N C. split; [now apply (whole_rate mode r v n)|]. rewrite nominal_pp by lia. now rewrite Z.mul_1_r.
Qed.

Lemma period_nominal mode r v p : dval r = DFin v -> 2 <= p <= 32767 -> (Qabs (v + inject_Z p) <= 1 # 100000000)%Q ->
  genfactmult mode (sampratehz r) = Ok (- p, -1) /\ (nominal (- p) (-1) == / inject_Z p)%Q.
Proof.
  intros D P C. split; [now apply (whole_period mode r v p)|]. rewrite (nominal_nn p 1) by lia. now rewrite Z.mul_1_r.
Qed.

Lemma large_nominal mode r v n : 0 <= r < 2 ^ 64 -> dval r = DFin v -> (Qabs (v - inject_Z n) <= 9 # 100000000)%Q ->
  32768 <= n <= 32767 * 32767 ->
  (exists f mu, genfactmult mode (sampratehz r) = Ok (f, mu) /\ (nominal f mu == inject_Z (f * mu))%Q /\ 1 <= f <= 32767 /\ 1 <= mu <= 32767 /\
     f * mu <= n < f * mu + f /\ f * f <= n /\
     (forall a b, n = a * b -> 1 <= a < b -> b <= 32767 -> n < 32764 * 32768 -> f * mu = n))
  \/ (32764 * 32768 <= n /\ genfactmult mode (sampratehz r) = Err (-1)).
Proof.
  intros B D C N. destruct (large_rate mode r v n B D C N) as [(f & mu & E & F & M & X & S & Z)|R]; [left|right; exact R].
  exists f, mu. split; [exact E|]. split; [apply nominal_pp; lia|]. repeat (split; [lia|]). exact Z.
Qed.

Lemma large_period_nominal mode r v p : dval r = DFin v -> (Qabs (v + inject_Z p) <= 1 # 100000000)%Q -> 32768 <= p <= 2 ^ 28 ->
  exists f mu, genfactmult mode (sampratehz r) = Ok (- f, - mu) /\ (nominal (- f) (- mu) == / inject_Z (f * mu))%Q /\ 1 <= f <= 32767 /\ 1 <= mu <= 32767 /\
    f * mu <= p < f * mu + f /\ f * f <= p /\ (forall a b, p = a * b -> 1 <= a < b -> b <= 32767 -> f * mu = p).
Proof.
  intros D C P. destruct (large_period mode r v p D C P) as (f & mu & E & F & M & X & S & Z).
  exists f, mu. split; [exact E|]. split; [apply nominal_nn; lia|]. repeat (split; [lia|]). exact Z.
Qed.

Lemma unit_nominal mode r v n k : dval r = DFin v -> 1 <= n -> 2 <= k <= 30 -> n * k + 1 < 32767 ->
  (Qabs (v - (inject_Z n + / inject_Z k)) <= 1 # 100000000000)%Q ->
  genfactmult mode (sampratehz r) = Ok (n * k + 1, - k) /\ (nominal (n * k + 1) (- k) == inject_Z n + / inject_Z k)%Q.
Proof.
  intros D N K NK C. split; [now apply (unit_rate mode r v n k)|]. rewrite nominal_pn by nia. rewrite inject_Z_plus, inject_Z_mult.
  change (inject_Z 1) with 1%Q. field. apply inject_ne; lia.
Qed.

Lemma unit_period_nominal mode r v n k : dval r = DFin v -> 1 <= n -> 2 <= k <= 30 -> n * k + 1 < 32767 ->
  (Qabs (v + (inject_Z n + / inject_Z k)) <= 1 # 1000000000000)%Q ->
  genfactmult mode (sampratehz r) = Ok (- (n * k + 1), k) /\ (nominal (- (n * k + 1)) k == / (inject_Z n + / inject_Z k))%Q.
Proof.
  intros D N K NK C. split; [now apply (unit_period mode r v n k)|]. rewrite nominal_np by nia. 
  assert (P : ~ (inject_Z (n * k + 1) == 0)%Q) by (apply inject_ne; nia). rewrite inject_Z_plus, inject_Z_mult in *.
  change (inject_Z 1) with 1%Q in *. field. split; [apply inject_ne; lia|exact P].
Qed.

(** ** A period given directly *)

Lemma drnd_nonneg x : 0 <= Qnum x -> dlt (drnd x) dzero = false.
Proof.
  intros X. unfold drnd. destruct x as [n d]. cbn [Qnum] in X. unfold rnd64. cbn [Qnum Qden]. destruct n as [|n|n]; [reflexivity| |lia].
  pose proof (rnd_pos_err (Zpos n) (Zpos d) ltac:(lia) ltac:(lia)) as R. destruct (rnd_pos _ _) as [m e]. destruct R as (M & _).
  destruct (Qle_bool _ _); [reflexivity|]. apply dlt_no. unfold dyadic. destruct (0 <=? e); unfold Qle; cbn [Qnum Qden inject_Z]; [|lia].
  rewrite ?Z.mul_1_r. assert (0 <= 2 ^ e) by (apply Z.pow_nonneg; lia). nia.
Qed.

Lemma direct_rate mode r : genfactmult mode (dval r) = genfactmult mode (sampratehz r).
Proof.
  unfold sampratehz. destruct (dlt (dval r) dzero) eqn:L; [|reflexivity].
  assert (N : dlt (ddiv (DFin (-1 # 1)) (dval r)) dzero = false).
  { destruct (dval r) as [v|s|]; cbn [ddiv]; [|reflexivity|reflexivity]. destruct (qzero v) eqn:Z0.
    - apply dlt_fin in L. unfold qzero in Z0. unfold Qlt in L. cbn in L. lia.
    - apply drnd_nonneg. apply dlt_fin in L. unfold Qlt in L. cbn in L. destruct v as [[|n|n] d]; cbn in *; lia. }
  unfold genfactmult. rewrite L, N. reflexivity.
Qed.
