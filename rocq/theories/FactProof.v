(** * Factor and multiplier of a rate. *)

From Coq Require Import Lqa Qabs.
From Verif Require Import Base BaseLemmas FloatOps FloatLemmas FloatOpsProof SampleProof RateProof DblModel ConvModel ConvSpec ConvProof V2Model V2RecSpec V2Rate
  Pack2Model Pack2Spec Pack2Rate FactRoot.
Open Scope Z_scope.

(** ** The search for a factor *)

Lemma idiv_pos a b : 0 <= a -> 0 < b -> idiv a b = Ok (a / b).
Proof. intros. unfold idiv. replace (b =? 0) with false by lia. now rewrite Z.quot_div_nonneg by lia. Qed.
Lemma irem_pos a b : 0 <= a -> 0 < b -> irem a b = Ok (a mod b).
Proof. intros. unfold irem. replace (b =? 0) with false by lia. now rewrite Z.rem_mod_nonneg by lia. Qed.

(** From a start [s] whose predecessor has a cofactor in range, the search ends with a
    factor up to the start whose cofactor is in range; it divides the number if any
    number up to [s] with a cofactor in range does. *)
Lemma search_ok n M : 32767 < n -> forall fuel s c d,
  (Z.to_nat s <= fuel)%nat -> 2 <= s <= M -> n / (s - 1) <= 32767 -> 1 <= c <= M -> n / c <= 32767 -> 0 < d \/ n mod s = 0 ->
  exists r, factor_loop fuel n s c d = Ok r /\ 1 <= r <= M /\ n / r <= 32767 /\
    (forall a, 1 <= a <= s -> n / a <= 32767 -> n mod a = 0 -> n mod r = 0).
Proof.
  intros N. induction fuel as [|fuel IH]; intros s c d Fu S2 Ns C2 Nc D; [lia|].
  cbn [factor_loop]. rewrite irem_pos by lia. cbn [bind].
  assert (S3 : 3 <= s).
  { destruct (Z.eq_dec s 2) as [->|]; [|lia]. exfalso. change (2 - 1) with 1 in Ns. rewrite Z.div_1_r in Ns. lia. }
  assert (Ns' : n / s <= 32767).
  { eapply Z.le_trans; [|exact Ns]. apply Z.div_le_compat_l; clear - N S3; lia. }
  destruct (Z.eqb_spec (n mod s) 0) as [Z0|Z0].
  { exists s. split; [reflexivity|]. split; [lia|]. split; [exact Ns'|]. intros; exact Z0. }
  destruct D as [D|D]; [|contradiction].
  rewrite idiv_pos by (clear - N S3; lia). cbn [bind].
  assert (E : n - (s - 1) * (n / (s - 1)) = n mod (s - 1)) by (rewrite Z.mod_eq by lia; reflexivity). rewrite E.
  pose proof (Z.mod_pos_bound n (s - 1) ltac:(lia)) as Md.
  set (cd := if n mod (s - 1) <? d then (s - 1, n mod (s - 1)) else (c, d)).
  assert (CD : exists c' d', cd = (c', d') /\ 1 <= c' <= M /\ n / c' <= 32767 /\ (0 < d' \/ n mod (s - 1) = 0)
                 /\ (n mod (s - 1) = 0 -> c' = s - 1)).
  { unfold cd. destruct (Z.ltb_spec (n mod (s - 1)) d) as [L|L].
    - exists (s - 1), (n mod (s - 1)). clear - S3 S2 Ns Md. split; [reflexivity|]. split; [lia|]. split; [exact Ns|]. split; [|reflexivity].
      set (x := n mod (s - 1)) in *. clearbody x. clear - Md. lia.
    - exists c, d. split; [reflexivity|]. split; [exact C2|]. split; [exact Nc|]. split; [left; exact D|]. intros X. exfalso. rewrite X in L. clear - L D. lia. }
  destruct CD as (c' & d' & -> & C' & Nc' & D' & W). cbv zeta.
  rewrite idiv_pos by (clear - N S3; lia). cbn [bind].
  destruct (Z.ltb_spec 32767 (n / (s - 1 - 1))) as [B|B].
  - exists c'. split; [reflexivity|]. split; [exact C'|]. split; [exact Nc'|]. intros a A An Am.
    destruct (Z.eq_dec a s) as [->|]; [contradiction|]. destruct (Z.eq_dec a (s - 1)) as [->|]; [rewrite W by exact Am; exact Am|].
    exfalso. assert (H : n / (s - 1 - 1) <= n / a) by (apply Z.div_le_compat_l; clear - N S3 A n0 n1; lia).
    apply (Z.lt_irrefl 32767). eapply Z.lt_le_trans; [exact B|]. eapply Z.le_trans; [exact H|exact An].
  - destruct (IH (s - 1) c' d') as (r & R & R1 & R2 & R3); [clear - Fu S3; lia|clear - S2 S3; lia|exact B|exact C'|exact Nc'|exact D'|].
    exists r. split; [exact R|]. split; [exact R1|]. split; [exact R2|]. intros a A An Am.
    destruct (Z.eq_dec a s) as [->|]; [contradiction|]. apply (R3 a); [clear - A n0; lia|exact An|exact Am].
Qed.

(** ** Numbers near a whole number *)

Definition close (v : Q) (n : Z) : Prop := (Qabs (v - inject_Z n) <= 9 # 100000000)%Q.

Lemma close_range v n : close v n -> (inject_Z n - (9 # 100000000) <= v)%Q /\ (v <= inject_Z n + (9 # 100000000))%Q.
Proof. intros H. apply Qabs_Qle_condition in H. lra. Qed.

Lemma qtrunc_pos q n : 0 <= n -> (inject_Z n <= q)%Q -> (q < inject_Z n + 1)%Q -> qtrunc q = n.
Proof.
  intros N A B. unfold qtrunc. destruct q as [p d]. unfold Qle, Qlt in A, B. cbn [Qnum Qden inject_Z Qplus] in *.
  rewrite Z.quot_div_nonneg by nia. symmetry. apply (Z.div_unique _ _ _ (p - n * Z.pos d)); nia.
Qed.

Lemma to_int_pos q n : 0 <= n < 2 ^ 31 -> (inject_Z n <= q)%Q -> (q < inject_Z n + 1)%Q -> to_int (DFin q) = Ok n.
Proof.
  intros N A B. unfold to_int. rewrite (qtrunc_pos q n ltac:(lia) A B). cbv zeta.
  replace (in_sb 32 n) with true by (unfold in_sb; lia). reflexivity.
Qed.

Lemma rnd64_small x : (Qabs x <= 1)%Q -> exists w, rnd64 x = Some w /\ (Qabs (w - x) <= Qabs x * (1 # 2 ^ 53) + (1 # 2 ^ 60))%Q.
Proof.
  intros H. assert (S : exists w, rnd64 x = Some w).
  { apply Qabs_Qle_condition in H. destruct (Qlt_le_dec x 0) as [L|L].
    - destruct (rnd64_err (- x) 1) as (w & E & _); [lia|lra|change (P2 1) with 2%Q; lra|]. exists (- w)%Q. rewrite <- (qopp_opp x), rnd64_opp, E. reflexivity.
    - destruct (rnd64_err x 1) as (w & E & _); [lia|lra|change (P2 1) with 2%Q; lra|]. exists w. exact E. }
  destruct S as (w & E). exists w. split; [exact E|]. now apply rnd64_near.
Qed.

Lemma em7 : exists c, d_1em7 = DFin c /\ (99 # 1000000000 <= c)%Q /\ (c <= 101 # 1000000000)%Q.
Proof. eexists. split; [vm_compute; reflexivity|]. split; vm_compute; discriminate. Qed.

Lemma zq_range n a b : a <= n <= b -> (inject_Z a <= inject_Z n)%Q /\ (inject_Z n <= inject_Z b)%Q.
Proof. intros. rewrite <- !Zle_Qle. lia. Qed.

Lemma round_int v n : 1 <= n < 2 ^ 31 - 1 -> close v n ->
  to_int (dadd (DFin v) dhalf) = Ok n /\ dlt (dabs (dsub (DFin v) (dofz n))) d_1em7 = true.
Proof.
  intros N C. pose proof (close_range v n C) as [C0 C1].
  destruct (zq_range n 1 2147483647 ltac:(lia)) as [N0 N1]. change (inject_Z 1) with 1%Q in N0. change (inject_Z 2147483647) with (2147483647 # 1)%Q in N1.
  split.
  - cbn [dadd dhalf]. destruct (drnd_pos (v + (1 # 2))) as (w & E & _ & W0 & W1); [lra|lra|]. rewrite E. unfold eps in *.
    apply to_int_pos; [lia|lra|lra].
  - destruct (dofz_int n ltac:(lia)) as (u & E & _ & U). rewrite E. unfold dsub. cbn [dopp dadd].
    assert (A : (Qabs (v + - u) <= 9 # 100000000)%Q) by (rewrite U; exact C).
    destruct (rnd64_small (v + - u)%Q ltac:(lra)) as (w & Ew & W). unfold drnd. rewrite Ew.
    destruct em7 as (c & -> & Cl & _).
    assert (B : (Qabs w <= 91 # 1000000000)%Q).
    { apply Qabs_Qle_condition in A, W. apply Qabs_Qle_condition.
      assert (Qabs (v + - u) * (1 # 2 ^ 53) <= (1 # 2 ^ 53))%Q. { pose proof (Qabs_nonneg (v + - u)). apply Qabs_Qle_condition in C. assert (Qabs (v + - u) <= 1)%Q by (apply Qabs_Qle_condition; lra). qlra. }
      qlra. }
    apply Qabs_Qle_condition in B. unfold dabs. destruct (dlt (DFin w) dzero) eqn:L; cbn [dopp]; apply dlt_fin; lra.
Qed.

(** ** Reduction *)

Lemma reduce_small mode v n : 1 <= n <= 32767 -> close v n -> reduce_rate mode (DFin v) = Ok (n, 1).
Proof.
  intros N C. unfold reduce_rate. destruct (round_int v n ltac:(lia) C) as [E1 E2]. rewrite E1. cbn [bind]. rewrite E2.
  replace (n <=? 32767) with true by lia. replace (swrap 16 n) with n; [reflexivity|]. unfold swrap. rewrite Z.mod_small by lia.
  change (2 ^ (16 - 1)) with 32768. replace (n <? 32768) with true by lia. reflexivity.
Qed.

(** The start of the search: the whole part of the square root, or one less for squares. *)
Lemma start_ok v n k : is_double v -> close v n -> 32768 <= n <= 32767 * 32767 -> 0 <= k -> k * k <= n < (k + 1) * (k + 1) ->
  exists s, to_int (ddiv done_ (rsqrt64 (DFin v))) = Ok s /\ k - 1 <= s <= k /\ (k * k < n -> s = k).
Proof.
  intros R C N K0 K. pose proof (close_range v n C) as [C0 C1].
  destruct (zq_range n 32768 1073676289 ltac:(lia)) as [N0 N1]. change (inject_Z 32768) with (32768 # 1)%Q in N0. change (inject_Z 1073676289) with (1073676289 # 1)%Q in N1.
  destruct (root_near v R ltac:(lra) ltac:(lra)) as (w & E & W0 & W1 & W2). rewrite E.
  assert (KB : 181 <= k <= 32767) by nia.
  destruct (zq_range k 181 32767 KB) as [K1 K2]. change (inject_Z 181) with (181 # 1)%Q in K1. change (inject_Z 32767) with (32767 # 1)%Q in K2.
  assert (NK : (inject_Z k * inject_Z k <= inject_Z n)%Q) by (rewrite <- inject_Z_mult, <- Zle_Qle; lia).
  assert (NK1 : (inject_Z n + 1 <= (inject_Z k + 1) * (inject_Z k + 1))%Q).
  { change 1%Q with (inject_Z 1). rewrite <- !inject_Z_plus, <- inject_Z_mult, <- Zle_Qle. lia. }
  set (q := inject_Z n) in *. set (z := inject_Z k) in *.
  (* below the next square *)
  assert (U : (w < z + 1)%Q).
  { destruct (Qlt_le_dec w (z + 1)) as [L|L]; [exact L|]. exfalso.
    assert ((z + 1) * (z + 1) <= w * w)%Q by (apply sq_mono; lra). lra. }
  assert (L : (z - 1 <= w)%Q).
  { destruct (Qlt_le_dec w (z - 1)) as [L|L]; [|exact L]. exfalso.
    assert (w * w <= (z - 1) * (z - 1))%Q by (apply sq_mono; lra). lra. }
  destruct (Qlt_le_dec w z) as [Lt|Ge].
  - assert (IK : (inject_Z (k - 1) == z - 1)%Q) by (unfold Z.sub; rewrite inject_Z_plus; reflexivity).
    exists (k - 1). split; [apply to_int_pos; [lia| |]; rewrite IK; lra|].
    split; [lia|]. intros Kn. exfalso.
    assert (NK2 : (z * z + 1 <= q)%Q). { unfold z, q. change 1%Q with (inject_Z 1). rewrite <- inject_Z_mult, <- inject_Z_plus, <- Zle_Qle. lia. }
    assert (w * w <= z * z)%Q by (apply sq_mono; lra). lra.
  - exists k. split; [apply to_int_pos; [lia|exact Ge|exact U]|]. split; [lia|]. reflexivity.
Qed.

Lemma swrap16 n : 0 <= n <= 32767 -> swrap 16 n = n.
Proof.
  intros N. unfold swrap. rewrite Z.mod_small by lia. change (2 ^ (16 - 1)) with 32768. replace (n <? 32768) with true by lia. reflexivity.
Qed.

Lemma limit_below n k : 32768 <= n < 32764 * 32768 -> k * k <= n < (k + 1) * (k + 1) -> 0 <= k ->
  n / (k - 1) <= 32767 /\ (n = k * k -> n / (k - 2) <= 32767).
Proof.
  intros N K K0. assert (KB : 181 <= k <= 32766) by nia. split.
  - apply Z.lt_succ_r. apply Z.div_lt_upper_bound; [lia|]. destruct (Z_le_gt_dec k 32764); nia.
  - intros ->. apply Z.lt_succ_r. apply Z.div_lt_upper_bound; [lia|]. assert (k <= 32765) by nia. nia.
Qed.

(** The outcome of the search for any whole number in the range tested by the code. *)
Lemma reduce_large mode v n : is_double v -> close v n -> 32768 <= n <= 32767 * 32767 ->
  (exists f mu, reduce_rate mode (DFin v) = Ok (f, mu) /\ 1 <= f <= 32767 /\ 1 <= mu <= 32767 /\ 0 <= n - f * mu < f /\ f * f <= n /\
    (forall a b, n = a * b -> 1 <= a < b -> b <= 32767 -> n < 32764 * 32768 -> f * mu = n))
  \/ (32764 * 32768 <= n /\ reduce_rate mode (DFin v) = Err (-1)).
Proof.
  intros R C N. set (k := Z.sqrt n). pose proof (Z.sqrt_spec n ltac:(lia)) as K. fold k in K. unfold Z.succ in K.
  pose proof (Z.sqrt_nonneg n) as K0. fold k in K0. clearbody k.
  assert (KB : 181 <= k <= 32767) by nia.
  destruct (start_ok v n k R C N K0 K) as (s & E & S1 & S2).
  unfold reduce_rate. destruct (round_int v n ltac:(lia) C) as [E1 E2]. rewrite E1. cbn [bind]. rewrite E2.
  replace (n <=? 32767) with false by lia. replace (n <=? 32767 * 32767) with true by lia. rewrite E. cbn [bind].
  assert (F : exists r, factor_loop (S (Z.to_nat s)) n s s s = Ok r /\ 1 <= r <= s /\
    (n / r <= 32767 \/ 32764 * 32768 <= n) /\ (n < 32764 * 32768 -> forall a, 1 <= a <= s -> n / a <= 32767 -> n mod a = 0 -> n mod r = 0)).
  { destruct (Z_le_gt_dec (n / (s - 1)) 32767) as [L|G].
    - assert (Ls : n / s <= 32767). { eapply Z.le_trans; [|exact L]. apply Z.div_le_compat_l; clear - N S1 KB; lia. }
      destruct (search_ok n s ltac:(lia) (S (Z.to_nat s)) s s s) as (r & E3 & R1 & R2 & R3); [lia|lia|exact L|lia|exact Ls|left; lia|].
      exists r. split; [exact E3|]. split; [exact R1|]. split; [left; exact R2|]. intros _. exact R3.
    - assert (Big : 32764 * 32768 <= n).
      { destruct (Z_lt_le_dec n (32764 * 32768)) as [Lt|]; [|assumption]. exfalso. destruct (limit_below n k) as [B1 B2]; [lia|lia|lia|].
        destruct (Z.eq_dec s k) as [->|Ns]; [clear - G B1; lia|].
        assert (s = k - 1) by (clear - S1 Ns; lia). subst s. replace (k - 1 - 1) with (k - 2) in G by lia.
        assert (n = k * k) by (clear - K S2 Ns; lia). specialize (B2 H). clear - G B2. lia. }
      cbn [factor_loop]. rewrite irem_pos by (clear - N S1 KB; lia). cbn [bind]. destruct (n mod s =? 0) eqn:Z0.
      + exists s. split; [reflexivity|]. split; [lia|]. split; [right; exact Big|]. intros. clear - Z0. lia.
      + rewrite idiv_pos by (clear - N S1 KB; lia). cbn [bind].
        set (cd := if _ <? s then (s - 1, n - (s - 1) * (n / (s - 1))) else (s, s)).
        assert (CD : exists c d, cd = (c, d) /\ s - 1 <= c <= s). { unfold cd. destruct (_ <? s); eexists; eexists; split; [reflexivity|lia|reflexivity|lia]. }
        destruct CD as (c & d & -> & Hc). cbv zeta. rewrite idiv_pos by (clear - N S1 KB; lia). cbn [bind].
        assert (Q : 32767 < n / (s - 1 - 1)). { eapply Z.lt_le_trans; [apply Z.gt_lt; exact G|]. apply Z.div_le_compat_l; clear - N S1 KB; lia. }
        replace (32767 <? n / (s - 1 - 1)) with true by (symmetry; apply Z.ltb_lt; exact Q).
        exists c. split; [reflexivity|]. split; [lia|]. split; [right; exact Big|]. intros. exfalso. clear - Big H. lia. }
  destruct F as (r & E3 & R1 & R2 & R3). rewrite E3. cbn [bind]. rewrite idiv_pos by (clear - N R1; lia). cbn [bind].
  replace (r <=? 32767) with true by (clear - R1 S1 KB; lia). cbn [andb].
  destruct (n / r <=? 32767) eqn:L.
  - left. assert (L' : n / r <= 32767) by (now apply Z.leb_le). 
    assert (Q1 : 1 <= n / r). { apply Z.div_le_lower_bound; [lia|]. clear - N R1 S1 KB; lia. }
    pose proof (Z.mod_pos_bound n r ltac:(lia)) as MB. pose proof (Z.div_mod n r ltac:(lia)) as DM.
    exists r, (n / r). rewrite !swrap16 by (clear - L' Q1 R1 S1 KB; lia). split; [reflexivity|]. split; [clear - R1 S1 KB; lia|]. split; [clear - L' Q1; lia|].
    assert (X : forall a b, n = a * b -> 1 <= a < b -> b <= 32767 -> n < 32764 * 32768 -> n mod r = 0).
    { intros a b Nab AB B Small.
      assert (As : 1 <= a <= s).
      { clear - K S1 S2 Nab AB KB. assert (a <= s); [|lia]. destruct (Z.eq_dec s k) as [->|Ns]; [nia|]. assert (n = k * k) by lia. nia. }
      assert (Dv : n / a = b) by (rewrite Nab, Z.mul_comm; apply Z.div_mul; lia).
      assert (Mv : n mod a = 0) by (rewrite Nab, Z.mul_comm; apply Z.mod_mul; lia).
      apply (R3 Small a As); [rewrite Dv; exact B|exact Mv]. }
    set (qq := n / r) in *. set (mm := n mod r) in *. clearbody qq mm. split; [clear - DM MB; lia|]. split; [clear - R1 S1 K; nia|].
    intros a b Nab AB B Small. specialize (X a b Nab AB B Small). clear - X DM. lia.
  - right. split; [|reflexivity]. destruct R2 as [R2|R2]; [|exact R2]. apply Z.leb_le in R2. congruence.
Qed.
