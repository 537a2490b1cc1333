(** * Sample times: proofs. *)

From Coq Require Import Lqa Psatz.
From Verif Require Import BaseLemmas FloatLemmas FloatOpsProof.
From Verif Require Export SampleModel SampleSpec.
Open Scope Z_scope.

Definition eps : Q := 1 # 9007199254740992.
Definition tiny : Q := 1 # 10000000000000000000000000000000000000000.

Lemma P2_53 : (P2 (-53) == eps)%Q.
Proof. reflexivity. Qed.

Lemma P2_tiny : (P2 (-1075) <= tiny)%Q.
Proof. vm_compute. discriminate. Qed.

(** One rounding. *)
Lemma rnd_bound x : (0 <= x)%Q -> (x < P2 1000)%Q ->
  exists v, rnd64 x = Some v /\ (x * (1 - eps) - tiny <= v <= x * (1 + eps) + tiny)%Q.
Proof.
  intros H0 H1.
  assert (T : (0 < tiny)%Q) by reflexivity. 
  destruct (Qlt_le_dec x (P2 (-1021))) as [Hx|Hx].
  - destruct (rnd64_err x (-1021)) as (v & E & V & [A B]); [lia|exact H0|exact Hx|]. exists v. split; [exact E|].
    pose proof P2_tiny as PT. change (-1021 - 54) with (-1075) in A, B. set (p := P2 (-1075)) in *. clearbody p.
    unfold eps. split; lra.
  - destruct (rnd64_rel x) as (v & E & A & B).
    + pose proof (P2_le (-1022) (-1021) ltac:(lia)). lra.
    + pose proof (P2_le 1000 1023 ltac:(lia)). lra.
    + exists v. split; [exact E|]. rewrite P2_53 in A, B. unfold eps in *. split; lra.
Qed.

Lemma P2_1000 : (inject_Z (2 ^ 200) <= P2 1000)%Q.
Proof. change (inject_Z (2 ^ 200)) with (P2 200). apply P2_le. lia. Qed.

Lemma trunc_bounds d : (0 <= d)%Q -> (inject_Z (qtrunc d) <= d < inject_Z (qtrunc d) + 1)%Q.
Proof.
  intros H. destruct d as [n d]. unfold qtrunc, Qle in *. cbn [Qnum Qden] in *.
  assert (0 <= n) by lia. rewrite Z.quot_div_nonneg by lia.
  pose proof (Z.div_mod n (Zpos d) ltac:(lia)). pose proof (Z.mod_pos_bound n (Zpos d) ltac:(lia)).
  unfold Qlt, inject_Z, Qplus. cbn [Qnum Qden]. split; nia.
Qed.

Lemma near_int z s : near_span z s <-> (s - (1 # 2) - (s + 1) * (1 # 1125899906842624) <= inject_Z z <= s + (1 # 2) + (s + 1) * (1 # 1125899906842624))%Q.
Proof. unfold near_span. rewrite Qabs_Qle_condition. split; intros [A B]; split; lra. Qed.

(** The double expression for a period [p] in seconds (exact rational). *)
Lemma span_chain n p (b : dbl) a : 0 < n < 2 ^ 63 -> (0 < p)%Q -> (inject_Z n * p * inject_Z 1000000000 <= inject_Z (2 ^ 61))%Q ->
  dofz n = DFin a -> (exists x, (x == a * p)%Q /\ b = drnd x) ->
  exists z, to_int64 (dadd (dmul b d1e9) dhalf) = Ok z /\ near_span z (inject_Z n * p * inject_Z 1000000000) /\ 0 <= z < 2 ^ 62.
Proof.
  intros Hn Hp HS Ea (x & Ex & ->).
  assert (N1 : (1 <= inject_Z n)%Q) by (change 1%Q with (inject_Z 1); rewrite <- zq_le; lia).
  assert (N2 : (inject_Z n < inject_Z (2 ^ 63))%Q) by (rewrite <- zq_lt; lia).
  pose proof P2_1000 as Pb.
  destruct (rnd_bound (inject_Z n)) as (a' & E & A1 & A2); [lra|change (inject_Z (2 ^ 200)) with (1606938044258990275541962092341162602522202993782792835301376 # 1) in Pb; change (inject_Z (2 ^ 63)) with (9223372036854775808 # 1) in N2; lra|].
  unfold dofz, drnd in Ea. rewrite E in Ea. injection Ea as ->.
  set (X := (inject_Z n * p)%Q) in *.
  assert (X0 : (0 < X)%Q) by (subst X; nra).
  assert (AX : (X * (1 - 2 * eps) <= a * p <= X * (1 + 2 * eps))%Q).
  { subst X. assert (L : (inject_Z n * (1 - 2 * eps) <= a)%Q) by (unfold eps, tiny in *; lra).
    assert (U : (a <= inject_Z n * (1 + 2 * eps))%Q) by (unfold eps, tiny in *; lra).
    apply (Qmult_le_compat_r _ _ p) in L; [|lra]. apply (Qmult_le_compat_r _ _ p) in U; [|lra]. split; lra. }
  clear A1 A2 N1 N2. rewrite <- Ex in AX. clear Ex.
  change (inject_Z (2 ^ 200)) with (1606938044258990275541962092341162602522202993782792835301376 # 1) in Pb.
  change (inject_Z (2 ^ 61)) with (2305843009213693952 # 1) in HS. change (inject_Z 1000000000) with (1000000000 # 1) in *.
  destruct AX as [AX1 AX2]. clearbody X.
  destruct (rnd_bound x) as (v & Ev & V1 & V2); [unfold eps in *; lra|unfold eps in *; lra|].
  unfold drnd at 1. rewrite Ev. unfold dmul, d1e9, NSTMODULUS. change (inject_Z 1000000000) with (1000000000 # 1).
  assert (V0 : (- tiny <= v)%Q) by (unfold eps, tiny in *; lra).
  assert (Vp : (0 <= v)%Q).
  { destruct (Qlt_le_dec x (P2 1000)) as [Hx|Hx]; [|unfold eps in *; lra]. 
    destruct (Qlt_le_dec x (P2 1)) as [Hy|Hy].
    - destruct (rnd64_err x 1) as (v' & Ev' & V' & _); [lia|unfold eps in *; lra|exact Hy|]. rewrite Ev in Ev'. injection Ev' as ->. exact V'.
    - change (P2 1) with (2 # 1) in Hy. unfold eps, tiny in *. lra. }
  destruct (rnd_bound (v * (1000000000 # 1))) as (c & Ec & C1 & C2); [lra|unfold eps, tiny in *; lra|].
  unfold drnd at 1. rewrite Ec. unfold dadd, dhalf.
  destruct (rnd_bound (c + (1 # 2))) as (d & Ed & D1 & D2); [unfold eps, tiny in *; lra|unfold eps, tiny in *; lra|].
  unfold drnd. rewrite Ed. unfold to_int64.
  assert (D0 : (0 <= d)%Q) by (unfold eps, tiny in *; lra).
  pose proof (trunc_bounds d D0) as [T1 T2]. set (z := qtrunc d) in *. clearbody z.
  assert (Z2 : (inject_Z z < inject_Z (2 ^ 62))%Q) by (change (inject_Z (2 ^ 62)) with (4611686018427387904 # 1); unfold eps, tiny in *; lra).
  assert (Z1 : (inject_Z (-1) < inject_Z z)%Q) by (change (inject_Z (-1)) with (-1 # 1); unfold eps, tiny in *; lra).
  rewrite <- zq_lt in Z1, Z2.
  assert (Sb : in_sb 64 z = true) by (unfold in_sb; lia). rewrite Sb. exists z. split; [reflexivity|].
  split; [|lia]. apply near_int. unfold eps, tiny in *. split; lra.
Qed.

Lemma dlt_zero q : dlt dzero (DFin q) = (0 <? Qnum q).
Proof.
  unfold dlt, dzero, Qle_bool. cbn [Qnum Qden]. destruct (0 <? Qnum q) eqn:E.
  - replace (Qnum q * 1 <=? 0 * Z.pos (Qden q)) with false by lia. reflexivity.
  - replace (Qnum q * 1 <=? 0 * Z.pos (Qden q)) with true by lia. reflexivity.
Qed.

Lemma dlt_zero' q : dlt (DFin q) dzero = (Qnum q <? 0).
Proof.
  unfold dlt, dzero, Qle_bool. cbn [Qnum Qden]. destruct (Qnum q <? 0) eqn:E.
  - replace (0 * Z.pos (Qden q) <=? Qnum q * 1) with false by lia. reflexivity.
  - replace (0 * Z.pos (Qden q) <=? Qnum q * 1) with true by lia. reflexivity.
Qed.

Lemma near_span_comp z s s' : (s == s')%Q -> near_span z s -> near_span z s'.
Proof. intros E. rewrite !near_int. now rewrite E. Qed.

Lemma span_ok n rate q : dval rate = DFin q -> Qnum q <> 0 -> 0 <= n < 2 ^ 63 ->
  (exact_span n q <= inject_Z (2 ^ 61))%Q ->
  exists z, sample_span n rate = Ok z /\ near_span z (exact_span n q) /\ 0 <= z < 2 ^ 62.
Proof.
  intros Hr Hq Hn HS. unfold sample_span. rewrite Hr.
  destruct (0 <? n) eqn:N.
  2:{ assert (n = 0) by lia. subst n. exists 0. split; [reflexivity|]. split; [|lia].
      apply (near_span_comp _ 0%Q); [unfold exact_span; change (inject_Z 0) with 0%Q; now rewrite Qmult_0_l|]. apply near_int. split; discriminate. }
  destruct (rnd_bound (inject_Z n)) as (a & Ea & _).
  { change 0%Q with (inject_Z 0). rewrite <- zq_le. lia. }
  { pose proof P2_1000 as Pb. assert (inject_Z n < inject_Z (2 ^ 200))%Q by (rewrite <- zq_lt; lia). lra. }
  assert (Da : dofz n = DFin a) by (unfold dofz, drnd; now rewrite Ea).
  unfold exact_span, period_ns in *. rewrite dlt_zero, dlt_zero', Da. destruct (0 <? Qnum q) eqn:Pq.
  - assert (Q0 : (0 < q)%Q) by (unfold Qlt; cbn; lia).
    assert (Q1 : (0 < / q)%Q) by now apply Qinv_lt_0_compat.
    assert (R : (inject_Z n * (inject_Z 1000000000 / q) == inject_Z n * / q * inject_Z 1000000000)%Q) by (unfold Qdiv; ring).
    rewrite R in HS.
    destruct (span_chain n (/ q) (ddiv (DFin a) (DFin q)) a ltac:(lia) Q1 HS Da) as (z & E & Nr & B).
    { exists (a / q)%Q. split; [reflexivity|]. unfold ddiv, qzero. replace (Qnum q =? 0) with false by lia. reflexivity. }
    exists z. split; [exact E|]. split; [|exact B]. eapply near_span_comp; [symmetry; exact R|exact Nr].
  - replace (Qnum q <? 0) with true by lia.
    assert (Q0 : (0 < - q)%Q) by (unfold Qlt; cbn; lia).
    assert (R : (inject_Z n * (- q * inject_Z 1000000000) == inject_Z n * - q * inject_Z 1000000000)%Q) by ring.
    rewrite R in HS.
    destruct (span_chain n (- q) (dmul (DFin a) (dopp (DFin q))) a ltac:(lia) Q0 HS Da) as (z & E & Nr & B).
    { exists (a * - q)%Q. split; reflexivity. }
    exists z. split; [exact E|]. split; [|exact B]. eapply near_span_comp; [symmetry; exact R|exact Nr].
Qed.

(** A span that is a whole number of nanoseconds, below 2^48, is computed exactly. *)
Lemma near_exact z k s : near_span z s -> (s == inject_Z k)%Q -> 0 <= k < 2 ^ 48 -> z = k.
Proof.
  intros H E Hk. apply near_int in H. rewrite E in H. destruct H as [A B].
  assert (K : (inject_Z k < inject_Z (2 ^ 48))%Q) by (rewrite <- zq_lt; lia). change (inject_Z (2 ^ 48)) with (281474976710656 # 1) in K.
  assert (K0 : (inject_Z 0 <= inject_Z k)%Q) by (rewrite <- zq_le; lia). change (inject_Z 0) with 0%Q in K0.
  assert (Z1 : (inject_Z (k - 1) < inject_Z z)%Q) by (unfold Zminus; rewrite inject_Z_plus; change (inject_Z (-(1))) with (-1 # 1); lra).
  assert (Z2 : (inject_Z z < inject_Z (k + 1))%Q) by (rewrite inject_Z_plus; change (inject_Z 1) with (1 # 1); lra).
  rewrite <- zq_lt in Z1, Z2. lia.
Qed.

(** ** Leap seconds *)

Lemma adjust_none mode leaps t span : - 2 ^ 62 <= t <= 2 ^ 62 -> 0 <= span < 2 ^ 62 -> Forall (fun l => ~ inside t span l) leaps ->
  leap_adjust mode leaps t span = Ok span.
Proof.
  intros Ht Hs F. induction F as [|l ls Hl _ IH]; cbn [leap_adjust]; [reflexivity|]. unfold inside in Hl.
  destruct (t <? l) eqn:E; [|exact IH].
  rewrite sarith_ok by (unfold in_s; lia). cbn [bind]. unfold NSTMODULUS. rewrite sarith_ok by (unfold in_s; lia). cbn [bind].
  replace (l <=? t + span - 1000000000) with false by lia. exact IH.
Qed.

Lemma adjust_some mode leaps t span : - 2 ^ 62 <= t <= 2 ^ 62 -> 0 <= span < 2 ^ 62 -> Exists (inside t span) leaps ->
  leap_adjust mode leaps t span = Ok (span - 1000000000).
Proof.
  intros Ht Hs. induction leaps as [|l ls IH]; intros F; cbn [leap_adjust]; [inversion F|].
  destruct (t <? l) eqn:E.
  - rewrite sarith_ok by (unfold in_s; lia). cbn [bind]. unfold NSTMODULUS. rewrite sarith_ok by (unfold in_s; lia). cbn [bind].
    destruct (l <=? t + span - 1000000000) eqn:E2.
    + rewrite sarith_ok by (unfold in_s; lia). reflexivity.
    + apply IH. inversion F as [? ? Q|? ? Q]; subst; [unfold inside in Q; lia|exact Q].
  - apply IH. inversion F as [? ? Q|? ? Q]; subst; [unfold inside in Q; lia|exact Q].
Qed.

Lemma sampletime_none mode leaps t n rate q : dval rate = DFin q -> Qnum q <> 0 -> 0 <= n < 2 ^ 63 ->
  (exact_span n q <= inject_Z (2 ^ 61))%Q -> - 2 ^ 62 <= t <= 2 ^ 62 ->
  exists z, near_span z (exact_span n q) /\ 0 <= z < 2 ^ 62 /\
    (Forall (fun l => ~ inside t z l) leaps -> sampletime mode leaps t n rate = Ok (t + z)) /\
    (Exists (inside t z) leaps -> sampletime mode leaps t n rate = Ok (t + z - 1000000000)).
Proof.
  intros Hr Hq Hn HS Ht. destruct (span_ok n rate q Hr Hq Hn HS) as (z & E & Nz & B).
  exists z. split; [exact Nz|]. split; [exact B|]. unfold sampletime. rewrite E. cbn [bind]. split; intros F.
  - rewrite adjust_none by assumption. cbn [bind]. rewrite sarith_ok by (unfold in_s; lia). reflexivity.
  - rewrite adjust_some by assumption. cbn [bind]. rewrite sarith_ok by (unfold in_s; lia). f_equal. lia.
Qed.

Lemma count_zero t z leaps : count_inside t z leaps = 0 -> Forall (fun l => ~ inside t z l) leaps.
Proof.
  unfold count_inside. intros H. induction leaps as [|l ls IH]; [constructor|]. cbn [filter] in H.
  destruct ((t <? l) && (l + 1000000000 <=? t + z)) eqn:E; [cbn [length] in H; lia|].
  constructor; [unfold inside; lia|now apply IH].
Qed.

Lemma count_pos t z leaps : 0 < count_inside t z leaps -> Exists (inside t z) leaps.
Proof.
  unfold count_inside. intros H. induction leaps as [|l ls IH]; [cbn in H; lia|]. cbn [filter] in H.
  destruct ((t <? l) && (l + 1000000000 <=? t + z)) eqn:E; [apply Exists_cons_hd; unfold inside; lia|].
  apply Exists_cons_tl. now apply IH.
Qed.

Lemma count_nonneg t z leaps : 0 <= count_inside t z leaps.
Proof. unfold count_inside. lia. Qed.

Lemma sampletime_ok mode leaps t n rate q : dval rate = DFin q -> Qnum q <> 0 -> 0 <= n < 2 ^ 63 ->
  (exact_span n q <= inject_Z (2 ^ 61))%Q -> - 2 ^ 62 <= t <= 2 ^ 62 ->
  exists z, near_span z (exact_span n q) /\ 0 <= z < 2 ^ 62 /\
    sampletime mode leaps t n rate = Ok (t + z - Z.min 1 (count_inside t z leaps) * 1000000000).
Proof.
  intros Hr Hq Hn HS Ht. destruct (sampletime_none mode leaps t n rate q Hr Hq Hn HS Ht) as (z & A & B & C & D).
  exists z. split; [exact A|]. split; [exact B|]. pose proof (count_nonneg t z leaps).
  destruct (Z.eq_dec (count_inside t z leaps) 0) as [E|E].
  - rewrite E. change (Z.min 1 0) with 0. rewrite C by now apply count_zero. f_equal. lia.
  - rewrite Z.min_l by lia. rewrite D by (apply count_pos; lia). reflexivity.
Qed.

(** Never before the start. *)
Lemma sampletime_ge t z leaps : 0 <= z -> t <= t + z - Z.min 1 (count_inside t z leaps) * 1000000000.
Proof.
  intros Hz. pose proof (count_nonneg t z leaps). destruct (Z.eq_dec (count_inside t z leaps) 0) as [E|E].
  - rewrite E. change (Z.min 1 0) with 0. lia.
  - assert (X : Exists (inside t z) leaps) by (apply count_pos; lia). apply Exists_exists in X as (l & _ & Hl).
    unfold inside in Hl. lia.
Qed.

Lemma exact_span_mono n n' q : Qnum q <> 0 -> 0 <= n <= n' -> (exact_span n q <= exact_span n' q)%Q.
Proof.
  intros Hq Hn. unfold exact_span. assert (P : (0 <= period_ns q)%Q).
  { unfold period_ns. destruct (0 <? Qnum q) eqn:E.
    - assert (0 < q)%Q by (unfold Qlt; cbn; lia). pose proof (Qinv_lt_0_compat q H). unfold Qdiv. change (inject_Z 1000000000) with (1000000000 # 1). nra.
    - assert (0 < - q)%Q by (unfold Qlt; cbn; lia). change (inject_Z 1000000000) with (1000000000 # 1). nra. }
  apply Qmult_le_compat_r; [|exact P]. rewrite <- zq_le. lia.
Qed.

Lemma exact_span_0 q : (exact_span 0 q == 0)%Q.
Proof. unfold exact_span. change (inject_Z 0) with 0%Q. apply Qmult_0_l. Qed.

Lemma count_inside_0 t leaps : count_inside t 0 leaps = 0.
Proof.
  unfold count_inside. induction leaps as [|l ls IH]; [reflexivity|]. cbn [filter].
  destruct ((t <? l) && (l + 1000000000 <=? t + 0)) eqn:E; [lia|exact IH].
Qed.
