(** * Records of a segment in time. *)

From Coq Require Import Permutation Lqa Psatz.
From Verif Require Import Base BaseLemmas RecProof FloatLemmas FloatOpsProof SampleProof TlModel TlSpec TlHeap TlSegs TlMade TlProof.
Open Scope Z_scope.

Lemma calc_ntol f r e c : calc_of f r e = Ok c -> f_mode f = Strict -> c_ntol c = - c_tol c.
Proof.
  unfold calc_of. destruct (nsperiod (r_rate r)) as [p| | |]; cbn; try discriminate.
  destruct (match f_ttol f with Some x => _ | None => _ end) as [tol| | |]; cbn; try discriminate.
  destruct (Z.eqb_spec tol 0) as [->|H]; cbn.
  - intro E; injection E as <-. reflexivity.
  - destruct (sarith (f_mode f) 64 (- tol)) as [v| | |] eqn:Es; cbn; try discriminate. intro E; injection E as <-. intro M.
    apply sarith_mod in Es. cbn. apply Es. exact M.
Qed.

Lemma follows_narrow f x y : f_mode f = Strict -> follows f x y -> narrow f x -> narrow f y -> snd x <= r_start (fst y).
Proof.
  intros M (c & Hc & _ & H) [_ N1] [_ N2]. specialize (H M).
  assert (c_tol c <= c_period c /\ c_ntol c = - c_tol c); [|lia].
  destruct Hc as [Hc|Hc]; (split; [auto|eapply calc_ntol; eassumption]).
Qed.

(** Later records of a linked list start after the end of earlier ones. *)
Lemma linked_narrow f : forall L x, f_mode f = Strict -> linked f (x :: L) -> Forall (narrow f) (x :: L) ->
  Forall (fun y => snd x <= r_start (fst y)) L.
Proof.
  induction L as [|y L IH]; intros x M HL HN; [constructor|]. destruct HL as [HL1 HL2]. inversion HN as [|? ? N1 N2]; subst. inversion N2 as [|? ? N3 N4]; subst.
  pose proof (follows_narrow f x y M HL1 N1 N3) as H. constructor; [exact H|].
  eapply Forall_impl; [|exact (IH y M HL2 N2)]. cbn. intros z Hz. destruct N3 as [N3 _]. lia.
Qed.

Lemma linked_tail f : forall L1 L2, linked f (L1 ++ L2) -> linked f L2.
Proof. induction L1 as [|x L1 IH]; cbn; [auto|]. intros L2 [_ H]. auto. Qed.

Lemma made_covers f s L : f_mode f = Strict -> made f s L -> Forall (narrow f) L ->
  Forall (fun x => s_start s <= r_start (fst x) /\ snd x <= s_end s) L.
Proof.
  intros M H HN. pose proof (md_linked _ _ _ H) as HL. apply Forall_forall. intros x Hx. split.
  - destruct (md_start _ _ _ H) as (u & L' & EL & ->). rewrite EL in *. destruct Hx as [->|Hx]; [lia|].
    pose proof (linked_narrow f L' u M HL HN) as Q. rewrite Forall_forall in Q. specialize (Q x Hx).
    inversion HN as [|? ? [N1 _] _]; subst. lia.
  - destruct (md_end _ _ _ H) as (L' & u & EL & ->). rewrite EL in *. apply in_app_iff in Hx. destruct Hx as [Hx|[<-|[]]]; [|lia].
    destruct (in_split _ _ Hx) as (l1 & l2 & E). rewrite E, <- app_assoc in HL, HN. apply linked_tail in HL. apply Forall_app in HN. destruct HN as [_ HN].
    cbn [app] in HL, HN. pose proof (linked_narrow f _ x M HL HN) as Q. rewrite Forall_forall in Q.
    specialize (Q u (in_or_app l2 [u] u (or_intror (in_eq u [])))).
    assert (In u (x :: l2 ++ [u])) as Hu by (right; apply in_or_app; right; left; reflexivity).
    rewrite Forall_forall in HN. destruct (HN u Hu) as [N _]. lia.
Qed.

Lemma made_extremes f t segs gs : f_mode f = Strict -> Forall2 (made f) segs gs -> Forall (narrow f) (concat gs) -> about f t (concat gs) ->
  extremes t segs.
Proof.
  intros M F HN (A1 & _ & (y & Hy & Ey) & (z & Hz & Ez)).
  assert (C : forall x, In x (concat gs) -> exists s, In s segs /\ s_start s <= r_start (fst x) /\ snd x <= s_end s).
  { clear -M F HN. induction F as [|s g segs gs H F IH]; cbn; intros x Hx; [contradiction|]. cbn in HN. apply Forall_app in HN. destruct HN as [N1 N2].
    apply in_app_iff in Hx. destruct Hx as [Hx|Hx].
    - exists s. split; [auto|]. pose proof (made_covers f s g M H N1) as Q. rewrite Forall_forall in Q. auto.
    - destruct (IH N2 x Hx) as (s' & H1 & H2). exists s'. auto. }
  assert (B : Forall (fun s => t_early t <= s_start s /\ s_end s <= t_late t) segs).
  { apply (made_bounds f segs gs (fun v => t_early t <= v) (fun v => v <= t_late t) F). eapply Forall_impl; [|exact A1]. cbn. tauto. }
  split; [|split; [|exact B]].
  - destruct (C y Hy) as (s & Hs & H1 & _). exists s. split; [exact Hs|]. rewrite Forall_forall in B. specialize (B s Hs). lia.
  - destruct (C z Hz) as (s & Hs & _ & H1). exists s. split; [exact Hs|]. rewrite Forall_forall in B. specialize (B s Hs). lia.
Qed.

(** ** Ordinary records *)

Lemma round_chain X : (0 <= X)%Q -> (X <= inject_Z (2 ^ 60))%Q ->
  exists z, to_int64 (dadd (drnd X) dhalf) = Ok z /\ near_span z X /\ 0 <= z <= 2 ^ 61.
Proof.
  intros X0 X1. pose proof P2_1000 as Pb.
  change (inject_Z (2 ^ 200)) with (1606938044258990275541962092341162602522202993782792835301376 # 1) in Pb.
  change (inject_Z (2 ^ 60)) with (1152921504606846976 # 1) in X1.
  destruct (rnd_bound X) as (a & Ea & A1 & A2); [exact X0|lra|].
  unfold eps, tiny in *.
  unfold drnd at 1. rewrite Ea. unfold dhalf, dadd, drnd.
  destruct (Qlt_le_dec a 0) as [An|An].
  { (* a rounding of a nonnegative value is nonnegative *) exfalso.
    destruct (Qlt_le_dec X (1 # 1000)) as [C|C]; [|lra].
    destruct (rnd64_err X 0) as (v & Ev & V0 & _); [lia|exact X0|change (P2 0) with 1%Q; lra|]. rewrite Ea in Ev. injection Ev as ->. lra. }
  destruct (rnd_bound (a + (1 # 2))) as (b & Eb & B1 & B2); [lra|lra|].
  unfold eps, tiny in *.
  rewrite Eb. unfold to_int64.
  assert (B0 : (0 <= b)%Q) by lra.
  pose proof (trunc_bounds b B0) as [T1 T2]. set (z := qtrunc b) in *. clearbody z.
  assert (Z0 : 0 <= z). { assert (-1 < z); [|lia]. rewrite zq_lt. change (inject_Z (-1)) with (-1 # 1). lra. }
  assert (Z1 : z <= 2 ^ 61). { rewrite zq_le. change (inject_Z (2 ^ 61)) with (2305843009213693952 # 1). lra. }
  replace (in_sb 64 z) with true by (symmetry; apply in_sb_spec; unfold in_s; lia).
  exists z. split; [reflexivity|]. split; [|lia]. apply near_int. split; lra.
Qed.

Lemma period_ok rate q : dval rate = DFin q -> Qnum q <> 0 -> (period_ns q <= inject_Z 900000000000000000)%Q ->
  exists z, nsperiod rate = Ok z /\ near_span z (period_ns q) /\ 0 <= z <= 1000000000000000000.
Proof.
  intros Hr Hq HB. unfold nsperiod. rewrite Hr, dlt_zero, dlt_zero'. unfold period_ns in *.
  assert (Q : exists X, (0 <= X)%Q /\ (X == (if 0 <? Qnum q then inject_Z 1000000000 / q else - q * inject_Z 1000000000))%Q /\
     (if 0 <? Qnum q then to_int64 (dadd (ddiv d1e9 (DFin q)) dhalf)
      else if Qnum q <? 0 then to_int64 (dadd (dmul d1e9 (dopp (DFin q))) dhalf) else Ok 0) = to_int64 (dadd (drnd X) dhalf)).
  { destruct (0 <? Qnum q) eqn:E.
    - exists (inject_Z 1000000000 / q)%Q. split; [|split; [reflexivity|]].
      + assert (0 < q)%Q by (unfold Qlt; cbn; lia). pose proof (Qinv_lt_0_compat q H). unfold Qdiv. change (inject_Z 1000000000) with (1000000000 # 1). nra.
      + unfold d1e9, ddiv, qzero. replace (Qnum q =? 0) with false by lia. reflexivity.
    - replace (Qnum q <? 0) with true by lia. exists (inject_Z 1000000000 * - q)%Q. split; [|split; [ring|reflexivity]].
      assert (0 < - q)%Q by (unfold Qlt; cbn; lia). change (inject_Z 1000000000) with (1000000000 # 1). nra. }
  destruct Q as (X & X0 & XE & ->). rewrite <- XE in HB.
  assert (X1 : (X <= inject_Z (2 ^ 60))%Q). { change (inject_Z (2 ^ 60)) with (1152921504606846976 # 1). change (inject_Z 900000000000000000) with (900000000000000000 # 1) in HB. lra. }
  destruct (round_chain X X0 X1) as (z & E & N & B). exists z. split; [exact E|]. split; [eapply near_span_comp; eassumption|].
  apply near_int in N. split; [lia|]. rewrite zq_le. change (inject_Z 900000000000000000) with (900000000000000000 # 1) in HB.
  change (inject_Z 1000000000000000000) with (1000000000000000000 # 1). lra.
Qed.

Lemma half_ok z : 0 <= z <= 1000000000000000000 ->
  exists tol, to_int64 (dmul dhalf (dofz z)) = Ok tol /\ 0 <= tol <= z /\ (z <= 2 ^ 50 -> z - 3 <= 2 * tol <= z + 1).
Proof.
  intro Hz. destruct (Z.eq_dec z 0) as [->|Hz0].
  { exists 0. split; [vm_compute; reflexivity|]. lia. }
  pose proof P2_1000 as Pb.
  change (inject_Z (2 ^ 200)) with (1606938044258990275541962092341162602522202993782792835301376 # 1) in Pb.
  assert (Z1 : (1 <= inject_Z z)%Q) by (change 1%Q with (inject_Z 1); rewrite <- zq_le; lia).
  assert (Z2 : (inject_Z z <= 1000000000000000000 # 1)%Q) by (change (1000000000000000000 # 1)%Q with (inject_Z 1000000000000000000); rewrite <- zq_le; lia).
  destruct (rnd_bound (inject_Z z)) as (a & Ea & A1 & A2); [lra|lra|].
  unfold dofz. unfold drnd at 1. rewrite Ea. unfold dhalf, dmul, drnd. unfold eps, tiny in *.
  destruct (rnd_bound ((1 # 2) * a)) as (b & Eb & B1 & B2); [lra|lra|].
  unfold eps, tiny in *.
  rewrite Eb. unfold to_int64.
  assert (B0 : (0 <= b)%Q) by lra.
  pose proof (trunc_bounds b B0) as [T1 T2]. set (t := qtrunc b) in *. clearbody t.
  assert (Y0 : 0 <= t). { assert (-1 < t); [|lia]. rewrite zq_lt. change (inject_Z (-1)) with (-1 # 1). lra. }
  assert (Y1 : t <= z). { rewrite zq_le. lra. }
  replace (in_sb 64 t) with true by (symmetry; apply in_sb_spec; unfold in_s; lia).
  exists t. split; [reflexivity|]. split; [lia|]. intro Hs.
  assert (Z3 : (inject_Z z <= 1125899906842624 # 1)%Q) by (change (1125899906842624 # 1)%Q with (inject_Z (2 ^ 50)); rewrite <- zq_le; lia).
  assert (U : (inject_Z (2 * t) == 2 * inject_Z t)%Q) by (rewrite inject_Z_mult; reflexivity).
  split.
  - assert (z - 4 < 2 * t); [|lia]. rewrite zq_lt, U. unfold Z.sub. rewrite inject_Z_plus. change (inject_Z (- (4))) with (-4 # 1). lra.
  - assert (2 * t < z + 2); [|lia]. rewrite zq_lt, U. rewrite inject_Z_plus. change (inject_Z 2) with (2 # 1). lra.
Qed.

Lemma ordinary_end f r : ordinary r -> exists e, rec_end f r = Ok e /\ r_start r <= e <= 4000000000000000000.
Proof.
  intros (q & Hq & Hn & HP & HS & Ht & Hc). unfold rec_end, endtime.
  assert (HS2 : (exact_span (if 0 <? r_cnt r then r_cnt r - 1 else 0) q <= inject_Z (2 ^ 61))%Q).
  { change (inject_Z (2 ^ 61)) with (2305843009213693952 # 1). change (inject_Z 900000000000000000) with (900000000000000000 # 1) in HS. lra. }
  destruct (sampletime_ok (f_mode f) (f_leaps f) (r_start r) (if 0 <? r_cnt r then r_cnt r - 1 else 0) (r_rate r) q Hq Hn) as (z & N & Z0 & E).
  { destruct (0 <? r_cnt r) eqn:C; lia. } { exact HS2. } { lia. }
  rewrite E. eexists. split; [reflexivity|]. split; [apply sampletime_ge; lia|].
  pose proof (count_nonneg (r_start r) z (f_leaps f)).
  assert (z <= 999999999999999999); [|lia]. rewrite zq_le. apply near_int in N.
  change (inject_Z 900000000000000000) with (900000000000000000 # 1) in HS. change (inject_Z 999999999999999999) with (999999999999999999 # 1). lra.
Qed.

Lemma ordinary_calc f r e : ordinary r -> f_ttol f = None -> exists c, calc_of f r e = Ok c
  /\ 0 <= c_tol c <= c_period c /\ c_period c <= 1000000000000000000 /\ nsperiod (r_rate r) = Ok (c_period c)
  /\ (c_period c <= 2 ^ 50 -> c_period c - 3 <= 2 * c_tol c <= c_period c + 1)
  /\ (exists q, dval (r_rate r) = DFin q /\ near_span (c_period c) (period_ns q)).
Proof.
  intros (q & Hq & Hn & HP & _) HT. unfold calc_of. destruct (period_ok (r_rate r) q Hq Hn HP) as (p & Ep & Np & Bp).
  rewrite Ep, HT. cbn [bind]. destruct (half_ok p Bp) as (tol & Et & Bt & Ct). rewrite Et. cbn [bind].
  assert (EN : (if tol =? 0 then Ok 0 else sarith (f_mode f) 64 (- tol)) = Ok (- tol)).
  { destruct (Z.eqb_spec tol 0) as [->|]; [reflexivity|]. apply sarith_ok. unfold in_s. lia. }
  rewrite EN. cbn [bind]. eexists. split; [reflexivity|]. cbn [c_tol c_period]. split; [lia|]. split; [lia|]. split; [reflexivity|]. split; [exact Ct|].
  exists q. auto.
Qed.

Lemma ordinary_tame f r : ordinary r -> f_ttol f = None -> tame_rec f r.
Proof.
  intros HO HT. destruct (ordinary_end f r HO) as (e & Ee & Be). destruct (ordinary_calc f r e HO HT) as (c & Ec & Bc & Bp & _).
  exists e, c. split; [exact Ee|]. split; [exact Ec|]. intros _. destruct HO as (q & _ & _ & _ & _ & Ht & Hn). lia.
Qed.

Lemma ordinary_narrow f r e : ordinary r -> f_ttol f = None -> rec_end f r = Ok e -> narrow f (r, e).
Proof.
  intros HO HT He. destruct (ordinary_end f r HO) as (e' & Ee & Be). rewrite He in Ee. injection Ee as <-.
  split; [cbn; lia|]. cbn [fst snd]. intros c Hc. destruct (ordinary_calc f r e HO HT) as (c' & Ec & Bc & _).
  rewrite Hc in Ec. injection Ec as <-. lia.
Qed.

