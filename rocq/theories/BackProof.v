(** * Trace lists written and read back: proofs. *)

From Coq Require Import Lqa.
From Verif Require Import Base BaseLemmas DblModel FloatSpec FloatOpsProof ConvProof SampleSpec SampleProof V2Model V2Rate RecModel PackSpec TlModel TlSpec TlProof TlMade TlTime TlTile
  BufModel ReadSpec TlPackModel TlPackSpec FileModel FileSpec WriteSpec WriteProof SpanSpec SpanProof BackSpec.
Open Scope Z_scope.

(** ** Rates *)

(** A double of at least one is not taken for a rate below one. *)
Lemma at_least_one b v : dval b = DFin v -> (1 <= v)%Q -> (0 <? b) && (b <? 0x3FF0000000000000) = false.
Proof.
  intros E H. destruct (0 <? b) eqn:B0; [|reflexivity]. destruct (Z.ltb_spec b 0x3FF0000000000000) as [B1|]; [|reflexivity]. exfalso.
  unfold dval in E. replace (b mod 2 ^ 64) with b in E by (clear E; lia). replace (2 ^ 63 <=? b) with false in E by (clear E; lia).
  replace (b / 2 ^ 52 mod 2048) with (b / 2 ^ 52) in E by (clear E; lia). set (e := b / 2 ^ 52) in *. set (f := b mod 2 ^ 52) in *.
  assert (E1 : 0 <= e <= 1022) by (unfold e; clear E; lia). assert (F1 : 0 <= f < 2 ^ 52) by (unfold f; clear E; lia). clearbody e f.
  replace (e =? 2047) with false in E by (clear E; lia). injection E as E.
  assert (V : (v < 1)%Q); [|lra]. subst v.
  destruct (e =? 0).
  - rewrite dyadic_P2. apply Qlt_le_trans with (inject_Z (2 ^ 1074) * P2 (-1074))%Q.
    + apply Qmult_lt_compat_r; [apply P2_pos|]. rewrite <- zq_lt. apply Z.lt_le_trans with (2 ^ 52); [lia|]. apply Z.pow_le_mono_r; lia.
    + rewrite <- (P2_nonneg 1074) by lia. rewrite <- P2_add. apply Qle_refl.
  - rewrite dyadic_P2. apply Qlt_le_trans with (inject_Z (2 ^ 53) * P2 (e - 1075))%Q.
    + apply Qmult_lt_compat_r; [apply P2_pos|]. rewrite <- zq_lt. lia.
    + rewrite <- (P2_nonneg 53) by lia. rewrite <- P2_add. replace (53 + (e - 1075)) with (- (1022 - e)) by lia.
      assert (M : (P2 (- (1022 - e)) * P2 (1022 - e) == 1)%Q) by (rewrite <- P2_add; replace (- (1022 - e) + (1022 - e)) with 0 by lia; reflexivity).
      pose proof (P2_pos (- (1022 - e))) as M0. assert (M1 : (1 <= P2 (1022 - e))%Q).
      { rewrite (P2_nonneg (1022 - e)) by lia. change 1%Q with (inject_Z 1). rewrite <- zq_le. assert (0 < 2 ^ (1022 - e)) by (apply Z.pow_pos_nonneg; lia). lia. }
      nra.
Qed.

Lemma period_same q v : (0 < q)%Q -> (v == q)%Q -> (period_ns v == period_ns q)%Q /\ Qnum v <> 0.
Proof.
  intros H E. assert (A : forall x, (0 < x)%Q -> 0 < Qnum x) by (intros x Hx; unfold Qlt in Hx; cbn in Hx; lia).
  assert (V : (0 < v)%Q) by (rewrite E; exact H). pose proof (A q H). pose proof (A v V). split; [|lia].
  unfold period_ns. replace (0 <? Qnum v) with true by lia. replace (0 <? Qnum q) with true by lia. rewrite E. reflexivity.
Qed.

Lemma span_same n q v : (0 < q)%Q -> (v == q)%Q -> (exact_span n v == exact_span n q)%Q.
Proof. intros H E. unfold exact_span. rewrite (proj1 (period_same q v H E)). reflexivity. Qed.

Lemma span_add a b q : (exact_span (a + b) q == exact_span a q + exact_span b q)%Q.
Proof. unfold exact_span. rewrite inject_Z_plus. ring. Qed.
Lemma span_one q : (exact_span 1 q == period_ns q)%Q.
Proof. unfold exact_span. change (inject_Z 1) with 1%Q. ring. Qed.

Lemma period_range q : (1 <= q <= inject_Z 200000)%Q -> (5000 # 1 <= period_ns q <= 1000000000 # 1)%Q.
Proof.
  intros [H1 H2]. change (inject_Z 200000) with (200000 # 1) in H2. unfold period_ns. assert (0 < Qnum q) by (assert (0 < q)%Q by lra; unfold Qlt in *; cbn in *; lia).
  replace (0 <? Qnum q) with true by lia. change (inject_Z 1000000000) with (1000000000 # 1). unfold Qdiv. split.
  - assert (M : (q * / q == 1)%Q) by (apply Qmult_inv_r; lra). assert (0 < / q)%Q by (apply Qinv_lt_0_compat; lra). nra.
  - assert (M : (q * / q == 1)%Q) by (apply Qmult_inv_r; lra). assert (0 < / q)%Q by (apply Qinv_lt_0_compat; lra). nra.
Qed.

Lemma hz_back b v q : dval b = DFin v -> (v == q)%Q -> (0 < q)%Q -> sampratehz b = DFin v.
Proof. intros E V Q0. unfold sampratehz. rewrite E, dlt_zero'. assert (0 < Qnum v) by (rewrite <- V in Q0; unfold Qlt in Q0; cbn in Q0; lia). now replace (Qnum v <? 0) with false by lia. Qed.

(** ** The records of a segment *)

Section Stretch.
Context (f : conf) (leaps : list Z) (q v : Q) (b p : Z) (s : seg) (sid : list Z) (pub ty : Z).
Context (HQ : (1 <= q <= inject_Z 200000)%Q) (HV : dval b = DFin v) (HE : (v == q)%Q) (HP : nsperiod b = Ok p).
Context (HS : steady leaps q s) (HSf : steady (f_leaps f) q s).

Let P := period_ns q.
Let X := exact_span (lenZ (s_data s)) q.

(** The records [T] of the samples [cs] that start with sample [k]. *)
Fixpoint placed (k : Z) (T : list (trec * Z)) (cs : list (list Z)) : Prop :=
  match T, cs with
  | [], [] => True
  | x :: T', c :: cs' => c <> [] /\ fst x = mk_trec sid pub (r_start (fst x)) b (lenZ c) ty c /\
      near_span (r_start (fst x) - s_start s) (exact_span k q) /\ near_span (snd x - r_start (fst x)) (exact_span (lenZ c - 1) q) /\
      timed f x /\ ordinary (fst x) /\ placed (k + lenZ c) T' cs'
  | _, _ => False
  end.

Lemma near_zero z : near_span z 0 -> z = 0.
Proof.
  intros H. apply near_int in H. destruct H as [H1 H2]. assert (-1 < z < 1); [|lia]. rewrite !zq_lt. change (inject_Z (-1)) with (-1 # 1). change (inject_Z 1) with (1 # 1). lra.
Qed.
Lemma near_pos z x : (0 <= x)%Q -> near_span z x -> 0 <= z.
Proof. intros Hx H. apply near_int in H. assert (-1 < z); [|lia]. rewrite zq_lt. change (inject_Z (-1)) with (-1 # 1). lra. Qed.

Lemma no_leap (ls : list Z) t z : Forall (fun l => l <= s_start s \/ (X <= inject_Z (l - s_start s))%Q) ls ->
  s_start s <= t -> (inject_Z (t + z - s_start s) <= X + (2000 # 1))%Q -> Forall (fun l => ~ inside t z l) ls.
Proof.
  intros F Ht Hz. eapply Forall_impl; [|exact F]. cbv beta. intros l [L|L] (I1 & I2); [lia|].
  assert (A : (inject_Z (l - s_start s) + (1000000000 # 1) <= inject_Z (t + z - s_start s))%Q).
  { change (1000000000 # 1)%Q with (inject_Z 1000000000). rewrite <- inject_Z_plus, <- zq_le. lia. }
  lra.
Qed.

Lemma count_none t z ls : Forall (fun l => ~ inside t z l) ls -> count_inside t z ls = 0.
Proof.
  intros F. unfold count_inside. induction F as [|l ls H F IH]; [reflexivity|]. cbn [filter]. unfold inside in H.
  destruct ((t <? l) && (l + 1000000000 <=? t + z)) eqn:E; [exfalso; apply H; lia|exact IH].
Qed.

Lemma q_pos : (0 < q)%Q.
Proof. destruct HQ. lra. Qed.
Lemma v_num : Qnum v <> 0.
Proof. exact (proj2 (period_same q v q_pos HE)). Qed.
Lemma span_pos n : 0 <= n -> (0 <= exact_span n q)%Q.
Proof. intros Hn. unfold exact_span. destruct (period_range q HQ) as [A _]. apply Qmult_le_0_compat; [change 0%Q with (inject_Z 0); rewrite <- zq_le; exact Hn|lra]. Qed.
Lemma span_le a c : 0 <= a <= c -> (exact_span a q <= exact_span c q)%Q.
Proof. intros H. replace c with (a + (c - a)) by lia. rewrite span_add. pose proof (span_pos (c - a) ltac:(lia)). lra. Qed.

Lemma start_near k st : 0 <= k <= lenZ (s_data s) -> starts_at (s_start s) leaps q k st -> near_span (st - s_start s) (exact_span k q).
Proof.
  intros Hk (z & N & ->). destruct HS as (_ & _ & Hs & HX & F). fold X in HX, F. change (inject_Z (2 ^ 59)) with (576460752303423488 # 1) in HX.
  rewrite (count_none (s_start s) z leaps).
  { replace (s_start s + z - Z.min 1 0 * 1000000000 - s_start s) with z by lia. exact N. }
  pose proof (span_le k _ Hk) as L. fold X in L. apply near_int in N.
  apply no_leap; [exact F|lia|]. replace (s_start s + z - s_start s) with z by lia. lra.
Qed.

Lemma record_at k st c : c <> [] -> 0 <= k -> k + lenZ c <= lenZ (s_data s) -> starts_at (s_start s) leaps q k st ->
  let r := mk_trec sid pub st b (lenZ c) ty c in
  exists e, timed f (r, e) /\ ordinary r /\ near_span (st - s_start s) (exact_span k q) /\ near_span (e - st) (exact_span (lenZ c - 1) q).
Proof.
  intros Nc Hk Hn Hst. cbv zeta. assert (C1 : 1 <= lenZ c) by (destruct c; [congruence|unfold lenZ; cbn [length]; lia]).
  pose proof (start_near k st ltac:(lia) Hst) as N. pose proof (near_pos _ _ (span_pos k Hk) N) as Z0.
  destruct HSf as (_ & _ & Hs & HX & F). fold X in HX, F. pose proof HX as HX'. change (inject_Z (2 ^ 59)) with (576460752303423488 # 1) in HX.
  assert (SK : (exact_span k q + exact_span (lenZ c) q <= X)%Q) by (rewrite <- span_add; apply span_le; lia).
  assert (SC : (exact_span (lenZ c) q == exact_span (lenZ c - 1) q + P)%Q).
  { replace (lenZ c) with (lenZ c - 1 + 1) at 1 by lia. rewrite span_add, span_one. reflexivity. }
  destruct (period_range q HQ) as [P1 P3]. fold P in P1, P3.
  pose proof (span_pos k Hk) as SK0. pose proof (span_pos (lenZ c - 1) ltac:(lia)) as SC0.
  pose proof (span_same (lenZ c - 1) q v q_pos HE) as SV.
  assert (LN : lenZ c - 1 < 2 ^ 62).
  { assert (A : (inject_Z (lenZ c - 1) <= exact_span (lenZ c - 1) q)%Q).
    { unfold exact_span. fold P. assert (0 <= inject_Z (lenZ c - 1))%Q by (change 0%Q with (inject_Z 0); rewrite <- zq_le; lia). nra. }
    rewrite zq_lt. change (inject_Z (2 ^ 62)) with (4611686018427387904 # 1). lra. }
  assert (ST : st - s_start s < 577000000000000000).
  { apply near_int in N. rewrite zq_lt. change (inject_Z 577000000000000000) with (577000000000000000 # 1). lra. }
  destruct (sampletime_none (f_mode f) (f_leaps f) st (lenZ c - 1) b v HV v_num ltac:(lia)) as (z & Nz & Bz & E & _).
  { rewrite SV. change (inject_Z (2 ^ 61)) with (2305843009213693952 # 1). lra. } { lia. }
  apply (near_span_comp _ _ _ SV) in Nz.
  exists (st + z). split; [|split; [|split; [exact N|replace (st + z - st) with z by lia; exact Nz]]].
  - unfold timed, rec_end, endtime. cbn [fst snd r_start r_cnt r_rate]. replace (0 <? lenZ c) with true by lia. apply E.
    apply no_leap; [exact F|lia|]. replace (st + z - s_start s) with ((st - s_start s) + z) by lia. rewrite inject_Z_plus. apply near_int in N, Nz. lra.
  - exists v. cbn [r_rate r_cnt r_start]. split; [exact HV|]. split; [exact v_num|]. rewrite (proj1 (period_same q v q_pos HE)). fold P.
    change (inject_Z 900000000000000000) with (900000000000000000 # 1). split; [lra|]. replace (0 <? lenZ c) with true by lia. split; [rewrite SV; lra|]. split; [lia|]. lia.
Qed.

Lemma in_turn_placed (D : Z -> list Z -> ReadSpec.part -> Prop) : (forall k c x, D k c x -> c <> [] /\ exists st, starts_at (s_start s) leaps q k st /\ trec_of (part_rec x) = mk_trec sid pub st b (lenZ c) ty c) ->
  forall parts cs k, 0 <= k -> k + lenZ (concat cs) <= lenZ (s_data s) -> in_turn D k parts cs ->
  exists T, map fst T = map (fun x => trec_of (part_rec x)) parts /\ placed k T cs.
Proof.
  intros HD. induction parts as [|x parts IH]; intros [|c cs] k Hk Hn H; cbn [in_turn] in H; try contradiction.
  { exists []. split; [reflexivity|exact I]. }
  destruct H as [H1 H2]. destruct (HD k c x H1) as (Nc & st & Hst & Er). cbn [concat] in Hn. unfold lenZ in Hn. rewrite app_length in Hn.
  destruct (record_at k st c Nc Hk ltac:(unfold lenZ; lia) Hst) as (e & R1 & R2 & R3 & R4).
  destruct (IH cs (k + lenZ c)) as (T & E & PL); [unfold lenZ; lia|unfold lenZ; lia|exact H2|].
  exists ((mk_trec sid pub st b (lenZ c) ty c, e) :: T). cbn [map fst snd]. split; [rewrite E, Er; reflexivity|]. cbn [placed fst snd r_start]. auto 10.
Qed.

Lemma lenZ_pos {A} (c : list A) : c <> [] -> 1 <= lenZ c.
Proof. destruct c; [congruence|]. intros _. unfold lenZ. cbn [length]. lia. Qed.
Lemma lenZ_cat {A} (c d : list A) : lenZ (c ++ d) = lenZ c + lenZ d.
Proof. unfold lenZ. rewrite app_length. lia. Qed.

Lemma span_pred n : (exact_span n q == exact_span (n - 1) q + P)%Q.
Proof. replace n with (n - 1 + 1) at 1 by lia. rewrite span_add, span_one. reflexivity. Qed.

Lemma p_near : near_span p P /\ 4999 <= p <= 1000000001.
Proof.
  destruct (period_range q HQ) as [P1 P2']. fold P in P1, P2'. destruct (period_same q v q_pos HE) as [E N].
  destruct (period_ok b v HV N) as (z & Ez & Nz & _). { rewrite E. fold P. change (inject_Z 900000000000000000) with (900000000000000000 # 1). lra. }
  rewrite HP in Ez. injection Ez as <-. apply (near_span_comp _ _ _ E) in Nz. fold P in Nz. split; [exact Nz|]. apply near_int in Nz. split.
  - assert (4998 < p); [|lia]. rewrite zq_lt. change (inject_Z 4998) with (4998 # 1). lra.
  - assert (p < 1000000002); [|lia]. rewrite zq_lt. change (inject_Z 1000000002) with (1000000002 # 1). lra.
Qed.

Lemma placed_all T : forall cs k, placed k T cs ->
  Forall (fun x => ordinary (fst x) /\ timed f x /\ r_sid (fst x) = sid /\ r_pub (fst x) = pub /\ r_rate (fst x) = b /\ r_type (fst x) = ty /\ r_data (fst x) <> []) T /\
  concat (map (fun x => r_data (fst x)) T) = concat cs /\ sum (map (fun x => r_cnt (fst x)) T) = lenZ (concat cs).
Proof.
  induction T as [|x T IH]; intros [|c cs] k H; cbn [placed] in H; try contradiction; [repeat split; constructor|].
  destruct H as (Nc & Ex & _ & _ & Ht & Ho & H). destruct (IH cs _ H) as (F & D & S1). cbn [map concat sum fold_right]. rewrite D. change (fold_right Z.add 0) with sum. rewrite S1.
  assert (E1 : r_data (fst x) = c) by (rewrite Ex; reflexivity). assert (E2 : r_cnt (fst x) = lenZ c) by (rewrite Ex; reflexivity).
  rewrite E1, E2, lenZ_cat. split; [|split; reflexivity]. constructor; [|exact F].
  split; [exact Ho|]. split; [exact Ht|]. rewrite E1, Ex. cbn. auto.
Qed.

Lemma placed_bounds T : forall cs k, 0 <= k -> k + lenZ (concat cs) <= lenZ (s_data s) -> placed k T cs ->
  Forall (fun x => s_start s <= r_start (fst x) <= snd x /\ (inject_Z (snd x - s_start s) <= exact_span (lenZ (s_data s) - 1) q + (1026 # 1))%Q) T.
Proof.
  induction T as [|x T IH]; intros [|c cs] k Hk Hn H; cbn [placed] in H; try contradiction; [constructor|].
  destruct H as (Nc & Ex & N1 & N2 & _ & _ & H). cbn [concat] in Hn. rewrite lenZ_cat in Hn. pose proof (lenZ_pos c Nc). constructor; [|apply (IH cs (k + lenZ c)); [lia|lia|exact H]].
  pose proof (near_pos _ _ (span_pos k Hk) N1). pose proof (near_pos _ _ (span_pos (lenZ c - 1) ltac:(lia)) N2). split; [lia|].
  destruct HS as (_ & _ & _ & HX & _). fold X in HX. change (inject_Z (2 ^ 59)) with (576460752303423488 # 1) in HX.
  assert (L : (exact_span k q + exact_span (lenZ c - 1) q <= exact_span (lenZ (s_data s) - 1) q)%Q) by (rewrite <- span_add; apply span_le; unfold lenZ in *; lia).
  pose proof (span_pred (lenZ (s_data s))) as SX. fold X in SX. destruct (period_range q HQ) as [P1 P3]. fold P in P1, P3.
  replace (snd x - s_start s) with ((r_start (fst x) - s_start s) + (snd x - r_start (fst x))) by lia. rewrite inject_Z_plus. apply near_int in N1, N2. lra.
Qed.

Lemma placed_tiles T : forall cs k, 0 <= k -> k + lenZ (concat cs) <= lenZ (s_data s) -> placed k T cs -> tiles p 1027 T.
Proof.
  induction T as [|x T IH]; intros [|c cs] k Hk Hn H; cbn [placed] in H; try contradiction; [exact I|].
  destruct H as (Nc & Ex & N1 & N2 & _ & _ & H). cbn [concat] in Hn. rewrite lenZ_cat in Hn. pose proof (lenZ_pos c Nc).
  cbn [tiles]. split; [|apply (IH cs (k + lenZ c)); [lia|lia|exact H]].
  destruct T as [|y T]; [exact I|]. destruct cs as [|c' cs]; [contradiction|]. destruct H as (Nc' & _ & N3 & _).
  destruct p_near as [N4 _]. destruct HS as (_ & _ & _ & HX & _). fold X in HX. change (inject_Z (2 ^ 59)) with (576460752303423488 # 1) in HX.
  pose proof (span_add k (lenZ c) q) as S1. pose proof (span_pred (lenZ c)) as S2. cbn [concat] in Hn. rewrite lenZ_cat in Hn.
  assert (S3 : (exact_span (k + lenZ c) q <= X)%Q) by (apply span_le; unfold lenZ in *; lia).
  pose proof (span_pos k Hk). pose proof (span_pos (lenZ c - 1) ltac:(lia)). destruct (period_range q HQ) as [P1 P3]. fold P in P1, P3.
  set (w := r_start (fst y) - snd x - p).
  assert (W : (inject_Z w == inject_Z (r_start (fst y) - s_start s) - inject_Z (r_start (fst x) - s_start s) - inject_Z (snd x - r_start (fst x)) - inject_Z p)%Q).
  { unfold w, Z.sub. rewrite ?inject_Z_plus, ?inject_Z_opp. ring. }
  apply near_int in N1, N2, N3, N4. apply Z.abs_le. rewrite !zq_le, W. change (inject_Z (- (1027))) with (-1027 # 1). change (inject_Z 1027) with (1027 # 1). split; lra.
Qed.

Lemma placed_first x T cs : placed 0 (x :: T) cs -> r_start (fst x) = s_start s.
Proof.
  destruct cs as [|c cs]; [contradiction|]. intros (_ & _ & N & _). apply (near_span_comp _ _ 0%Q) in N; [|apply exact_span_0]. apply near_zero in N. lia.
Qed.

Lemma placed_last T : forall cs k x, 0 <= k -> placed k (T ++ [x]) cs ->
  let last := exact_span (k + lenZ (concat cs) - 1) q in (Qabs (inject_Z (snd x - s_start s) - last) <= 1 + (last + 2) * (1 # 1125899906842624))%Q.
Proof.
  induction T as [|y T IH]; intros [|c cs] k x Hk H; cbn [placed app] in H; try contradiction.
  - destruct H as (Nc & Ex & N1 & N2 & _ & _ & H). destruct cs as [|c' cs]; [|contradiction]. cbn [concat]. rewrite app_nil_r. cbv zeta.
    replace (k + lenZ c - 1) with (k + (lenZ c - 1)) by lia. rewrite span_add.
    replace (snd x - s_start s) with ((r_start (fst x) - s_start s) + (snd x - r_start (fst x))) by lia. rewrite inject_Z_plus. apply near_int in N1, N2.
    apply Qabs_Qle_condition. split; lra.
  - destruct H as (Nc & _ & _ & _ & _ & _ & H). cbn [concat]. rewrite lenZ_cat. pose proof (lenZ_pos c Nc). specialize (IH cs (k + lenZ c) x ltac:(lia) H). cbv zeta in *.
    replace (k + (lenZ c + lenZ (concat cs)) - 1) with (k + lenZ c + lenZ (concat cs) - 1) by lia. exact IH.
Qed.

End Stretch.

(** ** The entries *)

Definition stretch_of (f : conf) (q : Q) (b : Z) (t : tid) (s : seg) (T : list (trec * Z)) : Prop :=
  exists cs, placed f q b s (t_sid t) (t_pub t) (s_type s) 0 T cs /\ concat cs = s_data s.

Lemma type_back mode m type src : packable mode (encoding_of m) type src -> type <> 97 ->
  exists z, encoding_sizetype (uwrap 8 (if encoding_of m <? 0 then 10 else encoding_of m)) = Some (z, type) /\ known_type type = true.
Proof.
  intros H N. generalize dependent (encoding_of m). intros e H.
  destruct H as [(-> & H & _)|[(-> & -> & _)|[(-> & -> & _)|[(-> & -> & _)|[(-> & -> & _)|(H & -> & _)]]]]].
  - destruct H as [->| ->]; [|congruence]. eexists. split; reflexivity.
  - eexists. split; reflexivity.
  - eexists. split; reflexivity.
  - eexists. split; reflexivity.
  - eexists. split; reflexivity.
  - destruct H as [->| ->]; eexists; split; reflexivity.
Qed.

Lemma seg_stretch f mode F e o t s parts q v : (1 <= q <= inject_Z 200000)%Q -> dval (dbits (DFin q)) = DFin v -> (v == q)%Q ->
  steady (e_leaps e) q s -> steady (f_leaps f) q s -> ready3 mode e o t s -> s_type s <> 97 ->
  written_as mode F (e_recip e) (e_leaps e) o t s parts ->
  exists T, map fst T = map (fun x => trec_of (part_rec x)) parts /\ stretch_of f q (dbits (DFin q)) t s T.
Proof.
  intros HQ HV HE HS HSf R NT (_ & _ & W). destruct HS as (ND & Hz & HS'). pose proof (conj ND (conj Hz HS') : steady (e_leaps e) q s) as HS.
  destruct (W ND) as (q' & cs & Hz' & Ec & IT). rewrite Hz in Hz'. injection Hz' as <-. destruct R as (_ & _ & _ & _ & PK & _).
  destruct (type_back _ _ _ _ PK NT) as (z & ET & _).
  edestruct (in_turn_placed f (e_leaps e) q v (dbits (DFin q)) s (t_sid t) (t_pub t) (s_type s) HQ HV HE HS HSf) as (T & E & PL).
  2:{ apply (Z.le_refl 0). } 2:{ rewrite <- Ec. apply Z.le_refl. } 2:{ exact IT. }
  - intros k c x (Nc & len & st & crc & datalen & _ & Hst & Ep). split; [exact Nc|]. exists st. split; [exact Hst|]. rewrite Ep. unfold trec_of, used_encoding. cbn [m_data m_enc m_sid m_pub m_start m_rate m_cnt sample_words].
    rewrite ET. unfold rate_of. cbn [m_rate TlPackSpec.wanted]. rewrite Hz, (at_least_one _ v HV) by (rewrite HE; apply HQ). reflexivity.
  - exists T. split; [exact E|]. exists cs. auto.
Qed.

Definition start0 (g : list (trec * Z)) : Z := match g with x :: _ => r_start (fst x) | [] => 0 end.

(** A channel of an entry. *)
Definition chan_back (f : conf) (t : tid) (segs : list seg) (c : channel) : Prop :=
  exists q v p, let b := dbits (DFin q) in (1 <= q <= inject_Z 200000)%Q /\ dval b = DFin v /\ (v == q)%Q /\ nsperiod b = Ok p /\ segs <> [] /\
    Forall (steady (f_leaps f) q) segs /\ ForallOrdPairs (gap_between q) segs /\ Forall2 (stretch_of f q b t) segs c.

Lemma chan_records f t segs c : chan_back f t segs c -> c <> [] /\ Forall (fun T => T <> []) c /\
  Forall (fun x => ordinary (fst x) /\ timed f x /\ r_sid (fst x) = t_sid t /\ r_pub (fst x) = t_pub t /\ r_data (fst x) <> []) (concat c).
Proof.
  intros (q & v & p & HQ & HV & HE & HP & NS & FS & _ & F2). split; [destruct F2; [congruence|discriminate]|]. split.
  - clear NS. induction F2 as [|s T segs c (cs & PL & Ec) F2 IH]; [constructor|]. inversion FS as [|? ? (ND & _) FS']; subst. constructor; [|auto].
    intros ->. destruct cs; [|contradiction]. cbn in Ec. congruence.
  - clear - F2. induction F2 as [|s T segs c (cs & PL & Ec) F2 IH]; [constructor|]. cbn [concat]. apply Forall_app. split; [|exact IH].
    eapply Forall_impl; [|exact (proj1 (placed_all _ _ _ _ _ _ _ _ _ _ PL))]. cbv beta. tauto.
Qed.

Lemma chan_fine f t segs c : chan_back f t segs c ->
  exists p d, one_rate f p (concat c) /\ stretches p ((p + 1) / 2) d c /\ 0 <= d /\ 4 * d + 4 < p.
Proof.
  intros H. destruct (chan_records f t segs c H) as (NC & NT & FR). destruct H as (q & v & p & HQ & HV & HE & HP & NS & FS & GP & F2).
  exists p, 1027. destruct (p_near q v (dbits (DFin q)) p HQ HV HE HP) as [NP BP]. split; [|split; [|lia]].
  - split; [|split].
    + eapply Forall_impl; [|exact FR]. cbv beta. tauto.
    + exists (dbits (DFin q)), (t_sid t). split; [|split; [exact HP|split; [lia|]]].
      * clear - F2. induction F2 as [|s T segs c (cs & PL & Ec) F2 IH]; [constructor|]. cbn [concat]. apply Forall_app. split; [|exact IH].
        eapply Forall_impl; [|exact (proj1 (placed_all _ _ _ _ _ _ _ _ _ _ PL))]. cbv beta. tauto.
      * exists v. split; [apply (hz_back _ v q HV HE); lra|]. rewrite HE. lra.
    + intros _. exists (t_pub t). eapply Forall_impl; [|exact FR]. cbv beta. tauto.
  - split; [exact NC|]. split.
    + clear GP NS FR NC. induction F2 as [|s T segs c (cs & PL & Ec) F2 IH]; [constructor|]. inversion FS as [|? ? S1 FS']; subst. inversion NT as [|? ? N1 NT']; subst. constructor; [|auto].
      split; [exact N1|]. apply (placed_tiles f (f_leaps f) q v (dbits (DFin q)) p s (t_sid t) (t_pub t) (s_type s) HQ HV HE HP S1 T cs 0); [lia|rewrite Ec; lia|exact PL].
    + clear NS FR NC NT. induction F2 as [|s T segs c (cs & PL & Ec) F2 IH]; [constructor|]. inversion FS as [|? ? S1 FS']; subst. inversion GP as [|? ? G1 GP']; subst. constructor; [|auto].
      pose proof (placed_bounds f (f_leaps f) q (dbits (DFin q)) s (t_sid t) (t_pub t) (s_type s) HQ S1 T cs 0 ltac:(lia) ltac:(rewrite Ec; lia) PL) as B1. rewrite Forall_forall in B1.
      apply Forall_forall. intros T' HT'. destruct (Forall2_in_r _ _ _ _ F2 HT') as (s' & Hs' & (cs' & PL' & Ec')).
      rewrite Forall_forall in FS', G1. specialize (FS' s' Hs'). specialize (G1 s' Hs').
      pose proof (placed_bounds f (f_leaps f) q (dbits (DFin q)) s' (t_sid t) (t_pub t) (s_type s') HQ FS' T' cs' 0 ltac:(lia) ltac:(rewrite Ec'; lia) PL') as B2. rewrite Forall_forall in B2.
      intros x y Hx Hy. destruct (B1 x Hx) as (A1 & A2). destruct (B2 y Hy) as (A3 & _).
      assert (GG : p + (p + 1) / 2 + 1 <= r_start (fst y) - snd x).
      { apply near_int in NP. unfold gap_between in G1. change (inject_Z 2048) with (2048 # 1) in G1. destruct (period_range q HQ) as [P1 P3].
        assert (H2 : 3 * p + 4 <= 2 * (r_start (fst y) - snd x)); [|lia].
        assert (H3 : 3 * p + 4 <= 2 * (s_start s' - s_start s) - 2 * (snd x - s_start s)); [|lia].
        rewrite zq_le. unfold Z.sub in *. rewrite ?inject_Z_plus, ?inject_Z_opp, ?inject_Z_mult, ?inject_Z_plus, ?inject_Z_opp in *. 
        change (inject_Z 3) with (3 # 1). change (inject_Z 4) with (4 # 1). change (inject_Z 2) with (2 # 1). lra. }
      unfold continues. split; [lia|]. split; [lia|lia].
Qed.

(** The stretches of an entry are in the order of the segments. *)
Lemma starts_rise f t segs c : chan_back f t segs c -> ForallOrdPairs (fun g g' => start0 g < start0 g') c.
Proof.
  intros H. destruct (chan_records f t segs c H) as (_ & NT & _). destruct H as (q & v & p & HQ & _ & _ & _ & _ & FS & GP & F2).
  assert (FX : Forall2 (fun s T => start0 T = s_start s) segs c).
  { clear GP FS. induction F2 as [|s T segs c (cs & PL & Ec) F2 IH]; [constructor|]. inversion NT; subst. constructor; [|auto]. destruct T as [|x T]; [congruence|]. exact (placed_first f q _ s _ _ _ x T cs PL). }
  assert (GL : ForallOrdPairs (fun s s' => s_start s < s_start s') segs).
  { clear FX F2. induction GP as [|s segs G GP IH]; [constructor|]. inversion FS as [|? ? S1 FS']; subst. constructor; [|auto]. eapply Forall_impl; [|exact G]. cbv beta. intros s' G1. unfold gap_between in G1.
    assert (L1 : 1 <= lenZ (s_data s)) by (destruct S1 as (ND & _); apply lenZ_pos; exact ND).
    pose proof (span_pos q HQ (lenZ (s_data s) - 1) ltac:(lia)). destruct (period_range q HQ) as [P1 P3]. change (inject_Z 2048) with (2048 # 1) in G1.
    assert (0 < s_start s' - s_start s); [|lia]. rewrite zq_lt. change (inject_Z 0) with 0%Q. lra. }
  clear - FX GL. induction FX as [|s T segs c E FX IH]; [constructor|]. inversion GL as [|? ? G1 GL']; subst. constructor; [|auto].
  apply Forall_forall. intros T' HT'. destruct (Forall2_in_r _ _ _ _ FX HT') as (s' & Hs' & E'). rewrite Forall_forall in G1. rewrite E, E'. auto.
Qed.

Lemma rise_NoDup (c : channel) : ForallOrdPairs (fun g g' => start0 g < start0 g') c -> NoDup (map start0 c).
Proof.
  induction 1 as [|g c H P IH]; [constructor|]. cbn [map]. constructor; [|exact IH]. intros I. apply in_map_iff in I. destruct I as (g' & E & I). rewrite Forall_forall in H. specialize (H g' I). lia.
Qed.

Lemma made_rise f segs gs : ordered segs -> Forall2 (made f) segs gs -> NoDup (map start0 gs) -> ForallOrdPairs (fun g g' => start0 g < start0 g') gs.
Proof.
  intros O F. assert (SS : forall s g, made f s g -> start0 g = s_start s) by (intros s g M; destruct (md_start _ _ _ M) as (x & L & -> & E); cbn; congruence).
  induction F as [|s g segs gs M F IH]; intros N; [constructor|]. destruct O as [O1 O2]. cbn [map] in N. inversion N as [|? ? N1 N2]; subst. constructor; [|auto].
  apply Forall_forall. intros g' Hg'. destruct (Forall2_in_r _ _ _ _ F Hg') as (s' & Hs' & M'). rewrite Forall_forall in O1. specialize (O1 s' Hs').
  rewrite (SS _ _ M) in *. rewrite (SS _ _ M'). assert (s_start s <> s_start s'). { intros E. apply N1. rewrite E, <- (SS _ _ M'). apply in_map, Hg'. }
  unfold seg_le in O1. lia.
Qed.

Lemma seg_read f q v p t s s' T : (1 <= q <= inject_Z 200000)%Q -> dval (dbits (DFin q)) = DFin v -> (v == q)%Q -> nsperiod (dbits (DFin q)) = Ok p ->
  f_mode f = Strict -> steady (f_leaps f) q s -> stretch_of f q (dbits (DFin q)) t s T -> made f s' T -> seg_back s s'.
Proof.
  intros HQ HV HE HP HM HS (cs & PL & Ec) M. destruct (placed_all _ _ _ _ _ _ _ _ _ _ PL) as (FA & DA & CA). rewrite Forall_forall in FA.
  destruct (md_start _ _ _ M) as (x & L & E1 & E2). destruct (md_end _ _ _ M) as (L' & y & E3 & E4). destruct (md_cnt _ _ _ M) as (z & E5 & E6). rewrite (E6 HM) in E5.
  destruct (md_hz _ _ _ M) as (h & H1 & H2 & H3). destruct (FA h H1) as (_ & _ & _ & _ & Rh & Th & _).
  split; [rewrite E2; rewrite E1 in PL; exact (placed_first f q _ s _ _ _ x L cs PL)|]. split; [rewrite (md_data _ _ _ M), DA; exact Ec|].
  split; [congruence|]. split; [rewrite E5, CA, Ec; lia|]. destruct HS as (_ & Hz & _). exists q, v. split; [exact Hz|]. split; [rewrite H2, Rh; apply (hz_back _ v q HV HE); lra|]. split; [exact HE|].
  rewrite E4, <- Ec. rewrite E3 in PL. exact (placed_last f q _ s _ _ _ L' cs 0 y (Z.le_refl 0) PL).
Qed.

Lemma entry_read f t t' segs c : f_mode f = Strict -> chan_back f t segs c -> SpanSpec.entry_of f t' c ->
  t_sid t' = t_sid t /\ t_pub t' = t_pub t /\ t_num t' = Z.of_nat (length segs) mod 2 ^ 32 /\ exists segs', tid_segs t' = Ok segs' /\ Forall2 seg_back segs segs'.
Proof.
  intros HM H (segs' & gs & WF & PM & MD & AB). pose proof (starts_rise f t segs c H) as RC. destruct (chan_records f t segs c H) as (_ & _ & FR). rewrite Forall_forall in FR.
  destruct WF as (_ & TS & _ & OR & TN & _).
  assert (gs = c) as ->.
  { apply (sorted_perm (fun g g' => start0 g < start0 g')); [intros; lia| |exact RC|exact PM]. apply (made_rise f segs'); [exact OR|exact MD|].
    eapply Permutation_NoDup; [|exact (rise_NoDup c RC)]. apply Permutation_map. symmetry. exact PM. }
  destruct AB as (A1 & (u & Hu & Eu) & _). rewrite Forall_forall in A1. destruct (A1 u Hu) as (Su & _). destruct (FR u Hu) as (_ & _ & Su' & Pu' & _).
  split; [congruence|]. split; [congruence|]. destruct H as (q & v & p & HQ & HV & HE & HP & _ & FS & _ & F2).
  assert (L1 : length segs = length c) by (clear - F2; induction F2; cbn; congruence). assert (L2 : length segs' = length c) by (clear - MD; induction MD; cbn; congruence).
  split; [rewrite TN, L2, L1; reflexivity|]. exists segs'. split; [exact TS|].
  clear - HM HQ HV HE HP FS F2 MD. revert segs' MD. induction F2 as [|s T segs c ST F2 IH]; intros segs' MD; inversion MD as [|s' ? segs2 ? M MD']; subst; constructor.
  - inversion FS; subst. eapply seg_read; eassumption.
  - inversion FS; subst. auto.
Qed.

(** The channels in the order of the entries. *)
Definition chan_lt (f : conf) (c c' : channel) : Prop :=
  (forall x y, In x (concat c) -> In y (concat c) -> r_sid (fst x) = r_sid (fst y) /\ r_pub (fst x) = r_pub (fst y)) /\
  (forall x y, In x (concat c') -> In y (concat c') -> r_sid (fst x) = r_sid (fst y) /\ r_pub (fst x) = r_pub (fst y)) /\
  exists x y, In x (concat c) /\ In y (concat c') /\ (slt (r_sid (fst x)) (r_sid (fst y)) \/ (r_sid (fst x) = r_sid (fst y) /\ r_pub (fst x) < r_pub (fst y))).

Lemma chan_lt_asym f c c' : chan_lt f c c' -> chan_lt f c' c -> False.
Proof.
  intros (U & U' & x & y & Hx & Hy & L) (_ & _ & y' & x' & Hy' & Hx' & L'). destruct (U x x' Hx Hx') as [E1 E2]. destruct (U' y y' Hy Hy') as [E3 E4]. rewrite <- E1, <- E2, <- E3, <- E4 in L'.
  destruct L as [L|[L1 L2]], L' as [L'|[L1' L2']].
  - exact (slt_irrefl _ (slt_trans _ _ _ L L')).
  - rewrite L1' in L. exact (slt_irrefl _ L).
  - rewrite L1 in L'. exact (slt_irrefl _ L').
  - lia.
Qed.

Lemma list_read f ids segss chs k : f_mode f = Strict -> ids_sorted f ids -> length segss = length ids ->
  Forall2 (fun ts c => chan_back f (fst ts) (snd ts) c) (combine ids segss) chs -> recovered f k chs -> list_back ids segss k.
Proof.
  intros HM SI LN F (ids' & chs' & TI & TK & S' & PM & F').
  assert (UN : forall c, In c chs -> forall x y, In x (concat c) -> In y (concat c) -> r_sid (fst x) = r_sid (fst y) /\ r_pub (fst x) = r_pub (fst y)).
  { intros c Hc x y Hx Hy. destruct (Forall2_in_r _ _ _ _ F Hc) as (ts & _ & H). destruct (chan_records _ _ _ _ H) as (_ & _ & FR). rewrite Forall_forall in FR.
    destruct (FR x Hx) as (_ & _ & A1 & A2 & _). destruct (FR y Hy) as (_ & _ & B1 & B2 & _). split; congruence. }
  assert (chs' = chs) as ->.
  { apply (sorted_perm (chan_lt f)); [apply chan_lt_asym| | |exact PM].
    - pose proof (pairs_along _ _ _ _ F' (ids_sorted_pairs f _ S')) as Q.
      assert (IC : incl chs' chs) by (intros z Hz; eapply Permutation_in; eassumption). clear - Q IC UN. induction Q as [|c l H Q IH]; [constructor|]. constructor; [|apply IH; intros z Hz; apply IC; right; exact Hz].
      apply Forall_forall. intros c' Hc'. rewrite Forall_forall in H. destruct (H c' Hc') as (t & t' & (? & ? & _ & _ & _ & A & (x & Hx & Ex) & _) & (? & ? & _ & _ & _ & A' & (y & Hy & Ey) & _) & L).
      split; [apply UN, IC; left; reflexivity|]. split; [apply UN, IC; right; exact Hc'|]. exists x, y. split; [exact Hx|]. split; [exact Hy|].
      rewrite Forall_forall in A, A'. destruct (A x Hx) as (B & _). destruct (A' y Hy) as (B' & _). rewrite B, B', Ex, Ey. destruct L as [L|(_ & L1 & L2)]; auto.
    - assert (SP : ForallOrdPairs (fun a b : tid * list seg => id_lt f (fst a) (fst b)) (combine ids segss)).
      { pose proof (ids_sorted_pairs f _ SI) as P. clear - P LN. revert segss LN. induction P as [|t ids H P IH]; intros [|s segss] LN; try discriminate; cbn [combine]; constructor; [|apply IH; cbn in LN; lia].
        apply Forall_forall. intros [t' s'] Hin. cbn [fst]. apply in_combine_l in Hin. rewrite Forall_forall in H. auto. }
      pose proof (pairs_along _ _ _ _ F SP) as Q.
      assert (IC : incl chs chs) by apply incl_refl. clear F F' TI TK PM. clear - Q IC UN. revert Q IC. generalize chs at 1 2 4. intros l Q. induction Q as [|c l H Q IH]; intros IC; [constructor|]. constructor; [|apply IH; intros z Hz; apply IC; right; exact Hz].
      apply Forall_forall. intros c' Hc'. rewrite Forall_forall in H. destruct (H c' Hc') as (a & a' & CB & CB' & L).
      split; [apply UN, IC; left; reflexivity|]. split; [apply UN, IC; right; exact Hc'|].
      assert (W : forall u w cc, chan_back f u w cc -> exists x, In x (concat cc) /\ r_sid (fst x) = t_sid u /\ r_pub (fst x) = t_pub u).
      { intros u w cc Hcc. destruct (chan_records _ _ _ _ Hcc) as (NC & NT & FR). destruct cc as [|T cc]; [congruence|]. inversion NT; subst. destruct T as [|x T]; [congruence|].
        exists x. split; [left; reflexivity|]. rewrite Forall_forall in FR. destruct (FR x (in_eq _ _)) as (_ & _ & A & B & _). auto. }
      destruct (W _ _ _ CB) as (x & Hx & X1 & X2). destruct (W _ _ _ CB') as (y & Hy & Y1 & Y2). exists x, y. split; [exact Hx|]. split; [exact Hy|]. rewrite X1, X2, Y1, Y2.
      destruct L as [L|(_ & L1 & L2)]; auto. }
  exists ids'. split; [exact TI|]. split.
  { rewrite TK. f_equal. f_equal. transitivity (length chs); [clear - F'; induction F'; cbn; congruence|]. transitivity (length (combine ids segss)); [clear - F; induction F; cbn; congruence|].
    rewrite combine_length. lia. }
  clear - HM F F'. revert ids' F'. induction F as [|ts c l chs H F IH]; intros ids' F'; inversion F' as [|t' ? ids2 ? E F2]; subst; constructor; [|auto].
  exact (entry_read f _ _ _ _ HM H E).
Qed.

(** ** The list *)

Lemma steady_part l1 l2 q s : steady (l1 ++ l2) q s -> steady l1 q s /\ steady l2 q s.
Proof. intros (A & B & C & D & F). apply Forall_app in F. destruct F as [F1 F2]. split; repeat (split; [assumption|]); assumption. Qed.

Lemma chan_built f mode F e o type_of t segs pss : Forall (ready3 mode e o t) segs -> regular (e_leaps e ++ f_leaps f) type_of t segs ->
  Forall2 (written_as mode F (e_recip e) (e_leaps e) o t) segs pss ->
  exists c, chan_back f t segs c /\ map fst (concat c) = map (fun x => trec_of (part_rec x)) (concat pss) /\
    Forall (fun x => r_type (fst x) = type_of (t_sid t) /\ known_type (type_of (t_sid t)) = true) (concat c) /\ sum (map (fun x => r_cnt (fst x)) (concat c)) = sum (map (fun s => lenZ (s_data s)) segs).
Proof.
  intros FR (q & HQ & NS & FS & GP & FT & NT) FW.
  assert (DV : exists v, dval (dbits (DFin q)) = DFin v /\ (v == q)%Q).
  { destruct segs as [|s segs]; [congruence|]. inversion FR as [|? ? ((x & q' & Rx & Hz & _) & _) _]; subst. inversion FS as [|? ? (_ & Hz' & _) _]; subst. rewrite Hz in Hz'. injection Hz' as ->.
    destruct (dbits_value x q Rx) as (_ & v & A & B). eauto. }
  destruct DV as (v & HV & HE). destruct (period_range q HQ) as [P1 P3].
  assert (Q0 : (0 < q)%Q) by lra. destruct (period_same q v Q0 HE) as [PE PN].
  destruct (period_ok (dbits (DFin q)) v HV PN) as (p & HP & _). { rewrite PE. change (inject_Z 900000000000000000) with (900000000000000000 # 1). lra. }
  assert (B : exists c, Forall2 (stretch_of f q (dbits (DFin q)) t) segs c /\ map fst (concat c) = map (fun x => trec_of (part_rec x)) (concat pss) /\
    Forall (fun x => r_type (fst x) = type_of (t_sid t) /\ known_type (type_of (t_sid t)) = true) (concat c) /\ sum (map (fun x => r_cnt (fst x)) (concat c)) = sum (map (fun s => lenZ (s_data s)) segs)).
  { clear GP NS. induction FW as [|s ps segs pss W FW IH]; [exists []; repeat split; constructor|]. inversion FR as [|? ? R1 FR']; subst. inversion FS as [|? ? S1 FS']; subst. inversion FT as [|? ? T1 FT']; subst.
    destruct (IH FR' FS' FT') as (c & C1 & C2 & C3 & C4). destruct (steady_part _ _ _ _ S1) as [Sa Sb].
    destruct (seg_stretch f mode F e o t s ps q v HQ HV HE Sa Sb R1 ltac:(congruence) W) as (T & E & ST).
    exists (T :: c). split; [constructor; assumption|]. cbn [concat map]. rewrite !map_app, E, C2. split; [reflexivity|].
    destruct ST as (cs & PL & Ec). destruct (placed_all _ _ _ _ _ _ _ _ _ _ PL) as (FA & _ & CA). split.
    - apply Forall_app. split; [|exact C3]. destruct R1 as (_ & _ & _ & _ & PK & _). destruct (type_back _ _ _ _ PK) as (z & _ & KT); [congruence|].
      eapply Forall_impl; [|exact FA]. cbv beta. intros y (_ & _ & _ & _ & _ & Ty & _). rewrite <- T1. auto.
    - rewrite TlMade.sum_app, CA, C4, Ec. reflexivity. }
  destruct B as (c & C1 & C2 & C3 & C4). exists c. split; [|auto]. exists q, v, p. cbv zeta. repeat (split; [assumption|]). split; [|split; [exact GP|exact C1]].
  eapply Forall_impl; [|exact FS]. cbv beta. intros s S1. apply (steady_part _ _ _ _ S1).
Qed.

Lemma chans_built f mode F e o type_of ids : forall segss partss, Forall2 (fun t segs => tid_segs t = Ok segs) ids segss ->
  Forall2 (fun t segs => Forall (ready3 mode e o t) segs /\ regular (e_leaps e ++ f_leaps f) type_of t segs) ids segss ->
  Forall2 (fun t pss => exists segs, tid_segs t = Ok segs /\ Forall2 (written_as mode F (e_recip e) (e_leaps e) o t) segs pss) ids partss ->
  exists chs, Forall2 (fun ts c => chan_back f (fst ts) (snd ts) c) (combine ids segss) chs /\
    map fst (concat (map (@concat _) chs)) = map (fun x => trec_of (part_rec x)) (concat (concat partss)) /\
    Forall (fun x => r_type (fst x) = type_of (r_sid (fst x)) /\ known_type (type_of (r_sid (fst x))) = true) (concat (map (@concat _) chs)) /\
    sum (map (fun x => r_cnt (fst x)) (concat (map (@concat _) chs))) = sum (map (fun s => lenZ (s_data s)) (concat segss)).
Proof.
  induction ids as [|t ids IH]; intros segss partss FT FR FW; inversion FT as [|? segs ? segss' T1 FT']; subst; inversion FW as [|? pss ? partss' W1 FW']; subst.
  { exists []. repeat split; constructor. }
  inversion FR as [|? ? ? ? (R1 & G1) FR']; subst. destruct W1 as (segs0 & T2 & W1). rewrite T1 in T2. injection T2 as <-.
  destruct (IH segss' partss' FT' FR' FW') as (chs & C1 & C2 & C3 & C4). destruct (chan_built f mode F e o type_of t segs pss R1 G1 W1) as (c & D1 & D2 & D3 & D4).
  exists (c :: chs). cbn [combine map concat]. split; [constructor; assumption|]. rewrite !concat_app, !map_app, D2, C2. split; [reflexivity|].
  split; [|rewrite !TlMade.sum_app, C4, D4; reflexivity]. apply Forall_app. split; [|exact C3]. destruct (chan_records _ _ _ _ D1) as (_ & _ & FA). rewrite Forall_forall in *. intros x Hx. destruct (FA x Hx) as (_ & _ & -> & _). exact (D3 x Hx).
Qed.

Lemma other_chans f ids segss chs : ids_sorted f ids -> (f_split f = true -> Forall (fun t => 0 < t_pub t) ids) -> length segss = length ids ->
  Forall2 (fun ts c => chan_back f (fst ts) (snd ts) c) (combine ids segss) chs -> ForallOrdPairs (other_channel f) chs.
Proof.
  intros SI HPb LN F.
  assert (SP : ForallOrdPairs (fun a b : tid * list seg => id_lt f (fst a) (fst b) /\ (f_split f = true -> 0 < t_pub (fst a) /\ 0 < t_pub (fst b))) (combine ids segss)).
  { pose proof (ids_sorted_pairs f _ SI) as P. clear - P LN HPb. revert segss LN. induction P as [|t ids H P IH]; intros [|s segss] LN; try discriminate; cbn [combine]; constructor.
    - apply Forall_forall. intros [t' s'] Hin. cbn [fst]. apply in_combine_l in Hin. rewrite Forall_forall in H. split; [auto|]. intros Sp. specialize (HPb Sp). rewrite Forall_forall in HPb. split; apply HPb; [left; reflexivity|right; exact Hin].
    - apply IH; [|cbn in LN; lia]. intros Sp. specialize (HPb Sp). inversion HPb; assumption. }
  eapply pairs_impl; [|exact (pairs_along _ _ _ _ F SP)]. cbv beta. intros c c' (a & a' & CB & CB' & L & HP) x y Hx Hy.
  destruct (chan_records _ _ _ _ CB) as (_ & _ & FA). destruct (chan_records _ _ _ _ CB') as (_ & _ & FB). rewrite Forall_forall in FA, FB.
  destruct (FA x Hx) as (_ & _ & X1 & X2 & _). destruct (FB y Hy) as (_ & _ & Y1 & Y2 & _). rewrite X1, X2, Y1, Y2. destruct L as [L|(Sp & _ & L)].
  - left. intros E. rewrite E in L. exact (slt_irrefl _ L).
  - right. specialize (HP Sp). split; [exact Sp|]. lia.
Qed.

Lemma written_back fs closed wrote e path overwrite reclen encoding flags k ids segss x sch type_of :
  let o := write_opts (mk_popt reclen encoding None flags) in let g := t_read x in
  path <> [45] -> lenZ path < 512 -> ~ has_colon path -> no_range (g_flags g) path -> has_flag (g_flags g) 1 = true -> g_hb g = false -> g_select g = None -> delivers sch ->
  g_mode g = Strict -> t_ttol x = None -> t_rtol x = None ->
  writes_all wrote -> starts_with fs overwrite path [] -> has_flag flags MSF_PACKVER2 = false -> good_call e o ->
  tl_ids k = Ok ids -> ids <> [] -> Forall2 (fun t segs => tid_segs t = Ok segs) ids segss -> Forall good_id ids ->
  Forall2 (fun t segs => Forall (ready3 Strict e o t) segs /\ regular (e_leaps e ++ t_leaps x) type_of t segs) ids segss ->
  ids_sorted (t_conf x) ids -> (t_split x = true -> Forall (fun t => 0 < t_pub t) ids) ->
  sum (map (fun s => lenZ (s_data s)) (concat segss)) < 2 ^ 63 ->
  exists w data, write_tracelist fs true closed wrote e path overwrite reclen encoding flags k = Ok w /\ w_files w path = Some data /\
    (lenZ data < 2 ^ 63 -> forall stdin heights, Forall valid_height heights -> w_ret w <= lenZ heights ->
     exists k' ptrs, read_tracelist (w_files w) stdin x sch path tl_init heights = Ok (0, Some k', ptrs) /\ list_back ids segss k').
Proof.
  intros o g NP LP NC NR F1 HB GS HD GM TT RT W SW V G Ei NI FT GI FR SI HPb HSum.
  assert (RD : Forall (fun t => good_id t /\ exists segs, tid_segs t = Ok segs /\ Forall (ready3 (g_mode g) e o t) segs) ids).
  { rewrite GM. clear - FT GI FR. revert GI FR. induction FT as [|t segs ids segss T1 FT IH]; intros GI FR; [constructor|]. inversion GI; subst. inversion FR as [|? ? ? ? (R1 & _) FR']; subst. constructor; [|auto]. split; [assumption|]. exists segs. auto. }
  destruct (write_list (g_mode g) (g_flags g) fs closed wrote e path overwrite reclen encoding flags k ids _ F1 NP W SW V G Ei RD) as (w & partss & Ew & Er & Ef & _ & _ & _ & _ & D).
  cbn [app] in Ef. exists w, (file_of (concat (concat partss)) []). split; [exact Ew|]. split; [exact Ef|]. intros LD stdin heights VH LH.
  set (f := t_conf x). destruct (chans_built f (g_mode g) (g_flags g) e o type_of ids segss partss FT) as (chs & C1 & C2 & C3 & C4); [rewrite GM; exact FR|exact D|].
  assert (LN : length segss = length ids) by (clear - FT; induction FT; cbn; congruence).
  assert (LP2 : length (map (fun x => trec_of (part_rec x)) (concat (concat partss))) = length (concat (concat partss))) by apply map_length.
  assert (LE : (length (concat (concat partss)) <= length heights)%nat) by (unfold lenZ in *; lia).
  assert (FC : forall (A B : Type) (a : list A) (h : list B), (length a <= length h)%nat -> map fst (combine a h) = a).
  { clear. intros A B. induction a as [|y a IH]; intros [|z h] H; cbn in *; try lia; [reflexivity|reflexivity|]. rewrite IH by lia. reflexivity. }
  destruct (chans_default f chs (combine (map (fun x => trec_of (part_rec x)) (concat (concat partss))) heights)) as (k' & EA & RC).
  - exact GM. - reflexivity. - exact TT. - exact RT.
  - apply Forall_forall. intros c Hc. destruct (Forall2_in_r _ _ _ _ C1 Hc) as (ts & _ & CB). exact (chan_fine _ _ _ _ CB).
  - exact (other_chans f ids segss chs SI HPb LN C1).
  - intros r r' Hr Hr' Es _. apply in_map_iff in Hr, Hr'. destruct Hr as (y & <- & Hy). destruct Hr' as (y' & <- & Hy'). rewrite Forall_forall in C3. destruct (C3 y Hy) as [A1 A2]. destruct (C3 y' Hy') as [B1 _].
    rewrite A1, B1, <- Es. auto.
  - rewrite map_map, C4. exact HSum.
  - rewrite FC by (rewrite LP2; exact LE). rewrite C2. reflexivity.
  - unfold given. apply Forall_forall. intros [r h] Hin. cbn [fst snd]. split.
    + apply in_combine_r in Hin. rewrite Forall_forall in VH. auto.
    + apply in_combine_l in Hin. rewrite <- C2 in Hin. apply in_map_iff in Hin. destruct Hin as (y & <- & Hy). apply in_concat in Hy. destruct Hy as (l & Hl & Hy). apply in_map_iff in Hl. destruct Hl as (c & <- & Hc).
      destruct (Forall2_in_r _ _ _ _ C1 Hc) as ([t segs] & Hts & CB). destruct (chan_records _ _ _ _ CB) as (_ & _ & FA). rewrite Forall_forall in FA. destruct (FA y Hy) as (_ & _ & _ & -> & _).
      apply in_combine_l in Hts. rewrite Forall_forall in GI. destruct (GI t Hts) as (_ & _ & _ & Pb). cbn [fst]. unfold in_u in Pb. lia.
  - exists k'. assert (NE : concat (concat partss) <> []).
    { intros E0. rewrite E0 in C2. apply map_eq_nil in C2. 
      destruct ids as [|t ids]; [congruence|]. destruct segss as [|segs segss]; [discriminate LN|]. cbn [combine] in C1. inversion C1 as [|ts c l chs' CB C1']; subst.
      destruct (chan_records _ _ _ _ CB) as (NC2 & NT2 & _). cbn [map concat] in C2. apply app_eq_nil in C2. destruct C2 as [C2 _]. destruct c as [|T c]; [congruence|]. inversion NT2; subst. destruct T; [congruence|discriminate]. }
    destruct (read_written (w_files w) stdin x sch path (concat (concat partss)) heights k') as (_ & ptrs & E); auto.
    + apply h_file; assumption.
    + exact (written_readable _ _ _ _ _ _ _ D).
    + exists ptrs. split; [exact E|]. exact (list_read f ids segss chs k' GM SI LN C1 RC).
Qed.
