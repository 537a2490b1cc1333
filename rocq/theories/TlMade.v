(** * Segments are made of records. *)

From Coq Require Import Permutation.
From Verif Require Import Base BaseLemmas RecProof TlModel TlSpec TlHeap TlSegs.
Open Scope Z_scope.

Lemma sarith_mod m v x : sarith m 64 v = Ok x -> (exists z, x = v + z * 2 ^ 64) /\ (m = Strict -> x = v) /\ in_s 64 x.
Proof.
  unfold sarith. destruct (in_sb 64 v) eqn:E.
  - intro H; injection H as <-. apply in_sb_spec in E. split; [exists 0; lia|auto].
  - destruct m; [discriminate|]. intro H; injection H as <-. split; [|split; [discriminate|]].
    + unfold swrap. pose proof (Z.div_mod v (2 ^ 64)) as D. destruct (v mod 2 ^ 64 <? 2 ^ (64 - 1)).
      * exists (- (v / 2 ^ 64)). lia.
      * exists (- (v / 2 ^ 64) - 1). lia.
    + apply swrap_range. lia.
Qed.

Lemma swrap_eq x v : in_s 64 x -> (exists z, x = v + z * 2 ^ 64) -> swrap 64 v = x.
Proof.
  intros H [z E]. rewrite <- (swrap_id 64 x) by (lia || exact H). rewrite <- (swrap_mod 64 v), <- (swrap_mod 64 x) by lia.
  f_equal. rewrite E. rewrite Z_mod_plus_full. reflexivity.
Qed.

Lemma gap_val m x y p g : gap m x y p = Ok g -> swrap 64 (x - y - p) = g /\ (m = Strict -> g = x - y - p).
Proof.
  unfold gap. destruct (sarith m 64 (x - y)) as [a| | |] eqn:E1; cbn; try discriminate. intro E2.
  apply sarith_mod in E1. apply sarith_mod in E2. destruct E1 as ((z1 & E1) & S1 & _). destruct E2 as ((z2 & E2) & S2 & R).
  split.
  - apply swrap_eq; [exact R|]. exists (z1 + z2). lia.
  - intro Hm. rewrite (S2 Hm), (S1 Hm). reflexivity.
Qed.

Lemma calc_end f r e c : calc_of f r e = Ok c -> c_end c = e /\ c_hz c = sampratehz (r_rate r)
  /\ c_rtol c = match f_rtol f with Some g => g r | None => DFin (-1 # 1) end.
Proof.
  unfold calc_of. destruct (nsperiod (r_rate r)) as [p| | |]; cbn; try discriminate.
  destruct (match f_ttol f with Some x => _ | None => _ end) as [tol| | |]; cbn; try discriminate.
  destruct (if tol =? 0 then _ else _) as [nt| | |]; cbn; try discriminate. intro H; injection H as <-. auto.
Qed.

Lemma fits_true c g hz : fits c g hz = true -> c_ntol c <= g <= c_tol c /\ rate_similar (c_hz c) hz (c_rtol c) = true.
Proof. unfold fits. rewrite !Bool.andb_true_iff. intros [[H1 H2] H3]. split; [lia|exact H3]. Qed.

Lemma at_end_follows f r c s x : calc_of f r (c_end c) = Ok c -> at_end f r c s = Ok true -> s_end s = snd x ->
  follows f x (r, c_end c) /\ rate_similar (c_hz c) (s_hz s) (c_rtol c) = true.
Proof.
  intros Hc H E. unfold at_end in H. destruct (gap _ _ _ _) as [g| | |] eqn:G; cbn in H; try discriminate. injection H as H.
  apply fits_true in H. destruct H as [H1 H2]. apply gap_val in G. rewrite E in G. destruct G as [G1 G2].
  split; [|exact H2]. exists c. cbn [fst snd]. rewrite G1. split; [auto|]. split; [exact H1|]. intro Hm. rewrite <- (G2 Hm). exact H1.
Qed.
Lemma at_beg_follows f r c s x : calc_of f r (c_end c) = Ok c -> at_beg f r c s = Ok true -> s_start s = r_start (fst x) ->
  follows f (r, c_end c) x /\ rate_similar (c_hz c) (s_hz s) (c_rtol c) = true.
Proof.
  intros Hc H E. unfold at_beg in H. destruct (gap _ _ _ _) as [g| | |] eqn:G; cbn in H; try discriminate. injection H as H.
  apply fits_true in H. destruct H as [H1 H2]. apply gap_val in G. rewrite E in G. destruct G as [G1 G2].
  split; [|exact H2]. exists c. cbn [fst snd]. rewrite G1. split; [auto|]. split; [exact H1|]. intro Hm. rewrite <- (G2 Hm). exact H1.
Qed.

Lemma sum_app l1 l2 : sum (l1 ++ l2) = sum l1 + sum l2.
Proof. unfold sum. induction l1; cbn in *; lia. Qed.

Lemma linked_app f : forall L1 x y L2, linked f (L1 ++ [x]) -> linked f (y :: L2) -> follows f x y -> linked f ((L1 ++ [x]) ++ y :: L2).
Proof.
  induction L1 as [|z L1 IH]; intros x y L2 H1 H2 H3.
  - split; assumption.
  - cbn in H1 |- *. destruct H1 as [H1 H4]. split; [|apply IH; assumption].
    destruct L1; exact H1.
Qed.

Lemma rates_app f L1 L2 : rates_joined f L1 -> rates_joined f L2 ->
  (exists x y, In x L1 /\ In y L2 /\ (rate_like f (fst x) (fst y) \/ rate_like f (fst y) (fst x))) -> rates_joined f (L1 ++ L2).
Proof.
  intros H1 H2 (a & b & Ha & Hb & Hab) P HP (x0 & Hx0 & P0).
  assert (C1 : (exists x, In x L1 /\ P (fst x)) -> forall x, In x L1 -> P (fst x)).
  { apply H1. intros x y Hx Hy. apply HP; apply in_or_app; auto. }
  assert (C2 : (exists x, In x L2 /\ P (fst x)) -> forall x, In x L2 -> P (fst x)).
  { apply H2. intros x y Hx Hy. apply HP; apply in_or_app; auto. }
  assert (AB : P (fst a) -> P (fst b)). { apply HP; [apply in_or_app; auto|apply in_or_app; auto|exact Hab]. }
  assert (BA : P (fst b) -> P (fst a)). { apply HP; [apply in_or_app; auto|apply in_or_app; auto|tauto]. }
  intros x Hx. apply in_app_iff in Hx. apply in_app_iff in Hx0.
  assert (PA : P (fst a)).
  { destruct Hx0 as [Hx0|Hx0]; [apply C1; eauto|apply BA, C2; eauto]. }
  destruct Hx as [Hx|Hx]; [apply C1; eauto|apply C2; eauto].
Qed.

Lemma rates_one f x : rates_joined f [x].
Proof. intros P _ (y & [<-|[]] & H) z [<-|[]]. exact H. Qed.

Lemma recordptr_eq keep s r e w s' : add_recordptr keep s r e w = Ok s' ->
  s_start s' = s_start s /\ s_end s' = s_end s /\ s_hz s' = s_hz s /\ s_cnt s' = s_cnt s /\ s_type s' = s_type s /\ s_data s' = s_data s
  /\ s_recs s' = if keep then (match s_recs s with [] => [(r, e)] | _ => if w =? 2 then (r, e) :: s_recs s else s_recs s ++ [(r, e)] end) else s_recs s.
Proof.
  unfold add_recordptr. destruct keep; cbn [negb].
  - destruct (s_recs s) as [|y l] eqn:E.
    + intro H; injection H as <-. cbn. auto 10.
    + destruct (_ && _); [discriminate|]. intro H; injection H as <-. cbn. auto 10.
  - intro H; injection H as <-. auto 10.
Qed.

Lemma made_new f r e w s : new_seg f r e w = Ok s -> made f s [(r, e)].
Proof.
  unfold new_seg. destruct (msr2seg r e) as [s0| | |] eqn:E; cbn; try discriminate. intro H. apply recordptr_eq in H.
  destruct H as (H1 & H2 & H3 & H4 & H5 & H6 & H7).
  assert (S0 : s0 = mk_seg (r_start r) e (sampratehz (r_rate r)) (r_cnt r) (r_type r) (r_data r) []
               /\ (r_data r <> [] -> known_type (r_type r) = true)).
  { unfold msr2seg in E. destruct (r_data r) eqn:D; [injection E as <-; split; [reflexivity|congruence]|].
    destruct (known_type (r_type r)); [injection E as <-; auto|discriminate]. }
  destruct S0 as [-> KT]. cbn in *. constructor.
  - exists (r, e), []. auto.
  - exists [], (r, e). auto.
  - rewrite H6. cbn. rewrite app_nil_r. reflexivity.
  - exists 0. cbn. split; [lia|auto].
  - rewrite H7. destruct (f_keep f); reflexivity.
  - constructor; [|constructor]. cbn. rewrite H5. auto.
  - exists (r, e). cbn. auto.
  - cbn. auto.
  - apply rates_one.
Qed.

Lemma ext_eq f r c w s s' : ext f r c w s = Ok s' -> w = 1 \/ w = 2 ->
  (r_data r <> [] -> r_type r = s_type s /\ known_type (s_type s) = true)
  /\ s_start s' = (if w =? 1 then s_start s else r_start r) /\ s_end s' = (if w =? 1 then c_end c else s_end s)
  /\ s_hz s' = s_hz s /\ s_type s' = s_type s
  /\ (exists z, s_cnt s' = s_cnt s + r_cnt r + z * 2 ^ 64 /\ (f_mode f = Strict -> z = 0))
  /\ s_data s' = (if w =? 1 then s_data s ++ r_data r else r_data r ++ s_data s)
  /\ (f_keep f = true -> s_recs s <> [] -> s_recs s' = if w =? 1 then s_recs s ++ [(r, c_end c)] else (r, c_end c) :: s_recs s)
  /\ (f_keep f = false -> s_recs s' = s_recs s).
Proof.
  unfold ext. destruct (addmsrtoseg (f_mode f) s r (c_end c) w) as [s1| | |] eqn:E; cbn; try discriminate. intros H Hw.
  apply recordptr_eq in H. destruct H as (H1 & H2 & H3 & H4 & H5 & H6 & H7).
  unfold addmsrtoseg in E. destruct (match r_data r with [] => false | _ => _ end) eqn:T; [discriminate|].
  assert (KT : r_data r <> [] -> r_type r = s_type s /\ known_type (s_type s) = true).
  { destruct (r_data r); [congruence|]. intros _. apply Bool.orb_false_iff in T. destruct T as [T1 T2].
    apply Bool.negb_false_iff in T1, T2. apply Z.eqb_eq in T1. rewrite <- T1. auto. }
  assert (CN : forall v, sarith (f_mode f) 64 (s_cnt s + r_cnt r) = Ok v -> exists z, v = s_cnt s + r_cnt r + z * 2 ^ 64 /\ (f_mode f = Strict -> z = 0)).
  { intros v Hv. apply sarith_mod in Hv. destruct Hv as ((z & Hz) & Hm & _). exists z. split; [exact Hz|]. intro M. specialize (Hm M). lia. }
  split; [exact KT|].
  destruct Hw as [-> | ->]; cbn [Z.eqb Pos.eqb] in *.
  - destruct (sarith (f_mode f) 64 (s_cnt s + r_cnt r)) as [v| | |] eqn:Ev; cbn in E; try discriminate. injection E as <-. cbn in *.
    rewrite H1, H2, H3, H4, H5, H6. repeat split; auto.
    + intros Hk Hr. rewrite Hk in H7. rewrite H7. destruct (s_recs s); [congruence|reflexivity].
    + intros Hk. rewrite Hk in H7. exact H7.
  - destruct (sarith (f_mode f) 64 (s_cnt s + r_cnt r)) as [v| | |] eqn:Ev; cbn in E; try discriminate. injection E as <-. cbn in *.
    rewrite H1, H2, H3, H4, H5, H6. repeat split; auto.
    + intros Hk Hr. rewrite Hk in H7. rewrite H7. destruct (s_recs s); [congruence|reflexivity].
    + intros Hk. rewrite Hk in H7. exact H7.
Qed.

Lemma made_recs_nonempty f s L : made f s L -> f_keep f = true -> s_recs s <> [].
Proof. intros M K. rewrite (md_recs _ _ _ M), K. destruct (md_start _ _ _ M) as (x & L' & -> & _). discriminate. Qed.

Lemma like_of f r c s L : calc_of f r (c_end c) = Ok c -> made f s L -> rate_similar (c_hz c) (s_hz s) (c_rtol c) = true ->
  exists x, In x L /\ rate_like f r (fst x).
Proof.
  intros Hc M H. destruct (md_hz _ _ _ M) as (x & Hx & E & _). exists x. split; [exact Hx|]. unfold rate_like.
  apply calc_end in Hc. destruct Hc as (_ & E1 & E2). rewrite <- E1, <- E2, <- E. exact H.
Qed.

Lemma made_end f r c s s' L : calc_of f r (c_end c) = Ok c -> made f s L -> at_end f r c s = Ok true -> ext f r c 1 s = Ok s' ->
  made f s' (L ++ [(r, c_end c)]).
Proof.
  intros Hc M Ha He. apply ext_eq in He; [|auto]. destruct He as (KT & E1 & E2 & E3 & E4 & (z & E5 & E5') & E6 & E7 & E8).
  cbn [Z.eqb Pos.eqb] in *. destruct (md_end _ _ _ M) as (L' & x & EL & Ex).
  destruct (at_end_follows _ _ _ _ x Hc Ha Ex) as [FO RS]. destruct (like_of _ _ _ _ _ Hc M RS) as (y & Hy & LY).
  constructor.
  - destruct (md_start _ _ _ M) as (u & L2 & -> & Eu). exists u, (L2 ++ [(r, c_end c)]). rewrite E1. auto.
  - exists L, (r, c_end c). auto.
  - rewrite E6, (md_data _ _ _ M), map_app, concat_app. cbn. rewrite app_nil_r. reflexivity.
  - destruct (md_cnt _ _ _ M) as (z0 & Z1 & Z2). exists (z0 + z). rewrite map_app, sum_app. cbn. split; [lia|]. intro Hm. specialize (Z2 Hm). specialize (E5' Hm). lia.
  - destruct (f_keep f) eqn:K.
    + rewrite E7; [|reflexivity|exact (made_recs_nonempty _ _ _ M K)]. rewrite (md_recs _ _ _ M), K. reflexivity.
    + rewrite E8 by reflexivity. rewrite (md_recs _ _ _ M), K. reflexivity.
  - rewrite E4. apply Forall_app. split; [exact (md_type _ _ _ M)|]. constructor; [exact KT|constructor].
  - destruct (md_hz _ _ _ M) as (u & Hu & Eu & Tu). exists u. split; [apply in_or_app; auto|split; congruence].
  - rewrite EL. apply linked_app; [rewrite <- EL; exact (md_linked _ _ _ M)|cbn; auto|exact FO].
  - apply rates_app; [exact (md_rates _ _ _ M)|apply rates_one|]. exists y, (r, c_end c). cbn. auto.
Qed.

Lemma made_beg f r c s s' L : calc_of f r (c_end c) = Ok c -> made f s L -> at_beg f r c s = Ok true -> ext f r c 2 s = Ok s' ->
  made f s' ((r, c_end c) :: L).
Proof.
  intros Hc M Ha He. apply ext_eq in He; [|auto]. destruct He as (KT & E1 & E2 & E3 & E4 & (z & E5 & E5') & E6 & E7 & E8).
  cbn [Z.eqb Pos.eqb] in *. destruct (md_start _ _ _ M) as (x & L' & EL & Ex).
  destruct (at_beg_follows _ _ _ _ x Hc Ha Ex) as [FO RS]. destruct (like_of _ _ _ _ _ Hc M RS) as (y & Hy & LY).
  constructor.
  - exists (r, c_end c), L. auto.
  - destruct (md_end _ _ _ M) as (L2 & u & -> & Eu). exists ((r, c_end c) :: L2), u. rewrite E2. auto.
  - rewrite E6, (md_data _ _ _ M). reflexivity.
  - destruct (md_cnt _ _ _ M) as (z0 & Z1 & Z2). exists (z0 + z). cbn. split; [unfold sum in *; lia|]. intro Hm. specialize (Z2 Hm). specialize (E5' Hm). lia.
  - destruct (f_keep f) eqn:K.
    + rewrite E7; [|reflexivity|exact (made_recs_nonempty _ _ _ M K)]. rewrite (md_recs _ _ _ M), K. reflexivity.
    + rewrite E8 by reflexivity. rewrite (md_recs _ _ _ M), K. reflexivity.
  - rewrite E4. constructor; [exact KT|exact (md_type _ _ _ M)].
  - destruct (md_hz _ _ _ M) as (u & Hu & Eu & Tu). exists u. split; [right; exact Hu|split; congruence].
  - rewrite EL. split; [exact FO|]. rewrite <- EL. exact (md_linked _ _ _ M).
  - apply (rates_app f [(r, c_end c)] L); [apply rates_one|exact (md_rates _ _ _ M)|]. exists (r, c_end c), y. cbn. auto.
Qed.

Lemma concat_nil {B} (l : list (list B)) : concat l = [] -> Forall (fun x => x = []) l.
Proof. induction l as [|x l IH]; cbn; [constructor|]. intro H. apply app_eq_nil in H. destruct H. constructor; auto. Qed.

Lemma made_join f r c b' a s' L1 L2 : calc_of f r (c_end c) = Ok c ->
  made f b' (L1 ++ [(r, c_end c)]) -> made f a L2 -> at_beg f r c a = Ok true -> addsegtoseg (f_mode f) b' a = Ok s' ->
  made f s' ((L1 ++ [(r, c_end c)]) ++ L2).
Proof.
  intros Hc M1 M2 Ha He. destruct (md_start _ _ _ M2) as (x & L' & EL & Ex).
  destruct (at_beg_follows _ _ _ _ x Hc Ha Ex) as [FO RS]. destruct (like_of _ _ _ _ _ Hc M2 RS) as (y & Hy & LY).
  unfold addsegtoseg in He. destruct (match s_data a with [] => false | _ => _ end) eqn:T; [discriminate|].
  destruct (sarith (f_mode f) 64 (s_cnt b' + s_cnt a)) as [v| | |] eqn:Ev; cbn in He; try discriminate. injection He as <-.
  apply sarith_mod in Ev. destruct Ev as ((z & Hz) & Hm & _).
  constructor; cbn [s_start s_end s_hz s_cnt s_type s_data s_recs].
  - destruct (md_start _ _ _ M1) as (u & L3 & -> & Eu). exists u, (L3 ++ L2). auto.
  - destruct (md_end _ _ _ M2) as (L3 & u & -> & Eu). exists ((L1 ++ [(r, c_end c)]) ++ L3), u. split; [rewrite app_assoc; reflexivity|exact Eu].
  - rewrite (md_data _ _ _ M1), (md_data _ _ _ M2), (map_app _ (L1 ++ [(r, c_end c)])), concat_app. reflexivity.
  - destruct (md_cnt _ _ _ M1) as (z1 & A1 & B1). destruct (md_cnt _ _ _ M2) as (z2 & A2 & B2).
    exists (z1 + z2 + z). rewrite (map_app _ (L1 ++ [(r, c_end c)])), sum_app. split; [lia|].
    intro M. specialize (B1 M). specialize (B2 M). specialize (Hm M). lia.
  - rewrite (md_recs _ _ _ M1), (md_recs _ _ _ M2). destruct (f_keep f); reflexivity.
  - apply Forall_app. split; [exact (md_type _ _ _ M1)|].
    destruct (s_data a) as [|d da] eqn:Da.
    + pose proof (md_data _ _ _ M2) as D. rewrite Da in D. symmetry in D. apply concat_nil in D. rewrite Forall_map in D.
      eapply Forall_impl; [|exact D]. cbn. intros u Hu Hn. congruence.
    + apply Bool.orb_false_iff in T. destruct T as [T1 T2]. apply Bool.negb_false_iff in T1, T2. apply Z.eqb_eq in T1.
      eapply Forall_impl; [|exact (md_type _ _ _ M2)]. cbn. intros u Hu Hn. specialize (Hu Hn). rewrite <- T1. split; [apply Hu|rewrite T1; exact T2].
  - destruct (md_hz _ _ _ M1) as (u & Hu & Eu). exists u. split; [apply in_or_app; auto|exact Eu].
  - rewrite EL. apply linked_app; [exact (md_linked _ _ _ M1)|rewrite <- EL; exact (md_linked _ _ _ M2)|exact FO].
  - apply rates_app; [exact (md_rates _ _ _ M1)|exact (md_rates _ _ _ M2)|].
    exists (r, c_end c), y. split; [apply in_or_app; right; left; reflexivity|]. cbn. auto.
Qed.

Lemma Forall2_cut {X Y} (R : X -> Y -> Prop) l1 x l2 m : Forall2 R (l1 ++ x :: l2) m ->
  exists m1 y m2, m = m1 ++ y :: m2 /\ Forall2 R l1 m1 /\ R x y /\ Forall2 R l2 m2.
Proof.
  intro H. apply Forall2_app_inv_l in H. destruct H as (m1 & m2 & H1 & H2 & ->).
  inversion H2; subst. eauto 8.
Qed.

Lemma change_made f r c e l old others s gs : calc_of f r (c_end c) = Ok c ->
  change f r c e l old others s -> Forall2 (made f) old gs ->
  exists og g, Forall2 (made f) others og /\ made f s g /\ Permutation (g ++ concat og) ((r, c_end c) :: concat gs).
Proof.
  intros Hc CH F. destruct CH as [l1 u l2 s' H1 H2 _|l1 u l2 s' H1 H2 _|l1 l2 s' w H1 _|l1 x l2 y l3 b a b' s' Hh Hba H1 H2 H3 H4].
  - apply Forall2_cut in F. destruct F as (m1 & g & m2 & -> & F1 & M & F2).
    exists (m1 ++ m2), (g ++ [(r, c_end c)]). split; [apply Forall2_app; auto|]. split; [eapply made_end; eauto|].
    rewrite !concat_app. cbn. rewrite <- app_assoc. cbn. etransitivity; [symmetry; apply Permutation_middle|]. constructor.
    rewrite Permutation_app_swap_app. reflexivity.
  - apply Forall2_cut in F. destruct F as (m1 & g & m2 & -> & F1 & M & F2).
    exists (m1 ++ m2), ((r, c_end c) :: g). split; [apply Forall2_app; auto|]. split; [eapply made_beg; eauto|].
    rewrite !concat_app. cbn. constructor. rewrite Permutation_app_swap_app. reflexivity.
  - exists gs, [(r, c_end c)]. split; [exact F|]. split; [eapply made_new; eauto|]. reflexivity.
  - apply Forall2_cut in F. destruct F as (m1 & gx & m & -> & F1 & MX & F).
    apply Forall2_cut in F. destruct F as (m2 & gy & m3 & -> & F2 & MY & F3).
    assert (Q : exists gb ga, made f b gb /\ made f a ga /\ Permutation (gb ++ ga) (gx ++ gy)).
    { destruct Hba as [[-> ->]|[-> ->]]; [exists gx, gy|exists gy, gx]; auto using Permutation_app_comm. }
    destruct Q as (gb & ga & MB & MA & PQ).
    exists (m1 ++ m2 ++ m3), ((gb ++ [(r, c_end c)]) ++ ga).
    split; [apply Forall2_app; [auto|apply Forall2_app; auto]|].
    split; [eapply made_join; eauto; eapply made_end; eauto|].
    rewrite !concat_app. cbn. rewrite !concat_app. cbn. rewrite <- !app_assoc. cbn.
    etransitivity; [symmetry; apply Permutation_middle|]. constructor.
    rewrite app_assoc, PQ, <- app_assoc.
    rewrite (Permutation_app_swap_app (concat m1) gx). apply Permutation_app_head.
    rewrite (Permutation_app_swap_app (concat m2) gy).
    rewrite (Permutation_app_swap_app (concat m1) gy). reflexivity.
Qed.
