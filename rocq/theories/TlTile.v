(** * Records that tile a time span end up in one segment. *)

From Coq Require Import Permutation.
From Verif Require Import Base BaseLemmas RecProof TlModel TlSpec TlHeap TlSegs TlSkip TlMade TlProof RateProof TlTime.
Open Scope Z_scope.

(** ** Segments that cannot be joined *)

Definition near (p tol b a : Z) : Prop := - tol <= a - b - p <= tol.
Definition apart (p tol : Z) (l : list seg) : Prop :=
  forall s u, In s l -> In u l -> ~ near p tol (s_end s) (s_start u).

Section Step.
Context (f : conf) (r : trec) (c : calc) (p tol : Z).
Context (HM : f_mode f = Strict) (HH : f_heal f = true).
Context (Hp : c_period c = p) (Ht : c_tol c = tol) (Hn : c_ntol c = - tol) (H0 : 0 <= tol < p) (Hr : r_start r <= c_end c).

Definition like (s : seg) : Prop := rate_similar (c_hz c) (s_hz s) (c_rtol c) = true.

Lemma at_end_near s v : like s -> at_end f r c s = Ok v -> (v = true <-> near p tol (s_end s) (r_start r)).
Proof.
  intros HL H. unfold at_end in H. destruct (gap _ _ _ _) as [g| | |] eqn:G; cbn in H; try discriminate. injection H as <-.
  apply gap_val in G. destruct G as [_ G]. specialize (G HM). unfold fits. rewrite HL, Ht, Hn. subst g. rewrite Hp. unfold near.
  rewrite Bool.andb_true_r, Bool.andb_true_iff, !Z.leb_le. lia.
Qed.
Lemma at_beg_near s v : like s -> at_beg f r c s = Ok v -> (v = true <-> near p tol (c_end c) (s_start s)).
Proof.
  intros HL H. unfold at_beg in H. destruct (gap _ _ _ _) as [g| | |] eqn:G; cbn in H; try discriminate. injection H as <-.
  apply gap_val in G. destruct G as [_ G]. specialize (G HM). unfold fits. rewrite HL, Ht, Hn. subst g. rewrite Hp. unfold near.
  rewrite Bool.andb_true_r, Bool.andb_true_iff, !Z.leb_le. lia.
Qed.

Lemma apart_cons s l : ~ near p tol (s_end s) (s_start s) ->
  Forall (fun u => ~ near p tol (s_end s) (s_start u) /\ ~ near p tol (s_end u) (s_start s)) l -> apart p tol l -> apart p tol (s :: l).
Proof.
  intros H1 H2 H3 x y [<-|Hx] [<-|Hy]; auto; rewrite Forall_forall in H2; [apply (H2 y Hy)|apply (H2 x Hx)].
Qed.
Lemma apart_incl l l' : incl l l' -> apart p tol l' -> apart p tol l.
Proof. intros H A s u Hs Hu. apply A; auto. Qed.

Lemma ordered_last l1 s : ordered (l1 ++ [s]) -> Forall (fun u => s_start u <= s_start s) (l1 ++ [s]).
Proof.
  induction l1 as [|a l1 IH]; cbn; intros H; [constructor; [lia|constructor]|]. destruct H as [H1 H2]. constructor; [|auto].
  rewrite Forall_forall in H1. specialize (H1 s (in_or_app l1 [s] s (or_intror (in_eq s [])))). unfold seg_le in H1. lia.
Qed.

Lemma change_apart early late old others s :
  change f r c early late old others s -> ordered old -> Forall like old ->
  Forall (fun u => s_start u <= s_end u /\ early <= s_start u /\ s_end u <= late) old -> ~ Exists (exact r c) old ->
  apart p tol old -> apart p tol (s :: others).
Proof.
  intros CH HO HL HT HE HA. unfold near in *.
  destruct CH as [l1 u l2 s' H1 H2 HC|l1 u l2 s' H1 H2 HC|l1 l2 s' w H1 HC|l1 x l2 y l3 b a b' s' Hh Hba H1 H2 H3 H4].
  - (* at the end *)
    assert (Hu : In u (l1 ++ u :: l2)) by (apply in_or_app; right; left; reflexivity).
    rewrite Forall_forall in HL, HT. pose proof (HL u Hu) as Lu. pose proof (HT u Hu) as Tu.
    pose proof (proj1 (at_end_near u true Lu H1) eq_refl) as N.
    apply ext_eq in H2; [|auto]. destruct H2 as (_ & E1 & E2 & _). cbn [Z.eqb Pos.eqb] in E1, E2.
    assert (I : incl (l1 ++ l2) (l1 ++ u :: l2)).
    { intros z Hz. apply in_app_iff in Hz. apply in_or_app. cbn. tauto. }
    assert (NB : forall v, In v (l1 ++ u :: l2) -> ~ near p tol (c_end c) (s_start v)).
    { intros v Hv. pose proof (HL v Hv) as Lv. pose proof (HT v Hv) as Tv. destruct HC as [->|HC].
      - pose proof (ordered_last l1 u HO) as Q. rewrite Forall_forall in Q. specialize (Q v Hv). unfold near in *. lia.
      - destruct (HC HH) as [HB|[HB|HB]]; [|rewrite Forall_forall in HB|contradiction].
        + apply at_beg_near in HB; [|exact Lu]. pose proof (proj1 HB eq_refl). unfold near in *. lia.
        + specialize (HB v Hv). apply at_beg_near in HB; [|exact Lv]. intro X. apply HB in X. discriminate. }
    apply apart_cons; rewrite ?E1, ?E2; [apply NB; exact Hu| |exact (apart_incl _ _ I HA)].
    apply Forall_forall. intros v Hv. apply I in Hv. split; [apply NB; exact Hv|apply HA; assumption].
  - (* at the beginning *)
    assert (Hu : In u (l1 ++ u :: l2)) by (apply in_or_app; right; left; reflexivity).
    rewrite Forall_forall in HL, HT. pose proof (HL u Hu) as Lu. pose proof (HT u Hu) as Tu.
    pose proof (proj1 (at_beg_near u true Lu H1) eq_refl) as N.
    apply ext_eq in H2; [|auto]. destruct H2 as (_ & E1 & E2 & _). cbn [Z.eqb Pos.eqb] in E1, E2.
    assert (I : incl (l1 ++ l2) (l1 ++ u :: l2)).
    { intros z Hz. apply in_app_iff in Hz. apply in_or_app. cbn. tauto. }
    assert (NB : forall v, In v (l1 ++ u :: l2) -> ~ near p tol (s_end v) (r_start r)).
    { intros v Hv. pose proof (HL v Hv) as Lv. pose proof (HT v Hv) as Tv. destruct HC as [->|HC].
      - cbn [app] in *. destruct HO as [HO _]. destruct Hv as [<-|Hv]; [unfold near in *; lia|].
        rewrite Forall_forall in HO. specialize (HO v Hv). unfold seg_le, near in *. lia.
      - destruct (HC HH) as [HB|HB]; [|contradiction]. rewrite Forall_forall in HB.
        specialize (HB v Hv). apply at_end_near in HB; [|exact Lv]. intro X. apply HB in X. discriminate. }
    apply apart_cons; rewrite ?E1, ?E2; [apply NB; exact Hu| |exact (apart_incl _ _ I HA)].
    apply Forall_forall. intros v Hv. apply I in Hv. split; [apply HA; assumption|apply NB; exact Hv].
  - (* new *)
    apply made_new in H1. destruct (md_start _ _ _ H1) as (x & L' & EL & E1). injection EL as <- <-.
    destruct (md_end _ _ _ H1) as (L' & x & EL & E2). destruct L' as [|? [|]]; try discriminate. injection EL as <-. cbn [fst snd] in *.
    apply apart_cons; rewrite ?E1, ?E2; [unfold near; lia| |exact HA].
    apply Forall_forall. intros v Hv. rewrite Forall_forall in HL, HT. pose proof (HL v Hv) as Lv. pose proof (HT v Hv) as Tv.
    destruct HC as [(a & b & Ea & Eb & HC)|[(a & b & Ea & Eb & HC)|[HC|[_ HC]]]]; [| | |contradiction].
    + apply sarith_mod in Ea. apply sarith_mod in Eb. destruct Ea as (_ & Ea & _). destruct Eb as (_ & Eb & _).
      rewrite (Ea HM) in Eb. rewrite (Eb HM), Hp, Ht in HC. unfold near. lia.
    + apply sarith_mod in Ea. apply sarith_mod in Eb. destruct Ea as (_ & Ea & _). destruct Eb as (_ & Eb & _).
      rewrite (Ea HM) in Eb. rewrite (Eb HM), Hp, Ht in HC. unfold near. lia.
    + rewrite Forall_forall in HC. destruct (HC v Hv) as [Q1 Q2].
      apply at_end_near in Q1; [|exact Lv]. apply at_beg_near in Q2; [|exact Lv].
      split; intro X; [apply Q2 in X|apply Q1 in X]; discriminate.
  - (* joined *)
    assert (Hab : In b (l1 ++ x :: l2 ++ y :: l3) /\ In a (l1 ++ x :: l2 ++ y :: l3)).
    { assert (In x (l1 ++ x :: l2 ++ y :: l3)) by (apply in_or_app; right; left; reflexivity).
      assert (In y (l1 ++ x :: l2 ++ y :: l3)) by (apply in_or_app; right; right; apply in_or_app; right; left; reflexivity).
      destruct Hba as [[-> ->]|[-> ->]]; auto. }
    destruct Hab as [Hb Ha].
    apply ext_eq in H3; [|auto]. destruct H3 as (_ & E1 & E2 & _). cbn [Z.eqb Pos.eqb] in E1, E2.
    assert (ES : s_start s' = s_start b /\ s_end s' = s_end a).
    { unfold addsegtoseg in H4. destruct (match s_data a with [] => false | _ => _ end); [discriminate|].
      destruct (sarith _ _ _); cbn in H4; try discriminate. injection H4 as <-. cbn. auto. }
    destruct ES as [ES1 ES2].
    assert (I : incl (l1 ++ l2 ++ l3) (l1 ++ x :: l2 ++ y :: l3)).
    { intros z Hz. rewrite !in_app_iff in Hz. apply in_or_app. cbn. rewrite in_app_iff. cbn. tauto. }
    apply apart_cons; rewrite ?ES1, ?ES2; [apply HA; assumption| |exact (apart_incl _ _ I HA)].
    apply Forall_forall. intros v Hv. apply I in Hv. split; apply HA; assumption.
Qed.

End Step.

(** ** The records of segments *)

Definition healed (p tol : Z) (gs : groups) : Prop :=
  forall g g' L x y L', In g gs -> In g' gs -> g = L ++ [x] -> g' = y :: L' -> ~ near p tol (snd x) (r_start (fst y)).

Lemma Forall2_in_l {X Y} (R : X -> Y -> Prop) l m x : Forall2 R l m -> In x l -> exists y, In y m /\ R x y.
Proof. induction 1; cbn; intros H1; [contradiction|]. destruct H1 as [<-|H1]; [eauto|]. destruct (IHForall2 H1) as (z & ? & ?). eauto. Qed.
Lemma Forall2_in_r {X Y} (R : X -> Y -> Prop) l m y : Forall2 R l m -> In y m -> exists x, In x l /\ R x y.
Proof. induction 1; cbn; intros H1; [contradiction|]. destruct H1 as [<-|H1]; [eauto|]. destruct (IHForall2 H1) as (z & ? & ?). eauto. Qed.

Lemma healed_apart f p tol segs gs : Forall2 (made f) segs gs -> healed p tol gs -> apart p tol segs.
Proof.
  intros F H s u Hs Hu. destruct (Forall2_in_l _ _ _ _ F Hs) as (g & Hg & Ms). destruct (Forall2_in_l _ _ _ _ F Hu) as (g' & Hg' & Mu).
  destruct (md_end _ _ _ Ms) as (L & x & E1 & ->). destruct (md_start _ _ _ Mu) as (y & L' & E2 & ->). exact (H g g' L x y L' Hg Hg' E1 E2).
Qed.
Lemma apart_healed f p tol segs gs : Forall2 (made f) segs gs -> apart p tol segs -> healed p tol gs.
Proof.
  intros F H g g' L x y L' Hg Hg' E1 E2. destruct (Forall2_in_r _ _ _ _ F Hg) as (s & Hs & Ms). destruct (Forall2_in_r _ _ _ _ F Hg') as (u & Hu & Mu).
  destruct (md_end _ _ _ Ms) as (L2 & x2 & E3 & E4). destruct (md_start _ _ _ Mu) as (y2 & L2' & E5 & E6).
  rewrite E1 in E3. apply app_inj_tail in E3. destruct E3 as [_ <-]. rewrite E2 in E5. injection E5 as <- _.
  rewrite <- E4, <- E6. apply H; assumption.
Qed.
Lemma healed_incl p tol gs gs' : incl gs' gs -> healed p tol gs -> healed p tol gs'.
Proof. intros I H g g' L x y L' Hg Hg'. eapply H; auto. Qed.

Lemma NoDup_app_disj {X} (l m : list X) : NoDup (l ++ m) -> forall x, In x l -> ~ In x m.
Proof.
  induction l as [|a l IH]; cbn; intros H x Hx; [contradiction|]. inversion H; subst. destruct Hx as [<-|Hx]; [|auto].
  intro Q. apply H2. apply in_or_app. auto.
Qed.
Lemma NoDup_app_r {X} (l m : list X) : NoDup (l ++ m) -> NoDup m.
Proof. induction l as [|a l IH]; cbn; intros H; [exact H|]. inversion H; auto. Qed.
Lemma same_group {X} (gs : list (list X)) g g' x : NoDup (concat gs) -> In g gs -> In g' gs -> In x g -> In x g' -> g = g'.
Proof.
  induction gs as [|h gs IH]; cbn; intros N Hg Hg' Hx Hx'; [contradiction|].
  pose proof (NoDup_app_disj _ _ N x) as D.
  assert (N2 : NoDup (concat gs)) by (eapply NoDup_app_r; exact N).
  destruct Hg as [<-|Hg], Hg' as [<-|Hg']; [reflexivity| | |auto]; exfalso; apply D; auto; apply in_concat; eauto.
Qed.
Lemma NoDup_app_l {X} (l m : list X) : NoDup (l ++ m) -> NoDup l.
Proof. induction l as [|a l IH]; cbn; intros H; [constructor|]. inversion H; subst. constructor; [|auto]. intro Q. apply H2. apply in_or_app. auto. Qed.
Lemma group_NoDup {X} (gs : list (list X)) g : NoDup (concat gs) -> In g gs -> NoDup g.
Proof.
  induction gs as [|h gs IH]; cbn; intros N Hg; [contradiction|]. destruct Hg as [<-|Hg]; [eapply NoDup_app_l; exact N|].
  apply IH; [|exact Hg]. eapply NoDup_app_r; exact N.
Qed.

Lemma tiles_app p d L1 L2 : tiles p d (L1 ++ L2) -> tiles p d L2.
Proof. induction L1 as [|x L1 IH]; cbn; [auto|]. intros [_ H]. auto. Qed.

Definition sound (L : list (trec * Z)) : Prop := Forall (fun x => r_start (fst x) <= snd x) L.

Lemma tiles_gap p d : d < p -> forall L z, tiles p d (z :: L) -> sound (z :: L) -> Forall (fun x => snd z + p - d <= r_start (fst x)) L.
Proof.
  intro Hd. induction L as [|y L IH]; intros z HL HS; [constructor|]. destruct HL as [H1 H2]. inversion HS as [|? ? S1 S2]; subst. inversion S2 as [|? ? S3 S4]; subst.
  constructor; [lia|]. specialize (IH y H2 S2). eapply Forall_impl; [|exact IH]. cbn. intros a Ha. lia.
Qed.

Fixpoint rising (L : list (trec * Z)) : Prop :=
  match L with [] => True | x :: L' => Forall (fun y => r_start (fst x) < r_start (fst y)) L' /\ rising L' end.

Lemma tiles_rising p d L : d < p -> tiles p d L -> sound L -> rising L.
Proof.
  intro Hd. induction L as [|x L IH]; intros H1 H2; [exact I|]. pose proof (tiles_gap p d Hd L x H1 H2) as G. inversion H2; subst. destruct H1 as [_ H1].
  split; [|auto]. eapply Forall_impl; [|exact G]. cbn. intros a Ha. lia.
Qed.

Lemma rising_inj L x y : rising L -> In x L -> In y L -> r_start (fst x) = r_start (fst y) -> x = y.
Proof.
  induction L as [|z L IH]; cbn; [tauto|]. intros [H1 H2] Hx Hy E. rewrite Forall_forall in H1.
  destruct Hx as [<-|Hx], Hy as [<-|Hy]; [reflexivity| | |auto]; [specialize (H1 _ Hy)|specialize (H1 _ Hx)]; lia.
Qed.
Lemma rising_NoDup L : rising L -> NoDup L.
Proof.
  induction L as [|z L IH]; intros H; constructor; destruct H as [H1 H2]; [|auto]. intro Hz. rewrite Forall_forall in H1. specialize (H1 _ Hz). lia.
Qed.
Lemma rising_perm : forall L1 L2, rising L1 -> rising L2 -> Permutation L1 L2 -> L1 = L2.
Proof.
  induction L1 as [|x L1 IH]; intros [|y L2] R1 R2 P; try reflexivity.
  - apply Permutation_nil in P. discriminate.
  - symmetry in P. apply Permutation_nil in P. discriminate.
  - assert (x = y). { destruct R1 as [R1 _], R2 as [R2 _]. rewrite Forall_forall in R1, R2.
      assert (Hx : In x (y :: L2)) by (eapply Permutation_in; [exact P|left; reflexivity]).
      assert (Hy : In y (x :: L1)) by (eapply Permutation_in; [symmetry; exact P|left; reflexivity]).
      destruct Hx as [|Hx]; [auto|]. destruct Hy as [|Hy]; [auto|]. specialize (R1 _ Hy). specialize (R2 _ Hx). lia. }
    subst y. f_equal. apply IH; [apply R1|apply R2|]. eapply Permutation_cons_inv; exact P.
Qed.

Section Tile.
Context (f : conf) (p tol : Z) (T : list (trec * Z)).
Context (HM : f_mode f = Strict) (HH : f_heal f = true) (H0 : 0 <= tol < p) (HA : alike f p tol T).
Context (HI : forall x y, In x T -> In y T -> r_start (fst x) = r_start (fst y) -> x = y).

Definition within (gs : groups) : Prop := incl (concat gs) T /\ healed p tol gs.

Lemma alike_narrow L : incl L T -> Forall (narrow f) L.
Proof.
  intro I. apply Forall_forall. intros x Hx. apply I in Hx. destruct HA as [H1 _]. rewrite Forall_forall in H1.
  destruct (H1 x Hx) as (_ & H2 & c & Hc & Hp & Ht). split; [exact H2|]. intros c' Hc'. rewrite Hc in Hc'. injection Hc' as <-. lia.
Qed.

Lemma incl_group (gs : groups) g : In g gs -> incl (concat gs) T -> incl g T.
Proof. intros Hg I x Hx. apply I. apply in_concat. eauto. Qed.

Lemma made_order s g : made f s g -> incl g T -> s_start s <= s_end s.
Proof.
  intros M I. pose proof (made_covers f s g HM M (alike_narrow g I)) as Q.
  destruct (md_start _ _ _ M) as (x & L & E & _). subst g. inversion Q as [|? ? Q1 _]; subst.
  assert (Hx : In x T) by (apply I; left; reflexivity). destruct HA as [H1 _]. rewrite Forall_forall in H1. destruct (H1 x Hx) as (_ & H2 & _). lia.
Qed.

Lemma tile_keeps r e t gs : In (r, e) T -> ~ In (r, e) (concat gs) -> keeps f within r t gs.
Proof.
  intros Hin Hnew c old others s Hc Htm CH HO F HB [HX1 HX2].
  assert (e = c_end c).
  { destruct HA as [H1 _]. rewrite Forall_forall in H1. destruct (H1 _ Hin) as (Q & _). unfold timed in *. cbn in *. congruence. }
  subst e. destruct (change_made _ _ _ _ _ _ _ _ _ Hc CH F) as (og & g & F1 & M1 & P1).
  exists og, g. split; [exact F1|]. split; [exact M1|]. split; [exact P1|]. intros gs' PG.
  destruct HA as (A1 & A2 & A3). pose proof A1 as A1'. rewrite Forall_forall in A1'. destruct (A1' _ Hin) as (_ & Hse & c' & Hc' & Hp & Ht).
  cbn [fst snd] in *. rewrite Hc in Hc'. injection Hc' as <-.
  assert (IN : incl (concat gs') T).
  { intros x Hx. assert (Hx2 : In x (concat (g :: og))).
    { apply in_concat in Hx. destruct Hx as (l & Hl & Hx). apply in_concat. exists l. split; [|exact Hx]. eapply Permutation_in; eassumption. }
    cbn in Hx2. apply (Permutation_in _ P1) in Hx2. destruct Hx2 as [<-|Hx2]; [exact Hin|]. auto. }
  split; [exact IN|].
  eapply healed_incl; [intros z Hz; eapply Permutation_in; [exact PG|exact Hz]|].
  apply (apart_healed f p tol (s :: others)); [constructor; assumption|].
  apply (change_apart f r c p tol HM HH Hp Ht) with (early := t_early t) (late := t_late t) (old := old); auto.
  - rewrite <- Ht. eapply calc_ntol; eauto.
  - apply Forall_forall. intros u Hu. destruct (Forall2_in_l _ _ _ _ F Hu) as (gu & Hgu & Mu).
    destruct (md_hz _ _ _ Mu) as (x & Hx & Ex & _). unfold like. rewrite Ex. destruct (calc_end _ _ _ _ Hc) as (_ & -> & ->).
    apply (A2 (r, c_end c) x Hin). apply HX1. apply in_concat. eauto.
  - apply Forall_forall. intros u Hu. destruct (Forall2_in_l _ _ _ _ F Hu) as (gu & Hgu & Mu).
    split; [eapply made_order; [exact Mu|eapply incl_group; eauto]|].
    destruct HB as [HB _]. rewrite Forall_forall in HB.
    destruct (md_start _ _ _ Mu) as (x & L & E1 & ->). destruct (md_end _ _ _ Mu) as (L' & y & E2 & ->).
    assert (In x (concat gs)) by (apply in_concat; exists gu; split; [exact Hgu|rewrite E1; left; reflexivity]).
    assert (In y (concat gs)) by (apply in_concat; exists gu; split; [exact Hgu|rewrite E2; apply in_or_app; right; left; reflexivity]).
    split; [apply (HB x H)|apply (HB y H1)].
  - intro X. apply Exists_exists in X. destruct X as (u & Hu & [Q _]). destruct (Forall2_in_l _ _ _ _ F Hu) as (gu & Hgu & Mu).
    destruct (md_start _ _ _ Mu) as (x & L & E1 & E2). rewrite E2 in Q.
    assert (Hx : In x (concat gs)) by (apply in_concat; exists gu; split; [exact Hgu|rewrite E1; left; reflexivity]).
    assert ((r, c_end c) = x) by (apply HI; auto). subst x. contradiction.
  - eapply healed_apart; eauto.
Qed.

Lemma tile_new r e : In (r, e) T -> within [[(r, e)]].
Proof.
  intro Hin. split; [intros x [<-|[]]; exact Hin|]. intros g g' L x y L' [<-|[]] [<-|[]] E1 E2.
  destruct L as [|? [|]]; try discriminate. injection E1 as <-. injection E2 as <- _. destruct HA as [H1 _]. rewrite Forall_forall in H1.
  destruct (H1 _ Hin) as (_ & H2 & _). cbn in *. unfold near. lia.
Qed.

Lemma timed_fun L1 L2 : Forall (timed f) L1 -> Forall (timed f) L2 -> map fst L1 = map fst L2 -> L1 = L2.
Proof.
  revert L2. induction L1 as [|[r e] L1 IH]; intros [|[r2 e2] L2]; cbn; intros H1 H2 E; try discriminate; [reflexivity|].
  inversion H1 as [|? ? Q1 Q2]; subst. inversion H2 as [|? ? Q3 Q4]; subst. injection E as -> E. unfold timed in *. cbn in *.
  f_equal; [congruence|auto].
Qed.
Lemma timed_perm L1 L2 : Forall (timed f) L1 -> Forall (timed f) L2 -> Permutation (map fst L1) (map fst L2) -> Permutation L1 L2.
Proof.
  intros H1 H2 P. apply Permutation_map_inv in P. destruct P as (L3 & E & P).
  rewrite (timed_fun L1 L3 H1); [symmetry; exact P| |exact E]. eapply Permutation_Forall; [exact P|exact H2].
Qed.

Lemma tile_all : forall rs k xs gss es, kinv f within k xs gss ->
  Forall (fun x => valid_height (snd x) /\ 0 <= r_pub (fst x)) rs ->
  map fst es = map fst rs -> NoDup (concat (concat gss) ++ es) -> incl es T ->
  forall k', add_all f k rs = Ok k' -> exists xs' gss', kinv f within k' xs' gss' /\ Permutation (concat (concat gss')) (concat (concat gss) ++ es).
Proof.
  induction rs as [|[r ht] rs IH]; intros k xs gss es HK HV Hes HN Hin k' E; cbn [add_all] in E.
  - injection E as <-. destruct es; [|discriminate]. exists xs, gss. rewrite app_nil_r. auto.
  - inversion HV as [|? ? [V1 V2] V3]; subst. destruct es as [|[r' e] es]; [discriminate|]. cbn in Hes. injection Hes as -> Hes.
    assert (HT : In (r, e) T) by (apply Hin; left; reflexivity).
    assert (Te : timed f (r, e)). { destruct HA as [H1 _]. rewrite Forall_forall in H1. apply (H1 _ HT). }
    assert (NI : ~ In (r, e) (concat (concat gss))).
    { intro Q. apply NoDup_remove_2 in HN. apply HN. apply in_or_app. auto. }
    pose proof (add_msr_ok (mk_guard False False) f within k xs gss r ht HK) as S. cbn [fst snd] in *.
    assert (S2 : safe (mk_guard False False) (add_msr f k r ht)
      (fun k' => exists xs' gss' e, kinv f within k' xs' gss' /\ timed f (r, e) /\ Permutation (concat (concat gss')) ((r, e) :: concat (concat gss)))).
    { apply S; try (intros; contradiction); auto using rec_end_fuel, calc_fuel.
      - intros t gs Hi _ _. apply (tile_keeps r e); [exact HT|]. intro Q. apply NI. destruct (combine_concat _ _ _ _ Hi) as (rest & P).
        eapply Permutation_in; [symmetry; exact P|]. apply in_or_app. auto.
      - intros e' Te'. unfold timed in *. cbn in *. rewrite Te in Te'. injection Te' as <-. apply tile_new. exact HT. }
    destruct (add_msr f k r ht) as [k1| | |]; cbn in E, S2; try discriminate.
    destruct S2 as (xs1 & gss1 & e' & HK1 & Te' & P1). unfold timed in *. cbn in Te, Te'. rewrite Te in Te'. injection Te' as <-.
    assert (PM : Permutation (concat (concat gss1) ++ es) (concat (concat gss) ++ (r, e) :: es)).
    { rewrite P1. apply Permutation_middle. }
    destruct (IH k1 xs1 gss1 es HK1 V3 Hes) with (k' := k') as (xs2 & gss2 & HK2 & P2); auto.
    + eapply Permutation_NoDup; [symmetry; exact PM|exact HN].
    + intros z Hz. apply Hin. right. exact Hz.
    + exists xs2, gss2. split; [exact HK2|]. rewrite P2. exact PM.
Qed.

(** All records belong to one identifier. *)
Lemma one_id (X : groups -> Prop) k xs gss : kinv f X k xs gss -> incl (concat (concat gss)) T -> (length xs <= 1)%nat.
Proof.
  intros (_ & KS & _ & _ & KI & _ & _) I. destruct xs as [|x [|y xs]]; cbn; try lia. exfalso. cbn [map] in *.
  inversion KI as [|? gs1 ? gss1 (c1 & _ & _ & _ & _ & B1 & _) KI1]; subst. inversion KI1 as [|? gs2 ? gss2 (c2 & _ & _ & _ & _ & B2 & _) _]; subst.
  destruct KS as [KS _]. inversion KS as [|? ? Q _]; subst.
  destruct B1 as (B1 & (u & Hu & Eu) & _). destruct B2 as (B2 & (v & Hv & Ev) & _). rewrite Forall_forall in B1, B2.
  destruct (B1 u Hu) as (S1 & _). destruct (B2 v Hv) as (S2 & _).
  assert (Iu : In u T). { apply I. cbn. rewrite concat_app. apply in_or_app. auto. }
  assert (Iv : In v T). { apply I. cbn. rewrite !concat_app. apply in_or_app. right. apply in_or_app. auto. }
  destruct HA as (_ & _ & A3). destruct (A3 u v Iu Iv) as [A4 A5].
  destruct Q as [Q|(Q1 & _ & Q3)].
  - rewrite <- S1, <- S2, A4 in Q. exact (slt_irrefl _ Q).
  - specialize (A5 Q1). lia.
Qed.

(** ** Tiling *)

Context (d : Z) (HD : 0 <= d <= tol) (HD2 : 2 * d + tol < p) (HT : tiles p d T).

Lemma sound_T : sound T.
Proof. destruct HA as [H1 _]. eapply Forall_impl; [|exact H1]. cbn. tauto. Qed.

Lemma follows_near x y : In x T -> In y T -> follows f x y -> near p tol (snd x) (r_start (fst y)).
Proof.
  intros Hx Hy (c & Hc & _ & H). specialize (H HM). destruct HA as [H1 _]. rewrite Forall_forall in H1.
  destruct (H1 x Hx) as (_ & _ & cx & Cx & Px & Tx). destruct (H1 y Hy) as (_ & _ & cy & Cy & Py & Ty).
  assert (c_period c = p /\ c_tol c = tol /\ c_ntol c = - c_tol c) as (Ep & Et & En).
  { destruct Hc as [Hc|Hc]; (split; [|split; [|eapply calc_ntol; eassumption]]); congruence. }
  unfold near. lia.
Qed.

Lemma linked_rising g : incl g T -> linked f g -> rising g.
Proof.
  induction g as [|x g IH]; intros Hi HL; [exact I|].
  assert (Hg : rising g) by (apply IH; [intros z Hz; apply Hi; right; exact Hz|apply HL]).
  split; [|exact Hg]. destruct g as [|y g]; [constructor|]. destruct HL as [HL _].
  assert (N : near p tol (snd x) (r_start (fst y))) by (apply follows_near; auto; apply Hi; cbn; auto).
  assert (Sx : r_start (fst x) <= snd x). { pose proof sound_T as S. unfold sound in S. rewrite Forall_forall in S. apply S. apply Hi. cbn; auto. }
  unfold near in N. constructor; [lia|]. destruct Hg as [Hg _]. eapply Forall_impl; [|exact Hg]. cbn. lia.
Qed.

(** Only the record before comes before. *)
Lemma near_unique l1 x y l2 z : T = l1 ++ x :: y :: l2 -> In z T -> near p tol (snd z) (r_start (fst y)) -> z = x.
Proof.
  intros E Hz N. pose proof sound_T as ST. assert (HTT := HT). rewrite E in HTT, ST, Hz. clear E. unfold near in N.
  apply in_app_iff in Hz. destruct Hz as [Hz|Hz].
  - exfalso. destruct (in_split _ _ Hz) as (a & b & ->). rewrite <- app_assoc in HTT, ST. apply tiles_app in HTT. apply Forall_app in ST. destruct ST as [_ ST].
    cbn [app] in *. pose proof (tiles_gap p d ltac:(lia) _ _ HTT ST) as G. rewrite Forall_forall in G.
    pose proof (G x ltac:(apply in_or_app; right; left; reflexivity)) as Gx.
    change (z :: b ++ x :: y :: l2) with ((z :: b) ++ x :: y :: l2) in HTT, ST. apply tiles_app in HTT. apply Forall_app in ST. destruct ST as [_ ST].
    pose proof (tiles_gap p d ltac:(lia) _ _ HTT ST) as G2. inversion G2; subst. inversion ST; subst. lia.
  - apply tiles_app in HTT. apply Forall_app in ST. destruct ST as [_ ST]. destruct Hz as [->|Hz]; [reflexivity|exfalso].
    inversion ST as [|? ? _ ST2]; subst. destruct HTT as [_ HTT]. destruct Hz as [<-|Hz]; [inversion ST2; subst; lia|].
    pose proof (tiles_gap p d ltac:(lia) _ _ HTT ST2) as G. inversion ST2 as [|? ? S1 S2]; subst. unfold sound in *. rewrite Forall_forall in G, S2. specialize (G z Hz). specialize (S2 z Hz). lia.
Qed.
Lemma near_next l1 x y l2 : T = l1 ++ x :: y :: l2 -> near p tol (snd x) (r_start (fst y)).
Proof. intro E. assert (HTT := HT). rewrite E in HTT. apply tiles_app in HTT. destruct HTT as [H _]. unfold near. lia. Qed.

Lemma linked_before f' : forall a' z y b, linked f' (a' ++ z :: y :: b) -> follows f' z y.
Proof. induction a' as [|u a' IH]; cbn; intros z y b H; [apply H|]. destruct H as [_ H]. eauto. Qed.

Lemma last_last gs g L x : Permutation (concat gs) T -> Forall (linked f) gs -> healed p tol gs -> In g gs -> g = L ++ [x] ->
  exists l1, T = l1 ++ [x].
Proof.
  intros P HL HH2 Hg Eg.
  assert (NT : NoDup T) by (apply rising_NoDup, (tiles_rising p d); [lia|exact HT|exact sound_T]).
  assert (NG : NoDup (concat gs)) by (eapply Permutation_NoDup; [symmetry; exact P|exact NT]).
  assert (Hx : In x T). { eapply Permutation_in; [exact P|]. apply in_concat. exists g. split; [exact Hg|]. rewrite Eg. apply in_or_app. right. left. reflexivity. }
  destruct (in_split _ _ Hx) as (l1 & l2 & ET). destruct l2 as [|y l2]; [exists l1; exact ET|exfalso].
  assert (Hy : In y T) by (rewrite ET; apply in_or_app; right; right; left; reflexivity).
  assert (Hyg : In y (concat gs)) by (eapply Permutation_in; [symmetry; exact P|exact Hy]).
  apply in_concat in Hyg. destruct Hyg as (g' & Hg' & Hyg). destruct (in_split _ _ Hyg) as (a & b & Eg').
  destruct a as [|a0 a1].
  { exact (HH2 g g' L x y b Hg Hg' Eg Eg' (near_next _ _ _ _ ET)). }
  destruct (exists_last (l := a0 :: a1)) as (a' & z & Ea); [discriminate|]. rewrite Ea, <- app_assoc in Eg'. cbn [app] in Eg'.
  rewrite Forall_forall in HL. pose proof (HL g' Hg') as HL'. rewrite Eg' in HL'. apply linked_before in HL'.
  assert (Hz : In z T). { eapply Permutation_in; [exact P|]. apply in_concat. exists g'. split; [exact Hg'|]. rewrite Eg'. apply in_or_app. right. left. reflexivity. }
  pose proof (near_unique _ _ _ _ z ET Hz (follows_near _ _ Hz Hy HL')) as ->.
  destruct (same_group gs g g' x NG Hg Hg') as []; [rewrite Eg; apply in_or_app; right; left; reflexivity|rewrite Eg'; apply in_or_app; right; left; reflexivity|].
  assert (NDg : NoDup g). { eapply group_NoDup; eassumption. }
  assert (EQ : L ++ [x] = a' ++ x :: y :: b) by congruence. rewrite Eg in NDg.
  assert (HxL : ~ In x L). { apply NoDup_remove_2 in NDg. rewrite app_nil_r in NDg. exact NDg. }
  rewrite EQ in NDg. destruct (exists_last (l := y :: b)) as (b' & v & Eb); [discriminate|].
  rewrite Eb in EQ. change (x :: b' ++ [v]) with ((x :: b') ++ [v]) in EQ. rewrite app_assoc in EQ. apply app_inj_tail in EQ. destruct EQ as [EQ _].
  apply HxL. rewrite EQ. apply in_or_app. right. left. reflexivity.
Qed.

Lemma one_group gs : Permutation (concat gs) T -> Forall (linked f) gs -> Forall (fun g => g <> []) gs -> healed p tol gs -> T <> [] -> gs = [T].
Proof.
  intros P HL HN HH2 HTn.
  assert (NT : NoDup T) by (apply rising_NoDup, (tiles_rising p d); [lia|exact HT|exact sound_T]).
  assert (NG : NoDup (concat gs)) by (eapply Permutation_NoDup; [symmetry; exact P|exact NT]).
  assert (HLast : forall g, In g gs -> exists l1 x, T = l1 ++ [x] /\ In x g).
  { intros g Hg. rewrite Forall_forall in HN. destruct (exists_last (HN g Hg)) as (L & x & Eg).
    destruct (last_last gs g L x P HL HH2 Hg Eg) as (l1 & E). exists l1, x. split; [exact E|]. rewrite Eg. apply in_or_app. right. left. reflexivity. }
  destruct gs as [|g gs]; [cbn in P; apply Permutation_nil in P; contradiction|].
  destruct gs as [|g2 gs].
  - cbn in P. rewrite app_nil_r in P. f_equal. apply rising_perm; [|apply (tiles_rising p d); [lia|exact HT|exact sound_T]|exact P].
    apply linked_rising; [intros z Hz; eapply Permutation_in; eassumption|]. inversion HL; assumption.
  - exfalso. destruct (HLast g) as (l1 & x & E1 & Hx1); [left; reflexivity|]. destruct (HLast g2) as (l2 & x2 & E2 & Hx2); [right; left; reflexivity|].
    rewrite E1 in E2. apply app_inj_tail in E2. destruct E2 as [_ <-].
    cbn in NG. apply (NoDup_app_disj _ _ NG x Hx1). apply in_or_app. auto.
Qed.

End Tile.

(** Records that tile a span, added in any order, end up in one segment. *)
Lemma tile_one f p tol d T rs k :
  f_mode f = Strict -> f_heal f = true -> alike f p tol T -> tiles p d T -> T <> [] -> 0 <= d <= tol -> 2 * d + tol < p ->
  Permutation (map fst rs) (map fst T) -> Forall (fun x => valid_height (snd x) /\ 0 <= r_pub (fst x)) rs ->
  add_all f tl_init rs = Ok k -> one_segment f k T.
Proof.
  intros HM HH HA HT HTn HD HD2 P HV E.
  assert (H0 : 0 <= tol < p) by lia.
  assert (ST : sound T) by (eapply sound_T; eauto).
  assert (RT : rising T) by (apply (tiles_rising p d); [lia|assumption|assumption]).
  assert (HI : forall x y, In x T -> In y T -> r_start (fst x) = r_start (fst y) -> x = y).
  { intros x y. apply rising_inj. exact RT. }
  apply Permutation_map_inv in P. destruct P as (es & Ees & Pes).
  destruct (tile_all f p tol T HM HH H0 HA HI rs tl_init [] [] es (kinv_init f _) HV) with (k' := k) as (xs & gss & HK & PG); auto.
  { cbn. eapply Permutation_NoDup; [exact Pes|]. apply rising_NoDup. exact RT. }
  { intros z Hz. eapply Permutation_in; [symmetry; exact Pes|exact Hz]. }
  cbn [concat app] in PG. rewrite <- Pes in PG.
  pose proof (one_id f p tol T HA HI _ _ _ _ HK) as H1.
  assert (I1 : incl (concat (concat gss)) T) by (intros z Hz; eapply Permutation_in; eassumption).
  specialize (H1 I1). destruct HK as (K & KS & KH & KN & KI & KT & KP). destruct xs as [|x [|x2 xs]]; [| |cbn in H1; lia].
  { cbn in KI. inversion KI; subst. cbn in PG. apply Permutation_nil in PG. contradiction. }
  cbn [map] in KI. inversion KI as [|? gs ? gss2 TI KI2]; subst. inversion KI2; subst. cbn [concat] in PG. rewrite app_nil_r in PG.
  destruct TI as (cells & TR & TN & TO & TM & TA & _ & TX).
  assert (gs = [T]).
  { eapply (one_group f p tol T HM H0 HA HI d HD HD2 HT gs PG); [| |exact TX|exact HTn].
    - apply Forall_forall. intros g Hg. destruct (Forall2_in_r _ _ _ _ TM Hg) as (s & _ & M). apply (md_linked _ _ _ M).
    - apply Forall_forall. intros g Hg. destruct (Forall2_in_r _ _ _ _ TM Hg) as (s & _ & M). destruct (md_start _ _ _ M) as (? & ? & -> & _). discriminate. }
  subst gs. destruct cells as [|[a s] [|]]; [inversion TM| |inversion TM as [|? ? ? ? ? TM2]; inversion TM2].
  cbn [map snd] in TM. inversion TM; subst.
  exists (etid x), s. split; [|split; [|split; [assumption|]]].
  - apply (tl_ids_ok _ _ K). eapply Forall_impl; [|exact KH]. cbn. lia.
  - destruct (trep_well_formed _ _ TR TN TO) as (_ & Q & _). exact Q.
  - cbn in TA. rewrite app_nil_r in TA. exact TA.
Qed.

(** ** The default tolerances *)

Lemma one_rate_alike f p T : f_ttol f = None -> f_rtol f = None -> one_rate f p T -> T <> [] ->
  exists tol, alike f p tol T /\ p - 3 <= 2 * tol <= p + 1.
Proof.
  intros Ht Hr (H1 & (rate & sid & H2 & Hp & Hp2 & h & Hh & Hh0) & H3) Hne.
  assert (C : forall x, In x T -> exists c, calc_of f (fst x) (snd x) = Ok c /\ c_period c = p /\ p - 3 <= 2 * c_tol c <= p + 1).
  { intros x Hx. rewrite Forall_forall in H1, H2. destruct (H1 x Hx) as [O _]. destruct (H2 x Hx) as [R _].
    destruct (ordinary_calc f (fst x) (snd x) O Ht) as (c & Hc & _ & _ & Hn & HT & _). rewrite R in Hn. rewrite Hp in Hn. injection Hn as Hn.
    exists c. split; [exact Hc|]. split; [auto|]. rewrite Hn. apply HT. lia. }
  destruct T as [|x0 T]; [contradiction|]. destruct (C x0 (in_eq _ _)) as (c0 & Hc0 & P0 & T0).
  exists (c_tol c0). split; [|exact T0]. split; [|split].
  - apply Forall_forall. intros x Hx. pose proof H1 as H1'. rewrite Forall_forall in H1'. destruct (H1' x Hx) as [O TM]. split; [exact TM|].
    destruct (ordinary_narrow f (fst x) (snd x) O Ht TM) as [N _]. split; [exact N|].
    destruct (C x Hx) as (c & Hc & P & _). exists c. split; [exact Hc|]. split; [exact P|].
    rewrite Forall_forall in H2. destruct (H2 x Hx) as [R _]. destruct (H2 x0 (in_eq _ _)) as [R0 _].
    unfold calc_of in Hc, Hc0. rewrite R, Ht, Hp in Hc. rewrite R0, Ht, Hp in Hc0. cbn [bind] in *.
    destruct (to_int64 _) as [tol| | |]; cbn [bind] in *; try discriminate.
    destruct (if tol =? 0 then _ else _); cbn [bind] in *; try discriminate. injection Hc as <-. injection Hc0 as <-. reflexivity.
  - intros x y Hx Hy. rewrite Forall_forall in H2. destruct (H2 x Hx) as [Rx _]. destruct (H2 y Hy) as [Ry _].
    unfold rate_like. rewrite Hr, Rx, Ry, Hh. unfold rate_similar. cbn -[rate_tolerable]. apply tolerable_self. exact Hh0.
  - intros x y Hx Hy. rewrite Forall_forall in H2. destruct (H2 x Hx) as [_ Sx]. destruct (H2 y Hy) as [_ Sy]. split; [congruence|].
    intro Hs. destruct (H3 Hs) as (v & Hv). rewrite Forall_forall in Hv. rewrite (Hv x Hx), (Hv y Hy). reflexivity.
Qed.

Lemma tile_default f p d T rs :
  f_mode f = Strict -> f_heal f = true -> f_ttol f = None -> f_rtol f = None ->
  one_rate f p T -> T <> [] -> tiles p d T -> 0 <= d -> 4 * d + 4 < p ->
  (forall x y, In x T -> In y T -> r_data (fst x) <> [] -> r_type (fst y) = r_type (fst x) /\ known_type (r_type (fst x)) = true) ->
  sum (map (fun x => r_cnt (fst x)) T) < 2 ^ 63 ->
  Permutation (map fst rs) (map fst T) -> Forall (fun x => valid_height (snd x) /\ 0 <= r_pub (fst x)) rs ->
  exists k, add_all f tl_init rs = Ok k /\ one_segment f k T.
Proof.
  intros HM HH Ht Hr HO Hne HT Hd Hd2 HTy HS P HV.
  destruct (one_rate_alike f p T Ht Hr HO Hne) as (tol & HA & Htol).
  destruct HO as (H1 & _ & _).
  assert (HTm : tame f (map fst T)).
  { split.
    - apply Forall_map. eapply Forall_impl; [|exact H1]. cbn. intros x [O _]. apply ordinary_tame; assumption.
    - intros _. rewrite map_map. exact HS. }
  assert (HF : no_failure f (map fst T)).
  { split.
    - apply Forall_map. eapply Forall_impl; [|exact H1]. cbn. intros x [O TM] E. destruct (ordinary_end f (fst x) O) as (e & Ee & Be).
      rewrite E in Ee. injection Ee as <-. destruct O as (q & _ & _ & _ & _ & B & _). lia.
    - intros r r' I1 I2 _ Hdt. apply in_map_iff in I1. apply in_map_iff in I2. destruct I1 as (x & <- & I1). destruct I2 as (y & <- & I2).
      apply HTy; assumption. }
  destruct (all_succeed f rs HV) as (k & E).
  { eapply tame_perm; [symmetry; exact P|exact HTm]. } { eapply failure_perm; [symmetry; exact P|exact HF]. }
  exists k. split; [exact E|]. apply (tile_one f p tol d T rs k); auto; lia.
Qed.
