(** * Channels with gaps are recovered from their records. *)

From Coq Require Import Permutation.
From Verif Require Import Base BaseLemmas RecProof TlModel TlSpec TlHeap TlSegs TlSkip TlMade TlProof RateProof TlTime TlTile SpanSpec.
Open Scope Z_scope.

Lemma NoDup_both {X} (l m : list X) : NoDup l -> NoDup m -> (forall x, In x l -> ~ In x m) -> NoDup (l ++ m).
Proof.
  intros H1 H2 D. induction l as [|a l IH]; [exact H2|]. cbn [app]. inversion H1 as [|? ? N H1']; subst. constructor.
  - intros Q. apply in_app_or in Q. destruct Q as [Q|Q]; [contradiction|]. exact (D a (in_eq _ _) Q).
  - apply IH; [exact H1'|]. intros x Hx. apply D. right. exact Hx.
Qed.

(** ** The stretches of one channel *)

Section Chan.
Context (f : conf) (p tol d : Z) (c : channel).
Context (HM : f_mode f = Strict) (HA : alike f p tol (concat c)) (HD : 0 <= d <= tol) (HD2 : 2 * d + tol < p).
Context (HS : stretches p tol d c).

Lemma alike_incl L L' : incl L' L -> alike f p tol L -> alike f p tol L'.
Proof. intros I (A & B & C). split; [|split; intros x y Hx Hy; [apply B|apply C]; apply I; assumption]. rewrite Forall_forall in *. intros x Hx. apply A, I, Hx. Qed.
Lemma stretch_incl T : In T c -> incl T (concat c).
Proof. intros H x Hx. apply in_concat. eauto. Qed.
Lemma chan_sound : sound (concat c).
Proof. destruct HA as [H1 _]. eapply Forall_impl; [|exact H1]. cbn. tauto. Qed.
Lemma stretch_sound T : In T c -> sound T.
Proof. intros H. pose proof chan_sound as S0. unfold sound in *. rewrite Forall_forall in *. intros x Hx. apply S0. apply (stretch_incl T H x Hx). Qed.
Lemma stretch_rising T : In T c -> rising T.
Proof.
  intros H. destruct HS as (_ & F & _). rewrite Forall_forall in F. destruct (F T H) as [_ TT].
  apply (tiles_rising p d); [lia|exact TT|exact (stretch_sound T H)].
Qed.

Lemma two_stretches T T' x y : In T c -> In T' c -> In x T -> In y T' -> T = T' \/
  (~ continues p tol x y /\ ~ continues p tol y x /\ r_start (fst x) <> r_start (fst y)).
Proof.
  intros H H' Hx Hy. destruct HS as (_ & _ & P). destruct (ForallOrdPairs_In P T T' H H') as [E|[U|U]]; [left; exact E|right; exact (U x y Hx Hy)|].
  right. destruct (U y x Hy Hx) as (A & B & C). auto.
Qed.
Lemma start_inj x y : In x (concat c) -> In y (concat c) -> r_start (fst x) = r_start (fst y) -> x = y.
Proof.
  intros Hx Hy E. apply in_concat in Hx, Hy. destruct Hx as (T & HT & Hx). destruct Hy as (T' & HT' & Hy).
  destruct (two_stretches T T' x y HT HT' Hx Hy) as [<-|(_ & _ & N)]; [|contradiction]. eapply rising_inj; [exact (stretch_rising T HT)| | |]; eassumption.
Qed.
Lemma near_same T T' x y : In T c -> In T' c -> In x T -> In y T' -> near p tol (snd x) (r_start (fst y)) -> T = T'.
Proof.
  intros H H' Hx Hy N. destruct (two_stretches T T' x y H H' Hx Hy) as [E|(Q & _)]; [exact E|]. exfalso. apply Q. unfold continues, near in *. lia.
Qed.

Lemma linked_same T : In T c -> forall g x, incl (x :: g) (concat c) -> linked f (x :: g) -> In x T -> incl (x :: g) T.
Proof.
  intros HT. induction g as [|y g IH]; intros x I L Hx z Hz; [destruct Hz as [<-|[]]; exact Hx|].
  destruct Hz as [<-|Hz]; [exact Hx|]. destruct L as [L1 L2].
  assert (Ix : In x (concat c)) by (apply I; left; reflexivity). assert (Iy : In y (concat c)) by (apply I; right; left; reflexivity).
  pose proof (follows_near f p tol (concat c) HM HA start_inj x y Ix Iy L1) as N. apply in_concat in Iy. destruct Iy as (T' & HT' & Hy).
  pose proof (near_same T T' x y HT HT' Hx Hy N) as <-. apply (IH y); auto. intros u Hu. apply I. right. exact Hu.
Qed.

Definition begins (T g : list (trec * Z)) : bool :=
  match g with [] => false | x :: _ => existsb (fun y => r_start (fst y) =? r_start (fst x)) T end.
Lemma begins_in T g x : In T c -> incl (x :: g) (concat c) -> (begins T (x :: g) = true <-> In x T).
Proof.
  intros HT I. unfold begins. rewrite existsb_exists. split.
  - intros (y & Hy & E). apply Z.eqb_eq in E. assert (y = x) as <-; [|exact Hy]. apply start_inj; [exact (stretch_incl T HT y Hy)|apply I; left; reflexivity|exact E].
  - intros Hx. exists x. split; [exact Hx|lia].
Qed.

Lemma chan_NoDup : NoDup (concat c).
Proof.
  destruct HS as (_ & _ & P). assert (F : Forall (fun T => NoDup T) c).
  { apply Forall_forall. intros T HT. apply rising_NoDup, (stretch_rising T HT). }
  clear - P F. induction P as [|T c H P IH]; [constructor|]. inversion F; subst. cbn [concat]. specialize (IH ltac:(assumption)).
  apply NoDup_both; [assumption|exact IH|]. intros x Hx Hy. apply in_concat in Hy. destruct Hy as (T' & HT' & Hy). rewrite Forall_forall in H.
  destruct (H T' HT' x x Hx Hy) as (_ & _ & N). apply N. reflexivity.
Qed.

Lemma spans_groups gs : Permutation (concat gs) (concat c) -> Forall (linked f) gs -> Forall (fun g => g <> []) gs -> healed p tol gs -> Permutation gs c.
Proof.
  intros P FL FN H.
  assert (IG : forall g, In g gs -> incl g (concat c)).
  { intros g Hg x Hx. eapply Permutation_in; [exact P|]. apply in_concat. eauto. }
  assert (NG : NoDup (concat gs)) by (eapply Permutation_NoDup; [symmetry; exact P|exact chan_NoDup]).
  assert (ONE : forall T, In T c -> filter (begins T) gs = [T]).
  { intros T HT. destruct HS as (_ & FT & _). rewrite Forall_forall in FT. destruct (FT T HT) as [TN TT].
    assert (HAT : alike f p tol T) by (eapply alike_incl; [exact (stretch_incl T HT)|exact HA]).
    apply (one_group f p tol T HM ltac:(lia) HAT (fun x y Hx Hy => start_inj x y (stretch_incl T HT x Hx) (stretch_incl T HT y Hy)) d HD HD2 TT).
    - apply NoDup_Permutation.
      + clear - NG. induction gs as [|g gs IH]; [constructor|]. cbn [filter]. cbn [concat] in NG. pose proof (NoDup_app_l _ _ NG). pose proof (NoDup_app_r _ _ NG).
        destruct (begins T g); [|auto]. cbn [concat]. apply NoDup_both; [assumption|auto|]. intros x Hx Hy. apply (NoDup_app_disj _ _ NG x Hx).
        apply in_concat in Hy. destruct Hy as (g' & Hg' & Hy). apply filter_In in Hg'. apply in_concat. exists g'. tauto.
      + apply rising_NoDup, (stretch_rising T HT).
      + intros x. split.
        * intros Hx. apply in_concat in Hx. destruct Hx as (g & Hg & Hx). apply filter_In in Hg. destruct Hg as [Hg B]. rewrite Forall_forall in FL, FN.
          destruct g as [|y g]; [destruct Hx|]. apply (begins_in T g y HT (IG _ Hg)) in B. exact (linked_same T HT g y (IG _ Hg) (FL _ Hg) B x Hx).
        * intros Hx. pose proof (stretch_incl T HT x Hx) as Hc. apply (Permutation_in _ (Permutation_sym P)) in Hc. apply in_concat in Hc. destruct Hc as (g & Hg & Hxg).
          apply in_concat. exists g. split; [|exact Hxg]. apply filter_In. split; [exact Hg|]. rewrite Forall_forall in FL.
          destruct g as [|y g]; [destruct Hxg|]. apply (begins_in T g y HT (IG _ Hg)).
          assert (Iy : In y (concat c)) by (apply (IG _ Hg); left; reflexivity). apply in_concat in Iy. destruct Iy as (T' & HT' & Hy).
          pose proof (linked_same T' HT' g y (IG _ Hg) (FL _ Hg) Hy x Hxg) as Hx'.
          destruct (two_stretches T T' x x HT HT' Hx Hx') as [->|(_ & _ & N)]; [exact Hy|destruct N; reflexivity].
    - apply Forall_forall. intros g Hg. apply filter_In in Hg. rewrite Forall_forall in FL. apply FL, Hg.
    - apply Forall_forall. intros g Hg. apply filter_In in Hg. rewrite Forall_forall in FN. apply FN, Hg.
    - eapply healed_incl; [|exact H]. intros g Hg. apply filter_In in Hg. apply Hg.
    - exact TN. }
  apply NoDup_Permutation.
  - clear - NG FN. induction gs as [|g gs IH]; [constructor|]. cbn [concat] in NG. inversion FN; subst. constructor; [|apply IH; [assumption|eapply NoDup_app_r; exact NG]].
    intros Hg. destruct g as [|x g]; [contradiction|]. apply (NoDup_app_disj _ _ NG x (in_eq _ _)). apply in_concat. exists (x :: g). split; [exact Hg|left; reflexivity].
  - pose proof chan_NoDup as NC. destruct HS as (_ & FT & _). clear - NC FT. induction c as [|T c' IH]; [constructor|]. cbn [concat] in NC. inversion FT as [|? ? [TN _] FT']; subst.
    constructor; [|apply IH; [eapply NoDup_app_r; exact NC|assumption]].
    intros Hg. destruct T as [|x T]; [contradiction|]. apply (NoDup_app_disj _ _ NC x (in_eq _ _)). apply in_concat. exists (x :: T). split; [exact Hg|left; reflexivity].
  - intros g. split.
    + intros Hg. rewrite Forall_forall in FN. destruct g as [|x g]; [destruct (FN [] Hg); reflexivity|].
      assert (Ix : In x (concat c)) by (apply (IG _ Hg); left; reflexivity). apply in_concat in Ix. destruct Ix as (T & HT & Hx).
      assert (Q : In (x :: g) (filter (begins T) gs)). { apply filter_In. split; [exact Hg|]. apply (begins_in T g x HT (IG _ Hg)). exact Hx. }
      rewrite (ONE T HT) in Q. destruct Q as [<-|[]]. exact HT.
    + intros HT. assert (Q : In g (filter (begins g) gs)) by (rewrite (ONE g HT); left; reflexivity). apply filter_In in Q. apply Q.
Qed.

End Chan.

(** ** Many channels *)

Definition chan_ok (f : conf) (c : channel) : Prop :=
  exists p tol d, alike f p tol (concat c) /\ stretches p tol d c /\ 0 <= d <= tol /\ 2 * d + tol < p.

Lemma alike_one f p tol p' tol' (L : list (trec * Z)) x : In x L -> alike f p tol L -> alike f p' tol' L -> p' = p /\ tol' = tol.
Proof.
  intros Hx (A & _) (B & _). rewrite Forall_forall in A, B. destruct (A x Hx) as (_ & _ & c & Hc & Hp & Ht). destruct (B x Hx) as (_ & _ & c' & Hc' & Hp' & Ht').
  rewrite Hc in Hc'. injection Hc' as <-. split; congruence.
Qed.

Section Chans.
Context (f : conf) (chs : list channel).
Context (HM : f_mode f = Strict) (HH : f_heal f = true) (HO : ForallOrdPairs (other_channel f) chs) (HC : Forall (chan_ok f) chs).

Definition of_chan (gs : groups) : Prop :=
  exists c, In c chs /\ incl (concat gs) (concat c) /\ forall p tol, alike f p tol (concat c) -> healed p tol gs.

Lemma same_chan c c' x y : In c chs -> In c' chs -> In x (concat c) -> In y (concat c') -> r_sid (fst x) = r_sid (fst y) ->
  (f_split f = true -> r_pub (fst x) = r_pub (fst y) \/ r_pub (fst x) = 0 \/ r_pub (fst y) = 0) -> c = c'.
Proof.
  intros H H' Hx Hy E P. destruct (ForallOrdPairs_In HO c c' H H') as [Q|[Q|Q]]; [exact Q| |].
  - destruct (Q x y Hx Hy) as [N|(N & M1 & M2 & M3)]; [contradiction|]. specialize (P N). lia.
  - destruct (Q y x Hy Hx) as [N|(N & M1 & M2 & M3)]; [symmetry in E; contradiction|]. specialize (P N). lia.
Qed.

Lemma chan_of x : In x (concat (map (@concat _) chs)) -> exists c, In c chs /\ In x (concat c).
Proof. intros H. apply in_concat in H. destruct H as (l & Hl & Hx). apply in_map_iff in Hl. destruct Hl as (c & <- & Hc). eauto. Qed.
Lemma in_chan c x : In c chs -> In x (concat c) -> In x (concat (map (@concat _) chs)).
Proof. intros Hc Hx. apply in_concat. exists (concat c). split; [apply in_map; exact Hc|exact Hx]. Qed.
Lemma chan_timed c x : In c chs -> In x (concat c) -> timed f x.
Proof. intros Hc Hx. rewrite Forall_forall in HC. destruct (HC c Hc) as (p & tol & d & (A & _) & _). rewrite Forall_forall in A. apply (A x Hx). Qed.

Lemma span_keeps c r e t gs : In c chs -> In (r, e) (concat c) -> ~ In (r, e) (concat gs) -> t_sid t = r_sid r ->
  (f_split f = true -> r_pub r = t_pub t \/ r_pub r = 0) -> keeps f of_chan r t gs.
Proof.
  intros Hch Hin Hnew Es Ep cc old others s Hc Htm CH HOr F HB (c' & Hch' & HX1 & HX2).
  pose proof HB as (B1 & (x & Hx & Ex) & _). rewrite Forall_forall in B1. destruct (B1 x Hx) as (Sx & _).
  assert (c = c') as <-.
  { apply (same_chan c c' (r, e) x); auto; cbn [fst]; [congruence|]. intros Sp. specialize (Ep Sp). lia. }
  rewrite Forall_forall in HC. destruct (HC c Hch) as (p & tol & d & HA & HS & HD & HD2).
  destruct (tile_keeps f p tol (concat c) HM HH ltac:(lia) HA (start_inj f p tol d c HA HD HD2 HS) r e t gs Hin Hnew cc old others s Hc Htm CH HOr F HB
              (conj HX1 (HX2 p tol HA))) as (og & g & Q1 & Q2 & Q3 & Q4).
  exists og, g. split; [exact Q1|]. split; [exact Q2|]. split; [exact Q3|]. intros gs' PG. destruct (Q4 gs' PG) as [W1 W2].
  exists c. split; [exact Hch|]. split; [exact W1|]. intros p' tol' HA'. destruct (alike_one f p tol p' tol' _ _ Hin HA HA') as [-> ->]. exact W2.
Qed.

Lemma span_new c r e : In c chs -> In (r, e) (concat c) -> of_chan [[(r, e)]].
Proof.
  intros Hch Hin. rewrite Forall_forall in HC. destruct (HC c Hch) as (p & tol & d & HA & HS & HD & HD2).
  destruct (tile_new f p tol (concat c) ltac:(lia) HA r e Hin) as [W1 W2].
  exists c. split; [exact Hch|]. split; [exact W1|]. intros p' tol' HA'. destruct (alike_one f p tol p' tol' _ _ Hin HA HA') as [-> ->]. exact W2.
Qed.

Lemma chans_all : forall rs k xs gss es, kinv f of_chan k xs gss ->
  Forall (fun x => valid_height (snd x) /\ 0 <= r_pub (fst x)) rs ->
  map fst es = map fst rs -> NoDup (concat (concat gss) ++ es) -> incl es (concat (map (@concat _) chs)) ->
  forall k', add_all f k rs = Ok k' -> exists xs' gss', kinv f of_chan k' xs' gss' /\ Permutation (concat (concat gss')) (concat (concat gss) ++ es).
Proof.
  induction rs as [|[r ht] rs IH]; intros k xs gss es HK HV Hes HN Hin k' E; cbn [add_all] in E.
  - injection E as <-. destruct es; [|discriminate]. exists xs, gss. rewrite app_nil_r. auto.
  - inversion HV as [|? ? [V1 V2] V3]; subst. destruct es as [|[r' e] es]; [discriminate|]. cbn in Hes. injection Hes as -> Hes.
    destruct (chan_of (r, e)) as (c & Hch & HT); [apply Hin; left; reflexivity|].
    pose proof (chan_timed c (r, e) Hch HT) as Te.
    assert (NI : ~ In (r, e) (concat (concat gss))).
    { intro Q. apply NoDup_remove_2 in HN. apply HN. apply in_or_app. auto. }
    pose proof (add_msr_ok (mk_guard False False) f of_chan k xs gss r ht HK) as S. cbn [fst snd] in *.
    assert (S2 : safe (mk_guard False False) (add_msr f k r ht)
      (fun k' => exists xs' gss' e, kinv f of_chan k' xs' gss' /\ timed f (r, e) /\ Permutation (concat (concat gss')) ((r, e) :: concat (concat gss)))).
    { apply S; try (intros; contradiction); auto using rec_end_fuel, calc_fuel.
      - intros t gs Hi Es Ep. apply (span_keeps c r e); auto. intro Q. apply NI. destruct (combine_concat _ _ _ _ Hi) as (rest & P).
        eapply Permutation_in; [symmetry; exact P|]. apply in_or_app. auto.
      - intros e' Te'. unfold timed in *. cbn in *. rewrite Te in Te'. injection Te' as <-. apply (span_new c); assumption. }
    destruct (add_msr f k r ht) as [k1| | |]; cbn in E, S2; try discriminate.
    destruct S2 as (xs1 & gss1 & e' & HK1 & Te' & P1). unfold timed in *. cbn in Te, Te'. rewrite Te in Te'. injection Te' as <-.
    assert (PM : Permutation (concat (concat gss1) ++ es) (concat (concat gss) ++ (r, e) :: es)).
    { rewrite P1. apply Permutation_middle. }
    destruct (IH k1 xs1 gss1 es HK1 V3 Hes) with (k' := k') as (xs2 & gss2 & HK2 & P2); auto.
    + eapply Permutation_NoDup; [symmetry; exact PM|exact HN].
    + intros z Hz. apply Hin. right. exact Hz.
    + exists xs2, gss2. split; [exact HK2|]. rewrite P2. exact PM.
Qed.

Lemma chans_NoDup : NoDup (concat (map (@concat _) chs)).
Proof.
  assert (F : Forall (fun c : channel => NoDup (concat c)) chs).
  { eapply Forall_impl; [|exact HC]. cbn. intros c (p & tol & d & HA & HS & HD & HD2). exact (chan_NoDup f p tol d c HA HD HD2 HS). }
  clear - HO F. induction HO as [|c l H P IH]; [constructor|]. inversion F; subst. cbn [map concat]. apply NoDup_both; [assumption|auto|].
  intros x Hx Hy. apply in_concat in Hy. destruct Hy as (l' & Hl' & Hy). apply in_map_iff in Hl'. destruct Hl' as (c' & <- & Hc'). rewrite Forall_forall in H.
  destruct (H c' Hc' x x Hx Hy) as [N|(_ & N & _)]; apply N; reflexivity.
Qed.

(** Two entries do not share a channel. *)
Lemma apart_entries t t' gs gs' c : id_lt f t t' -> about f t (concat gs) -> about f t' (concat gs') -> In c chs ->
  incl (concat gs) (concat c) -> incl (concat gs') (concat c) -> False.
Proof.
  intros L (B & (u & Hu & Eu) & _) (B' & (v & Hv & Ev) & _) Hc I I'. rewrite Forall_forall in B, B'. destruct (B u Hu) as (S1 & _). destruct (B' v Hv) as (S2 & _).
  rewrite Forall_forall in HC. destruct (HC c Hc) as (p & tol & d & (_ & _ & A3) & _). destruct (A3 u v (I u Hu) (I' v Hv)) as [A4 A5].
  destruct L as [L|(L1 & _ & L3)].
  - rewrite <- S1, <- S2, A4 in L. exact (slt_irrefl _ L).
  - specialize (A5 L1). lia.
Qed.

Lemma chans_recovered k xs gss : kinv f of_chan k xs gss -> Permutation (concat (concat gss)) (concat (map (@concat _) chs)) -> recovered f k chs.
Proof.
  intros HK P. pose proof (kinv_holds f of_chan k xs gss _ HK (Permutation_refl _)) as (TI & TN & _).
  destruct HK as (K & KS & KH & KN & KI & KT & KP).
  (* the channel of each entry *)
  assert (Q : exists chs', Forall2 (fun tg c => In c chs /\ incl (concat (snd tg)) (concat c) /\ tinv f (fun gs => forall p tol, alike f p tol (concat c) -> healed p tol gs) (fst tg) (snd tg))
                                   (combine (map etid xs) gss) chs' /\ length chs' = length (map etid xs)).
  { clear - KI. induction KI as [|t gs ts gss (cells & T & N & O & M & B & (c & Hc & I & H)) F IH]; [exists []; split; [constructor|reflexivity]|].
    destruct IH as (chs' & Q & L). exists (c :: chs'). split; [|cbn [length]; congruence]. cbn [combine]. constructor; [|exact Q]. split; [exact Hc|]. split; [exact I|].
    exists cells. auto 10. }
  destruct Q as (chs' & Q & LQ).
  assert (LG : length gss = length (map etid xs)) by (symmetry; eapply Forall2_len; exact KI).
  (* no channel twice *)
  assert (ND : NoDup chs').
  { clear - KS Q HC LG. revert gss chs' Q LG. induction (map etid xs) as [|t ts IH]; intros [|gs gss] chs' Q LG; cbn [combine length] in *; try discriminate; [inversion Q; constructor|].
    inversion Q as [|? c ? l (Hc & I & cells & _ & _ & _ & _ & B & _) Q']; subst. cbn [fst snd] in *. destruct KS as [KS1 KS2]. constructor; [|apply (IH KS2 gss); auto].
    intros Hin. destruct (Forall2_in_r _ _ _ _ Q' Hin) as ((t' & gs') & Ht' & (_ & I' & cells' & _ & _ & _ & _ & B' & _)). cbn [fst snd] in *.
    apply in_combine_l in Ht'. rewrite Forall_forall in KS1. exact (apart_entries t t' gs gs' c (KS1 t' Ht') B B' Hc I I'). }
  (* every record of a channel is in its entry *)
  assert (ALL : forall c t gs, In ((t, gs), c) (combine (combine (map etid xs) gss) chs') -> Permutation (concat gs) (concat c)).
  { intros c t gs Hi. apply NoDup_Permutation.
    - destruct (combine_concat _ _ _ _ (in_combine_l _ _ _ _ Hi)) as (rest & PR). eapply NoDup_app_l. eapply Permutation_NoDup; [exact PR|].
      eapply Permutation_NoDup; [symmetry; exact P|exact chans_NoDup].
    - pose proof (in_combine_r _ _ _ _ Hi) as Hc. destruct (Forall2_in_r _ _ _ _ Q Hc) as (? & _ & Hch & _). rewrite Forall_forall in HC.
      destruct (HC c Hch) as (p & tol & d & HA & HS & HD & HD2). exact (chan_NoDup f p tol d c HA HD HD2 HS).
    - assert (HQ : In c chs /\ incl (concat gs) (concat c)).
      { clear - Q Hi. induction Q as [|tg c0 l m (A & B & _) F IH]; cbn [combine] in Hi; [destruct Hi|]. destruct Hi as [[= -> ->]|Hi]; [auto|exact (IH Hi)]. }
      destruct HQ as [Hch I]. intros x. split; [apply I|]. intros Hx.
      pose proof (in_chan c x Hch Hx) as Hall. apply (Permutation_in _ (Permutation_sym P)) in Hall. apply in_concat in Hall. destruct Hall as (g & Hg & Hxg).
      apply in_concat in Hg. destruct Hg as (gs' & Hgs' & Hg).
      assert (Hx' : In x (concat gs')) by (apply in_concat; eauto).
      (* the entry holding x has channel c *)
      assert (EQ : exists t' c', In ((t', gs'), c') (combine (combine (map etid xs) gss) chs') /\ In c' chs /\ incl (concat gs') (concat c')).
      { clear - Q Hgs' LG LQ. revert gss chs' Q LG LQ Hgs'. induction (map etid xs) as [|t0 ts IH]; intros [|g0 gss] chs' Q LG LQ Hgs'; cbn [combine length] in *; try discriminate; [destruct Hgs'|].
        inversion Q as [|? c0 ? l (A & B & _) Q']; subst. cbn [fst snd] in *. destruct Hgs' as [<-|Hgs'].
        - exists t0, c0. split; [left; reflexivity|auto].
        - destruct (IH gss l Q' ltac:(lia) ltac:(cbn [length] in LQ; lia) Hgs') as (t' & c' & H1 & H2). exists t', c'. split; [right; exact H1|exact H2]. }
      destruct EQ as (t' & c' & Hi' & Hch' & I').
      assert (c' = c) as ->.
      { apply (same_chan c' c x x Hch' Hch (I' x Hx') Hx eq_refl). auto. }
      assert (gs' = gs) as <-; [|exact Hx'].
      clear - ND Hi Hi'. revert Hi Hi'. generalize (combine (map etid xs) gss). intros l. revert chs' ND. induction l as [|tg l IH]; intros [|c0 m] ND Hi Hi'; cbn [combine] in *; try contradiction.
      inversion ND as [|? ? NI ND']; subst. destruct Hi as [E1|Hi], Hi' as [E2|Hi'].
      + congruence.
      + injection E1 as -> ->. apply in_combine_r in Hi'. contradiction.
      + injection E2 as -> ->. apply in_combine_r in Hi. contradiction.
      + exact (IH m ND' Hi Hi'). }
  assert (PC : Permutation chs' chs).
  { apply NoDup_Permutation; [exact ND| |].
    - (* channels are different since they have records *)
      assert (NE : Forall (fun c : channel => concat c <> []) chs).
      { eapply Forall_impl; [|exact HC]. cbn. intros c (p & tol & d & _ & (N & FT & _) & _). destruct c as [|T c]; [contradiction|]. inversion FT as [|? ? [TN0 _] _]; subst.
        cbn [concat]. destruct T; [contradiction|discriminate]. }
      clear - HO NE. induction HO as [|c l H PL IH]; [constructor|]. inversion NE as [|? ? N NE']; subst. constructor; [|auto]. intros Hin.
      rewrite Forall_forall in H. destruct (concat c) as [|x L] eqn:E; [contradiction|]. assert (Hx : In x (concat c)) by (rewrite E; left; reflexivity).
      destruct (H c Hin x x Hx Hx) as [M|(_ & M & _)]; apply M; reflexivity.
    - intros c. split.
      + intros Hc. destruct (Forall2_in_r _ _ _ _ Q Hc) as (? & _ & Hch & _). exact Hch.
      + intros Hch. rewrite Forall_forall in HC. destruct (HC c Hch) as (p & tol & d & _ & (N & FT & _) & _). destruct c as [|[|x T] c]; [contradiction|inversion FT as [|? ? [TN0 _] _]; contradiction|].
        assert (Hx : In x (concat ((x :: T) :: c))) by (left; reflexivity).
        pose proof (in_chan _ x Hch Hx) as Hall. apply (Permutation_in _ (Permutation_sym P)) in Hall. apply in_concat in Hall. destruct Hall as (g & Hg & Hxg).
        apply in_concat in Hg. destruct Hg as (gs' & Hgs' & Hg).
        destruct (Forall2_in_r _ _ _ _ KI Hgs') as (t0 & _ & _).
        assert (EQ : exists c', In c' chs' /\ In c' chs /\ incl (concat gs') (concat c')).
        { clear - Q Hgs' LG LQ. revert gss chs' Q LG LQ Hgs'. induction (map etid xs) as [|t0 ts IH]; intros [|g0 gss] chs' Q LG LQ Hgs'; cbn [combine length] in *; try discriminate; [destruct Hgs'|].
          inversion Q as [|? c0 ? l (A & B & _) Q']; subst. cbn [fst snd] in *. destruct Hgs' as [<-|Hgs'].
          - exists c0. split; [left; reflexivity|auto].
          - destruct (IH gss l Q' ltac:(lia) ltac:(cbn [length] in LQ; lia) Hgs') as (c' & H1 & H2). exists c'. split; [right; exact H1|exact H2]. }
        destruct EQ as (c' & Hc' & Hch' & I'). assert (Hx' : In x (concat gs')) by (apply in_concat; eauto).
        rewrite <- (same_chan c' _ x x Hch' Hch (I' x Hx') Hx eq_refl); auto. }
  exists (map etid xs), chs'. split; [exact TI|]. split; [exact TN|]. split; [exact KS|]. split; [exact PC|].
  clear - Q ALL LG LQ HC HM. revert gss chs' Q ALL LG LQ. induction (map etid xs) as [|t ts IH]; intros [|gs gss] chs' Q ALL LG LQ; cbn [combine length] in *; try discriminate; [inversion Q; constructor|].
  inversion Q as [|? c ? l (Hch & I & cells & T & N & O & M & B & H) Q']; subst. cbn [fst snd] in *. constructor.
  - assert (PG : Permutation (concat gs) (concat c)) by (apply (ALL c t gs); left; reflexivity).
    exists (map snd cells), gs. split; [apply trep_well_formed; assumption|]. split; [|split; [exact M|eapply about_perm; [exact PG|exact B]]].
    rewrite Forall_forall in HC. destruct (HC c Hch) as (p & tol & d & HA & HS & HD & HD2).
    apply (spans_groups f p tol d c HM HA HD HD2 HS gs PG); [| |exact (H p tol HA)].
    + apply Forall_forall. intros g Hg. destruct (Forall2_in_r _ _ _ _ M Hg) as (s & _ & Ms). apply (md_linked _ _ _ Ms).
    + apply Forall_forall. intros g Hg. destruct (Forall2_in_r _ _ _ _ M Hg) as (s & _ & Ms). destruct (md_start _ _ _ Ms) as (? & ? & -> & _). discriminate.
  - apply (IH gss l Q'); [|lia|cbn [length] in LQ; lia]. intros c' t' gs' Hi. apply (ALL c' t' gs'). right. exact Hi.
Qed.

Lemma chans_of_all rs k : Permutation (map fst rs) (map fst (concat (map (@concat _) chs))) -> given rs -> add_all f tl_init rs = Ok k -> recovered f k chs.
Proof.
  intros P HV E. apply Permutation_map_inv in P. destruct P as (es & Ees & Pes).
  destruct (chans_all rs tl_init [] [] es (kinv_init f _) HV) with (k' := k) as (xs & gss & HK & PG); auto.
  { cbn. eapply Permutation_NoDup; [exact Pes|exact chans_NoDup]. }
  { intros z Hz. eapply Permutation_in; [symmetry; exact Pes|exact Hz]. }
  cbn [concat app] in PG. apply (chans_recovered k xs gss HK). rewrite PG, <- Pes. reflexivity.
Qed.

End Chans.

Lemma unrelated_less p tol tol' S1 S2 : tol' <= tol -> unrelated p tol S1 S2 -> unrelated p tol' S1 S2.
Proof. intros L U x y Hx Hy. destruct (U x y Hx Hy) as (A & B & C). unfold continues in *. split; [lia|split; [lia|exact C]]. Qed.
Lemma pairs_impl {X} (R R' : X -> X -> Prop) l : (forall a b, R a b -> R' a b) -> ForallOrdPairs R l -> ForallOrdPairs R' l.
Proof. intros I. induction 1 as [|a l H P IH]; constructor; [|exact IH]. eapply Forall_impl; [|exact H]. auto. Qed.

Lemma chans_default f chs rs : let all := map fst (concat (map (@concat _) chs)) in
  f_mode f = Strict -> f_heal f = true -> f_ttol f = None -> f_rtol f = None ->
  Forall (fun c => exists p d, one_rate f p (concat c) /\ stretches p ((p + 1) / 2) d c /\ 0 <= d /\ 4 * d + 4 < p) chs ->
  ForallOrdPairs (other_channel f) chs ->
  (forall r r', In r all -> In r' all -> r_sid r = r_sid r' -> r_data r <> [] -> r_type r' = r_type r /\ known_type (r_type r) = true) ->
  sum (map r_cnt all) < 2 ^ 63 -> Permutation (map fst rs) all -> given rs ->
  exists k, add_all f tl_init rs = Ok k /\ recovered f k chs.
Proof.
  intros all HM HH Ht Hr HC HO HTy HSum P HV.
  assert (OK : Forall (chan_ok f) chs).
  { eapply Forall_impl; [|exact HC]. cbv beta. intros c (p & d & H1 & H2 & H3 & H4). destruct H2 as (N & FT & U).
    assert (NE : concat c <> []). { destruct c as [|T c]; [contradiction|]. inversion FT as [|? ? [TN _] _]; subst. cbn [concat]. destruct T; [contradiction|discriminate]. }
    destruct (one_rate_alike f p _ Ht Hr H1 NE) as (tol & HA & B). exists p, tol, d. split; [exact HA|]. split; [|lia].
    split; [exact N|]. split; [exact FT|]. eapply pairs_impl; [|exact U]. intros a b. apply unrelated_less. lia. }
  assert (ORD : Forall (fun r => ordinary r) all).
  { apply Forall_forall. intros r Hr'. apply in_map_iff in Hr'. destruct Hr' as (x & <- & Hx). apply chan_of in Hx. destruct Hx as (c & Hc & Hx).
    rewrite Forall_forall in HC. destruct (HC c Hc) as (p & d & (A & _) & _). rewrite Forall_forall in A. apply (A x Hx). }
  assert (HTm : tame f all).
  { split; [|intros _; exact HSum]. eapply Forall_impl; [|exact ORD]. cbn. intros r O. apply ordinary_tame; assumption. }
  assert (HF : no_failure f all).
  { split; [|exact HTy]. eapply Forall_impl; [|exact ORD]. cbn. intros r O E. destruct (ordinary_end f r O) as (e & Ee & Be).
    rewrite E in Ee. injection Ee as <-. destruct O as (q & _ & _ & _ & _ & B & _). lia. }
  destruct (all_succeed f rs HV) as (k & E).
  { eapply tame_perm; [symmetry; exact P|exact HTm]. } { eapply failure_perm; [symmetry; exact P|exact HF]. }
  exists k. split; [exact E|]. exact (chans_of_all f chs HM HH HO OK rs k P HV E).
Qed.

(** ** The order does not matter *)

Lemma sorted_perm {X} (R : X -> X -> Prop) : (forall a b, R a b -> R b a -> False) -> forall l m, ForallOrdPairs R l -> ForallOrdPairs R m -> Permutation l m -> l = m.
Proof.
  intros AS. induction l as [|a l IH]; intros m Hl Hm P; [symmetry; apply Permutation_nil; exact P|].
  destruct m as [|b m]; [symmetry in P; apply Permutation_nil in P; discriminate|].
  inversion Hl as [|? ? La Hl']; subst. inversion Hm as [|? ? Mb Hm']; subst. rewrite Forall_forall in La, Mb.
  assert (a = b) as <-.
  { pose proof (Permutation_in _ P (in_eq a l)) as Ia. pose proof (Permutation_in _ (Permutation_sym P) (in_eq b m)) as Ib.
    destruct Ia as [E|Ia]; [congruence|]. destruct Ib as [E|Ib]; [exact E|]. destruct (AS a b (La b Ib) (Mb a Ia)). }
  f_equal. apply IH; [exact Hl'|exact Hm'|]. eapply Permutation_cons_inv; exact P.
Qed.

Lemma about_same f t t' L : about f t L -> about f t' L -> t_sid t' = t_sid t /\ t_pub t' = t_pub t /\ t_early t' = t_early t /\ t_late t' = t_late t.
Proof.
  intros (A & (x & Hx & Ex) & (y & Hy & Ey) & (z & Hz & Ez)) (A' & (x' & Hx' & Ex') & (y' & Hy' & Ey') & (z' & Hz' & Ez')). rewrite Forall_forall in A, A'.
  destruct (A x Hx) as (S1 & _). destruct (A' x Hx) as (S2 & _ & P2 & _). destruct (A x' Hx') as (_ & _ & P1 & _).
  destruct (A y' Hy') as (_ & _ & _ & Y1 & _). destruct (A' y Hy) as (_ & _ & _ & Y2 & _).
  destruct (A z' Hz') as (_ & _ & _ & _ & Z1). destruct (A' z Hz) as (_ & _ & _ & _ & Z2). split; [congruence|]. lia.
Qed.

Lemma id_lt_asym f t u t' u' : id_lt f t u -> id_lt f u' t' -> t_sid t' = t_sid t -> t_pub t' = t_pub t -> t_sid u' = t_sid u -> t_pub u' = t_pub u -> False.
Proof.
  intros L M E1 E2 E3 E4. unfold id_lt in *. rewrite E1, E2, E3, E4 in M. destruct L as [L|(L1 & L2 & L3)], M as [M|(M1 & M2 & M3)].
  - exact (slt_irrefl _ (slt_trans _ _ _ L M)).
  - rewrite M2 in L. exact (slt_irrefl _ L).
  - rewrite L2 in M. exact (slt_irrefl _ M).
  - lia.
Qed.

Lemma ids_sorted_pairs f l : ids_sorted f l -> ForallOrdPairs (id_lt f) l.
Proof. induction l as [|t l IH]; cbn; intros H; constructor; [apply H|apply IH, H]. Qed.

(** Pairs taken over along a correspondence. *)
Lemma pairs_along {X Y} (Q : X -> Y -> Prop) (R : X -> X -> Prop) l m : Forall2 Q l m -> ForallOrdPairs R l ->
  ForallOrdPairs (fun b b' => exists a a', Q a b /\ Q a' b' /\ R a a') m.
Proof.
  induction 1 as [|a b l m H F IH]; intros P; [constructor|]. inversion P as [|? ? P1 P2]; subst. constructor; [|auto].
  apply Forall_forall. intros b' Hb'. destruct (Forall2_in_r _ _ _ _ F Hb') as (a' & Ha' & H'). rewrite Forall_forall in P1. exists a, a'. split; [exact H|]. split; [exact H'|]. exact (P1 a' Ha').
Qed.

Lemma entries_order f ids ids' chs chs' : ids_sorted f ids -> ids_sorted f ids' -> Forall2 (entry_of f) ids chs -> Forall2 (entry_of f) ids' chs' -> Permutation chs chs' -> chs = chs'.
Proof.
  intros S1 S2 F1 F2 P. set (R := fun c c' => exists t t', entry_of f t c /\ entry_of f t' c' /\ id_lt f t t').
  apply (sorted_perm R).
  - intros c c' (t & t' & (? & ? & _ & _ & _ & A) & (? & ? & _ & _ & _ & A') & L) (u & u' & (? & ? & _ & _ & _ & B) & (? & ? & _ & _ & _ & B') & M).
    destruct (about_same f t u' _ A B') as (E1 & E2 & _). destruct (about_same f t' u _ A' B) as (E3 & E4 & _). exact (id_lt_asym f t t' u' u L M E1 E2 E3 E4).
  - exact (pairs_along _ _ _ _ F1 (ids_sorted_pairs f _ S1)).
  - exact (pairs_along _ _ _ _ F2 (ids_sorted_pairs f _ S2)).
  - exact P.
Qed.

Lemma ordered_pairs l : ordered l -> ForallOrdPairs seg_le l.
Proof. induction l as [|s l IH]; cbn; intros H; constructor; [apply H|apply IH, H]. Qed.

(** Segments in order whose groups start at different times. *)
Lemma groups_order f segs segs' gs gs' : ordered segs -> ordered segs' -> Forall2 (made f) segs gs -> Forall2 (made f) segs' gs' ->
  Permutation gs gs' -> NoDup (concat gs) -> (forall x y, In x (concat gs) -> In y (concat gs) -> r_start (fst x) = r_start (fst y) -> x = y) -> gs = gs'.
Proof.
  intros O O' F F' P ND HI.
  set (R := fun g g' : list (trec * Z) => In g gs /\ In g' gs /\ g <> g' /\ exists s s', made f s g /\ made f s' g' /\ seg_le s s').
  assert (ND2 : NoDup gs).
  { clear - F ND. induction F as [|s g segs gs M F IH]; [constructor|]. cbn [concat] in ND. constructor; [|apply IH; eapply NoDup_app_r; exact ND].
    intros Hg. destruct (md_start _ _ _ M) as (x & L & -> & _). apply (NoDup_app_disj _ _ ND x (in_eq _ _)). apply in_concat. exists (x :: L). split; [exact Hg|left; reflexivity]. }
  assert (AUX : forall l, NoDup l -> incl l gs -> forall ss, Forall2 (made f) ss l -> ordered ss -> ForallOrdPairs R l).
  { intros l N. induction N as [|g l N1 N2 IH]; intros I ss FF OO; [constructor|]. inversion FF as [|s ? ss' ? M FF']; subst. destruct OO as [O1 O2]. constructor.
    - apply Forall_forall. intros g' Hg'. destruct (Forall2_in_r _ _ _ _ FF' Hg') as (s' & Hs' & M'). rewrite Forall_forall in O1.
      split; [apply I; left; reflexivity|]. split; [apply I; right; exact Hg'|]. split; [intros ->; contradiction|]. exists s, s'. auto.
    - apply (IH ltac:(intros z Hz; apply I; right; exact Hz) ss' FF' O2). }
  apply (sorted_perm R).
  - intros g g' (I1 & I2 & N & s & s' & M & M' & L) (_ & _ & _ & u & u' & U & U' & L').
    assert (E : s_start s = s_start s').
    { destruct (md_start _ _ _ M) as (x & l & E1 & E2). destruct (md_start _ _ _ U') as (x2 & l2 & E3 & E4). destruct (md_start _ _ _ M') as (y & m & E5 & E6).
      destruct (md_start _ _ _ U) as (y2 & m2 & E7 & E8). rewrite E1 in E3. injection E3 as <- _. rewrite E5 in E7. injection E7 as <- _. unfold seg_le in *. lia. }
    destruct (md_start _ _ _ M) as (x & l & E1 & E2). destruct (md_start _ _ _ M') as (y & m & E5 & E6).
    assert (x = y) as <-. { apply HI; [| |congruence]; apply in_concat; [exists g|exists g']; (split; [assumption|]); [rewrite E1|rewrite E5]; left; reflexivity. }
    apply N. eapply same_group; [exact ND|exact I1|exact I2|rewrite E1; left; reflexivity|rewrite E5; left; reflexivity].
  - apply (AUX gs ND2 (incl_refl _) segs F O).
  - apply (fun N I => AUX gs' N I segs' F' O'); [eapply Permutation_NoDup; eassumption|intros z Hz; eapply Permutation_in; [symmetry; exact P|exact Hz]].
  - exact P.
Qed.

Lemma made_same f s s' T rate type : f_mode f = Strict -> Forall (fun x => r_rate (fst x) = rate /\ r_type (fst x) = type) T -> made f s T -> made f s' T -> s' = s.
Proof.
  intros HM F M M'. rewrite Forall_forall in F.
  destruct (md_start _ _ _ M) as (x & l & E1 & E2). destruct (md_start _ _ _ M') as (x' & l' & E1' & E2'). rewrite E1 in E1'. injection E1' as <- <-.
  destruct (md_end _ _ _ M) as (m & y & E3 & E4). destruct (md_end _ _ _ M') as (m' & y' & E3' & E4'). rewrite E3 in E3'. apply app_inj_tail in E3'. destruct E3' as [_ <-].
  destruct (md_cnt _ _ _ M) as (z & E5 & E6). destruct (md_cnt _ _ _ M') as (z' & E5' & E6'). rewrite (E6 HM) in E5. rewrite (E6' HM) in E5'.
  destruct (md_hz _ _ _ M) as (h & H1 & H2 & H3). destruct (md_hz _ _ _ M') as (h' & H1' & H2' & H3'). destruct (F h H1) as [R1 R2]. destruct (F h' H1') as [R1' R2'].
  pose proof (md_data _ _ _ M) as D. pose proof (md_data _ _ _ M') as D'. pose proof (md_recs _ _ _ M) as K. pose proof (md_recs _ _ _ M') as K'.
  destruct s, s'. cbn in *. f_equal; congruence.
Qed.

Lemma recovered_same f k k' chs : f_mode f = Strict -> Forall (chan_ok f) chs ->
  Forall (fun c => exists rate type, Forall (fun x => r_rate (fst x) = rate /\ r_type (fst x) = type) (concat c)) chs ->
  recovered f k chs -> recovered f k' chs -> same_entries k k'.
Proof.
  intros HM HC HR (ids & c1 & T1 & _ & S1 & P1 & F1) (ids' & c2 & T2 & _ & S2 & P2 & F2).
  assert (c1 = c2) as <-. { apply (entries_order f ids ids'); auto. rewrite P1, P2. reflexivity. }
  exists ids, ids'. split; [exact T1|]. split; [exact T2|].
  assert (I : incl c1 chs) by (intros z Hz; eapply Permutation_in; eassumption). clear - HM HC HR F1 F2 I.
  revert ids' F2. induction F1 as [|t c ids c1 H F IH]; intros ids' F2; inversion F2 as [|t' ? ids2 ? H' F2']; subst; constructor.
  2:{ apply IH; [intros z Hz; apply I; right; exact Hz|exact F2']. }
  destruct H as (segs & gs & W & PG & M & A). destruct H' as (segs' & gs' & W' & PG' & M' & A').
  destruct (about_same f t t' _ A A') as (E1 & E2 & E3 & E4). split; [exact E1|]. split; [exact E2|]. split; [exact E3|]. split; [exact E4|].
  assert (Ic : In c chs) by (apply I; left; reflexivity). rewrite Forall_forall in HC, HR. destruct (HC c Ic) as (p & tol & d & HA & HS & HD & HD2).
  destruct (HR c Ic) as (rate & type & FR).
  destruct W as (_ & W1 & _ & W2 & W3 & _). destruct W' as (_ & W1' & _ & W2' & W3' & _).
  assert (PC : Permutation (concat gs) (concat c)).
  { clear - PG. induction PG as [|x l l' P IH|x y l|l l' l'' P1 IH1 P2 IH2]; cbn [concat]; [constructor|apply Permutation_app_head; exact IH| |etransitivity; eassumption].
    rewrite !app_assoc. apply Permutation_app_tail. apply Permutation_app_comm. }
  assert (gs = gs') as <-.
  { apply (groups_order f segs segs'); auto; [rewrite PG, PG'; reflexivity| |].
    - eapply Permutation_NoDup; [symmetry; exact PC|]. exact (chan_NoDup f p tol d c HA HD HD2 HS).
    - intros x y Hx Hy. apply (start_inj f p tol d c HA HD HD2 HS); eapply Permutation_in; eassumption. }
  assert (segs = segs') as <-.
  { assert (FG : Forall (fun g : list (trec * Z) => Forall (fun x => r_rate (fst x) = rate /\ r_type (fst x) = type) g) gs).
    { apply Forall_forall. intros g Hg. apply Forall_forall. intros x Hx. rewrite Forall_forall in FR. apply FR. eapply Permutation_in; [exact PC|]. apply in_concat. eauto. }
    clear - HM M M' FG. revert segs' M'. induction M as [|s g segs gs H F IH]; intros segs' M'; inversion M' as [|s' ? ? ? H' F']; subst; [reflexivity|].
    inversion FG; subst. f_equal; [symmetry; eapply made_same; eassumption|auto]. }
  split; [congruence|]. exists segs. auto.
Qed.
