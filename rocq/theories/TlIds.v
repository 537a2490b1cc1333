(** * Entries of the trace list and the keys of the records. *)

From Coq Require Import Permutation.
From Verif Require Import Base BaseLemmas RecProof TlModel TlSpec TlHeap TlSegs TlSkip TlMade TlProof TlTime TlTile.
Open Scope Z_scope.

Lemma sorted_keys f ids : ids_sorted f ids -> NoDup (map (tkey f) ids).
Proof.
  induction ids as [|t ids IH]; cbn; intros H; constructor; [|apply IH; apply H]. destruct H as [H _]. intro Q.
  apply in_map_iff in Q. destruct Q as (u & E & Hu). rewrite Forall_forall in H. specialize (H u Hu). unfold tkey, key in E.
  injection E as E1 E2. destruct H as [H|(H1 & H2 & H3)].
  - rewrite E1 in H. exact (slt_irrefl _ H).
  - rewrite H1 in E2. lia.
Qed.

Lemma holds_groups f k rs ids gss : holds f k rs ids gss ->
  (forall r, In r rs -> exists t gs e, In t ids /\ In (t, gs) (combine ids gss) /\ In (r, e) (concat gs) /\ about f t (concat gs))
  /\ (forall t, In t ids -> exists r gs e, In r rs /\ In (r, e) (concat gs) /\ r_pub r = t_pub t /\ about f t (concat gs)).
Proof.
  intros (_ & _ & _ & F & P & _). split.
  - intros r Hr. apply (Permutation_in _ (Permutation_sym P)) in Hr. apply in_map_iff in Hr. destruct Hr as ([r' e] & E & Hr). cbn in E; subst r'.
    clear P. induction F as [|t gs ids gss [_ HA] F IH]; cbn in Hr; [contradiction|]. rewrite concat_app in Hr. apply in_app_iff in Hr. destruct Hr as [Hr|Hr].
    + exists t, gs, e. split; [left; reflexivity|]. split; [left; reflexivity|]. auto.
    + destruct (IH Hr) as (t' & gs' & e' & H1 & H2 & H3). exists t', gs', e'. split; [right; exact H1|]. split; [right; exact H2|exact H3].
  - intros t Ht. assert (Q : forall x, In x (concat (concat gss)) -> In (fst x) rs) by (intros x Hx; eapply Permutation_in; [exact P|apply in_map; exact Hx]).
    clear P. induction F as [|u gs ids gss [_ HA] F IH]; [contradiction|]. cbn in Q. rewrite concat_app in Q. destruct Ht as [->|Ht].
    + pose proof HA as (_ & (x & Hx & Ex) & _). exists (fst x), gs, (snd x). split; [apply Q; apply in_or_app; auto|]. rewrite <- surjective_pairing. auto.
    + destruct (IH Ht) as (r & gs' & e & H1 & H2). { intros x Hx. apply Q. apply in_or_app. auto. } exists r, gs', e. auto.
Qed.

(** Every entry has a record with its key, and every record has an entry with its key
    unless versions are kept apart and its version is 0. *)
Lemma holds_keys f k rs ids gss : holds f k rs ids gss ->
  (forall t, In t ids -> exists r, In r rs /\ rkey f r = tkey f t)
  /\ (forall r, In r rs -> f_split f = false \/ r_pub r <> 0 -> exists t, In t ids /\ tkey f t = rkey f r)
  /\ (forall r, In r rs -> exists t, In t ids /\ t_sid t = r_sid r).
Proof.
  intro H. destruct (holds_groups f k rs ids gss H) as [H1 H2]. split; [|split].
  - intros t Ht. destruct (H2 t Ht) as (r & gs & e & Hr & Hin & Hp & (HA & _)). exists r. split; [exact Hr|].
    rewrite Forall_forall in HA. destruct (HA _ Hin) as (S & _). cbn in S. unfold rkey, tkey. rewrite S, Hp. reflexivity.
  - intros r Hr Hs. destruct (H1 r Hr) as (t & gs & e & Ht & _ & Hin & (HA & _)). exists t. split; [exact Ht|].
    rewrite Forall_forall in HA. destruct (HA _ Hin) as (S & V & _). cbn in S, V. unfold rkey, tkey, key. rewrite S. f_equal.
    destruct (f_split f); [|reflexivity]. destruct Hs as [|Hs]; [discriminate|]. destruct (V eq_refl); congruence.
  - intros r Hr. destruct (H1 r Hr) as (t & gs & e & Ht & _ & Hin & (HA & _)). exists t. split; [exact Ht|].
    rewrite Forall_forall in HA. destruct (HA _ Hin) as (S & _). symmetry. exact S.
Qed.

Lemma find_ok f X k xs gss sid pub : kinv f X k xs gss -> (f_split f = false -> pub = 0) ->
  exists o, tl_find k sid pub = Ok o /\
    match o with
    | Some t => In t (map etid xs) /\ t_sid t = sid /\ (pub = 0 \/ t_pub t = pub)
    | None => forall t, In t (map etid xs) -> ~ (t_sid t = sid /\ (pub = 0 \/ t_pub t = pub))
    end.
Proof.
  intros (K & KS & KH & KN & KI & KT & KP) Hq.
  destruct (key_split_exists sid pub xs) as (L & M & R & KSP); [eapply up_of_sorted; eauto|].
  pose proof KSP as (Exs & HL & HM & HR).
  assert (Hht1 : Forall (fun x => (1 <= eht x)%nat) xs). { eapply Forall_impl; [|exact KH]. cbn. lia. }
  unfold tl_find.
  destruct (find_id_ok k sid pub xs L M R K KSP Hht1 (k_fresh k + HEIGHT + 1)%nat HEIGHT [] xs PHead []) as [(x & prevs & Hx & Ef)|(EM & Ef)].
  { reflexivity. } { left; auto. } { lia. } { constructor. } { reflexivity. } { apply Forall_forall. intros; lia. }
  { pose proof (krep_length _ _ K). lia. }
  - rewrite Ef. cbn [bind].
    destruct (in_split _ _ Hx) as (M1 & M2 & EM). destruct x as [a [hx t]]. cbn [eaddr fst] in *.
    rewrite Forall_forall in HM. specialize (HM _ Hx). cbn [etid snd] in HM.
    assert (Exs2 : xs = (L ++ M1) ++ (a, (hx, t)) :: (M2 ++ R)). { rewrite Exs, EM, <- !app_assoc. reflexivity. }
    rewrite Exs2 in K. destruct (update_ok k (L ++ M1) a hx t (M2 ++ R) t K) as (n & En & Et & _). rewrite En, Et. exists (Some t). split; [reflexivity|].
    split; [rewrite Exs2, map_app; apply in_or_app; right; left; reflexivity|].
    destruct (id_cmp_cases t sid pub) as [[B1 B2]|[[B1 B2]|[(B1 & B3 & B2)|[(B1 & B3 & B4 & B2)|(B1 & B3 & B4 & B2)]]]]; try lia. auto.
  - rewrite Ef. cbn [bind]. exists None. split; [reflexivity|]. subst M. cbn [app] in Exs. intros t Ht [Q1 Q2].
    assert (Z0 : id_cmp t sid pub = 0).
    { destruct (id_cmp_cases t sid pub) as [[B1 B2]|[[B1 B2]|[(B1 & B3 & B2)|[(B1 & B3 & B4 & B2)|(B1 & B3 & B4 & B2)]]]]; auto; try lia;
        rewrite Q1 in B1; destruct (slt_irrefl _ B1). }
    apply in_map_iff in Ht. destruct Ht as (x & Et & Hx). subst t. rewrite Exs in Hx. apply in_app_iff in Hx. rewrite Forall_forall in HL, HR.
    destruct Hx as [Hx|Hx]; [specialize (HL _ Hx)|specialize (HR _ Hx)]; lia.
Qed.

Lemma all_kinv f rs k : Forall (fun x => valid_height (snd x) /\ 0 <= r_pub (fst x)) rs -> add_all f tl_init rs = Ok k ->
  exists xs gss, kinv f any k xs gss /\ Permutation (map fst (concat (concat gss))) (map fst rs).
Proof.
  intros HV E. pose proof (add_all_ok (mk_guard False False) f rs tl_init [] [] (kinv_init f any) HV (False_ind _) (False_ind _)) as H.
  rewrite E in H. exact H.
Qed.

Lemma all_find f rs k sid pub : Forall (fun x => valid_height (snd x) /\ 0 <= r_pub (fst x)) rs -> add_all f tl_init rs = Ok k ->
  pub = 0 \/ f_split f = true ->
  exists ids o, tl_ids k = Ok ids /\ tl_find k sid pub = Ok o /\
    match o with
    | Some t => In t ids /\ t_sid t = sid /\ (pub = 0 \/ t_pub t = pub)
                /\ exists r, In r (map fst rs) /\ r_sid r = sid /\ (pub = 0 \/ r_pub r = pub)
    | None => forall r, In r (map fst rs) -> r_sid r = sid -> pub <> 0 /\ r_pub r <> pub
    end.
Proof.
  intros HV E Hp. destruct (all_kinv f rs k HV E) as (xs & gss & HK & P).
  assert (Hq : f_split f = false -> pub = 0) by (intro; destruct Hp; congruence).
  destruct (find_ok f any k xs gss sid pub HK Hq) as (o & Eo & Ho).
  pose proof (kinv_holds f any k xs gss _ HK P) as HH. exists (map etid xs), o. split; [apply HH|]. split; [exact Eo|].
  destruct o as [t|].
  - destruct Ho as (H1 & H2 & H3). split; [exact H1|]. split; [exact H2|]. split; [exact H3|].
    destruct (holds_groups _ _ _ _ _ HH) as [_ G]. destruct (G t H1) as (r & gs & e & Hr & Hin & Hpub & (HA & _)).
    rewrite Forall_forall in HA. destruct (HA _ Hin) as (S & _). exists r. cbn in S. split; [exact Hr|]. split; [congruence|]. rewrite Hpub. exact H3.
  - intros r Hr Hs. destruct (holds_keys _ _ _ _ _ HH) as (_ & G2 & G3). split.
    + intros ->. destruct (G3 r Hr) as (t & Ht & St). apply (Ho t Ht). split; [congruence|auto].
    + intros Er. destruct (Z.eq_dec (r_pub r) 0) as [Z0|Z0].
      * destruct (G3 r Hr) as (t & Ht & St). apply (Ho t Ht). split; [congruence|]. left. congruence.
      * destruct (f_split f) eqn:Sp.
        -- destruct (G2 r Hr (or_intror Z0)) as (t & Ht & Kt). apply (Ho t Ht). unfold tkey, rkey, key in Kt. rewrite Sp in Kt. injection Kt as K1 K2.
           split; [congruence|]. right. congruence.
        -- specialize (Hq eq_refl). congruence.
Qed.

(** The heights drawn are valid. *)
Lemma height_ok : forall n state h, h <= snd (random_height n state h) <= h + Z.of_nat n.
Proof.
  induction n as [|n IH]; intros state h; [cbn; lia|]. unfold random_height. fold random_height. cbv zeta.
  destruct (_ <? _); [|cbn [snd]; lia]. specialize (IH (uwrap 64 (6364136223846793005 * state + 1)) (h + 1)). lia.
Qed.

(** ** Summaries *)

Lemma narrow_groups f k rs ids gss : holds f k rs ids gss -> all_narrow f rs -> Forall (narrow f) (concat (concat gss)).
Proof.
  intros (_ & _ & _ & _ & P & TM) N. apply Forall_forall. intros x Hx. unfold all_narrow in N. rewrite Forall_forall in N, TM.
  destruct x as [r e]. apply (N r); [|apply (TM _ Hx)]. eapply Permutation_in; [exact P|]. change r with (fst (r, e)). apply in_map. exact Hx.
Qed.

Lemma Forall2_strong {X Y} (R S : X -> Y -> Prop) l m : Forall2 R l m -> (forall x y, In y m -> R x y -> S x y) -> Forall2 S l m.
Proof. induction 1 as [|x y l m H1 H2 IH]; intro H; constructor; [apply H; [left; reflexivity|exact H1]|]. apply IH. intros. apply H; [right|]; assumption. Qed.

Lemma all_segments f rs k : given rs -> add_all f tl_init rs = Ok k ->
  exists ids, tl_ids k = Ok ids /\ Forall (fun t => exists segs, well_formed t segs) ids.
Proof.
  intros HV E. destruct (all_holds f rs k HV E) as (ids & gss & H). exists ids. split; [apply H|].
  destruct H as (_ & _ & _ & F & _). clear -F. induction F as [|t gs ids gss [(segs & W & _) _] F IH]; constructor; eauto.
Qed.

Lemma all_extremes f rs k : given rs -> f_mode f = Strict -> all_narrow f (map fst rs) -> add_all f tl_init rs = Ok k ->
  exists ids, tl_ids k = Ok ids /\ Forall (fun t => exists segs, well_formed t segs /\ extremes t segs) ids.
Proof.
  intros HV HM HN E. destruct (all_holds f rs k HV E) as (ids & gss & H). exists ids. split; [apply H|].
  pose proof (narrow_groups f k _ _ _ H HN) as NG. destruct H as (_ & _ & _ & F & _). clear -F NG HM.
  induction F as [|t gs ids gss [(segs & W & M) A] F IH]; constructor.
  - exists segs. split; [exact W|]. cbn in NG. rewrite concat_app in NG. apply Forall_app in NG. eapply made_extremes; eauto. apply NG.
  - apply IH. cbn in NG. rewrite concat_app in NG. apply Forall_app in NG. apply NG.
Qed.

Lemma ordinary_all_narrow f rs : f_ttol f = None -> Forall ordinary rs -> all_narrow f rs.
Proof. intros HT H. eapply Forall_impl; [|exact H]. cbn. intros r O e He. apply ordinary_narrow; assumption. Qed.

Lemma all_ordinary f rs : given rs -> f_mode f = Strict -> f_ttol f = None -> Forall ordinary (map fst rs) -> sum (map r_cnt (map fst rs)) < 2 ^ 63 ->
  (forall r r', In r (map fst rs) -> In r' (map fst rs) -> r_sid r = r_sid r' -> r_data r <> [] -> r_type r' = r_type r /\ known_type (r_type r) = true) ->
  exists k, add_all f tl_init rs = Ok k.
Proof.
  intros HV HM HT HO HS HTy. apply all_succeed; [exact HV| |].
  - split; [|intros _; exact HS]. eapply Forall_impl; [|exact HO]. cbn. intros r O. apply ordinary_tame; assumption.
  - split; [|exact HTy]. eapply Forall_impl; [|exact HO]. cbn. intros r O E. destruct (ordinary_end f r O) as (e & Ee & Be).
    rewrite E in Ee. injection Ee as <-. destruct O as (q & _ & _ & _ & _ & B & _). lia.
Qed.

Lemma all_conserved f rs k : given rs -> add_all f tl_init rs = Ok k ->
  exists ids gss, holds f k (map fst rs) ids gss
    /\ (f_mode f = Strict -> Forall2 counted ids gss)
    /\ (f_mode f = Strict -> all_narrow f (map fst rs) -> Forall2 covered ids gss).
Proof.
  intros HV E. destruct (all_holds f rs k HV E) as (ids & gss & H). exists ids, gss. split; [exact H|]. split.
  - intro HM. destruct H as (_ & _ & _ & F & _). eapply Forall2_strong; [exact F|]. cbn. intros t gs _ [(segs & (_ & W & _) & M) _].
    exists segs. split; [exact W|]. rewrite <- (made_total f segs gs M HM). reflexivity.
  - intros HM HN. pose proof (narrow_groups f k _ _ _ H HN) as NG. destruct H as (_ & _ & _ & F & _). eapply Forall2_strong; [exact F|]. cbn.
    intros t gs Hg [(segs & (_ & W & _) & M) _]. exists segs. split; [exact W|]. eapply Forall2_strong; [exact M|]. cbn. intros s g Hg2 Ms.
    eapply made_covers; eauto. apply Forall_forall. intros x Hx. rewrite Forall_forall in NG. apply NG.
    apply in_concat. exists g. split; [|exact Hx]. apply in_concat. exists gs. auto.
Qed.

Lemma all_ids f rs k : given rs -> add_all f tl_init rs = Ok k ->
  exists ids, tl_ids k = Ok ids /\ ids_sorted f ids /\ NoDup (map (tkey f) ids)
    /\ k_num k = Z.of_nat (length ids) mod 2 ^ 32
    /\ (forall t, In t ids -> exists r, In r (map fst rs) /\ rkey f r = tkey f t)
    /\ (forall r, In r (map fst rs) -> f_split f = false \/ r_pub r <> 0 -> exists t, In t ids /\ tkey f t = rkey f r)
    /\ (forall r, In r (map fst rs) -> exists t, In t ids /\ t_sid t = r_sid r).
Proof.
  intros HV E. destruct (all_holds f rs k HV E) as (ids & gss & H). exists ids. pose proof H as (H1 & H2 & H3 & _).
  split; [exact H1|]. split; [exact H3|]. split; [apply sorted_keys; exact H3|]. split; [exact H2|]. eapply holds_keys; eassumption.
Qed.

Lemma drawn_ok state : 1 <= snd (lm_random_height state) <= 8.
Proof. pose proof (height_ok 7 state 1). unfold lm_random_height. lia. Qed.

Lemma all_rates f rs k : given rs -> add_all f tl_init rs = Ok k ->
  exists ids, tl_ids k = Ok ids /\
    Forall (fun t => exists segs gs, tid_segs t = Ok segs /\ Forall2 (fun s g => rates_joined f g /\ (f_keep f = true -> s_recs s = g)) segs gs) ids.
Proof.
  intros HV E. destruct (all_holds f rs k HV E) as (ids & gss & H). exists ids. split; [apply H|].
  destruct H as (_ & _ & _ & F & _). induction F as [|t gs ids gss [(segs & (_ & W & _) & M) _] F IH]; constructor; [|exact IH].
  exists segs, gs. split; [exact W|]. eapply Forall2_strong; [exact M|]. cbn. intros s g _ Ms. split; [apply (md_rates _ _ _ Ms)|].
  intro Hk. rewrite (md_recs _ _ _ Ms), Hk. reflexivity.
Qed.
