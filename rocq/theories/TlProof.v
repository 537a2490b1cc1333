(** * The trace list holds the records added. *)

From Coq Require Import Permutation.
From Verif Require Import Base BaseLemmas RecProof TlModel TlSpec TlHeap TlSegs TlSkip TlMade.
Open Scope Z_scope.

(** ** Strings *)

Lemma strcmp_lt a : forall b, strcmp a b < 0 <-> slt a b.
Proof.
  induction a as [|x a IH]; intros [|y b]; cbn; try lia.
  destruct (Z.eqb_spec x y) as [->|H].
  - rewrite IH. split; [auto|]. intros [|[_ ?]]; [lia|assumption].
  - destruct (Z.ltb_spec x y); split; intros; lia.
Qed.
Lemma strcmp_gt a : forall b, 0 < strcmp a b <-> slt b a.
Proof.
  induction a as [|x a IH]; intros [|y b]; cbn; try lia.
  destruct (Z.eqb_spec x y) as [->|H].
  - rewrite IH. split; [auto|]. intros [|[_ ?]]; [lia|assumption].
  - destruct (Z.ltb_spec x y); split; intros; lia.
Qed.
Lemma strcmp_eq a : forall b, strcmp a b = 0 <-> a = b.
Proof.
  induction a as [|x a IH]; intros [|y b]; cbn; try (split; (lia || congruence)).
  destruct (Z.eqb_spec x y) as [->|H].
  - rewrite IH. split; congruence.
  - destruct (Z.ltb_spec x y); split; (lia || congruence).
Qed.
Lemma slt_trans a : forall b c, slt a b -> slt b c -> slt a c.
Proof.
  induction a as [|x a IH]; intros [|y b] [|z c]; cbn; try tauto.
  intros [H1|[-> H1]] [H2|[-> H2]]; [left; lia|left; lia|left; lia|right; split; eauto].
Qed.
Lemma slt_irrefl a : ~ slt a a.
Proof. rewrite <- strcmp_lt. assert (strcmp a a = 0) by (apply strcmp_eq; reflexivity). lia. Qed.

(** ** The comparison of identifiers *)

Lemma id_cmp_cases t sid pub :
  (slt (t_sid t) sid /\ id_cmp t sid pub < 0)
  \/ (slt sid (t_sid t) /\ 0 < id_cmp t sid pub)
  \/ (t_sid t = sid /\ (pub = 0 \/ t_pub t = pub) /\ id_cmp t sid pub = 0)
  \/ (t_sid t = sid /\ pub <> 0 /\ t_pub t < pub /\ id_cmp t sid pub < 0)
  \/ (t_sid t = sid /\ pub <> 0 /\ pub < t_pub t /\ 0 < id_cmp t sid pub).
Proof.
  unfold id_cmp. destruct (Z.lt_trichotomy (strcmp (t_sid t) sid) 0) as [H|[H|H]].
  - left. split; [apply strcmp_lt; exact H|]. replace (strcmp (t_sid t) sid =? 0) with false by lia. exact H.
  - right; right. rewrite H. apply strcmp_eq in H. cbn [Z.eqb andb].
    destruct (Z.eqb_spec pub 0), (Z.eqb_spec (t_pub t) pub); cbn [negb andb]; auto.
    destruct (Z.ltb_spec (t_pub t) pub); [right; left|right; right]; repeat split; auto; lia.
  - right; left. split; [apply strcmp_gt; exact H|]. replace (strcmp (t_sid t) sid =? 0) with false by lia. exact H.
Qed.

Definition qpub (f : conf) (r : trec) : Z := if f_split f then r_pub r else 0.

Lemma id_cmp_mono f t u sid pub : (f_split f = false -> pub = 0) -> id_lt f t u ->
  Z.sgn (id_cmp t sid pub) <= Z.sgn (id_cmp u sid pub).
Proof.
  intros Hp L.
  destruct (id_cmp_cases t sid pub) as [[A1 A2]|[[A1 A2]|[(A1 & A3 & A2)|[(A1 & A3 & A4 & A2)|(A1 & A3 & A4 & A2)]]]];
  destruct (id_cmp_cases u sid pub) as [[B1 B2]|[[B1 B2]|[(B1 & B3 & B2)|[(B1 & B3 & B4 & B2)|(B1 & B3 & B4 & B2)]]]]; try lia;
  exfalso; destruct L as [L|(L1 & L2 & L3)];
  try (rewrite ?A1, ?B1 in L; exact (slt_irrefl _ L));
  try lia;
  try (apply (slt_irrefl (t_sid t)); eapply slt_trans; [exact L|]; rewrite ?B1; (eapply slt_trans; [exact B1|exact A1]) || exact B1 || exact A1 || (rewrite A1; exact B1));
  try (apply (slt_irrefl sid); congruence);
  try (rewrite L2 in A1; apply (slt_irrefl sid); (eapply slt_trans; eassumption) || (rewrite A1 in B1; exact B1) || (rewrite B1 in A1; exact A1)).
  all: idtac.
Qed.

Lemma up_of_sorted f sid pub (xs : list ient) : (f_split f = false -> pub = 0) -> ids_sorted f (map etid xs) ->
  up (fun x => id_cmp (etid x) sid pub) xs.
Proof.
  intros Hp. induction xs as [|x xs IH]; cbn; [auto|]. intros [H1 H2]. split; [|auto].
  rewrite Forall_map in H1. eapply Forall_impl; [|exact H1]. cbn. intros y Hy. eapply id_cmp_mono; eauto.
Qed.

Lemma key_split_exists sid pub (xs : list ient) : up (fun x => id_cmp (etid x) sid pub) xs ->
  exists L M R, key_split sid pub xs L M R.
Proof.
  induction xs as [|x xs IH]; cbn; intro H.
  - exists [], [], []. repeat split; constructor.
  - destruct H as [H1 H2]. destruct (IH H2) as (L & M & R & E & HL & HM & HR). subst xs.
    apply Forall_app in H1. destruct H1 as [F1 F2]. apply Forall_app in F2. destruct F2 as [F2 F3].
    destruct (Z.lt_trichotomy (id_cmp (etid x) sid pub) 0) as [C|[C|C]].
    + exists (x :: L), M, R. repeat split; auto.
    + assert (L = []) as ->. { destruct L; [reflexivity|]. inversion HL; inversion F1; subst. lia. }
      exists [], (x :: M), R. repeat split; auto.
    + assert (L = []) as ->. { destruct L; [reflexivity|]. inversion HL; inversion F1; subst. lia. }
      assert (M = []) as ->. { destruct M; [reflexivity|]. inversion HM; inversion F2; subst. lia. }
      exists [], [], (x :: R). repeat split; auto.
Qed.

Lemma ids_sorted_app f l1 l2 : ids_sorted f (l1 ++ l2) <-> ids_sorted f l1 /\ ids_sorted f l2 /\ Forall (fun a => Forall (id_lt f a) l2) l1.
Proof.
  induction l1 as [|a l1 IH]; cbn.
  - split; [intro; repeat split; auto|tauto].
  - rewrite Forall_app, IH. split.
    + intros [[H1 H2] (H3 & H4 & H5)]. repeat split; auto.
    + intros [[H1 H2] (H3 & H4)]. inversion H4; subst. repeat split; auto.
Qed.

Lemma sorted_insert f r l1 l2 t : ids_sorted f (l1 ++ l2) -> t_sid t = r_sid r -> t_pub t = r_pub r ->
  Forall (fun u => id_cmp u (r_sid r) (qpub f r) < 0) l1 -> Forall (fun u => 0 < id_cmp u (r_sid r) (qpub f r)) l2 ->
  ids_sorted f (l1 ++ t :: l2).
Proof.
  intros HS E1 E2 H1 H2. apply ids_sorted_app in HS. destruct HS as (S1 & S2 & S3). apply ids_sorted_app. split; [exact S1|]. split.
  - split; [|exact S2]. eapply Forall_impl; [|exact H2]. cbn. intros u Hu. unfold id_lt, qpub in *.
    destruct (id_cmp_cases u (r_sid r) (if f_split f then r_pub r else 0)) as [[A1 A2]|[[A1 A2]|[(A1 & A3 & A2)|[(A1 & A3 & A4 & A2)|(A1 & A3 & A4 & A2)]]]]; try lia.
    + left. rewrite E1. exact A1.
    + right. destruct (f_split f); [|lia]. repeat split; [congruence|lia].
  - rewrite Forall_forall in *. intros u Hu. constructor; [|apply S3; exact Hu]. specialize (H1 u Hu). unfold id_lt, qpub in *.
    destruct (id_cmp_cases u (r_sid r) (if f_split f then r_pub r else 0)) as [[A1 A2]|[[A1 A2]|[(A1 & A3 & A2)|[(A1 & A3 & A4 & A2)|(A1 & A3 & A4 & A2)]]]]; try lia.
    + left. rewrite E1. exact A1.
    + right. destruct (f_split f); [|lia]. repeat split; [congruence|lia].
Qed.

Lemma sorted_update f l1 t t' l2 : ids_sorted f (l1 ++ t :: l2) -> t_sid t' = t_sid t -> (f_split f = true -> t_pub t' = t_pub t) ->
  ids_sorted f (l1 ++ t' :: l2).
Proof.
  intros HS E1 E2. apply ids_sorted_app in HS. destruct HS as (S1 & [S2 S2'] & S3). apply ids_sorted_app. split; [exact S1|]. split.
  - split; [|exact S2']. eapply Forall_impl; [|exact S2]. unfold id_lt. cbn. intros u [Hu|(Hs & H1 & H2)]; [left; congruence|].
    right. rewrite E1, (E2 Hs). auto.
  - eapply Forall_impl; [|exact S3]. cbn. intros u Hu. inversion Hu as [|? ? H1 H2]; subst. constructor; [|exact H2].
    unfold id_lt in *. destruct H1 as [H1|(Hs & H1 & H3)]; [left; congruence|]. right. rewrite E1, (E2 Hs). auto.
Qed.

(** ** The invariant *)

(** [X] is a further property of the records of the segments. *)
Definition groups := list (list (trec * Z)).
Definition any (_ : groups) : Prop := True.
Definition tinv (f : conf) (X : groups -> Prop) (t : tid) (gs : groups) : Prop :=
  exists cells, trep t cells /\ cells <> [] /\ ordered (map snd cells) /\ Forall2 (made f) (map snd cells) gs /\ about f t (concat gs) /\ X gs.

Definition kinv (f : conf) (X : groups -> Prop) (k : tlist) (xs : list ient) (gss : list groups) : Prop :=
  krep k xs /\ ids_sorted f (map etid xs) /\ Forall (fun x => (1 <= eht x <= HEIGHT)%nat) xs
  /\ k_num k = Z.of_nat (length xs) mod 2 ^ 32 /\ Forall2 (tinv f X) (map etid xs) gss
  /\ Forall (timed f) (concat (concat gss)) /\ Forall (fun x => 0 <= r_pub (fst x)) (concat (concat gss)).

Lemma about_perm f t L L' : Permutation L L' -> about f t L -> about f t L'.
Proof.
  intros P (H1 & (x & Hx & Ex) & (y & Hy & Ey) & (z & Hz & Ez)). split; [eapply Permutation_Forall; eassumption|].
  split; [exists x|split; [exists y|exists z]]; (split; [eapply Permutation_in; eassumption|assumption]).
Qed.

Lemma about_step f t t' r e L : about f t L -> r_sid r = t_sid t -> (f_split f = true -> r_pub r = t_pub t \/ r_pub r = 0) ->
  0 <= t_pub t -> t_sid t' = t_sid t -> t_pub t' = Z.max (t_pub t) (r_pub r) ->
  t_early t' = Z.min (t_early t) (r_start r) -> t_late t' = Z.max (t_late t) e -> about f t' ((r, e) :: L).
Proof.
  intros (H1 & (x & Hx & Ex) & (y & Hy & Ey) & (z & Hz & Ez)) Hs Hp H0 E1 E2 E3 E4.
  split; [|split; [|split]].
  - constructor.
    + cbn. split; [congruence|]. split; [intro Hsp; specialize (Hp Hsp); lia|lia].
    + eapply Forall_impl; [|exact H1]. cbn. intros u (A1 & A2 & A3 & A4 & A5). split; [congruence|]. split; [|lia].
      intro Hsp. specialize (A2 Hsp). specialize (Hp Hsp). lia.
  - destruct (Z.le_gt_cases (r_pub r) (t_pub t)); [exists x|exists (r, e)]; cbn; (split; [auto|lia]).
  - destruct (Z.le_gt_cases (t_early t) (r_start r)); [exists y|exists (r, e)]; cbn; (split; [auto|lia]).
  - destruct (Z.le_gt_cases e (t_late t)); [exists z|exists (r, e)]; cbn; (split; [auto|lia]).
Qed.

Lemma about_new f t r e : t_sid t = r_sid r -> t_pub t = r_pub r -> t_early t = r_start r -> t_late t = e -> about f t [(r, e)].
Proof.
  intros E1 E2 E3 E4. split; [constructor; [|constructor]; cbn; split; [congruence|split; [auto|lia]]|].
  split; [|split]; exists (r, e); cbn; auto.
Qed.

Lemma about_pub f t L : about f t L -> Forall (fun x => 0 <= r_pub (fst x)) L -> 0 <= t_pub t.
Proof. intros (_ & (x & Hx & <-) & _) H. rewrite Forall_forall in H. apply H. exact Hx. Qed.

Lemma concat_mid {B} (g1 : list (list (list B))) gs g2 : Permutation (concat (concat (g1 ++ gs :: g2))) (concat gs ++ concat (concat (g1 ++ g2))).
Proof.
  rewrite !concat_app. cbn. rewrite !concat_app. rewrite Permutation_app_swap_app. reflexivity.
Qed.

Lemma Forall2_len {X Y} (R : X -> Y -> Prop) l m : Forall2 R l m -> length l = length m.
Proof. induction 1; cbn; congruence. Qed.

(** ** Neither out of fuel nor an error *)

Lemma to_int64_fuel d : to_int64 d <> Fuel.
Proof. unfold to_int64. repeat match goal with |- context [match ?x with _ => _ end] => destruct x end; discriminate. Qed.
Lemma sarith_fuel m w v : sarith m w v <> Fuel.
Proof. unfold sarith. destruct (in_sb w v); [discriminate|]. destruct m; discriminate. Qed.
Lemma bind_fuel {X Y} (m : res X) (k : X -> res Y) : m <> Fuel -> (forall v, k v <> Fuel) -> bind m k <> Fuel.
Proof. destruct m; cbn; auto; discriminate. Qed.

Lemma leap_fuel m leaps t : forall s, leap_adjust m leaps t s <> Fuel.
Proof.
  induction leaps as [|l leaps IH]; intro s; cbn; [discriminate|]. destruct (t <? l); [|apply IH].
  apply bind_fuel; [apply sarith_fuel|]. intro a. apply bind_fuel; [apply sarith_fuel|]. intro b.
  destruct (l <=? b); [apply sarith_fuel|apply IH].
Qed.
Lemma rec_end_fuel f r : rec_end f r <> Fuel.
Proof.
  unfold rec_end, endtime, sampletime. apply bind_fuel.
  - unfold sample_span. destruct (0 <? _); [|discriminate]. destruct (dlt _ _); [apply to_int64_fuel|].
    destruct (dlt _ _); [apply to_int64_fuel|discriminate].
  - intro v. apply bind_fuel; [apply leap_fuel|]. intro w. apply sarith_fuel.
Qed.
Lemma calc_fuel f r e : calc_of f r e <> Fuel.
Proof.
  unfold calc_of. apply bind_fuel.
  - unfold nsperiod. destruct (dlt _ _); [apply to_int64_fuel|]. destruct (dlt _ _); [apply to_int64_fuel|discriminate].
  - intro p. apply bind_fuel; [destruct (f_ttol f); apply to_int64_fuel|]. intro tol.
    apply bind_fuel; [destruct (tol =? 0); [discriminate|apply sarith_fuel]|]. discriminate.
Qed.

Lemma bind_err {X Y} (m : res X) (k : X -> res Y) e : bind m k = Err e -> m = Err e \/ exists v, m = Ok v /\ k v = Err e.
Proof. destruct m; cbn; intro H; try discriminate; [right; eauto|left; congruence]. Qed.
Lemma to_int64_err d e : to_int64 d <> Err e.
Proof. unfold to_int64. repeat match goal with |- context [match ?x with _ => _ end] => destruct x end; discriminate. Qed.
Lemma sarith_err m w v e : sarith m w v <> Err e.
Proof. unfold sarith. destruct (in_sb w v); [discriminate|]. destruct m; discriminate. Qed.
Lemma leap_err m leaps t e : forall s, leap_adjust m leaps t s <> Err e.
Proof.
  induction leaps as [|l leaps IH]; intro s; cbn; [discriminate|]. destruct (t <? l); [|apply IH].
  intro H. apply bind_err in H. destruct H as [H|(a & _ & H)]; [exact (sarith_err _ _ _ _ H)|].
  apply bind_err in H. destruct H as [H|(b & _ & H)]; [exact (sarith_err _ _ _ _ H)|].
  destruct (l <=? b); [exact (sarith_err _ _ _ _ H)|exact (IH _ H)].
Qed.
Lemma rec_end_err f r e : rec_end f r <> Err e.
Proof.
  unfold rec_end, endtime, sampletime. intro H. apply bind_err in H. destruct H as [H|(a & _ & H)].
  - unfold sample_span in H. destruct (0 <? _); [|discriminate]. destruct (dlt _ _); [exact (to_int64_err _ _ H)|].
    destruct (dlt _ _); [exact (to_int64_err _ _ H)|discriminate].
  - apply bind_err in H. destruct H as [H|(b & _ & H)]; [exact (leap_err _ _ _ _ _ H)|exact (sarith_err _ _ _ _ H)].
Qed.
Lemma calc_err f r x e : calc_of f r x <> Err e.
Proof.
  unfold calc_of. intro H. apply bind_err in H. destruct H as [H|(p & _ & H)].
  - unfold nsperiod in H. destruct (dlt _ _); [exact (to_int64_err _ _ H)|]. destruct (dlt _ _); [exact (to_int64_err _ _ H)|discriminate].
  - apply bind_err in H. destruct H as [H|(tol & _ & H)]; [destruct (f_ttol f); exact (to_int64_err _ _ H)|].
    apply bind_err in H. destruct H as [H|(nt & _ & H)]; [destruct (tol =? 0); [discriminate|exact (sarith_err _ _ _ _ H)]|discriminate].
Qed.

(** The step.  [A] is what rules out overflow: [ready] of it for the record and every
    identifier. *)
(** An addition to the segments keeps [X]. *)
Definition keeps (f : conf) (X : groups -> Prop) (r : trec) (t : tid) (gs : groups) : Prop :=
  forall c old others s, calc_of f r (c_end c) = Ok c -> timed f (r, c_end c) -> change f r c (t_early t) (t_late t) old others s ->
    ordered old -> Forall2 (made f) old gs -> about f t (concat gs) -> X gs ->
    exists og g, Forall2 (made f) others og /\ made f s g /\ Permutation (g ++ concat og) ((r, c_end c) :: concat gs)
                 /\ forall gs', Permutation gs' (g :: og) -> X gs'.

Lemma keeps_any f r t gs : keeps f any r t gs.
Proof.
  intros c old others s Hc _ CH _ F _ _. destruct (change_made _ _ _ _ _ _ _ _ _ Hc CH F) as (og & g & H1 & H2 & H3).
  exists og, g. split; [exact H1|]. split; [exact H2|]. split; [exact H3|]. intros; exact I.
Qed.

Lemma add_msr_ok (A : guard) f X k xs gss r ht :
  kinv f X k xs gss ->
  (forall t gs, In (t, gs) (combine (map etid xs) gss) -> t_sid t = r_sid r -> (f_split f = true -> r_pub r = t_pub t \/ r_pub r = 0) -> keeps f X r t gs) ->
  (forall e, timed f (r, e) -> X [[(r, e)]]) -> (1 <= ht <= HEIGHT)%nat -> 0 <= r_pub r ->
  (A -> match rec_end f r with UB _ | Fuel => False | _ => True end) -> rec_end f r <> Fuel ->
  (forall e, A -> rec_end f r = Ok e -> exists c, calc_of f r e = Ok c) -> (forall e, calc_of f r e <> Fuel) ->
  (forall e c t gs segs, A -> rec_end f r = Ok e -> calc_of f r e = Ok c -> In (t, gs) (combine (map etid xs) gss) ->
     Forall2 (made f) segs gs -> noov f r c segs) ->
  (g_err A -> rec_end f r <> Ok (-2145916800000000000) /\ (r_data r = [] \/ known_type (r_type r) = true)) ->
  (forall t gs segs, g_err A -> In (t, gs) (combine (map etid xs) gss) -> t_sid t = r_sid r -> about f t (concat gs) ->
     Forall2 (made f) segs gs -> typed r segs) ->
  safe A (add_msr f k r ht)
    (fun k' => exists xs' gss' e, kinv f X k' xs' gss' /\ timed f (r, e) /\ Permutation (concat (concat gss')) ((r, e) :: concat (concat gss))).
Proof.
  intros (K & KS & KH & KN & KI & KT & KP) HX HX1 Hht Hpub A1 A1' A2 A2' A3 G1 G2. unfold add_msr.
  fold (rec_end f r). destruct (rec_end f r) as [e|er|u|] eqn:Ee; cbn [bind safe]; [|destruct (rec_end_err f r er Ee)|intro a; exact (A1 a)|congruence].
  destruct (Z.eqb_spec e (-2145916800000000000)) as [->|_]; [intro g; destruct (G1 g); congruence|].
  fold (qpub f r).
  assert (Hq : f_split f = false -> qpub f r = 0). { intro Hs. unfold qpub. rewrite Hs. reflexivity. }
  destruct (key_split_exists (r_sid r) (qpub f r) xs) as (L & M & R & KSP); [eapply up_of_sorted; eauto|].
  pose proof KSP as (Exs & HL & HM & HR).
  assert (Hht1 : Forall (fun x => (1 <= eht x)%nat) xs). { eapply Forall_impl; [|exact KH]. cbn. lia. }
  destruct (find_id_ok k (r_sid r) (qpub f r) xs L M R K KSP Hht1 (k_fresh k + HEIGHT + 1)%nat HEIGHT [] xs PHead []) as [(x & prevs & Hx & Ef)|(EM & Ef)].
  { reflexivity. } { left; auto. } { lia. } { constructor. } { reflexivity. } { apply Forall_forall. intros; lia. }
  { pose proof (krep_length _ _ K). lia. }
  - (* found *)
    rewrite Ef. cbn [bind].
    destruct (in_split _ _ Hx) as (M1 & M2 & EM). destruct x as [a [hx t]]. cbn [eaddr fst] in *.
    assert (Exs2 : xs = (L ++ M1) ++ (a, (hx, t)) :: (M2 ++ R)). { rewrite Exs, EM, <- !app_assoc. reflexivity. }
    clear Exs. rewrite Forall_forall in HM. specialize (HM _ Hx). cbn [etid snd] in HM.
    set (X1 := L ++ M1) in *. set (X2 := M2 ++ R) in *. clearbody X1 X2. subst xs.
    destruct (update_ok k X1 a hx t X2 t K) as (n & En & Et & _). rewrite En, Et.
    rewrite map_app in KI. cbn [map] in KI. apply Forall2_cut in KI. destruct KI as (g1 & gs & g2 & -> & F1 & (cells & T & Tne & TO & TM & TA & TX) & F2).
    cbn [etid snd] in *.
    destruct (calc_of f r e) as [c|ce|cu|] eqn:Ec; cbn [bind safe]; [|destruct (calc_err _ _ _ _ Ec)| |congruence].
    2:{ intro a0. destruct (A2 e a0 eq_refl) as (c & Hc). congruence. }
    pose proof (calc_end _ _ _ _ Ec) as (Ece & _ & _).
    destruct (id_cmp_cases t (r_sid r) (qpub f r)) as [[B1 B2]|[[B1 B2]|[(B1 & B3 & B2)|[(B1 & B3 & B4 & B2)|(B1 & B3 & B4 & B2)]]]]; try lia.
    assert (HIN : In (t, gs) (combine (map etid (X1 ++ (a, (hx, t)) :: X2)) (g1 ++ gs :: g2))).
    { rewrite map_app. cbn [map etid snd]. assert (LL : length (map etid X1) = length g1) by (eapply Forall2_len; exact F1).
      clear -LL. revert g1 LL. induction (map etid X1) as [|y l IH]; intros [|g g1] LL; cbn in *; try discriminate; auto. }
    eapply safe_bind.
    { apply (add_to_tid_ok A f r c t cells T Tne TO).
      - intro a0. eapply (A3 e c t gs); eauto.
      - intro g. eapply (G2 t gs); eauto. }
    intros t' (cells' & T' & T'ne & TO' & others & s & z1 & z2 & CH & Enew & Eoth & S1 & S2 & S3 & S4). cbn [safe].
    rewrite <- Ece in Ec.
    assert (Htm : timed f (r, c_end c)) by (unfold timed; cbn; congruence).
    assert (Hsp : f_split f = true -> r_pub r = t_pub t \/ r_pub r = 0). { intro Hs. unfold qpub in B3. rewrite Hs in B3. destruct B3; auto. }
    destruct (HX t gs HIN B1 Hsp c _ _ _ Ec Htm CH TO TM TA TX) as (og & g & FO & MS & PP & XX).
    rewrite <- Eoth in FO. apply Forall2_app_inv_l in FO. destruct FO as (o1 & o2 & FO1 & FO2 & ->).
    assert (PN : Permutation (concat (o1 ++ g :: o2)) ((r, e) :: concat gs)).
    { rewrite <- Ece, <- PP. rewrite !concat_app. cbn. rewrite Permutation_app_swap_app. reflexivity. }
    assert (KPg : Forall (fun x => 0 <= r_pub (fst x)) (concat gs)).
    { pose proof (Permutation_Forall (concat_mid g1 gs g2) KP) as Q. apply Forall_app in Q. apply Q. }
    pose proof (about_pub _ _ _ TA KPg) as Tpub.
    destruct (update_ok k X1 a hx t X2 t' K) as (n' & En' & Et' & K').
    rewrite En in En'. injection En' as <-.
    exists (X1 ++ (a, (hx, t')) :: X2), (g1 ++ (o1 ++ g :: o2) :: g2), e.
    assert (PG : Permutation (concat (concat (g1 ++ (o1 ++ g :: o2) :: g2))) ((r, e) :: concat (concat (g1 ++ gs :: g2)))).
    { rewrite (concat_mid g1 (o1 ++ g :: o2) g2), (concat_mid g1 gs g2), PN. reflexivity. }
    split; [|split; [exact Ee|exact PG]].
    split; [exact K'|]. split; [|split; [|split; [|split; [|split]]]].
    + rewrite map_app in *. cbn [map etid snd] in *. eapply sorted_update; [exact KS|exact S1|]. intro Hs. rewrite S2. specialize (Hsp Hs). lia.
    + apply Forall_app in KH. destruct KH as [KH1 KH2]. inversion KH2; subst. apply Forall_app. split; [exact KH1|]. constructor; assumption.
    + cbn [k_num]. rewrite KN, !app_length. reflexivity.
    + rewrite map_app. cbn [map etid snd]. apply Forall2_app; [exact F1|]. constructor; [|exact F2].
      exists cells'. split; [exact T'|]. split; [exact T'ne|]. split; [exact TO'|]. split.
      * rewrite Enew. apply Forall2_app; [exact FO1|]. constructor; assumption.
      * split; [eapply about_perm; [symmetry; exact PN|]; eapply about_step; eauto; rewrite <- Ece; exact S4|].
        apply XX. symmetry. apply Permutation_middle.
    + apply (Permutation_Forall (Permutation_sym PG)). constructor; [exact Ee|exact KT].
    + apply (Permutation_Forall (Permutation_sym PG)). constructor; [exact Hpub|exact KP].
  - (* not found *)
    rewrite Ef. cbn [bind]. subst M. cbn [app] in Exs.
    eapply safe_bind; [apply new_tid_ok; intro g; apply (G1 g)|].
    intros t (a & s & T & Es & S1 & S2 & S3 & S4).
    rewrite Exs in K. destruct (add_id_ok k t L R ht K) as (k' & Ek & K' & N' & Fr'); [lia|]. rewrite Ek. cbn [safe].
    rewrite Exs, map_app in KI. apply Forall2_app_inv_l in KI. destruct KI as (g1 & g2 & F1 & F2 & ->).
    exists (L ++ (k_fresh k, (ht, t)) :: R), (g1 ++ [[(r, e)]] :: g2), e.
    assert (PG : Permutation (concat (concat (g1 ++ [[(r, e)]] :: g2))) ((r, e) :: concat (concat (g1 ++ g2)))).
    { rewrite concat_mid. reflexivity. }
    split; [|split; [exact Ee|exact PG]].
    split; [exact K'|]. split; [|split; [|split; [|split; [|split]]]].
    + rewrite Exs, map_app in KS. rewrite map_app. cbn [map etid snd].
      apply (sorted_insert f r); auto; rewrite Forall_map; assumption.
    + rewrite Exs in KH. apply Forall_app in KH. apply Forall_app. split; [apply KH|]. constructor; [exact Hht|apply KH].
    + rewrite N'. erewrite num_inc; [|exact KN]. f_equal. rewrite Exs, !app_length. cbn [length]. lia.
    + rewrite map_app. cbn [map etid snd]. apply Forall2_app; [exact F1|]. constructor; [|exact F2].
      exists [(a, s)]. split; [exact T|]. split; [discriminate|]. split; [cbn; auto|]. split.
      * cbn. constructor; [|constructor]. eapply made_new; eauto.
      * split; [cbn; apply about_new; auto|]. apply HX1. exact Ee.
    + apply (Permutation_Forall (Permutation_sym PG)). constructor; [exact Ee|exact KT].
    + apply (Permutation_Forall (Permutation_sym PG)). constructor; [exact Hpub|exact KP].
Qed.

(** ** All records *)

Lemma sum_perm l l' : Permutation l l' -> sum l = sum l'.
Proof. induction 1; cbn in *; unfold sum in *; cbn; lia. Qed.
Lemma tame_perm f rs rs' : Permutation rs rs' -> tame f rs -> tame f rs'.
Proof.
  intros P [H1 H2]. split; [eapply Permutation_Forall; eassumption|]. intro M. rewrite <- (sum_perm _ _ (Permutation_map r_cnt P)). auto.
Qed.
Lemma sum_nonneg l : Forall (fun x => 0 <= x) l -> 0 <= sum l.
Proof. induction 1; cbn; [lia|]. unfold sum in *. lia. Qed.

Lemma made_total f segs gs : Forall2 (made f) segs gs -> f_mode f = Strict -> total segs = sum (map (fun x => r_cnt (fst x)) (concat gs)).
Proof.
  intros F M. induction F as [|s g segs gs H F IH]; [reflexivity|]. cbn [concat]. rewrite map_app, sum_app, total_cons, IH.
  destruct (md_cnt _ _ _ H) as (z & E & Z0). rewrite E, (Z0 M). lia.
Qed.

Lemma made_bounds f segs gs (P Q : Z -> Prop) : Forall2 (made f) segs gs ->
  Forall (fun x => P (r_start (fst x)) /\ Q (snd x)) (concat gs) -> Forall (fun s => P (s_start s) /\ Q (s_end s)) segs.
Proof.
  intro F. induction F as [|s g segs gs H F IH]; cbn; intro B; [constructor|]. apply Forall_app in B. destruct B as [B1 B2].
  constructor; [|auto]. rewrite Forall_forall in B1. split.
  - destruct (md_start _ _ _ H) as (x & L' & -> & ->). apply (B1 x). left; reflexivity.
  - destruct (md_end _ _ _ H) as (L' & x & -> & ->). apply (B1 x). apply in_or_app; right; left; reflexivity.
Qed.

Lemma made_cnts f segs gs : Forall2 (made f) segs gs -> f_mode f = Strict ->
  Forall (fun x => 0 <= r_cnt (fst x)) (concat gs) -> Forall (fun s => 0 <= s_cnt s) segs.
Proof.
  intros F M. induction F as [|s g segs gs H F IH]; cbn; intro B; [constructor|]. apply Forall_app in B. destruct B as [B1 B2].
  constructor; [|auto]. destruct (md_cnt _ _ _ H) as (z & E & Z0). rewrite E, (Z0 M).
  assert (0 <= sum (map (fun x => r_cnt (fst x)) g)); [|lia]. apply sum_nonneg. rewrite Forall_map. exact B1.
Qed.

Lemma tame_noov f r c segs gs rest : timed f (r, c_end c) -> calc_of f r (c_end c) = Ok c -> Forall2 (made f) segs gs ->
  Forall (timed f) (concat gs) -> tame f (map fst (concat gs) ++ r :: rest) -> noov f r c segs.
Proof.
  intros T Hc F FT [H1 H2]. unfold noov. destruct (f_mode f) eqn:M; [right|left; reflexivity]. specialize (H2 eq_refl).
  apply Forall_app in H1. destruct H1 as [G1 G2]. inversion G2 as [|? ? G3 G4]; subst.
  destruct G3 as (e & c' & E1 & E2 & B). specialize (B M). red in T. cbn in T. rewrite T in E1. injection E1 as <-. rewrite Hc in E2. injection E2 as <-.
  assert (BG : Forall (fun x : trec * Z => (small (r_start (fst x)) /\ small (snd x)) /\ 0 <= r_cnt (fst x)) (concat gs)).
  { rewrite Forall_map in G1. rewrite Forall_forall in *. intros x Hx. destruct (G1 x Hx) as (e & c' & E1 & E2 & Bx). specialize (Bx M).
    specialize (FT x Hx). red in FT. rewrite FT in E1. injection E1 as <-. unfold small, short, big. lia. }
  assert (CR : 0 <= sum (map r_cnt rest)).
  { apply sum_nonneg. rewrite Forall_map. eapply Forall_impl; [|exact G4]. cbn. intros x (e & c' & _ & _ & Bx). specialize (Bx M). lia. }
  rewrite map_app, sum_app in H2. cbn [map] in H2.
  split; [unfold small, short, big; lia|]. split; [unfold small, short, big; lia|]. split; [unfold small, short, big; lia|]. split; [unfold small, short, big; lia|].
  split; [lia|]. split.
  - assert (F1 : Forall (fun s => small (s_start s) /\ small (s_end s)) segs).
    { apply (made_bounds f segs gs small small F). eapply Forall_impl; [|exact BG]. cbn. tauto. }
    assert (F2 : Forall (fun s => 0 <= s_cnt s) segs).
    { apply (made_cnts f segs gs F M). eapply Forall_impl; [|exact BG]. cbn. tauto. }
    rewrite Forall_forall in *. intros s Hs. specialize (F1 s Hs). specialize (F2 s Hs). tauto.
  - rewrite (made_total f segs gs F M). rewrite map_map in H2. unfold sum in *. cbn in H2. lia.
Qed.

Lemma failure_perm f rs rs' : Permutation rs rs' -> no_failure f rs -> no_failure f rs'.
Proof.
  intros P [H1 H2]. split; [eapply Permutation_Forall; eassumption|]. intros r r' Hr Hr'.
  apply H2; eapply Permutation_in; try (apply Permutation_sym; exact P); assumption.
Qed.

Lemma data_dec (L : list (trec * Z)) : (exists x, In x L /\ r_data (fst x) <> []) \/ Forall (fun x => r_data (fst x) = []) L.
Proof.
  induction L as [|x L [(y & Hy & Ey)|IH]]; [right; constructor|left; exists y; cbn; auto|].
  destruct (r_data (fst x)) eqn:E; [right; constructor; auto|left; exists x; cbn; split; [auto|congruence]].
Qed.

Lemma failure_typed f r t segs gs rest : about f t (concat gs) -> t_sid t = r_sid r -> Forall2 (made f) segs gs ->
  no_failure f (map fst (concat gs) ++ r :: rest) -> typed r segs.
Proof.
  intros (HA & _) HS F [_ H].
  assert (SID : forall x, In x (concat gs) -> r_sid (fst x) = r_sid r).
  { intros x Hx. rewrite Forall_forall in HA. destruct (HA x Hx) as (E & _). congruence. }
  assert (Hr : In r (map fst (concat gs) ++ r :: rest)) by (apply in_or_app; right; left; reflexivity).
  assert (Hg : forall x, In x (concat gs) -> In (fst x) (map fst (concat gs) ++ r :: rest)).
  { intros x Hx. apply in_or_app. left. apply in_map. exact Hx. }
  assert (Q : (known_type (r_type r) = true /\ Forall (fun x => r_type (fst x) = r_type r) (concat gs))
              \/ (r_data r = [] /\ Forall (fun x => r_data (fst x) = []) (concat gs))).
  { destruct (data_dec (concat gs)) as [(x & Hx & Ex)|N].
    - left. destruct (H _ _ (Hg x Hx) Hr (SID x Hx) Ex) as [E1 E2]. split; [congruence|]. apply Forall_forall. intros y Hy.
      destruct (H _ _ (Hg x Hx) (Hg y Hy) (eq_trans (SID x Hx) (eq_sym (SID y Hy))) Ex) as [E3 _]. congruence.
    - destruct (list_eq_dec Z.eq_dec (r_data r) []) as [E|E]; [right; auto|left].
      destruct (H _ _ Hr Hr eq_refl E) as [_ E2]. split; [exact E2|]. apply Forall_forall. intros y Hy.
      destruct (H _ _ Hr (Hg y Hy) (eq_sym (SID y Hy)) E) as [E3 _]. exact E3. }
  destruct Q as [[Q1 Q2]|[Q1 Q2]]; [left; split; [exact Q1|]|right; split; [exact Q1|]].
  - clear -F Q2. induction F as [|s g segs gs M F IH]; [constructor|]. cbn in Q2. apply Forall_app in Q2. destruct Q2 as [Q2 Q3].
    constructor; [|auto]. destruct (md_hz _ _ _ M) as (x & Hx & _ & E). rewrite E. rewrite Forall_forall in Q2. auto.
  - clear -F Q2. induction F as [|s g segs gs M F IH]; [constructor|]. cbn in Q2. apply Forall_app in Q2. destruct Q2 as [Q2 Q3].
    constructor; [|auto]. rewrite (md_data _ _ _ M). clear -Q2. induction Q2 as [|x g H Q IH]; cbn; [reflexivity|]. rewrite H. exact IH.
Qed.

Lemma combine_concat {X B} (ts : list X) : forall (gss : list (list (list B))) t gs,
  In (t, gs) (combine ts gss) -> exists rest, Permutation (concat (concat gss)) (concat gs ++ rest).
Proof.
  induction ts as [|u ts IH]; intros [|g gss] t gs H; cbn in H; try contradiction. destruct H as [E|H].
  - injection E as <- <-. exists (concat (concat gss)). cbn. rewrite concat_app. reflexivity.
  - destruct (IH _ _ _ H) as (rest & P). exists (concat g ++ rest). cbn. rewrite concat_app, P. apply Permutation_app_swap_app.
Qed.

Lemma add_all_ok (A : guard) f : forall rs k xs gss, kinv f any k xs gss ->
  Forall (fun x => valid_height (snd x) /\ 0 <= r_pub (fst x)) rs ->
  (A -> tame f (map fst (concat (concat gss)) ++ map fst rs)) ->
  (g_err A -> no_failure f (map fst (concat (concat gss)) ++ map fst rs)) ->
  safe A (add_all f k rs)
    (fun k' => exists xs' gss', kinv f any k' xs' gss'
       /\ Permutation (map fst (concat (concat gss'))) (map fst (concat (concat gss)) ++ map fst rs)).
Proof.
  induction rs as [|[r ht] rs IH]; intros k xs gss HK HV HA HG; cbn [add_all].
  - cbn [safe]. exists xs, gss. split; [exact HK|]. cbn. rewrite app_nil_r. reflexivity.
  - inversion HV as [|? ? [V1 V2] V3]; subst. cbn [fst snd map] in *.
    assert (TR : A -> tame_rec f r).
    { intro a. destruct (HA a) as [H1 _]. apply Forall_app in H1. destruct H1 as [_ H1]. inversion H1; assumption. }
    eapply safe_bind.
    { apply (add_msr_ok A f any k xs gss r ht HK (fun t gs _ _ _ => keeps_any f r t gs) (fun _ _ => I) V1 V2).
      - intro a. destruct (TR a) as (e & c & -> & _). exact I.
      - apply rec_end_fuel.
      - intros e a E. destruct (TR a) as (e' & c & E' & E2 & _). rewrite E in E'. injection E' as <-. eauto.
      - apply calc_fuel.
      - intros e c t gs segs a E Ec Hi F. pose proof (calc_end _ _ _ _ Ec) as (Ece & _). subst e.
        destruct (combine_concat _ _ _ _ Hi) as (rest & P).
        destruct HK as (_ & _ & _ & _ & _ & KT & _).
        apply (tame_noov f r c segs gs (map fst rest ++ map fst rs)); auto.
        + apply (Permutation_Forall P) in KT. apply Forall_app in KT. apply KT.
        + eapply tame_perm; [|exact (HA a)]. rewrite (Permutation_map fst P), map_app, <- app_assoc.
          apply Permutation_app_head. rewrite app_comm_cons. rewrite <- Permutation_middle. reflexivity.
      - intro g. destruct (HG g) as [H1 H2]. assert (Hr : In r (map fst (concat (concat gss)) ++ r :: map fst rs)) by (apply in_or_app; right; left; reflexivity).
        rewrite Forall_forall in H1. split; [exact (H1 r Hr)|]. destruct (list_eq_dec Z.eq_dec (r_data r) []) as [E|E]; [auto|].
        right. apply (H2 r r Hr Hr eq_refl E).
      - intros t gs segs g Hi Et Ha F. destruct (combine_concat _ _ _ _ Hi) as (rest & P).
        apply (failure_typed f r t segs gs (map fst rest ++ map fst rs)); auto.
        eapply failure_perm; [|exact (HG g)]. rewrite (Permutation_map fst P), map_app, <- app_assoc.
        apply Permutation_app_head. rewrite app_comm_cons. rewrite <- Permutation_middle. reflexivity. }
    intros k1 (xs1 & gss1 & e & HK1 & _ & P1).
    assert (PM : Permutation (map fst (concat (concat gss1)) ++ map fst rs) (map fst (concat (concat gss)) ++ r :: map fst rs)).
    { rewrite (Permutation_map fst P1). cbn. apply Permutation_middle. }
    eapply safe_weaken; [|apply (IH k1 xs1 gss1 HK1 V3)].
    + cbn. intros k' (xs' & gss' & HK' & P'). exists xs', gss'. split; [exact HK'|]. rewrite P'. exact PM.
    + intro a. eapply tame_perm; [symmetry; exact PM|exact (HA a)].
    + intro g. eapply failure_perm; [symmetry; exact PM|exact (HG g)].
Qed.

Lemma dll_chain h : forall xs prv, dll h prv xs None -> chain h prv (haddr xs None) (map snd xs).
Proof.
  induction xs as [|[a s] xs IH]; intros prv H; [reflexivity|]. cbn [dll] in H. destruct H as [Ha Hd]. cbn [map snd chain haddr].
  exists a, (haddr xs None). auto.
Qed.

Lemma trep_well_formed t cells : trep t cells -> cells <> [] -> ordered (map snd cells) -> well_formed t (map snd cells).
Proof.
  intros [R HN] Hne HO. pose proof (rep_bound _ _ _ _ _ R) as HB.
  split; [intro E; apply map_eq_nil in E; contradiction|]. split; [|split; [|split; [exact HO|split; [rewrite map_length; exact HN|]]]].
  - unfold tid_segs. rewrite (rep_first _ _ _ _ _ R). eapply walk_fwd; [exact (rep_dll _ _ _ _ _ R)|lia].
  - unfold tid_segs_back. rewrite (rep_last _ _ _ _ _ R). rewrite <- map_rev. eapply walk_bwd; [exact (rep_dll _ _ _ _ _ R)|lia].
  - rewrite (rep_first _ _ _ _ _ R). apply dll_chain. exact (rep_dll _ _ _ _ _ R).
Qed.

Lemma kinv_holds f X k xs gss rs : kinv f X k xs gss -> Permutation (map fst (concat (concat gss))) rs -> holds f k rs (map etid xs) gss.
Proof.
  intros (K & KS & KH & KN & KI & KT & KP) P. split; [|split; [|split; [exact KS|split; [|split; [exact P|exact KT]]]]].
  - apply tl_ids_ok; [exact K|]. eapply Forall_impl; [|exact KH]. cbn. lia.
  - rewrite map_length. exact KN.
  - clear -KI. induction KI as [|t gs ts gss (cells & T & N & O & M & B & _) F IH]; constructor; [|exact IH].
    split; [|exact B]. exists (map snd cells). split; [apply trep_well_formed; assumption|exact M].
Qed.

Lemma kinv_init f X : kinv f X tl_init [] [].
Proof. split; [exact krep_init|]. cbn. repeat split; constructor. Qed.

Lemma all_safe (A : guard) f rs : Forall (fun x => valid_height (snd x) /\ 0 <= r_pub (fst x)) rs -> (A -> tame f (map fst rs)) ->
  (g_err A -> no_failure f (map fst rs)) ->
  safe A (add_all f tl_init rs) (fun k => exists ids gss, holds f k (map fst rs) ids gss).
Proof.
  intros HV HA HG. eapply safe_weaken; [|apply (add_all_ok A f rs tl_init [] [] (kinv_init f any) HV HA HG)].
  cbn. intros k (xs & gss & HK & P). exists (map etid xs), gss. eapply kinv_holds; eassumption.
Qed.

Lemma all_holds f rs k : Forall (fun x => valid_height (snd x) /\ 0 <= r_pub (fst x)) rs -> add_all f tl_init rs = Ok k ->
  exists ids gss, holds f k (map fst rs) ids gss.
Proof. intros HV E. pose proof (all_safe (mk_guard False False) f rs HV (False_ind _) (False_ind _)) as H. rewrite E in H. exact H. Qed.

Lemma all_defined f rs : Forall (fun x => valid_height (snd x) /\ 0 <= r_pub (fst x)) rs -> tame f (map fst rs) ->
  (exists k, add_all f tl_init rs = Ok k) \/ (exists e, add_all f tl_init rs = Err e).
Proof.
  intros HV HT. pose proof (all_safe (mk_guard True False) f rs HV (fun _ => HT) (False_ind _)) as H.
  destruct (add_all f tl_init rs); cbn in H; eauto; contradiction || tauto.
Qed.

Lemma all_succeed f rs : Forall (fun x => valid_height (snd x) /\ 0 <= r_pub (fst x)) rs -> tame f (map fst rs) -> no_failure f (map fst rs) ->
  exists k, add_all f tl_init rs = Ok k.
Proof.
  intros HV HT HF. pose proof (all_safe (mk_guard True True) f rs HV (fun _ => HT) (fun _ => HF)) as H.
  destruct (add_all f tl_init rs); cbn in H; eauto; contradiction || tauto.
Qed.
