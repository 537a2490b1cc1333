(** * Adding records without their samples gives the same list without samples. *)

From Verif Require Import Base TlModel BufSpec.
Open Scope Z_scope.

(** [y] succeeds when [x] does, with a related result. *)
Definition simr {A B} (R : A -> B -> Prop) (x : res A) (y : res B) : Prop := forall a, x = Ok a -> exists b, y = Ok b /\ R a b.

Lemma simr_bind {A B A' B'} (R : A -> B -> Prop) (Q : A' -> B' -> Prop) x y k k' : simr R x y ->
  (forall a b, R a b -> simr Q (k a) (k' b)) -> simr Q (bind x k) (bind y k').
Proof.
  intros H K c E. destruct x as [a| | |]; cbn [bind] in E; try discriminate. destruct (H a eq_refl) as (b & -> & r). cbn [bind]. exact (K a b r c E).
Qed.
Lemma simr_ok {A B} (R : A -> B -> Prop) a b : R a b -> simr R (Ok a) (Ok b).
Proof. intros H c [= <-]. eauto. Qed.
Lemma simr_same {A} (x : res A) : simr eq x x.
Proof. intros a E. eauto. Qed.
Lemma simr_ub {A B} (R : A -> B -> Prop) u y : simr R (UB u) y. Proof. discriminate. Qed.
Lemma simr_err {A B} (R : A -> B -> Prop) c y : simr R (Err c) y. Proof. discriminate. Qed.
Lemma simr_fuel {A B} (R : A -> B -> Prop) y : simr R Fuel y. Proof. discriminate. Qed.
Lemma simr_let {A B A'} (R : A -> B -> Prop) (x : res A') k k' : (forall a, simr R (k a) (k' a)) -> simr R (bind x k) (bind x k').
Proof. intros H. apply (simr_bind eq); [apply simr_same|]. intros a b <-. apply H. Qed.

Definition bare_node (n : node) : node := mk_node (bare_seg (n_seg n)) (n_prev n) (n_next n).
Definition Rh (h h' : heap) : Prop := forall a, h' a = option_map bare_node (h a).
Definition Rt (t t' : tid) : Prop :=
  t_sid t' = t_sid t /\ t_pub t' = t_pub t /\ t_early t' = t_early t /\ t_late t' = t_late t /\ t_num t' = t_num t /\
  t_first t' = t_first t /\ t_last t' = t_last t /\ t_fresh t' = t_fresh t /\ Rh (t_heap t) (t_heap t').
Definition Rn (n n' : option idnode) : Prop :=
  match n, n' with
  | Some n, Some n' => Rt (i_tid n) (i_tid n') /\ i_next n' = i_next n
  | None, None => True
  | _, _ => False
  end.
Definition Rk (k k' : tlist) : Prop :=
  k_num k' = k_num k /\ k_head k' = k_head k /\ k_fresh k' = k_fresh k /\ forall a, Rn (k_nodes k a) (k_nodes k' a).
Definition Rb (s s' : seg) : Prop := s' = bare_seg s.

(** ** Segments *)

Lemma sim_deref h h' p : Rh h h' -> simr (fun n n' => n' = bare_node n) (deref h p) (deref h' p).
Proof. intros H n. destruct p as [a|]; cbn; [|discriminate]. rewrite H. destruct (h a); cbn; [|discriminate]. intros [= <-]. eauto. Qed.

Lemma Rh_upd h h' a v : Rh h h' -> Rh (hupd h a v) (hupd h' a (option_map bare_node v)).
Proof. intros H b. unfold hupd. destruct (Nat.eqb b a); [reflexivity|apply H]. Qed.
Lemma Rh_upd' h h' a n n' : Rh h h' -> n' = bare_node n -> Rh (hupd h a (Some n)) (hupd h' a (Some n')).
Proof. intros H ->. now apply (Rh_upd h h' a (Some n)). Qed.

Lemma sim_set_prev h h' p v : Rh h h' -> simr Rh (set_prev h p v) (set_prev h' p v).
Proof.
  intros H. apply (simr_bind _ _ _ _ _ _ (sim_deref h h' p H)). intros n n' ->. destruct p; [|apply simr_ub]. apply simr_ok. now apply Rh_upd'.
Qed.
Lemma sim_set_next h h' p v : Rh h h' -> simr Rh (set_next h p v) (set_next h' p v).
Proof.
  intros H. apply (simr_bind _ _ _ _ _ _ (sim_deref h h' p H)). intros n n' ->. destruct p; [|apply simr_ub]. apply simr_ok. now apply Rh_upd'.
Qed.
Lemma sim_set_seg h h' p s s' : Rh h h' -> Rb s s' -> simr Rh (set_seg h p s) (set_seg h' p s').
Proof.
  intros H ->. apply (simr_bind _ _ _ _ _ _ (sim_deref h h' p H)). intros n n' ->. destruct p; [|apply simr_ub]. apply simr_ok. now apply Rh_upd'.
Qed.

Lemma sim_msr2seg r e : simr Rb (msr2seg r e) (msr2seg (bare_rec r) e).
Proof. intros s. unfold msr2seg. cbn [bare_rec r_data]. destruct (r_data r); [|destruct (known_type (r_type r)); [|discriminate]]; intros [= <-]; eexists; split; reflexivity. Qed.

Lemma sim_addmsrtoseg mode s s' r e w : Rb s s' -> simr Rb (addmsrtoseg mode s r e w) (addmsrtoseg mode s' (bare_rec r) e w).
Proof.
  intros ->. unfold addmsrtoseg. cbn [bare_rec bare_seg r_data r_cnt r_start s_cnt s_start s_end s_hz s_type s_data s_recs].
  match goal with |- simr _ (if ?c then _ else _) _ => destruct c; [apply simr_err|] end.
  destruct (w =? 1); [|destruct (w =? 2); [|apply simr_err]]; apply simr_let; intros c; now apply simr_ok.
Qed.

Lemma sim_addsegtoseg mode s1 s1' s2 s2' : Rb s1 s1' -> Rb s2 s2' -> simr Rb (addsegtoseg mode s1 s2) (addsegtoseg mode s1' s2').
Proof.
  intros -> ->. unfold addsegtoseg. cbn [bare_seg s_cnt s_start s_end s_hz s_type s_data s_recs].
  match goal with |- simr _ (if ?c then _ else _) _ => destruct c; [apply simr_err|] end. apply simr_let. intros c. apply simr_ok.
  unfold Rb, bare_seg. cbn. now rewrite map_app.
Qed.

Lemma sim_add_recordptr keep s s' r e w : Rb s s' -> simr Rb (add_recordptr keep s r e w) (add_recordptr keep s' (bare_rec r) e w).
Proof.
  intros ->. unfold add_recordptr. destruct keep; cbn [negb]; [|now apply simr_ok].
  cbn [bare_seg s_recs]. destruct (s_recs s) as [|x l] eqn:E; cbn [map].
  - apply simr_ok. reflexivity.
  - destruct (negb (w =? 1) && negb (w =? 2)); [apply simr_err|]. apply simr_ok. unfold Rb, bare_seg. cbn [s_start s_end s_hz s_cnt s_type s_data s_recs].
    f_equal. destruct (w =? 2); cbn; [reflexivity|]. f_equal. now rewrite map_app.
Qed.

Lemma sim_extend f h h' p r e w : Rh h h' -> simr Rh (extend f h p r e w) (extend f h' p (bare_rec r) e w).
Proof.
  intros H. unfold extend. apply (simr_bind _ _ _ _ _ _ (sim_deref h h' p H)). intros n n' ->. cbn [bare_node n_seg].
  apply (simr_bind _ _ _ _ _ _ (sim_addmsrtoseg _ _ _ _ _ _ eq_refl)). intros s s' Es.
  apply (simr_bind _ _ _ _ _ _ (sim_set_seg _ _ _ _ _ H Es)). intros g g' Hg.
  apply (simr_bind _ _ _ _ _ _ (sim_add_recordptr _ _ _ _ _ _ Es)). intros s2 s2' Es2. now apply sim_set_seg.
Qed.

Lemma sim_new_seg f r e w : simr Rb (new_seg f r e w) (new_seg f (bare_rec r) e w).
Proof.
  unfold new_seg. apply (simr_bind _ _ _ _ _ _ (sim_msr2seg r e)). intros s s' Es. now apply sim_add_recordptr.
Qed.

Lemma sim_search f r c h h' : Rh h h' -> forall fuel cur b a fo,
  simr eq (search fuel f r c h cur b a fo) (search fuel f (bare_rec r) c h' cur b a fo).
Proof.
  intros H. induction fuel as [|fuel IH]; intros cur b a fo; cbn [search]; [apply simr_fuel|].
  destruct cur as [q|]; [|apply simr_same].
  apply (simr_bind _ _ _ _ _ _ (sim_deref h h' (Some q) H)). intros n n' ->.
  cbn [bare_rec bare_node bare_seg n_seg n_next n_prev r_start s_start s_end s_hz].
  match goal with |- simr _ (if ?c then _ else _) _ => destruct c; [apply simr_same|] end.
  apply simr_let. intros b2. apply simr_let. intros a2.
  destruct b2, a2; try apply simr_same; try (destruct (f_heal f); [apply IH|apply simr_same]). apply IH.
Qed.

(** ** Moving a segment *)

Definition Rm (x x' : heap * option nat * option nat) : Prop :=
  Rh (fst (fst x)) (fst (fst x')) /\ snd (fst x') = snd (fst x) /\ snd x' = snd x.

Lemma sorts_bare a b : sorts_after (bare_seg a) (bare_seg b) = sorts_after a b. Proof. reflexivity. Qed.

Lemma sim_opt_next h h' p v : Rh h h' ->
  simr Rh (match p with Some q => set_next h (Some q) v | None => Ok h end) (match p with Some q => set_next h' (Some q) v | None => Ok h' end).
Proof. intros H. destruct p; [now apply sim_set_next|now apply simr_ok]. Qed.
Lemma sim_opt_prev h h' p v : Rh h h' ->
  simr Rh (match p with Some q => set_prev h (Some q) v | None => Ok h end) (match p with Some q => set_prev h' (Some q) v | None => Ok h' end).
Proof. intros H. destruct p; [now apply sim_set_prev|now apply simr_ok]. Qed.

Lemma sim_move_down fuel : forall h h' first last a, Rh h h' -> simr Rm (move_down fuel h first last a) (move_down fuel h' first last a).
Proof.
  induction fuel as [|fuel IH]; intros h h' first last a H; cbn [move_down]; [apply simr_fuel|].
  apply (simr_bind _ _ _ _ _ _ (sim_deref h h' _ H)). intros n n' ->. cbn [bare_node n_next n_prev n_seg].
  destruct (n_next n) as [b|]; [|apply simr_ok; split; auto].
  apply (simr_bind _ _ _ _ _ _ (sim_deref h h' _ H)). intros m m' ->. cbn [bare_node n_next n_prev n_seg]. rewrite sorts_bare.
  destruct (sorts_after _ _); [|apply simr_ok; split; auto].
  apply (simr_bind _ _ _ _ _ _ (sim_opt_next h h' _ _ H)). clear h h' H. intros h h' H.
  apply (simr_bind _ _ _ _ _ _ (sim_opt_prev h h' _ _ H)). clear h h' H. intros h h' H.
  apply (simr_bind _ _ _ _ _ _ (sim_set_prev h h' _ _ H)). clear h h' H. intros h h' H.
  apply (simr_bind _ _ _ _ _ _ (sim_set_prev h h' _ _ H)). clear h h' H. intros h h' H.
  apply (simr_bind _ _ _ _ _ _ (sim_set_next h h' _ _ H)). clear h h' H. intros h h' H.
  apply (simr_bind _ _ _ _ _ _ (sim_set_next h h' _ _ H)). clear h h' H. intros h h' H. now apply IH.
Qed.

Lemma sim_move_up fuel : forall h h' first last a, Rh h h' -> simr Rm (move_up fuel h first last a) (move_up fuel h' first last a).
Proof.
  induction fuel as [|fuel IH]; intros h h' first last a H; cbn [move_up]; [apply simr_fuel|].
  apply (simr_bind _ _ _ _ _ _ (sim_deref h h' _ H)). intros n n' ->. cbn [bare_node n_next n_prev n_seg].
  destruct (n_prev n) as [b|]; [|apply simr_ok; split; auto].
  apply (simr_bind _ _ _ _ _ _ (sim_deref h h' _ H)). intros m m' ->. cbn [bare_node n_next n_prev n_seg]. rewrite sorts_bare.
  destruct (sorts_after _ _); [|apply simr_ok; split; auto].
  apply (simr_bind _ _ _ _ _ _ (sim_opt_prev h h' _ _ H)). clear h h' H. intros h h' H.
  apply (simr_bind _ _ _ _ _ _ (sim_opt_next h h' _ _ H)). clear h h' H. intros h h' H.
  apply (simr_bind _ _ _ _ _ _ (sim_set_next h h' _ _ H)). clear h h' H. intros h h' H.
  apply (simr_bind _ _ _ _ _ _ (sim_set_next h h' _ _ H)). clear h h' H. intros h h' H.
  apply (simr_bind _ _ _ _ _ _ (sim_set_prev h h' _ _ H)). clear h h' H. intros h h' H.
  apply (simr_bind _ _ _ _ _ _ (sim_set_prev h h' _ _ H)). clear h h' H. intros h h' H. now apply IH.
Qed.

(** ** Identifiers *)

Definition Rp (x x' : tid * nat) : Prop := Rt (fst x) (fst x') /\ snd x' = snd x.

Lemma Rt_segs t t' h h' fresh first last num : Rt t t' -> Rh h h' -> Rt (with_segs t h fresh first last num) (with_segs t' h' fresh first last num).
Proof. unfold Rt. cbn. intuition congruence. Qed.

Ltac tsame t t' H := destruct t as [?sid ?pub ?early ?late ?num ?first ?last ?h ?fresh], t' as [?sid' ?pub' ?early' ?late' ?num' ?first' ?last' ?h' ?fresh'];
  unfold Rt in H; cbn [t_sid t_pub t_early t_late t_num t_first t_last t_fresh t_heap] in H |- *; destruct H as (-> & -> & -> & -> & -> & -> & -> & -> & H).

Lemma Rp_ok sid pub early late num first last fresh a h h' : Rh h h' ->
  simr Rp (Ok (mk_tid sid pub early late num first last h fresh, a)) (Ok (mk_tid sid pub early late num first last h' fresh, a)).
Proof. intros H. apply simr_ok. split; [|reflexivity]. cbn. unfold Rt. cbn. auto 10. Qed.

Lemma sim_add_search f r c t t' : Rt t t' -> simr Rp (add_search f r c t) (add_search f (bare_rec r) c t').
Proof.
  intros H. tsame t t' H. unfold add_search, with_segs. cbn [t_sid t_pub t_early t_late t_num t_first t_last t_fresh t_heap].
  apply (simr_bind _ _ _ _ _ _ (sim_search f r c h h' H _ _ _ _ _)). intros [[b a] fo] ? <-.
  destruct b as [b|].
  - apply (simr_bind _ _ _ _ _ _ (sim_extend f h h' _ _ _ _ H)). clear h h' H. intros h h' H. destruct a as [a|]; [|now apply Rp_ok].
    destruct (f_heal f && negb (Nat.eqb b a)); [|now apply Rp_ok].
    apply (simr_bind _ _ _ _ _ _ (sim_deref h h' _ H)). intros nb nb' ->.
    apply (simr_bind _ _ _ _ _ _ (sim_deref h h' _ H)). intros na na' ->. cbn [bare_node n_seg n_prev n_next].
    apply (simr_bind _ _ _ _ _ _ (sim_addsegtoseg _ _ _ _ _ eq_refl eq_refl)). intros s s' Es.
    apply (simr_bind _ _ _ _ _ _ (sim_set_seg h h' _ _ _ H Es)). clear h h' H. intros h h' H.
    apply (simr_bind eq).
    { destruct (opt_eqb last a); [|apply simr_same]. apply (simr_bind _ _ _ _ _ _ (sim_deref h h' _ H)). intros l l' ->. apply simr_same. }
    intros la ? <-.
    apply (simr_bind _ _ _ _ _ _ (sim_opt_next h h' _ _ H)). clear h h' H. intros h h' H.
    apply (simr_bind _ _ _ _ _ _ (sim_opt_prev h h' _ _ H)). clear h h' H. intros h h' H. apply Rp_ok. now apply (Rh_upd h h' a None).
  - destruct a as [a|].
    + apply (simr_bind _ _ _ _ _ _ (sim_extend f h h' _ _ _ _ H)). clear h h' H. intros h h' H. now apply Rp_ok.
    + apply (simr_bind _ _ _ _ _ _ (sim_new_seg f r _ _)). intros s s' ->. destruct fo as [fo|].
      * apply (simr_bind _ _ _ _ _ _ (sim_deref h h' _ H)). intros n n' ->. cbn [bare_node n_seg n_prev n_next].
        assert (H2 : Rh (hupd h fresh (Some (mk_node s (Some fo) (n_next n)))) (hupd h' fresh (Some (mk_node (bare_seg s) (Some fo) (n_next n))))) by now apply Rh_upd'.
        apply (simr_bind _ _ _ _ _ _ (sim_opt_prev _ _ _ _ H2)). clear h h' H H2. intros h h' H.
        apply (simr_bind _ _ _ _ _ _ (sim_set_next h h' _ _ H)). clear h h' H. intros h h' H. now apply Rp_ok.
      * assert (H2 : Rh (hupd h fresh (Some (mk_node s None first))) (hupd h' fresh (Some (mk_node (bare_seg s) None first)))) by now apply Rh_upd'.
        apply (simr_bind Rh).
        { destruct first; [now apply sim_set_prev|now apply simr_ok]. }
        clear h h' H H2. intros h h' H. now apply Rp_ok.
Qed.

Lemma sim_add_existing f r c t t' : Rt t t' -> simr Rp (add_existing f r c t) (add_existing f (bare_rec r) c t').
Proof.
  intros H. pose proof H as H0. tsame t t' H. unfold add_existing, with_segs. cbn [t_sid t_pub t_early t_late t_num t_first t_last t_fresh t_heap] in *.
  apply (simr_bind _ _ _ _ _ _ (sim_deref h h' _ H)). intros nl nl' ->. cbn [bare_node bare_seg n_seg n_prev n_next s_end s_hz bare_rec r_start].
  apply simr_let. intros lg. apply (simr_bind _ _ _ _ _ _ (sim_deref h h' _ H)). intros nf nf' ->. cbn [bare_node bare_seg n_seg n_prev n_next s_start s_hz].
  apply simr_let. intros fg. destruct (fits c lg _).
  { apply (simr_bind _ _ _ _ _ _ (sim_extend f h h' _ _ _ _ H)). clear h h' H H0. intros h h' H. destruct last; [now apply Rp_ok|apply simr_ub]. }
  apply simr_let. intros x. apply simr_let. intros x2. destruct (late <? x2).
  { apply (simr_bind _ _ _ _ _ _ (sim_msr2seg r _)). intros s s' Es.
    apply (simr_bind _ _ _ _ _ _ (sim_set_next h h' _ _ H)). clear h h' H H0. intros h h' H.
    assert (H2 : Rh (hupd h fresh (Some (mk_node s last None))) (hupd h' fresh (Some (mk_node s' last None)))) by (apply Rh_upd'; [exact H|rewrite Es; reflexivity]).
    apply (simr_bind _ _ _ _ _ _ (sim_add_recordptr _ _ _ _ _ _ Es)). intros s2 s2' Es2.
    apply (simr_bind _ _ _ _ _ _ (sim_set_seg _ _ _ _ _ H2 Es2)). clear h h' H H2. intros h h' H. now apply Rp_ok. }
  apply simr_let. intros y. apply simr_let. intros y2. destruct (y2 <? early).
  { apply (simr_bind _ _ _ _ _ _ (sim_msr2seg r _)). intros s s' Es.
    apply (simr_bind _ _ _ _ _ _ (sim_set_prev h h' _ _ H)). clear h h' H H0. intros h h' H.
    assert (H2 : Rh (hupd h fresh (Some (mk_node s None first))) (hupd h' fresh (Some (mk_node s' None first)))) by (apply Rh_upd'; [exact H|rewrite Es; reflexivity]).
    apply (simr_bind _ _ _ _ _ _ (sim_add_recordptr _ _ _ _ _ _ Es)). intros s2 s2' Es2.
    apply (simr_bind _ _ _ _ _ _ (sim_set_seg _ _ _ _ _ H2 Es2)). clear h h' H H2. intros h h' H. now apply Rp_ok. }
  destruct (fits c fg _).
  { apply (simr_bind _ _ _ _ _ _ (sim_extend f h h' _ _ _ _ H)). clear h h' H H0. intros h h' H. destruct first; [now apply Rp_ok|apply simr_ub]. }
  now apply sim_add_search.
Qed.

Lemma sim_add_to_tid f r c t t' : Rt t t' -> simr Rt (add_to_tid f r c t) (add_to_tid f (bare_rec r) c t').
Proof.
  intros H. unfold add_to_tid. apply (simr_bind _ _ _ _ _ _ (sim_add_existing f r c t t' H)). clear t t' H. intros [t a] [t' a'] [H E]. cbn [fst snd] in H, E. subst a'.
  tsame t t' H.
  apply (simr_bind _ _ _ _ _ _ (sim_move_down _ h h' _ _ _ H)). clear h h' H. intros [[h fi] la] [[h' fi'] la'] (H & E1 & E2). cbn [fst snd] in H, E1, E2. subst fi' la'.
  apply (simr_bind _ _ _ _ _ _ (sim_move_up _ h h' _ _ _ H)). clear h h' H. intros [[h fi2] la2] [[h' fi'] la'] (H & E1 & E2). cbn [fst snd] in H, E1, E2. subst fi' la'.
  apply simr_ok. unfold Rt. cbn. auto 10.
Qed.

Lemma sim_new_tid f r e : simr Rt (new_tid f r e) (new_tid f (bare_rec r) e).
Proof.
  unfold new_tid. apply (simr_bind _ _ _ _ _ _ (sim_new_seg f r e 1)). intros s s' ->. apply simr_ok. unfold Rt. cbn.
  repeat (split; [reflexivity|]). apply Rh_upd'; [intros a; reflexivity|reflexivity].
Qed.

(** ** The list *)

Lemma sim_next_at k k' p l : Rk k k' -> next_at k' p l = next_at k p l.
Proof.
  intros (_ & Eh & _ & N). destruct p as [|a]; cbn; [now rewrite Eh|]. specialize (N a). destruct (k_nodes k a), (k_nodes k' a); cbn in N; try contradiction; [|reflexivity].
  now rewrite (proj2 N).
Qed.

Lemma sim_find_id k k' sid pub : Rk k k' -> forall fuel p level prevs, find_id fuel k' sid pub p level prevs = find_id fuel k sid pub p level prevs.
Proof.
  intros H. induction fuel as [|fuel IH]; intros p level prevs; cbn [find_id]; [reflexivity|]. destruct level as [|l]; [reflexivity|].
  rewrite (sim_next_at k k' p l H). destruct (next_at k p l) as [[a|]| | |]; cbn [bind]; try reflexivity; [|apply IH].
  destruct H as (E1 & E2 & E3 & N). pose proof (N a) as Na. destruct (k_nodes k a) as [n|], (k_nodes k' a) as [n'|]; cbn in Na; try contradiction; [|reflexivity].
  destruct Na as [(T1 & T2 & _) _]. unfold id_cmp. rewrite T1, T2. rewrite !IH. reflexivity.
Qed.

Lemma Rk_upd k k' num fresh a n n' : Rk k k' -> Rn (Some n) (Some n') ->
  Rk (mk_tlist num (k_head k) (kupd (k_nodes k) a n) fresh) (mk_tlist num (k_head k') (kupd (k_nodes k') a n') fresh).
Proof.
  intros (E1 & E2 & E3 & N) H. unfold Rk. cbn [k_num k_head k_fresh k_nodes]. repeat (split; [auto|]). intros b. unfold kupd. destruct (Nat.eqb b a); [exact H|apply N].
Qed.

Lemma sim_set_next_at k k' p l v : Rk k k' -> simr Rk (set_next_at k p l v) (set_next_at k' p l v).
Proof.
  intros H. pose proof H as (E1 & E2 & E3 & N). destruct p as [|a]; cbn [set_next_at].
  - apply simr_ok. unfold Rk. cbn. rewrite E1, E2, E3. auto.
  - pose proof (N a) as Na. destruct (k_nodes k a) as [n|], (k_nodes k' a) as [n'|]; cbn in Na; try contradiction; [|apply simr_ub].
    apply simr_ok. rewrite E1, E3. apply Rk_upd; [exact H|]. cbn. destruct Na as [T ->]. auto.
Qed.

Lemma sim_connect a : forall prevs height k k' level, Rk k k' -> simr Rk (connect k a prevs level height) (connect k' a prevs level height).
Proof.
  induction prevs as [|p prevs IH]; intros height k k' level H; cbn [connect]; (destruct height as [|height]; [now apply simr_ok|]); [apply simr_err|].
  rewrite (sim_next_at k k' p level H). apply simr_let. intros nx.
  apply (simr_bind _ _ _ _ _ _ (sim_set_next_at k k' _ _ _ H)). clear k k' H. intros k k' H.
  apply (simr_bind _ _ _ _ _ _ (sim_set_next_at k k' _ _ _ H)). clear k k' H. intros k k' H. now apply IH.
Qed.

Lemma sim_add_id k k' t t' prevs height : Rk k k' -> Rt t t' -> simr Rk (add_id k t prevs height) (add_id k' t' prevs height).
Proof.
  intros H Ht. unfold add_id. pose proof H as (E1 & E2 & E3 & N). rewrite E1, E3.
  apply (simr_bind Rk).
  - apply sim_connect. apply Rk_upd; [exact H|]. cbn. auto.
  - clear. intros k k' (E1 & E2 & E3 & N). apply simr_ok. unfold Rk. cbn. rewrite E1. auto.
Qed.

Lemma calc_bare f r e : blind f -> calc_of f (bare_rec r) e = calc_of f r e.
Proof.
  intros [B1 B2]. unfold calc_of. cbn [bare_rec r_rate].
  destruct (f_ttol f) as [x|], (f_rtol f) as [y|]; cbn in B1, B2; rewrite ?B1, ?B2; reflexivity.
Qed.

Lemma sim_add_msr f k k' r height : blind f -> Rk k k' -> simr Rk (add_msr f k r height) (add_msr f k' (bare_rec r) height).
Proof.
  intros B H. unfold add_msr. cbn [bare_rec r_start r_cnt r_rate r_sid r_pub]. apply simr_let. intros e. destruct (e =? _); [apply simr_err|].
  pose proof H as (E1 & E2 & E3 & N). rewrite E3, (sim_find_id k k' _ _ H). apply simr_let. intros [[a|] prevs].
  - pose proof (N a) as Na. destruct (k_nodes k a) as [n|], (k_nodes k' a) as [n'|]; cbn in Na; try contradiction; [|apply simr_ub].
    fold (bare_rec r). rewrite (calc_bare f r e B). apply simr_let. intros c. destruct Na as [T Ei].
    apply (simr_bind _ _ _ _ _ _ (sim_add_to_tid f r c _ _ T)). intros t t' Ht. apply simr_ok. rewrite E1. apply Rk_upd; [exact H|]. cbn. auto.
  - apply (simr_bind _ _ _ _ _ _ (sim_new_tid f r e)). intros t t' Ht. now apply sim_add_id.
Qed.

Lemma sim_add_all f : blind f -> forall rs k k', Rk k k' -> simr Rk (add_all f k rs) (add_all f k' (map (fun x => (bare_rec (fst x), snd x)) rs)).
Proof.
  intros B. induction rs as [|[r h] rs IH]; intros k k' H; cbn [add_all map fst snd]; [now apply simr_ok|].
  apply (simr_bind _ _ _ _ _ _ (sim_add_msr f k k' r h B H)). intros k2 k2' H2. now apply IH.
Qed.

Lemma sim_walk k k' : Rk k k' -> forall fuel p, simr (Forall2 Rt) (walk fuel k p) (walk fuel k' p).
Proof.
  intros H. induction fuel as [|fuel IH]; intros p; cbn [walk]; [apply simr_fuel|]. destruct p as [a|]; [|apply simr_ok; constructor].
  rewrite (sim_next_at k k' (PNode a) 0 H). pose proof H as (_ & _ & _ & N). specialize (N a).
  destruct (k_nodes k a) as [n|], (k_nodes k' a) as [n'|]; cbn in N; try contradiction; [|apply simr_ub].
  apply simr_let. intros nx. apply (simr_bind _ _ _ _ _ _ (IH nx)). intros l l' Hl. apply simr_ok. constructor; [apply N|exact Hl].
Qed.

Lemma sim_walk_segs h h' : Rh h h' -> forall fuel p, simr (fun l l' => l' = map bare_seg l) (walk_segs fuel h p) (walk_segs fuel h' p).
Proof.
  intros H. induction fuel as [|fuel IH]; intros p; cbn [walk_segs]; [apply simr_fuel|]. destruct p as [a|]; [|now apply simr_ok].
  apply (simr_bind _ _ _ _ _ _ (sim_deref h h' _ H)). intros n n' ->. cbn [bare_node n_next n_seg].
  apply (simr_bind _ _ _ _ _ _ (IH _)). intros l l' ->. now apply simr_ok.
Qed.

Lemma Rk_same k k' : Rk k k' -> same_without_samples k k'.
Proof.
  intros H ids E. unfold tl_ids in *. rewrite (sim_next_at k k' PHead 0 H). pose proof H as (_ & _ & E3 & _). rewrite E3.
  destruct (next_at k PHead 0) as [p| | |]; cbn [bind] in E |- *; try discriminate. destruct (sim_walk k k' H _ p _ E) as (ids' & -> & F).
  exists ids'. split; [reflexivity|]. clear - F. induction F as [|t t' ids ids' T F IH]; constructor; [|exact IH]. clear - T. destruct T as (T1 & T2 & T3 & T4 & T5 & T6 & T7 & T8 & T9).
  repeat (split; [assumption|]). intros segs Es. unfold tid_segs in *. rewrite T6, T8. destruct (sim_walk_segs _ _ T9 _ _ _ Es) as (l & -> & ->). reflexivity.
Qed.

Lemma bare_init : Rk tl_init tl_init.
Proof. unfold Rk. cbn. auto 10. Qed.

Lemma added_bare f rs k : blind f -> add_all f tl_init rs = Ok k ->
  exists k', add_all f tl_init (map (fun x => (bare_rec (fst x), snd x)) rs) = Ok k' /\ same_without_samples k k'.
Proof. intros B E. destruct (sim_add_all f B rs _ _ bare_init k E) as (k' & E' & H). exists k'. split; [exact E'|now apply Rk_same]. Qed.
