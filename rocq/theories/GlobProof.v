(** * Proofs about the glob matchers. *)
From Verif Require Import Base BaseLemmas GlobModel GlobSpec.
Open Scope Z_scope.

(** ** Termination and memory safety, for every pattern *)

Lemma drop_stars_length p : (length (drop_stars p) <= length p)%nat.
Proof. induction p as [|c p IH]; cbn [drop_stars length]; [lia|]. destruct (c =? 42); cbn [length]; lia. Qed.

Lemma skip_set_length p q : skip_set p = Some q -> (length q < length p)%nat.
Proof.
  induction p as [|c p IH]; cbn [skip_set length]; [discriminate|].
  destruct (c =? 93); [intros E; injection E as <-; lia|]. intros E. specialize (IH E). lia.
Qed.

Lemma set_loop_length ch n : forall p m r, (length p <= n)%nat -> set_loop p ch = SetDone m r -> (length r <= length p)%nat.
Proof.
  induction n; intros p m r L.
  - destruct p; [discriminate|cbn [length] in L; lia].
  - destruct p as [|c p1]; [discriminate|]. cbn [set_loop]. destruct p1 as [|x p2]; [discriminate|].
    destruct (x =? 45).
    + destruct p2 as [|y p3]; [discriminate|]. destruct (negb (y =? 93)).
      * destruct ((ch =? c) || (ch =? y) || ((c <? ch) && (ch <? y))).
        -- intros E; injection E as <- <-. cbn [length]. lia.
        -- intros E. apply IHn in E; cbn [length] in *; lia.
      * intros E; injection E as <- <-. cbn [length]. lia.
    + destruct (negb (x =? 93)).
      * destruct ((c =? ch) || (x =? ch)).
        -- intros E; injection E as <- <-. cbn [length]. lia.
        -- intros E. apply IHn in E; cbn [length] in *; lia.
      * intros E; injection E as <- <-. cbn [length]. lia.
Qed.

Lemma star_loop_total g s : (forall s, exists b, g s = Ok b) -> exists b, star_loop g s = Ok b.
Proof.
  intros G. induction s as [|c s IH]; cbn [star_loop]; [eauto|].
  destruct (G (c :: s)) as (b & ->). cbn [bind]. destruct b; eauto.
Qed.

(** The one pattern shape that reads behind its terminator. *)
Definition dangling (p : list Z) : Prop := exists q, p = q ++ [91; 94].

Lemma set_loop_end p ch : set_loop p ch = SetEnd -> p = [].
Proof.
  assert (H : forall n p, (length p <= n)%nat -> p <> [] -> set_loop p ch <> SetEnd).
  { induction n; intros q L N; destruct q as [|c p1]; try congruence; [cbn [length] in L; lia|]. cbn [set_loop].
    destruct p1 as [|x p2]; [discriminate|]. destruct (x =? 45).
    - destruct p2 as [|y p3]; [discriminate|]. destruct (negb (y =? 93)); [|discriminate].
      destruct (_ || _); [discriminate|]. apply IHn; [cbn [length] in *; lia|discriminate].
    - destruct (negb (x =? 93)); [|discriminate]. destruct (_ || _); [discriminate|].
      apply IHn; [cbn [length] in *; lia|discriminate]. }
  intros E. destruct p as [|c p]; auto. exfalso. apply (H (length (c :: p)) (c :: p)); auto. discriminate.
Qed.

(** Suffixes of a pattern inherit the absence of the bad ending. *)
Definition suffix (q p : list Z) : Prop := exists a, p = a ++ q.
Lemma dangling_suffix q p : suffix q p -> dangling q -> dangling p.
Proof. intros (a & ->) (b & ->). exists (a ++ b). now rewrite app_assoc. Qed.
Lemma suffix_refl p : suffix p p.
Proof. now exists []. Qed.
Lemma suffix_cons q c p : suffix q p -> suffix q (c :: p).
Proof. intros (a & ->). now exists (c :: a). Qed.
Lemma suffix_trans a b c : suffix a b -> suffix b c -> suffix a c.
Proof. intros (x & ->) (y & ->). exists (y ++ x). now rewrite app_assoc. Qed.
Lemma drop_stars_suffix p : suffix (drop_stars p) p.
Proof. induction p as [|c p IH]; cbn [drop_stars]; [apply suffix_refl|]. destruct (c =? 42); [now apply suffix_cons|apply suffix_refl]. Qed.
Lemma skip_set_suffix p q : skip_set p = Some q -> suffix q p.
Proof.
  induction p as [|c p IH]; cbn [skip_set]; [discriminate|]. destruct (c =? 93).
  - intros E; injection E as <-. apply suffix_cons, suffix_refl.
  - intros E. apply suffix_cons; auto.
Qed.
Lemma set_loop_suffix ch n : forall p m r, (length p <= n)%nat -> set_loop p ch = SetDone m r -> suffix r p.
Proof.
  induction n; intros p m r L.
  - destruct p; [discriminate|cbn [length] in L; lia].
  - destruct p as [|c p1]; [discriminate|]. cbn [set_loop]. destruct p1 as [|x p2]; [discriminate|].
    destruct (x =? 45).
    + destruct p2 as [|y p3]; [discriminate|]. destruct (negb (y =? 93)).
      * destruct ((ch =? c) || (ch =? y) || ((c <? ch) && (ch <? y))).
        -- intros E; injection E as <- <-. do 2 apply suffix_cons; apply suffix_refl.
        -- intros E. apply IHn in E; [|cbn [length] in *; lia]. now do 2 apply suffix_cons.
      * intros E; injection E as <- <-. do 2 apply suffix_cons. apply suffix_refl.
    + destruct (negb (x =? 93)).
      * destruct ((c =? ch) || (x =? ch)).
        -- intros E; injection E as <- <-. apply suffix_cons, suffix_refl.
        -- intros E. apply IHn in E; [|cbn [length] in *; lia]. now apply suffix_cons.
      * intros E; injection E as <- <-. apply suffix_cons, suffix_refl.
Qed.

Lemma glob_total lib f : forall p s, (length p < f)%nat -> ~ dangling p -> exists b, glob f lib s p = Ok b.
Proof.
  induction f as [|f IH]; intros p s L D; [lia|]. cbn [glob].
  destruct p as [|c p]; [eauto|]. cbn [length] in L.
  assert (DS : forall q, suffix q p -> ~ dangling q) by (intros q S Q; apply D; eapply dangling_suffix; [|exact Q]; now apply suffix_cons).
  destruct (c =? 42) eqn:E42.
  - pose proof (drop_stars_length p) as DL. pose proof (drop_stars_suffix p) as DF.
    destruct (drop_stars p) as [|n p1]; [eauto|]. apply star_loop_total. intros s'. apply IH; [lia|auto].
  - destruct s as [|ch s]; [eauto|]. destruct (c =? 63); [apply IH; [lia|apply DS, suffix_refl]|].
    destruct (Z.eqb_spec c 91) as [->|N91].
    + assert (HB : forall (neg : bool) body, suffix body p -> (neg = true -> body = [] -> False) ->
        exists b, match set_loop body ch with
            | SetFalse => Ok false
            | SetEnd => if neg then UB OOBRead else Ok false
            | SetDone m r =>
              if Bool.eqb neg m then Ok false
              else match skip_set r with None => Ok false | Some q => glob f lib s q end
            end = Ok b).
      { intros neg body SB NB. destruct (set_loop body ch) as [| |m r] eqn:E; [eauto| |].
        - apply set_loop_end in E. destruct neg; [exfalso; auto|eauto].
        - destruct (Bool.eqb neg m); [eauto|]. destruct (skip_set r) as [q|] eqn:K; [|eauto].
          pose proof (set_loop_suffix ch _ _ _ _ (le_n _) E) as S1. pose proof (skip_set_suffix _ _ K) as S2.
          apply IH; [|apply DS; eapply suffix_trans; [exact S2|]; eapply suffix_trans; eauto].
          pose proof (set_loop_length ch _ _ _ _ (le_n _) E). pose proof (skip_set_length _ _ K).
          destruct SB as (a & ->). rewrite app_length in L. lia. }
      assert (C : exists b, (let (negate, body) := match p with 94 :: q => (true, q) | _ => (false, p) end in
            match set_loop body ch with
            | SetFalse => Ok false
            | SetEnd => if negate then UB OOBRead else Ok false
            | SetDone m r =>
              if Bool.eqb negate m then Ok false
              else match skip_set r with None => Ok false | Some q => glob f lib s q end
            end) = Ok b).
      { destruct p as [|x p]; [exact (HB false [] (suffix_refl _) (fun H _ => ltac:(discriminate H)))|].
        destruct (Z.eq_dec x 94) as [->|N].
        - apply (HB true p); [apply suffix_cons, suffix_refl|]. intros _ ->. apply D. now exists [].
        - replace (match x :: p with 94 :: q => (true, q) | _ => (false, x :: p) end) with (false, x :: p).
          + apply (HB false (x :: p)); [apply suffix_refl|discriminate].
          + clear - N. destruct x as [|q|q]; auto. repeat (destruct q; auto). congruence. }
      exact C.
    + destruct (Z.eqb_spec c 92) as [->|N92].
      * destruct p as [|c2 q].
        -- destruct lib; [apply IH; [cbn [length] in *; lia|apply DS, suffix_refl]|].
           destruct (negb _); [eauto|]. apply IH; [cbn [length] in *; lia|apply DS, suffix_refl].
        -- cbn [length] in L. destruct lib; [apply IH; [lia|apply DS, suffix_cons, suffix_refl]|].
           destruct (negb _); [eauto|]. apply IH; [lia|apply DS, suffix_cons, suffix_refl].
      * destruct (negb _); [eauto|]. apply IH; [lia|apply DS, suffix_refl].
Qed.

(** ** Sets *)

Definition no_close (u : list Z) : Prop := ~ In 93 u.

Lemma skip_set_app u q : no_close u -> skip_set (u ++ 93 :: q) = Some q.
Proof.
  induction u as [|c u IH]; intros N; cbn [app skip_set]; [reflexivity|].
  destruct (Z.eqb_spec c 93) as [->|]; [exfalso; apply N; now left|]. apply IH. intros I; apply N; now right.
Qed.

Lemma rest_no_close r l : rest_text r l -> no_close r.
Proof.
  unfold no_close. induction 1 as [|c r l (P0 & P1 & P2) R IH|a b r l (P0 & P1 & P2) B0 B1 R IH]; cbn [In]; [tauto| |].
  - intros [E|E]; [congruence|auto].
  - intros [E|[E|[E|E]]]; [congruence|discriminate|congruence|auto].
Qed.

Definition in_setb (x : Z) (l : list item) : bool :=
  existsb (fun i => match i with Chr c => x =? c | Rng a b => (x =? a) || (x =? b) || ((a <? x) && (x <? b)) end) l.
Lemma in_setb_iff x l : in_setb x l = true <-> in_set x l.
Proof.
  unfold in_setb, in_set. rewrite existsb_exists. split.
  - intros (i & I & E). exists i. split; auto. destruct i; cbn [in_item]; lia.
  - intros (i & I & E). exists i. split; auto. destruct i; cbn [in_item] in E; lia.
Qed.

Lemma set_loop_rest ch q r l : rest_text r l -> forall c,
  exists u, no_close u /\ set_loop (c :: r ++ 93 :: q) ch = SetDone ((c =? ch) || in_setb ch l) (u ++ 93 :: q).
Proof.
  intros R. induction R as [|d r l (P0 & P1 & P2) R IH|a b r l (P0 & P1 & P2) B0 B1 R IH]; intros c.
  - exists []. split; [intros []|]. cbn [app set_loop in_setb existsb].
    cbn [Z.eqb Pos.eqb negb]. now rewrite orb_false_r.
  - cbn [app set_loop]. destruct (Z.eqb_spec d 45); [congruence|]. destruct (Z.eqb_spec d 93); [congruence|]. cbn [negb].
    destruct (IH d) as (u & Nu & E). cbn [in_setb existsb]. fold (in_setb ch l).
    destruct ((c =? ch) || (d =? ch)) eqn:Q.
    + exists (d :: r). split; [intros [X|X]; [congruence|exact (rest_no_close _ _ R X)]|].
      cbn [app]. f_equal. rewrite (Z.eqb_sym ch d). rewrite orb_assoc, Q. reflexivity.
    + exists u. split; auto. apply orb_false_iff in Q. destruct Q as [Q1 Q2].
      rewrite Q2 in E. cbn [set_loop] in E. rewrite E. rewrite (Z.eqb_sym ch d), Q1, Q2. reflexivity.
  - cbn [app]. cbn [set_loop]. destruct (Z.eqb_spec a 45); [congruence|]. destruct (Z.eqb_spec a 93); [congruence|]. cbn [negb].
    destruct (IH b) as (u & Nu & E). cbn [in_setb existsb]. fold (in_setb ch l).
    assert (NC : no_close (a :: 45 :: b :: r)).
    { intros [X|[X|[X|X]]]; [congruence|discriminate|congruence|exact (rest_no_close _ _ R X)]. }
    destruct ((c =? ch) || (a =? ch)) eqn:Q.
    + exists (a :: 45 :: b :: r). split; auto. cbn [app]. f_equal. rewrite (Z.eqb_sym ch a).
      destruct (c =? ch); [reflexivity|]. cbn [orb] in Q. rewrite Q. reflexivity.
    + apply orb_false_iff in Q. destruct Q as [Q1 Q2]. cbn [set_loop Z.eqb Pos.eqb].
      destruct (Z.eqb_spec b 93); [congruence|]. cbn [negb].
      rewrite Q1. cbn [orb].
      destruct ((ch =? a) || (ch =? b) || ((a <? ch) && (ch <? b))) eqn:Q3.
      * exists (b :: r). split; [intros [X|X]; [congruence|exact (rest_no_close _ _ R X)]|]. reflexivity.
      * exists u. split; auto. cbn [set_loop] in E. rewrite E. cbn [orb]. f_equal.
        replace (b =? ch) with false; [reflexivity|]. lia.
Qed.

Lemma set_loop_ok ch q b l : set_text b l ->
  exists u, no_close u /\ set_loop (b ++ 93 :: q) ch = SetDone (in_setb ch l) (u ++ 93 :: q).
Proof.
  intros S. destruct S as [c r l C R|a b r l A B0 B1 R].
  - destruct (set_loop_rest ch q r l R c) as (u & N & E). exists u. split; auto.
    cbn [app]. rewrite E. cbn [in_setb existsb]. now rewrite (Z.eqb_sym ch c).
  - destruct (set_loop_rest ch q r l R b) as (u & N & E). cbn [app].
    cbn [set_loop Z.eqb Pos.eqb]. destruct (Z.eqb_spec b 93); [congruence|]. cbn [negb in_setb existsb]. fold (in_setb ch l).
    destruct ((ch =? a) || (ch =? b) || ((a <? ch) && (ch <? b))) eqn:Q.
    + exists (b :: r). split; [intros [X|X]; [congruence|exact (rest_no_close _ _ R X)]|]. reflexivity.
    + exists u. split; auto. cbn [set_loop] in E. rewrite E. cbn [orb]. f_equal.
      replace (b =? ch) with false; [reflexivity|]. lia.
Qed.

(** ** Meaning *)

Lemma star_loop_ok g s : (forall s, exists b, g s = Ok b) ->
  exists b, star_loop g s = Ok b /\ (b = true <-> exists a r, s = a ++ r /\ r <> [] /\ g r = Ok true).
Proof.
  intros G. induction s as [|c s (b & E & IH)]; cbn [star_loop].
  - exists false. split; auto. split; [discriminate|]. intros (a & r & E & N & _). destruct a, r; try discriminate. congruence.
  - destruct (G (c :: s)) as (b1 & E1). rewrite E1. cbn [bind]. destruct b1.
    + exists true. split; auto. split; auto. intros _. exists [], (c :: s). split; auto. split; [discriminate|auto].
    + exists b. split; auto. rewrite IH. split.
      * intros (a & r & -> & N & H). exists (c :: a), r. auto.
      * intros (a & r & E2 & N & H). destruct a as [|x a].
        -- cbn [app] in E2. subst r. rewrite E1 in H. discriminate.
        -- injection E2 as <- ->. eauto.
Qed.

(** What is looked at: documented meaning, or the library's. *)
Definition view (lib : bool) (t : list tok) : list tok := if lib then loose t else t.

Lemma loose_stars k t : loose (repeat Star k ++ t) = repeat Star k ++ loose t.
Proof. induction k; cbn [repeat app loose]; auto. now rewrite IHk. Qed.

Lemma mat_stars k t s : mat (repeat Star (S k) ++ t) s <-> mat (Star :: t) s.
Proof.
  split.
  - revert s. induction k; intros s; [auto|]. intros H. change (repeat Star (S (S k)) ++ t) with (Star :: repeat Star (S k) ++ t) in H.
    inversion H; subst. apply IHk in H1. inversion H1; subst. rewrite app_assoc. now constructor.
  - induction k; [auto|]. intros H. change (repeat Star (S (S k)) ++ t) with (Star :: repeat Star (S k) ++ t).
    apply (m_star []). apply IHk, H.
Qed.

Lemma drop_stars_ok p t : pat_text p t -> exists k t1, t = repeat Star k ++ t1 /\ pat_text (drop_stars p) t1 /\
  (forall q, drop_stars p <> 42 :: q).
Proof.
  intros P. induction P; try (exists O; eexists; split; [reflexivity|]; cbn [drop_stars Z.eqb Pos.eqb]; split; [|discriminate];
    now constructor).
  - destruct IHP as (k & t1 & -> & H & N). exists (S k), t1. cbn [drop_stars Z.eqb Pos.eqb repeat app]. auto.
  - exists O, (Lit c :: t). cbn [drop_stars repeat app]. destruct (Z.eqb_spec c 42); [congruence|].
    repeat split; [now constructor|intros q E; congruence].
Qed.

(** A nonempty pattern that starts with no star needs a character. *)
Lemma mat_nonempty lib p t : pat_text p t -> (forall q, p <> 42 :: q) -> p <> [] -> ~ mat (view lib t) [].
Proof.
  intros P N E M. destruct P; try congruence; unfold view in M; destruct lib; cbn [loose] in M; inversion M; subst;
  try (match goal with H : ?a ++ ?b = [] |- _ => idtac end); eapply N; reflexivity.
Qed.

Lemma drop_until_app n s : exists a, s = a ++ drop_until n s /\ ~ In n a.
Proof.
  induction s as [|c s (a & E & N)]; cbn [drop_until]; [now exists []|].
  destruct (Z.eqb_spec n c) as [->|D]; [now exists []|]. exists (c :: a). split; [cbn [app]; congruence|].
  intros [X|X]; congruence.
Qed.

Lemma mat_lit_head lib n p' t s : pat_text (n :: p') t -> n <> 42 -> n <> 63 -> n <> 91 -> n <> 92 ->
  mat (view lib t) s -> exists s', s = n :: s'.
Proof.
  intros P N1 N2 N3 N4 M. inversion P; subst; try congruence. unfold view in M. destruct lib; cbn [loose] in M;
  inversion M; subst; eauto.
Qed.

Lemma glob_ok lib f : forall p t s, (length p < f)%nat -> pat_text p t ->
  exists b, glob f lib s p = Ok b /\ (b = true <-> mat (view lib t) s).
Proof.
  induction f as [|f IH]; intros p t s L P; [lia|]. cbn [glob].
  destruct P as [|p t P|p t P|c p t C0 C1 C2 C3 C4 P|c p t C0 P|b l p t S H P|b l p t S P]; cbn [length] in L.
  - exists (match s with [] => true | _ => false end). split; auto.
    unfold view. assert (E : (if lib then loose [] else []) = []) by (destruct lib; reflexivity). rewrite E.
    destruct s; split; intros X; try discriminate; try constructor; inversion X.
  - cbn [Z.eqb Pos.eqb]. destruct (drop_stars_ok p t P) as (k & t1 & -> & P1 & N1).
    pose proof (drop_stars_length p) as DL.
    assert (V : forall s, mat (view lib (Star :: repeat Star k ++ t1)) s <-> mat (Star :: view lib t1) s).
    { intros s'. unfold view. destruct lib; cbn [loose]; [rewrite loose_stars|]; apply (mat_stars k). }
    destruct (drop_stars p) as [|n p1] eqn:ED.
    + exists true. split; auto. split; auto. intros _. apply V.
      inversion P1; subst. unfold view. replace (if lib then loose [] else []) with (@nil tok) by (destruct lib; reflexivity).
      rewrite <- (app_nil_r s). constructor. constructor.
    + pose proof (mat_nonempty lib _ _ P1 N1 ltac:(discriminate)) as NE.
      assert (G : forall s', exists b, glob f lib s' (n :: p1) = Ok b).
      { intros s'. destruct (IH (n :: p1) t1 s') as (b & E & _); eauto. cbn [length] in *. lia. }
      set (s1 := if negb (n =? 63) && negb (n =? 91) && negb (n =? 92) then drop_until n s else s).
      destruct (star_loop_ok (fun s => glob f lib s (n :: p1)) s1 G) as (b & E & B).
      exists b. split; auto. rewrite B. rewrite V. split.
      * intros (a & r & Es & Nr & Gr). 
        destruct (IH (n :: p1) t1 r) as (b' & E' & B'); auto; [cbn [length] in *; lia|].
        rewrite E' in Gr. injection Gr as ->.
        assert (SS : exists a', s = a' ++ s1).
        { subst s1. destruct (_ && _); [|now exists []]. destruct (drop_until_app n s) as (a' & Ea & _). eauto. }
        destruct SS as (a' & ES). rewrite ES, Es, app_assoc. constructor. now apply B'.
      * intros M. inversion M as [|s2 t' s3 M1 Et Es3| | | | |]. subst t'. clear M.
        assert (N3 : s3 <> []) by (intros ->; auto).
        destruct (IH (n :: p1) t1 s3) as (b' & E' & B'); auto; [cbn [length] in *; lia|].
        assert (b' = true) as -> by now apply B'.
        subst s1. rewrite <- Es3. destruct (negb (n =? 63) && negb (n =? 91) && negb (n =? 92)) eqn:Q; [|eauto].
        destruct (mat_lit_head lib n p1 t1 s3 P1) as (s4 & ->); auto; try lia.
        { intros ->. now apply (N1 p1). }
        clear - E' N3. induction s2 as [|x s2 IHs]; cbn [app drop_until].
        -- rewrite Z.eqb_refl. exists [], (n :: s4). auto.
        -- destruct (Z.eqb_spec n x) as [->|]; [|exact IHs]. exists (x :: s2), (x :: s4). auto.
  - cbn [Z.eqb Pos.eqb]. assert (V : view lib (One :: t) = One :: view lib t) by (destruct lib; reflexivity). rewrite V.
    destruct s as [|ch s]; [exists false; split; auto; split; [discriminate|intros X; inversion X]|].
    destruct (IH p t s) as (b & -> & B); auto; [lia|]. exists b. split; auto. rewrite B. split; intros X; [now constructor|now inversion X].
  - destruct (Z.eqb_spec c 42); [congruence|]. assert (V : view lib (Lit c :: t) = Lit c :: view lib t) by (destruct lib; reflexivity). rewrite V.
    destruct s as [|ch s]; [exists false; split; auto; split; [discriminate|intros X; inversion X]|].
    destruct (Z.eqb_spec c 63); [congruence|]. destruct (Z.eqb_spec c 91); [congruence|]. destruct (Z.eqb_spec c 92); [congruence|].
    destruct (Z.eqb_spec c ch) as [->|D]; cbn [negb].
    + destruct (IH p t s) as (b & -> & B); auto; [lia|]. exists b. split; auto. rewrite B. split; intros X; [now constructor|now inversion X].
    + exists false. split; auto. split; [discriminate|]. intros X; inversion X; congruence.
  - cbn [Z.eqb Pos.eqb]. destruct s as [|ch s].
    + exists false. split; auto. split; [discriminate|]. intros X; unfold view in X; destruct lib; inversion X.
    + destruct lib.
      * destruct (IH p t s) as (b & -> & B); auto; [lia|]. exists b. split; auto. rewrite B. cbn [view loose].
        split; intros X; [now constructor|now inversion X].
      * destruct (Z.eqb_spec c ch) as [->|D]; cbn [negb].
        -- destruct (IH p t s) as (b & -> & B); auto; [lia|]. exists b. split; auto. rewrite B. split; intros X; [now constructor|now inversion X].
        -- exists false. split; auto. split; [discriminate|]. intros X; inversion X; congruence.
  - cbn [Z.eqb Pos.eqb]. assert (V : view lib (CSet false l :: t) = CSet false l :: view lib t) by (destruct lib; reflexivity). rewrite V.
    destruct s as [|ch s]; [exists false; split; auto; split; [discriminate|intros X; inversion X]|].
    replace (match b ++ 93 :: p with 94 :: q => (true, q) | _ => (false, b ++ 93 :: p) end) with (false, b ++ 93 :: p).
    2:{ destruct S as [x r l X R|x y r l X Y0 Y1 R]; cbn [app hd] in *; clear - H;
        destruct x as [|z|z]; auto; repeat (destruct z; auto); congruence. }
    destruct (set_loop_ok ch p b l S) as (u & Nu & ->).
    pose proof (in_setb_iff ch l) as IB. destruct (in_setb ch l); cbn [Bool.eqb].
    + rewrite skip_set_app by auto. rewrite app_length in L. cbn [length] in L.
      destruct (IH p t s) as (b' & -> & B); auto; [lia|]. exists b'. split; auto. rewrite B.
      split; intros X; [constructor; auto; now apply IB|now inversion X].
    + exists false. split; auto. split; [discriminate|]. intros X; inversion X; subst. now apply IB.
  - cbn [Z.eqb Pos.eqb]. assert (V : view lib (CSet true l :: t) = CSet true l :: view lib t) by (destruct lib; reflexivity). rewrite V.
    destruct s as [|ch s]; [exists false; split; auto; split; [discriminate|intros X; inversion X]|].
    destruct (set_loop_ok ch p b l S) as (u & Nu & ->).
    pose proof (in_setb_iff ch l) as IB. destruct (in_setb ch l); cbn [Bool.eqb].
    + exists false. split; auto. split; [discriminate|]. intros X; inversion X as [| | | | | |x0 l0 t0 s0 NI MT]; subst. exfalso. apply NI. now apply IB.
    + rewrite skip_set_app by auto. rewrite app_length in L. cbn [length] in L.
      destruct (IH p t s) as (b' & -> & B); auto; [lia|]. exists b'. split; auto. rewrite B.
      split; intros X; [constructor; auto; intros Y; apply IB in Y; discriminate|now inversion X].
Qed.

Lemma loose_id t : no_escape t -> loose t = t.
Proof.
  induction t as [|x t IH]; intros N; cbn [loose]; auto.
  rewrite IH by (intros c I; apply (N c); now right). destruct x; auto. exfalso. apply (N c). now left.
Qed.

(** "Contains": the pattern with a star on both sides. *)
Lemma pat_text_app p t q u : pat_text p t -> pat_text q u -> pat_text (p ++ q) (t ++ u).
Proof.
  induction 1; intros Q; cbn [app]; auto; try (constructor; auto).
  - rewrite <- app_assoc. cbn [app]. constructor; auto.
  - rewrite <- app_assoc. cbn [app]. constructor; auto.
Qed.

Lemma mat_app t u s : mat (t ++ u) s <-> exists a b, s = a ++ b /\ mat t a /\ mat u b.
Proof.
  split.
  - revert s. induction t as [|x t IH]; intros s M; cbn [app] in M.
    + exists [], s. repeat split; auto. constructor.
    + inversion M; subst;
      match goal with H : mat (t ++ u) _ |- _ => apply IH in H; destruct H as (a & b & -> & Ma & Mb) end.
      * exists (s1 ++ a), b. rewrite app_assoc. repeat split; auto. now constructor.
      * exists (c :: a), b. repeat split; auto. now constructor.
      * exists (c :: a), b. repeat split; auto. now constructor.
      * exists (c :: a), b. repeat split; auto. now constructor.
      * exists (x0 :: a), b. repeat split; auto. now constructor.
      * exists (x0 :: a), b. repeat split; auto. now constructor.
  - intros (a & b & -> & Ma & Mb). induction Ma; cbn [app]; auto; try rewrite <- app_assoc; constructor; auto.
Qed.

Lemma contains_ok p t s : pat_text p t ->
  exists b, my_globmatch s (contains_pattern p) = Ok b /\ (b = true <-> exists x y z, s = x ++ y ++ z /\ mat t y).
Proof.
  intros P. unfold my_globmatch, contains_pattern.
  destruct (glob_ok false (S (length (42 :: p ++ [42]))) (42 :: p ++ [42]) (Star :: t ++ [Star]) s) as (b & E & B); [lia| |].
  - constructor. apply pat_text_app; auto. constructor. constructor.
  - exists b. split; auto. rewrite B. cbn [view]. split.
    + intros M. inversion M; subst. apply mat_app in H0. destruct H0 as (y & z & -> & My & _). eauto.
    + intros (x & y & z & -> & M). constructor. apply mat_app. exists y, z. repeat split; auto.
      rewrite <- (app_nil_r z). constructor. constructor.
Qed.

Lemma contains_safe p s : exists b, my_globmatch s (contains_pattern p) = Ok b.
Proof.
  apply glob_total; [lia|]. unfold contains_pattern. intros (q & E).
  change (42 :: p ++ [42]) with ((42 :: p) ++ [42]) in E. replace (q ++ [91; 94]) with ((q ++ [91]) ++ [94]) in E by now rewrite <- app_assoc.
  apply app_inj_tail in E. destruct E; discriminate.
Qed.
