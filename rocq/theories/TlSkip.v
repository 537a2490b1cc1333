(** * The skip list of trace identifiers. *)

From Coq Require Import Permutation.
From Verif Require Import Base BaseLemmas RecProof TlModel TlSpec TlHeap TlSegs.
Open Scope Z_scope.

Local Arguments Nat.ltb : simpl never.

Notation ient := (nat * (nat * tid))%type.
Definition eaddr (x : ient) : nat := fst x.
Definition eht (x : ient) : nat := fst (snd x).
Definition etid (x : ient) : tid := snd (snd x).

(** The first entry with a pointer at level [l]. *)
Fixpoint ptr_at (l : nat) (xs : list ient) : option nat :=
  match xs with
  | [] => None
  | x :: xs' => if (l <? eht x)%nat then Some (eaddr x) else ptr_at l xs'
  end.
Definition ptrs (ht : nat) (xs : list ient) : list (option nat) :=
  map (fun l => if (l <? ht)%nat then ptr_at l xs else None) (seq 0 HEIGHT).

Local Arguments ptrs : simpl never.

Fixpoint irep (nodes : nat -> option idnode) (xs : list ient) : Prop :=
  match xs with
  | [] => True
  | x :: xs' => nodes (eaddr x) = Some (mk_idnode (etid x) (ptrs (eht x) xs')) /\ irep nodes xs'
  end.

Record krep (k : tlist) (xs : list ient) : Prop := mk_krep {
  kr_head : k_head k = ptrs HEIGHT xs;
  kr_nodes : irep (k_nodes k) xs;
  kr_nodup : NoDup (map eaddr xs);
  kr_fresh : Forall (fun x => (eaddr x < k_fresh k)%nat) xs }.

Lemma ptr_at_app l X Y : ptr_at l (X ++ Y) = match ptr_at l X with Some a => Some a | None => ptr_at l Y end.
Proof. induction X as [|x X IH]; cbn; [reflexivity|]. destruct (l <? eht x)%nat; [reflexivity|exact IH]. Qed.

Lemma ptr_at_none l X : ptr_at l X = None <-> Forall (fun x => (eht x <= l)%nat) X.
Proof.
  induction X as [|x X IH]; cbn; [split; auto|].
  destruct (Nat.ltb_spec l (eht x)).
  - split; [discriminate|]. intro H1. inversion H1; subst. lia.
  - rewrite IH. split; [intro; constructor; auto|intro H1; inversion H1; auto].
Qed.

Lemma ptr_at_some l X a : ptr_at l X = Some a -> exists X1 x X2, X = X1 ++ x :: X2 /\ eaddr x = a /\ (l < eht x)%nat
  /\ Forall (fun y => (eht y <= l)%nat) X1.
Proof.
  induction X as [|x X IH]; cbn; [discriminate|]. destruct (Nat.ltb_spec l (eht x)).
  - intro E; injection E as <-. exists [], x, X. auto.
  - intro E. destruct (IH E) as (X1 & y & X2 & -> & H1 & H2 & H3). exists (x :: X1), y, X2. repeat split; auto.
Qed.

Lemma nth_ptrs ht xs l : (l < HEIGHT)%nat -> nth_error (ptrs ht xs) l = Some (if (l <? ht)%nat then ptr_at l xs else None).
Proof.
  intro H. unfold ptrs. rewrite nth_error_map.
  assert (E : nth_error (seq 0 HEIGHT) l = Some l).
  { unfold HEIGHT in *. do 8 (destruct l as [|l]; [reflexivity|]). lia. }
  rewrite E. reflexivity.
Qed.

Lemma set_at_map {B} (g : nat -> B) j v : (j < HEIGHT)%nat ->
  set_at (map g (seq 0 HEIGHT)) j v = map (fun l => if Nat.eqb l j then v else g l) (seq 0 HEIGHT).
Proof. intro H. unfold HEIGHT in *. do 8 (destruct j as [|j]; [reflexivity|]). lia. Qed.

Lemma irep_app nodes X Y : irep nodes (X ++ Y) -> irep nodes Y.
Proof. induction X; cbn; [auto|]. intros [_ H]; auto. Qed.
Lemma irep_mid nodes X x Y : irep nodes (X ++ x :: Y) -> nodes (eaddr x) = Some (mk_idnode (etid x) (ptrs (eht x) Y)).
Proof. intro H. apply irep_app in H. apply H. Qed.
Lemma irep_ext n n' X : (forall a, In a (map eaddr X) -> n' a = n a) -> irep n X -> irep n' X.
Proof. induction X as [|x X IH]; cbn; [auto|]. intros He [H1 H2]. split; [rewrite He; auto|auto]. Qed.

(** ** Finding *)

(** The last place of [L] with a pointer at level [j]. *)
Fixpoint place_from (p : place) (j : nat) (L : list ient) : place :=
  match L with
  | [] => p
  | x :: L' => place_from (if (j <? eht x)%nat then PNode (eaddr x) else p) j L'
  end.
Definition place_at := place_from PHead.

Lemma place_from_app p j L1 L2 : place_from p j (L1 ++ L2) = place_from (place_from p j L1) j L2.
Proof. revert p. induction L1; cbn; auto. Qed.
Lemma place_from_low p j L : Forall (fun x => (eht x <= j)%nat) L -> place_from p j L = p.
Proof.
  revert p. induction L as [|x L IH]; intros p H; cbn; [reflexivity|]. inversion H; subst.
  rewrite (proj2 (Nat.ltb_ge _ _)) by assumption. auto.
Qed.

(** A position in the list: the place and what precedes it. *)
Definition at_place (p : place) (level : nat) (X1 : list ient) : Prop :=
  (p = PHead /\ X1 = []) \/ (exists X x, X1 = X ++ [x] /\ p = PNode (eaddr x) /\ (level <= eht x)%nat).

Lemma next_at_place k p l X1 X2 : krep k (X1 ++ X2) -> at_place p (S l) X1 -> (l < HEIGHT)%nat ->
  next_at k p l = Ok (ptr_at l X2).
Proof.
  intros K [[-> ->]|(X & x & -> & -> & Hh)] Hl; unfold next_at.
  - rewrite (kr_head _ _ K), nth_ptrs by exact Hl. rewrite (proj2 (Nat.ltb_lt _ _)) by exact Hl. reflexivity.
  - pose proof (kr_nodes _ _ K) as I. rewrite <- app_assoc in I. cbn in I. rewrite (irep_mid _ _ _ _ I).
    cbn [i_next]. rewrite nth_ptrs by exact Hl. rewrite (proj2 (Nat.ltb_lt _ _)) by lia. reflexivity.
Qed.

Definition key_split (sid : list Z) (pub : Z) (xs L M R : list ient) : Prop :=
  xs = L ++ M ++ R
  /\ Forall (fun x => id_cmp (etid x) sid pub < 0) L
  /\ Forall (fun x => id_cmp (etid x) sid pub = 0) M
  /\ Forall (fun x => 0 < id_cmp (etid x) sid pub) R.

Lemma app_prefix {B} (L1 L2 M1 M2 : list B) (P : B -> Prop) :
  L1 ++ L2 = M1 ++ M2 -> Forall P L1 -> Forall (fun x => ~ P x) M2 -> exists L', M1 = L1 ++ L' /\ L2 = L' ++ M2.
Proof.
  revert M1. induction L1 as [|x L1 IH]; intros M1 E H1 H2; cbn in *.
  - exists M1. auto.
  - inversion H1; subst. destruct M1 as [|y M1]; cbn in E.
    + subst M2. inversion H2; subst. contradiction.
    + injection E as <- E. destruct (IH _ E H4 H2) as (L' & -> & ->). exists L'. auto.
Qed.

(** Entries in the order of their signs. *)
Fixpoint up (g : ient -> Z) (l : list ient) : Prop :=
  match l with [] => True | x :: l' => Forall (fun y => Z.sgn (g x) <= Z.sgn (g y)) l' /\ up g l' end.
Lemma up_split g l1 x l2 : up g (l1 ++ x :: l2) ->
  Forall (fun y => Z.sgn (g y) <= Z.sgn (g x)) l1 /\ Forall (fun y => Z.sgn (g x) <= Z.sgn (g y)) l2.
Proof.
  induction l1 as [|z l1 IH]; cbn; intros [H1 H2]; [auto|]. destruct (IH H2) as [H3 H4]. split; [constructor; [|exact H3]|exact H4].
  rewrite Forall_forall in H1. apply H1. apply in_or_app. right. left. reflexivity.
Qed.
Lemma up_app g l1 l2 : up g l1 -> up g l2 -> Forall (fun x => Forall (fun y => Z.sgn (g x) <= Z.sgn (g y)) l2) l1 -> up g (l1 ++ l2).
Proof.
  induction l1 as [|z l1 IH]; cbn; intros H1 H2 H3; [exact H2|]. inversion H3; subst. destruct H1. split; [apply Forall_app; auto|auto].
Qed.
Lemma up_const g l v : Forall (fun x => Z.sgn (g x) = v) l -> up g l.
Proof. induction 1; cbn; [exact I|]. split; [|assumption]. eapply Forall_impl; [|eassumption]. cbn. intros; lia. Qed.
Lemma up_keys g L M R : Forall (fun x => g x < 0) L -> Forall (fun x => g x = 0) M -> Forall (fun x => 0 < g x) R -> up g (L ++ M ++ R).
Proof.
  intros HL HM HR. apply up_app; [|apply up_app|].
  - apply up_const with (v := -1). eapply Forall_impl; [|exact HL]. cbn; intros; lia.
  - apply up_const with (v := 0). eapply Forall_impl; [|exact HM]. cbn; intros; lia.
  - apply up_const with (v := 1). eapply Forall_impl; [|exact HR]. cbn; intros; lia.
  - rewrite Forall_forall in *. intros x Hx. apply Forall_forall. intros y Hy. specialize (HM _ Hx). specialize (HR _ Hy). cbn in *. lia.
  - rewrite Forall_forall in *. intros x Hx. apply Forall_forall. intros y Hy. specialize (HL _ Hx). lia.
Qed.

Lemma find_id_ok k sid pub xs L M R : krep k xs -> key_split sid pub xs L M R ->
  Forall (fun x => (1 <= eht x)%nat) xs ->
  forall fuel level X1 X2 p prevs,
  xs = X1 ++ X2 -> at_place p level X1 -> (level <= HEIGHT)%nat ->
  Forall (fun x => id_cmp (etid x) sid pub < 0) X1 ->
  prevs = map (fun j => place_at j L) (seq level (HEIGHT - level)) ->
  Forall (fun x => (level < HEIGHT)%nat -> (eht x <= level)%nat) M ->
  (length X2 + level < fuel)%nat ->
  (exists x prevs', In x M /\ find_id fuel k sid pub p level prevs = Ok (Some (eaddr x), prevs'))
  \/ (M = [] /\ find_id fuel k sid pub p level prevs = Ok (None, map (fun j => place_at j L) (seq 0 HEIGHT))).
Proof.
  intros K (Exs & HL & HM & HR) Hht.
  induction fuel as [|fuel IH]; intros level X1 X2 p prevs E Hp Hlev H1 Epr HMl Hf; [lia|].
  cbn [find_id]. destruct level as [|l].
  - right. split.
    + destruct M as [|m M]; [reflexivity|]. exfalso. pose proof (Forall_inv HMl) as Hm. cbn in Hm.
      assert (eht m <= 0)%nat by (apply Hm; unfold HEIGHT; lia).
      rewrite Forall_forall in Hht. assert (1 <= eht m)%nat; [|lia]. apply Hht. rewrite Exs. apply in_or_app. right. left. reflexivity.
    + subst prevs. reflexivity.
  - assert (Hl : (l < HEIGHT)%nat) by lia.
    rewrite E in K. rewrite (next_at_place _ _ _ _ _ K Hp Hl). cbn [bind].
    assert (Drop : (Forall (fun x => (eht x <= l)%nat) M /\ place_at l L = p) ->
       (exists x prevs', In x M /\ find_id fuel k sid pub p l (p :: prevs) = Ok (Some (eaddr x), prevs'))
       \/ (M = [] /\ find_id fuel k sid pub p l (p :: prevs) = Ok (None, map (fun j => place_at j L) (seq 0 HEIGHT)))).
    { intros [D1 D2]. apply (IH l X1 X2); auto.
      - destruct Hp as [Hp|(X & x & -> & -> & Hh)]; [left; exact Hp|right]. exists X, x. repeat split; auto. lia.
      - lia.
      - replace (HEIGHT - l)%nat with (S (HEIGHT - S l)) by lia. cbn [seq map]. rewrite D2, Epr. reflexivity.
      - eapply Forall_impl; [|exact D1]. auto.
      - lia. }
    assert (EL : exists L', L = X1 ++ L' /\ X2 = L' ++ M ++ R).
    { rewrite E in Exs. apply (app_prefix _ _ _ _ (fun x => id_cmp (etid x) sid pub < 0) Exs H1).
      apply Forall_app. split; [eapply Forall_impl; [|exact HM]|eapply Forall_impl; [|exact HR]]; cbn; intros; lia. }
    destruct EL as (L' & -> & EX2).
    assert (PL : Forall (fun x => (eht x <= l)%nat) L' -> place_at l (X1 ++ L') = p).
    { intro HL'. unfold place_at. rewrite place_from_app, (place_from_low _ _ L') by exact HL'.
      destruct Hp as [[-> ->]|(X & x & -> & -> & Hh)]; [reflexivity|].
      rewrite place_from_app. cbn. rewrite (proj2 (Nat.ltb_lt _ _)) by lia. reflexivity. }
    destruct (ptr_at l X2) as [a|] eqn:Ep.
    + destruct (ptr_at_some _ _ _ Ep) as (Y1 & y & Y2 & EY & Ey & Hy & HY1).
      pose proof (kr_nodes _ _ K) as I. rewrite EY in I. rewrite app_assoc in I. pose proof (irep_mid _ _ _ _ I) as In1.
      rewrite Ey in In1. rewrite In1. cbn [i_tid].
      assert (UP := up_split _ _ _ _ (eq_rect _ (up (fun x => id_cmp (etid x) sid pub))
                       (up_keys (fun x => id_cmp (etid x) sid pub) L' M R (proj2 (proj1 (Forall_app _ _ _) HL)) HM HR) _ (eq_trans (eq_sym EX2) EY))).
      assert (Hcase : (id_cmp (etid y) sid pub = 0 /\ In y M) \/ (0 < id_cmp (etid y) sid pub /\ Forall (fun x => (eht x <= l)%nat) (L' ++ M))
                      \/ (id_cmp (etid y) sid pub < 0)).
      { assert (Hin : In y (L' ++ M ++ R)). { rewrite <- EX2, EY. apply in_or_app. right. left. reflexivity. }
        apply Forall_app in HL. destruct HL as [_ HL].
        rewrite Forall_forall in HL, HM, HR.
        apply in_app_iff in Hin. destruct Hin as [Hin|Hin]; [right; right; exact (HL y Hin)|].
        apply in_app_iff in Hin. destruct Hin as [Hin|Hin]; [left; split; [exact (HM y Hin)|exact Hin]|].
        right; left. split; [exact (HR y Hin)|].
        assert (Hy0 : 0 < id_cmp (etid y) sid pub) by exact (HR y Hin).
        rewrite EX2 in EY.
        (* L' ++ M is a prefix of Y1 *)
        rewrite app_assoc in EY.
        destruct (app_prefix _ _ _ _ (fun x => id_cmp (etid x) sid pub <= 0) EY) as (Z & -> & _).
        - apply Forall_app. split; apply Forall_forall; intros x Hx; [specialize (HL x Hx)|specialize (HM x Hx)]; lia.
        - constructor; [lia|]. eapply Forall_impl; [|exact (proj2 UP)]. cbn. intros; lia.
        - apply Forall_app in HY1. apply HY1. }
      destruct Hcase as [[Hc Hin]|[[Hc Hlow]|Hc]].
      * rewrite Hc. cbn. left. exists y, prevs. split; [exact Hin|]. rewrite Ey. reflexivity.
      * replace (id_cmp (etid y) sid pub =? 0) with false by lia. replace (0 <? id_cmp (etid y) sid pub) with true by lia.
        apply Drop. apply Forall_app in Hlow. destruct Hlow as [Hlow1 Hlow2]. split; [exact Hlow2|exact (PL Hlow1)].
      * replace (id_cmp (etid y) sid pub =? 0) with false by lia. replace (0 <? id_cmp (etid y) sid pub) with false by lia.
        apply (IH (S l) (X1 ++ Y1 ++ [y]) Y2); auto.
        -- rewrite E, EY, <- !app_assoc. reflexivity.
        -- right. exists (X1 ++ Y1), y. rewrite <- app_assoc, Ey. repeat split; auto.
        -- apply Forall_app. split; [exact H1|]. apply Forall_app. split; [|constructor; auto].
           eapply Forall_impl; [|exact (proj1 UP)]. cbn. intros; lia.
        -- rewrite EY, app_length in Hf. cbn in Hf. lia.
    + apply ptr_at_none in Ep. rewrite EX2 in Ep. apply Forall_app in Ep. destruct Ep as [Ep1 Ep2].
      apply Forall_app in Ep2. destruct Ep2 as [Ep2 _]. apply Drop. split; [exact Ep2|exact (PL Ep1)].
Qed.

(** ** Connecting a new entry *)

Lemma ptr_at_raise l j a t X R : l <> j -> ptr_at l (X ++ (a, (S j, t)) :: R) = ptr_at l (X ++ (a, (j, t)) :: R).
Proof.
  intro H. rewrite !ptr_at_app. destruct (ptr_at l X); [reflexivity|]. cbn.
  replace (l <? S j)%nat with (l <? j)%nat; [reflexivity|].
  destruct (Nat.ltb_spec l j), (Nat.ltb_spec l (S j)); try reflexivity; lia.
Qed.

(** Pointers of a place whose next at level [j] is not beyond [X]. *)
Lemma ptrs_raise_same ht j a t X R : (ht <= j)%nat \/ ptr_at j X <> None ->
  ptrs ht (X ++ (a, (S j, t)) :: R) = ptrs ht (X ++ (a, (j, t)) :: R).
Proof.
  intro H. unfold ptrs. apply map_ext_in. intros l _. destruct (Nat.eq_dec l j) as [->|Hl].
  - destruct (Nat.ltb_spec j ht) as [Hj|]; [|reflexivity]. destruct H as [H|H]; [lia|].
    rewrite !ptr_at_app. destruct (ptr_at j X); [reflexivity|contradiction].
  - rewrite ptr_at_raise by exact Hl. reflexivity.
Qed.

Lemma ptrs_raise_set ht j a t X R : (j < HEIGHT)%nat -> (j < ht)%nat -> ptr_at j X = None ->
  ptrs ht (X ++ (a, (S j, t)) :: R) = set_at (ptrs ht (X ++ (a, (j, t)) :: R)) j (Some a).
Proof.
  intros H8 Hj H. unfold ptrs. rewrite set_at_map by exact H8. apply map_ext_in. intros l _.
  destruct (Nat.eqb_spec l j) as [->|Hl].
  - rewrite (proj2 (Nat.ltb_lt _ _)) by exact Hj. rewrite ptr_at_app, H. cbn.
    rewrite (proj2 (Nat.ltb_lt j (S j))) by lia. reflexivity.
  - rewrite ptr_at_raise by exact Hl. reflexivity.
Qed.

Lemma ptrs_own ht j R : (j < HEIGHT)%nat -> ht = j ->
  ptrs (S j) R = set_at (ptrs ht R) j (ptr_at j R).
Proof.
  intros H8 ->. unfold ptrs. rewrite set_at_map by exact H8. apply map_ext_in. intros l _.
  destruct (Nat.eqb_spec l j) as [->|Hl].
  - rewrite (proj2 (Nat.ltb_lt j (S j))) by lia. reflexivity.
  - replace (l <? S j)%nat with (l <? j)%nat; [reflexivity|].
    destruct (Nat.ltb_spec l j), (Nat.ltb_spec l (S j)); try reflexivity; lia.
Qed.

Lemma irep_raise_low nodes nodes' j a t X R :
  Forall (fun x => (eht x <= j)%nat) X -> irep nodes (X ++ (a, (j, t)) :: R) ->
  (forall b, In b (map eaddr (X ++ R)) -> nodes' b = nodes b) ->
  nodes' a = Some (mk_idnode t (ptrs (S j) R)) -> irep nodes' (X ++ (a, (S j, t)) :: R).
Proof.
  induction X as [|x X IH]; cbn; intros HX [H1 H2] Ho Ha.
  - split; [exact Ha|]. eapply irep_ext; [|exact H2]. auto.
  - inversion HX; subst. split.
    + rewrite Ho, H1 by auto. rewrite ptrs_raise_same; [reflexivity|left; assumption].
    + apply IH; auto.
Qed.

Lemma irep_raise_mid nodes nodes' j a t X x Y R :
  (j < HEIGHT)%nat -> (j < eht x)%nat -> Forall (fun y => (eht y <= j)%nat) Y ->
  irep nodes (X ++ x :: Y ++ (a, (j, t)) :: R) ->
  (forall b, In b (map eaddr (X ++ Y ++ R)) -> nodes' b = nodes b) ->
  nodes' a = Some (mk_idnode t (ptrs (S j) R)) ->
  nodes' (eaddr x) = Some (mk_idnode (etid x) (set_at (ptrs (eht x) (Y ++ (a, (j, t)) :: R)) j (Some a))) ->
  irep nodes' (X ++ x :: Y ++ (a, (S j, t)) :: R).
Proof.
  intros H8 Hx HY. induction X as [|z X IH]; cbn; intros [H1 H2] Ho Ha Hb.
  - split.
    + rewrite Hb. rewrite ptrs_raise_set; [reflexivity|exact H8|exact Hx|]. apply ptr_at_none. exact HY.
    + eapply irep_raise_low; eauto.
  - split; [|apply IH; auto].
    rewrite Ho, H1 by auto.
    assert (E : forall q, X ++ x :: Y ++ q = (X ++ x :: Y) ++ q) by (intro; rewrite <- app_assoc; reflexivity).
    rewrite !E. rewrite ptrs_raise_same; [reflexivity|]. right. rewrite ptr_at_app. destruct (ptr_at j X); [discriminate|].
    cbn. rewrite (proj2 (Nat.ltb_lt _ _)) by exact Hx. discriminate.
Qed.

Lemma place_at_cases j L :
  (place_at j L = PHead /\ Forall (fun x => (eht x <= j)%nat) L)
  \/ (exists X x Y, L = X ++ x :: Y /\ place_at j L = PNode (eaddr x) /\ (j < eht x)%nat /\ Forall (fun y => (eht y <= j)%nat) Y).
Proof.
  induction L as [|x L IH] using rev_ind; [left; auto|].
  unfold place_at in *. rewrite place_from_app. cbn. destruct (Nat.ltb_spec j (eht x)) as [H|H].
  - right. exists L, x, []. auto.
  - destruct IH as [[E F]|(X & y & Y & -> & E & Hy & F)].
    + left. split; [exact E|]. apply Forall_app. auto.
    + right. exists X, y, (Y ++ [x]). rewrite <- app_assoc. repeat split; auto. apply Forall_app. auto.
Qed.

Lemma kupd_same {B} (m : nat -> option B) a v : kupd m a v a = Some v.
Proof. unfold kupd. rewrite Nat.eqb_refl. reflexivity. Qed.
Lemma kupd_other {B} (m : nat -> option B) a v b : b <> a -> kupd m a v b = m b.
Proof. intro H. unfold kupd. apply Nat.eqb_neq in H. rewrite H. reflexivity. Qed.

Lemma nodup_mid {B} (l1 : list B) x l2 : NoDup (l1 ++ x :: l2) -> ~ In x (l1 ++ l2).
Proof. apply NoDup_remove_2. Qed.

Lemma map_eaddr_ht L a j j' t R : map eaddr (L ++ (a, (j, t)) :: R) = map eaddr (L ++ (a, (j', t)) :: R).
Proof. rewrite !map_app. reflexivity. Qed.

Lemma connect_ok : forall h j k L a t R,
  krep k (L ++ (a, (j, t)) :: R) -> (j + h <= HEIGHT)%nat ->
  exists k', connect k a (map (fun j => place_at j L) (seq j h)) j h = Ok k'
    /\ krep k' (L ++ (a, ((j + h)%nat, t)) :: R) /\ k_num k' = k_num k /\ k_fresh k' = k_fresh k.
Proof.
  induction h as [|h IH]; intros j k L a t R K Hh.
  - exists k. rewrite Nat.add_0_r. cbn. auto.
  - cbn [seq map connect].
    assert (Hj : (j < HEIGHT)%nat) by lia.
    destruct K as [KH KN ND KF].
    assert (Hna : ~ In a (map eaddr (L ++ R))).
    { rewrite map_app in ND |- *. cbn in ND. apply nodup_mid in ND. exact ND. }
    pose proof (irep_mid _ _ _ _ KN) as Ha. cbn in Ha.
    destruct (place_at_cases j L) as [[E F]|(X & x & Y & -> & E & Hx & F)]; rewrite E.
    + (* the sentinel *)
      unfold next_at. rewrite KH, nth_ptrs by exact Hj. rewrite (proj2 (Nat.ltb_lt _ _)) by exact Hj.
      rewrite ptr_at_app, (proj2 (ptr_at_none _ _) F). cbn [ptr_at eht eaddr fst snd bind]. rewrite Nat.ltb_irrefl.
      unfold set_next_at at 1. rewrite Ha. cbn [bind i_tid i_next set_next_at k_num k_head k_nodes k_fresh].
      match goal with |- exists k', connect ?k1 _ _ _ _ = _ /\ _ => assert (K1 : krep k1 (L ++ (a, (S j, t)) :: R)) end.
      { constructor; cbn [k_head k_nodes k_fresh].
        - rewrite KH. symmetry. apply ptrs_raise_set; [exact Hj|exact Hj|apply ptr_at_none; exact F].
        - eapply irep_raise_low; [exact F|exact KN| |].
          + intros b Hb. apply kupd_other. intros ->. contradiction.
          + rewrite kupd_same. rewrite (ptrs_own j j R) by auto. reflexivity.
        - rewrite (map_eaddr_ht _ _ _ j). exact ND.
        - apply Forall_app in KF. destruct KF as [F1 F2]. inversion F2; subst. apply Forall_app. split; [exact F1|constructor; assumption]. }
      destruct (IH (S j) _ L a t R K1) as (k' & E' & K' & N' & Fr'); [lia|].
      exists k'. rewrite E'. split; [reflexivity|]. replace (j + S h)%nat with (S j + h)%nat by lia. auto.
    + (* a node *)
      assert (E1 : (X ++ x :: Y) ++ (a, (j, t)) :: R = X ++ x :: Y ++ (a, (j, t)) :: R) by (rewrite <- app_assoc; reflexivity).
      assert (Hxa : eaddr x <> a).
      { intro Hc. apply Hna. rewrite <- Hc, <- app_assoc, map_app. apply in_or_app. right. left. reflexivity. }
      pose proof KN as KN1. rewrite E1 in KN1. pose proof (irep_mid _ _ _ _ KN1) as Hb.
      unfold next_at at 1. rewrite Hb. cbn [i_next]. rewrite nth_ptrs by exact Hj. rewrite (proj2 (Nat.ltb_lt _ _)) by exact Hx.
      rewrite ptr_at_app, (proj2 (ptr_at_none _ _) F). cbn [ptr_at eht eaddr fst snd bind]. rewrite Nat.ltb_irrefl.
      unfold set_next_at at 1. rewrite Ha. cbn [bind i_tid i_next].
      unfold set_next_at at 1. cbn [k_num k_head k_nodes k_fresh]. fold (eaddr x). rewrite kupd_other by exact Hxa. rewrite Hb. cbn [bind i_tid i_next].
      match goal with |- exists k', connect ?k1 _ _ _ _ = _ /\ _ => assert (K1 : krep k1 ((X ++ x :: Y) ++ (a, (S j, t)) :: R)) end.
      { constructor; cbn [k_head k_nodes k_fresh].
        - rewrite KH. symmetry. apply ptrs_raise_same. right. rewrite ptr_at_app. destruct (ptr_at j X); [discriminate|].
          cbn. rewrite (proj2 (Nat.ltb_lt _ _)) by exact Hx. discriminate.
        - rewrite <- app_assoc. cbn [app]. eapply irep_raise_mid; [exact Hj|exact Hx|exact F|exact KN1| | |].
          + intros b Hi. assert (b <> eaddr x).
            { intros ->. rewrite E1, map_app in ND. cbn in ND. apply nodup_mid in ND. apply ND.
              repeat first [rewrite map_app in Hi | rewrite in_app_iff in Hi | rewrite map_app | rewrite in_app_iff]; cbn; tauto. }
            assert (b <> a). { intros ->. apply Hna. repeat first [rewrite map_app in Hi | rewrite in_app_iff in Hi | rewrite map_app | rewrite in_app_iff]; cbn; tauto. }
            rewrite !kupd_other by assumption. reflexivity.
          + rewrite kupd_other by auto. rewrite kupd_same. rewrite (ptrs_own j j R) by auto. reflexivity.
          + rewrite kupd_same. reflexivity.
        - rewrite (map_eaddr_ht _ _ _ j). exact ND.
        - apply Forall_app in KF. destruct KF as [F1 F2]. inversion F2; subst. apply Forall_app. split; [exact F1|constructor; assumption]. }
      destruct (IH (S j) _ (X ++ x :: Y) a t R K1) as (k' & E' & K' & N' & Fr'); [lia|].
      exists k'. rewrite E'. split; [reflexivity|]. replace (j + S h)%nat with (S j + h)%nat by lia. auto.
Qed.

Lemma ptrs_zero_height ht a t X R : ptrs ht (X ++ (a, (O, t)) :: R) = ptrs ht (X ++ R).
Proof.
  unfold ptrs. apply map_ext. intro l. destruct (l <? ht)%nat; [|reflexivity]. rewrite !ptr_at_app. destruct (ptr_at l X); reflexivity.
Qed.

Lemma irep_zero nodes a t L R : ~ In a (map eaddr (L ++ R)) -> irep nodes (L ++ R) ->
  irep (kupd nodes a (mk_idnode t (repeat None HEIGHT))) (L ++ (a, (O, t)) :: R).
Proof.
  induction L as [|x L IH]; cbn; intros Hn Hi.
  - split; [rewrite kupd_same; reflexivity|]. eapply irep_ext; [|exact Hi]. intros b Hb. apply kupd_other. intros ->. contradiction.
  - destruct Hi as [H1 H2]. split.
    + rewrite kupd_other by (intro; apply Hn; auto). rewrite H1, ptrs_zero_height. reflexivity.
    + apply IH; auto.
Qed.


(** Only the places below the height are used. *)
Lemma connect_prefix : forall h j k a ps qs, length ps = h -> connect k a (ps ++ qs) j h = connect k a ps j h.
Proof.
  induction h as [|h IH]; intros j k a ps qs Hl; [destruct ps; [destruct qs; reflexivity|discriminate]|].
  destruct ps as [|p ps]; [discriminate|]. cbn. injection Hl as Hl.
  destruct (next_at k p j) as [nx| | |]; cbn; try reflexivity.
  destruct (match k_nodes k a with Some n => _ | None => _ end) as [k1| | |]; cbn; try reflexivity.
  destruct (set_next_at k1 p j (Some a)) as [k2| | |]; cbn; try reflexivity. apply IH. exact Hl.
Qed.

Lemma add_id_ok k t L R ht : krep k (L ++ R) -> (ht <= HEIGHT)%nat ->
  exists k', add_id k t (map (fun j => place_at j L) (seq 0 HEIGHT)) ht = Ok k'
    /\ krep k' (L ++ (k_fresh k, (ht, t)) :: R) /\ k_num k' = uwrap 32 (k_num k + 1) /\ k_fresh k' = S (k_fresh k).
Proof.
  intros K Hht. unfold add_id.
  assert (Hn : ~ In (k_fresh k) (map eaddr (L ++ R))).
  { intro Hi. apply in_map_iff in Hi. destruct Hi as (x & E & Hx). pose proof (kr_fresh _ _ K) as F. rewrite Forall_forall in F. specialize (F x Hx). lia. }
  match goal with |- exists k', bind (connect ?k1 _ _ _ _) _ = _ /\ _ => assert (K1 : krep k1 (L ++ (k_fresh k, (O, t)) :: R)) end.
  { destruct K as [KH KN ND KF]. constructor; cbn [k_head k_nodes k_fresh].
    - rewrite KH, ptrs_zero_height. reflexivity.
    - apply irep_zero; assumption.
    - rewrite map_app in *. cbn. apply NoDup_Add with (a := k_fresh k) (l := map eaddr L ++ map eaddr R); [apply Add_app|auto].
    - apply Forall_app in KF. destruct KF as [F1 F2]. apply Forall_app. split; [eapply Forall_impl; [|exact F1]; cbn; intros; lia|].
      constructor; [cbn; lia|eapply Forall_impl; [|exact F2]; cbn; intros; lia]. }
  assert (ES : seq 0 HEIGHT = seq 0 ht ++ seq ht (HEIGHT - ht)).
  { rewrite <- seq_app. f_equal. lia. }
  rewrite ES, map_app, connect_prefix by (rewrite map_length, seq_length; reflexivity).
  destruct (connect_ok ht 0 _ L _ t R K1) as (k' & E & K' & N' & F'); [lia|].
  rewrite E. cbn [bind]. eexists. split; [reflexivity|]. cbn [k_num k_fresh]. rewrite N', F'. cbn [k_num k_fresh].
  split; [|auto]. destruct K' as [KH KN ND KF]. constructor; cbn; auto. rewrite F' in KF. exact KF.
Qed.

(** ** Changing the data of an entry *)

Lemma ptr_at_tid l a ht t t' X Y : ptr_at l (X ++ (a, (ht, t)) :: Y) = ptr_at l (X ++ (a, (ht, t')) :: Y).
Proof. rewrite !ptr_at_app. reflexivity. Qed.
Lemma ptrs_tid hh a ht t t' X Y : ptrs hh (X ++ (a, (ht, t)) :: Y) = ptrs hh (X ++ (a, (ht, t')) :: Y).
Proof. unfold ptrs. apply map_ext. intro l. rewrite (ptr_at_tid l a ht t t'). reflexivity. Qed.

Lemma update_ok k X a ht t Y t' : krep k (X ++ (a, (ht, t)) :: Y) ->
  exists n, k_nodes k a = Some n /\ i_tid n = t
    /\ krep (mk_tlist (k_num k) (k_head k) (kupd (k_nodes k) a (mk_idnode t' (i_next n))) (k_fresh k)) (X ++ (a, (ht, t')) :: Y).
Proof.
  intros [KH KN ND KF]. pose proof (irep_mid _ _ _ _ KN) as Ha. cbn in Ha.
  exists (mk_idnode t (ptrs ht Y)). split; [exact Ha|]. split; [reflexivity|]. cbn [i_next].
  assert (Hn : ~ In a (map eaddr (X ++ Y))).
  { rewrite map_app in ND |- *. cbn in ND. apply nodup_mid in ND. exact ND. }
  constructor; cbn [k_head k_nodes k_fresh].
  - rewrite KH. apply ptrs_tid.
  - clear KH ND KF Ha. induction X as [|x X IH]; cbn in *.
    + destruct KN as [_ KN]. split; [rewrite kupd_same; reflexivity|]. eapply irep_ext; [|exact KN].
      intros b Hb. apply kupd_other. intros ->. contradiction.
    + destruct KN as [K1 K2]. split; [|apply IH; auto]. rewrite kupd_other by (intro; apply Hn; auto). rewrite K1.
      rewrite (ptrs_tid _ a ht t t'). reflexivity.
  - rewrite map_app in *. exact ND.
  - apply Forall_app in KF. destruct KF as [F1 F2]. inversion F2; subst. apply Forall_app. split; [exact F1|constructor; assumption].
Qed.

(** ** Enumerating *)

Lemma ptr_at_0 X : Forall (fun x => (1 <= eht x)%nat) X -> ptr_at 0 X = match X with [] => None | x :: _ => Some (eaddr x) end.
Proof. destruct X as [|x X]; [reflexivity|]. intro H. inversion H; subst. cbn. rewrite (proj2 (Nat.ltb_lt _ _)) by lia. reflexivity. Qed.

Lemma walk_ok k : forall X fuel, irep (k_nodes k) X -> Forall (fun x => (1 <= eht x)%nat) X -> (length X < fuel)%nat ->
  walk fuel k (match X with [] => None | x :: _ => Some (eaddr x) end) = Ok (map etid X).
Proof.
  induction X as [|x X IH]; intros fuel HI HH Hf; (destruct fuel as [|fuel]; [cbn in Hf; lia|]).
  - reflexivity.
  - cbn [walk]. destruct HI as [H1 H2]. inversion HH; subst. rewrite H1. unfold next_at. rewrite H1. cbn [i_next].
    rewrite nth_ptrs by (unfold HEIGHT; lia). rewrite (proj2 (Nat.ltb_lt _ _)) by lia. cbn [bind].
    rewrite ptr_at_0 by assumption. rewrite IH; [reflexivity|assumption|assumption|cbn in Hf; lia].
Qed.

Lemma krep_length k X : krep k X -> (length X <= k_fresh k)%nat.
Proof.
  intros K. pose proof (kr_nodup _ _ K) as N. pose proof (kr_fresh _ _ K) as F.
  assert (H : incl (map eaddr X) (seq 0 (k_fresh k))).
  { intros b Hb. apply in_map_iff in Hb. destruct Hb as (x & <- & Hx). rewrite Forall_forall in F. specialize (F x Hx). apply in_seq. lia. }
  pose proof (NoDup_incl_length N H) as L. rewrite seq_length, map_length in L. exact L.
Qed.

Lemma tl_ids_ok k X : krep k X -> Forall (fun x => (1 <= eht x)%nat) X -> tl_ids k = Ok (map etid X).
Proof.
  intros K HH. unfold tl_ids, next_at. rewrite (kr_head _ _ K), nth_ptrs by (unfold HEIGHT; lia).
  rewrite (proj2 (Nat.ltb_lt _ _)) by (unfold HEIGHT; lia). cbn [bind]. rewrite ptr_at_0 by exact HH.
  apply walk_ok; [exact (kr_nodes _ _ K)|exact HH|]. pose proof (krep_length _ _ K). lia.
Qed.

Lemma krep_init : krep tl_init [].
Proof. constructor; cbn; auto. constructor. Qed.
