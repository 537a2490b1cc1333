(** * Linked lists of segments in the heap. *)

From Coq Require Import Permutation.
From Verif Require Import Base BaseLemmas RecProof TlModel TlSpec.
Open Scope Z_scope.

Notation cell := (nat * seg)%type.

Definition haddr (xs : list cell) (nxt : option nat) : option nat :=
  match xs with [] => nxt | (a, _) :: _ => Some a end.
Fixpoint laddr (prv : option nat) (xs : list cell) : option nat :=
  match xs with [] => prv | (a, _) :: xs' => laddr (Some a) xs' end.

(** The nodes [xs], linked, with the pointers out of both ends. *)
Fixpoint dll (h : heap) (prv : option nat) (xs : list cell) (nxt : option nat) : Prop :=
  match xs with
  | [] => True
  | (a, s) :: xs' => h a = Some (mk_node s prv (haddr xs' nxt)) /\ dll h (Some a) xs' nxt
  end.

Definition addrs (xs : list cell) : list nat := map fst xs.

Lemma haddr_app xs ys n : haddr (xs ++ ys) n = haddr xs (haddr ys n).
Proof. destruct xs as [|[a s] xs]; reflexivity. Qed.
Lemma laddr_app xs : forall p ys, laddr p (xs ++ ys) = laddr (laddr p xs) ys.
Proof. induction xs as [|[a s] xs IH]; intros; cbn; [reflexivity|apply IH]. Qed.

Lemma dll_app h xs : forall p ys n, dll h p (xs ++ ys) n <-> dll h p xs (haddr ys n) /\ dll h (laddr p xs) ys n.
Proof.
  induction xs as [|[a s] xs IH]; intros p ys n; cbn.
  - tauto.
  - rewrite IH, haddr_app. tauto.
Qed.

Lemma dll_ext h h' xs : forall p n,
  (forall b, In b (addrs xs) -> h' b = h b) -> dll h p xs n -> dll h' p xs n.
Proof.
  induction xs as [|[a s] xs IH]; intros p n He Hd; cbn in *; [exact I|].
  destruct Hd as [Ha Hd]. split.
  - rewrite He; auto.
  - apply IH; auto.
Qed.

Lemma hupd_same h a v : hupd h a v a = v.
Proof. unfold hupd. rewrite Nat.eqb_refl. reflexivity. Qed.
Lemma hupd_other h a v b : b <> a -> hupd h a v b = h b.
Proof. intro H. unfold hupd. apply Nat.eqb_neq in H. rewrite H. reflexivity. Qed.

Lemma dll_frame h xs p n a v : ~ In a (addrs xs) -> dll h p xs n -> dll (hupd h a v) p xs n.
Proof.
  intros Ha. apply dll_ext. intros b Hb. apply hupd_other. intros ->. contradiction.
Qed.

Lemma laddr_in xs : forall p, xs <> [] -> exists a, laddr p xs = Some a /\ In a (addrs xs).
Proof.
  induction xs as [|[a s] xs IH]; intros p H; [contradiction|].
  cbn. destruct xs as [|c xs'].
  - exists a. cbn. auto.
  - destruct (IH (Some a)) as (b & Hb & Hi); [discriminate|]. exists b. auto.
Qed.
Lemma haddr_in xs n : xs <> [] -> exists a, haddr xs n = Some a /\ In a (addrs xs).
Proof. destruct xs as [|[a s] xs]; [contradiction|]. intros _. exists a. cbn. auto. Qed.

Lemma snoc_cases {A} (xs : list A) : xs = [] \/ exists ys x, xs = ys ++ [x].
Proof.
  destruct xs as [|x xs]; [left; reflexivity|right].
  destruct (@exists_last _ (x :: xs)) as (ys & z & H); [discriminate|]. eauto.
Qed.

(** Relinking the pointer out of one end. *)
Lemma link_next h xs v n :
  NoDup (addrs xs) -> dll h None xs n ->
  exists h', (match laddr None xs with Some p => set_next h (Some p) v | None => Ok h end) = Ok h'
    /\ dll h' None xs v /\ (forall b, ~ In b (addrs xs) -> h' b = h b)
    /\ (forall b, h' b = None <-> h b = None).
Proof.
  intros Hn Hd. destruct (snoc_cases xs) as [->|(ys & [a s] & ->)].
  - cbn. exists h. split; [reflexivity|]. split; [exact I|]. split; [auto|tauto].
  - rewrite laddr_app. cbn [laddr].
    apply dll_app in Hd. destruct Hd as [Hy [Ha _]]. cbn in Ha, Hy.
    unfold set_next, deref. rewrite Ha. cbn.
    eexists. split; [reflexivity|].
    assert (Hna : ~ In a (addrs ys)).
    { unfold addrs in *. rewrite map_app in Hn. apply NoDup_remove_2 in Hn. rewrite app_nil_r in Hn. exact Hn. }
    split; [|split].
    + apply dll_app. split; [apply dll_frame; assumption|]. cbn. rewrite hupd_same. auto.
    + intros b Hb. apply hupd_other. intros ->. apply Hb. unfold addrs. rewrite map_app. apply in_or_app. right. cbn. auto.
    + intro b. unfold hupd. destruct (Nat.eqb b a) eqn:E; [|tauto].
      apply Nat.eqb_eq in E; subst b. rewrite Ha. split; discriminate.
Qed.

Lemma link_prev h xs v p :
  NoDup (addrs xs) -> dll h p xs None ->
  exists h', (match haddr xs None with Some q => set_prev h (Some q) v | None => Ok h end) = Ok h'
    /\ dll h' v xs None /\ (forall b, ~ In b (addrs xs) -> h' b = h b)
    /\ (forall b, h' b = None <-> h b = None).
Proof.
  intros Hn Hd. destruct xs as [|[a s] xs].
  - cbn. exists h. split; [reflexivity|]. split; [exact I|]. split; [auto|tauto].
  - cbn in Hd |- *. destruct Hd as [Ha Hd]. unfold set_prev, deref. rewrite Ha. cbn.
    inversion Hn as [|? ? Hna Hn']; subst. fold (addrs xs) in *.
    eexists. split; [reflexivity|]. split; [|split].
    + rewrite hupd_same. split; [reflexivity|]. apply dll_frame; assumption.
    + intros b Hb. apply hupd_other. intros ->. apply Hb. auto.
    + intro b. unfold hupd. destruct (Nat.eqb b a) eqn:E; [|tauto].
      apply Nat.eqb_eq in E; subst b. rewrite Ha. split; discriminate.
Qed.

(** ** The list of an identifier *)

Record rep (h : heap) (fresh : nat) (first last : option nat) (xs : list cell) : Prop := mk_rep {
  rep_dll : dll h None xs None;
  rep_nodup : NoDup (addrs xs);
  rep_dom : forall b, h b <> None <-> In b (addrs xs);
  rep_fresh : forall b, In b (addrs xs) -> (b < fresh)%nat;
  rep_first : first = haddr xs None;
  rep_last : last = laddr None xs }.

Lemma rep_mid h fr fi la xs1 a s xs2 :
  rep h fr fi la (xs1 ++ (a, s) :: xs2) -> h a = Some (mk_node s (laddr None xs1) (haddr xs2 None)).
Proof. intros R. pose proof (rep_dll _ _ _ _ _ R) as D. apply dll_app in D. apply D. Qed.

Lemma rep_bound h fr fi la xs : rep h fr fi la xs -> (length xs <= fr)%nat.
Proof.
  intros R. pose proof (rep_nodup _ _ _ _ _ R) as N. pose proof (rep_fresh _ _ _ _ _ R) as F.
  assert (H : incl (addrs xs) (seq 0 fr)). { intros b Hb. apply in_seq. specialize (F b Hb). lia. }
  pose proof (NoDup_incl_length N H) as L. rewrite seq_length in L. unfold addrs in L. rewrite map_length in L. exact L.
Qed.

(** ** Walks *)

Lemma walk_fwd h : forall xs p fuel, dll h p xs None -> (length xs < fuel)%nat ->
  walk_segs fuel h (haddr xs None) = Ok (map snd xs).
Proof.
  induction xs as [|[a s] xs IH]; intros p fuel Hd Hf; (destruct fuel as [|fuel]; [lia|]); cbn.
  - reflexivity.
  - destruct Hd as [Ha Hd]. rewrite Ha. cbn. rewrite (IH (Some a)); [reflexivity|assumption|cbn in Hf; lia].
Qed.

Lemma walk_bwd h : forall ys n fuel, dll h None ys n -> (length ys < fuel)%nat ->
  walk_back fuel h (laddr None ys) = Ok (map snd (rev ys)).
Proof.
  intros ys. induction ys as [|[a s] ys IH] using rev_ind; intros n fuel Hd Hf; (destruct fuel as [|fuel]; [lia|]).
  - reflexivity.
  - apply dll_app in Hd. destruct Hd as [Hy [Ha _]]. cbn in Hy, Ha.
    rewrite laddr_app. cbn. rewrite Ha. cbn. rewrite app_length in Hf. cbn in Hf.
    rewrite (IH (Some a)); [|assumption|lia]. cbn. rewrite rev_app_distr. reflexivity.
Qed.

(** ** Modifying one segment *)

Lemma set_seg_rep h fr fi la xs1 a s xs2 s' :
  rep h fr fi la (xs1 ++ (a, s) :: xs2) ->
  exists h', set_seg h (Some a) s' = Ok h' /\ rep h' fr fi la (xs1 ++ (a, s') :: xs2).
Proof.
  intros R. pose proof (rep_mid _ _ _ _ _ _ _ _ R) as Ha.
  unfold set_seg, deref. rewrite Ha. cbn. eexists. split; [reflexivity|].
  destruct R as [D N DM F FI LA].
  assert (EA : addrs (xs1 ++ (a, s') :: xs2) = addrs (xs1 ++ (a, s) :: xs2)).
  { unfold addrs. rewrite !map_app. reflexivity. }
  assert (Hn : ~ In a (addrs xs1 ++ addrs xs2)).
  { unfold addrs in *. rewrite map_app in N. apply NoDup_remove_2 in N. exact N. }
  apply dll_app in D. destruct D as [D1 [_ D2]].
  constructor.
  - apply dll_app. split; [|split].
    + apply dll_frame; [|exact D1]. intro; apply Hn; apply in_or_app; auto.
    + apply hupd_same.
    + apply dll_frame; [|exact D2]. intro; apply Hn; apply in_or_app; auto.
  - rewrite EA; exact N.
  - intro b. rewrite EA, <- DM. unfold hupd. destruct (Nat.eqb b a) eqn:E; [|tauto].
    apply Nat.eqb_eq in E; subst b. rewrite Ha. split; discriminate.
  - rewrite EA; exact F.
  - rewrite FI, !haddr_app. reflexivity.
  - rewrite LA, !laddr_app. reflexivity.
Qed.

(** ** Moving a segment *)

Lemma addrs_app xs ys : addrs (xs ++ ys) = addrs xs ++ addrs ys.
Proof. apply map_app. Qed.
Lemma addrs_perm xs ys : Permutation xs ys -> Permutation (addrs xs) (addrs ys).
Proof. apply Permutation_map. Qed.

Lemma nodup_mid2 {A} (l1 : list A) x y l2 : NoDup (l1 ++ x :: y :: l2) ->
  NoDup l1 /\ NoDup l2 /\ ~ In x l1 /\ ~ In x l2 /\ ~ In y l1 /\ ~ In y l2 /\ x <> y
  /\ (forall b, In b l1 -> ~ In b l2).
Proof.
  intros H. pose proof (NoDup_remove_1 _ _ _ H) as H1. pose proof (NoDup_remove_2 _ _ _ H) as H2.
  pose proof (NoDup_remove_1 _ _ _ H1) as H3. pose proof (NoDup_remove_2 _ _ _ H1) as H4.
  assert (HD : forall b, In b l1 -> ~ In b l2).
  { clear -H3. induction l1 as [|c l1 IH]; cbn in *; [tauto|].
    inversion H3; subst. intros b [->|Hb] Hi; [apply H1; apply in_or_app; auto|exact (IH H2 b Hb Hi)]. }
  assert (N1 : NoDup l1). { clear -H3. induction l1; [constructor|]. inversion H3; subst. constructor; [|auto]. intro; apply H1; apply in_or_app; auto. }
  assert (N2 : NoDup l2). { clear -H3. induction l1; [exact H3|]. inversion H3; auto. }
  repeat split; auto.
  - intro; apply H2; apply in_or_app; auto.
  - intro; apply H2; apply in_or_app; right; right; auto.
  - intro; apply H4; apply in_or_app; auto.
  - intro; apply H4; apply in_or_app; auto.
  - intros ->. apply H2. apply in_or_app; right; left; reflexivity.
Qed.

Lemma opt_eqb_some a b : opt_eqb (Some a) b = Nat.eqb a b.
Proof. reflexivity. Qed.

Lemma first_after_swap xs1 a s b u xs2 :
  NoDup (addrs (xs1 ++ (a, s) :: (b, u) :: xs2)) ->
  (if opt_eqb (haddr (xs1 ++ (a, s) :: (b, u) :: xs2) None) a then Some b
   else haddr (xs1 ++ (a, s) :: (b, u) :: xs2) None)
  = haddr (xs1 ++ (b, u) :: (a, s) :: xs2) None.
Proof.
  intros N. destruct xs1 as [|[c w] xs1]; cbn.
  - rewrite Nat.eqb_refl. reflexivity.
  - cbn in N. inversion N; subst.
    destruct (Nat.eqb c a) eqn:E; [|reflexivity].
    apply Nat.eqb_eq in E; subst. exfalso. apply H1. fold (addrs (xs1 ++ (a, s) :: (b, u) :: xs2)).
    rewrite addrs_app. apply in_or_app. right; left; reflexivity.
Qed.

Lemma laddr_any xs p q : xs <> [] -> laddr p xs = laddr q xs.
Proof. destruct xs as [|[a s] xs]; [contradiction|reflexivity]. Qed.

Lemma last_after_swap xs1 a s b u xs2 :
  NoDup (addrs (xs1 ++ (a, s) :: (b, u) :: xs2)) ->
  (if opt_eqb (laddr None (xs1 ++ (a, s) :: (b, u) :: xs2)) b then Some a
   else laddr None (xs1 ++ (a, s) :: (b, u) :: xs2))
  = laddr None (xs1 ++ (b, u) :: (a, s) :: xs2).
Proof.
  intros N. rewrite !laddr_app. cbn. rewrite addrs_app in N. cbn in N. apply nodup_mid2 in N.
  destruct xs2 as [|c xs2].
  - cbn. rewrite Nat.eqb_refl. reflexivity.
  - destruct (laddr_in (c :: xs2) (Some b)) as (z & Hz & Hi); [discriminate|].
    rewrite (laddr_any _ (Some b) (Some a)) in * by discriminate. rewrite Hz. cbn.
    destruct (Nat.eqb z b) eqn:E; [|reflexivity].
    apply Nat.eqb_eq in E; subst. exfalso. destruct N as (_ & _ & _ & _ & _ & N & _). exact (N Hi).
Qed.

Ltac set_step H :=
  match goal with
  | |- context [set_prev ?h (Some ?a) ?v] => unfold set_prev at 1, deref at 1; rewrite H; cbn [bind n_seg n_prev n_next]
  | |- context [set_next ?h (Some ?a) ?v] => unfold set_next at 1, deref at 1; rewrite H; cbn [bind n_seg n_prev n_next]
  end.

Lemma dom_perm (h : heap) xs ys : Permutation xs ys -> (forall b, h b <> None <-> In b (addrs xs)) ->
  forall b : nat, h b <> None <-> In b (addrs ys).
Proof.
  intros P H b. rewrite H. split; intro; eapply Permutation_in; try eassumption; apply addrs_perm; auto using Permutation_sym.
Qed.

Lemma swap_perm {A} (l1 : list A) x y l2 : Permutation (l1 ++ x :: y :: l2) (l1 ++ y :: x :: l2).
Proof. apply Permutation_app_head. apply perm_swap. Qed.

(** A heap that agrees with a swapped list. *)
Lemma rep_swapped h h2 hf fr xs1 a s b u xs2 :
  rep h fr (haddr (xs1 ++ (a, s) :: (b, u) :: xs2) None) (laddr None (xs1 ++ (a, s) :: (b, u) :: xs2))
      (xs1 ++ (a, s) :: (b, u) :: xs2) ->
  (forall c, h2 c = None <-> h c = None) ->
  dll h2 None xs1 (Some b) -> dll h2 (Some a) xs2 None ->
  hf a = Some (mk_node s (Some b) (haddr xs2 None)) -> hf b = Some (mk_node u (laddr None xs1) (Some a)) ->
  (forall c, c <> a -> c <> b -> hf c = h2 c) ->
  rep hf fr (haddr (xs1 ++ (b, u) :: (a, s) :: xs2) None) (laddr None (xs1 ++ (b, u) :: (a, s) :: xs2))
      (xs1 ++ (b, u) :: (a, s) :: xs2).
Proof.
  intros R E0 D1 D2 Ha Hb Ho. destruct R as [D N DM F FI LA].
  pose proof (swap_perm xs1 (a, s) (b, u) xs2) as P.
  pose proof N as N'. rewrite addrs_app in N'. cbn in N'. apply nodup_mid2 in N'.
  destruct N' as (N1 & N2 & A1 & A2 & B1 & B2 & AB & _).
  constructor; try reflexivity.
  - apply dll_app. cbn [haddr dll]. split; [|split; [|split]].
    + eapply dll_ext; [|exact D1]. intros c Hc. apply Ho; intros ->; contradiction.
    + exact Hb.
    + exact Ha.
    + eapply dll_ext; [|exact D2]. intros c Hc. apply Ho; intros ->; contradiction.
  - eapply Permutation_NoDup; [apply addrs_perm; exact P|exact N].
  - intro c. rewrite <- (dom_perm h _ _ P DM c).
    destruct (Nat.eq_dec c a) as [->|Ca].
    + rewrite Ha. split; [intros _|discriminate]. apply DM. rewrite addrs_app. apply in_or_app; right; left; reflexivity.
    + destruct (Nat.eq_dec c b) as [->|Cb].
      * rewrite Hb. split; [intros _|discriminate]. apply DM. rewrite addrs_app. apply in_or_app; right; right; left; reflexivity.
      * rewrite Ho by assumption. rewrite E0. tauto.
  - intros c Hc. apply F. eapply Permutation_in; [|exact Hc]. apply addrs_perm. apply Permutation_sym; exact P.
Qed.

Lemma sorts_after_le a b : sorts_after a b = false <-> seg_le a b.
Proof. unfold sorts_after, seg_le. rewrite Bool.orb_false_iff, Bool.andb_false_iff. lia. Qed.

(** The loop that moves a segment down. *)
Lemma move_down_ok : forall xs2 fuel h fr fi la xs1 a s,
  rep h fr fi la (xs1 ++ (a, s) :: xs2) -> (length xs2 < fuel)%nat ->
  exists h' fi' la' ys zs,
    move_down fuel h fi la a = Ok (h', fi', la') /\ xs2 = ys ++ zs
    /\ Forall (fun x => sorts_after s (snd x) = true) ys
    /\ (match zs with [] => True | x :: _ => sorts_after s (snd x) = false end)
    /\ rep h' fr fi' la' (xs1 ++ ys ++ (a, s) :: zs).
Proof.
  induction xs2 as [|[b u] xs2 IH]; intros fuel h fr fi la xs1 a s R Hf; (destruct fuel as [|fuel]; [cbn in Hf; lia|]).
  - pose proof (rep_mid _ _ _ _ _ _ _ _ R) as Ha. cbn [move_down]. unfold deref at 1. rewrite Ha. cbn.
    exists h, fi, la, [], []. cbn. auto.
  - pose proof (rep_mid _ _ _ _ _ _ _ _ R) as Ha.
    assert (Hb : h b = Some (mk_node u (Some a) (haddr xs2 None))).
    { replace (xs1 ++ (a, s) :: (b, u) :: xs2) with ((xs1 ++ [(a, s)]) ++ (b, u) :: xs2) in R by (rewrite <- app_assoc; reflexivity).
      pose proof (rep_mid _ _ _ _ _ _ _ _ R) as Hb. rewrite laddr_app in Hb. exact Hb. }
    cbn [move_down]. unfold deref at 1. rewrite Ha. cbn [bind n_next haddr].
    unfold deref at 1. rewrite Hb. cbn [bind n_seg n_prev n_next].
    destruct (sorts_after s u) eqn:E.
    2:{ exists h, fi, la, [], ((b, u) :: xs2). cbn. auto. }
    pose proof R as R0. destruct R as [D N DM F FI LA]. subst fi la.
    pose proof N as N'. rewrite addrs_app in N'. cbn in N'. apply nodup_mid2 in N'.
    destruct N' as (N1 & N2 & A1 & A2 & B1 & B2 & AB & DJ).
    apply dll_app in D. destruct D as [D1 [_ [_ D2]]]. cbn in D1.
    destruct (link_next h xs1 (Some b) _ N1 D1) as (h1 & E1 & D1' & O1 & Z1). rewrite E1. cbn [bind]. clear E1.
    assert (D2a : dll h1 (Some b) xs2 None).
    { eapply dll_ext; [|exact D2]. intros c Hc. apply O1. intro Hi. exact (DJ c Hi Hc). }
    destruct (link_prev h1 xs2 (Some a) _ N2 D2a) as (h2 & E2 & D2' & O2 & Z2). rewrite E2. cbn [bind]. clear E2.
    assert (Ha2 : h2 a = Some (mk_node s (laddr None xs1) (Some b))). { rewrite O2, O1 by assumption. rewrite Ha. reflexivity. }
    assert (Hb2 : h2 b = Some (mk_node u (Some a) (haddr xs2 None))). { rewrite O2, O1 by assumption. exact Hb. }
    set_step Hb2.
    set (h3 := hupd h2 b (Some (mk_node u (laddr None xs1) (haddr xs2 None)))).
    assert (Ha3 : h3 a = Some (mk_node s (laddr None xs1) (Some b))). { unfold h3. rewrite hupd_other by assumption. exact Ha2. }
    set_step Ha3.
    set (h4 := hupd h3 a (Some (mk_node s (Some b) (Some b)))).
    assert (Ha4 : h4 a = Some (mk_node s (Some b) (Some b))) by apply hupd_same.
    set_step Ha4.
    set (h5 := hupd h4 a (Some (mk_node s (Some b) (haddr xs2 None)))).
    assert (Hb5 : h5 b = Some (mk_node u (laddr None xs1) (haddr xs2 None))).
    { unfold h5, h4, h3. rewrite !hupd_other by auto. apply hupd_same. }
    set_step Hb5.
    set (h6 := hupd h5 b (Some (mk_node u (laddr None xs1) (Some a)))).
    assert (R6 : rep h6 fr (haddr (xs1 ++ (b, u) :: (a, s) :: xs2) None) (laddr None (xs1 ++ (b, u) :: (a, s) :: xs2))
                     (xs1 ++ (b, u) :: (a, s) :: xs2)).
    { eapply (rep_swapped h h2 h6).
      - exact R0.
      - intro c. rewrite Z2, Z1. tauto.
      - eapply dll_ext; [|exact D1']. intros c Hc. apply O2. intro; eapply DJ; eassumption.
      - exact D2'.
      - unfold h6. rewrite hupd_other by assumption. apply hupd_same.
      - apply hupd_same.
      - intros c Ca Cb. unfold h6, h5, h4, h3. rewrite !hupd_other by assumption. reflexivity. }
    rewrite (first_after_swap xs1 a s b u xs2 N). rewrite (last_after_swap xs1 a s b u xs2 N).
    replace (xs1 ++ (b, u) :: (a, s) :: xs2) with ((xs1 ++ [(b, u)]) ++ (a, s) :: xs2) in * by (rewrite <- app_assoc; reflexivity).
    destruct (IH fuel _ _ _ _ _ _ _ R6) as (h' & fi' & la' & ys & zs & E' & -> & Hy & Hz & R'); [cbn in Hf; lia|].
    exists h', fi', la', ((b, u) :: ys), zs. split; [exact E'|]. split; [reflexivity|]. split; [constructor; assumption|].
    split; [exact Hz|]. replace (xs1 ++ ((b, u) :: ys) ++ (a, s) :: zs) with ((xs1 ++ [(b, u)]) ++ ys ++ (a, s) :: zs); [exact R'|].
    rewrite <- app_assoc. reflexivity.
Qed.

(** The loop that moves a segment up. *)
Lemma move_up_ok : forall xs1 fuel h fr fi la xs2 a s,
  rep h fr fi la (xs1 ++ (a, s) :: xs2) -> (length xs1 < fuel)%nat ->
  exists h' fi' la' ys zs,
    move_up fuel h fi la a = Ok (h', fi', la') /\ xs1 = ys ++ zs
    /\ Forall (fun x => sorts_after (snd x) s = true) zs
    /\ (match rev ys with [] => True | x :: _ => sorts_after (snd x) s = false end)
    /\ rep h' fr fi' la' (ys ++ (a, s) :: zs ++ xs2).
Proof.
  intros xs1. induction xs1 as [|[b u] xs1 IH] using rev_ind; intros fuel h fr fi la xs2 a s R Hf; (destruct fuel as [|fuel]; [lia|]).
  - pose proof (rep_mid _ _ _ _ _ _ _ _ R) as Ha. cbn [move_up]. unfold deref at 1. rewrite Ha. cbn.
    exists h, fi, la, [], []. cbn. auto.
  - rewrite app_length in Hf. cbn in Hf.
    pose proof (rep_mid _ _ _ _ _ _ _ _ R) as Ha. rewrite laddr_app in Ha. cbn [laddr] in Ha.
    rewrite <- app_assoc in R. cbn [app] in R.
    pose proof (rep_mid _ _ _ _ _ _ _ _ R) as Hb. cbn [haddr] in Hb.
    cbn [move_up]. unfold deref at 1. rewrite Ha. cbn [bind n_prev].
    unfold deref at 1. rewrite Hb. cbn [bind n_seg n_prev n_next].
    destruct (sorts_after u s) eqn:E.
    2:{ exists h, fi, la, (xs1 ++ [(b, u)]), []. split; [reflexivity|]. split; [rewrite app_nil_r; reflexivity|].
        split; [constructor|]. split; [rewrite rev_app_distr; exact E|]. rewrite <- app_assoc. exact R. }
    pose proof R as R0. destruct R as [D N DM F FI LA]. subst fi la.
    pose proof N as N'. rewrite addrs_app in N'. cbn in N'. apply nodup_mid2 in N'.
    destruct N' as (N1 & N2 & B1 & B2 & A1 & A2 & AB & DJ).
    apply dll_app in D. destruct D as [D1 [_ [_ D2]]]. cbn in D1.
    destruct (link_prev h xs2 (Some b) _ N2 D2) as (h1 & E1 & D2' & O1 & Z1). rewrite E1. cbn [bind]. clear E1.
    assert (D1a : dll h1 None xs1 (Some b)).
    { eapply dll_ext; [|exact D1]. intros c Hc. apply O1. intro Hi. exact (DJ c Hc Hi). }
    destruct (link_next h1 xs1 (Some a) _ N1 D1a) as (h2 & E2 & D1' & O2 & Z2). rewrite E2. cbn [bind]. clear E2.
    assert (Ha2 : h2 a = Some (mk_node s (Some b) (haddr xs2 None))). { rewrite O2, O1 by assumption. exact Ha. }
    assert (Hb2 : h2 b = Some (mk_node u (laddr None xs1) (Some a))). { rewrite O2, O1 by assumption. exact Hb. }
    assert (BA : a <> b) by congruence.
    set_step Hb2.
    set (h3 := hupd h2 b (Some (mk_node u (laddr None xs1) (haddr xs2 None)))).
    assert (Ha3 : h3 a = Some (mk_node s (Some b) (haddr xs2 None))). { unfold h3. rewrite hupd_other by assumption. exact Ha2. }
    set_step Ha3.
    set (h4 := hupd h3 a (Some (mk_node s (Some b) (Some b)))).
    assert (Ha4 : h4 a = Some (mk_node s (Some b) (Some b))) by apply hupd_same.
    set_step Ha4.
    set (h5 := hupd h4 a (Some (mk_node s (laddr None xs1) (Some b)))).
    assert (Hb5 : h5 b = Some (mk_node u (laddr None xs1) (haddr xs2 None))).
    { unfold h5, h4, h3. rewrite !hupd_other by auto. apply hupd_same. }
    set_step Hb5.
    set (h6 := hupd h5 b (Some (mk_node u (Some a) (haddr xs2 None)))).
    assert (R6 : rep h6 fr (haddr (xs1 ++ (a, s) :: (b, u) :: xs2) None) (laddr None (xs1 ++ (a, s) :: (b, u) :: xs2))
                     (xs1 ++ (a, s) :: (b, u) :: xs2)).
    { eapply (rep_swapped h h2 h6).
      - exact R0.
      - intro c. rewrite Z2, Z1. tauto.
      - exact D1'.
      - eapply dll_ext; [|exact D2']. intros c Hc. apply O2. intro; eapply DJ; eassumption.
      - apply hupd_same.
      - unfold h6. rewrite hupd_other by assumption. apply hupd_same.
      - intros c Ca Cb. unfold h6, h5, h4, h3. rewrite !hupd_other by assumption. reflexivity. }
    rewrite (first_after_swap xs1 b u a s xs2 N). rewrite (last_after_swap xs1 b u a s xs2 N).
    destruct (IH fuel _ _ _ _ _ _ _ R6) as (h' & fi' & la' & ys & zs & E' & -> & Hz & Hy & R'); [lia|].
    exists h', fi', la', ys, (zs ++ [(b, u)]). split; [exact E'|]. split; [rewrite <- app_assoc; reflexivity|].
    split; [apply Forall_app; split; [exact Hz|constructor; auto]|].
    split; [exact Hy|]. rewrite <- app_assoc. exact R'.
Qed.
