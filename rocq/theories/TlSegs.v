(** * Adding a record to the segments of an identifier. *)

From Coq Require Import Permutation.
From Verif Require Import Base BaseLemmas RecProof TlModel TlSpec TlHeap.
Open Scope Z_scope.

(** Undefined behaviour only if [A] fails, an error only if [g_err A] fails, never out of
    fuel, [P] of the result. *)
Record guard := mk_guard { g_ub : Prop; g_err : Prop }.
Coercion g_ub : guard >-> Sortclass.
Definition safe {X} (A : guard) (m : res X) (P : X -> Prop) : Prop :=
  match m with Ok v => P v | Err _ => ~ g_err A | UB _ => ~ A | Fuel => False end.

Lemma safe_bind {X Y} A (m : res X) (k : X -> res Y) P Q :
  safe A m P -> (forall v, P v -> safe A (k v) Q) -> safe A (bind m k) Q.
Proof. destruct m; cbn; auto. Qed.
Lemma safe_ok {X} (A : guard) (v : X) (P : X -> Prop) : P v -> safe A (Ok v) P.
Proof. auto. Qed.
Lemma safe_weaken {X} (A : guard) (m : res X) (P Q : X -> Prop) :
  (forall v, P v -> Q v) -> safe A m P -> safe A m Q.
Proof. destruct m; cbn; auto. Qed.
Lemma safe_eq {X} (A : guard) (m : res X) (P : X -> Prop) : safe A m P -> safe A m (fun v => m = Ok v /\ P v).
Proof. destruct m; cbn; auto. Qed.

(** ** Arithmetic *)

Definition big : Z := 4000000000000000000.
Definition small (v : Z) : Prop := - big <= v <= big.
Definition short (v : Z) : Prop := - 1000000000000000000 <= v <= 1000000000000000000.

Definition total (l : list seg) : Z := fold_right Z.add 0 (map s_cnt l).

(** No overflow can occur. *)
Definition noov (f : conf) (r : trec) (c : calc) (l : list seg) : Prop :=
  f_mode f = Wrap
  \/ (small (r_start r) /\ small (c_end c) /\ short (c_period c) /\ short (c_tol c) /\ 0 <= r_cnt r
      /\ Forall (fun s => small (s_start s) /\ small (s_end s) /\ 0 <= s_cnt s) l
      /\ total l + r_cnt r < 2 ^ 63).

Lemma sarith_safe (A : guard) m v : (A -> m = Wrap \/ - 2 ^ 63 <= v < 2 ^ 63) ->
  safe A (sarith m 64 v) (fun x => m = Strict -> x = v).
Proof.
  intro H. unfold sarith. destruct (in_sb 64 v) eqn:E; cbn; [auto|]. destruct m; cbn; [|discriminate].
  intro a. destruct (H a) as [|Hv]; [discriminate|].
  assert (in_sb 64 v = true); [|congruence]. apply in_sb_spec. unfold in_s. lia.
Qed.

Lemma gap_safe (A : guard) m x y p :
  (A -> m = Wrap \/ (small x /\ small y /\ short p)) ->
  safe A (gap m x y p) (fun g => m = Strict -> g = x - y - p).
Proof.
  intro H. unfold gap. eapply safe_bind.
  - apply sarith_safe. intro a. destruct (H a) as [|Hs]; [auto|right]. unfold small, short, big in Hs. lia.
  - intros v Hv. destruct m.
    + rewrite (Hv eq_refl). apply sarith_safe. intro a. destruct (H a) as [|Hs]; [discriminate|right].
      unfold small, short, big in Hs. lia.
    + eapply safe_weaken; [|apply sarith_safe; auto]. discriminate.
Qed.

(** ** Which segments a record fits *)

Definition at_end (f : conf) (r : trec) (c : calc) (s : seg) : res bool :=
  let! g := gap (f_mode f) (r_start r) (s_end s) (c_period c) in Ok (fits c g (s_hz s)).
Definition at_beg (f : conf) (r : trec) (c : calc) (s : seg) : res bool :=
  let! g := gap (f_mode f) (s_start s) (c_end c) (c_period c) in Ok (fits c g (s_hz s)).
Definition exact (r : trec) (c : calc) (s : seg) : Prop := r_start r = s_start s /\ c_end c = s_end s.

Definition ext (f : conf) (r : trec) (c : calc) (whence : Z) (s : seg) : res seg :=
  let! s := addmsrtoseg (f_mode f) s r (c_end c) whence in
  add_recordptr (f_keep f) s r (c_end c) whence.

(** What an addition does to the segments: [change old others s]: the segments [old]
    become [others] and [s]. *)
Inductive change (f : conf) (r : trec) (c : calc) (early late : Z) : list seg -> list seg -> seg -> Prop :=
| Ch_end l1 s l2 s' :
    at_end f r c s = Ok true -> ext f r c 1 s = Ok s' ->
    l2 = [] \/ (f_heal f = true -> at_beg f r c s = Ok true
                                   \/ Forall (fun u => at_beg f r c u = Ok false) (l1 ++ s :: l2)
                                   \/ Exists (exact r c) (l1 ++ s :: l2)) ->
    change f r c early late (l1 ++ s :: l2) (l1 ++ l2) s'
| Ch_beg l1 s l2 s' :
    at_beg f r c s = Ok true -> ext f r c 2 s = Ok s' ->
    l1 = [] \/ (f_heal f = true -> Forall (fun u => at_end f r c u = Ok false) (l1 ++ s :: l2)
                                   \/ Exists (exact r c) (l1 ++ s :: l2)) ->
    change f r c early late (l1 ++ s :: l2) (l1 ++ l2) s'
| Ch_new l1 l2 s' whence :
    new_seg f r (c_end c) whence = Ok s' ->
    (exists x y, sarith (f_mode f) 64 (r_start r - c_period c) = Ok x
                 /\ sarith (f_mode f) 64 (x - c_tol c) = Ok y /\ late < y)
    \/ (exists x y, sarith (f_mode f) 64 (c_end c + c_period c) = Ok x
                 /\ sarith (f_mode f) 64 (x + c_tol c) = Ok y /\ y < early)
    \/ Forall (fun u => at_end f r c u = Ok false /\ at_beg f r c u = Ok false) (l1 ++ l2)
    \/ f_heal f = true /\ Exists (exact r c) (l1 ++ l2) ->
    change f r c early late (l1 ++ l2) (l1 ++ l2) s'
| Ch_join l1 x l2 y l3 b a b' s' :
    f_heal f = true -> (b = x /\ a = y) \/ (b = y /\ a = x) ->
    at_end f r c b = Ok true -> at_beg f r c a = Ok true ->
    ext f r c 1 b = Ok b' -> addsegtoseg (f_mode f) b' a = Ok s' ->
    change f r c early late (l1 ++ x :: l2 ++ y :: l3) (l1 ++ l2 ++ l3) s'.

(** ** The search *)

Section Search.
Context (f : conf) (r : trec) (c : calc) (h : heap) (A : guard).

Definition found_ok (good : seg -> Prop) (xs : list cell) (p : option nat) : Prop :=
  match p with None => True | Some a => exists s, In (a, s) xs /\ good s end.

Definition arith1 (s : seg) : Prop :=
  f_mode f = Wrap \/ (small (r_start r) /\ small (c_end c) /\ short (c_period c) /\ small (s_start s) /\ small (s_end s)).

Lemma search_ok : forall xs1 xs2 p fuel before after follow,
  dll h p xs2 None -> (length xs2 < fuel)%nat -> (A -> Forall (fun x => arith1 (snd x)) xs2) ->
  found_ok (fun s => at_end f r c s = Ok true) (xs1 ++ xs2) before ->
  found_ok (fun s => at_beg f r c s = Ok true) (xs1 ++ xs2) after ->
  found_ok (fun _ => True) (xs1 ++ xs2) follow ->
  (before = None -> Forall (fun x => at_end f r c (snd x) = Ok false) xs1) ->
  (after = None -> Forall (fun x => at_beg f r c (snd x) = Ok false) xs1) ->
  (f_heal f = false -> before = None /\ after = None) ->
  (before = None \/ after = None) ->
  safe A (search fuel f r c h (haddr xs2 None) before after follow)
    (fun '(b, a, fo) =>
       found_ok (fun s => at_end f r c s = Ok true) (xs1 ++ xs2) b
       /\ found_ok (fun s => at_beg f r c s = Ok true) (xs1 ++ xs2) a
       /\ found_ok (fun _ => True) (xs1 ++ xs2) fo
       /\ (b = None -> a = None \/ f_heal f = true ->
           Forall (fun x => at_end f r c (snd x) = Ok false) (xs1 ++ xs2)
           \/ (f_heal f = true /\ Exists (fun x => exact r c (snd x)) (xs1 ++ xs2)))
       /\ (a = None -> b = None \/ f_heal f = true ->
           Forall (fun x => at_beg f r c (snd x) = Ok false) (xs1 ++ xs2)
           \/ (f_heal f = true /\ Exists (fun x => exact r c (snd x)) (xs1 ++ xs2)))).
Proof.
  intros xs1 xs2. revert xs1. induction xs2 as [|[a s] xs2 IH];
    intros xs1 p fuel before after follow Hd Hf HA Hb Ha Hfo Nb Na Hh Hone; (destruct fuel as [|fuel]; [cbn in Hf; lia|]).
  - cbn [haddr search]. rewrite app_nil_r in *. cbn. repeat split; auto.
  - cbn [haddr search]. destruct Hd as [Hd1 Hd2]. cbn in Hf.
    unfold deref at 1. rewrite Hd1. cbn [bind n_seg n_next].
    destruct (f_heal f && (r_start r =? s_start s) && (c_end c =? s_end s)) eqn:Ex.
    + apply andb_prop in Ex. destruct Ex as [Ex E2]. apply andb_prop in Ex. destruct Ex as [E0 E1].
      apply Z.eqb_eq in E1, E2. cbn.
      assert (EX : f_heal f = true /\ Exists (fun x => exact r c (snd x)) (xs1 ++ (a, s) :: xs2)).
      { split; [assumption|]. apply Exists_app. right. constructor. split; assumption. }
      split; [exact Hb|]. split; [exact Ha|]. split; [exists s; split; [apply in_or_app; right; left; reflexivity|exact I]|].
      split; intros; right; exact EX.
    + set (follow' := if s_start s <? r_start r then Some a else follow).
      assert (Hfo' : found_ok (fun _ => True) (xs1 ++ (a, s) :: xs2) follow').
      { unfold follow'. destruct (s_start s <? r_start r); [|exact Hfo]. exists s. split; [apply in_or_app; right; left; reflexivity|exact I]. }
      clearbody follow'. clear Hfo.
      assert (HA1 : A -> arith1 s). { intro HA1. specialize (HA HA1). inversion HA; assumption. }
      assert (HA2 : A -> Forall (fun x => arith1 (snd x)) xs2). { intro HA2. specialize (HA HA2). inversion HA; assumption. }
      eapply safe_bind with (P := fun b => found_ok (fun s => at_end f r c s = Ok true) (xs1 ++ (a, s) :: xs2) b
                                   /\ (b = None -> before = None /\ at_end f r c s = Ok false)
                                   /\ (before <> None -> b = before)).
      { destruct before as [b0|]; [cbn; split; [exact Hb|split; [discriminate|auto]]|].
        eapply safe_bind.
        - apply safe_eq. apply gap_safe with (A := A). intro a0. destruct (HA1 a0) as [|(?&?&?&?&?)]; auto.
        - intros g [Hg _]. cbn. destruct (fits c g (s_hz s)) eqn:Fg; cbn.
          + split; [|split; [discriminate|congruence]]. exists s. split; [apply in_or_app; right; left; reflexivity|].
            unfold at_end. rewrite Hg. cbn. rewrite Fg. reflexivity.
          + split; [exact I|]. split; [|congruence]. intros _. split; [reflexivity|]. unfold at_end. rewrite Hg. cbn. rewrite Fg. reflexivity. }
      intros b' (Hb' & Nb' & Kb').
      eapply safe_bind with (P := fun a' => found_ok (fun s => at_beg f r c s = Ok true) (xs1 ++ (a, s) :: xs2) a'
                                   /\ (a' = None -> after = None /\ at_beg f r c s = Ok false)
                                   /\ (after <> None -> a' = after)).
      { destruct after as [b0|]; [cbn; split; [exact Ha|split; [discriminate|auto]]|].
        eapply safe_bind.
        - apply safe_eq. apply gap_safe with (A := A). intro a0. destruct (HA1 a0) as [|(?&?&?&?&?)]; auto.
        - intros g [Hg _]. cbn. destruct (fits c g (s_hz s)) eqn:Fg; cbn.
          + split; [|split; [discriminate|congruence]]. exists s. split; [apply in_or_app; right; left; reflexivity|].
            unfold at_beg. rewrite Hg. cbn. rewrite Fg. reflexivity.
          + split; [exact I|]. split; [|congruence]. intros _. split; [reflexivity|]. unfold at_beg. rewrite Hg. cbn. rewrite Fg. reflexivity. }
      intros a' (Ha' & Na' & Ka').
      assert (EQ : xs1 ++ (a, s) :: xs2 = (xs1 ++ [(a, s)]) ++ xs2) by (rewrite <- app_assoc; reflexivity).
      rewrite EQ in *. clear EQ.
      assert (FB : b' = None -> Forall (fun x => at_end f r c (snd x) = Ok false) (xs1 ++ [(a, s)])).
      { intro E. destruct (Nb' E) as [E1 E2]. apply Forall_app. split; [apply Nb; exact E1|constructor; auto]. }
      assert (FA : a' = None -> Forall (fun x => at_beg f r c (snd x) = Ok false) (xs1 ++ [(a, s)])).
      { intro E. destruct (Na' E) as [E1 E2]. apply Forall_app. split; [apply Na; exact E1|constructor; auto]. }
      destruct b' as [b'|], a' as [a'|].
      * cbn. split; [exact Hb'|]. split; [exact Ha'|]. split; [exact Hfo'|]. split; discriminate.
      * destruct (Bool.bool_dec (f_heal f) true) as [Eh|Eh]; [|apply Bool.not_true_is_false in Eh]; rewrite Eh at 1.
        -- eapply IH; eauto; try lia; try congruence.
        -- cbn. split; [exact Hb'|]. split; [exact I|]. split; [exact Hfo'|]. split; [discriminate|].
           intros _ [|]; congruence.
      * destruct (Bool.bool_dec (f_heal f) true) as [Eh|Eh]; [|apply Bool.not_true_is_false in Eh]; rewrite Eh at 1.
        -- eapply IH; eauto; try lia; try congruence.
        -- cbn. split; [exact I|]. split; [exact Ha'|]. split; [exact Hfo'|]. split; [|discriminate].
           intros _ [|]; congruence.
      * eapply IH; eauto; lia.
Qed.

End Search.

(** ** Heap operations of an addition *)

Lemma noov_arith1 f r c l s : noov f r c l -> In s l -> arith1 f r c s.
Proof.
  intros [H|(H1&H2&H3&H4&H5&H6&H7)] Hs; [left; exact H|right].
  rewrite Forall_forall in H6. destruct (H6 s Hs) as (?&?&?). auto.
Qed.

Lemma total_app l1 l2 : total (l1 ++ l2) = total l1 + total l2.
Proof. unfold total. induction l1; cbn in *; lia. Qed.
Lemma total_cons s l : total (s :: l) = s_cnt s + total l.
Proof. reflexivity. Qed.
Lemma total_nonneg l : Forall (fun s => 0 <= s_cnt s) l -> 0 <= total l.
Proof. induction 1; cbn; [lia|]. fold (total l). unfold total in *. cbn. lia. Qed.

Lemma noov_cnt f r c l s : noov f r c l -> In s l ->
  f_mode f = Wrap \/ - 2 ^ 63 <= s_cnt s + r_cnt r < 2 ^ 63.
Proof.
  intros [H|(H1&H2&H3&H4&H5&H6&H7)] Hs; [left; exact H|right].
  destruct (in_split _ _ Hs) as (l1 & l2 & ->). apply Forall_app in H6. destruct H6 as [F1 F2]. inversion F2 as [|? ? F3 F4]; subst.
  rewrite total_app, total_cons in H7.
  assert (0 <= total l1). { apply total_nonneg. eapply Forall_impl; [|exact F1]. cbn; tauto. }
  assert (0 <= total l2). { apply total_nonneg. eapply Forall_impl; [|exact F4]. cbn; tauto. }
  lia.
Qed.

Lemma add_recordptr_safe A keep s r e w : (s_recs s = [] \/ w = 1 \/ w = 2) -> safe A (add_recordptr keep s r e w)
  (fun s' => s_start s' = s_start s /\ s_end s' = s_end s /\ s_hz s' = s_hz s /\ s_cnt s' = s_cnt s
             /\ s_type s' = s_type s /\ s_data s' = s_data s).
Proof.
  intro H. unfold add_recordptr. destruct keep; cbn; [|auto 7]. destruct (s_recs s); cbn; [auto 7|].
  destruct H as [H|[-> | ->]]; [discriminate| |]; cbn; auto 7.
Qed.

(** A record, and a segment, whose data can be added to a segment. *)
Definition accepts (r : trec) (s : seg) : Prop := r_data r = [] \/ (r_type r = s_type s /\ known_type (r_type r) = true).
Definition joins (s1 s2 : seg) : Prop := s_data s2 = [] \/ (s_type s2 = s_type s1 /\ known_type (s_type s1) = true).
(** Either all are of one known type or there are no data. *)
Definition typed (r : trec) (l : list seg) : Prop :=
  (known_type (r_type r) = true /\ Forall (fun s => s_type s = r_type r) l) \/ (r_data r = [] /\ Forall (fun s => s_data s = []) l).
Lemma typed_accepts r l s : typed r l -> In s l -> accepts r s.
Proof.
  intros [[H1 H2]|[H1 H2]] Hs; [right|left; exact H1]. rewrite Forall_forall in H2. rewrite (H2 s Hs). auto.
Qed.
Lemma typed_joins r l s1 s2 s1' : typed r l -> In s1 l -> In s2 l -> s_type s1' = s_type s1 -> joins s1' s2.
Proof.
  intros [[H1 H2]|[H1 H2]] Hs1 Hs2 E; rewrite Forall_forall in H2; [right|left; auto]. rewrite E, !H2 by assumption. auto.
Qed.
Lemma typed_new r l : typed r l -> r_data r = [] \/ known_type (r_type r) = true.
Proof. intros [[H1 H2]|[H1 H2]]; auto. Qed.

Lemma addmsrtoseg_safe (A : guard) m s r e w :
  (A -> m = Wrap \/ - 2 ^ 63 <= s_cnt s + r_cnt r < 2 ^ 63) -> (w = 1 \/ w = 2) -> (g_err A -> accepts r s) ->
  safe A (addmsrtoseg m s r e w) (fun s' => (m = Strict -> s_cnt s' = s_cnt s + r_cnt r) /\ s_type s' = s_type s).
Proof.
  intros H Hw HE. unfold addmsrtoseg. destruct (match r_data r with [] => false | _ => _ end) eqn:T.
  { cbn. intro g. destruct (HE g) as [E|[E1 E2]]; [rewrite E in T; discriminate|].
    destruct (r_data r); [discriminate|]. rewrite E2, E1, Z.eqb_refl in T. discriminate. }
  destruct Hw as [-> | ->]; cbn [Z.eqb Pos.eqb].
  all: eapply safe_bind; [apply sarith_safe; exact H|]; intros v Hv; cbn; auto.
Qed.

Lemma ext_safe (A : guard) f r c w s :
  (A -> f_mode f = Wrap \/ - 2 ^ 63 <= s_cnt s + r_cnt r < 2 ^ 63) -> (w = 1 \/ w = 2) -> (g_err A -> accepts r s) ->
  safe A (ext f r c w s) (fun s' => (f_mode f = Strict -> s_cnt s' = s_cnt s + r_cnt r) /\ s_type s' = s_type s).
Proof.
  intros H Hw HE. unfold ext. eapply safe_bind; [apply addmsrtoseg_safe; eassumption|].
  intros s1 [H1 H2]. eapply safe_weaken; [|apply add_recordptr_safe; auto]. cbn. intros s2 (_&_&_&E&E2&_). rewrite E, E2. auto.
Qed.

Lemma extend_ok (A : guard) f r c w h fr fi la xs1 a s xs2 :
  rep h fr fi la (xs1 ++ (a, s) :: xs2) ->
  (A -> f_mode f = Wrap \/ - 2 ^ 63 <= s_cnt s + r_cnt r < 2 ^ 63) -> (w = 1 \/ w = 2) -> (g_err A -> accepts r s) ->
  safe A (extend f h (Some a) r (c_end c) w)
    (fun h' => exists s', ext f r c w s = Ok s' /\ ((f_mode f = Strict -> s_cnt s' = s_cnt s + r_cnt r) /\ s_type s' = s_type s)
                          /\ rep h' fr fi la (xs1 ++ (a, s') :: xs2)).
Proof.
  intros R HA Hw HG. pose proof (rep_mid _ _ _ _ _ _ _ _ R) as Ha. unfold extend. unfold deref at 1. rewrite Ha. cbn [bind n_seg].
  pose proof (ext_safe A f r c w s HA Hw HG) as HE. unfold ext in HE |- *.
  destruct (addmsrtoseg (f_mode f) s r (c_end c) w) as [s1|e|u|] eqn:E1; cbn in HE |- *; auto.
  destruct (set_seg_rep _ _ _ _ _ _ _ _ s1 R) as (h1 & Es & R1). rewrite Es. cbn.
  destruct (add_recordptr (f_keep f) s1 r (c_end c) w) as [s2|e|u|] eqn:E2; cbn in HE |- *; auto.
  destruct (set_seg_rep _ _ _ _ _ _ _ _ s2 R1) as (h2 & Es2 & R2). rewrite Es2. cbn. eauto.
Qed.

Lemma rep_fresh_notin h fr fi la xs : rep h fr fi la xs -> ~ In fr (addrs xs).
Proof. intros R Hi. pose proof (rep_fresh _ _ _ _ _ R _ Hi). lia. Qed.

(** A heap with a new node in the middle. *)
Lemma rep_inserted h h2 hf fr fi la xs1 s xs2 :
  rep h fr fi la (xs1 ++ xs2) ->
  (forall b, h2 b = None <-> h b = None) ->
  dll h2 None xs1 (Some fr) -> dll h2 (Some fr) xs2 None ->
  hf fr = Some (mk_node s (laddr None xs1) (haddr xs2 None)) ->
  (forall b, b <> fr -> hf b = h2 b) ->
  rep hf (S fr) (haddr (xs1 ++ (fr, s) :: xs2) None) (laddr None (xs1 ++ (fr, s) :: xs2)) (xs1 ++ (fr, s) :: xs2).
Proof.
  intros R E0 D1 D2 Hf Ho. pose proof (rep_fresh_notin _ _ _ _ _ R) as Hn. destruct R as [D N DM F FI LA].
  rewrite addrs_app in Hn.
  constructor; try reflexivity.
  - apply dll_app. cbn [haddr dll]. split; [|split].
    + eapply dll_ext; [|exact D1]. intros b Hb. apply Ho. intros ->. apply Hn. apply in_or_app; auto.
    + exact Hf.
    + eapply dll_ext; [|exact D2]. intros b Hb. apply Ho. intros ->. apply Hn. apply in_or_app; auto.
  - rewrite addrs_app. cbn. apply NoDup_Add with (a := fr) (l := addrs xs1 ++ addrs xs2).
    + apply Add_app.
    + split; [rewrite <- addrs_app; exact N|exact Hn].
  - intro b. rewrite addrs_app. cbn [addrs map fst]. fold (addrs xs2).
    destruct (Nat.eq_dec b fr) as [->|Hb].
    + rewrite Hf. split; [intros _; apply in_or_app; right; left; reflexivity|discriminate].
    + rewrite Ho by assumption. rewrite E0. rewrite DM, addrs_app. rewrite !in_app_iff. cbn. intuition congruence.
  - intros b. rewrite addrs_app, in_app_iff. cbn. fold (addrs xs2). intros [Hb|[<-|Hb]].
    + assert (b < fr)%nat; [|lia]. apply F. rewrite addrs_app. apply in_or_app; auto.
    + lia.
    + assert (b < fr)%nat; [|lia]. apply F. rewrite addrs_app. apply in_or_app; auto.
Qed.

(** Removal of a node that is not the first. *)
Lemma unlink_ok h fr fi la xs1 a s xs2 :
  rep h fr fi la (xs1 ++ (a, s) :: xs2) -> xs1 <> [] ->
  exists last h1 h2,
    (if opt_eqb la a then let! l := deref h la in Ok (n_prev l) else Ok la) = Ok last
    /\ (match laddr None xs1 with Some p => set_next h (Some p) (haddr xs2 None) | None => Ok h end) = Ok h1
    /\ (match haddr xs2 None with Some q => set_prev h1 (Some q) (laddr None xs1) | None => Ok h1 end) = Ok h2
    /\ rep (hupd h2 a None) fr fi last (xs1 ++ xs2).
Proof.
  intros R Hx. pose proof (rep_mid _ _ _ _ _ _ _ _ R) as Ha. destruct R as [D N DM F FI LA].
  assert (NS : NoDup (addrs xs1 ++ addrs xs2) /\ ~ In a (addrs xs1 ++ addrs xs2)).
  { rewrite addrs_app in N. cbn in N. split; [exact (NoDup_remove_1 _ _ _ N)|exact (NoDup_remove_2 _ _ _ N)]. }
  destruct NS as [NS Hn]. rewrite in_app_iff in Hn.
  assert (N1 : NoDup (addrs xs1)). { clear -NS. induction (addrs xs1); [constructor|]. inversion NS; subst. constructor; [|auto]. intro; apply H1; apply in_or_app; auto. }
  assert (N2 : NoDup (addrs xs2)). { clear -NS. induction (addrs xs1); [exact NS|]. inversion NS; auto. }
  assert (DJ : forall b, In b (addrs xs1) -> ~ In b (addrs xs2)).
  { clear -NS. induction (addrs xs1) as [|x l IH]; cbn in *; [tauto|]. inversion NS; subst.
    intros b [->|Hb] Hi; [apply H1; apply in_or_app; auto|exact (IH H2 b Hb Hi)]. }
  apply dll_app in D. destruct D as [D1 [_ D2]]. cbn in D1.
  destruct (link_next h xs1 (haddr xs2 None) _ N1 D1) as (h1 & E1 & D1' & O1 & Z1).
  assert (D2a : dll h1 (Some a) xs2 None).
  { eapply dll_ext; [|exact D2]. intros c Hc. apply O1. intro Hi. exact (DJ c Hi Hc). }
  destruct (link_prev h1 xs2 (laddr None xs1) _ N2 D2a) as (h2 & E2 & D2' & O2 & Z2).
  exists (laddr None (xs1 ++ xs2)), h1, h2. split; [|split; [exact E1|split; [exact E2|]]].
  - subst la. rewrite laddr_app. cbn [laddr]. rewrite laddr_app. destruct xs2 as [|[q w] xs2].
    + cbn. rewrite Nat.eqb_refl. rewrite Ha. reflexivity.
    + destruct (laddr_in ((q, w) :: xs2) (Some a)) as (z & Hz & Hi); [discriminate|].
      rewrite Hz. cbn [opt_eqb]. destruct (Nat.eqb z a) eqn:E.
      * apply Nat.eqb_eq in E; subst. exfalso. apply Hn. auto.
      * rewrite <- Hz. f_equal.
  - constructor.
    + apply dll_app. split.
      * apply dll_frame; [tauto|]. eapply dll_ext; [|exact D1']. intros c Hc. apply O2. intro; eapply DJ; eassumption.
      * apply dll_frame; [tauto|]. exact D2'.
    + rewrite addrs_app. exact NS.
    + intro b. rewrite addrs_app. destruct (Nat.eq_dec b a) as [->|Hb].
      * rewrite hupd_same. rewrite in_app_iff. tauto.
      * rewrite hupd_other by assumption. rewrite Z2, Z1, DM, addrs_app, !in_app_iff. cbn. intuition congruence.
    + intros b Hb. apply F. rewrite addrs_app in Hb |- *. rewrite in_app_iff in Hb |- *. cbn. tauto.
    + subst fi. destruct xs1 as [|[q w] xs1]; [contradiction|]. reflexivity.
    + reflexivity.
Qed.

(** ** Adding to an existing identifier *)

Definition trep (t : tid) (xs : list cell) : Prop :=
  rep (t_heap t) (t_fresh t) (t_first t) (t_last t) xs /\ t_num t = Z.of_nat (length xs) mod 2 ^ 32.

Definition same_meta (t t' : tid) : Prop :=
  t_sid t' = t_sid t /\ t_pub t' = t_pub t /\ t_early t' = t_early t /\ t_late t' = t_late t.

Lemma same_meta_with t h fr fi la n : same_meta t (with_segs t h fr fi la n).
Proof. repeat split. Qed.

Definition added f r c (t : tid) (xs : list cell) (ta : tid * nat) : Prop :=
  exists l1 l2 s', trep (fst ta) (l1 ++ (snd ta, s') :: l2)
    /\ change f r c (t_early t) (t_late t) (map snd xs) (map snd l1 ++ map snd l2) s'
    /\ same_meta t (fst ta).

Lemma new_seg_safe A f r e w : (g_err A -> r_data r = [] \/ known_type (r_type r) = true) -> safe A (new_seg f r e w) (fun _ => True).
Proof.
  intro HE. unfold new_seg, msr2seg. destruct (r_data r); [|destruct (known_type _)]; cbn;
    try (eapply safe_weaken; [|apply add_recordptr_safe]; auto).
  intro g. destruct (HE g); discriminate.
Qed.

Lemma in_cells (xs : list cell) a s : In (a, s) xs -> exists xs1 xs2, xs = xs1 ++ (a, s) :: xs2.
Proof. apply in_split. Qed.

Lemma found_map (P : seg -> Prop) xs : Forall (fun x : cell => P (snd x)) xs -> Forall P (map snd xs).
Proof. intro H. apply Forall_map. exact H. Qed.

Lemma num_inc n k : k = n mod 2 ^ 32 -> uwrap 32 (k + 1) = (n + 1) mod 2 ^ 32.
Proof. intros ->. unfold uwrap. rewrite Zplus_mod_idemp_l. reflexivity. Qed.
Lemma num_dec n k : k = n mod 2 ^ 32 -> uwrap 32 (k - 1) = (n - 1) mod 2 ^ 32.
Proof. intros ->. unfold uwrap. rewrite Zminus_mod_idemp_l. reflexivity. Qed.

Lemma noov_join f r c l1 x l2 y l3 b a :
  noov f r c (l1 ++ x :: l2 ++ y :: l3) -> (b = x /\ a = y) \/ (b = y /\ a = x) ->
  f_mode f = Wrap \/ - 2 ^ 63 <= s_cnt b + r_cnt r + s_cnt a < 2 ^ 63.
Proof.
  intros [H|(H1&H2&H3&H4&H5&H6&H7)] Hs; [left; exact H|right].
  rewrite total_app, total_cons, total_app, total_cons in H7.
  apply Forall_app in H6. destruct H6 as [F1 F2]. inversion F2 as [|? ? F3 F4]; subst.
  apply Forall_app in F4. destruct F4 as [F4 F5]. inversion F5 as [|? ? F6 F7]; subst.
  assert (P : forall l, Forall (fun s => small (s_start s) /\ small (s_end s) /\ 0 <= s_cnt s) l -> 0 <= total l).
  { intros l Hl. apply total_nonneg. eapply Forall_impl; [|exact Hl]. cbn; tauto. }
  pose proof (P _ F1). pose proof (P _ F4). pose proof (P _ F7).
  destruct Hs as [[-> ->]|[-> ->]]; lia.
Qed.

Lemma addsegtoseg_safe (A : guard) m s1 s2 :
  (A -> m = Wrap \/ - 2 ^ 63 <= s_cnt s1 + s_cnt s2 < 2 ^ 63) -> (g_err A -> joins s1 s2) ->
  safe A (addsegtoseg m s1 s2) (fun s' => m = Strict -> s_cnt s' = s_cnt s1 + s_cnt s2).
Proof.
  intros H HE. unfold addsegtoseg. destruct (match s_data s2 with [] => false | _ => _ end) eqn:T.
  { cbn. intro g. destruct (HE g) as [E|[E1 E2]]; [rewrite E in T; discriminate|].
    destruct (s_data s2); [discriminate|]. rewrite E2, E1, Z.eqb_refl in T. discriminate. }
  eapply safe_bind; [apply sarith_safe; exact H|]; intros v Hv; cbn; exact Hv.
Qed.

Lemma dll_follow h xs : forall p n a s, dll h p xs n -> In (a, s) xs -> exists p' n', h a = Some (mk_node s p' n').
Proof.
  induction xs as [|[b u] xs IH]; intros p n a s Hd Hi; [destruct Hi|].
  destruct Hd as [H1 H2]. destruct Hi as [E|Hi]; [injection E as -> ->; eauto|eauto].
Qed.

(** Two different cells of a list. *)
Lemma two_cells (xs : list cell) a s b u : In (a, s) xs -> In (b, u) xs -> a <> b ->
  exists l1 x l2 y l3, xs = l1 ++ x :: l2 ++ y :: l3 /\ ((x = (a, s) /\ y = (b, u)) \/ (x = (b, u) /\ y = (a, s))).
Proof.
  intros Ha Hb Hn. destruct (in_split _ _ Ha) as (l1 & l2 & ->).
  apply in_app_iff in Hb. destruct Hb as [Hb|[E|Hb]].
  - destruct (in_split _ _ Hb) as (m1 & m2 & ->). exists m1, (b, u), m2, (a, s), l2. split; [rewrite <- app_assoc; reflexivity|auto].
  - congruence.
  - destruct (in_split _ _ Hb) as (m1 & m2 & ->). exists l1, (a, s), m1, (b, u), m2. auto.
Qed.

Lemma add_search_ok (A : guard) f r c t xs :
  trep t xs -> xs <> [] -> (A -> noov f r c (map snd xs)) -> (g_err A -> typed r (map snd xs)) ->
  (forall a s, In (a, s) xs -> at_beg f r c s = Ok true -> t_first t <> Some a) ->
  safe A (add_search f r c t) (added f r c t xs).
Proof.
  intros [R HN] Hne HA HG Hfirst. unfold add_search.
  pose proof (rep_bound _ _ _ _ _ R) as HB.
  pose proof (rep_first _ _ _ _ _ R) as Efirst. rewrite Efirst at 1.
  eapply safe_bind.
  { apply (search_ok f r c (t_heap t) A [] xs None).
    - exact (rep_dll _ _ _ _ _ R).
    - lia.
    - intro a0. apply Forall_forall. intros x Hx. eapply noov_arith1; [exact (HA a0)|]. apply in_map; exact Hx.
    - exact I.
    - exact I.
    - exact I.
    - constructor.
    - constructor.
    - auto.
    - auto. }
  intros [[before after] follow]. rewrite app_nil_l. intros (Hb & Ha & Hfo & Cb & Ca).
  destruct before as [b|].
  - destruct Hb as (sb & Hb & Fb).
    destruct (in_cells _ _ _ Hb) as (x1 & x2 & Ex).
    eapply safe_bind.
    { eapply (extend_ok A f r c 1 _ _ _ _ x1 b sb x2).
      - rewrite <- Ex. exact R.
      - intro a0. eapply noov_cnt; [exact (HA a0)|]. change sb with (snd (b, sb)). apply in_map. exact Hb.
      - auto.
      - intro g. eapply typed_accepts; [exact (HG g)|]. change sb with (snd (b, sb)). apply in_map. exact Hb. }
    intros h1 (sb' & Eext & (Ecnt & Etyp) & R1).
    assert (Simple : (f_heal f = true -> at_beg f r c sb = Ok true
                                         \/ Forall (fun u => at_beg f r c u = Ok false) (map snd xs)
                                         \/ Exists (exact r c) (map snd xs)) ->
              added f r c t xs (with_segs t h1 (t_fresh t) (t_first t) (t_last t) (t_num t), b)).
    { intro Hi. exists x1, x2, sb'. split; [|split; [|apply same_meta_with]].
      - split; [exact R1|]. cbn. rewrite HN, Ex, !app_length. reflexivity.
      - rewrite Ex, map_app. cbn [map snd].
        apply Ch_end; auto. right. intro Hh. specialize (Hi Hh). rewrite Ex, map_app in Hi. exact Hi. }
    destruct after as [a|].
    + destruct Ha as (sa & Ha & Fa).
      destruct (f_heal f && negb (Nat.eqb b a)) eqn:Ej.
      * apply andb_prop in Ej. destruct Ej as [Eh Ej]. apply Bool.negb_true_iff, Nat.eqb_neq in Ej.
        destruct (two_cells xs b sb a sa Hb Ha Ej) as (l1 & x & l2 & y & l3 & E & Hxy).
        pose proof (rep_nodup _ _ _ _ _ R) as ND.
        assert (Hsa : exists s0, deref h1 (Some b) = Ok (mk_node sb' (fst s0) (snd s0))).
        { pose proof (rep_mid _ _ _ _ _ _ _ _ R1) as Hm. unfold deref. rewrite Hm. exists (laddr None x1, haddr x2 None). reflexivity. }
        destruct Hsa as ([pb nb] & Edb). rewrite Edb. cbn [bind n_seg fst snd].
        (* the list after the extension, seen around a *)
        assert (Hx2 : exists y1 y2, x1 ++ (b, sb') :: x2 = y1 ++ (a, sa) :: y2 /\ y1 <> [] /\
                   (exists m1 m2, y1 ++ y2 = m1 ++ (b, sb') :: m2
                      /\ exists z1 x' z2 y' z3, map snd xs = z1 ++ x' :: z2 ++ y' :: z3
                           /\ map snd m1 ++ map snd m2 = z1 ++ z2 ++ z3
                           /\ ((sb = x' /\ sa = y') \/ (sb = y' /\ sa = x')))).
        { pose proof (rep_nodup _ _ _ _ _ R1) as ND1.
          assert (Hnf : t_first t <> Some a) by (eapply Hfirst; eassumption).
          rewrite Efirst, E in Hnf.
          rewrite Ex in E, ND.
          assert (INJ : forall u1 u2 v1 v2 (w : nat * seg) (w' : nat * seg), u1 ++ w :: u2 = v1 ++ w' :: v2 -> fst w = fst w' ->
                         NoDup (addrs (u1 ++ w :: u2)) -> u1 = v1 /\ u2 = v2).
          { clear. induction u1 as [|z u1 IH]; intros u2 v1 v2 w w' E F N; destruct v1 as [|z' v1]; cbn in E.
            - injection E as <- <-. auto.
            - injection E as <- ->. exfalso. cbn in N. inversion N; subst. apply H1. rewrite map_app. apply in_or_app. right. left. auto.
            - injection E as E1 E2. exfalso. cbn in N. inversion N; subst. apply H1. unfold addrs. rewrite map_app. apply in_or_app. right. left. auto.
            - injection E as <- E. cbn in N. inversion N; subst. destruct (IH _ _ _ _ _ E F H2) as [-> ->]. auto. }
          destruct Hxy as [[-> ->]|[-> ->]].
          - destruct (INJ _ _ _ _ _ _ E eq_refl ND) as [-> ->].
            exists (l1 ++ (b, sb') :: l2), l3. split; [rewrite <- app_assoc; reflexivity|]. split; [destruct l1; discriminate|].
            exists l1, (l2 ++ l3). split; [rewrite <- app_assoc; reflexivity|].
            exists (map snd l1), sb, (map snd l2), sa, (map snd l3). split; [|split; [rewrite map_app; reflexivity|auto]].
            rewrite Ex, map_app. cbn. rewrite map_app. reflexivity.
          - change (l1 ++ (a, sa) :: l2 ++ (b, sb) :: l3) with (l1 ++ ((a, sa) :: l2) ++ (b, sb) :: l3) in E.
            rewrite app_assoc in E.
            destruct (INJ _ _ _ _ _ _ E eq_refl ND) as [-> ->].
            exists l1, (l2 ++ (b, sb') :: l3). split; [rewrite <- app_assoc; reflexivity|]. split.
            + destruct l1; [|discriminate]. cbn in Hnf. congruence.
            + exists (l1 ++ l2), l3. split; [rewrite <- app_assoc; reflexivity|].
              exists (map snd l1), sa, (map snd l2), sb, (map snd l3). split; [|split; [rewrite map_app, app_assoc; reflexivity|auto]].
              rewrite Ex, !map_app. cbn. rewrite <- app_assoc. reflexivity. }
        destruct Hx2 as (y1 & y2 & Ey & Hy1 & m1 & m2 & Em & z1 & x' & z2 & y' & z3 & Ez & Eo & Hz).
        pose proof R1 as R1'. rewrite Ey in R1'.
        pose proof (rep_mid _ _ _ _ _ _ _ _ R1') as Hna. unfold deref at 1. rewrite Hna. cbn [bind n_seg].
        eapply safe_bind.
        { apply safe_eq. apply addsegtoseg_safe with (A := A).
          2:{ intro g. eapply (typed_joins r (map snd xs) sb); [exact (HG g)| | |exact Etyp].
              - change sb with (snd (b, sb)). apply in_map. exact Hb.
              - change sa with (snd (a, sa)). apply in_map. exact Ha. }
          intro a0.
          pose proof (HA a0) as NO. rewrite Ez in NO. destruct (noov_join _ _ _ _ _ _ _ _ _ _ NO Hz) as [W|B]; [left; exact W|].
          destruct (f_mode f) eqn:Em'; [right; rewrite (Ecnt eq_refl); exact B|left; reflexivity]. }
        intros s' [Eadd _].
        destruct (set_seg_rep _ _ _ _ _ _ _ _ s' R1) as (h2 & Eh2 & R2). rewrite Eh2. cbn [bind].
        (* the list with the joined segment, seen around a *)
        assert (Ey2 : exists y1' y2', x1 ++ (b, s') :: x2 = y1' ++ (a, sa) :: y2' /\ y1' <> [] /\ laddr None y1' = laddr None y1
                       /\ haddr y2' None = haddr y2 None /\ y1' ++ y2' = m1 ++ (b, s') :: m2 /\ length (y1' ++ y2') = length (y1 ++ y2)).
        { clear -Ey Em Hy1 Ej ND R1.
          pose proof (rep_nodup _ _ _ _ _ R1) as ND1.
          set (up := fun x : nat * seg => if Nat.eqb (fst x) b then (fst x, s') else x).
          assert (Hup : forall l, ~ In b (addrs l) -> map up l = l).
          { induction l as [|z l IH]; cbn; [reflexivity|]. intro H. unfold up at 1. destruct (Nat.eqb (fst z) b) eqn:E.
            - apply Nat.eqb_eq in E. tauto.
            - rewrite IH by tauto. reflexivity. }
          assert (HL : forall l p, laddr p (map up l) = laddr p l).
          { induction l as [|[z w] l IH]; intros p; cbn; [reflexivity|]. unfold up at 1. cbn. destruct (Nat.eqb z b); cbn; apply IH. }
          assert (HH : forall l p, haddr (map up l) p = haddr l p).
          { intros [|[z w] l] p; cbn; [reflexivity|]. unfold up. cbn. destruct (Nat.eqb z b); reflexivity. }
          assert (Hb12 : ~ In b (addrs x1 ++ addrs x2)).
          { rewrite addrs_app in ND1. cbn in ND1. exact (NoDup_remove_2 _ _ _ ND1). }
          rewrite in_app_iff in Hb12.
          assert (Hm : map up (x1 ++ (b, sb') :: x2) = x1 ++ (b, s') :: x2).
          { rewrite map_app. cbn. rewrite !Hup by tauto. unfold up. cbn. rewrite Nat.eqb_refl. reflexivity. }
          assert (NDm : ~ In b (addrs m1 ++ addrs m2)).
          { assert (P : Permutation (addrs (x1 ++ (b, sb') :: x2)) (a :: addrs (y1 ++ y2))).
            { rewrite Ey, !addrs_app. cbn. apply Permutation_sym, Permutation_middle. }
            pose proof (Permutation_NoDup P ND1) as N2. inversion N2; subst. rewrite Em, addrs_app in H2. cbn in H2.
            exact (NoDup_remove_2 _ _ _ H2). }
          rewrite in_app_iff in NDm.
          exists (map up y1), (map up y2).
          split; [|split; [|split; [apply HL|split; [apply HH|split]]]].
          - rewrite <- Hm, Ey, map_app. cbn. unfold up at 2. cbn. replace (Nat.eqb a b) with false; [reflexivity|].
            symmetry. apply Nat.eqb_neq. congruence.
          - destruct y1; [contradiction|discriminate].
          - rewrite <- map_app, Em, map_app. cbn. rewrite !Hup by tauto. unfold up. cbn. rewrite Nat.eqb_refl. reflexivity.
          - rewrite <- map_app, map_length. reflexivity. }
        destruct Ey2 as (y1' & y2' & Ey2 & Hy1' & EL & EH & Em2 & Elen). rewrite Ey2 in R2.
        destruct (unlink_ok _ _ _ _ _ _ _ _ R2 Hy1') as (last & h3 & h4 & El & E3 & E4 & R4).
        rewrite El. cbn [bind n_prev n_next]. rewrite <- EL, <- EH. rewrite E3. cbn [bind]. rewrite E4. cbn [bind safe].
        exists m1, m2, s'. split; [|split; [|apply same_meta_with]].
        -- split; [cbn; rewrite <- Em2; exact R4|]. cbn [fst snd with_segs t_num]. 
           erewrite num_dec; [|exact HN]. f_equal.
           rewrite <- Em2, Elen, Em. assert (EL2 : length (map snd xs) = S (S (length (z1 ++ z2 ++ z3)))).
           { rewrite Ez, !app_length. cbn. rewrite !app_length. cbn. lia. }
           rewrite map_length in EL2. rewrite EL2. rewrite <- Eo, !app_length, !map_length. cbn [length]. lia.
        -- cbn [fst]. rewrite Ez, Eo. eapply Ch_join; eassumption.
      * cbn. apply Simple. intro Hh. left. rewrite Hh in Ej. cbn in Ej. apply Bool.negb_false_iff, Nat.eqb_eq in Ej. subst a.
        pose proof (rep_dll _ _ _ _ _ R) as D.
        destruct (dll_follow _ _ _ _ _ _ D Ha) as (p1 & n1 & H1). destruct (dll_follow _ _ _ _ _ _ D Hb) as (p2 & n2 & H2).
        rewrite H1 in H2. injection H2 as -> _ _. exact Fa.
    + cbn. apply Simple. intro Hh. destruct (Ca eq_refl (or_intror Hh)) as [H|[_ H]].
      * right; left. apply Forall_map. exact H.
      * right; right. apply Exists_exists in H. destruct H as (x & Hx & He). apply Exists_exists. exists (snd x). split; [apply in_map; exact Hx|exact He].
  - destruct after as [a|].
    + destruct Ha as (sa & Ha & Fa).
      destruct (in_cells _ _ _ Ha) as (x1 & x2 & Ex).
      eapply safe_bind.
      { eapply (extend_ok A f r c 2 _ _ _ _ x1 a sa x2).
        - rewrite <- Ex. exact R.
        - intro a0. eapply noov_cnt; [exact (HA a0)|]. change sa with (snd (a, sa)). apply in_map. exact Ha.
        - auto.
        - intro g. eapply typed_accepts; [exact (HG g)|]. change sa with (snd (a, sa)). apply in_map. exact Ha. }
      intros h1 (sa' & Eext & Ecnt & R1). cbn [safe].
      exists x1, x2, sa'. split; [|split; [|apply same_meta_with]].
      * split; [exact R1|]. cbn. rewrite HN, Ex, !app_length. reflexivity.
      * rewrite Ex, map_app. cbn [map snd]. apply Ch_beg; auto. right. intro Hh.
        destruct (Cb eq_refl (or_intror Hh)) as [H|[_ H]].
        -- left. apply (found_map (fun u => at_end f r c u = Ok false)) in H. rewrite Ex, map_app in H. exact H.
        -- right. apply Exists_exists in H. destruct H as (x & Hx & He). apply Exists_exists. exists (snd x). split; [|exact He].
           assert (Hi : In (snd x) (map snd xs)) by (apply in_map; exact Hx). rewrite Ex, map_app in Hi. exact Hi.
    + eapply safe_bind; [apply safe_eq, new_seg_safe; intro g; exact (typed_new _ _ (HG g))|]. intros s' [Es _].
      assert (Why : Forall (fun u => at_end f r c u = Ok false /\ at_beg f r c u = Ok false) (map snd xs)
                    \/ f_heal f = true /\ Exists (exact r c) (map snd xs)).
      { destruct (Cb eq_refl (or_introl eq_refl)) as [H1|[Hh H1]]; [destruct (Ca eq_refl (or_introl eq_refl)) as [H2|[Hh H2]]|].
        - left. rewrite Forall_forall in *. intros u Hu. apply in_map_iff in Hu. destruct Hu as (x & <- & Hx). auto.
        - right. split; [exact Hh|]. apply Exists_exists in H2. destruct H2 as (x & Hx & He). apply Exists_exists. exists (snd x). split; [apply in_map; exact Hx|exact He].
        - right. split; [exact Hh|]. apply Exists_exists in H1. destruct H1 as (x & Hx & He). apply Exists_exists. exists (snd x). split; [apply in_map; exact Hx|exact He]. }
      destruct follow as [fo|].
      * destruct Hfo as (sf & Hfo & _). destruct (in_cells _ _ _ Hfo) as (x1 & x2 & Ex).
        pose proof R as R0. rewrite Ex in R0.
        pose proof (rep_mid _ _ _ _ _ _ _ _ R0) as Hm. unfold deref at 1. rewrite Hm. cbn [bind n_next].
        replace (x1 ++ (fo, sf) :: x2) with ((x1 ++ [(fo, sf)]) ++ x2) in R0 by (rewrite <- app_assoc; reflexivity).
        pose proof (rep_fresh_notin _ _ _ _ _ R0) as Hn. rewrite addrs_app, in_app_iff in Hn.
        pose proof (rep_nodup _ _ _ _ _ R0) as ND. rewrite addrs_app in ND.
        assert (N1 : NoDup (addrs (x1 ++ [(fo, sf)]))). { clear -ND. induction (addrs (x1 ++ [(fo, sf)])) as [|z l IH]; [constructor|]. inversion ND; subst. constructor; [|auto]. intro; apply H1; apply in_or_app; auto. }
        assert (N2 : NoDup (addrs x2)). { clear -ND. induction (addrs (x1 ++ [(fo, sf)])); [exact ND|]. inversion ND; auto. }
        assert (DJ : forall b, In b (addrs (x1 ++ [(fo, sf)])) -> ~ In b (addrs x2)).
        { clear -ND. induction (addrs (x1 ++ [(fo, sf)])) as [|x l IH]; cbn in *; [tauto|]. inversion ND; subst.
          intros b [->|Hb] Hi; [apply H1; apply in_or_app; auto|exact (IH H2 b Hb Hi)]. }
        pose proof (rep_dll _ _ _ _ _ R0) as D. apply dll_app in D. destruct D as [D1 D2].
        set (ha := hupd (t_heap t) (t_fresh t) (Some (mk_node s' (Some fo) (haddr x2 None)))).
        assert (D2a : dll ha (laddr None (x1 ++ [(fo, sf)])) x2 None) by (apply dll_frame; [tauto|exact D2]).
        assert (D1a : dll ha None (x1 ++ [(fo, sf)]) (haddr x2 None)) by (apply dll_frame; [tauto|exact D1]).
        destruct (link_prev ha x2 (Some (t_fresh t)) _ N2 D2a) as (h2 & E2 & D2' & O2 & Z2). rewrite E2. cbn [bind].
        assert (D1b : dll h2 None (x1 ++ [(fo, sf)]) (haddr x2 None)).
        { eapply dll_ext; [|exact D1a]. intros z Hz. apply O2. apply DJ. exact Hz. }
        destruct (link_next h2 (x1 ++ [(fo, sf)]) (Some (t_fresh t)) _ N1 D1b) as (h3 & E3 & D1' & O3 & Z3).
        rewrite laddr_app in E3. cbn [laddr] in E3. rewrite E3. cbn [bind safe].
        exists (x1 ++ [(fo, sf)]), x2, s'. split; [|split; [|apply same_meta_with]].
        -- split.
           ++ cbn [fst snd with_segs t_heap t_fresh t_first t_last].
              replace (t_first t) with (haddr ((x1 ++ [(fo, sf)]) ++ (t_fresh t, s') :: x2) None).
              2:{ rewrite Efirst, Ex, !haddr_app. destruct x1 as [|[? ?] ?]; reflexivity. }
              replace (if opt_eqb (t_last t) fo then Some (t_fresh t) else t_last t)
                with (laddr None ((x1 ++ [(fo, sf)]) ++ (t_fresh t, s') :: x2)).
              2:{ rewrite (rep_last _ _ _ _ _ R), Ex, !laddr_app. cbn [laddr]. destruct x2 as [|[q w] x2].
                  - cbn. rewrite Nat.eqb_refl. reflexivity.
                  - destruct (laddr_in ((q, w) :: x2) (Some fo)) as (z & Hz & Hi); [discriminate|].
                    rewrite Hz. cbn [opt_eqb]. destruct (Nat.eqb z fo) eqn:E.
                    + apply Nat.eqb_eq in E; subst. exfalso. eapply DJ; [|exact Hi]. rewrite addrs_app. apply in_or_app. right. left. reflexivity.
                    + rewrite <- Hz. apply laddr_any. discriminate. }
              set (hb := hupd h3 (t_fresh t) None).
              assert (H3 : h3 (t_fresh t) = Some (mk_node s' (Some fo) (haddr x2 None))).
              { rewrite O3, O2 by tauto. apply hupd_same. }
              eapply (rep_inserted (t_heap t) hb h3); [exact R0| | | | |].
              ** intro z. unfold hb, hupd. destruct (Nat.eqb z (t_fresh t)) eqn:E.
                 --- apply Nat.eqb_eq in E; subst z. split; [intros _|reflexivity].
                     destruct (t_heap t (t_fresh t)) eqn:Et; [|reflexivity]. exfalso.
                     apply (rep_fresh_notin _ _ _ _ _ R). apply (rep_dom _ _ _ _ _ R). congruence.
                 --- rewrite Z3, Z2. unfold ha, hupd. rewrite E. tauto.
              ** unfold hb. apply dll_frame; [tauto|exact D1'].
              ** unfold hb. apply dll_frame; [tauto|]. eapply dll_ext; [|exact D2']. intros z Hz. apply O3. intro Hi. exact (DJ z Hi Hz).
              ** rewrite laddr_app. exact H3.
              ** intros z Hz. unfold hb. rewrite hupd_other by exact Hz. reflexivity.
           ++ cbn [fst snd with_segs t_num]. erewrite num_inc; [|exact HN]. f_equal. rewrite Ex, !app_length. cbn [length]. lia.
        -- cbn [fst]. assert (Eq : map snd xs = map snd (x1 ++ [(fo, sf)]) ++ map snd x2).
           { rewrite Ex, !map_app, <- app_assoc. reflexivity. }
           rewrite Eq. eapply Ch_new; [exact Es|]. rewrite <- Eq. tauto.
      * pose proof (rep_fresh_notin _ _ _ _ _ R) as Hn.
        set (ha := hupd (t_heap t) (t_fresh t) (Some (mk_node s' None (t_first t)))).
        assert (D2a : dll ha None xs None) by (apply dll_frame; [tauto|exact (rep_dll _ _ _ _ _ R)]).
        destruct (link_prev ha xs (Some (t_fresh t)) _ (rep_nodup _ _ _ _ _ R) D2a) as (h2 & E2 & D2' & O2 & Z2).
        assert (E2' : (match t_first t with
                       | Some _ => set_prev ha (t_first t) (Some (t_fresh t))
                       | None => Ok ha end) = Ok h2).
        { rewrite <- E2, Efirst. destruct (haddr xs None); reflexivity. }
        rewrite E2'. clear E2'.
        cbn [bind safe]. exists [], xs, s'. split; [|split; [|apply same_meta_with]].
        -- split.
           ++ cbn [fst snd with_segs t_heap t_fresh t_first t_last app].
              assert (H3 : h2 (t_fresh t) = Some (mk_node s' None (haddr xs None))).
              { rewrite O2 by exact Hn. unfold ha. rewrite Efirst. apply hupd_same. }
              set (hb := hupd h2 (t_fresh t) None).
              replace (t_last t) with (laddr None ([] ++ (t_fresh t, s') :: xs)).
                 2:{ cbn. rewrite (rep_last _ _ _ _ _ R). apply laddr_any. exact Hne. }
                 eapply (rep_inserted (t_heap t) hb h2 _ _ _ []); [exact R| | | | |].
              ** intro z. unfold hb, hupd. destruct (Nat.eqb z (t_fresh t)) eqn:E.
                  --- apply Nat.eqb_eq in E; subst z. split; [intros _|reflexivity].
                         destruct (t_heap t (t_fresh t)) eqn:Et; [|reflexivity]. exfalso.
                         apply Hn. apply (rep_dom _ _ _ _ _ R). congruence.
                  --- rewrite Z2. unfold ha, hupd. rewrite E. tauto.
              ** exact I.
              ** unfold hb. apply dll_frame; [exact Hn|exact D2'].
              ** exact H3.
              ** intros z Hz. unfold hb. rewrite hupd_other by exact Hz. reflexivity.
           ++ cbn [fst snd with_segs t_num app]. erewrite num_inc; [|exact HN]. f_equal. cbn [length]. lia.
        -- cbn [fst app map]. apply (Ch_new _ _ _ _ _ [] (map snd xs) s' 0 Es). cbn [app]. tauto.
Qed.

Lemma edge_safe (A : guard) m x p q :
  (A -> m = Wrap \/ (small x /\ short p /\ short q)) ->
  safe A (let! v := sarith m 64 (x - p) in sarith m 64 (v - q))
    (fun w => exists v, sarith m 64 (x - p) = Ok v /\ sarith m 64 (v - q) = Ok w).
Proof.
  intro H. eapply safe_bind.
  - apply safe_eq. apply sarith_safe with (A := A). intro a. destruct (H a) as [|Hs]; [auto|right]. unfold small, short, big in Hs. lia.
  - intros v [E Hv]. eapply safe_weaken; [|apply safe_eq, sarith_safe with (A := A)].
    + intros w [E' _]. eauto.
    + intro a. destruct (H a) as [|Hs]; [auto|]. destruct m; [|auto]. right. rewrite (Hv eq_refl). unfold small, short, big in Hs. lia.
Qed.
Lemma edge_safe' (A : guard) m x p q :
  (A -> m = Wrap \/ (small x /\ short p /\ short q)) ->
  safe A (let! v := sarith m 64 (x + p) in sarith m 64 (v + q))
    (fun w => exists v, sarith m 64 (x + p) = Ok v /\ sarith m 64 (v + q) = Ok w).
Proof.
  intro H. eapply safe_bind.
  - apply safe_eq. apply sarith_safe with (A := A). intro a. destruct (H a) as [|Hs]; [auto|right]. unfold small, short, big in Hs. lia.
  - intros v [E Hv]. eapply safe_weaken; [|apply safe_eq, sarith_safe with (A := A)].
    + intros w [E' _]. eauto.
    + intro a. destruct (H a) as [|Hs]; [auto|]. destruct m; [|auto]. right. rewrite (Hv eq_refl). unfold small, short, big in Hs. lia.
Qed.

Lemma bind_assoc {X Y Z} (m : res X) (k : X -> res Y) (j : Y -> res Z) :
  bind (bind m k) j = bind m (fun x => bind (k x) j).
Proof. destruct m; reflexivity. Qed.

Lemma new_seg_split f r e w s : msr2seg r e = Ok s -> new_seg f r e w = add_recordptr (f_keep f) s r e w.
Proof. intro H. unfold new_seg. rewrite H. reflexivity. Qed.
Lemma msr2seg_safe A r e : (g_err A -> r_data r = [] \/ known_type (r_type r) = true) -> safe A (msr2seg r e) (fun s => s_recs s = []).
Proof.
  intro HE. unfold msr2seg. destruct (r_data r); [|destruct (known_type _)]; cbn; auto.
  intro g. destruct (HE g); discriminate.
Qed.

Lemma add_existing_ok (A : guard) f r c t xs :
  trep t xs -> xs <> [] -> (A -> noov f r c (map snd xs)) -> (g_err A -> typed r (map snd xs)) ->
  safe A (add_existing f r c t) (added f r c t xs).
Proof.
  intros T Hne HA HG. pose proof T as [R HN]. unfold add_existing.
  destruct (snoc_cases xs) as [E|(xi & [al sl] & El)]; [contradiction|].
  destruct xs as [|[af sf] xt]; [contradiction|clear Hne].
  assert (Elast : t_last t = Some al).
  { rewrite (rep_last _ _ _ _ _ R), El, laddr_app. reflexivity. }
  assert (Efirst : t_first t = Some af) by (rewrite (rep_first _ _ _ _ _ R); reflexivity).
  assert (Hl : t_heap t al = Some (mk_node sl (laddr None xi) None)).
  { pose proof R as R0. rewrite El in R0. exact (rep_mid _ _ _ _ _ _ _ _ R0). }
  assert (Hf : t_heap t af = Some (mk_node sf None (haddr xt None))) by exact (rep_mid _ _ _ _ [] _ _ _ R).
  assert (Inl : In sl (map snd ((af, sf) :: xt))). { rewrite El, map_app. apply in_or_app. right. left. reflexivity. }
  assert (Inf : In sf (map snd ((af, sf) :: xt))) by (left; reflexivity).
  rewrite Elast, Efirst. unfold deref at 1. rewrite Hl. cbn [bind n_seg].
  eapply safe_bind.
  { apply safe_eq, gap_safe with (A := A). intro a0. destruct (noov_arith1 _ _ _ _ _ (HA a0) Inl) as [|(?&?&?&?&?)]; auto. }
  intros lastgap [Elg _]. unfold deref at 1. rewrite Hf. cbn [bind n_seg].
  eapply safe_bind.
  { apply safe_eq, gap_safe with (A := A). intro a0. destruct (noov_arith1 _ _ _ _ _ (HA a0) Inf) as [|(?&?&?&?&?)]; auto. }
  intros firstgap [Efg _].
  assert (AE : at_end f r c sl = Ok (fits c lastgap (s_hz sl))). { unfold at_end. rewrite Elg. reflexivity. }
  assert (AB : at_beg f r c sf = Ok (fits c firstgap (s_hz sf))). { unfold at_beg. rewrite Efg. reflexivity. }
  destruct (fits c lastgap (s_hz sl)).
  { eapply safe_bind.
    { eapply (extend_ok A f r c 1 _ _ _ _ xi al sl []).
      - rewrite <- El. exact R.
      - intro a0. eapply noov_cnt; [exact (HA a0)|exact Inl].
      - auto.
      - intro g. eapply typed_accepts; [exact (HG g)|exact Inl]. }
    intros h1 (s' & Eext & _ & R1). cbn [safe].
    exists xi, [], s'. split; [|split; [|apply same_meta_with]].
    - split; [cbn [fst snd with_segs t_heap t_fresh t_first t_last]; rewrite <- Elast, <- Efirst; exact R1|].
      cbn [fst snd with_segs t_num]. rewrite HN, El, !app_length. reflexivity.
    - rewrite El, map_app. cbn [map snd]. apply Ch_end; auto. }
  rewrite <- bind_assoc.
  eapply safe_bind.
  { apply edge_safe with (A := A). intro a0. destruct (HA a0) as [|(?&?&?&?&?)]; auto. }
  intros xe (xe0 & Ex1 & Ex2).
  destruct (t_late t <? xe) eqn:C2.
  { apply Z.ltb_lt in C2.
    eapply safe_bind; [apply safe_eq, msr2seg_safe; intro g; exact (typed_new _ _ (HG g))|]. intros s0 [Es0 Er0].
    pose proof R as R0. rewrite <- (app_nil_r ((af, sf) :: xt)) in R0.
    destruct (link_next (t_heap t) _ (Some (t_fresh t)) _ (rep_nodup _ _ _ _ _ R) (rep_dll _ _ _ _ _ R)) as (h1 & E1 & D1 & O1 & Z1).
    rewrite <- (rep_last _ _ _ _ _ R), Elast in E1. rewrite E1. cbn [bind].
    eapply safe_bind; [apply safe_eq, add_recordptr_safe; auto|]. intros s' [Es' _].
    unfold set_seg at 1, deref at 1. rewrite hupd_same. cbn [bind n_prev n_next safe].
    exists ((af, sf) :: xt), [], s'. split; [|split; [|apply same_meta_with]].
    - split.
      + cbn [fst snd with_segs t_heap t_fresh t_first t_last]. rewrite <- Elast.
        replace (Some af) with (haddr (((af, sf) :: xt) ++ [(t_fresh t, s')]) None) by reflexivity.
        replace (Some (t_fresh t)) with (laddr None (((af, sf) :: xt) ++ [(t_fresh t, s')])) by (rewrite laddr_app; reflexivity).
        pose proof (rep_fresh_notin _ _ _ _ _ R) as Hn.
        eapply (rep_inserted (t_heap t) h1); [exact R0|exact Z1|exact D1|exact I| |].
        * rewrite hupd_same. rewrite <- (rep_last _ _ _ _ _ R). reflexivity.
        * intros b Hb. rewrite !hupd_other by exact Hb. reflexivity.
      + cbn [fst snd with_segs t_num]. erewrite num_inc; [|exact HN]. f_equal. rewrite app_length. cbn [length]. lia.
    - cbn [fst snd]. rewrite <- (app_nil_r (map snd ((af, sf) :: xt))) at 1. eapply (Ch_new _ _ _ _ _ _ [] s' 0).
      + rewrite (new_seg_split _ _ _ _ _ Es0). exact Es'.
      + left. eauto. }
  rewrite <- bind_assoc.
  eapply safe_bind.
  { apply edge_safe' with (A := A). intro a0. destruct (HA a0) as [|(?&?&?&?&?)]; auto. }
  intros ye (ye0 & Ey1 & Ey2).
  destruct (ye <? t_early t) eqn:C3.
  { apply Z.ltb_lt in C3.
    eapply safe_bind; [apply safe_eq, msr2seg_safe; intro g; exact (typed_new _ _ (HG g))|]. intros s0 [Es0 Er0].
    destruct (link_prev (t_heap t) _ (Some (t_fresh t)) _ (rep_nodup _ _ _ _ _ R) (rep_dll _ _ _ _ _ R)) as (h1 & E1 & D1 & O1 & Z1).
    cbn [haddr] in E1. rewrite E1. cbn [bind].
    eapply safe_bind; [apply safe_eq, add_recordptr_safe; auto|]. intros s' [Es' _].
    unfold set_seg at 1, deref at 1. rewrite hupd_same. cbn [bind n_prev n_next safe].
    exists [], ((af, sf) :: xt), s'. split; [|split; [|apply same_meta_with]].
    - split.
      + cbn [fst snd with_segs t_heap t_fresh t_first t_last].
        replace (Some al) with (laddr None ([] ++ (t_fresh t, s') :: (af, sf) :: xt)).
        2:{ rewrite <- Elast, (rep_last _ _ _ _ _ R). reflexivity. }
        eapply (rep_inserted (t_heap t) h1 _ _ _ _ []); [exact R|exact Z1|exact I|exact D1| |].
        * rewrite hupd_same. reflexivity.
        * intros b Hb. rewrite !hupd_other by exact Hb. reflexivity.
      + cbn [fst snd with_segs t_num app]. erewrite num_inc; [|exact HN]. f_equal. cbn [length]. lia.
    - cbn [fst snd app map]. apply (Ch_new _ _ _ _ _ [] (map snd ((af, sf) :: xt)) s' 0).
      + rewrite (new_seg_split _ _ _ _ _ Es0). exact Es'.
      + right; left. eauto. }
  destruct (fits c firstgap (s_hz sf)).
  { eapply safe_bind.
    { eapply (extend_ok A f r c 2 _ _ _ _ [] af sf xt).
      - exact R.
      - intro a0. eapply noov_cnt; [exact (HA a0)|exact Inf].
      - auto.
      - intro g. eapply typed_accepts; [exact (HG g)|exact Inf]. }
    intros h1 (s' & Eext & _ & R1). cbn [safe].
    exists [], xt, s'. split; [|split; [|apply same_meta_with]].
    - split; [cbn [fst snd with_segs t_heap t_fresh t_first t_last]; rewrite <- Elast, <- Efirst; exact R1|].
      cbn [fst snd with_segs t_num]. rewrite HN. reflexivity.
    - apply (Ch_beg f r c (t_early t) (t_late t) [] sf (map snd xt) s'); auto. }
  apply add_search_ok; [exact T|discriminate|exact HA|exact HG|].
  intros a s Hi Hb. rewrite Efirst. intro E. injection E as <-.
  pose proof (rep_dll _ _ _ _ _ R) as D.
  destruct (dll_follow _ _ _ _ _ _ D Hi) as (p1 & n1 & H1). rewrite Hf in H1. injection H1 as <- _ _. congruence.
Qed.

(** ** The sort *)

Lemma ordered_app l1 l2 : ordered (l1 ++ l2) <-> ordered l1 /\ ordered l2 /\ Forall (fun a => Forall (seg_le a) l2) l1.
Proof.
  induction l1 as [|a l1 IH]; cbn.
  - split; [intro; repeat split; auto|tauto].
  - rewrite Forall_app, IH. split.
    + intros [[H1 H2] (H3 & H4 & H5)]. repeat split; auto.
    + intros [[H1 H2] (H3 & H4)]. inversion H4; subst. repeat split; auto.
Qed.

Lemma seg_le_trans a b d : seg_le a b -> seg_le b d -> seg_le a d.
Proof. unfold seg_le. lia. Qed.
Lemma sorts_after_true a b : sorts_after a b = true -> seg_le b a.
Proof. unfold sorts_after, seg_le. rewrite Bool.orb_true_iff, Bool.andb_true_iff. lia. Qed.

Lemma ordered_insert l1 l2 s : ordered (l1 ++ l2) -> Forall (fun a => seg_le a s) l1 -> Forall (seg_le s) l2 ->
  ordered (l1 ++ s :: l2).
Proof.
  rewrite !ordered_app. intros (H1 & H2 & H3) H4 H5. cbn. repeat split; auto.
  rewrite Forall_forall in *. intros a Ha. constructor; auto.
Qed.

Lemma sort_ok t xs1 a s xs2 :
  trep t (xs1 ++ (a, s) :: xs2) -> ordered (map snd xs1 ++ map snd xs2) ->
  exists h fi la h' fi' la' zs,
    move_down (S (t_fresh t)) (t_heap t) (t_first t) (t_last t) a = Ok (h, fi, la)
    /\ move_up (S (t_fresh t)) h fi la a = Ok (h', fi', la')
    /\ rep h' (t_fresh t) fi' la' zs /\ length zs = length (xs1 ++ (a, s) :: xs2)
    /\ ordered (map snd zs) /\ exists z1 z2, map snd zs = z1 ++ s :: z2 /\ z1 ++ z2 = map snd xs1 ++ map snd xs2.
Proof.
  intros [R HN] HO.
  pose proof (rep_bound _ _ _ _ _ R) as HB. rewrite app_length in HB. cbn in HB.
  destruct (move_down_ok xs2 (S (t_fresh t)) _ _ _ _ _ _ _ R) as (h & fi & la & ys & zs & E1 & -> & Hy & Hz & R1); [lia|].
  rewrite app_assoc in R1. rewrite app_length in HB.
  destruct (move_up_ok (xs1 ++ ys) (S (t_fresh t)) _ _ _ _ _ _ _ R1) as (h' & fi' & la' & us & ws & E2 & Eq & Hw & Hu & R2).
  { rewrite app_length. lia. }
  exists h, fi, la, h', fi', la', (us ++ (a, s) :: ws ++ zs).
  split; [exact E1|]. split; [exact E2|]. split; [exact R2|].
  split; [|split].
  - rewrite !app_length. cbn. rewrite !app_length. assert (EL : length (xs1 ++ ys) = length (us ++ ws)) by (rewrite Eq; reflexivity).
    rewrite !app_length in EL. lia.
  - assert (Eq2 : map snd xs1 ++ map snd (ys ++ zs) = (map snd us ++ map snd ws) ++ map snd zs).
    { rewrite map_app, app_assoc, <- !map_app, Eq. reflexivity. }
    rewrite Eq2 in HO. rewrite map_app. cbn. rewrite map_app.
    apply ordered_insert.
    + rewrite app_assoc. exact HO.
    + (* before *)
      destruct (rev us) as [|u ru] eqn:Er.
      * assert (us = []) as ->. { rewrite <- (rev_involutive us), Er. reflexivity. } constructor.
      * assert (Eus : us = rev ru ++ [u]). { rewrite <- (rev_involutive us), Er. reflexivity. }
        apply sorts_after_le in Hu. rewrite Eus, map_app. apply Forall_app. split; [|constructor; auto].
        rewrite Eus, map_app in HO. apply ordered_app in HO. destruct HO as (HO & _ & _).
        apply ordered_app in HO. destruct HO as (HO & _ & _). apply ordered_app in HO. destruct HO as (_ & _ & HO).
        eapply Forall_impl; [|exact HO]. cbn. intros v Hv. inversion Hv; subst. eapply seg_le_trans; eassumption.
    + apply Forall_app. split.
      * apply Forall_map. eapply Forall_impl; [|exact Hw]. cbn. intros x Hx. apply sorts_after_true. exact Hx.
      * destruct zs as [|z zs]; [constructor|]. apply sorts_after_le in Hz. cbn. constructor; [exact Hz|].
        apply ordered_app in HO. destruct HO as (_ & HO & _). cbn in HO. destruct HO as [HO _].
        eapply Forall_impl; [|exact HO]. cbn. intros v Hv. eapply seg_le_trans; eassumption.
  - exists (map snd us), (map snd ws ++ map snd zs). split.
    + rewrite map_app. cbn. rewrite map_app. reflexivity.
    + rewrite app_assoc, <- map_app, <- Eq, map_app, <- app_assoc, <- map_app. reflexivity.
Qed.

Lemma change_others f r c e l old others s : change f r c e l old others s -> ordered old -> ordered others.
Proof.
  assert (R1 : forall l1 x l2, ordered (l1 ++ x :: l2) -> ordered (l1 ++ l2)).
  { intros l1 x l2. rewrite !ordered_app. cbn. intros (H1 & (H2 & H3) & H4). repeat split; auto.
    eapply Forall_impl; [|exact H4]. cbn. intros v Hv. inversion Hv; auto. }
  intros H HO. destruct H; eauto.
  apply R1 in HO. rewrite app_assoc in HO. apply R1 in HO. rewrite <- app_assoc in HO. exact HO.
Qed.

(** What an addition to an identifier gives. *)
Definition stepped f r c (t : tid) (old : list seg) (t' : tid) (new : list seg) : Prop :=
  exists others s z1 z2, change f r c (t_early t) (t_late t) old others s
    /\ new = z1 ++ s :: z2 /\ z1 ++ z2 = others
    /\ t_sid t' = t_sid t /\ t_pub t' = Z.max (t_pub t) (r_pub r)
    /\ t_early t' = Z.min (t_early t) (r_start r) /\ t_late t' = Z.max (t_late t) (c_end c).

Lemma add_to_tid_ok (A : guard) f r c t xs :
  trep t xs -> xs <> [] -> ordered (map snd xs) -> (A -> noov f r c (map snd xs)) -> (g_err A -> typed r (map snd xs)) ->
  safe A (add_to_tid f r c t)
    (fun t' => exists ys, trep t' ys /\ ys <> [] /\ ordered (map snd ys) /\ stepped f r c t (map snd xs) t' (map snd ys)).
Proof.
  intros T Hne HO HA HG. unfold add_to_tid.
  eapply safe_bind; [apply (add_existing_ok A f r c t xs T Hne HA HG)|].
  intros [t1 a] (l1 & l2 & s & T1 & CH & (M1 & M2 & M3 & M4)). cbn [fst snd] in *.
  pose proof (change_others _ _ _ _ _ _ _ _ CH HO) as HO1.
  destruct (sort_ok t1 l1 a s l2 T1 HO1) as (h & fi & la & h' & fi' & la' & zs & E1 & E2 & R & EL & HZ & z1 & z2 & Ez & Eo).
  rewrite E1. cbn [bind]. rewrite E2. cbn [bind safe].
  exists zs. split; [|split; [|split; [exact HZ|]]].
  - split; [exact R|]. cbn. rewrite EL. exact (proj2 T1).
  - intros ->. destruct z1; discriminate.
  - exists (map snd l1 ++ map snd l2), s, z1, z2. split; [exact CH|]. split; [exact Ez|]. split; [exact Eo|].
    cbn [t_sid t_pub t_early t_late]. rewrite M1, M2, M3, M4.
    split; [reflexivity|]. split; [|split].
    + destruct (Z.ltb_spec (t_pub t) (r_pub r)); lia.
    + destruct (Z.ltb_spec (r_start r) (t_early t)); lia.
    + destruct (Z.ltb_spec (t_late t) (c_end c)); lia.
Qed.

Lemma new_tid_ok (A : guard) f r e : (g_err A -> r_data r = [] \/ known_type (r_type r) = true) -> safe A (new_tid f r e)
  (fun t => exists a s, trep t [(a, s)] /\ new_seg f r e 1 = Ok s /\ t_sid t = r_sid r /\ t_pub t = r_pub r
                        /\ t_early t = r_start r /\ t_late t = e).
Proof.
  intro HE. unfold new_tid. eapply safe_bind; [apply safe_eq, new_seg_safe; exact HE|]. intros s [Es _]. cbn [safe].
  exists O, s. split; [|auto].
  split; [|reflexivity]. constructor; cbn; auto.
  - repeat constructor; cbn; auto.
  - intro b. unfold hupd. destruct (Nat.eqb b 0) eqn:E.
    + apply Nat.eqb_eq in E. split; [auto|discriminate].
    + apply Nat.eqb_neq in E. split; [congruence|intros [|[]]; congruence].
  - intros b [<-|[]]; lia.
Qed.
