(** * The document made by the requests of a version 2 record. *)

From Coq Require Import String.
From Verif Require Import Base BaseLemmas ConvModel ConvSpec ConvProof TimeModel TimeSpec EhModel EhSpec EhProof V2Model V2RecSpec V2Rate EhPackSpec EhPackFields V2EhModel V2EhSpec.
Open Scope Z_scope.
Open Scope list_scope.

(** ** Documents without a root *)

Definition rooted (root : option jv) (j : jv) : Prop := root = Some j \/ (root = None /\ j = JObj []).

Lemma get_root root j ks : rooted root j -> ks <> [] -> doc_get root (written ks) = look j ks.
Proof.
  intros [-> |[-> ->]] N; [apply doc_get_look|]. destruct ks as [|k ks]; [congruence|]. rewrite look_obj. reflexivity.
Qed.
Lemma set_root root j ks n : rooted root j -> ks <> [] -> settable j ks -> exists j', doc_set root (written ks) n = Some j' /\ moved j ks n j'.
Proof.
  intros R N S.
  assert (D : doc_set root (written ks) n = putx j (map (fun k => Some (esc k)) ks) n).
  { rewrite <- tokens_written by exact N. destruct ks; [contradiction|]. destruct R as [-> |[-> ->]]; reflexivity. }
  rewrite D. pose proof (putx_ok ks j n) as O. destruct (putx j (map (fun k => Some (esc k)) ks) n) as [j'|]; [|now elim O].
  exists j'. split; [reflexivity|apply O].
Qed.
Lemma append_some j ks n l : ks <> [] -> look j ks = Some (JArr l) -> exists j', appendx j (tokens (written ks)) n = Some j' /\ moved j ks (JArr (l ++ [n])) j'.
Proof.
  intros N L. rewrite tokens_written by exact N. pose proof (appendx_ok ks j n) as O. destruct (appendx j _ n) as [j'|]; [|now elim (O l)].
  destruct O as (l' & E & M). rewrite L in E. injection E as <-. exists j'. split; [reflexivity|exact M].
Qed.
Lemma change_set rd root j ks g v : rooted root j -> ks <> [] -> settable j ks -> plain g v ->
  exists j', change rd root (written ks) g = (Some j', true) /\ moved j ks v j'.
Proof.
  intros R N S P. destruct (set_root root j ks v R N S) as (j' & D & M). exists j'. split; [|exact M].
  destruct P; cbn [change]; cbv zeta; try (rewrite D; reflexivity).
  - replace (v =? 0) with false by lia. cbn [negb]. rewrite D. reflexivity.
  - change (negb (0 =? 0)) with false. rewrite D. reflexivity.
Qed.
Lemma change_append rd root j ks v l : rooted root j -> ks <> [] ->
  (look j ks = None /\ settable j ks /\ l = []) \/ look j ks = Some (JArr l) ->
  exists j', change rd root (written ks) (SetAppend v) = (Some j', true) /\ moved j ks (JArr (l ++ [v])) j'.
Proof.
  intros R N H. cbn [change]. cbv zeta. rewrite (get_root root j ks R N). destruct H as [(L & S & ->)|L]; rewrite L.
  - destruct (set_root root j ks (JArr []) R N S) as (j1 & D & M). rewrite D. destruct (append_some j1 ks v [] N (proj1 M)) as (j2 & A & M2).
    rewrite A. exists j2. split; [reflexivity|]. exact (moved_trans _ _ _ _ _ _ M M2).
  - assert (E : root = Some j). { destruct R as [R|[-> ->]]; [exact R|]. destruct ks; [congruence|discriminate]. }
    rewrite E. destruct (append_some j ks v l N L) as (j2 & A & M2). rewrite A. exists j2. split; [reflexivity|exact M2].
Qed.

(** ** Paths *)

Fixpoint apartb (p q : list (list Z)) : bool :=
  match p, q with a :: p', b :: q' => if same a b then apartb p' q' else true | _, _ => false end.
Lemma apartb_ok p : forall q, apartb p q = true -> apart p q.
Proof.
  induction p as [|a p IH]; intros [|b q] H; try discriminate. cbn [apartb] in H. destruct (same a b) eqn:E.
  - apply same_spec in E. subst b. destruct (IH _ H) as (c & x & y & p' & q' & -> & -> & N). exists (a :: c), x, y, p', q'. auto.
  - exists [], a, b, p, q. split; [reflexivity|]. split; [reflexivity|]. intros ->. rewrite same_refl in E. discriminate.
Qed.

Definition all_paths : list (list string) := value_paths ++ entry_paths.
(** The objects on the way. *)
Definition ways : list (list (list Z)) :=
  [] :: [zs "FDSN"] :: map (fun c => [zs "FDSN"; zs c]) ["Event"; "Time"; "Flags"; "Clock"; "Calibration"]%string.
Definition shaped (j : jv) : Prop := Forall (fun ps => match look j ps with None | Some (JObj _) => True | _ => False end) ways.

Fixpoint pathb (p q : list (list Z)) : bool :=
  match p, q with [], [] => true | a :: p', b :: q' => same a b && pathb p' q' | _, _ => false end.
Lemma pathb_ok p : forall q, pathb p q = true <-> p = q.
Proof.
  induction p as [|a p IH]; intros [|b q]; cbn [pathb]; try (split; [discriminate|discriminate]); [tauto|].
  rewrite Bool.andb_true_iff, same_spec, IH. split; [intros [-> ->]; reflexivity|intros E; injection E; auto].
Qed.
Lemma paths_apart : forall a b, In a all_paths -> In b all_paths -> map zs a = map zs b \/ apart (map zs a) (map zs b).
Proof.
  assert (H : forallb (fun a => forallb (fun b => pathb (map zs a) (map zs b) || apartb (map zs a) (map zs b)) all_paths) all_paths = true) by (vm_compute; reflexivity).
  intros a b A B. rewrite forallb_forall in H. specialize (H _ A). rewrite forallb_forall in H. specialize (H _ B).
  apply Bool.orb_true_iff in H. destruct H as [H|H]; [left; now apply pathb_ok|right; now apply apartb_ok].
Qed.
Lemma path_neq a b : apart a b -> a <> b.
Proof.
  intros (c & x & y & p & q & -> & -> & N) E. apply app_inv_head in E. injection E. intros _ E'. now apply N.
Qed.
Lemma ways_apart : forall a p, In a all_paths -> In p ways -> apart (map zs a) p \/ exists k r, map zs a = p ++ k :: r.
Proof.
  assert (H : forallb (fun a => forallb (fun p => apartb (map zs a) p || (pathb (firstn (List.length p) (map zs a)) p && (List.length p <? 3)%nat)) ways) all_paths = true) by (vm_compute; reflexivity).
  assert (T : forallb (fun a => (List.length a =? 3)%nat) all_paths = true) by reflexivity.
  intros a p A B. rewrite forallb_forall in H, T. specialize (H _ A). specialize (T _ A). rewrite forallb_forall in H. specialize (H _ B).
  apply Nat.eqb_eq in T. apply Bool.orb_true_iff in H. destruct H as [H|H]; [left; now apply apartb_ok|right].
  apply Bool.andb_true_iff in H. destruct H as [H L]. apply pathb_ok in H. apply Nat.ltb_lt in L.
  rewrite <- (firstn_skipn (List.length p) (map zs a)), H. destruct (skipn (List.length p) (map zs a)) as [|k r] eqn:E; [|eauto].
  exfalso. apply (f_equal (@List.length _)) in E. rewrite skipn_length, map_length, T in E. cbn [List.length] in E. lia.
Qed.
Lemma three_settable : forall a, In a all_paths -> forall j, shaped j -> settable j (map zs a).
Proof.
  assert (H : forallb (fun a => match map zs a with [x; y; z] => forallb (fun p => existsb (pathb p) ways) [[]; [x]; [x; y]] | _ => false end) all_paths = true) by (vm_compute; reflexivity).
  intros a A j S. rewrite forallb_forall in H. specialize (H _ A). destruct (map zs a) as [|x [|y [|z [|]]]]; try discriminate.
  assert (W : forall p, In p [[]; [x]; [x; y]] -> match look j p with None | Some (JObj _) => True | _ => False end).
  { intros p P. rewrite forallb_forall in H. specialize (H _ P). apply existsb_exists in H. destruct H as (w & Iw & E). apply pathb_ok in E. subst w.
    unfold shaped in S. rewrite Forall_forall in S. exact (S _ Iw). }
  pose proof (W [] (or_introl eq_refl)) as W0. pose proof (W [x] (or_intror (or_introl eq_refl))) as W1.
  pose proof (W [x; y] (or_intror (or_intror (or_introl eq_refl)))) as W2.
  rewrite look_nil in W0. destruct j as [| | | | | |l]; try contradiction. rewrite look_obj in W1, W2.
  destruct (member l x) as [v|] eqn:E; [|apply s_new; now apply member_none]. apply member_spec in E. apply (s_member _ _ v _ E).
  rewrite look_nil in W1. destruct v as [| | | | | |l1]; try contradiction. rewrite look_obj in W2.
  destruct (member l1 y) as [v|] eqn:E1; [|apply s_new; now apply member_none]. apply member_spec in E1. apply (s_member _ _ v _ E1).
  rewrite look_nil in W2. destruct v as [| | | | | |l2]; try contradiction.
  destruct (member l2 z) as [v|] eqn:E2; [|apply s_new; now apply member_none]. apply member_spec in E2. apply (s_member _ _ v _ E2). constructor.
Qed.
Lemma shaped_moved a j n j' : In a all_paths -> shaped j -> moved j (map zs a) n j' -> shaped j'.
Proof.
  intros A S (_ & M & K). unfold shaped in *. rewrite Forall_forall in *. intros p P. specialize (S _ P).
  destruct (ways_apart a p A P) as [H|(k & r & E)]; [rewrite (M _ H); exact S|].
  specialize (K p (k :: r) E ltac:(discriminate)). destruct (look j p) as [[| | | | | |l]|]; try contradiction; destruct K as (l' & ->); exact I.
Qed.

(** ** Requests *)

Lemma puts_path o a b v w : puts o a v -> puts o b w -> a <> [] -> map zs a = map zs b.
Proof.
  intros A B N. assert (E : path_text a = path_text b) by (destruct A; inversion B; subst; congruence).
  unfold path_text in E. apply (written_inj _ _ E). destruct a; [congruence|discriminate].
Qed.
Lemma puts_fun o a v w : puts o a v -> puts o a w -> v = w.
Proof. intros A B. destruct A; inversion B; subst; reflexivity. Qed.
Lemma last_snoc os o ks v : last_put (os ++ [o]) ks v <-> puts o ks v \/ ((forall w, ~ puts o ks w) /\ last_put os ks v).
Proof.
  split.
  - intros (a & p & b & E & P & F). destruct (exists_last (l := p :: b) ltac:(discriminate)) as (b' & y & Eb). rewrite Eb, app_assoc in E.
    apply app_inj_tail in E. destruct E as [E <-]. destruct b' as [|z b'].
    + injection Eb as -> ->. left. exact P.
    + injection Eb as <- Eb. rewrite Eb in F. apply Forall_app in F. destruct F as [F Fo]. inversion Fo; subst. right. split; [assumption|].
      exists a, p, b'. auto.
  - intros [P|(N & a & p & b & -> & P & F)].
    + exists os, o, []. split; [reflexivity|]. split; [exact P|constructor].
    + exists a, p, (b ++ [o]). split; [now rewrite <- app_assoc|]. split; [exact P|]. apply Forall_app. split; [exact F|constructor; [exact N|constructor]].
Qed.

(** An entry as the specification states it. *)
Lemma not_entry o : entry_of o = None -> goes_to o = None.
Proof. now destruct o. Qed.
Lemma entry_at_of o e ks : entry_of o = Some e ->
  entry_at ks o = if list_eq_dec (list_eq_dec Z.eq_dec) (place_of e) (map zs ks) then true else false.
Proof. intros E. destruct o; try discriminate E; injection E as <-; reflexivity. Qed.
Lemma no_text w : ~ EhSpec.text_field (cstring []) w.
Proof. intros (t & r & _ & N & _ & E). destruct t as [|x t]; [congruence|]. injection E as _ E. destruct t; discriminate E. Qed.
Lemma entered_of o e v : entry_of o = Some e -> entry_says e v -> entered o v.
Proof.
  intros E (l & -> & N & H). exists l. split; [reflexivity|]. split; [exact N|]. intros k w. rewrite H. clear H N.
  destruct o as [| | | |d|c|x]; try discriminate E; injection E as <-; [destruct d; reflexivity| |destruct x; reflexivity].
  destruct c. split; intros (name & P & I & Hk & Hw); exists name, P; (split; [|split; [exact Hk|exact Hw]]).
  - cbn [says EhModel.k_type EhModel.k_begin EhModel.k_end EhModel.k_steps EhModel.k_first EhModel.k_alternate EhModel.k_trigger EhModel.k_continued
      EhModel.k_amplitude EhModel.k_units EhModel.k_range EhModel.k_duration EhModel.k_sine EhModel.k_between EhModel.k_channel EhModel.k_reference
      EhModel.k_coupling EhModel.k_rolloff EhModel.k_noise] in I.
    do 9 (destruct I as [I|I]; [rewrite <- I; cbn [members_of]; repeat (first [left; reflexivity|right])|]).
    destruct I as [I|I]; [injection I as _ <-; elim (no_text w Hw)|].
    cbn [members_of]. do 9 right. exact I.
  - cbn [members_of] in I. do 9 (destruct I as [I|I]; [rewrite <- I; cbn [says]; repeat (first [left; reflexivity|right])|]).
    cbn [says]. do 10 right. exact I.
Qed.

Section Run.
  Variables (rd : list Z -> option jv) (h : heads) (quality : option Z).

  Definition stands (st : option pstate) (j : jv) : Prop :=
    exists s, (match st with Some s => Some s | None => parse_json rd h end) = Some s /\ rooted (match p_mut s with Some r => r | None => p_doc s end) j.
  Definition after (j : jv) : option pstate := Some (mk_pstate None (Some (Some j))).
  Lemma stands_after j : stands (after j) j.
  Proof. eexists. split; [reflexivity|]. left. reflexivity. Qed.

  Lemma set_ptr_ok st j ks g j' : stands st j -> ks <> [] -> (forall root, rooted root j -> change rd root (written ks) g = (Some j', true)) ->
    set_ptr rd (fun _ => None) h (written ks) g true st = (0, h, after j').
  Proof.
    intros (s & E & R) N C. unfold set_ptr. rewrite written_hd by exact N. change (negb (47 =? 47)) with false. cbn [andb].
    destruct st as [s0|]; [injection E as ->|rewrite E]; rewrite (C _ R); reflexivity.
  Qed.

  Lemma value_step done st j o ks v : stands st j -> shaped j -> document_of quality done j -> In ks value_paths -> puts o ks v ->
    exists j', request rd h o st = Ok (0, after j') /\ shaped j' /\ document_of quality (done ++ [o]) j'.
  Proof.
    intros St Sh (D1 & D2 & D3) I P. assert (A : In ks all_paths) by (apply in_or_app; now left).
    assert (N : map zs ks <> []). { assert (L : forallb (fun a => (List.length a =? 3)%nat) all_paths = true) by reflexivity. rewrite forallb_forall in L. specialize (L _ A).
      destruct ks; discriminate. }
    pose proof (three_settable ks A j Sh) as Se.
    assert (X : exists g, plain g v /\ request rd h o st = let '(rc, _, st') := set_ptr rd (fun _ => None) h (written (map zs ks)) g true st in Ok (rc, st')).
    { destruct P as [p ks E|p ks w E|p ks w E|p ks s E]; unfold path_text in E; rewrite <- E.
      - exists (SetBool 1). split; [constructor; lia|reflexivity].
      - exists (SetInt w). split; [constructor|reflexivity].
      - exists (SetNum (tenthousandths w)). split; [constructor|reflexivity].
      - exists (SetText s). split; [constructor|reflexivity]. }
    destruct X as (g & Pg & ->).
    assert (Y : exists j', (forall root, rooted root j -> change rd root (written (map zs ks)) g = (Some j', true)) /\ moved j (map zs ks) v j').
    { destruct (change_set rd (Some j) j _ g v (or_introl eq_refl) N Se Pg) as (j' & C & M). exists j'. split; [|exact M].
      intros root R. pose proof R as R'. destruct R as [-> |[-> Ej]]; [exact C|].
      rewrite <- C. rewrite Ej. destruct Pg; cbn [change]; cbv zeta.
      all: match goal with |- context [doc_set None ?p ?n] => assert (Dn : doc_set None p n = doc_set (Some (JObj [])) p n) by (unfold doc_set; destruct p; reflexivity); rewrite Dn end.
      all: match type of C with _ => idtac end.
      all: rewrite Ej in C; cbn [change] in C; cbv zeta in C; match goal with |- context [doc_set (Some (JObj [])) ?p ?n] => destruct (doc_set (Some (JObj [])) p n); [reflexivity|discriminate] end. }
    destruct Y as (j' & C & M). exists j'. rewrite (set_ptr_ok st j _ g j' St N C). split; [reflexivity|]. split; [exact (shaped_moved ks j v j' A Sh M)|].
    destruct M as (M1 & M2 & _).
    assert (NP : forall b, In b all_paths -> apart (map zs ks) (map zs b) -> forall w, ~ puts o b w).
    { intros b B Ap w Q. apply (path_neq _ _ Ap). refine (puts_path o ks b v w P Q _). intros ->. now apply N. }
    assert (NE : entry_of o = None) by (destruct P; reflexivity).
    split; [|split].
    - intros b w B. assert (Ab : In b all_paths) by (apply in_or_app; now left). destruct (paths_apart ks b A Ab) as [E|Ap].
      + assert (P' : puts o b v). { destruct P as [p ks E'|p ks x E'|p ks x E'|p ks x E']; constructor; rewrite E'; unfold path_text; now rewrite E. }
        unfold at_. rewrite <- E, <- look_spec, M1. split.
        * intros Q. injection Q as <-. left. apply last_snoc. left. exact P'.
        * intros [Q|(_ & Q & _)].
          -- apply last_snoc in Q. destruct Q as [Q|(Q & _)]; [f_equal; exact (puts_fun _ _ _ _ P' Q)|now elim (Q v)].
          -- elim (Q v). apply last_snoc. now left.
      + unfold at_. rewrite <- look_spec, (M2 _ Ap), look_spec. change (at_path j (map zs b) w) with (at_ j b w). rewrite (D1 b w B).
        assert (Ls : forall x, last_put (done ++ [o]) b x <-> last_put done b x).
        { intros x. rewrite last_snoc. split; [intros [Q|[_ Q]]; [now elim (NP b Ab Ap x)|exact Q]|intros Q; right; split; [exact (NP b Ab Ap)|exact Q]]. }
        rewrite Ls. setoid_rewrite Ls. reflexivity.
    - intros b B. assert (Ab : In b all_paths) by (apply in_or_app; now right).
      destruct (D2 b B) as (l & F & L). exists l. split.
      + rewrite filter_app. cbn [filter]. unfold entry_at at 2. rewrite (not_entry o NE), app_nil_r. exact F.
      + intros w. destruct (paths_apart ks b A Ab) as [E|Ap]; [|unfold at_; rewrite <- look_spec, (M2 _ Ap), look_spec; apply L].
        exfalso. clear -I B E. revert ks b I B E.
        assert (H : forallb (fun a => forallb (fun b => negb (pathb (map zs a) (map zs b))) entry_paths) value_paths = true) by (vm_compute; reflexivity).
        intros ks b I B E. rewrite forallb_forall in H. specialize (H _ I). rewrite forallb_forall in H. specialize (H _ B).
        apply pathb_ok in E. rewrite E in H. discriminate.
    - intros qs w F Q. refine (D3 qs w F _). rewrite Forall_forall in F. apply look_spec in Q. rewrite (M2 qs (F _ A)) in Q. now apply look_spec.
  Qed.

  Lemma entry_step done st j o e : stands st j -> shaped j -> document_of quality done j -> entry_of o = Some e -> ready e ->
    exists j', request rd h o st = Ok (0, after j') /\ shaped j' /\ document_of quality (done ++ [o]) j'.
  Proof.
    intros St Sh (D1 & D2 & D3) Eo Re. destruct (entry_ok e Re) as (v & Ev & Sv).
    assert (X : exists ks, In ks entry_paths /\ place_of e = map zs ks).
    { destruct o; try discriminate; injection Eo as <-;
        [exists (fdsn "Event" "Detection")|exists (fdsn "Calibration" "Sequence")|exists (fdsn "Time" "Exception")]; (split; [|reflexivity]); cbn [entry_paths In]; tauto. }
    destruct X as (ks & I & Pl). assert (A : In ks all_paths) by (apply in_or_app; now right).
    assert (N : map zs ks <> []) by (destruct I as [<-|[<-|[<-|[]]]]; discriminate).
    destruct (D2 ks I) as (l & F & L).
    assert (LK : (look j (map zs ks) = None /\ settable j (map zs ks) /\ l = []) \/ look j (map zs ks) = Some (JArr l)).
    { destruct l as [|x l].
      - left. split; [|split; [now apply three_settable|reflexivity]]. apply look_none. intros w W. apply L in W. destruct W as [W _]. congruence.
      - right. apply look_spec, L. split; [discriminate|reflexivity]. }
    assert (Y : exists j', (forall root, rooted root j -> change rd root (written (map zs ks)) (SetAppend v) = (Some j', true)) /\ moved j (map zs ks) (JArr (l ++ [v])) j').
    { destruct (change_append rd (Some j) j _ v l (or_introl eq_refl) N LK) as (j' & C & M). exists j'. split; [|exact M].
      intros root R. pose proof R as R'. destruct R as [-> |[-> Ej]]; [exact C|]. rewrite <- C, Ej. cbn [change]. cbv zeta.
      rewrite (get_root None (JObj []) _ (or_intror (conj eq_refl eq_refl)) N), (get_root (Some (JObj [])) (JObj []) _ (or_introl eq_refl) N).
      assert (Lk : look (JObj []) (map zs ks) = None) by (destruct (map zs ks); [congruence|reflexivity]). rewrite Lk.
      assert (Dn : doc_set None (written (map zs ks)) (JArr []) = doc_set (Some (JObj [])) (written (map zs ks)) (JArr [])) by (unfold doc_set; destruct (written _); reflexivity).
      rewrite Dn. rewrite Ej in C. cbn [change] in C. cbv zeta in C. rewrite (get_root (Some (JObj [])) (JObj []) _ (or_introl eq_refl) N), Lk in C.
      destruct (doc_set (Some (JObj [])) (written (map zs ks)) (JArr [])); [reflexivity|discriminate]. }
    destruct Y as (j' & C & M). exists j'.
    assert (RQ : request rd h o st = Ok (0, after j')).
    { assert (Q : request rd h o st = let! (rc, _, st') := add_entry rd (fun _ => None) h None e true st in Ok (rc, st')) by (destruct o; try discriminate; injection Eo as <-; reflexivity).
      rewrite Q. unfold add_entry. rewrite Ev, place_ok, Pl, (set_ptr_ok st j _ _ j' St N C). reflexivity. }
    split; [exact RQ|]. split; [exact (shaped_moved ks j _ j' A Sh M)|]. destruct M as (M1 & M2 & _).
    assert (NP : forall b w, ~ puts o b w) by (intros b w Q; destruct Q; discriminate).
    split; [|split].
    - intros b w B. assert (Ab : In b all_paths) by (apply in_or_app; now left).
      assert (Ls : forall x, last_put (done ++ [o]) b x <-> last_put done b x).
      { intros x. rewrite last_snoc. split; [intros [Q|[_ Q]]; [now elim (NP b x)|exact Q]|intros Q; right; split; [exact (NP b)|exact Q]]. }
      rewrite Ls. setoid_rewrite Ls. destruct (paths_apart ks b A Ab) as [E|Ap]; [|unfold at_; rewrite <- look_spec, (M2 _ Ap), look_spec; apply (D1 b w B)].
      exfalso. clear -I B E. revert ks b I B E.
      assert (H : forallb (fun a => forallb (fun b => negb (pathb (map zs a) (map zs b))) value_paths) entry_paths = true) by (vm_compute; reflexivity).
      intros ks b I B E. rewrite forallb_forall in H. specialize (H _ I). rewrite forallb_forall in H. specialize (H _ B).
      apply pathb_ok in E. rewrite E in H. discriminate.
    - intros b B. assert (Ab : In b all_paths) by (apply in_or_app; now right). destruct (paths_apart ks b A Ab) as [E|Ap].
      + exists (l ++ [v]). split.
        * rewrite filter_app. cbn [filter]. rewrite (entry_at_of o e b Eo), Pl, <- E. destruct (list_eq_dec _ _ _) as [_|Q]; [|congruence].
          apply Forall2_app; [|constructor; [exact (entered_of o e v Eo Sv)|constructor]].
          assert (Q : filter (entry_at b) done = filter (entry_at ks) done) by (apply filter_ext; intros p; unfold entry_at; now rewrite E). rewrite Q. exact F.
        * intros w. unfold at_. rewrite <- E, <- look_spec, M1. split.
          -- intros Q. injection Q as <-. split; [now destruct l|reflexivity].
          -- intros [_ ->]. reflexivity.
      + destruct (D2 b B) as (lb & Fb & Lb). exists lb. split.
        * rewrite filter_app. cbn [filter]. rewrite (entry_at_of o e b Eo), Pl. destruct (list_eq_dec _ _ _) as [Q|_]; [elim (path_neq _ _ Ap Q)|].
          rewrite app_nil_r. exact Fb.
        * intros w. unfold at_. rewrite <- look_spec, (M2 _ Ap), look_spec. apply Lb.
    - intros qs w G Q. refine (D3 qs w G _). rewrite Forall_forall in G. apply look_spec in Q. rewrite (M2 qs (G _ A)) in Q. now apply look_spec.
  Qed.

  Lemma requests_ok os : Forall good_request os -> forall done rc st j, stands st j -> shaped j -> document_of quality done j -> os <> [] ->
    exists j', requests rd h os rc st = Ok (0, after j') /\ shaped j' /\ document_of quality (done ++ os) j'.
  Proof.
    intros G. induction G as [|o os Go G IH]; intros done rc st j St Sh D N; [congruence|]. cbn [requests].
    assert (X : exists j', request rd h o st = Ok (0, after j') /\ shaped j' /\ document_of quality (done ++ [o]) j').
    { destruct Go as [(ks & v & I & P)|(e & Eo & Re)]; [exact (value_step done st j o ks v St Sh D I P)|exact (entry_step done st j o e St Sh D Eo Re)]. }
    destruct X as (j1 & -> & S1 & D1). cbn [bind]. destruct os as [|p os].
    - exists j1. split; [reflexivity|]. split; [exact S1|exact D1].
    - destruct (IH (done ++ [o]) 0 (after j1) j1 (stands_after j1) S1 D1 ltac:(discriminate)) as (j2 & E & S2 & D2). exists j2. split; [exact E|]. split; [exact S2|].
      rewrite <- app_assoc in D2. exact D2.
  Qed.
End Run.

(** ** All requests of a record *)

Definition start_of (quality : option Z) : jv := match quality with Some q => quality_of q | None => JObj [] end.

Lemma no_last ks v : ~ last_put [] ks v.
Proof. intros (a & o & b & E & _). destruct a; discriminate. Qed.

Lemma start_shaped quality : shaped (start_of quality).
Proof. unfold shaped. destruct quality as [q|]; repeat (apply Forall_cons; [exact I|]); exact (Forall_nil _). Qed.

Lemma start_look ks : In ks all_paths -> forall quality, look (start_of quality) (map zs ks) =
  match quality with Some q => if pathb (map zs ks) (map zs (fdsn "Time" "Quality")) then Some (JInt q) else None | None => None end.
Proof.
  intros I.
  assert (H : Forall (fun ks => forall quality, look (start_of quality) (map zs ks) =
    match quality with Some q => if pathb (map zs ks) (map zs (fdsn "Time" "Quality")) then Some (JInt q) else None | None => None end) all_paths).
  { repeat (apply Forall_cons; [intros [q|]; reflexivity|]). exact (Forall_nil _). }
  rewrite Forall_forall in H. exact (H ks I).
Qed.

Lemma start_beside quality qs : apart (map zs (fdsn "Time" "Quality")) qs -> look (start_of quality) qs = None.
Proof.
  intros (c & x & y & p & q & E & -> & N).
  assert (M : forall a (v : jv), a = x -> member [(a, v)] y = None).
  { intros a v ->. apply member_none. cbn [map fst In]. intros [H|[]]. now apply N. }
  assert (R : forall a (v : jv), member [(a, v)] a = Some v) by (intros a v; apply member_spec; exists [], []; split; [reflexivity|intros []]).
  destruct quality as [n|]; [|destruct c; reflexivity]. cbn [start_of]. unfold quality_of.
  destruct c as [|c0 c]; [injection E as E0 _; cbn [List.app]; rewrite look_obj, (M _ _ E0); reflexivity|]. injection E as <- E. cbn [List.app]. rewrite look_obj, R.
  destruct c as [|c0 c]; [injection E as E0 _; cbn [List.app]; rewrite look_obj, (M _ _ E0); reflexivity|]. injection E as <- E. cbn [List.app]. rewrite look_obj, R.
  destruct c as [|c0 c]; [injection E as E0 _; cbn [List.app]; rewrite look_obj, (M _ _ E0); reflexivity|]. injection E as <- E. destruct c; discriminate.
Qed.

Lemma start_document quality : document_of quality [] (start_of quality).
Proof.
  split; [|split].
  - intros ks v I. assert (A : In ks all_paths) by (apply in_or_app; now left). unfold at_. rewrite <- look_spec, (start_look ks A). split.
    + destruct quality as [q|]; [|discriminate]. destruct (pathb _ _) eqn:E; [|discriminate]. intros H. injection H as <-. right.
      apply pathb_ok in E. split; [|split; [intros w; apply no_last|exists q; auto]].
      clear -I E. revert ks I E.
      assert (H : Forall (fun ks => pathb (map zs ks) (map zs (fdsn "Time" "Quality")) = true -> ks = fdsn "Time" "Quality") value_paths).
      { repeat (apply Forall_cons; [intros H; first [discriminate H|reflexivity]|]). exact (Forall_nil _). }
      rewrite Forall_forall in H. intros ks I E. apply (H ks I). now apply pathb_ok.
    + intros [H|(-> & _ & q & -> & ->)]; [elim (no_last _ _ H)|]. reflexivity.
  - intros ks I. assert (A : In ks all_paths) by (apply in_or_app; now right). exists []. split; [constructor|]. intros v. unfold at_.
    rewrite <- look_spec, (start_look ks A). split; [|intros [H _]; congruence]. destruct quality as [q|]; [|discriminate].
    destruct I as [<-|[<-|[<-|[]]]]; discriminate.
  - intros qs w F Q. rewrite Forall_forall in F. apply look_spec in Q. rewrite start_beside in Q; [discriminate|]. apply F. vm_compute. tauto.
Qed.

Lemma byte_decimal_ne q : quality_doc q <> [].
Proof. unfold quality_doc. discriminate. Qed.

Lemma start_stands rd quality : reads_quality rd -> (forall q, quality = Some q -> 0 <= q <= 255) ->
  stands rd (heads_of (text_of_quality quality)) None (start_of quality).
Proof.
  intros R B. destruct quality as [q|]; cbn [text_of_quality heads_of start_of].
  - exists (mk_pstate (Some (quality_of q)) None). split; [|left; reflexivity]. unfold parse_json. cbn [e_text e_length].
    rewrite Nat2Z.id, firstn_all, (R q (B q eq_refl)).
    replace (Z.of_nat (List.length (quality_doc q)) =? 0) with false; [reflexivity|].
    symmetry. apply Z.eqb_neq. pose proof (byte_decimal_ne q). destruct (quality_doc q); [congruence|discriminate].
  - exists (mk_pstate None None). split; [reflexivity|]. right. auto.
Qed.

Lemma whole_ok rd quality os : reads_quality rd -> (forall q, quality = Some q -> 0 <= q <= 255) -> Forall good_request os -> os <> [] ->
  exists j, requests rd (heads_of (text_of_quality quality)) os 0 None = Ok (0, after j) /\ document_of quality os j.
Proof.
  intros R B G N. destruct (requests_ok rd (heads_of (text_of_quality quality)) quality os G [] 0 None (start_of quality) (start_stands rd quality R B)
    (start_shaped quality) (start_document quality) N) as (j & E & _ & D). exists j. auto.
Qed.
Lemma accepted_ok rd quality os : reads_quality rd -> (forall q, quality = Some q -> 0 <= q <= 255) -> Forall good_request os ->
  eh_fail rd (text_of_quality quality) os = false.
Proof.
  intros R B G. unfold eh_fail. destruct os as [|o os]; [reflexivity|].
  destruct (whole_ok rd quality (o :: os) R B G ltac:(discriminate)) as (j & -> & _). reflexivity.
Qed.
Lemma text_ok rd (wr : jv -> option (list Z)) quality (os : list ehop) : reads_quality rd -> (forall q, quality = Some q -> 0 <= q <= 255) -> Forall good_request os -> os <> [] ->
  exists j, document_of quality os j /\
    eh_text rd wr (text_of_quality quality) os =
    match wr j with Some t => if Z.of_nat (List.length t) <=? 65535 then t else or_else (text_of_quality quality) [] | None => or_else (text_of_quality quality) [] end.
Proof.
  intros R B G N. destruct (whole_ok rd quality os R B G N) as (j & E & D). exists j. split; [exact D|]. unfold eh_text. rewrite E. unfold after, serialize.
  destruct (wr j) as [t|]; [|now destruct quality]. rewrite Z.leb_antisym. destruct (65535 <? Z.of_nat (List.length t)); [now destruct quality|reflexivity].
Qed.
