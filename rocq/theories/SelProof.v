From Verif Require Import Base BaseLemmas GlobModel GlobSpec GlobProof SelModel SelSpec TimeModel.
Open Scope Z_scope.

Lemma is_set_spec t : is_set t = true <-> ~ open t.
Proof. unfold is_set, open. lia. Qed.

Lemma glob_doc p sid : documented p -> exists b, ms_globmatch sid p = Ok b /\ (b = true <-> matches p sid).
Proof.
  intros (t & P & N). destruct (glob_ok true (S (length p)) p t sid (le_n _) P) as (b & E & B).
  exists b. split; [exact E|]. cbn [view] in B. rewrite (loose_id t N) in B. rewrite B. split.
  - intros M. exists t. auto.
  - intros (t' & P' & N' & M). destruct (glob_ok true (S (length p)) p t' sid (le_n _) P') as (b' & E' & B').
    cbn [view] in B'. rewrite (loose_id t' N') in B'. rewrite E in E'. injection E' as <-. now apply B, B'.
Qed.


Lemma find_window_ok st en ws : ~ open st -> ~ open en -> st <= en -> Forall wellformed_window ws ->
  match find_window st en ws with
  | Some w => In w ws /\ overlaps st en w
  | None => forall w, In w ws -> ~ overlaps st en w
  end.
Proof.
  intros S E L F. apply is_set_spec in S. apply is_set_spec in E.
  induction ws as [|[a b] ws IH]; cbn [find_window]; [intros w []|].
  inversion F as [|? ? W F']; subst. specialize (IH F'). rewrite S, E. cbn [andb].
  assert (OV : overlaps st en (a, b) <-> (is_set a = true -> a <= en) /\ (is_set b = true -> st <= b)).
  { unfold overlaps. cbn [fst snd]. unfold wellformed_window in W. cbn [fst snd] in W. split.
    - intros (x & X & A & B). split; intros Q; apply is_set_spec in Q; [destruct A|destruct B]; try tauto; lia.
    - intros (A & B). assert (DA : open a \/ ~ open a) by (unfold open; lia).
      assert (DB : open b \/ ~ open b) by (unfold open; lia). destruct DA as [DA|DA].
      + exists st. split; [lia|]. split; [now left|]. destruct DB as [DB|DB]; [now left|]. right. now apply B, is_set_spec.
      + apply is_set_spec in DA. specialize (A DA). exists (Z.max a st). split; [lia|]. split; [right; lia|].
        destruct DB as [DB|DB]; [now left|]. right. pose proof DB as DB'. apply is_set_spec in DB. specialize (B DB).
        assert (a <= b); [|lia]. destruct W as [W|[W|W]]; [|tauto|auto]. apply is_set_spec in DA. tauto. }
  destruct (is_set a) eqn:SA; destruct (is_set b) eqn:SB; cbn [andb];
  repeat match goal with |- context [if ?c then _ else _] => let Q := fresh "Q" in destruct c eqn:Q end;
  try (destruct (find_window st en ws) as [w|];
       [destruct IH as [I O]; split; [now right|exact O]
       |intros w [X|X]; [subst w; rewrite OV; intros [A B]; try specialize (A eq_refl); try specialize (B eq_refl); lia|now apply IH]]);
  (split; [now left|]; apply OV; split; intros X; try discriminate X; lia).
Qed.


Lemma matchselect_ok l sid st en pv : wellformed l -> ~ open st -> ~ open en -> st <= en ->
  exists r, matchselect l sid st en pv = Ok r /\
    match r with
    | Some (e, w) => In e l /\ entry_selects e sid st en pv /\
        match w with None => s_win e = [] | Some w => In w (s_win e) /\ overlaps st en w end
    | None => ~ selected l sid st en pv
    end.
Proof.
  intros F S E L. induction F as [|e l (D & W & V) F IH]; cbn [matchselect].
  - exists None. split; auto. intros (e & [] & _).
  - destruct IH as (r & IE & IH).
    assert (SK : forall (N : ~ entry_selects e sid st en pv), exists r0, matchselect l sid st en pv = Ok r0 /\
      match r0 with
      | Some (e0, w) => In e0 (e :: l) /\ entry_selects e0 sid st en pv /\
          match w with None => s_win e0 = [] | Some w => In w (s_win e0) /\ overlaps st en w end
      | None => ~ selected (e :: l) sid st en pv
      end).
    { intros N. exists r. split; auto. destruct r as [[e0 w]|].
      - destruct IH as (I & IH). split; [now right|exact IH].
      - intros (e0 & [X|X] & H); [subst; auto|]. apply IH. exists e0. auto. }
    destruct (glob_doc (s_pat e) sid D) as (b & -> & B). cbn [bind]. destruct b.
    + assert (M : matches (s_pat e) sid) by now apply B.
      destruct ((0 <? s_ver e) && negb (s_ver e =? pv)) eqn:Q; [apply SK; intros (_ & Y & _); lia|].
      pose proof (find_window_ok st en (s_win e) S E L W) as FW.
      destruct (s_win e) as [|w0 ws] eqn:EW.
      * exists (Some (e, None)). split; auto. split; [now left|]. split; [|auto]. split; [auto|]. split; [lia|]. now left.
      * destruct (find_window st en (w0 :: ws)) as [w|].
        -- destruct FW as [I O]. exists (Some (e, Some w)). rewrite EW. split; auto. split; [now left|].
           split; [|auto]. split; [auto|]. split; [lia|]. right. exists w. rewrite EW. auto.
        -- apply SK. intros (_ & _ & [Y|(w & I & O)]); [congruence|]. rewrite EW in I. now apply (FW w I).
    + apply SK. intros (M & _). apply B in M. discriminate.
Qed.

Lemma find_window_taken st en ws :
  match find_window st en ws with
  | Some w => exists a b, ws = a ++ w :: b /\ taken st en w /\ Forall (fun x => ~ taken st en x) a
  | None => Forall (fun x => ~ taken st en x) ws
  end.
Proof.
  induction ws as [|[a b] ws IH]; cbn [find_window]; [constructor|].
  assert (ST : forall (N : ~ taken st en (a, b)),
    match find_window st en ws with
    | Some w => exists p q, (a, b) :: ws = p ++ w :: q /\ taken st en w /\ Forall (fun x => ~ taken st en x) p
    | None => Forall (fun x => ~ taken st en x) ((a, b) :: ws)
    end).
  { intros N. destruct (find_window st en ws) as [w|].
    - destruct IH as (p & q & -> & T & F). exists ((a, b) :: p), q. split; [reflexivity|]. split; [exact T|]. now constructor.
    - now constructor. }
  destruct (is_set st && is_set a && _) eqn:Q1; [|destruct (is_set en && is_set b && _) eqn:Q2].
  - apply ST. unfold taken, open, is_set in *. cbn [fst snd]. lia.
  - apply ST. unfold taken, open, is_set in *. cbn [fst snd]. lia.
  - exists [], ws. split; [reflexivity|]. split; [|constructor]. unfold taken, open, is_set in *. cbn [fst snd]. lia.
Qed.

Lemma matchselect_taken l sid st en pv : wellformed l ->
  exists r, matchselect l sid st en pv = Ok r /\
    match r with
    | Some (e, w) => exists a b, l = a ++ e :: b /\ entry_takes e sid st en pv /\
        Forall (fun x => ~ entry_takes x sid st en pv) a /\
        match w with
        | None => s_win e = []
        | Some w => exists p q, s_win e = p ++ w :: q /\ taken st en w /\ Forall (fun x => ~ taken st en x) p
        end
    | None => Forall (fun x => ~ entry_takes x sid st en pv) l
    end.
Proof.
  intros F. induction F as [|e l (D & W & V) F IH]; cbn [matchselect].
  - exists None. split; auto.
  - destruct IH as (r & IE & IH).
    assert (SK : forall (N : ~ entry_takes e sid st en pv), exists r0, matchselect l sid st en pv = Ok r0 /\
      match r0 with
      | Some (e0, w) => exists a b, e :: l = a ++ e0 :: b /\ entry_takes e0 sid st en pv /\
          Forall (fun x => ~ entry_takes x sid st en pv) a /\
          match w with
          | None => s_win e0 = []
          | Some w => exists p q, s_win e0 = p ++ w :: q /\ taken st en w /\ Forall (fun x => ~ taken st en x) p
          end
      | None => Forall (fun x => ~ entry_takes x sid st en pv) (e :: l)
      end).
    { intros N. exists r. split; auto. destruct r as [[e0 w]|].
      - destruct IH as (a & b & -> & T & A & R). exists (e :: a), b. split; [reflexivity|]. split; [exact T|]. split; [now constructor|exact R].
      - now constructor. }
    destruct (glob_doc (s_pat e) sid D) as (b & -> & B). cbn [bind]. destruct b.
    + assert (M : matches (s_pat e) sid) by now apply B.
      destruct ((0 <? s_ver e) && negb (s_ver e =? pv)) eqn:Q; [apply SK; intros (_ & Y & _); lia|].
      pose proof (find_window_taken st en (s_win e)) as FW.
      destruct (s_win e) as [|w0 ws] eqn:EW.
      * exists (Some (e, None)). split; auto. exists [], l. split; [reflexivity|]. split; [|split; [constructor|exact EW]].
        split; [exact M|]. split; [lia|]. now left.
      * destruct (find_window st en (w0 :: ws)) as [w|].
        -- destruct FW as (p & q & EQ & T & N). exists (Some (e, Some w)). split; auto. exists [], l. split; [reflexivity|].
           split; [|split; [constructor|rewrite EW; exists p, q; auto]].
           split; [exact M|]. split; [lia|]. right. exists w. split; [|exact T]. rewrite EW, EQ. apply in_elt.
        -- apply SK. intros (_ & _ & [Y|(w & I & O)]); [congruence|]. rewrite EW in I.
           rewrite Forall_forall in FW. now apply (FW w I).
    + apply SK. intros (M & _). apply B in M. discriminate.
Qed.

(** ** Adding *)
Lemma text_eqb_spec a b : text_eqb a b = true <-> a = b.
Proof. unfold text_eqb. destruct (list_eq_dec Z.eq_dec a b); split; congruence. Qed.

Lemma add_window_some l pat st en pv l' : add_window l pat st en pv = Some l' ->
  exists a e b, l = a ++ e :: b /\ s_pat e = pat /\ s_ver e = pv /\
    l' = a ++ {| s_pat := s_pat e; s_win := (st, en) :: s_win e; s_ver := s_ver e |} :: b.
Proof.
  revert l'. induction l as [|e l IH]; intros l'; cbn [add_window]; [discriminate|].
  destruct (text_eqb (s_pat e) pat && (s_ver e =? pv)) eqn:Q.
  - intros H; injection H as <-. exists [], e, l. apply andb_true_iff in Q. destruct Q as [Q1 Q2]. apply text_eqb_spec in Q1.
    repeat split; auto. lia.
  - destruct (add_window l pat st en pv) as [l0|]; [|discriminate]. intros H; injection H as <-.
    destruct (IH l0 eq_refl) as (a & e0 & b & -> & P & V & ->). exists (e :: a), e0, b. auto.
Qed.

(** The list is extended: exactly what was selected before or by the new entry, provided
    existing entries have windows (as every entry made by ms3_addselect has). *)
Lemma addselect_selected l pat wst wen pv sid st en qv :
  (length pat <= 99)%nat -> (forall e, In e l -> s_win e <> []) ->
  (selected (addselect l pat wst wen pv) sid st en qv <->
   selected l sid st en qv \/
   matches pat sid /\ (pv = 0 \/ pv = qv) /\ overlaps st en (wst, wen)).
Proof.
  intros L NE. unfold addselect. destruct (add_window l pat wst wen pv) as [l'|] eqn:A.
  - apply add_window_some in A. destruct A as (a & e & b & -> & P & V & ->).
    unfold selected. split.
    + intros (x & I & H). apply in_app_iff in I. destruct I as [I|[I|I]].
      * left. exists x. split; auto. apply in_app_iff; auto.
      * subst x. destruct H as (M & VV & [W|(w & [W|W] & O)]); cbn [s_pat s_ver s_win] in *.
        -- discriminate.
        -- subst w. right. rewrite P, V in *. auto.
        -- left. exists e. split; [apply in_app_iff; right; now left|]. repeat split; auto. right. eauto.
      * left. exists x. split; auto. apply in_app_iff; right; now right.
    + intros [(x & I & H)|(M & VV & O)].
      * apply in_app_iff in I. destruct I as [I|[I|I]].
        -- exists x. split; auto. apply in_app_iff; auto.
        -- subst x. eexists. split; [apply in_app_iff; right; left; reflexivity|].
           destruct H as (M & VV & W). repeat split; cbn [s_pat s_ver s_win]; auto. right.
           destruct W as [W|(w & W & O)]; [exfalso; apply (NE e); [apply in_app_iff; right; now left|exact W]|].
           exists w. split; [now right|exact O].
        -- exists x. split; auto. apply in_app_iff; right; now right.
      * eexists. split; [apply in_app_iff; right; left; reflexivity|].
        repeat split; cbn [s_pat s_ver s_win]; [congruence|rewrite V; auto|]. right. exists (wst, wen). split; [now left|exact O].
  - rewrite firstn_all2 by auto. unfold selected. split.
    + intros (x & [I|I] & H); [|eauto]. subst x. right. destruct H as (M & VV & [W|(w & [W|[]] & O)]); cbn [s_pat s_ver s_win] in *.
      * discriminate.
      * subst w. auto.
    + intros [(x & I & H)|(M & VV & O)].
      * exists x. split; [now right|exact H].
      * eexists. split; [left; reflexivity|]. repeat split; cbn [s_pat s_ver s_win]; auto. right. eexists. split; [now left|exact O].
Qed.

Lemma addselect_windows l pat wst wen pv : (forall e, In e l -> s_win e <> []) ->
  forall e, In e (addselect l pat wst wen pv) -> s_win e <> [].
Proof.
  intros NE. unfold addselect. destruct (add_window l pat wst wen pv) as [l'|] eqn:A.
  - apply add_window_some in A. destruct A as (a & e0 & b & -> & P & V & ->). intros e I.
    apply in_app_iff in I. destruct I as [I|[I|I]].
    + apply NE. apply in_app_iff; auto.
    + subst e. cbn [s_win]. discriminate.
    + apply NE. apply in_app_iff; right; now right.
  - intros e [I|I]; [subst e; cbn [s_win]; discriminate|auto].
Qed.


Lemma build_selected rs sid st en qv : Forall (fun r => (length (fst (fst r)) <= 99)%nat) rs ->
  (selected (build rs) sid st en qv <->
   exists p w v, In (p, w, v) rs /\ matches p sid /\ (v = 0 \/ v = qv) /\ overlaps st en w).
Proof.
  unfold build. intros F.
  assert (G : forall l, (forall e, In e l -> s_win e <> []) ->
    selected (fold_left (fun l r => let '(p, (a, b), v) := r in addselect l p a b v) rs l) sid st en qv <->
    selected l sid st en qv \/ exists p w v, In (p, w, v) rs /\ matches p sid /\ (v = 0 \/ v = qv) /\ overlaps st en w).
  { induction F as [|[[p [a b]] v] rs L F IH]; intros l NE; cbn [fold_left].
    - split; auto. intros [H|(p & w & v & [] & _)]; auto.
    - rewrite IH by now apply addselect_windows. cbn [fst] in L. rewrite addselect_selected by auto. split.
      + intros [[H|H]|(p' & w & v' & I & H)]; [auto| |].
        * right. exists p, (a, b), v. split; [now left|exact H].
        * right. exists p', w, v'. split; [now right|exact H].
      + intros [H|(p' & w & v' & [I|I] & H)]; [auto| |].
        * injection I as <- <- <-. left. right. exact H.
        * right. exists p', w, v'. auto. }
  rewrite G by (intros e []). split; [intros [(e & [] & _)|H]; exact H|auto].
Qed.
