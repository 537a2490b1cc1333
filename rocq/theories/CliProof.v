(** * Proofs about the command line. *)
From Verif Require Import Base BaseLemmas GlobModel GlobSpec GlobProof SelModel SelProof CliModel CliSpec TimeModel.
Open Scope Z_scope.

(** ** Time limits *)
Lemma time_keeps_ok ts te st en : st <= en -> time_keeps ts te st en = true <-> in_limits ts te st en.
Proof.
  intros L. unfold time_keeps, in_limits.
  destruct (Z.eqb_spec ts NSTERROR); destruct (Z.eqb_spec te NSTERROR); cbn [negb orb andb];
  repeat match goal with |- context [if ?c then _ else _] => let Q := fresh "Q" in destruct c eqn:Q end;
  split; intros H; try discriminate H; try reflexivity; lia.
Qed.


Lemma keeps_ok ts te m rj r : pattern_ok m -> pattern_ok rj -> c_start r <= c_end r ->
  exists b, keeps (settings_of ts te m rj) r = Ok b /\ (b = true <-> passes ts te m rj r).
Proof.
  intros PM PR L. unfold keeps, settings_of. cbn [o_ts o_te o_match o_reject].
  pose proof (time_keeps_ok ts te _ _ L) as T. unfold passes.
  destruct (time_keeps ts te (c_start r) (c_end r)); cbn [negb].
  2:{ exists false. split; auto. split; [discriminate|]. intros (X & _). apply T in X. discriminate. }
  assert (HM : exists b, match option_map (fun x => contains_pattern (fst x)) m with None => Ok true | Some p => my_globmatch (c_sid r) p end = Ok b /\
     (b = true <-> forall p t, m = Some (p, t) -> contains p (c_sid r) t)).
  { destruct m as [[p t]|]; cbn [option_map fst].
    - destruct (contains_ok p t (c_sid r) (PM p t eq_refl)) as (b & E & B). exists b. split; auto. rewrite B. split.
      + intros H p' t' X; injection X as <- <-. exact H.
      + intros H. exact (H p t eq_refl).
    - exists true. split; auto. split; [intros _ p t X; discriminate X|auto]. }
  destruct HM as (b & -> & B). cbn [bind]. destruct b; cbn [negb].
  2:{ exists false. split; auto. split; [discriminate|]. intros (_ & X & _). apply B in X. discriminate. }
  assert (HR : exists b, match option_map (fun x => contains_pattern (fst x)) rj with None => Ok false | Some p => my_globmatch (c_sid r) p end = Ok b /\
     (b = false <-> forall p t, rj = Some (p, t) -> ~ contains p (c_sid r) t)).
  { destruct rj as [[p t]|]; cbn [option_map fst].
    - destruct (contains_ok p t (c_sid r) (PR p t eq_refl)) as (b & E & B'). exists b. split; auto. split.
      + intros -> p' t' X; injection X as <- <-. intros Y. apply B' in Y. discriminate.
      + intros H. specialize (H p t eq_refl). destruct b; auto. exfalso. apply H, B'. reflexivity.
    - exists false. split; auto. split; [intros _ p t X; discriminate X|auto]. }
  destruct HR as (x & -> & X). cbn [bind]. exists (negb x). split; auto. split.
  - intros Q. split; [now apply T|]. split; [now apply B|]. apply X. now destruct x.
  - intros (_ & _ & Q). apply X in Q. now subst x.
Qed.

(** ** The loops *)
Section Loops.
Variables (o : settings) (keep : crec -> bool).

Record follows (s s' : mstate) (l : list crec) : Prop :=
  { fo_done : st_done s' = st_done s ++ l;
    fo_left : st_left s' = if st_left s <? 0 then st_left s else st_left s - Z.of_nat (length l);
    fo_recs : st_recs s' = st_recs s + Z.of_nat (length l);
    fo_samps : st_samps s' = st_samps s + sum_samples l;
    fo_files : st_files s' = st_files s;
    fo_out : st_out s' = st_out s ++ concat (map c_bytes l) }.

Lemma sum_samples_app a b : sum_samples (a ++ b) = sum_samples a + sum_samples b.
Proof. unfold sum_samples. induction a; cbn [app fold_right]; lia. Qed.
Lemma sum_samples_nonneg l : Forall (fun r => 0 <= c_cnt r) l -> 0 <= sum_samples l.
Proof. unfold sum_samples. induction 1; cbn [fold_right]; lia. Qed.

Lemma first_n_nil {A} n : @first_n A n [] = [].
Proof. unfold first_n. destruct (n <? 0); auto. now rewrite firstn_nil. Qed.
Lemma first_n_cons {A} n (a : A) l : n <> 0 -> first_n n (a :: l) = a :: first_n (if 0 <? n then n - 1 else n) l.
Proof.
  intros N. unfold first_n. destruct (Z.ltb_spec n 0).
  - destruct (Z.ltb_spec 0 n); [lia|]. destruct (Z.ltb_spec n 0); [auto|lia].
  - destruct (Z.ltb_spec 0 n); [|lia]. destruct (Z.ltb_spec (n - 1) 0); [lia|].
    replace (Z.to_nat n) with (S (Z.to_nat (n - 1))) by lia. reflexivity.
Qed.
Lemma first_n_length {A} n (l : list A) : 0 <= n -> Z.of_nat (length (first_n n l)) = Z.min n (Z.of_nat (length l)).
Proof. intros N. unfold first_n. destruct (Z.ltb_spec n 0); [lia|]. rewrite firstn_length. lia. Qed.
Lemma first_n_length_le {A} n (l : list A) : (length (first_n n l) <= length l)%nat.
Proof. unfold first_n. destruct (n <? 0); auto. rewrite firstn_length. lia. Qed.
Lemma first_n_app {A} n (a b : list A) :
  first_n n (a ++ b) = first_n n a ++ first_n (if n <? 0 then n else n - Z.of_nat (length (first_n n a))) b.
Proof.
  unfold first_n. destruct (Z.ltb_spec n 0).
  - destruct (Z.ltb_spec n 0); [auto|lia].
  - rewrite firstn_length. destruct (Z.ltb_spec (n - Z.of_nat (Nat.min (Z.to_nat n) (length a))) 0); [lia|].
    rewrite firstn_app. f_equal. destruct (Nat.le_gt_cases (Z.to_nat n) (length a)).
    + replace (Z.to_nat n - length a)%nat with O by lia.
      replace (Z.to_nat (n - Z.of_nat (Nat.min (Z.to_nat n) (length a)))) with O by lia. reflexivity.
    + f_equal. lia.
Qed.

Lemma file_loop_ok rs : forall s,
  (forall r, In r rs -> keeps o r = Ok (keep r)) ->
  Forall (fun r => 0 <= c_cnt r) rs ->
  0 <= st_recs s -> 0 <= st_samps s ->
  st_recs s + Z.of_nat (length rs) < 2 ^ 63 -> st_samps s + sum_samples rs < 2 ^ 63 ->
  exists s', file_loop o rs s = Ok s' /\ follows s s' (first_n (st_left s) (filter keep rs)).
Proof.
  induction rs as [|r rs IH]; intros s K P R0 S0 R1 S1; cbn [file_loop].
  - exists s. split; [now destruct (st_left s =? 0)|]. cbn [filter]. rewrite first_n_nil.
    constructor; cbn [length map concat sum_samples fold_right]; rewrite ?app_nil_r; auto; try lia.
    destruct (st_left s <? 0); lia.
  - destruct (Z.eqb_spec (st_left s) 0) as [Z0|N0].
    + exists s. split; auto. assert (E : first_n (st_left s) (filter keep (r :: rs)) = []) by (rewrite Z0; reflexivity).
      rewrite E. constructor; cbn [length map concat sum_samples fold_right]; rewrite ?app_nil_r; auto; try lia.
      destruct (st_left s <? 0); lia.
    + inversion P as [|? ? P0 P1]; subst. cbn [length] in R1. cbn [sum_samples fold_right] in S1. fold (sum_samples rs) in S1.
      pose proof (sum_samples_nonneg rs P1) as SN.
      rewrite (K r) by now left. cbn [bind filter]. destruct (keep r).
      * unfold process. rewrite !sarith_ok by (unfold in_s; lia). cbn [bind].
        match goal with |- exists s', file_loop o rs ?x = _ /\ _ => set (s1 := x) end.
        destruct (IH s1) as (s' & E & F); subst s1; cbn [st_recs st_samps st_left]; auto; try lia.
        { intros r0 I. apply K. now right. }
        exists s'. split; auto. rewrite first_n_cons by auto. destruct F as [F1 F2 F3 F4 F5 F6].
        cbn [st_done st_left st_recs st_samps st_files st_out] in *.
        constructor; cbn [length map concat sum_samples fold_right].
        -- rewrite F1, <- app_assoc. reflexivity.
        -- rewrite F2. destruct (Z.ltb_spec 0 (st_left s)); destruct (Z.ltb_spec (st_left s) 0); try lia.
           destruct (Z.ltb_spec (st_left s - 1) 0); lia.
        -- rewrite F3. lia.
        -- rewrite F4. fold (sum_samples (first_n (if 0 <? st_left s then st_left s - 1 else st_left s) (filter keep rs))). lia.
        -- exact F5.
        -- rewrite F6, <- app_assoc. reflexivity.
      * apply IH; auto; try lia. intros r0 I. apply K. now right.
Qed.

Lemma filter_length_le {A} (f : A -> bool) l : (length (filter f l) <= length l)%nat.
Proof. induction l; cbn [filter length]; auto. destruct (f a); cbn [length]; lia. Qed.
Lemma sum_filter f l : Forall (fun r => 0 <= c_cnt r) l -> sum_samples (filter f l) <= sum_samples l.
Proof. unfold sum_samples. induction 1; cbn [filter fold_right]; [lia|]. destruct (f x); cbn [fold_right]; lia. Qed.
Lemma sum_first_n n l : Forall (fun r => 0 <= c_cnt r) l -> sum_samples (first_n n l) <= sum_samples l.
Proof.
  intros F. unfold first_n. destruct (n <? 0); [lia|]. rewrite <- (firstn_skipn (Z.to_nat n) l) at 2.
  rewrite sum_samples_app. pose proof (sum_samples_nonneg (skipn (Z.to_nat n) l)). 
  assert (Forall (fun r => 0 <= c_cnt r) (skipn (Z.to_nat n) l)) by (rewrite <- (firstn_skipn (Z.to_nat n) l) in F; now apply Forall_app in F).
  intuition lia.
Qed.
Lemma Forall_filter' {A} (P : A -> Prop) f l : Forall P l -> Forall P (filter f l).
Proof. induction 1; cbn [filter]; auto. destruct (f x); auto. Qed.

Record follows_all (s s' : mstate) (l : list crec) : Prop :=
  { fa_done : st_done s' = st_done s ++ l;
    fa_left : st_left s' = if st_left s <? 0 then st_left s else st_left s - Z.of_nat (length l);
    fa_recs : st_recs s' = st_recs s + Z.of_nat (length l);
    fa_samps : st_samps s' = st_samps s + sum_samples l;
    fa_out : st_out s' = st_out s ++ concat (map c_bytes l) }.

Lemma files_loop_ok fs : forall s,
  (forall r, In r (readable fs) -> keeps o r = Ok (keep r)) ->
  Forall (fun r => 0 <= c_cnt r) (readable fs) ->
  0 <= st_recs s -> 0 <= st_samps s -> 0 <= st_files s ->
  st_recs s + Z.of_nat (length (readable fs)) < 2 ^ 63 -> st_samps s + sum_samples (readable fs) < 2 ^ 63 ->
  st_files s + Z.of_nat (length fs) < 2 ^ 63 ->
  exists s' bad, files_loop o fs s = Ok (s', bad) /\
    follows_all s s' (first_n (st_left s) (filter keep (readable fs))) /\
    (bad = true <-> ~ all_good fs /\ (st_left s < 0 \/ Z.of_nat (length (filter keep (readable fs))) < st_left s)) /\
    (bad = false -> st_files s' = st_files s + Z.of_nat (length fs)).
Proof.
  induction fs as [|f fs IH]; intros s K P R0 S0 F0 R1 S1 F1; cbn [files_loop].
  - exists s, false. split; auto. cbn [readable filter]. rewrite first_n_nil. split; [|split].
    + constructor; cbn [length map concat sum_samples fold_right]; rewrite ?app_nil_r; auto; try lia.
      destruct (st_left s <? 0); lia.
    + split; [discriminate|]. intros (X & _). exfalso. apply X. constructor.
    + cbn [length]. lia.
  - cbn [readable] in *.
    assert (PF : Forall (fun r => 0 <= c_cnt r) (f_recs f)) by now apply Forall_app in P.
    assert (PR : Forall (fun r => 0 <= c_cnt r) (if f_ret f =? 1 then readable fs else [])) by now apply Forall_app in P.
    rewrite app_length in R1. rewrite sum_samples_app in S1. pose proof (sum_samples_nonneg _ PF). pose proof (sum_samples_nonneg _ PR).
    destruct (file_loop_ok (f_recs f) s) as (s1 & E1 & [G1 G2 G3 G4 G5 G6]); auto; try lia.
    { intros r I. apply K. apply in_app_iff. auto. }
    rewrite E1. cbn [bind].
    set (k1 := filter keep (f_recs f)) in *. set (n := st_left s) in *.
    assert (LK : (length k1 <= length (f_recs f))%nat) by (subst k1; apply filter_length_le).
    pose proof (first_n_length_le n k1) as LF.
    assert (SK : sum_samples (first_n n k1) <= sum_samples (f_recs f)).
    { subst k1. etransitivity; [apply sum_first_n, Forall_filter', PF|apply sum_filter, PF]. }
    assert (SK0 : 0 <= sum_samples (first_n n k1)).
    { apply sum_samples_nonneg. unfold first_n. destruct (n <? 0); [now apply Forall_filter'|].
      apply Forall_firstn. now apply Forall_filter'. }
    destruct (Z.eqb_spec (f_ret f) 1) as [RG|RB]; cbn [negb andb].
    + rewrite sarith_ok by (unfold in_s; cbn [length] in F1; lia). cbn [bind].
      match goal with |- exists s' bad, files_loop o fs ?x = _ /\ _ => set (s2 := x) end.
      destruct (IH s2) as (s' & bad & E & [A1 A2 A3 A4 A5] & B & C); subst s2; cbn [st_recs st_samps st_files st_left]; auto; try lia.
      { intros r I. apply K. apply in_app_iff. auto. }
      { cbn [length] in F1. lia. }
      exists s', bad. split; auto. cbn [st_done st_left st_recs st_samps st_files st_out] in *.
      rewrite filter_app. fold k1. rewrite first_n_app. rewrite <- G2.
      split; [|split].
      * constructor.
        -- rewrite A1, G1, <- app_assoc. reflexivity.
        -- change (st_left s) with n. rewrite A2, app_length, G2. rewrite Nat2Z.inj_add. destruct (Z.ltb_spec n 0) as [N0|N0].
           ++ destruct (Z.ltb_spec n 0); lia.
           ++ pose proof (first_n_length n k1 ltac:(lia)). destruct (Z.ltb_spec (n - Z.of_nat (length (first_n n k1))) 0); lia.
        -- rewrite A3, G3, app_length, Nat2Z.inj_add. lia.
        -- rewrite A4, G4, sum_samples_app. lia.
        -- rewrite A5, G6, map_app, concat_app, <- app_assoc. reflexivity.
      * rewrite B. rewrite G2, app_length, Nat2Z.inj_add. split.
        -- intros (X & Y). split; [intros Z1; apply X; now inversion Z1|].
           destruct (Z.ltb_spec n 0); [lia|]. pose proof (first_n_length n k1 ltac:(lia)). lia.
        -- intros (X & Y). split; [intros Z1; apply X; now constructor|].
           destruct (Z.ltb_spec n 0); [lia|]. pose proof (first_n_length n k1 ltac:(lia)). lia.
      * intros Hb. rewrite (C Hb), G5. cbn [length]. lia.
    + rewrite app_nil_r in *. fold k1.
      destruct (Z.eqb_spec (st_left s1) 0) as [L0|L0]; cbn [negb].
      * (* the count is used up: nothing more is read *)
        assert (NN : 0 <= n) by (rewrite G2 in L0; destruct (Z.ltb_spec n 0); lia).
        pose proof (first_n_length n k1 NN) as FL.
        assert (DONE : forall fs' sx, st_left sx = 0 -> 0 <= st_files sx -> st_files sx + Z.of_nat (length fs') < 2 ^ 63 ->
          files_loop o fs' sx = Ok ({| st_done := st_done sx; st_left := st_left sx; st_recs := st_recs sx; st_samps := st_samps sx;
                                      st_files := st_files sx + Z.of_nat (length fs'); st_out := st_out sx |}, false)).
        { induction fs' as [|g fs' IHf]; intros sx Z0 Z1 Z2; cbn [files_loop length].
          - rewrite Z.add_0_r. destruct sx; reflexivity.
          - assert (FL0 : file_loop o (f_recs g) sx = Ok sx) by (destruct (f_recs g); cbn [file_loop]; rewrite Z0; reflexivity).
            rewrite FL0. cbn [bind]. rewrite Z0. cbn [Z.eqb negb]. rewrite andb_false_r. cbn [length] in Z2.
            rewrite sarith_ok by (unfold in_s; lia). cbn [bind].
            rewrite IHf; cbn [st_left st_recs st_files st_done st_samps st_out]; auto; try lia. do 3 f_equal. lia. }
        rewrite sarith_ok by (unfold in_s; cbn [length] in F1; lia). cbn [bind].
        rewrite DONE; cbn [st_left st_recs st_files st_done st_samps st_out]; auto; try lia.
        2:{ cbn [length] in F1. lia. }
        eexists _, false. split; [reflexivity|]. split; [|split].
        -- constructor; cbn [st_left st_recs st_files st_done st_samps st_out]; auto.
        -- split; [discriminate|]. intros (_ & Y). rewrite G2 in L0. destruct (Z.ltb_spec n 0); lia.
        -- intros _. cbn [st_files length]. lia.
      * exists s1, true. split; auto. split; [now constructor|]. split; [|discriminate].
        split; auto. intros _. split; [intros X; inversion X; congruence|].
        rewrite G2 in L0. destruct (Z.ltb_spec n 0); [now left|]. right. pose proof (first_n_length n k1 ltac:(lia)). lia.
Qed.
End Loops.

Lemma run_ok ts te m rj n fs keep :
  pattern_ok m -> pattern_ok rj ->
  Forall (fun r => c_start r <= c_end r /\ 0 <= c_cnt r) (readable fs) ->
  (forall r, In r (readable fs) -> (keep r = true <-> passes ts te m rj r)) ->
  Z.of_nat (length (readable fs)) < 2 ^ 63 -> sum_samples (readable fs) < 2 ^ 63 -> Z.of_nat (length fs) < 2 ^ 63 ->
  exists s bad, run (settings_of ts te m rj) n fs = Ok (s, bad) /\
    let done := first_n n (filter keep (readable fs)) in
    st_done s = done /\ st_recs s = Z.of_nat (length done) /\ st_samps s = sum_samples done /\
    st_out s = concat (map c_bytes done) /\
    (bad = true <-> ~ all_good fs /\ (n < 0 \/ Z.of_nat (length (filter keep (readable fs))) < n)) /\
    (bad = false -> st_files s = Z.of_nat (length fs)).
Proof.
  intros PM PR F K L S N.
  unfold run. destruct (files_loop_ok (settings_of ts te m rj) keep fs
    {| st_done := []; st_left := n; st_recs := 0; st_samps := 0; st_files := 0; st_out := [] |}) as (s & bad & E & [A1 A2 A3 A4 A5] & B & C);
  cbn [st_recs st_samps st_files st_left]; auto; try lia.
  - intros r I. specialize (K r I). apply (proj1 (Forall_forall _ _) F) in I. destruct I as [I1 I2].
    destruct (keeps_ok ts te m rj r PM PR I1) as (b & -> & Hb). f_equal.
    rewrite <- K in Hb. clear - Hb. destruct b, (keep r); intuition congruence.
  - eapply Forall_impl; [|exact F]. cbn. tauto.
  - exists s, bad. split; auto. cbn [st_done st_left st_recs st_samps st_files st_out app] in *.
    split; [exact A1|]. split; [lia|]. split; [lia|]. split; [exact A5|]. split; [exact B|].
    intros Hb. rewrite (C Hb). lia.
Qed.

(** ** List files *)
Lemma fgets_line k l rest : ~ In 10 l -> (length l < k)%nat -> fgets k (l ++ 10 :: rest) = (l ++ [10], rest).
Proof.
  revert l. induction k; intros l N L; [lia|]. destruct l as [|c l]; cbn [app fgets].
  - reflexivity.
  - destruct (Z.eqb_spec c 10) as [->|D]; [exfalso; apply N; now left|]. cbn [length] in L.
    rewrite IHk; [reflexivity|intros X; apply N; now right|lia].
Qed.
Lemma fgets_full k l rest : ~ In 10 l -> length l = k -> fgets k (l ++ rest) = (l, rest).
Proof.
  revert l. induction k; intros l N L.
  - destruct l; [|discriminate]. destruct rest; reflexivity.
  - destruct l as [|c l]; [discriminate|]. cbn [app fgets]. destruct (Z.eqb_spec c 10) as [->|D]; [exfalso; apply N; now left|].
    rewrite IHk; [reflexivity|intros X; apply N; now right|now injection L].
Qed.
Lemma fgets_end k l : ~ In 10 l -> (length l <= k)%nat -> fgets k l = (l, []).
Proof.
  revert l. induction k; intros l N L.
  - destruct l; [reflexivity|cbn [length] in L; lia].
  - destruct l as [|c l]; [reflexivity|]. cbn [fgets]. destruct (Z.eqb_spec c 10) as [->|D]; [exfalso; apply N; now left|].
    cbn [length] in L. rewrite IHk; [reflexivity|intros X; apply N; now right|lia].
Qed.
Lemma until_none x l : ~ In x l -> until x l = l.
Proof.
  induction l as [|c l IH]; intros N; cbn [until]; auto. destruct (Z.eqb_spec c x) as [->|]; [exfalso; apply N; now left|].
  f_equal. apply IH. intros X; apply N; now right.
Qed.
Lemma until_app x l r : ~ In x l -> until x (l ++ x :: r) = l.
Proof.
  induction l as [|c l IH]; intros N; cbn [app until]; [now rewrite Z.eqb_refl|].
  destruct (Z.eqb_spec c x) as [->|]; [exfalso; apply N; now left|]. f_equal. apply IH. intros X; apply N; now right.
Qed.


Lemma list_step fuel (buf rest : list Z) c more ent : fgets 1023 (c :: more) = (buf, rest) -> until 10 (until 0 buf) = ent ->
  list_loop (S fuel) (c :: more) =
  let! m := list_loop fuel rest in if names_a_file ent then Ok (ent :: m) else Ok m.
Proof.
  intros E1 E2. cbn [list_loop]. rewrite E1, E2. destruct ent as [|x ent]; cbn [names_a_file].
  - now destruct (list_loop fuel rest).
  - destruct (list_loop fuel rest); cbn [bind]; auto. now destruct (x =? 35).
Qed.

Lemma list_ok ls : forall last fuel, Forall good_line ls -> good_line last -> (length (text_of ls last) <= fuel)%nat ->
  list_loop fuel (text_of ls last) = Ok (filter names_a_file (ls ++ [last])).
Proof.
  assert (LAST : forall last fuel, good_line last -> (length last <= fuel)%nat ->
    list_loop fuel last = Ok (filter names_a_file [last])).
  { intros last fuel (N & Z0 & L) F. destruct last as [|c last]; [destruct fuel; reflexivity|].
    destruct fuel; [cbn [length] in F; lia|].
    rewrite (list_step fuel (c :: last) [] c last (c :: last)).
    - assert (EN : list_loop fuel [] = Ok []) by (destruct fuel; reflexivity). rewrite EN. cbn [bind filter].
      destruct (names_a_file (c :: last)); reflexivity.
    - apply fgets_end; auto.
    - rewrite (until_none 0) by auto. now apply until_none. }
  unfold text_of. induction ls as [|l ls IH]; intros last fuel G GL F; cbn [map concat app].
  - now apply LAST.
  - inversion G as [|? ? (N & Z0 & L) G']; subst. cbn [map concat] in F. rewrite <- !app_assoc in *. cbn [app] in *.
    set (tail := concat (map (fun l => l ++ [10]) ls) ++ last) in *.
    rewrite app_length in F. cbn [length] in F.
    assert (IHt : forall fu, (length tail <= fu)%nat -> list_loop fu tail = Ok (filter names_a_file (ls ++ [last]))) by (intros; now apply IH).
    clearbody tail. cbn [filter]. fold (filter names_a_file (ls ++ [last])).
    destruct (Nat.lt_ge_cases (length l) 1023) as [LT|GE].
    + (* the line and its newline fit *)
      assert (FG : fgets 1023 (l ++ 10 :: tail) = (l ++ [10], tail)) by now apply fgets_line.
      destruct fuel; [lia|].
      assert (X : exists c more, l ++ 10 :: tail = c :: more) by (destruct l; cbn [app]; eauto).
      destruct X as (c & more & X). rewrite X in *.
      rewrite (list_step fuel (l ++ [10]) tail c more l FG).
      * rewrite IHt by lia. cbn [bind]. now destruct (names_a_file l).
      * rewrite (until_none 0); [now apply until_app|]. rewrite in_app_iff. intros [Y|[Y|[]]]; [auto|discriminate].
    + (* exactly 1023 characters: the newline is read by the next call *)
      assert (LE : length l = 1023%nat) by lia.
      assert (FG : fgets 1023 (l ++ 10 :: tail) = (l, 10 :: tail)) by now apply fgets_full.
      destruct fuel; [lia|]. destruct fuel; [lia|].
      assert (X : exists c more, l ++ 10 :: tail = c :: more) by (destruct l; cbn [app]; eauto).
      destruct X as (c & more & X). rewrite X in *.
      rewrite (list_step (S fuel) l (10 :: tail) c more l FG).
      * rewrite (list_step fuel [10] tail 10 tail []).
        -- rewrite IHt by lia. cbn [bind names_a_file]. now destruct (names_a_file l).
        -- apply (fgets_line 1023 [] tail); [intros []|cbn [length]; lia].
        -- reflexivity.
      * rewrite (until_none 0) by auto. now apply until_none.
Qed.

(** Any content at all: the fuel is enough. *)
Lemma fgets_shorter k c content : (0 < k)%nat -> (length (snd (fgets k (c :: content))) <= length content)%nat.
Proof.
  destruct k; [lia|]. intros _. cbn [fgets]. destruct (c =? 10); [cbn [snd]; lia|].
  assert (H : forall k l, (length (snd (fgets k l)) <= length l)%nat).
  { clear. induction k; intros l; destruct l as [|c l]; cbn [fgets snd length]; auto.
    destruct (c =? 10); [cbn [snd]; lia|]. specialize (IHk l). destruct (fgets k l). cbn [snd] in *. lia. }
  specialize (H k content). destruct (fgets k content). exact H.
Qed.
Lemma list_total fuel : forall content, (length content <= fuel)%nat -> exists l, list_loop fuel content = Ok l.
Proof.
  induction fuel; intros content L; destruct content as [|c more]; try (eexists; reflexivity); [cbn [length] in L; lia|].
  destruct (fgets 1023 (c :: more)) as [buf rest] eqn:E.
  rewrite (list_step fuel buf rest c more _ E eq_refl).
  pose proof (fgets_shorter 1023 c more ltac:(lia)) as SH. rewrite E in SH. cbn [snd] in SH. cbn [length] in L.
  destruct (IHfuel rest) as (l & ->); [lia|]. cbn [bind]. destruct (names_a_file _); eauto.
Qed.

(** ** Arguments *)
Lemma mem_text_spec a l : mem_text a l = true <-> In a l.
Proof.
  unfold mem_text. rewrite existsb_exists. split.
  - intros (x & I & E). apply text_eqb_spec in E. now subst.
  - intros I. exists a. split; auto. now apply text_eqb_spec.
Qed.

Lemma getoptval_ok opt v rest :
  (takes opt v -> getoptval opt (v :: rest) = Some v) /\ (~ takes opt v -> getoptval opt (v :: rest) = None).
Proof.
  cbn [getoptval].
  assert (DIG : forall d, forallb isdigit d = true <-> Forall (fun c => 48 <= c <= 57) d).
  { intros d. rewrite forallb_forall, Forall_forall. unfold isdigit. split; intros H c I; specialize (H c I); lia. }
  assert (LN : (exists v', v = 45 :: v') -> (lisnumber v = true <-> negative_number v)).
  { intros (v' & ->). unfold lisnumber. cbn [Z.eqb Pos.eqb]. rewrite DIG. unfold negative_number. split.
    - intros H. eauto.
    - intros (d & E & H). injection E as ->. exact H. }
  destruct (text_eqb opt opt_o && text_eqb v [45]) eqn:Q1.
  - apply andb_true_iff in Q1. destruct Q1 as [Q1 Q2]. apply text_eqb_spec in Q1. apply text_eqb_spec in Q2.
    split; auto. intros N. exfalso. apply N. right. left. auto.
  - assert (NO : ~ (opt = opt_o /\ v = [45])).
    { intros [X Y]. apply text_eqb_spec in X. apply text_eqb_spec in Y. rewrite X, Y in Q1. discriminate. }
    assert (GM : text_eqb opt opt_gmin || text_eqb opt opt_gmax = true <-> opt = opt_gmin \/ opt = opt_gmax).
    { rewrite orb_true_iff, !text_eqb_spec. tauto. }
    destruct ((text_eqb opt opt_gmin || text_eqb opt opt_gmax) && lisnumber v) eqn:Q2.
    + apply andb_true_iff in Q2. destruct Q2 as [Q2 Q3]. split; auto. intros N. exfalso. apply N.
      destruct v as [|c v]; [left; intros v' X; discriminate X|]. destruct (Z.eq_dec c 45) as [->|D].
      * right. right. split; [now apply GM|]. apply LN; eauto.
      * left. intros v' X. congruence.
    + destruct v as [|c v]; [split; auto; intros N; exfalso; apply N; left; discriminate|].
      destruct (Z.eqb_spec c 45) as [->|D].
      * split; auto. intros [T|[T|[T1 T2]]].
        -- exfalso. now apply (T v).
        -- tauto.
        -- exfalso. apply LN in T2; [|eauto]. apply GM in T1. rewrite T1, T2 in Q2. discriminate.
      * split; auto. intros N. exfalso. apply N. left. intros v' X. congruence.
Qed.

Lemma takes_dec opt v : takes opt v \/ ~ takes opt v.
Proof.
  destruct (getoptval_ok opt v []) as [_ H2].
  destruct (getoptval opt [v]) as [x|] eqn:E.
  - left. unfold takes. cbn [getoptval] in E.
    destruct (text_eqb opt opt_o && text_eqb v [45]) eqn:Q1.
    + apply andb_true_iff in Q1. rewrite !text_eqb_spec in Q1. tauto.
    + destruct ((text_eqb opt opt_gmin || text_eqb opt opt_gmax) && lisnumber v) eqn:Q2.
      * apply andb_true_iff in Q2. rewrite orb_true_iff, !text_eqb_spec in Q2. destruct Q2 as [Q2 Q3].
        destruct v as [|c v]; [left; discriminate|]. destruct (Z.eq_dec c 45) as [->|D]; [|left; intros v' X; congruence].
        right. right. split; auto. exists v. split; auto. unfold lisnumber in Q3. cbn [Z.eqb Pos.eqb] in Q3.
        rewrite forallb_forall in Q3. apply Forall_forall. intros y I. specialize (Q3 y I). unfold isdigit in Q3. lia.
      * destruct v as [|c v]; [left; discriminate|]. destruct (Z.eqb_spec c 45); [discriminate|]. left. intros v' X; congruence.
  - right. intros T. destruct (getoptval_ok opt v []) as [H1 _]. rewrite (H1 T) in E. discriminate.
Qed.

Lemma value_option_shape a : In a value_options -> text_eqb a [45; 86] = false /\ text_eqb a [45; 104] = false /\ starts2 45 118 a = false.
Proof. unfold value_options. cbn [In]. intros H. repeat destruct H as [<-|H]; try (repeat split; reflexivity). destruct H. Qed.
Lemma flag_option_shape a : In a flag_options -> text_eqb a [45; 86] = false /\ text_eqb a [45; 104] = false /\
  starts2 45 118 a = false /\ mem_text a value_options = false.
Proof. unfold flag_options. cbn [In]. intros H. repeat destruct H as [<-|H]; try (repeat split; reflexivity). destruct H. Qed.
Lemma prefix_shape c s : c = 118 \/ c = 112 -> text_eqb (45 :: c :: s) [45; 86] = false /\ text_eqb (45 :: c :: s) [45; 104] = false /\
  mem_text (45 :: c :: s) value_options = false /\ mem_text (45 :: c :: s) flag_options = false.
Proof.
  intros C. assert (E : forall l, mem_text (45 :: c :: s) l = true -> In (45 :: c :: s) l) by (intros l H; now apply mem_text_spec).
  split; [|split; [|split]].
  - destruct (text_eqb _ _) eqn:Q; auto. apply text_eqb_spec in Q. injection Q; lia.
  - destruct (text_eqb _ _) eqn:Q; auto. apply text_eqb_spec in Q. injection Q; lia.
  - destruct (mem_text _ _) eqn:Q; auto. apply E in Q. unfold value_options, opt_gmin, opt_gmax, opt_o in Q. cbn [In] in Q.
    repeat destruct Q as [Q|Q]; try (injection Q; intros; lia). destruct Q.
  - destruct (mem_text _ _) eqn:Q; auto. apply E in Q. unfold flag_options in Q. cbn [In] in Q.
    repeat destruct Q as [Q|Q]; try (injection Q; intros; lia). destruct Q.
Qed.
Lemma starts2_spec a b s : starts2 a b s = true <-> exists r, s = a :: b :: r.
Proof.
  destruct s as [|x [|y s]]; cbn [starts2]; try (split; [discriminate|intros (r & E); discriminate]).
  rewrite andb_true_iff, !Z.eqb_eq. split.
  - intros [-> ->]. eauto.
  - intros (r & E). injection E; auto.
Qed.

(** The last case distinction of the loop. *)
Definition tail_case {A} (a : list Z) (u : A) (l : list Z -> A) (f : A) : A :=
  match a with 45 :: _ :: _ => u | 64 :: name => l name | _ => f end.
Lemma tail_case_opt {A} c s (u : A) l f : tail_case (45 :: c :: s) u l f = u.
Proof. reflexivity. Qed.
Lemma tail_case_list {A} s (u : A) l f : tail_case (64 :: s) u l f = l s.
Proof. destruct s; reflexivity. Qed.
Lemma tail_case_file {A} a (u : A) l f : (forall s, s <> [] -> a <> 45 :: s) -> (forall s, a <> 64 :: s) -> tail_case a u l f = f.
Proof.
  intros H1 H2. destruct a as [|x a]; [reflexivity|]. destruct (Z.eq_dec x 45) as [->|N].
  - destruct a as [|y a]; [reflexivity|]. exfalso. apply (H1 (y :: a)); [discriminate|reflexivity].
  - destruct (Z.eq_dec x 64) as [->|N2]; [exfalso; now apply (H2 a)|]. unfold tail_case.
    destruct x as [|p|p]; auto. repeat (destruct p; auto); congruence.
Qed.

Lemma text_neq a b : a <> b -> text_eqb a b = false.
Proof. intros N. destruct (text_eqb a b) eqn:Q; auto. apply text_eqb_spec in Q. contradiction. Qed.
Lemma starts2_neq a b s : (forall r, s <> a :: b :: r) -> starts2 a b s = false.
Proof. intros N. destruct (starts2 a b s) eqn:Q; auto. apply starts2_spec in Q. destruct Q as (r & Q). exfalso. now apply (N r). Qed.
Lemma mem_neq a l : ~ In a l -> mem_text a l = false.
Proof. intros N. destruct (mem_text a l) eqn:Q; auto. apply mem_text_spec in Q. contradiction. Qed.

Lemma args_step fuel a rest : args_loop (S fuel) (a :: rest) =
    if text_eqb a [45; 86] then ([], AVersion)
    else if text_eqb a [45; 104] then ([], AHelp)
    else if starts2 45 118 a then let (e, x) := args_loop fuel rest in (EFlag a :: e, x)
    else if mem_text a value_options then
      match getoptval a rest with
      | None => ([], ANoValue a)
      | Some v => let (e, x) := args_loop fuel (tl rest) in (EValue a v :: e, x)
      end
    else if mem_text a flag_options || starts2 45 112 a then
      let (e, x) := args_loop fuel rest in (EFlag a :: e, x)
    else tail_case a ([], AUnknown a)
      (fun name => let (e, x) := args_loop fuel rest in (EList name :: e, x))
      (let (e, x) := args_loop fuel rest in (EFile a :: e, x)).
Proof. reflexivity. Qed.

Lemma args_loop_ok args e x : reads args e x -> forall fuel, (length args <= fuel)%nat -> args_loop fuel args = (e, x).
Proof.
  induction 1 as [ |rest|rest|o v rest e x I T R IH|o I|o v rest I T|o rest e x I R IH|s rest N NV NF N1 N2 N3 N4|name rest e x R IH|a rest e x H1 H2 R IH];
  intros fuel L; cbn [length] in L; try (destruct fuel as [|fuel]; [solve [lia | reflexivity]|]).
  - reflexivity.
  - reflexivity.
  - reflexivity.
  - rewrite args_step. destruct (value_option_shape o I) as (-> & -> & ->). rewrite (proj2 (mem_text_spec o _) I).
    destruct (getoptval_ok o v rest) as [G _]. rewrite (G T). cbn [tl]. rewrite IH by lia. reflexivity.
  - rewrite args_step. destruct (value_option_shape o I) as (-> & -> & ->). rewrite (proj2 (mem_text_spec o _) I). reflexivity.
  - rewrite args_step. destruct (value_option_shape o I) as (-> & -> & ->). rewrite (proj2 (mem_text_spec o _) I).
    destruct (getoptval_ok o v rest) as [_ G]. rewrite (G T). reflexivity.
  - rewrite args_step. rewrite IH by lia. destruct I as [I|(s & [->| ->])].
    + destruct (flag_option_shape o I) as (-> & -> & -> & ->). rewrite (proj2 (mem_text_spec o _) I). reflexivity.
    + destruct (prefix_shape 118 s (or_introl eq_refl)) as (-> & -> & -> & ->). reflexivity.
    + destruct (prefix_shape 112 s (or_intror eq_refl)) as (-> & -> & -> & ->). reflexivity.
  - rewrite args_step.
    assert (E1 : text_eqb (45 :: s) [45; 86] = false) by (apply text_neq; congruence).
    assert (E2 : text_eqb (45 :: s) [45; 104] = false) by (apply text_neq; congruence).
    assert (E3 : starts2 45 118 (45 :: s) = false) by (apply starts2_neq; intros r Q; injection Q as Q; now apply (N1 r)).
    assert (E4 : starts2 45 112 (45 :: s) = false) by (apply starts2_neq; intros r Q; injection Q as Q; now apply (N2 r)).
    assert (E5 : mem_text (45 :: s) value_options = false) by now apply mem_neq.
    assert (E6 : mem_text (45 :: s) flag_options = false) by now apply mem_neq.
    rewrite E1, E2, E3, E4, E5, E6. cbn [orb]. destruct s; [congruence|]. apply tail_case_opt.
  - rewrite args_step. rewrite IH by lia.
    assert (E : forall l, Forall (fun o => exists s, o = 45 :: s) l -> mem_text (64 :: name) l = false).
    { intros l F. destruct (mem_text _ _) eqn:Q; auto. apply mem_text_spec in Q. apply (proj1 (Forall_forall _ _) F) in Q. destruct Q as (s & Q). discriminate. }
    assert (EV : Forall (fun o : list Z => exists s, o = 45 :: s) value_options) by (unfold value_options, opt_o, opt_gmin, opt_gmax; repeat constructor; eauto).
    assert (EF : Forall (fun o : list Z => exists s, o = 45 :: s) flag_options) by (unfold flag_options; repeat constructor; eauto).
    rewrite (E _ EV), (E _ EF).
    assert (E1 : text_eqb (64 :: name) [45; 86] = false) by (apply text_neq; congruence).
    assert (E2 : text_eqb (64 :: name) [45; 104] = false) by (apply text_neq; congruence).
    rewrite E1, E2.
    assert (E3 : forall c, starts2 45 c (64 :: name) = false) by (intros c; apply starts2_neq; congruence).
    rewrite !E3. cbn [orb]. rewrite tail_case_list. reflexivity.
  - rewrite args_step. rewrite IH by lia.
    assert (E : forall l, Forall (fun o => exists c s, o = 45 :: c :: s) l -> mem_text a l = false).
    { intros l F. destruct (mem_text _ _) eqn:Q; auto. apply mem_text_spec in Q. apply (proj1 (Forall_forall _ _) F) in Q. destruct Q as (c & s & Q).
      exfalso. apply (H1 (c :: s)); [discriminate|exact Q]. }
    assert (EV : Forall (fun o : list Z => exists c s, o = 45 :: c :: s) value_options) by (unfold value_options, opt_o, opt_gmin, opt_gmax; repeat constructor; eauto).
    assert (EF : Forall (fun o : list Z => exists c s, o = 45 :: c :: s) flag_options) by (unfold flag_options; repeat constructor; eauto).
    rewrite (E _ EV), (E _ EF).
    assert (E1 : text_eqb a [45; 86] = false) by (apply text_neq, H1; discriminate).
    assert (E2 : text_eqb a [45; 104] = false) by (apply text_neq, H1; discriminate).
    assert (E3 : forall c, starts2 45 c a = false) by (intros c; apply starts2_neq; intros r; apply H1; discriminate).
    rewrite E1, E2, !E3. cbn [orb]. now apply tail_case_file.
Qed.

(** Every argument vector has a reading. *)
Lemma reads_total args : exists e x, reads args e x.
Proof.
  assert (G : forall n args, (length args <= n)%nat -> exists e x, reads args e x).
  { induction n; intros [|a rest] L; try (exists [], AEnd; constructor); [cbn [length] in L; lia|]. cbn [length] in L.
    destruct (IHn rest) as (e & x & R); [lia|].
    destruct (list_eq_dec Z.eq_dec a [45; 86]) as [->|NV]; [eexists; eexists; apply r_version|].
    destruct (list_eq_dec Z.eq_dec a [45; 104]) as [->|NH]; [eexists; eexists; apply r_help|].
    destruct (in_dec (list_eq_dec Z.eq_dec) a value_options) as [IV|IV].
    { destruct rest as [|v rest]; [eexists; eexists; now apply r_novalue_end|].
      destruct (takes_dec a v) as [T|T]; [|eexists; eexists; now apply r_novalue].
      cbn [length] in L. destruct (IHn rest) as (e' & x' & R'); [lia|]. eexists; eexists; apply r_value; eauto. }
    destruct (in_dec (list_eq_dec Z.eq_dec) a flag_options) as [IF|IF]; [eexists; eexists; apply r_flag; eauto|].
    destruct a as [|c a].
    { eexists; eexists; apply r_file; eauto; discriminate. }
    destruct (Z.eq_dec c 45) as [->|N45].
    - destruct a as [|d a].
      + eexists; eexists; apply r_file; eauto; [|discriminate]. intros s S X. injection X as <-. congruence.
      + destruct (Z.eq_dec d 118) as [->|N118]; [eexists; eexists; apply r_flag; eauto|].
        destruct (Z.eq_dec d 112) as [->|N112]; [eexists; eexists; apply r_flag; eauto|].
        eexists; eexists; apply r_unknown; auto; try congruence; try (intros s' X; congruence); discriminate.
    - destruct (Z.eq_dec c 64) as [->|N64].
      + eexists; eexists; apply r_list; eauto.
      + eexists; eexists; apply r_file; eauto; intros; congruence. }
  exact (G (length args) args (le_n _)).
Qed.

Lemma process_args_ok args e x : reads args e x <-> process_args args = (e, x).
Proof.
  split.
  - intros R. exact (args_loop_ok args e x R _ (le_n _)).
  - intros E. destruct (reads_total args) as (e' & x' & R). pose proof (args_loop_ok args e' x' R _ (le_n _)) as E'.
    unfold process_args in E. rewrite E' in E. injection E as <- <-. exact R.
Qed.
