From Verif Require Import Base BaseLemmas RecSpec RecProof ReadModel ReadSpec ReadProof.
From Coq Require Import ZifyBool.
Open Scope Z_scope.

(** ** Path suffixes *)

Lemma last_at_some s : forall i j t, last_at s i = Some (j, t) <->
  exists pre, s = pre ++ 64 :: t /\ j = i + lenZ pre /\ ~ In 64 t.
Proof.
  assert (N : forall s i, last_at s i = None <-> ~ In 64 s).
  { clear s. induction s as [|c s IH]; intros i; cbn [last_at In]; [tauto|].
    destruct (last_at s (i + 1)) as [x|] eqn:E.
    - split; [discriminate|]. intros H. exfalso. assert (~ In 64 s) as X by tauto. apply (IH (i + 1)) in X. congruence.
    - apply IH in E. destruct (Z.eqb_spec c 64); split; try discriminate; intuition. }
  induction s as [|c s IH]; intros i j t; cbn [last_at].
  - split; [discriminate|]. intros (pre & H & _). destruct pre; discriminate.
  - destruct (last_at s (i + 1)) as [x|] eqn:E.
    + split.
      * intros H. injection H as ->. apply IH in E. destruct E as (pre & -> & -> & H). exists (c :: pre).
        split; [reflexivity|]. split; [unfold lenZ; cbn [length]; lia|exact H].
      * intros (pre & H & -> & G). destruct pre as [|c' pre]; cbn [app] in H; injection H as -> H.
        { subst s. exfalso. apply (N t (i + 1)) in G. congruence. }
        assert (X : last_at s (i + 1) = Some (i + 1 + lenZ pre, t)) by (apply IH; eauto).
        rewrite X in E. injection E as <-. do 2 f_equal. unfold lenZ; cbn [length]; lia.
    + apply N in E. destruct (Z.eqb_spec c 64) as [->|C].
      * split.
        { intros H. injection H as <- <-. exists []. cbn. split; [reflexivity|]. split; [lia|exact E]. }
        { intros (pre & H & -> & G). destruct pre as [|c' pre]; cbn [app] in H; injection H as H; [subst|subst].
          - do 2 f_equal. cbn. lia.
          - exfalso. apply E. apply in_or_app. right. now left. }
      * split; [discriminate|]. intros (pre & H & _). destruct pre as [|c' pre]; cbn [app] in H; injection H as H; [congruence|subst].
        exfalso. apply E. apply in_or_app. right. now left.
Qed.

Lemma isdigit_iff c : isdigit c = true <-> 48 <= c <= 57.
Proof. unfold isdigit. lia. Qed.

Lemma walk_after s : forall a b x y, lenZ a <= 20 -> lenZ b <= 20 ->
  walk_range s a b true = Some (x, y) <-> (x = a /\ y = b ++ s /\ digits s /\ lenZ y <= 20).
Proof.
  induction s as [|c s IH]; intros a b x y La Lb; cbn [walk_range].
  - rewrite app_nil_r. split; [intros H; injection H as <- <-; repeat split; auto; constructor|intros (-> & -> & _); reflexivity].
  - destruct (isdigit c) eqn:D.
    + apply isdigit_iff in D.
      replace (21 <=? Z.of_nat (length a)) with false by (unfold lenZ in La; lia). cbn [orb].
      destruct (Z.leb_spec 21 (Z.of_nat (length (b ++ [c])))) as [L|L].
      * split; [discriminate|]. intros (_ & -> & _ & L'). exfalso. unfold lenZ in *. rewrite app_length in *. cbn [length] in *. lia.
      * rewrite IH by (unfold lenZ in *; lia). rewrite <- app_assoc. cbn [app].
        split; intros (H1 & H2 & H3 & H4); repeat split; auto; [now constructor|now inversion_clear H3].
    + split.
      * destruct (c =? 45); discriminate.
      * intros (_ & _ & H & _). exfalso. inversion_clear H as [|? ? X _]. apply isdigit_iff in X. congruence.
Qed.

Lemma walk_before s : forall a x y, lenZ a <= 20 ->
  walk_range s a [] false = Some (x, y) <->
  exists x', x = a ++ x' /\ range_text s x' y /\ lenZ x <= 20.
Proof.
  induction s as [|c s IH]; intros a x y La; cbn [walk_range].
  - split.
    + intros H. injection H as <- <-. exists []. rewrite app_nil_r. unfold range_text, digits. cbn. repeat split; auto; try lia; try constructor.
    + intros (x' & -> & (_ & _ & _ & _ & [[<- ->]|H]) & _); [now rewrite app_nil_r|destruct x'; discriminate].
  - destruct (isdigit c) eqn:D.
    + apply isdigit_iff in D. cbn [length Z.of_nat].
      destruct (Z.leb_spec 21 (Z.of_nat (length (a ++ [c])))) as [L|L]; cbn [orb].
      * split; [discriminate|]. intros (x' & -> & (_ & _ & _ & _ & [[<- ->]|H]) & L').
        { exfalso. unfold lenZ in *. rewrite app_length in *. cbn [length] in *. lia. }
        destruct x' as [|c' x']; cbn [app] in H; injection H as H; [lia|]. subst.
        exfalso. unfold lenZ in *. rewrite app_length in *. cbn [length] in *. lia.
      * change (21 <=? 0) with false. cbv iota. rewrite IH by (unfold lenZ in *; lia). split.
        { intros (x' & -> & (D1 & D2 & L1 & L2 & H) & L3). exists (c :: x'). rewrite <- app_assoc in *. cbn [app] in *.
          split; [reflexivity|]. split; [|exact L3]. unfold range_text. split; [now constructor|]. split; [exact D2|].
          split; [unfold lenZ in *; rewrite app_length in L3; lia|]. split; [exact L2|].
          destruct H as [[-> ->]| ->]; [left|right]; auto. }
        { intros (x' & -> & (D1 & D2 & L1 & L2 & H) & L3).
          destruct x' as [|c' x'].
          - exfalso. destruct H as [[H _]|H]; [discriminate|]. cbn [app] in H. injection H as H _. lia.
          - assert (E : c' = c) by (destruct H as [[H _]|H]; cbn [app] in H; injection H; auto). subst c'.
            exists x'. rewrite <- app_assoc. cbn [app]. split; [reflexivity|]. split; [|exact L3].
            inversion_clear D1. unfold range_text. split; [assumption|]. split; [exact D2|].
            split; [unfold lenZ in *; cbn [length] in L1; lia|]. split; [exact L2|].
            destruct H as [[H ->]|H]; cbn [app] in H; injection H as ->; auto. }
    + destruct (Z.eqb_spec c 45) as [->|C].
      * replace (21 <=? Z.of_nat (length a)) with false by (unfold lenZ in La; lia). cbn [orb length Z.of_nat].
        change (21 <=? 0) with false. cbv iota.
        rewrite walk_after by (auto; cbn; lia). cbn [app]. split.
        { intros (-> & -> & H & L). exists []. rewrite app_nil_r. split; [reflexivity|]. split; [|exact La].
          unfold range_text. split; [constructor|]. split; [exact H|]. split; [cbn; lia|]. split; [exact L|]. now right. }
        { intros (x' & -> & (D1 & D2 & L1 & L2 & H) & L3).
          destruct x' as [|c' x'].
          - rewrite app_nil_r. destruct H as [[H _]|H]; [discriminate|]. injection H as <-. auto.
          - exfalso. inversion_clear D1 as [|? ? X _]. destruct H as [[H _]|H]; cbn [app] in H; injection H as H _; subst c'; lia. }
      * split; [discriminate|]. intros (x' & -> & (D1 & D2 & L1 & L2 & H) & L3). exfalso.
        destruct x' as [|c' x'].
        { destruct H as [[H _]|H]; [discriminate|]. cbn [app] in H. injection H as H _. congruence. }
        { inversion_clear D1 as [|? ? X _]. apply isdigit_iff in X.
          destruct H as [[H _]|H]; cbn [app] in H; injection H as H _; subst c'; congruence. }
Qed.

Lemma range_no_at t a b : range_text t a b -> ~ In 64 t.
Proof.
  intros (D1 & D2 & _ & _ & [[-> _]| ->]) H.
  - apply (proj1 (Forall_forall _ _) D1) in H. lia.
  - apply in_app_or in H. destruct H as [H|[H|H]]; [|lia|].
    + apply (proj1 (Forall_forall _ _) D1) in H. lia.
    + apply (proj1 (Forall_forall _ _) D2) in H. lia.
Qed.

Lemma digits_value_app l : forall acc, fold_left (fun a c => 10 * a + (c - 48)) l acc = acc * 10 ^ lenZ l + value l.
Proof.
  induction l as [|c l IH]; intros acc; cbn [fold_left value]; [cbn; lia|]. rewrite IH.
  replace (lenZ (c :: l)) with (lenZ l + 1) by (unfold lenZ; cbn [length]; lia).
  rewrite Z.pow_add_r by (pose proof (lenZ_nonneg l); lia). lia.
Qed.

Lemma digits_value_eq l : digits_value l = value l.
Proof. unfold digits_value. rewrite digits_value_app. lia. Qed.

Lemma value_nonneg l : digits l -> 0 <= value l.
Proof.
  induction 1 as [|c l H _ IH]; cbn [value]; [lia|]. pose proof (Z.pow_nonneg 10 (lenZ l) ltac:(lia)). nia.
Qed.

Lemma offset_eq l : (match l with [] => 0 | _ => strtoull64 l end) = offset_of l.
Proof. destruct l; [reflexivity|]. unfold strtoull64, offset_of. now rewrite digits_value_eq. Qed.

Lemma offset_small l : digits l -> value l < 2 ^ 63 -> offset_of l = value l.
Proof.
  intros D H. pose proof (value_nonneg l D). unfold offset_of.
  rewrite Z.min_l by lia. apply swrap_id; [lia|]. unfold in_s. lia.
Qed.

Lemma range_iff path i x y : pathname_range path = Some (i, x, y) <->
  exists prefix t a b, path = prefix ++ 64 :: t /\ range_text t a b /\ i = lenZ prefix /\ x = offset_of a /\ y = offset_of b.
Proof.
  unfold pathname_range. split.
  - destruct (last_at path 0) as [[j t]|] eqn:E; [|discriminate]. apply last_at_some in E. destruct E as (pre & -> & -> & N).
    destruct (walk_range t [] [] false) as [[a b]|] eqn:W; [|discriminate].
    rewrite !offset_eq. intros H. injection H as <- <- <-. apply walk_before in W; [|cbn; lia]. destruct W as (x' & E' & T & _). cbn [app] in E'. subst x'.
    exists pre, t, a, b. repeat split; auto; apply T.
  - intros (pre & t & a & b & -> & T & -> & -> & ->).
    assert (E : last_at (pre ++ 64 :: t) 0 = Some (lenZ pre, t)).
    { apply last_at_some. exists pre. split; [reflexivity|]. split; [lia|]. eapply range_no_at; eauto. }
    rewrite E. assert (W : walk_range t [] [] false = Some (a, b)).
    { apply walk_before; [cbn; lia|]. exists a. split; [reflexivity|]. split; [exact T|apply T]. }
    rewrite W, !offset_eq. reflexivity.
Qed.

Lemma no_range path : (forall prefix t a b, path = prefix ++ 64 :: t -> ~ range_text t a b) -> pathname_range path = None.
Proof.
  intros H. destruct (pathname_range path) as [[[i x] y]|] eqn:E; [|reflexivity]. exfalso.
  apply range_iff in E. destruct E as (pre & t & a & b & E & T & _). eapply H; eauto.
Qed.

Lemma stored_unchanged flags path : lenZ path < 512 ->
  (forall prefix t a b, path = prefix ++ 64 :: t -> ~ range_text t a b) \/ has_flag flags 8 = false ->
  stored_path flags path = Ok (path, 0, 0).
Proof.
  intros L H. unfold stored_path, MSF_PNAMERANGE.
  replace (if has_flag flags 8 then pathname_range path else None) with (@None (Z * Z * Z)).
  - rewrite firstn_all2 by (unfold lenZ in L; lia). reflexivity.
  - destruct H as [H| ->]; [|reflexivity]. rewrite (no_range path H). now destruct (has_flag flags 8).
Qed.

Lemma open_range flags prefix t a b file : has_flag flags 8 = true -> range_text t a b -> lenZ prefix < 512 ->
  value a < 2 ^ 63 -> value b < 2 ^ 63 ->
  open_stream flags (prefix ++ 64 :: t) file =
  Ok (prefix, opened (skipn (Z.to_nat (value a)) file) (value a) (value b)).
Proof.
  intros F T L Va Vb. unfold open_stream, stored_path, MSF_PNAMERANGE. rewrite F.
  assert (D : digits a /\ digits b) by (unfold range_text in T; tauto). destruct D as [Da Db].
  assert (R : pathname_range (prefix ++ 64 :: t) = Some (lenZ prefix, value a, value b)).
  { apply range_iff. exists prefix, t, a, b. split; [reflexivity|]. split; [exact T|]. split; [reflexivity|].
    rewrite !offset_small by auto. auto. }
  rewrite R. replace (512 <=? lenZ prefix) with false by lia. cbn [bind].
  replace (firstn (Z.to_nat (lenZ prefix)) (prefix ++ 64 :: t)) with prefix
    by (unfold lenZ; now rewrite Nat2Z.id, firstn_app_exact).
  assert (M : (match prefix ++ 64 :: t with [45] => true | _ => false end) = false).
  { destruct prefix as [|c [|c' prefix]]; cbn [app]; [reflexivity| |].
    - destruct c as [|c|c]; try reflexivity. repeat (destruct c as [c|c|]; try reflexivity).
    - destruct c as [|c|c]; try reflexivity. repeat (destruct c as [c|c|]; try reflexivity). }
  rewrite M. pose proof (value_nonneg a Da). unfold opened. destruct (Z.ltb_spec 0 (value a)) as [P|P]; [reflexivity|].
  replace (value a) with 0 by lia. reflexivity.
Qed.

(** ** What is read lies in the range *)

Section Sound.
  Variable g : rconf.
  Variable sch : schedule.
  Variable last : Z.
  Hypothesis HD : delivers sch.
  Hypothesis HL : 0 <= last < 2 ^ 63 - 1.
  Hypothesis HU : forall b k m, g_unpack2 g b k = Ok m -> m_reclen m = k.

  Lemma unpack3_reclen hb mode addr flags buf reclen m : unpack3 hb mode addr flags buf reclen = Ok m -> m_reclen m = reclen.
  Proof.
    unfold unpack3. intros H.
    repeat match type of H with
    | (if ?b then _ else _) = _ => destruct b; try discriminate
    | (let! _ := ?x in _) = _ => destruct x; cbn [bind] in H; try discriminate
    end; injection H as <-; reflexivity.
  Qed.

  Lemma parse_sound addr flags b x : parse (g_unpack2 g) (g_hb g) (g_mode g) addr flags b = Ok x ->
    match x with PRec m => 40 <= m_reclen m <= lenZ b | PHint k => 0 < k end.
  Proof.
    unfold parse. intros H. destruct (detect (g_hb g) b) as [[fver reclen0]| | |]; cbn [bind] in H; try discriminate.
    unfold MINRECLEN, MAXRECLEN in H. change (Z.of_nat (length b)) with (lenZ b) in H.
    match type of H with context [if ?c then lenZ b else reclen0] => set (reclen := if c then lenZ b else reclen0) in * end.
    destruct (Z.ltb_spec reclen 0); [discriminate|]. destruct (Z.eqb_spec reclen 0); [injection H as <-; lia|].
    destruct ((reclen <? 40) || (10485760 <? reclen)) eqn:R; [discriminate|].
    destruct (Z.ltb_spec (lenZ b) reclen).
    { injection H as <-. destruct (10485760 <? reclen - lenZ b); lia. }
    destruct (fver =? 3).
    - destruct (unpack3 _ _ _ _ _ _) eqn:U; cbn [bind] in H; try discriminate. injection H as <-. apply unpack3_reclen in U. lia.
    - destruct (fver =? 2); [|discriminate]. destruct (g_unpack2 g b reclen) eqn:U; cbn [bind] in H; try discriminate.
      injection H as <-. apply HU in U. lia.
  Qed.

  Definition call_ok (p : Z) (r : list Z) (n : Z) (x : res (Z * option msr * stream)) : Prop :=
    forall rc m q', x = Ok (rc, Some m, q') ->
    exists p', p <= p' /\ within last p' /\ read_at g r (p' - p) m /\ 0 <= m_reclen m /\
      at_pos last q' (p' + m_reclen m) (skipn (Z.to_nat (p' + m_reclen m - p)) r) (n + 1).

  Lemma call_ok_skip p r n k x : 0 <= k -> call_ok (p + k) (skipn (Z.to_nat k) r) n x -> call_ok p r n x.
  Proof.
    intros K H rc m q' E. destruct (H rc m q' E) as (p' & P & W & (kk & addr & fl & m0 & Q & D) & Q0 & A). exists p'. split; [lia|]. split; [exact W|].
    rewrite skipn_skipn in Q, A.
    replace (Z.to_nat (p' - (p + k)) + Z.to_nat k)%nat with (Z.to_nat (p' - p)) in Q by lia.
    replace (Z.to_nat (p' + m_reclen m - (p + k)) + Z.to_nat k)%nat with (Z.to_nat (p' + m_reclen m - p)) in A by lia.
    split; [exists kk, addr, fl, m0; auto|auto].
  Qed.

  Lemma loop_sound : forall fuel q pv p r n, at_pos last q p r n -> (0 < pv -> buflen q < 10485760) ->
    call_ok p r n (read_loop fuel g sch q pv).
  Proof.
    induction fuel as [|fuel IH]; intros q pv p r n A V; [intros rc m q' E; discriminate|].
    assert (D : within last p \/ ~ within last p) by (unfold within; lia).
    destruct D as [W|W].
    2:{ rewrite (not_within g sch last HL q pv fuel p r n A W). intros rc m q' E; discriminate. }
    destruct (prelude g sch last HD HL fuel q pv p r n A W V) as (q1 & -> & A1 & _). clear A V.
    pose proof (buflen_eq _ _ _ _ _ A1) as [E1 E10].
    assert (B : buflen q1 <= 10485760) by (destruct A1 as (_ & _ & _ & X4 & X5 & _); unfold buflen, lenZ in *; lia).
    assert (AGAIN : forall k pv', 0 <= k <= buflen q1 -> (0 < pv' -> buflen q1 - k < 10485760) ->
      call_ok p r n (turn_end (read_loop fuel g sch) (advance q1 k) pv')).
    { intros k pv' K V'. unfold turn_end. destruct (_ && _); [intros rc m q' E; discriminate|].
      apply (call_ok_skip p r n k); [lia|]. apply IH; [now apply advance_ok|]. intros P. specialize (V' P).
      unfold buflen in *. cbn [advance q_buf q_off]. lia. }
    assert (ID : advance q1 0 = q1).
    { unfold advance. rewrite !Z.add_0_r. now destruct q1. }
    unfold read_turn. unfold MINRECLEN, MAXRECLEN, SKIPLEN.
    destruct (Z.ltb_spec (buflen q1) 40) as [S|S].
    { rewrite <- ID. apply AGAIN; lia. }
    match goal with |- call_ok _ _ _ match parse ?u ?hb ?mode ?addr ?fl ?b with _ => _ end => destruct (parse u hb mode addr fl b) as [[k|m]|c|u0|] eqn:P end;
      try (intros rc m q' E; discriminate).
    - apply parse_sound in P. destruct (Z.ltb_spec 10485760 (buflen q1 + k)) as [M|M].
      + destruct (has_flag (g_flags g) MSF_SKIPNOTDATA); [apply AGAIN; lia|intros rc m q' E; discriminate].
      + destruct (q_eof q1); [intros rc m q' E; discriminate|]. rewrite <- ID. apply AGAIN; lia.
    - pose proof (parse_sound _ _ _ _ P) as PS. cbn in PS. rewrite (here_eq _ _ _ _ _ A1) in P, PS.
      assert (HLn : m_reclen m <= buflen q1) by (unfold lenZ in PS; rewrite firstn_length in PS; lia).
      destruct (match g_select g with Some s => negb (s m) | None => false end); [apply AGAIN; lia|].
      assert (FIN : forall mm d, m_reclen mm = m_reclen m -> (mm = m \/ mm = with_data m d) -> call_ok p r n (Ok (MS_NOERROR, Some mm,
        mk_stream (q_buf (advance q1 (m_reclen mm))) (q_off (advance q1 (m_reclen mm))) (q_pos (advance q1 (m_reclen mm)))
          (q_count (advance q1 (m_reclen mm)) + 1) (q_end (advance q1 (m_reclen mm))) (q_rest (advance q1 (m_reclen mm)))
          (q_eof (advance q1 (m_reclen mm))) (q_reads (advance q1 (m_reclen mm)))))).
      { intros mm d Em Dm rc m' q' E. injection E as _ <- <-. exists p. split; [lia|]. split; [exact W|].
        split; [|split; [lia|]].
        - exists (Z.to_nat (buflen q1)), (g_base g + q_off q1).
          eexists. exists m. replace (p - p) with 0 by lia. cbn [Z.to_nat skipn]. split; [exact P|]. destruct Dm; eauto.
        - replace (p + m_reclen mm - p) with (m_reclen mm) by lia.
          pose proof (advance_ok _ _ _ _ _ (m_reclen mm) A1 ltac:(lia)) as AA.
          destruct AA as (B1 & B2 & B3). split; [exact B1|]. split; [|exact B3]. cbn [q_count advance] in *. lia. }
      destruct (_ && (0 <? m_cnt m)).
      + destruct (unpack_data _ _ _ _ _) as [d| | |]; cbn [bind]; try (intros rc m' q' E; discriminate). apply (FIN _ d); [reflexivity|now right].
      + cbn [bind]. apply (FIN m (SInt [])); [reflexivity|now left].
    - destruct (has_flag (g_flags g) MSF_SKIPNOTDATA); [apply AGAIN; lia|intros rc m q' E; discriminate].
  Qed.

  Lemma read_all_sound : forall calls q p r n l c, at_pos last q p r n -> read_all calls g sch q = Ok (l, c) ->
    forall p' m, In (p', m) l -> p <= p' /\ within last p' /\ read_at g r (p' - p) m.
  Proof.
    induction calls as [|calls IH]; intros q p r n l c A R p' m I; [discriminate|]. cbn [read_all] in R.
    unfold read_msr in R. destruct (read_loop (read_fuel q) g sch q 0) as [[[rc om] q']| | |] eqn:E; cbn [bind] in R; try discriminate.
    destruct om as [m1|]; [|injection R as <- _; contradiction].
    destruct (read_all calls g sch q') as [[l' c']| | |] eqn:E'; cbn [bind] in R; try discriminate. injection R as <- <-.
    destruct (loop_sound _ q 0 p r n A ltac:(lia) _ _ _ E) as (p1 & P & W & Q & Q0 & A').
    assert (EP : q_pos q' - m_reclen m1 = p1) by (destruct A' as (-> & _); lia). rewrite EP in I.
    destruct I as [I|I]; [injection I as <- <-; auto|].
    destruct (IH _ _ _ _ _ _ A' E' _ _ I) as (P' & W' & (kk & addr & fl & m0 & Q' & D)).
    split; [lia|]. split; [exact W'|]. exists kk, addr, fl, m0. split; [|exact D].
    rewrite skipn_skipn in Q'. replace (Z.to_nat (p' - p)) with (Z.to_nat (p' - (p1 + m_reclen m1)) + Z.to_nat (p1 + m_reclen m1 - p))%nat by lia. exact Q'.
  Qed.
End Sound.

Lemma range_read g sch prefix t a b file :
  has_flag (g_flags g) 8 = true -> range_text t a b -> lenZ prefix < 512 ->
  value a < 2 ^ 63 -> value b < 2 ^ 63 - 1 -> value a + lenZ file < 2 ^ 63 -> bytes_ok file -> delivers sch ->
  (forall buf k m, g_unpack2 g buf k = Ok m -> m_reclen m = k) ->
  exists q, open_stream (g_flags g) (prefix ++ 64 :: t) file = Ok (prefix, q) /\
    forall calls l c, read_all calls g sch q = Ok (l, c) ->
    forall p m, In (p, m) l ->
      value a <= p /\ (value b <> 0 -> p + 40 <= value b + 1) /\ read_at g file p m.
Proof.
  intros F T L Va Vb S B D U. eexists. split; [apply (open_range _ prefix t a b); auto; lia|].
  assert (Da : digits a /\ digits b) by (unfold range_text in T; tauto). destruct Da as [Da Db].
  pose proof (value_nonneg a Da). pose proof (value_nonneg b Db).
  intros calls l c R p m I.
  assert (A : at_pos (value b) (opened (skipn (Z.to_nat (value a)) file) (value a) (value b)) (value a) (skipn (Z.to_nat (value a)) file) 0).
  { apply opened_at; [now apply bytes_skipn|lia|]. unfold lenZ in *. rewrite skipn_length. lia. }
  destruct (read_all_sound g sch (value b) D ltac:(lia) U calls _ _ _ _ l c A R p m I) as (P & W & (k & addr & fl & m0 & E & X)).
  split; [exact P|]. split; [unfold within in W; lia|]. exists k, addr, fl, m0. split; [|exact X].
  rewrite skipn_skipn in E. replace (Z.to_nat p) with (Z.to_nat (p - value a) + Z.to_nat (value a))%nat by lia. exact E.
Qed.
