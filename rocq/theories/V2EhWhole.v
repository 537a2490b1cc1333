(** * Reading version 2 records with their extra headers. *)

From Coq Require Import String QArith Lqa Qabs.
From Verif Require Import Base BaseLemmas RecModel RecSpec EhModel EhSpec V2Model V2RecSpec V2Rate V2RecParse V2EhModel V2EhSpec V2EhProof V2EhRead.
Open Scope Z_scope.
Open Scope list_scope.

(** ** Readers that accept the requests made *)

Definition accepts (J : json) (x : option (list Z)) (ops : list ehop) : Prop := forall p r, ops = p ++ r -> p <> [] -> j_fail J x p = false.
(** [st'] is reached from [st] by further requests. *)
Definition further (st st' : v2st) : Prop := exists r, s_ops st' = s_ops st ++ r /\ (s_ops st <> [] -> s_extra st' = s_extra st).

Lemma further_refl st st' : s_ops st' = s_ops st -> s_extra st' = s_extra st -> further st st'.
Proof. intros A B. exists []. rewrite app_nil_r. auto. Qed.
Lemma further_trans a b c : further a b -> further b c -> further a c.
Proof.
  intros (r & A & B) (s & C & D). exists (r ++ s). rewrite C, A, app_assoc. split; [reflexivity|]. intros N. rewrite D, B; auto. rewrite A. now destruct (s_ops a).
Qed.
Lemma accepts_further J st st' : further st st' -> accepts J (s_extra st') (s_ops st') -> accepts J (s_extra st) (s_ops st).
Proof.
  intros (r & A & B) C p q E N. rewrite <- B; [|rewrite E; now destruct p]. apply (C p (q ++ r)); [|exact N]. rewrite A, E, app_assoc. reflexivity.
Qed.
Lemma add_same J0 J o st st' : headers_accepted J0 -> add_op J0 o st = Ok st' ->
  further st st' /\ (accepts J (s_extra st') (s_ops st') -> add_op J o st = Ok st').
Proof.
  intros H. unfold add_op. cbv zeta. rewrite H. intros E. injection E as <-. split.
  - exists [o]. split; [reflexivity|]. intros _. reflexivity.
  - intros A. rewrite (A (s_ops (with_op o st)) []); [reflexivity|now rewrite app_nil_r|cbn; now destruct (s_ops st)].
Qed.
Ltac undo := repeat match goal with H : bind ?x _ = Ok _ |- _ => let E := fresh "E" in destruct x eqn:E; cbn [bind] in H; try discriminate H end.
Ltac undo1 := match goal with H : bind ?x _ = Ok _ |- _ => let E := fresh "E" in destruct x eqn:E; cbn [bind] in H |- *; try discriminate H end.

Lemma blockette_same J0 J hb sw mode rec type o st st' : headers_accepted J0 -> blockette J0 hb sw mode rec type o st = Ok st' ->
  further st st' /\ (accepts J (s_extra st') (s_ops st') -> blockette J hb sw mode rec type o st = Ok st').
Proof.
  intros H. unfold blockette.
  destruct (type =? 100). { intros E. undo1. injection E as <-. split; [apply further_refl; reflexivity|auto]. }
  destruct (type =? 200). { unfold blk200. intros E. do 6 undo1. exact (add_same J0 J _ st st' H E). }
  destruct (type =? 201). { unfold blk201. intros E. do 9 undo1. exact (add_same J0 J _ st st' H E). }
  destruct (type =? 300). { unfold blk300. intros E. do 10 undo1. exact (add_same J0 J _ st st' H E). }
  destruct (type =? 310). { unfold blk310. intros E. do 9 undo1. exact (add_same J0 J _ st st' H E). }
  destruct (type =? 320). { unfold blk320. intros E. do 9 undo1. exact (add_same J0 J _ st st' H E). }
  destruct (type =? 390). { unfold blk390. intros E. do 5 undo1. exact (add_same J0 J _ st st' H E). }
  destruct (type =? 395). { unfold blk395. intros E. do 1 undo1. exact (add_same J0 J _ st st' H E). }
  destruct (type =? 500).
  { unfold blk500. intros E. do 8 undo1. destruct (add_op J0 _ st) as [st1| | |] eqn:A; cbn [bind] in E; try discriminate E.
    undo1. injection E as <-. destruct (add_same J0 J _ st st1 H A) as [F S].
    assert (F2 : further st1 (with_op (HStr "/FDSN/Clock/Model" a7) st1)) by (exists [HStr "/FDSN/Clock/Model" a7]; split; reflexivity).
    split; [exact (further_trans _ _ _ F F2)|]. intros C. rewrite (S (accepts_further J _ _ F2 C)). reflexivity. }
  destruct (type =? 1000). { intros E. split; [|auto]. unfold blk1000 in E. undo1. destruct (32 <=? a); [discriminate|]. undo1. injection E as <-. apply further_refl; reflexivity. }
  destruct (type =? 1001).
  { intros E. split; [|auto]. unfold blk1001 in E. undo1. injection E as <-. cbn [s_ops]. destruct (s_ops st) as [|p ps] eqn:P.
    - exists []. cbn [s_ops]. rewrite P. split; [reflexivity|]. intros N. congruence.
    - exists [HInt "/FDSN/Time/Quality" a]. cbn [s_ops s_extra with_op]. rewrite P. split; reflexivity. }
  intros E. split; [|auto]. injection E as <-. apply further_refl; reflexivity.
Qed.
Lemma blockettes_same J0 J hb sw mode rec reclen : headers_accepted J0 -> forall fuel off st st', blockettes fuel J0 hb sw mode rec reclen off st = Ok st' ->
  further st st' /\ (accepts J (s_extra st') (s_ops st') -> blockettes fuel J hb sw mode rec reclen off st = Ok st').
Proof.
  intros H. induction fuel as [|fuel IH]; intros off st st' E; [discriminate|]. cbn [blockettes] in E |- *.
  assert (K : Ok st = Ok st' -> further st st' /\ (accepts J (s_extra st') (s_ops st') -> Ok st = Ok st')).
  { intros Q. injection Q as <-. split; [apply further_refl; reflexivity|auto]. }
  destruct (negb (off =? 0) && (off <? reclen) && (off <? MAXRECLEN)); [|exact (K E)].
  do 3 undo1. destruct (a1 =? 0); [exact (K E)|]. destruct (reclen <? off + a1); [exact (K E)|]. cbv zeta in E |- *.
  destruct (blockette J0 hb sw mode rec a off (visited (off + a1) st)) as [st1| | |] eqn:B; cbn [bind] in E; try discriminate E.
  destruct (blockette_same J0 J _ _ _ _ _ _ _ _ H B) as [F S].
  assert (F0 : further st (visited (off + a1) st)) by (apply further_refl; reflexivity).
  destruct (IH _ _ _ E) as [F2 S2]. split; [exact (further_trans _ _ _ F0 (further_trans _ _ _ F F2))|].
  intros C. rewrite (S (accepts_further J _ _ F2 C)). cbn [bind]. exact (S2 C).
Qed.

(** A reader of headers that never refuses, and one that tells whether [J] would have. *)
Definition lenient (J : json) : json := mk_json (fun _ _ => false) (j_text J).
Definition refuses (J : json) (x : option (list Z)) (ops : list ehop) : bool := existsb (fun n => j_fail J x (firstn n ops)) (seq 1 (List.length ops)).
Definition watch (J : json) : json := mk_json (fun _ _ => false) (fun x ops => if refuses J x ops then [1] else [0]).
Lemma refuses_ok J x ops : refuses J x ops = false -> accepts J x ops.
Proof.
  intros R p r -> N. destruct (j_fail J x p) eqn:F; [|reflexivity]. exfalso. assert (T : refuses J x (p ++ r) = true); [|congruence].
  apply existsb_exists. exists (List.length p). split.
  - apply in_seq. rewrite app_length. destruct p; [congruence|cbn [List.length]; lia].
  - rewrite firstn_app, Nat.sub_diag, firstn_all. cbn [firstn]. rewrite app_nil_r. exact F.
Qed.

Ltac undo2 E W := match type of E with bind ?x _ = Ok _ => destruct x; cbn [bind] in E, W |- *; try discriminate E end.
Lemma unpack_same J hb mode addr flags rec reclen m mw : unpack2 (lenient J) hb mode addr flags rec reclen = Ok m ->
  unpack2 (watch J) hb mode addr flags rec reclen = Ok mw -> m_extra mw <> [1] -> unpack2 J hb mode addr flags rec reclen = Ok m.
Proof.
  unfold unpack2. destruct ((reclen <? 64) || (MAXRECLEN <? reclen)). { intros E. undo1. }
  intros E W N. undo2 E W. destruct (negb a). { undo2 E W. }
  do 2 undo2 E W. cbv zeta in *. undo2 E W. destruct a2 as [sid sn]. do 9 undo2 E W. cbv zeta in *.
  match type of E with bind ?x _ = _ => destruct x as [st| | |] eqn:B; cbn [bind] in E; try discriminate E end.
  destruct (blockettes_same (lenient J) (watch J) _ _ _ _ _ (fun _ _ => eq_refl) _ _ _ _ B) as [_ Sw].
  rewrite (Sw (fun _ _ _ _ => eq_refl)) in W. cbn [bind] in W.
  assert (A : accepts J (s_extra st) (s_ops st)).
  { destruct (s_ops st) as [|o ops] eqn:P; [intros p r Ep Np; destruct p; [congruence|discriminate]|].
    apply refuses_ok. destruct (refuses J (s_extra st) (o :: ops)) eqn:R; [|reflexivity]. elim N. clear - W R.
    undo. destruct (has_flag flags MSF_UNPACKDATA && _); [undo|]; injection W as <-; cbn [m_extra watch j_text]; now rewrite R. }
  destruct (blockettes_same (lenient J) J _ _ _ _ _ (fun _ _ => eq_refl) _ _ _ _ B) as [_ S]. rewrite (S A). cbn [bind]. exact E.
Qed.
Lemma parse_same J hb mode addr flags buf m mw : parse (unpack2 (lenient J) hb mode addr flags) hb mode addr flags buf = Ok (PRec m) ->
  parse (unpack2 (watch J) hb mode addr flags) hb mode addr flags buf = Ok (PRec mw) -> m_extra mw <> [1] ->
  parse (unpack2 J hb mode addr flags) hb mode addr flags buf = Ok (PRec m).
Proof.
  unfold parse. intros E W N. destruct (detect hb buf) as [[fv r0]| | |]; cbn [bind] in *; try discriminate. cbv zeta in *.
  do 4 match type of E with (if ?c then _ else _) = _ => destruct c; [discriminate E|] end.
  destruct (fv =? 3); [exact E|]. destruct (fv =? 2); [|discriminate E].
  match type of E with bind ?x _ = _ => destruct x as [m1| | |] eqn:E1; cbn [bind] in E; try discriminate E end. injection E as <-.
  match type of W with bind ?x _ = _ => destruct x as [m2| | |] eqn:W1; cbn [bind] in W; try discriminate W end. injection W as <-.
  rewrite (unpack_same J _ _ _ _ _ _ _ _ E1 W1 N). reflexivity.
Qed.

(** ** The record *)

Lemma good_prefix (p r : list ehop) : Forall good_request (p ++ r) -> Forall good_request p.
Proof. intros H. apply Forall_app in H. apply H. Qed.

Lemma watched rd wr h bs : reads_quality rd -> chain_ok bs -> extra_text (watch (eh_json rd wr)) h bs <> [1].
Proof.
  intros R C. unfold extra_text. pose proof (chain_q_ok bs None (flag_ops h)) as Q. cbn [text_of_quality] in Q. rewrite Q.
  destruct (chain_q_good bs C None (flag_ops h) ltac:(discriminate) (flags_good h)) as [S G].
  destruct (chain_q None (flag_ops h) bs) as [q os]. cbn [fst snd] in *. destruct os as [|o os].
  - destruct q as [n|]; cbn [text_of_quality or_else]; [|discriminate]. intros E. discriminate E.
  - cbn [watch j_text]. replace (refuses _ _ _) with false; [discriminate|]. symmetry.
    destruct (refuses _ _ _) eqn:E; [|reflexivity]. apply existsb_exists in E. destruct E as (n & _ & E). cbn [eh_json j_fail] in E.
    rewrite accepted_ok in E; [discriminate|exact R|exact S|]. apply (good_prefix _ (skipn n (o :: os))). rewrite firstn_skipn. exact G.
Qed.

Lemma chain_q_nil bs : forall q ops, snd (chain_q q ops bs) = [] <-> ops = [] /\ Forall (fun p => blk_ops (fst p) = []) bs.
Proof.
  induction bs as [|[b g] bs IH]; intros q ops; [cbn; intuition|]. rewrite Forall_cons_iff. cbn [fst].
  assert (D : snd (chain_q q (ops ++ blk_ops b) bs) = [] <-> ops = [] /\ blk_ops b = [] /\ Forall (fun p => blk_ops (fst p) = []) bs).
  { rewrite IH. split; [intros [H F]; apply app_eq_nil in H; tauto|]. intros (-> & -> & F). auto. }
  destruct b; cbn [chain_q]; try exact D. cbn [blk_ops]. destruct ops as [|o ops]; rewrite IH; [tauto|]. split; [intros [H _]; destruct ops; discriminate|intros [H _]; discriminate].
Qed.
Lemma states_iff h bs : states_headers h bs <-> snd (chain_q None (flag_ops h) bs) <> [].
Proof.
  unfold states_headers. rewrite chain_q_nil. split.
  - intros [H|H] [E F]; [now apply H|]. apply Exists_exists in H. destruct H as (p & I & N). rewrite Forall_forall in F. exact (N (F p I)).
  - intros N. destruct (flag_ops h) as [|o l]; [|left; discriminate]. right.
    destruct (Exists_dec (fun p : blk * list Z => blk_ops (fst p) <> []) bs) as [H|H]; [|exact H|].
    { intros p. destruct (blk_ops (fst p)); [right; intros Q; now apply Q|left; discriminate]. }
    exfalso. apply N. split; [reflexivity|]. rewrite Forall_forall. intros p I. destruct (blk_ops (fst p)) eqn:E; [reflexivity|]. exfalso. apply H.
    apply Exists_exists. exists p. split; [exact I|]. rewrite E. discriminate.
Qed.

Lemma text_says rd wr h bs : reads_quality rd -> chain_ok bs ->
  exists j, record_document h bs j /\ headers_text rd wr h bs j (extra_text (eh_json rd wr) h bs).
Proof.
  intros R C. unfold headers_text, extra_text. pose proof (states_iff h bs) as SI. pose proof (chain_q_ok bs None (flag_ops h)) as Q. cbn [text_of_quality] in Q. rewrite Q.
  destruct (chain_q_good bs C None (flag_ops h) ltac:(discriminate) (flags_good h)) as [S G]. pose proof (record_ok h bs) as RO.
  destruct (chain_q None (flag_ops h) bs) as [q os]. cbn [fst snd] in *. destruct os as [|o os].
  - exists (start_of q). split; [exact (RO _ (start_document q))|]. split; [|intros H; apply SI in H; congruence]. intros _.
    destruct q as [n|]; cbn [text_of_quality or_else start_of]; [right|left; auto]. pose proof (S n eq_refl) as Bn. exists n. split; [exact Bn|]. split; [reflexivity|]. exact (R n Bn).
  - destruct (text_ok rd wr q (o :: os) R S G ltac:(discriminate)) as (j & D & T). exists j. split; [exact (RO _ D)|].
    split; [intros N; elim N; apply SI; discriminate|].
    intros _. cbn [eh_json j_text]. rewrite T. destruct (wr j) as [t|].
    + split; [|discriminate]. intros t' W. injection W as <-. destruct (Z.leb_spec (Z.of_nat (List.length t)) 65535); split; intros L; try lia; try reflexivity.
      destruct q as [n|]; [right; exists n; split; [exact (S n eq_refl)|reflexivity]|left; reflexivity].
    + split; [discriminate|]. intros _. destruct q as [n|]; [right; exists n; split; [exact (S n eq_refl)|reflexivity]|left; reflexivity].
Qed.

Lemma record_read rd wr hb big mode addr flags h lead bs rest more : let J := eh_json rd wr in
  reads_quality rd -> well_formed big h lead bs rest more -> order_seen hb big h -> states_length (lenZ (layout2 big h lead bs rest)) bs ->
  (has_flag flags MSF_UNPACKDATA = false \/ f_cnt h = 0 ->
   exists rate, rate_ok h bs rate /\
   parse (unpack2 J hb mode addr flags) hb mode addr flags (layout2 big h lead bs rest ++ more) =
   Ok (PRec (rec2_of J hb big h bs (lenZ (layout2 big h lead bs rest)) rate))) /\
  (forall vs, has_flag flags MSF_UNPACKDATA = true -> holds_samples big h lead bs rest vs ->
   exists rate, rate_ok h bs rate /\
   parse (unpack2 J hb mode addr flags) hb mode addr flags (layout2 big h lead bs rest ++ more) =
   Ok (PRec (with_samples (rec2_of J hb big h bs (lenZ (layout2 big h lead bs rest)) rate) (SInt vs)))) /\
  (exists j, record_document h bs j /\ headers_text rd wr h bs j (extra_text J h bs)).
Proof.
  intros J R WF O SL. assert (C : chain_ok bs) by apply WF. pose proof (watched rd wr h bs R C) as N. fold J in N.
  destruct (parse_whole (lenient J) hb big mode addr flags h lead bs rest more (fun _ _ => eq_refl) WF O SL) as [A1 A2].
  destruct (parse_whole (watch J) hb big mode addr flags h lead bs rest more (fun _ _ => eq_refl) WF O SL) as [B1 B2].
  split; [|split; [|exact (text_says rd wr h bs R C)]].
  - intros H. destruct (A1 H) as (rate & Ro & E). destruct (B1 H) as (rw & _ & W). exists rate. split; [exact Ro|]. exact (parse_same J _ _ _ _ _ _ _ E W N).
  - intros vs H K. destruct (A2 vs H K) as (rate & Ro & E). destruct (B2 vs H K) as (rw & _ & W). exists rate. split; [exact Ro|]. exact (parse_same J _ _ _ _ _ _ _ E W N).
Qed.

(** ** Units of 0.0001 *)

Lemma ten_value v : Z.abs v <= 2 ^ 32 -> exists q, DblModel.dval (tenthousandths v) = DblModel.DFin q /\
  (Qabs.Qabs (q * inject_Z 10000 - inject_Z v) <= inject_Z (Z.abs v) * (1 # 2 ^ 52))%Q.
Proof.
  intros H. unfold tenthousandths. destruct (dofz_int v ltac:(lia)) as (a & Ea & _ & Va). destruct (dofz_int 10000 ltac:(lia)) as (b & Eb & _ & Vb).
  rewrite Ea, Eb. unfold DblModel.ddiv. replace (DblModel.qzero b) with false.
  2:{ symmetry. unfold DblModel.qzero. apply Z.eqb_neq. intros Z0. assert (W : (b == 0)%Q) by (unfold Qeq; cbn; lia). rewrite Vb in W. discriminate W. }
  assert (X : (a / b == inject_Z v / inject_Z 10000)%Q) by (rewrite Va, Vb; reflexivity).
  assert (D : forall w x, FloatOps.rnd64 x = Some w -> exists q, DblModel.dval (dbits (DblModel.DFin w)) = DblModel.DFin q /\ (q == w)%Q).
  { intros w x E. exact (proj2 (dbits_value x w E)). }
  assert (Tn : (inject_Z v / inject_Z 10000 == inject_Z v * (1 # 10000))%Q) by reflexivity. rewrite Tn in X.
  destruct (Z.lt_trichotomy v 0) as [N|[->|N]].
  - assert (L : (- inject_Z (2 ^ 32) <= inject_Z v <= -1)%Q) by (rewrite <- inject_Z_opp; change (-1)%Q with (inject_Z (-1)); split; rewrite <- Zle_Qle; lia).
    change (inject_Z (2 ^ 32)) with (4294967296 # 1)%Q in L.
    destruct (drnd_neg (a / b)%Q) as (w & Ew & Rw & Bw); [rewrite X; lra|rewrite X; lra|]. rewrite Ew. destruct (D _ _ Rw) as (q & Eq & Vq). exists q. split; [exact Eq|].
    rewrite X in Bw. rewrite Vq, Z.abs_neq, inject_Z_opp by lia. change (inject_Z 10000) with (10000 # 1)%Q. set (t := inject_Z v) in *. clearbody t.
    change (1 # 2 ^ 52)%Q with (1 # 4503599627370496)%Q. unfold SampleProof.eps in Bw. apply Qabs.Qabs_Qle_condition. lra.
  - assert (E0 : DblModel.drnd (a / b) = DblModel.DFin 0%Q /\ FloatOps.rnd64 (a / b) = Some 0%Q).
    { assert (Z0 : Qnum (a / b) = 0). { assert (X0 : (a / b == 0)%Q) by (rewrite X; reflexivity). unfold Qeq in X0. cbn [Qnum Qden] in X0. lia. }
      unfold DblModel.drnd, FloatOps.rnd64. rewrite Z0. auto. }
    destruct E0 as [E0 E1]. rewrite E0. destruct (D _ _ E1) as (q & Eq & Vq). exists q. split; [exact Eq|]. rewrite Vq. vm_compute. discriminate.
  - assert (L : (1 <= inject_Z v <= inject_Z (2 ^ 32))%Q) by (change 1%Q with (inject_Z 1); split; rewrite <- Zle_Qle; lia).
    change (inject_Z (2 ^ 32)) with (4294967296 # 1)%Q in L.
    destruct (drnd_pos (a / b)%Q) as (w & Ew & Rw & Bw); [rewrite X; lra|rewrite X; lra|]. rewrite Ew. destruct (D _ _ Rw) as (q & Eq & Vq). exists q. split; [exact Eq|].
    rewrite X in Bw. rewrite Vq, Z.abs_eq by lia. change (inject_Z 10000) with (10000 # 1)%Q. set (t := inject_Z v) in *. clearbody t.
    change (1 # 2 ^ 52)%Q with (1 # 4503599627370496)%Q. unfold SampleProof.eps in Bw. apply Qabs.Qabs_Qle_condition. lra.
Qed.
