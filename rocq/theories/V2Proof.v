(** * Proofs about version 2 records. *)

From Coq Require Import String.
From Verif Require Import Base BaseLemmas StrModel StrSpec StrProof RecModel RecSpec RecProof DataSpec DataProof
  V2Model V2Spec.
Open Scope Z_scope.

(** ** Reads *)

Lemma ends_bind {A B} U (r : res A) (k : A -> res B) :
  ends U r -> (forall x, r = Ok x -> ends U (k x)) -> ends U (bind r k).
Proof. intros H K. destruct r; cbn [bind ends] in *; auto. Qed.

Lemma ends_weaken {A} (U V : ub -> Prop) (r : res A) : (forall u, U u -> V u) -> ends U r -> ends V r.
Proof. intros H. destruct r; cbn [ends]; auto. Qed.

Lemma ends_inside {A} mode (r : res A) : ends (overflow_only mode) r <-> inside mode r.
Proof.
  unfold ends, inside, overflow_only. destruct r as [a|c|u|]; try tauto.
  destruct u; split; try tauto; try (intros [H _]; discriminate). 
Qed.

Lemma rd_get hb sw n off buf : 0 <= off -> 0 <= n -> off + n <= lenZ buf -> exists v, rd hb sw n off buf = Ok v.
Proof. intros. unfold rd. rewrite sliceZ_ok by lia. eexists; reflexivity. Qed.

Lemma getZ_get (buf : list Z) i : 0 <= i < lenZ buf -> exists v, getZ i buf = Ok v.
Proof. intros H. unfold lenZ in H. rewrite getZ_nth by lia. eexists; reflexivity. Qed.

Lemma sarith_ends (U : ub -> Prop) mode w v : (mode = Strict -> U SignedOverflow) -> ends U (sarith mode w v).
Proof. intros H. unfold sarith. destruct (in_sb w v); [exact I|]. destruct mode; cbn; auto. Qed.

Lemma ends_time (U : ub -> Prop) mode y d h m s n : (mode = Strict -> U SignedOverflow) -> ends U (time2nstime mode y d h m s n).
Proof.
  intros H. pose proof (time2nstime_inside mode y d h m s n) as E. apply ends_inside in E.
  eapply ends_weaken; [|exact E]. intros u [-> M]. auto.
Qed.

Ltac rstep :=
  match goal with
  | |- ends _ (bind (rd ?h ?s ?n ?o ?b) _) =>
    let v := fresh "v" in let E := fresh "E" in
    destruct (rd_get h s n o b) as [v E]; [lia|lia|lia|]; rewrite E; cbn [bind]
  | |- ends _ (bind (getZ ?o ?b) _) =>
    let v := fresh "v" in let E := fresh "E" in
    destruct (getZ_get b o) as [v E]; [lia|]; rewrite E; cbn [bind]
  end.

Lemma btime_ends (U : ub -> Prop) mode hb sw off rec : (mode = Strict -> U SignedOverflow) -> 0 <= off -> off + 10 <= lenZ rec ->
  ends U (btime2nstime hb sw mode off rec).
Proof.
  intros H O L. unfold btime2nstime. rstep. destruct (v =? 0); [exact I|]. repeat rstep. now apply ends_time.
Qed.

Lemma btime_fail_ends (U : ub -> Prop) mode hb sw off rec : (mode = Strict -> U SignedOverflow) -> 0 <= off -> off + 10 <= lenZ rec ->
  ends U (btime_or_fail hb sw mode off rec).
Proof.
  intros H O L. unfold btime_or_fail. apply ends_bind; [now apply btime_ends|]. intros t _.
  destruct (t =? NSTERROR); cbn; [reflexivity|exact I].
Qed.

(** ** Texts *)

Lemma nth_skipn_plus (l : list Z) i n : nth i (skipn n l) 0 = nth (n + i) l 0.
Proof. revert l. induction n as [|n IH]; intros l; [reflexivity|]. destruct l; cbn [skipn Nat.add nth]; [now destruct i|]. apply IH. Qed.

Lemma before_nul_short s : In 0 s -> (length (before_nul s) < length s)%nat.
Proof.
  induction s as [|c s IH]; cbn [before_nul In length]; [tauto|]. intros [->|I]; [cbn; lia|].
  destruct (c =? 0); cbn [length]; [lia|]. specialize (IH I). lia.
Qed.

Lemma text_ends (U : ub -> Prop) cap off len rec : bytes_ok rec -> 0 <= off -> 0 <= len <= cap -> off + len + 1 <= lenZ rec ->
  len < cap \/ terminated rec off len \/ U OOBWrite -> ends U (text_field cap off len rec).
Proof.
  intros B O L R W. unfold text_field.
  assert (LS : Z.of_nat (length (skipn (Z.to_nat off) rec)) = lenZ rec - off) by (unfold lenZ in *; rewrite skipn_length; lia).
  assert (BS : bytes_ok (skipn (Z.to_nat off) rec)) by (now apply Forall_skipn).
  assert (RS : readable (skipn (Z.to_nat off) rec) len) by (left; lia).
  destruct (utf8length_ok _ _ BS RS) as (p & P & E).
  destruct (longest_prefix _ _ _ P) as ((r & ER) & N & LP).
  assert (C : (length p < Z.to_nat cap)%nat \/ U OOBWrite /\ length p = Z.to_nat cap).
  { destruct (Nat.lt_ge_cases (length p) (Z.to_nat cap)) as [|G]; [auto|]. right.
    assert (EQ : len = cap) by lia. split; [|lia]. destruct W as [W|[W|W]]; [lia| |exact W]. exfalso.
    destruct W as (k & K & EK). destruct P as ((r2 & E2) & _ & _).
    assert (I0 : In 0 (firstn (Z.to_nat len) (skipn (Z.to_nat off) rec))).
    { unfold lenZ in *. rewrite getZ_nth in EK by lia. injection EK as EK.
      rewrite <- EK. replace (Z.to_nat k) with (Z.to_nat off + Z.to_nat (k - off))%nat by lia.
      rewrite <- nth_skipn_plus. rewrite <- (firstn_skipn (Z.to_nat len) (skipn (Z.to_nat off) rec)) at 1.
      rewrite app_nth1 by (rewrite firstn_length; lia). apply nth_In. rewrite firstn_length. lia. }
    apply before_nul_short in I0. unfold visible in E2. rewrite E2 in I0. rewrite app_length, firstn_length in I0. lia. }
  destruct C as [C|[C1 C2]].
  - destruct (strncpcleantail_ok (repeat 0 (Z.to_nat cap)) _ _ _ BS RS P) as (t & k & _ & _ & ->); [rewrite repeat_length; lia|].
    exact I.
  - unfold strncpcleantail. rewrite E. cbn [bind]. unfold setZ. rewrite repeat_length.
    replace ((0 <=? _) && _) with false by lia. exact C1.
Qed.

Lemma text_of_before d : text d -> forall x, text_of (d ++ 0 :: x) = Ok d.
Proof. intros T x. now apply text_of_ok. Qed.

Lemma clean_any (rec : list Z) off len cap : bytes_ok rec -> (off + len < length rec)%nat -> (len < cap)%nat ->
  exists d n t, strncpclean (repeat 0 cap) (Some (skipn off rec)) (Z.of_nat len) = Ok (d, n) /\ text_of d = Ok t
    /\ (length t <= len)%nat.
Proof.
  intros B L C. assert (BS : bytes_ok (skipn off rec)) by (now apply Forall_skipn).
  assert (RS : readable (skipn off rec) (Z.of_nat len)) by (left; rewrite skipn_length; lia).
  destruct (utf8length_ok _ _ BS RS) as (p & P & E).
  destruct (longest_prefix _ _ _ P) as ((r & ER) & N & LP).
  pose proof (no_spaces_length p) as NL.
  destruct (strncpclean_ok (repeat 0 cap) _ _ _ BS RS P) as (d & E1 & H); [rewrite repeat_length; lia|].
  unfold holds_string in H. exists d. eexists. exists (no_spaces p). split; [exact E1|]. split; [|lia].
  rewrite H. apply text_of_ok, no_spaces_text. unfold text.
  rewrite ER in BS. apply Forall_app in BS. destruct BS as [BP _]. rewrite Forall_forall in *. intros x I.
  specialize (BP x I). unfold byte_ok in BP. destruct (Z.eq_dec x 0) as [->|]; [tauto|lia].
Qed.

Lemma text_of_bytes s x : bytes_ok s -> exists t, text_of (s ++ 0 :: x) = Ok t /\ text t.
Proof.
  induction 1 as [|c s H T (t & IH & TT)]; cbn [app text_of]; [exists []; split; [reflexivity|constructor]|].
  destruct (Z.eqb_spec c 0); [exists []; split; [reflexivity|constructor]|].
  rewrite IH. cbn [bind]. exists (c :: t). split; [reflexivity|]. constructor; [unfold byte_ok in H; lia|exact TT].
Qed.

Lemma recordsid_any rec : bytes_ok rec -> 21 <= lenZ rec -> exists d n, recordsid rec (repeat 0 64) 64 = Ok (d, n).
Proof.
  intros B L. unfold lenZ in L. unfold recordsid.
  destruct (clean_any rec 18 2 3 B ltac:(lia) ltac:(lia)) as (d1 & n1 & t1 & E1 & X1 & _).
  destruct (clean_any rec 8 5 6 B ltac:(lia) ltac:(lia)) as (d2 & n2 & t2 & E2 & X2 & _).
  destruct (clean_any rec 13 2 3 B ltac:(lia) ltac:(lia)) as (d3 & n3 & t3 & E3 & X3 & _).
  change (Z.of_nat 2) with 2 in *. change (Z.of_nat 5) with 5 in *. rewrite E1, E2, E3. cbn [bind].
  rewrite !getZ_nth by lia. cbn [bind]. rewrite X1, X2, X3. cbn [bind].
  assert (BN : forall i, byte_ok (nth i rec 0)).
  { intros i. destruct (Nat.lt_ge_cases i (length rec)); [eapply Forall_nth; eauto|].
    rewrite nth_overflow by lia. unfold byte_ok. lia. }
  destruct (text_of_bytes [nth (Z.to_nat 15) rec 0; 95; nth (Z.to_nat 16) rec 0; 95; nth (Z.to_nat 17) rec 0] []) as (t & E & T).
  { repeat constructor; try apply BN; lia. }
  cbn [app] in E. rewrite E. cbn [bind]. rewrite nslc2sid_ok by (auto; rewrite repeat_length; lia).
  cbv zeta. destruct (_ <? 64); eexists; eexists; reflexivity.
Qed.

Lemma all_at_get tests base buf n : (forall o t, In (o, t) tests -> 0 <= base + o < lenZ buf) -> n = lenZ buf ->
  exists b, all_at tests base buf = Ok b.
Proof.
  intros H _. induction tests as [|[o t] tests IH]; cbn [all_at]; [eexists; reflexivity|].
  destruct (getZ_get buf (base + o)) as [v E]; [apply (H o t); now left|]. rewrite E. cbn [bind].
  destruct (t v); [apply IH; intros; apply (H o0 t0); now right|eexists; reflexivity].
Qed.

Lemma valid2_get base buf : 0 <= base -> base + 27 <= lenZ buf -> exists b, valid2_at base buf = Ok b.
Proof.
  intros H L. unfold valid2_at. eapply all_at_get; [|reflexivity]. intros o t I. cbn [In] in I.
  repeat (destruct I as [I|I]; [injection I as <- _; lia|]). destruct I.
Qed.

(** ** Blockettes *)

(** The bytes a blockette's fields take, counting the byte after a final text. *)
Definition extent (type : Z) : Z :=
  match blockette_size type with
  | None => 4
  | Some n => n + (if ends_with_text type then 1 else 0)
  end.

Lemma add_op_ends U J o st : ends U (add_op J o st).
Proof. unfold add_op. destruct (j_fail _ _ _); cbn; [reflexivity|exact I]. Qed.

Ltac bstep ov :=
  cbv zeta;
  first
    [ rstep
    | match goal with
      | |- ends _ (bind (text_field _ _ _ _) _) => apply ends_bind; [apply text_ends; [assumption|lia|lia|lia|left; lia]|intros ? _]
      | |- ends _ (bind (btime_or_fail _ _ _ _ _) _) => apply ends_bind; [apply btime_fail_ends; [exact ov|lia|lia]|intros ? _]
      | |- ends _ (bind (sliceZ ?o ?n ?b) _) => rewrite (sliceZ_ok o n b) by lia; cbn [bind]
      end ].

Lemma blockette_ends (U : ub -> Prop) J hb sw mode rec type o st :
  (mode = Strict -> U SignedOverflow) -> bytes_ok rec -> 0 <= o -> o + extent type <= lenZ rec ->
  (type = 1000 -> U BadShift \/ exists e, getZ (o + 6) rec = Ok e /\ e < 32) ->
  (type = 500 -> U OOBWrite \/ (terminated rec (o + 24) 16 /\ terminated rec (o + 72) 128)) ->
  ends U (blockette J hb sw mode rec type o st).
Proof.
  intros OV B O L H1000 H500. unfold blockette.
  destruct (Z.eqb_spec type 100) as [->|_]. { cbn in L. rstep. exact I. }
  destruct (Z.eqb_spec type 200) as [->|_]. { cbn in L. unfold blk200. repeat bstep OV. apply add_op_ends. }
  destruct (Z.eqb_spec type 201) as [->|_]. { cbn in L. unfold blk201. repeat bstep OV. apply add_op_ends. }
  destruct (Z.eqb_spec type 300) as [->|_]. { cbn in L. unfold blk300. repeat bstep OV. apply add_op_ends. }
  destruct (Z.eqb_spec type 310) as [->|_]. { cbn in L. unfold blk310. repeat bstep OV. apply add_op_ends. }
  destruct (Z.eqb_spec type 320) as [->|_]. { cbn in L. unfold blk320. repeat bstep OV. apply add_op_ends. }
  destruct (Z.eqb_spec type 390) as [->|_]. { cbn in L. unfold blk390. repeat bstep OV. apply add_op_ends. }
  destruct (Z.eqb_spec type 395) as [->|_]. { cbn in L. unfold blk395. repeat bstep OV. apply add_op_ends. }
  destruct (Z.eqb_spec type 500) as [->|_].
  { cbn in L. unfold blk500. specialize (H500 eq_refl). do 3 bstep OV.
    apply ends_bind. { destruct (_ =? 0); [exact I|now apply sarith_ends]. } intros ? _. do 2 bstep OV.
    apply ends_bind. { apply text_ends; [assumption|lia|lia|lia|tauto]. } intros ? _.
    apply ends_bind. { apply text_ends; [assumption|lia|lia|lia|tauto]. } intros ? _.
    apply ends_bind. { apply add_op_ends. } intros ? _. bstep OV. exact I. }
  destruct (Z.eqb_spec type 1000) as [->|_].
  { cbn in L. unfold blk1000. specialize (H1000 eq_refl). rstep. destruct (Z.leb_spec 32 v).
    - destruct H1000 as [|(e & E2 & X)]; [assumption|]. rewrite E in E2. injection E2 as ->. lia.
    - rstep. exact I. }
  destruct (Z.eqb_spec type 1001) as [->|_]. { cbn in L. unfold blk1001. rstep. exact I. }
  exact I.
Qed.

(** What a blockette can change. *)
Definition same_vars (a b : v2st) : Prop :=
  s_reclen b = s_reclen a /\ s_enc b = s_enc a /\ s_b1000 b = s_b1000 a /\ s_b1001 b = s_b1001 a.

Lemma add_op_same J o st st' : add_op J o st = Ok st' -> same_vars st st'.
Proof.
  unfold add_op. destruct (j_fail _ _ _); [discriminate|]. injection 1 as <-. repeat split.
Qed.

Ltac unbind H :=
  cbv zeta in H;
  repeat (match type of H with
          | bind ?r _ = Ok _ => destruct r eqn:?; cbn [bind] in H; cbv zeta in H; try discriminate H
          end).

Lemma blockette_vars J hb sw mode rec type o st st' : bytes_ok rec ->
  blockette J hb sw mode rec type o st = Ok st' ->
  (type <> 1000 /\ type <> 1001 /\ same_vars st st')
  \/ (type = 1000 /\ s_b1000 st' = o /\ s_b1001 st' = s_b1001 st
      /\ exists e enc, getZ (o + 6) rec = Ok e /\ e < 32 /\ s_reclen st' = swrap 32 (uwrap 32 (Z.shiftl 1 e))
         /\ getZ (o + 4) rec = Ok enc /\ s_enc st' = enc)
  \/ (type = 1001 /\ s_b1001 st' = o /\ s_b1000 st' = s_b1000 st /\ s_reclen st' = s_reclen st /\ s_enc st' = s_enc st).
Proof.
  intros B H. unfold blockette in H.
  destruct (Z.eqb_spec type 100) as [->|_]. { left. unbind H. injection H as <-. repeat split; discriminate. }
  destruct (Z.eqb_spec type 200) as [->|_]. { left. unfold blk200 in H. unbind H. apply add_op_same in H. repeat split; (discriminate || apply H). }
  destruct (Z.eqb_spec type 201) as [->|_]. { left. unfold blk201 in H. unbind H. apply add_op_same in H. repeat split; (discriminate || apply H). }
  destruct (Z.eqb_spec type 300) as [->|_]. { left. unfold blk300 in H. unbind H. apply add_op_same in H. repeat split; (discriminate || apply H). }
  destruct (Z.eqb_spec type 310) as [->|_]. { left. unfold blk310 in H. unbind H. apply add_op_same in H. repeat split; (discriminate || apply H). }
  destruct (Z.eqb_spec type 320) as [->|_]. { left. unfold blk320 in H. unbind H. apply add_op_same in H. repeat split; (discriminate || apply H). }
  destruct (Z.eqb_spec type 390) as [->|_]. { left. unfold blk390 in H. unbind H. apply add_op_same in H. repeat split; (discriminate || apply H). }
  destruct (Z.eqb_spec type 395) as [->|_]. { left. unfold blk395 in H. unbind H. apply add_op_same in H. repeat split; (discriminate || apply H). }
  destruct (Z.eqb_spec type 500) as [->|_].
  { left. unfold blk500 in H. unbind H. injection H as <-.
    match goal with E : add_op _ _ _ = Ok _ |- _ => apply add_op_same in E; repeat split; (discriminate || apply E) end. }
  destruct (Z.eqb_spec type 1000) as [->|N1].
  { right; left. unfold blk1000 in H. unbind H. destruct (Z.leb_spec 32 a); [discriminate|]. unbind H. injection H as <-.
    cbn. repeat split. exists a, a0. auto. }
  destruct (Z.eqb_spec type 1001) as [->|N2].
  { right; right. unfold blk1001 in H. unbind H. injection H as <-. cbn [s_ops]. destruct (s_ops st); cbn; repeat split. }
  left. injection H as <-. repeat split; auto.
Qed.

(** ** The loop *)

Lemma rd_nonneg hb sw n off buf v : bytes_ok buf -> rd hb sw n off buf = Ok v -> 0 <= v.
Proof.
  intros B. unfold rd, sliceZ. destruct (_ && _); cbn [bind]; [|discriminate]. injection 1 as <-.
  set (w := firstn _ _). assert (BW : bytes_ok w) by (apply Forall_firstn, Forall_skipn, B). clearbody w.
  assert (P : forall l, bytes_ok l -> 0 <= le_val l).
  { induction 1 as [|x l X Y IH]; cbn [le_val]; [lia|]. unfold byte_ok in X. lia. }
  assert (BR : bytes_ok (rev w)) by (apply Forall_rev, BW).
  unfold ld, gswap_if, gswap, host_val, be_val. destruct sw, hb; rewrite ?rev_involutive; auto.
Qed.

Lemma rd_below hb sw n off buf v : bytes_ok buf -> rd hb sw n off buf = Ok v -> v < 2 ^ (8 * n).
Proof.
  intros B. unfold rd, sliceZ. destruct (_ && _) eqn:G; cbn [bind]; [|discriminate]. injection 1 as <-.
  set (w := firstn _ _). assert (BW : bytes_ok w) by (apply Forall_firstn, Forall_skipn, B).
  assert (LW : (length w <= Z.to_nat n)%nat) by (subst w; rewrite firstn_length; lia). clearbody w.
  assert (P : forall l, bytes_ok l -> le_val l < 256 ^ Z.of_nat (length l)).
  { induction 1 as [|x l X Y IH]; cbn [le_val length]; [reflexivity|]. rewrite Nat2Z.inj_succ, Z.pow_succ_r by lia.
    unfold byte_ok in X. lia. }
  assert (BR : bytes_ok (rev w)) by (apply Forall_rev, BW).
  assert (Q : forall l, bytes_ok l -> length l = length w -> le_val l < 2 ^ (8 * n)).
  { intros l Bl Ll. specialize (P l Bl). rewrite Ll in P.
    eapply Z.lt_le_trans; [exact P|]. change 256 with (2 ^ 8). rewrite <- Z.pow_mul_r by lia.
    apply Z.pow_le_mono_r; lia. }
  unfold ld, gswap_if, gswap, host_val, be_val.
  destruct sw, hb; rewrite ?rev_involutive; apply Q; rewrite ?rev_length; auto.
Qed.

(** The result is a state with [Q], or the end is one of the others. *)
Definition post {A} (U : ub -> Prop) (Q : A -> Prop) (r : res A) : Prop :=
  match r with Ok x => Q x | Err c => c < 0 | UB u => U u | Fuel => False end.

Lemma post_bind {A B} U P Q (r : res A) (k : A -> res B) :
  post U P r -> (forall x, r = Ok x -> P x -> post U Q (k x)) -> post U Q (bind r k).
Proof. intros H K. destruct r; cbn [bind post] in *; auto. Qed.

Lemma blktlen_nonneg hb sw type off rec len : bytes_ok rec -> blktlen hb sw type off rec = Ok len -> 0 <= len.
Proof.
  intros B H. unfold blktlen in H.
  repeat match type of H with (if ?c then _ else _) = _ => destruct c; [now (injection H as <-) || exact (rd_nonneg _ _ _ _ _ _ B H)|] end.
  injection H as <-. lia.
Qed.

(** Facts about one visited blockette. *)
Definition visit_ok (U : ub -> Prop) (R : Z -> Z -> Prop) (rec : list Z) (type o : Z) : Prop :=
  o + extent type <= lenZ rec
  /\ (type = 1000 -> exists e enc, getZ (o + 6) rec = Ok e /\ getZ (o + 4) rec = Ok enc /\ (32 <= e -> U BadShift)
                       /\ (e < 32 -> R e enc))
  /\ (type = 500 -> U OOBWrite \/ (terminated rec (o + 24) 16 /\ terminated rec (o + 72) 128)).

Definition vars_ok (R : Z -> Z -> Prop) (rec : list Z) (reclen : Z) (st : v2st) : Prop :=
  (s_b1000 st = 0 \/ 0 < s_b1000 st /\ s_b1000 st + 8 <= lenZ rec)
  /\ (s_b1001 st = 0 \/ 0 < s_b1001 st /\ s_b1001 st + 8 <= lenZ rec)
  /\ -1 <= s_enc st < 256
  /\ (s_reclen st = reclen /\ s_enc st = -1
      \/ exists e, 0 <= e < 32 /\ R e (s_enc st) /\ s_reclen st = swrap 32 (uwrap 32 (Z.shiftl 1 e))).

Lemma blockettes_post (U : ub -> Prop) R J hb sw mode rec reclen (K : Z -> Prop) :
  (mode = Strict -> U SignedOverflow) -> bytes_ok rec ->
  (forall off, K off -> 0 < off < reclen -> off + 4 <= lenZ rec /\
     forall type next, rd hb sw 2 off rec = Ok type -> rd hb sw 2 (off + 2) rec = Ok next ->
       (type = 2000 -> off + 6 <= lenZ rec) /\
       forall len, blktlen hb sw type off rec = Ok len -> 0 < len -> off + len <= reclen ->
         visit_ok U R rec type off /\ (off + len <= next -> K next)) ->
  forall fuel off st, (off <> 0 -> K off) -> 0 <= off -> (1 <= fuel)%nat -> (0 < off -> reclen - off < Z.of_nat fuel) ->
  vars_ok R rec reclen st ->
  post U (vars_ok R rec reclen) (blockettes fuel J hb sw mode rec reclen off st).
Proof.
  intros OV B HK. induction fuel as [|fuel IH]; intros off st Ko O F1 F V; [lia|]. cbn [blockettes].
  destruct (negb (off =? 0) && (off <? reclen) && (off <? MAXRECLEN)) eqn:G; [|exact V].
  assert (G' : 0 < off < reclen) by lia. specialize (F ltac:(lia)).
  destruct (HK off (Ko ltac:(lia)) G') as (L4 & H). clear HK.
  destruct (rd_get hb sw 2 off rec) as (type & Et); [lia|lia|lia|]. rewrite Et. cbn [bind].
  destruct (rd_get hb sw 2 (off + 2) rec) as (next & En); [lia|lia|lia|]. rewrite En. cbn [bind].
  destruct (H _ _ Et En) as (L6 & H').
  assert (EL : exists len, blktlen hb sw type off rec = Ok len).
  { unfold blktlen. repeat match goal with |- exists _, (if ?c then Ok _ else _) = _ => destruct c; [eexists; reflexivity|] end.
    destruct (Z.eqb_spec type 2000); [|eexists; reflexivity]. apply rd_get; lia. }
  destruct EL as (len & EL). rewrite EL. cbn [bind]. pose proof (blktlen_nonneg _ _ _ _ _ _ B EL) as LN.
  destruct (Z.eqb_spec len 0); [exact V|]. destruct (Z.ltb_spec reclen (off + len)); [exact V|].
  destruct (H' len EL ltac:(lia) ltac:(lia)) as ((X & X1 & X5) & KN).
  apply (post_bind U (vars_ok R rec reclen)).
  - assert (V' : vars_ok R rec reclen (visited (off + len) st)) by exact V.
    set (st1 := visited (off + len) st) in *. clearbody st1.
    assert (E : ends U (blockette J hb sw mode rec type off st1)).
    { apply blockette_ends; [exact OV|exact B|lia|exact X| |exact X5]. intros T. destruct (X1 T) as (e & enc & E1 & _ & E2 & _).
      destruct (Z.le_gt_cases 32 e); [left; auto|right; exists e; split; [exact E1|lia]]. }
    destruct (blockette J hb sw mode rec type off st1) as [st2| | |] eqn:EB; try exact E.
    apply blockette_vars in EB; [|exact B]. cbn [post]. destruct V' as (V1 & V2 & V3 & V4).
    destruct EB as [(_ & _ & S1 & S2 & S3 & S4)|[(T & S3 & S4 & e & enc & Ee & Le & S1 & Ec & S2)|(T & S4 & S3 & S1 & S2)]].
    + unfold vars_ok. now rewrite S1, S2, S3, S4.
    + subst type. cbn in X. unfold vars_ok. rewrite S3, S4. split; [right; lia|]. split; [exact V2|].
      rewrite S2. split.
      { unfold getZ in Ec. destruct (0 <=? off + 4); [|discriminate]. destruct (nth_error rec _) eqn:N; [|discriminate].
        injection Ec as ->. apply nth_error_In in N. unfold bytes_ok in B. rewrite Forall_forall in B.
        specialize (B _ N). unfold byte_ok in B. lia. }
      right. exists e. destruct (X1 eq_refl) as (e' & enc' & E1 & E2 & _ & E3). rewrite Ee in E1. injection E1 as <-.
      rewrite Ec in E2. injection E2 as <-.
      split; [|auto]. split; [|exact Le].
      unfold getZ in Ee. destruct (0 <=? off + 6); [|discriminate]. destruct (nth_error rec _) eqn:N; [|discriminate].
      injection Ee as ->. apply nth_error_In in N. unfold bytes_ok in B. rewrite Forall_forall in B.
      specialize (B _ N). unfold byte_ok in B. lia.
    + subst type. cbn in X. unfold vars_ok. rewrite S1, S2, S3, S4. split; [exact V1|]. split; [right; lia|]. auto.
  - intros st2 _ V2. cbv zeta. pose proof (rd_nonneg _ _ _ _ _ _ B En) as N0.
    destruct (negb (next =? 0) && (next <? off + len)) eqn:G1; [apply IH; auto; lia|].
    destruct (negb (next =? 0) && (reclen <? next)) eqn:G2; [apply IH; auto; lia|].
    apply IH; auto; try lia. intros NZ. apply KN. lia.
Qed.

(** ** The record *)

Lemma unpack2_core (U : ub -> Prop) R J hb mode addr flags rec reclen :
  (mode = Strict -> U SignedOverflow) -> bytes_ok rec -> 48 <= lenZ rec ->
  (forall st off, 64 <= reclen <= MAXRECLEN -> rd hb (swapped hb rec) 2 46 rec = Ok off -> vars_ok R rec reclen st ->
     post U (vars_ok R rec reclen) (blockettes (S (Z.to_nat reclen)) J hb (swapped hb rec) mode rec reclen off st)) ->
  (forall st m, has_flag flags MSF_UNPACKDATA = true -> vars_ok R rec reclen st -> m_fver m = 2 ->
     m_swaph m = swapped hb rec -> m_reclen m = s_reclen st -> m_enc m = s_enc st ->
     rd hb (swapped hb rec) 2 30 rec = Ok (m_cnt m) -> 0 < m_cnt m -> ends U (unpack_data hb mode addr rec m)) ->
  ends U (unpack2 J hb mode addr flags rec reclen).
Proof.
  intros OV B L HB HD. unfold unpack2.
  destruct (recordsid_any rec B ltac:(lia)) as (sid & sn & Es).
  destruct ((reclen <? 64) || (MAXRECLEN <? reclen)) eqn:G. { rewrite Es. reflexivity. }
  destruct (valid2_get 0 rec ltac:(lia) ltac:(lia)) as (v & Ev). rewrite Ev. cbn [bind].
  destruct (negb v). { rewrite Es. reflexivity. }
  destruct (rd_get hb false 2 20 rec) as (y & Ey); [lia|lia|lia|]. rewrite Ey. cbn [bind].
  destruct (rd_get hb false 2 22 rec) as (d & Ed); [lia|lia|lia|]. rewrite Ed. cbn [bind]. cbv zeta.
  assert (SW : negb ((1900 <=? y) && (y <=? 2100) && (1 <=? d) && (d <=? 366)) = swapped hb rec).
  { unfold swapped. now rewrite Ey, Ed. }
  rewrite SW. rewrite Es. cbn [bind]. rstep. rstep.
  destruct (rd_get hb (swapped hb rec) 2 30 rec) as (cnt & Ecnt); [lia|lia|lia|]. rewrite Ecnt. cbn [bind].
  do 5 rstep.
  destruct (rd_get hb (swapped hb rec) 2 46 rec) as (off & Eoff); [lia|lia|lia|]. rewrite Eoff. cbn [bind].
  match goal with |- ends _ (bind (blockettes _ _ _ _ _ _ _ _ ?s) _) => set (st0 := s) end.
  assert (V0 : vars_ok R rec reclen st0). { subst st0. unfold vars_ok. cbn. split; [auto|]. split; [auto|]. split; [lia|auto]. }
  clearbody st0. specialize (HB st0 off ltac:(lia) Eoff V0).
  destruct (blockettes _ _ _ _ _ _ _ _ _) as [st| | |]; cbn [bind]; try exact HB. cbn [post] in HB.
  destruct HB as (V1 & V2 & V3 & V4).
  apply ends_bind; [apply btime_fail_ends; auto; lia|]. intros start _.
  apply ends_bind. { match goal with |- ends _ (if ?c then _ else _) => destruct c end; [now apply sarith_ends|exact I]. } intros start2 _.
  apply ends_bind. { destruct (Z.eqb_spec (s_b1001 st) 0); cbn [negb]; [exact I|]. rstep. now apply sarith_ends. } intros start3 _.
  rstep.
  apply ends_bind. { destruct (Z.eqb_spec (s_b1000 st) 0); cbn [negb]; [exact I|]. rstep. exact I. } intros swapp _.
  destruct (has_flag flags MSF_UNPACKDATA) eqn:HF; cbn [andb]; [|exact I]. destruct (Z.ltb_spec 0 cnt); [|exact I].
  apply ends_bind; [|intros; exact I]. apply (HD st); cbn; auto. unfold vars_ok. auto.
Qed.

(** Every type that has a length takes at most 193 bytes more than that. *)
Lemma extent_slack hb sw type off rec len : bytes_ok rec -> blktlen hb sw type off rec = Ok len -> 0 < len ->
  extent type <= len + 193.
Proof.
  intros B H P. unfold blktlen in H.
  repeat match type of H with
  | (if ?t =? ?c then _ else _) = _ => destruct (Z.eqb_spec t c) as [->|_]; [injection H as <-; cbn; lia|]
  end.
  destruct (Z.eqb_spec type 2000) as [->|_]; [cbn; lia|]. injection H as <-. lia.
Qed.

Lemma swapped_slack J hb mode addr flags rec reclen :
  bytes_ok rec -> 0 <= reclen -> reclen + 193 <= lenZ rec -> has_flag flags MSF_UNPACKDATA = false ->
  ends (no_outside_read mode) (unpack2 J hb mode addr flags rec reclen).
Proof.
  intros B R0 L NF. apply (unpack2_core _ (fun _ _ => True)); auto; try lia; try congruence.
  - intros M. left. split; auto.
  - intros st off HR Eo V. apply (blockettes_post _ _ _ _ _ _ _ _ (fun _ => True)); auto; try lia.
    + intros M. left. split; auto.
    + intros o _ Ho. split; [lia|]. intros type next Et En. split; [lia|]. intros len EL LP LL. split; [|auto].
      unfold visit_ok. pose proof (extent_slack _ _ _ _ _ _ B EL LP).
      split; [lia|]. split.
      * intros ->. cbn in EL. injection EL as <-. destruct (getZ_get rec (o + 6)) as (e & E); [lia|].
        destruct (getZ_get rec (o + 4)) as (enc & E2); [lia|]. exists e, enc.
        split; [exact E|]. split; [exact E2|]. split; [|auto]. intros _. right. now left.
      * intros _. left. right. now right.
    + exact (rd_nonneg _ _ _ _ _ _ B Eo).
Qed.

Lemma chain_core (U : ub -> Prop) (R : Z -> Z -> Prop) J hb mode rec reclen limit off st (stop : Z -> Prop) (P : Z -> Z -> Prop) :
  (forall type, stop type -> blockette_size type = None) ->
  (mode = Strict -> U SignedOverflow) -> bytes_ok rec -> 64 <= reclen <= lenZ rec -> reclen <= limit -> 0 <= off ->
  (forall type o, 0 <= o -> P type o -> blockette_ok rec (lenZ rec) type o /\
     (type = 1000 -> forall e enc, getZ (o + 6) rec = Ok e -> getZ (o + 4) rec = Ok enc -> R e enc)) ->
  chain stop P hb (swapped hb rec) rec limit off ->
  vars_ok R rec reclen st ->
  post U (vars_ok R rec reclen) (blockettes (S (Z.to_nat reclen)) J hb (swapped hb rec) mode rec reclen off st).
Proof.
  intros HS OV B HL HM O HP C V.
  apply (blockettes_post _ _ _ _ _ _ _ _ (chain stop P hb (swapped hb rec) rec limit)); auto; try lia.
  intros o Co. destruct Co as [o [E|E]|o type next Et En HPo HN]; intros Ho; [lia|lia|].
  assert (O0 : 0 <= o) by lia. destruct (HP type o O0 HPo) as ((S1 & S2 & S3) & S4). fold (extent type) in S1.
  assert (E4 : 4 <= extent type /\ (type = 2000 -> 6 <= extent type)).
  { unfold extent, blockette_size. split; [|intros ->; cbn; lia].
    destruct type; try lia. repeat (destruct p; try (cbn; lia)). }
  assert (SE : o + extent type <= lenZ rec).
  { unfold extent. destruct (blockette_size type); lia. }
  split; [lia|]. intros type' next' Et' En'. rewrite Et in Et'. rewrite En in En'. injection Et' as <-. injection En' as <-.
  split; [lia|]. intros len EL LP LL. split.
  - split; [exact SE|]. split.
    + intros T. destruct (S2 T) as (e & E1 & E2). subst type. cbn in SE. destruct (getZ_get rec (o + 4)) as (enc & E3); [lia|].
      exists e, enc. split; [exact E1|]. split; [exact E3|]. split; [lia|]. intros _. exact (S4 eq_refl e enc E1 E3).
    + intros T. right. auto.
  - intros NX. destruct HN as [HN|[HN|HN]]; [lia| |exact HN]. exfalso. apply HS in HN.
    unfold blktlen in EL.
    repeat match type of EL with
    | (if ?t =? ?c then _ else _) = _ => destruct (Z.eqb_spec t c) as [->|_]; [discriminate HN|]
    end.
    injection EL as <-. lia.
Qed.

Lemma unpack2_chain (stop : Z -> Prop) J hb mode addr flags rec reclen limit :
  (forall type, stop type -> blockette_size type = None) ->
  bytes_ok rec -> 48 <= lenZ rec -> reclen <= lenZ rec -> reclen <= limit ->
  (has_flag flags MSF_UNPACKDATA = true -> samples_fit hb addr rec reclen (-1)) ->
  record_chain stop (fun type o => blockette_ok rec (lenZ rec) type o
                        /\ (has_flag flags MSF_UNPACKDATA = true -> length_ok hb addr rec type o)) hb rec limit ->
  inside mode (unpack2 J hb mode addr flags rec reclen).
Proof.
  intros HS B L RL LM FIT C. apply ends_inside.
  set (R := fun e enc => has_flag flags MSF_UNPACKDATA = true -> 2 ^ e <= lenZ rec /\ samples_fit hb addr rec (2 ^ e) enc).
  apply (unpack2_core _ R); auto.
  - intros ->. split; reflexivity.
  - intros st off HR Eo V.
    apply (chain_core _ R _ _ _ _ _ limit _ _ stop (fun type o => blockette_ok rec (lenZ rec) type o
                        /\ (has_flag flags MSF_UNPACKDATA = true -> length_ok hb addr rec type o))); auto; try lia.
    + intros ->. split; reflexivity.
    + exact (rd_nonneg _ _ _ _ _ _ B Eo).
    + intros type o O (P1 & P2). split; [exact P1|]. intros T e enc E1 E2 F. destruct (P2 F T) as (e' & enc' & F1 & F2 & F3 & F4).
      rewrite E1 in F1. rewrite E2 in F2. injection F1 as <-. injection F2 as <-. auto.
  - intros st m F (_ & _ & V3 & V4) Hv Hs Hm He Hc CP. apply ends_inside.
    assert (CB : m_cnt m < 2 ^ 16) by (exact (rd_below _ _ _ _ _ _ B Hc)).
    destruct (rd_get hb (swapped hb rec) 2 44 rec) as (doff & Ed); [lia|lia|lia|].
    pose proof (rd_nonneg _ _ _ _ _ _ B Ed) as D0.
    assert (K : forall n, m_reclen m = n -> n <= lenZ rec -> samples_fit hb addr rec n (m_enc m) ->
                inside mode (unpack_data hb mode addr rec m)).
    { intros n En Ln SF. destruct (SF _ _ Ed Hc) as (DL & W).
      apply (inside_longer hb mode addr rec m doff (n - doff)); try lia.
      - right. rewrite Hs, En. auto.
      - intros w Ew. destruct (W w Ew) as (W1 & W2). unfold available.
        destruct (Z.eqb_spec ((addr + doff) mod decoded_bytes (m_enc m)) 0); [lia|].
        assert (1 <= w <= 8) by (clear - Ew; unfold sample_bytes in Ew; repeat match type of Ew with context [match ?x with _ => _ end] => destruct x end; try discriminate; injection Ew as <-; lia).
        destruct (sized (m_enc m)); cbn [andb]; [|lia]. destruct (Z.ltb_spec (m_cnt m * w) (n - doff)); [|lia].
        rewrite Z.mod_small by nia. lia. }
    destruct V4 as [(V4 & V5)|(e & Ee & V5 & V6)].
    + apply (K reclen); [congruence|exact RL|]. rewrite He, V5. auto.
    + specialize (V5 F). destruct V5 as (V5 & V7). assert (e <= 30 \/ e = 31) as [E30|E31] by lia.
      * apply (K (2 ^ e)); [|exact V5|now rewrite He]. rewrite Hm, V6, Z.shiftl_1_l.
        assert (PB : 2 ^ e <= 2 ^ 30) by (apply Z.pow_le_mono_r; lia). pose proof (Z.pow_pos_nonneg 2 e ltac:(lia) ltac:(lia)).
        rewrite uwrap_id by (unfold in_u; lia). apply swrap_id; [lia|]. unfold in_s. change (32 - 1) with 31. lia.
      * unfold unpack_data. destruct (Z.leb_spec (m_cnt m) 0); [exact I|].
        replace (m_reclen m) with (- 2 ^ 31) by (rewrite Hm, V6, E31; reflexivity). reflexivity.
Qed.

(** ** The search for the record length *)

Lemma search_chain (stop : Z -> Prop) (P : Z -> Z -> Prop) hb sw buf : bytes_ok buf ->
  (forall type, stop type -> type = 1000) -> (forall type o, 0 <= o -> P type o -> search_ok buf (lenZ buf) type o) ->
  forall fuel off, 0 <= off -> (1 <= fuel)%nat -> (47 < off -> lenZ buf - off + 2 <= Z.of_nat fuel) ->
  chain stop P hb sw buf (lenZ buf + 1) off ->
  (exists o, detect2_loop fuel hb sw buf off = Ok o) \/ detect2_loop fuel hb sw buf off = Err (-1).
Proof.
  intros B HS HP. induction fuel as [|fuel IH]; intros off O F1 F C; [lia|]. cbn [detect2_loop]. cbv zeta. fold (lenZ buf).
  destruct (negb (off =? 0) && (47 <? off) && (off <=? lenZ buf)) eqn:G; [|left; eexists; reflexivity].
  destruct C as [off [E|E]|off type next Et En Po HN]; [lia|lia|].
  destruct (HP type off O Po) as (S1 & S2). rewrite Et, En. cbn [bind].
  pose proof (rd_nonneg _ _ _ _ _ _ B En) as N0.
  destruct (Z.eqb_spec type 1000) as [T|T]; cbn [andb].
  - destruct (S2 T) as (S3 & e & E1 & E2). destruct (Z.leb_spec (off + 8) (lenZ buf)); [|lia]. rewrite E1. cbn [bind].
    destruct (Z.leb_spec 64 e); [lia|]. left. eexists. reflexivity.
  - destruct (negb (next =? 0) && _) eqn:G1; [right; reflexivity|].
    destruct HN as [HN|[HN|HN]]; [|now apply HS in HN|].
    + assert (next = 0) by lia. subst next. apply IH; try lia. apply chain_end. now left.
    + apply IH; try lia. exact HN.
Qed.

Lemma scan_get buf : forall fuel pos, 0 <= pos -> (1 <= fuel)%nat -> (pos <= lenZ buf -> lenZ buf - pos < Z.of_nat fuel) ->
  exists o, detect2_scan fuel buf pos = Ok o /\ match o with Some p => 0 <= p < lenZ buf | None => True end.
Proof.
  induction fuel as [|fuel IH]; intros pos P0 F1 F; [lia|]. cbn [detect2_scan]. fold (lenZ buf).
  destruct (Z.ltb_spec (pos + 48) (lenZ buf)); [|exists None; auto].
  destruct (valid2_get pos buf) as (v & ->); [lia|lia|]. cbn [bind]. destruct v; [exists (Some pos); split; [reflexivity|lia]|].
  apply IH; lia.
Qed.

Lemma valid3_not2 buf : valid2_at 0 buf = Ok true -> valid3 buf = Ok false.
Proof.
  unfold valid2_at, valid3. cbn [all_at]. destruct (getZ (0 + 0) buf) as [b| | |]; cbn [bind]; try discriminate.
  destruct (seq_char b) eqn:E; [|discriminate]. intros _. unfold seq_char in E.
  destruct (Z.eqb_spec b 77); [lia|]. reflexivity.
Qed.

Lemma detect_chain (stop : Z -> Prop) (P : Z -> Z -> Prop) hb buf : bytes_ok buf -> 48 <= lenZ buf -> valid2_at 0 buf = Ok true ->
  (forall type, stop type -> type = 1000) -> (forall type o, 0 <= o -> P type o -> search_ok buf (lenZ buf) type o) ->
  record_chain stop P hb buf (lenZ buf + 1) ->
  exists l, detect hb buf = Ok (2, l).
Proof.
  intros B L V HS HP C. unfold detect. fold (lenZ buf). unfold MINRECLEN. destruct (Z.ltb_spec (lenZ buf) 40); [lia|].
  rewrite valid3_not2, V by exact V. cbn [bind]. unfold detect2.
  destruct (rd_get hb false 2 20 buf) as (y & Ey); [lia|lia|lia|]. rewrite Ey. cbn [bind].
  destruct (rd_get hb false 2 22 buf) as (d & Ed); [lia|lia|lia|]. rewrite Ed. cbn [bind]. cbv zeta.
  assert (SW : negb ((1900 <=? y) && (y <=? 2100) && (1 <=? d) && (d <=? 366)) = swapped hb buf).
  { unfold swapped. now rewrite Ey, Ed. }
  rewrite SW. destruct (rd_get hb (swapped hb buf) 2 46 buf) as (off & Eo); [lia|lia|lia|]. rewrite Eo. cbn [bind].
  pose proof (rd_nonneg _ _ _ _ _ _ B Eo) as O.
  destruct (scan_get buf (S (length buf)) 64 ltac:(lia) ltac:(lia) ltac:(unfold lenZ; lia)) as (s & ES & _).
  destruct (search_chain stop P hb (swapped hb buf) buf B HS HP (S (length buf)) off O ltac:(lia) ltac:(unfold lenZ; lia) (C off Eo))
    as [(o & ->)| ->]; [|eexists; reflexivity].
  rewrite ES. cbn [bind]. destruct o as [l|]; [destruct (l =? -1)|]; eexists; reflexivity.
Qed.

Lemma parse_chain J hb mode addr flags buf : bytes_ok buf -> 48 <= lenZ buf -> valid2_at 0 buf = Ok true ->
  record_chain nowhere (fun type o => blockette_ok buf (lenZ buf) type o
                        /\ (has_flag flags MSF_UNPACKDATA = true -> length_ok hb addr buf type o)) hb buf (lenZ buf + 1) ->
  (has_flag flags MSF_UNPACKDATA = true -> forall reclen, detect hb buf = Ok (2, reclen) -> reclen <= lenZ buf ->
     samples_fit hb addr buf (if reclen =? 0 then lenZ buf else reclen) (-1)) ->
  inside mode (parse (unpack2 J hb mode addr flags) hb mode addr flags buf).
Proof.
  intros B L V C F. unfold parse. fold (lenZ buf).
  assert (SO : forall type o, 0 <= o -> blockette_ok buf (lenZ buf) type o
                        /\ (has_flag flags MSF_UNPACKDATA = true -> length_ok hb addr buf type o) ->
                search_ok buf (lenZ buf) type o).
  { intros type o O ((P1 & P2 & _) & _). unfold blockette_size in P1. split.
    - clear - P1. destruct type; try lia. revert P1. repeat (destruct p; try (cbn; lia)).
    - intros ->. cbn in P1. split; [lia|]. destruct (P2 eq_refl) as (e & E1 & E2). exists e. split; [exact E1|lia]. }
  assert (SN : forall type, nowhere type -> type = 1000) by (intros ? []).
  destruct (detect_chain nowhere _ hb buf B L V SN SO C) as (l & E).
  rewrite E. cbn [bind]. cbv zeta.
  match goal with |- context [if ?c then lenZ buf else l] => set (reclen := if c then lenZ buf else l) end.
  destruct (Z.ltb_spec reclen 0); [reflexivity|]. destruct (Z.eqb_spec reclen 0); [exact I|].
  destruct ((reclen <? MINRECLEN) || (MAXRECLEN <? reclen)); [reflexivity|].
  destruct (Z.ltb_spec (lenZ buf) reclen); [exact I|]. cbn [Z.eqb Pos.eqb].
  apply inside_bind; [|intros; exact I].
  apply (unpack2_chain nowhere _ _ _ _ _ _ _ (lenZ buf + 1)); auto; try lia; [intros ? []|].
  intros HF. assert (RL : l <= lenZ buf /\ reclen = if l =? 0 then lenZ buf else l).
  { revert H n H0. unfold reclen. destruct (Z.eqb_spec l 0); cbn [Z.eqb Pos.eqb andb]; [|lia].
    match goal with |- context [if ?c then _ else _] => destruct c end; lia. }
  destruct RL as (RL & ->). exact (F HF l E RL).
Qed.
