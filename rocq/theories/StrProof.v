(** * Proofs about the string helpers. *)
From Verif Require Import Base BaseLemmas StrModel StrSpec.
Open Scope Z_scope.

(** ** Buffers *)

Lemma set_nth_app {A} (a b : list A) x v : set_nth (length a) v (a ++ x :: b) = a ++ v :: b.
Proof. induction a; simpl; auto. now rewrite IHa. Qed.

Lemma set_nth_length {A} n (v : A) l : length (set_nth n v l) = length l.
Proof. revert n; induction l; intros [|n]; simpl; auto. Qed.

Lemma setZ_app {A} (a b : list A) x v i : i = Z.of_nat (length a) -> setZ i v (a ++ x :: b) = Ok (a ++ v :: b).
Proof.
  intros ->. unfold setZ. rewrite app_length. cbn [length].
  destruct (Z.leb_spec 0 (Z.of_nat (length a))); [|lia].
  destruct (Z.ltb_spec (Z.of_nat (length a)) (Z.of_nat (length a + S (length b)))); [|lia].
  cbn [andb]. now rewrite Nat2Z.id, set_nth_app.
Qed.

Lemma getZ_app {A} (a b : list A) x i : i = Z.of_nat (length a) -> getZ i (a ++ x :: b) = Ok x.
Proof.
  intros ->. unfold getZ. destruct (Z.leb_spec 0 (Z.of_nat (length a))); [|lia].
  rewrite Nat2Z.id, nth_error_app2 by lia. now rewrite Nat.sub_diag.
Qed.

Lemma split_nth {A} (l : list A) n : (n < length l)%nat -> exists a x b, l = a ++ x :: b /\ length a = n.
Proof.
  revert n; induction l; simpl; intros n H; [lia|]. destruct n.
  - now exists [], a, l.
  - destruct (IHl n) as (p & x & b & -> & E); [lia|]. exists (a :: p), x, b. simpl. now rewrite E.
Qed.

(** ** UTF-8 *)

Definition ustep (st b : Z) : Z :=
  nth (Z.to_nat (256 + st * 16 + nth (Z.to_nat b) utf8d 0)) utf8d 0.

Lemma utf8d_length : length utf8d = 400%nat.
Proof. reflexivity. Qed.

Lemma getZ_nth i (l : list Z) : 0 <= i < Z.of_nat (length l) -> getZ i l = Ok (nth (Z.to_nat i) l 0).
Proof.
  intros H. unfold getZ. destruct (Z.leb_spec 0 i); [|lia].
  rewrite (nth_error_nth' l 0) by lia. reflexivity.
Qed.

(** What one step does, in terms of the byte ranges. *)
Definition rng (a b x : Z) : bool := (a <=? x) && (x <=? b).
Definition sstep (st b : Z) : Z :=
  if st =? 0 then
    if rng 0 0x7F b then 0 else if rng 0xC2 0xDF b then 2 else if b =? 0xE0 then 4
    else if b =? 0xED then 5 else if rng 0xE1 0xEF b then 3 else if b =? 0xF0 then 6
    else if rng 0xF1 0xF3 b then 7 else if b =? 0xF4 then 8 else 1
  else if st =? 2 then if rng 0x80 0xBF b then 0 else 1
  else if st =? 3 then if rng 0x80 0xBF b then 2 else 1
  else if st =? 4 then if rng 0xA0 0xBF b then 2 else 1
  else if st =? 5 then if rng 0x80 0x9F b then 2 else 1
  else if st =? 6 then if rng 0x90 0xBF b then 3 else 1
  else if st =? 7 then if rng 0x80 0xBF b then 3 else 1
  else if st =? 8 then if rng 0x80 0x8F b then 3 else 1
  else 1.

Definition byte_list : list Z := map Z.of_nat (seq 0 256).
Lemma byte_list_in b : 0 <= b < 256 -> In b byte_list.
Proof. intros H. unfold byte_list. apply in_map_iff. exists (Z.to_nat b). rewrite in_seq. lia. Qed.

Lemma steps_agree : forallb (fun b => forallb (fun st => ustep st b =? sstep st b) [0;1;2;3;4;5;6;7;8])
  byte_list = true.
Proof. vm_compute. reflexivity. Qed.

Lemma ustep_sstep st b : 0 <= st <= 8 -> 0 <= b < 256 -> ustep st b = sstep st b.
Proof.
  intros S B. pose proof steps_agree as H. rewrite forallb_forall in H.
  specialize (H b (byte_list_in b B)). rewrite forallb_forall in H.
  apply Z.eqb_eq, H. assert (C : st = 0 \/ st = 1 \/ st = 2 \/ st = 3 \/ st = 4 \/ st = 5 \/ st = 6 \/ st = 7 \/ st = 8) by lia.
  simpl. intuition.
Qed.

Lemma sstep_range st b : 0 <= sstep st b <= 8.
Proof.
  unfold sstep. repeat match goal with |- context [if ?c then _ else _] => destruct c end; lia.
Qed.

Lemma types_small : forallb (fun b => rng 0 11 (nth (Z.to_nat b) utf8d 0)) byte_list = true.
Proof. vm_compute. reflexivity. Qed.

Lemma utf8_step_ok st b : 0 <= st <= 8 -> 0 <= b < 256 -> utf8_step st b = Ok (sstep st b).
Proof.
  intros S B. unfold utf8_step. rewrite getZ_nth by (rewrite utf8d_length; lia). cbn [bind].
  pose proof types_small as H. rewrite forallb_forall in H.
  specialize (H b (byte_list_in b B)). unfold rng in H. apply andb_true_iff in H.
  rewrite getZ_nth by (rewrite utf8d_length; lia). f_equal. now apply ustep_sstep.
Qed.

Fixpoint run (st : Z) (l : list Z) : Z :=
  match l with [] => st | b :: l' => run (sstep st b) l' end.

Lemma run_app st a b : run st (a ++ b) = run (run st a) b.
Proof. revert st; induction a; simpl; auto. Qed.

Lemma rng_iff a b x : rng a b x = true <-> a <= x <= b.
Proof. unfold rng. lia. Qed.

Lemma run_stuck l : run 1 l = 1.
Proof. induction l; simpl; auto. Qed.

Lemma step1 st b st' : sstep st b = st' -> sstep st b = st'.
Proof. auto. Qed.

Ltac stepc := unfold tail_byte in *; unfold sstep; cbn [Z.eqb Pos.eqb];
  repeat match goal with
  | |- (if ?c then _ else _) = _ => first [replace c with true by (unfold rng; lia) | replace c with false by (unfold rng; lia)]
  end; reflexivity.

(** A complete character takes the automaton from 0 to 0. *)
Lemma run_char c : utf8_char c -> run 0 c = 0.
Proof.
  unfold tail_byte. intros H. destruct H; cbn [run].
  - stepc.
  - rewrite (step1 0 a 2) by stepc. stepc.
  - rewrite (step1 0 0xE0 4), (step1 4 b 2) by stepc. stepc.
  - rewrite (step1 0 a 3), (step1 3 b 2) by stepc. stepc.
  - rewrite (step1 0 0xED 5), (step1 5 b 2) by stepc. stepc.
  - rewrite (step1 0 a 3), (step1 3 b 2) by stepc. stepc.
  - rewrite (step1 0 0xF0 6), (step1 6 b 3), (step1 3 c 2) by stepc. stepc.
  - rewrite (step1 0 a 7), (step1 7 b 3), (step1 3 c 2) by stepc. stepc.
  - rewrite (step1 0 0xF4 8), (step1 8 b 3), (step1 3 c 2) by stepc. stepc.
Qed.

Lemma run_wf s : utf8_wf s -> run 0 s = 0.
Proof. induction 1; [reflexivity|]. now rewrite run_app, run_char. Qed.

(** Bytes that finish a character from a state. *)
Definition pend (st : Z) (s : list Z) : Prop :=
  match st with
  | 0 => utf8_wf s
  | 2 => exists a t, s = a :: t /\ tail_byte a /\ utf8_wf t
  | 3 => exists a b t, s = a :: b :: t /\ tail_byte a /\ tail_byte b /\ utf8_wf t
  | 4 => exists a b t, s = a :: b :: t /\ 0xA0 <= a <= 0xBF /\ tail_byte b /\ utf8_wf t
  | 5 => exists a b t, s = a :: b :: t /\ 0x80 <= a <= 0x9F /\ tail_byte b /\ utf8_wf t
  | 6 => exists a b c t, s = a :: b :: c :: t /\ 0x90 <= a <= 0xBF /\ tail_byte b /\ tail_byte c /\ utf8_wf t
  | 7 => exists a b c t, s = a :: b :: c :: t /\ tail_byte a /\ tail_byte b /\ tail_byte c /\ utf8_wf t
  | 8 => exists a b c t, s = a :: b :: c :: t /\ 0x80 <= a <= 0x8F /\ tail_byte b /\ tail_byte c /\ utf8_wf t
  | _ => False
  end.

Lemma pend0 b s : 0 <= b < 256 -> pend (sstep 0 b) s -> utf8_wf (b :: s).
Proof.
  intros B. unfold sstep. cbn [Z.eqb].
  destruct (rng 0 127 b) eqn:E1.
  { apply rng_iff in E1. cbn [pend]. intros W. apply (wf_cons [b]); auto. now constructor. }
  destruct (rng 0xC2 0xDF b) eqn:E2.
  { apply rng_iff in E2. cbn [pend]. intros (x & t & -> & H & W). apply (wf_cons [b; x]); auto. now constructor. }
  destruct (Z.eqb_spec b 0xE0) as [->|N1].
  { cbn [pend]. intros (x & y & t & -> & H & H' & W). apply (wf_cons [0xE0; x; y]); auto. now constructor. }
  destruct (Z.eqb_spec b 0xED) as [->|N2].
  { cbn [pend]. intros (x & y & t & -> & H & H' & W). apply (wf_cons [0xED; x; y]); auto. now constructor. }
  destruct (rng 0xE1 0xEF b) eqn:E3.
  { apply rng_iff in E3. cbn [pend]. intros (x & y & t & -> & H & H' & W). apply (wf_cons [b; x; y]); auto.
    assert (b <= 0xEC \/ 0xEE <= b) as [L|L] by lia; [apply u3b|apply u3d]; auto; lia. }
  destruct (Z.eqb_spec b 0xF0) as [->|N3].
  { cbn [pend]. intros (x & y & z & t & -> & H & H' & H'' & W). apply (wf_cons [0xF0; x; y; z]); auto. now constructor. }
  destruct (rng 0xF1 0xF3 b) eqn:E4.
  { apply rng_iff in E4. cbn [pend]. intros (x & y & z & t & -> & H & H' & H'' & W). apply (wf_cons [b; x; y; z]); auto. now constructor. }
  destruct (Z.eqb_spec b 0xF4) as [->|N4].
  { cbn [pend]. intros (x & y & z & t & -> & H & H' & H'' & W). apply (wf_cons [0xF4; x; y; z]); auto. now constructor. }
  cbn [pend]. tauto.
Qed.

Lemma run_pend l : forall st, 0 <= st <= 8 -> bytes_ok l -> run st l = 0 -> pend st l.
Proof.
  induction l as [|b l IH]; intros st S B R.
  - cbn [run] in R. subst st. constructor.
  - inversion_clear B as [|? ? Bb Bl]. cbn [run] in R.
    pose proof (sstep_range st b) as SR. specialize (IH _ SR Bl R). unfold byte_ok in Bb.
    assert (C : st = 0 \/ st = 1 \/ st = 2 \/ st = 3 \/ st = 4 \/ st = 5 \/ st = 6 \/ st = 7 \/ st = 8) by lia.
    destruct C as [->|C]; [cbn [pend]; now apply pend0|].
    destruct C as [->|C]; [exact IH|].
    unfold sstep in IH.
    destruct C as [->|[->|[->|[->|[->|[->| ->]]]]]]; cbn [Z.eqb Pos.eqb] in IH;
    match type of IH with context [rng ?x ?y b] => destruct (rng x y b) eqn:E; [|destruct IH]; apply rng_iff in E end;
    cbn [pend] in IH |- *.
    + exists b, l. auto.
    + destruct IH as (a & t & -> & H). exists b, a, t. unfold tail_byte in *; intuition.
    + destruct IH as (a & t & -> & H). exists b, a, t. unfold tail_byte in *; intuition.
    + destruct IH as (a & t & -> & H). exists b, a, t. unfold tail_byte in *; intuition.
    + destruct IH as (a & c & t & -> & H). exists b, a, c, t. unfold tail_byte in *; intuition.
    + destruct IH as (a & c & t & -> & H). exists b, a, c, t. unfold tail_byte in *; intuition.
    + destruct IH as (a & c & t & -> & H). exists b, a, c, t. unfold tail_byte in *; intuition.
Qed.

Lemma run_iff l : bytes_ok l -> run 0 l = 0 <-> utf8_wf l.
Proof.
  intros B. split; [|apply run_wf]. intros R. apply (run_pend l 0); auto; lia.
Qed.

(** The loop as a function on the visible bytes. *)
Fixpoint best (off st len : Z) (v : list Z) : Z :=
  match v with
  | [] => len
  | b :: v' => best (off + 1) (sstep st b) (if sstep st b =? 0 then off + 1 else len) v'
  end.

Lemma utf8_loop_ok src : forall off max st len, 0 <= st <= 8 -> bytes_ok src ->
  Z.max 0 (max - off) < Z.of_nat (length src) \/ In 0 src ->
  utf8_loop src off max st len = Ok (best off st len (before_nul (firstn (Z.to_nat (max - off)) src))).
Proof.
  induction src as [|b src IH]; intros off max st len S B R.
  - destruct R as [R|[]]. cbn [length] in R. lia.
  - inversion_clear B as [|? ? Bb Bl]. cbn [utf8_loop].
    destruct (Z.ltb_spec off max) as [L|L].
    + replace (Z.to_nat (max - off)) with (Datatypes.S (Z.to_nat (max - (off + 1)))) by lia.
      cbn [firstn before_nul]. destruct (Z.eqb_spec b 0) as [E|E]; [reflexivity|]. cbn [orb negb].
      rewrite utf8_step_ok by auto. cbn [bind best]. apply IH; auto.
      * apply sstep_range.
      * cbn [length] in R. destruct R as [R|[R|R]]; [left; lia|congruence|auto].
    + replace (Z.to_nat (max - off)) with O by lia. rewrite orb_true_r. reflexivity.
Qed.

Lemma best_spec v : forall off st len,
  (best off st len v = len /\ forall a b, v = a ++ b -> a <> [] -> run st a <> 0) \/
  (exists a b, v = a ++ b /\ a <> [] /\ run st a = 0 /\ best off st len v = off + Z.of_nat (length a) /\
     forall a' b', v = a' ++ b' -> run st a' = 0 -> a' = [] \/ (length a' <= length a)%nat).
Proof.
  induction v as [|x v IH]; intros off st len; cbn [best].
  - left. split; auto. intros [|] b E N; [congruence|discriminate].
  - destruct (IH (off + 1) (sstep st x) (if sstep st x =? 0 then off + 1 else len)) as [[E H]|(a & b & E & N & R & E2 & H)].
    + destruct (Z.eqb_spec (sstep st x) 0) as [Z|Z].
      * right. exists [x], v. split; [reflexivity|]. split; [discriminate|]. split; [exact Z|]. split; [cbn [length]; lia|].
        intros [|y a'] b' Ea Ra; auto. right. injection Ea as <- Ea. cbn [run] in Ra.
        destruct a'; [cbn [length]; lia|]. exfalso. apply (H (z :: a') b'); auto. discriminate.
      * left. split; auto. intros [|y a] b Ea Na; [congruence|]. injection Ea as <- Ea. cbn [run].
        destruct a; [exact Z|]. apply (H _ b); auto. discriminate.
    + right. exists (x :: a), b. split; [simpl; congruence|]. split; [discriminate|]. split; [exact R|].
      split; [cbn [length]; lia|].
      intros [|y a'] b' Ea Ra; auto. right. injection Ea as <- Ea. cbn [run] in Ra.
      destruct (H a' b' Ea Ra) as [->|]; cbn [length]; lia.
Qed.

Lemma before_nul_ok s : bytes_ok s -> bytes_ok (before_nul s).
Proof. induction 1; cbn [before_nul]; [constructor|]. destruct (x =? 0); constructor; auto. Qed.

Lemma visible_ok src len : bytes_ok src -> bytes_ok (visible src len).
Proof. intros B. apply before_nul_ok. unfold bytes_ok in *. now apply Forall_firstn. Qed.

(** The returned length is that of the longest well-formed prefix. *)
Lemma utf8length_ok src len : bytes_ok src -> readable src len ->
  exists p, longest_utf8 (visible src len) p /\ utf8length_int src len = Ok (Z.of_nat (length p)).
Proof.
  intros B R. unfold utf8length_int. rewrite utf8_loop_ok by (rewrite ?Z.sub_0_r; auto; lia).
  rewrite Z.sub_0_r. fold (visible src len).
  pose proof (visible_ok src len B) as V.
  assert (W : forall a b, visible src len = a ++ b -> run 0 a = 0 <-> utf8_wf a).
  { intros a b E. apply run_iff. rewrite E in V. apply Forall_app in V. tauto. }
  destruct (best_spec (visible src len) 0 0 0) as [[E H]|(a & b & E & N & Ra & E2 & H)].
  - exists []. rewrite E. split; [|reflexivity]. split; [eexists; reflexivity|]. split; [constructor|].
    intros p' r' Ep Wp. destruct p'; [reflexivity|]. exfalso. apply (H _ _ Ep); [discriminate|]. eapply W; eauto.
  - exists a. rewrite E2. split; [|reflexivity]. split; [eauto|]. split; [eapply W; eauto|].
    intros p' r' Ep Wp. destruct (H p' r' Ep) as [->|]; [eapply W; eauto|cbn [length]; lia|auto].
Qed.

Lemma app_inj_len {A} (a b c d : list A) : a ++ b = c ++ d -> length a = length c -> a = c /\ b = d.
Proof.
  revert c; induction a; intros [|x c] E L; try discriminate; [auto|].
  injection E as -> E. injection L as L. destruct (IHa c E L) as [-> ->]. auto.
Qed.

Lemma longest_unique s p q : longest_utf8 s p -> longest_utf8 s q -> p = q.
Proof.
  intros ((r & E) & W & M) ((r' & E') & W' & M').
  assert (L : length p = length q) by (pose proof (M _ _ E' W'); pose proof (M' _ _ E W); lia).
  rewrite E in E'. apply app_inj_len in E'; tauto.
Qed.

(** A prefix of the visible bytes is a prefix of the source with no zero byte. *)
Lemma before_nul_prefix s : exists r, s = before_nul s ++ r /\ ~ In 0 (before_nul s).
Proof.
  induction s as [|c s (r & E & N)]; cbn [before_nul]; [now exists []|].
  destruct (Z.eqb_spec c 0); [exists (c :: s); auto|]. exists r. split; [now rewrite E at 1|].
  intros [H|H]; auto.
Qed.

Lemma longest_prefix src len p : longest_utf8 (visible src len) p ->
  (exists r, src = p ++ r) /\ ~ In 0 p /\ Z.of_nat (length p) <= Z.max 0 len.
Proof.
  intros ((r & E) & _ & _). unfold visible in E.
  destruct (before_nul_prefix (firstn (Z.to_nat len) src)) as (r2 & E2 & N). rewrite E in E2, N.
  split; [|split].
  - exists (r ++ r2 ++ skipn (Z.to_nat len) src). rewrite <- (firstn_skipn (Z.to_nat len) src) at 1.
    rewrite E2. now rewrite <- !app_assoc.
  - intros I. apply N. apply in_or_app. auto.
  - apply (f_equal (@length Z)) in E2. rewrite firstn_length, !app_length in E2. lia.
Qed.

(** ** Copies *)

Lemma clean_loop_ok p : forall pre r d1 d2, ~ In 0 p -> (length (no_spaces p) <= length d2)%nat ->
  clean_loop (length p) (pre ++ p ++ r) (d1 ++ d2) (Z.of_nat (length pre)) (Z.of_nat (length d1)) =
  Ok (d1 ++ no_spaces p ++ skipn (length (no_spaces p)) d2, Z.of_nat (length d1) + Z.of_nat (length (no_spaces p))).
Proof.
  induction p as [|c p IH]; intros pre r d1 d2 N L.
  - cbn [clean_loop length no_spaces filter app skipn]. do 2 f_equal. lia.
  - cbn [clean_loop length]. cbn [app]. rewrite getZ_app by reflexivity. cbn [bind].
    destruct (Z.eqb_spec c 0) as [->|E]; [exfalso; apply N; now left|].
    replace (pre ++ c :: p ++ r) with ((pre ++ [c]) ++ p ++ r) by now rewrite <- app_assoc.
    replace (Z.of_nat (length pre) + 1) with (Z.of_nat (length (pre ++ [c]))) by (rewrite app_length; simpl; lia).
    cbn [no_spaces filter] in L |- *. destruct (negb (c =? 32)) eqn:Q.
    + destruct d2 as [|x d2]; [cbn [length] in L; lia|].
      rewrite setZ_app by reflexivity. cbn [bind].
      replace (d1 ++ c :: d2) with ((d1 ++ [c]) ++ d2) by now rewrite <- app_assoc.
      replace (Z.of_nat (length d1) + 1) with (Z.of_nat (length (d1 ++ [c]))) by (rewrite app_length; simpl; lia).
      rewrite IH; [|intros I; apply N; now right|cbn [length] in L; fold (no_spaces p) in L; lia].
      cbn [length skipn]. fold (no_spaces p). f_equal. f_equal; [now rewrite <- app_assoc|rewrite app_length; simpl; lia].
    + rewrite IH; [reflexivity|intros I; apply N; now right|exact L].
Qed.

Lemma strncpclean_ok dest src len p : bytes_ok src -> readable src len -> longest_utf8 (visible src len) p ->
  (length (no_spaces p) < length dest)%nat ->
  exists d, strncpclean dest (Some src) len = Ok (d, Z.of_nat (length (no_spaces p))) /\
            holds_string dest d (no_spaces p).
Proof.
  intros B R P L. destruct (utf8length_ok src len B R) as (q & Q & E).
  rewrite <- (longest_unique _ _ _ P Q) in E. clear q Q.
  destruct (longest_prefix _ _ _ P) as ((r & ->) & N & _).
  unfold strncpclean. rewrite E. cbn [bind]. rewrite Nat2Z.id.
  pose proof (clean_loop_ok p [] r [] dest N ltac:(lia)) as C. cbn [app length Z.of_nat] in C. rewrite C. cbn [bind].
  destruct (skipn (length (no_spaces p)) dest) as [|x l] eqn:K.
  { apply (f_equal (@length Z)) in K. rewrite skipn_length in K. cbn [length] in K. lia. }
  rewrite setZ_app by reflexivity. eexists. split; [reflexivity|]. unfold holds_string.
  f_equal. f_equal. change (S (length (no_spaces p))) with (1 + length (no_spaces p))%nat.
  rewrite <- skipn_skipn, K. reflexivity.
Qed.

Lemma tail_loop2 p : forall r x y k, 0 < k -> length x = length p ->
  tail_loop (length p) (p ++ r) (x ++ y) k = Ok (p ++ y, k + Z.of_nat (length p)).
Proof.
  induction p as [|c p IH] using rev_ind; intros r x y k K L.
  - destruct x; [|discriminate]. cbn [length tail_loop app]. do 2 f_equal. lia.
  - rewrite app_length in *. cbn [length] in *. rewrite Nat.add_1_r in *. cbn [tail_loop].
    destruct (exists_last (l:=x)) as (x' & z & ->); [intros ->; discriminate|].
    rewrite app_length in L. cbn [length] in L.
    destruct (Z.eqb_spec k 0); [lia|]. cbn [bind]. rewrite <- !app_assoc. cbn [app].
    rewrite getZ_app by reflexivity. cbn [bind]. rewrite setZ_app by (f_equal; lia). cbn [bind].
    rewrite IH by lia. do 2 f_equal. lia.
Qed.

Lemma tail_loop1 k : forall t r x y, length x = (length t + k)%nat ->
  exists x', length x' = length t /\
  tail_loop (length t + k) (t ++ repeat 32 k ++ r) (x ++ y) 0 =
  tail_loop (length t) (t ++ repeat 32 k ++ r) (x' ++ repeat 0 k ++ y) 0.
Proof.
  induction k; intros t r x y L.
  - rewrite Nat.add_0_r in *. exists x. auto.
  - rewrite Nat.add_succ_r in *. cbn [tail_loop].
    destruct (exists_last (l:=x)) as (x0 & z & ->); [intros ->; discriminate|].
    rewrite app_length in L. cbn [length] in L.
    assert (G : forall q, getZ (Z.of_nat (length t + k)) (t ++ repeat 32 (S k) ++ q) = Ok 32).
    { intros q. replace (repeat 32 (S k)) with (repeat 32 k ++ [32]) by now rewrite <- repeat_cons.
      rewrite <- app_assoc, app_assoc. cbn [app]. apply getZ_app. rewrite app_length, repeat_length. reflexivity. }
    cbn [Z.eqb]. rewrite G. cbn [bind]. cbn [Z.eqb Pos.eqb].
    rewrite <- app_assoc. cbn [app]. rewrite setZ_app by (f_equal; lia). cbn [bind].
    replace (repeat 32 (S k) ++ r) with (repeat 32 k ++ 32 :: r) by (cbn [repeat]; rewrite repeat_cons, <- app_assoc; reflexivity).
    destruct (IHk t (32 :: r) x0 (0 :: y)) as (x' & L' & E); [lia|].
    exists x'. split; auto. rewrite E. f_equal.
    cbn [repeat]. rewrite (repeat_cons k 0), <- app_assoc. reflexivity.
Qed.

Lemma tail_loop_ok t k r x y : (forall t', t <> t' ++ [32]) -> length x = (length t + k)%nat ->
  tail_loop (length t + k) (t ++ repeat 32 k ++ r) (x ++ y) 0 = Ok (t ++ repeat 0 k ++ y, Z.of_nat (length t)).
Proof.
  intros T L. destruct (tail_loop1 k t r x y L) as (x' & L' & ->).
  destruct t as [|c0 t0] eqn:Et.
  - destruct x'; [|discriminate]. reflexivity.
  - rewrite <- Et in *. destruct (exists_last (l:=t)) as (t' & c & E); [congruence|]. clear c0 t0 Et. subst t.
    rewrite app_length in *. cbn [length] in *. rewrite Nat.add_1_r in *. cbn [tail_loop Z.eqb].
    destruct (exists_last (l:=x')) as (x0 & z & ->); [intros ->; discriminate|].
    rewrite app_length in L'. cbn [length] in L'. rewrite <- !app_assoc. cbn [app].
    rewrite getZ_app by reflexivity. cbn [bind].
    destruct (Z.eqb_spec c 32) as [->|N]; [exfalso; now apply (T t')|].
    rewrite setZ_app by (f_equal; lia). cbn [bind Z.add].
    rewrite tail_loop2 by lia. do 2 f_equal. lia.
Qed.

Lemma strncpcleantail_ok dest src len p : bytes_ok src -> readable src len -> longest_utf8 (visible src len) p ->
  (length p < length dest)%nat ->
  exists t k, p = t ++ repeat 32 k /\ trimmed p t /\
    strncpcleantail dest (Some src) len =
      Ok (t ++ repeat 0 (S k) ++ skipn (S (length p)) dest, Z.of_nat (length t)).
Proof.
  intros B R P L. destruct (utf8length_ok src len B R) as (q & Q & E).
  rewrite <- (longest_unique _ _ _ P Q) in E. clear q Q.
  destruct (longest_prefix _ _ _ P) as ((r & ->) & N & _).
  assert (T : exists t k, p = t ++ repeat 32 k /\ forall t', t <> t' ++ [32]).
  { clear. induction p as [|c p (t & k & -> & H)] using rev_ind.
    - exists [], O. split; auto. intros [|] ?; discriminate.
    - destruct (Z.eq_dec c 32) as [->|N].
      + exists t, (S k). split; auto. rewrite <- app_assoc. f_equal. cbn [repeat]. rewrite repeat_cons. reflexivity.
      + exists ((t ++ repeat 32 k) ++ [c]), O. split; [now rewrite app_nil_r|].
        intros t' E. apply app_inj_tail in E. tauto. }
  destruct T as (t & k & Ep & T). exists t, k. split; auto. split; [split; eauto|].
  unfold strncpcleantail. rewrite E. cbn [bind].
  destruct (split_nth dest (length p) L) as (a & x & b & -> & La).
  rewrite setZ_app by lia. cbn [bind]. rewrite Nat2Z.id.
  rewrite Ep at 1 2. rewrite app_length, repeat_length. rewrite <- app_assoc.
  rewrite tail_loop_ok; auto.
  2:{ rewrite La, Ep, app_length, repeat_length. reflexivity. }
  do 2 f_equal. f_equal. cbn [repeat]. rewrite (repeat_cons k 0), <- app_assoc. f_equal. cbn [app].
  f_equal. rewrite <- La. change (S (length a)) with (1 + length a)%nat.
  rewrite <- skipn_skipn. rewrite skipn_app, skipn_all, Nat.sub_diag. reflexivity.
Qed.

Lemma open_loop_ok n : forall pre p r d1 d2 k, length pre = length d1 -> (length p <= n)%nat -> (n <= length d2)%nat ->
  open_loop n (pre ++ p ++ r) (d1 ++ d2) (Z.of_nat (length d1)) (Z.of_nat (length d1) + Z.of_nat (length p)) k =
  Ok (d1 ++ p ++ repeat 32 (n - length p) ++ skipn n d2, k + Z.of_nat (length p)).
Proof.
  induction n; intros pre p r d1 d2 k L1 L2 L3.
  - destruct p; [|cbn [length] in L2; lia]. cbn. do 2 f_equal. lia.
  - cbn [open_loop]. destruct d2 as [|x d2]; [cbn [length] in L3; lia|]. cbn [length] in L3.
    destruct p as [|c p].
    + cbn [length]. destruct (Z.ltb_spec (Z.of_nat (length d1)) (Z.of_nat (length d1) + Z.of_nat 0)); [lia|].
      rewrite setZ_app by reflexivity. cbn [bind].
      specialize (IHn (pre ++ [0]) [] (tl r) (d1 ++ [32]) d2 k).
      rewrite !app_length in IHn. cbn [length app] in IHn. rewrite <- !app_assoc in IHn. cbn [app] in IHn.
      assert (O : forall n s s' d i u kk, i >= u -> open_loop n s d i u kk = open_loop n s' d i u kk).
      { clear. induction n; intros; cbn [open_loop]; auto. destruct (Z.ltb_spec i u); [lia|].
        destruct (setZ i 32 d); cbn [bind]; auto. apply IHn. lia. }
      rewrite (O n _ (pre ++ 0 :: tl r)) by lia.
      replace (Z.of_nat (length d1) + 1) with (Z.of_nat (length d1 + 1)) by lia.
      replace (open_loop n (pre ++ 0 :: tl r) (d1 ++ 32 :: d2) (Z.of_nat (length d1 + 1)) (Z.of_nat (length d1) + Z.of_nat 0) k)
        with (open_loop n (pre ++ 0 :: tl r) (d1 ++ 32 :: d2) (Z.of_nat (length d1 + 1)) (Z.of_nat (length d1 + 1) + Z.of_nat 0) k).
      2:{ generalize (d1 ++ 32 :: d2) as dd. intros dd. set (u1 := Z.of_nat (length d1 + 1) + Z.of_nat 0).
          set (u2 := Z.of_nat (length d1) + Z.of_nat 0).
          assert (U : forall n s d i v1 v2 kk, i >= v1 -> i >= v2 -> open_loop n s d i v1 kk = open_loop n s d i v2 kk).
          { clear. induction n; intros; cbn [open_loop]; auto. destruct (Z.ltb_spec i v1), (Z.ltb_spec i v2); try lia.
            destruct (setZ i 32 d); cbn [bind]; auto. apply IHn; lia. }
          apply U; lia. }
      rewrite IHn by lia. cbn [app length Nat.sub repeat skipn]. rewrite Nat.sub_0_r. reflexivity.
    + cbn [length] in L2 |- *.
      destruct (Z.ltb_spec (Z.of_nat (length d1)) (Z.of_nat (length d1) + Z.of_nat (S (length p)))); [|lia].
      cbn [app]. rewrite getZ_app by lia. cbn [bind]. rewrite setZ_app by reflexivity. cbn [bind].
      specialize (IHn (pre ++ [c]) p r (d1 ++ [c]) d2 (k + 1)).
      rewrite !app_length in IHn. cbn [length] in IHn. rewrite <- !app_assoc in IHn. cbn [app] in IHn.
      replace (Z.of_nat (length d1) + 1) with (Z.of_nat (length d1 + 1)) by lia.
      replace (Z.of_nat (length d1) + Z.of_nat (S (length p))) with (Z.of_nat (length d1 + 1) + Z.of_nat (length p)) by lia.
      rewrite IHn by lia. cbn [Nat.sub skipn]. do 2 f_equal. lia.
Qed.

Lemma strncpopen_ok dest src len p : bytes_ok src -> readable src len -> longest_utf8 (visible src len) p ->
  len <= Z.of_nat (length dest) ->
  strncpopen dest (Some src) len =
    Ok (p ++ repeat 32 (Z.to_nat len - length p) ++ skipn (Z.to_nat len) dest, Z.of_nat (length p)).
Proof.
  intros B R P L. destruct (utf8length_ok src len B R) as (q & Q & E).
  rewrite <- (longest_unique _ _ _ P Q) in E. clear q Q.
  destruct (longest_prefix _ _ _ P) as ((r & ->) & N & Lp).
  unfold strncpopen. rewrite E. cbn [bind].
  pose proof (open_loop_ok (Z.to_nat len) [] p r [] dest 0 eq_refl ltac:(lia) ltac:(lia)) as C.
  cbn [app length Z.of_nat Z.add] in C. exact C.
Qed.

Lemma strncpopen_null dest len : len <= Z.of_nat (length dest) ->
  strncpopen dest None len = Ok (repeat 32 (Z.to_nat len) ++ skipn (Z.to_nat len) dest, 0).
Proof.
  intros L. unfold strncpopen.
  pose proof (open_loop_ok (Z.to_nat len) [] [] [] [] dest 0 eq_refl ltac:(cbn [length]; lia) ltac:(lia)) as C.
  cbn [app length Z.of_nat Z.add] in C. rewrite Nat.sub_0_r in C. exact C.
Qed.

(** ** Channels *)

Lemma skipn4 {A} (d : list A) : (4 <= length d)%nat -> exists a b c e r, d = a :: b :: c :: e :: r.
Proof. destruct d as [|? [|? [|? [|? d]]]]; cbn [length]; try lia. eauto 10. Qed.

Lemma seedchan2xchan_ok a b c x : text [a; b; c] -> (6 <= length x)%nat ->
  seedchan2xchan (cstr [a; b; c]) x = Ok ([a; 95; b; 95; c; 0] ++ skipn 6 x).
Proof.
  intros T L. inversion_clear T as [|? ? Ha T']. inversion_clear T' as [|? ? Hb T'']. inversion_clear T'' as [|? ? Hc _].
  destruct x as [|? [|? [|? [|? [|? [|? x]]]]]]; cbn [length] in L; try lia.
  unfold seedchan2xchan, cstr, getZ, setZ. cbn [app nth_error Z.leb Z.compare Z.to_nat Pos.to_nat Pos.iter_op Init.Nat.add bind].
  destruct (Z.eqb_spec a 0); [lia|]. cbn [bind]. simpl nth_error. cbn [bind].
  destruct (Z.eqb_spec b 0); [lia|]. cbn [bind].
  destruct (Z.eqb_spec c 0); [lia|]. cbn [bind Z.eqb negb].
  repeat (cbn [length];
    match goal with |- context [(?i <? Z.of_nat ?n)] => replace (i <? Z.of_nat n) with true by lia end;
    cbn [Z.leb Z.compare andb bind]; unfold Pos.to_nat; cbn [Pos.iter_op Init.Nat.add set_nth Z.to_nat]).
  reflexivity.
Qed.

Lemma text_nz s : text s -> Forall (fun c => c <> 0) s.
Proof. intros T. eapply Forall_impl; [|exact T]. cbn. lia. Qed.

(** Reads and writes at a literal index. *)
Ltac mem1 := cbn [nth_error Z.leb Z.compare andb bind length app];
  unfold Pos.to_nat; cbn [Pos.iter_op Init.Nat.add set_nth Z.to_nat nth_error bind].
Ltac putlit := match goal with |- context [(?i <? Z.of_nat ?n)] =>
  replace (i <? Z.of_nat n) with true by (clear; cbn [length]; lia) end.

Lemma seedchan2xchan_err s x : text s -> length s <> 3%nat -> seedchan2xchan (cstr s) x = Err (-1).
Proof.
  intros T L. apply text_nz in T. unfold seedchan2xchan, cstr, getZ.
  destruct s as [|a s]; [reflexivity|]. inversion_clear T as [|? ? Ha T1]. mem1.
  destruct (Z.eqb_spec a 0); [congruence|].
  destruct s as [|b s]; [reflexivity|]. inversion_clear T1 as [|? ? Hb T2]. mem1.
  destruct (Z.eqb_spec b 0); [congruence|].
  destruct s as [|c s]; [reflexivity|]. inversion_clear T2 as [|? ? Hc T3]. mem1.
  destruct (Z.eqb_spec c 0); [congruence|].
  destruct s as [|d s]; [cbn [length] in L; lia|]. inversion_clear T3 as [|? ? Hd T4]. mem1.
  destruct (Z.eqb_spec d 0); [congruence|]. reflexivity.
Qed.

Lemma xchan_shape_ok s : text s ->
  exists b, xchan_shape (cstr s) = Ok b /\ (b = true <-> exists t, has_seed_form s t).
Proof.
  intros T. apply text_nz in T. unfold xchan_shape, cstr, getZ.
  assert (F : forall s : list Z, (forall t, ~ has_seed_form s t) -> false = true <-> exists t, has_seed_form s t).
  { intros s' H. split; [discriminate|]. intros (t & E). destruct (H _ E). }
  destruct s as [|a s].
  { exists false. split; [reflexivity|]. apply F. intros t E; inversion E. }
  inversion_clear T as [|? ? Ha T1]. mem1. destruct (Z.eqb_spec a 0); [congruence|].
  destruct s as [|b s].
  { exists false. split; [reflexivity|]. apply F. intros t E; inversion E. }
  inversion_clear T1 as [|? ? Hb T2]. mem1. destruct (Z.eqb_spec b 95) as [->|]; cbn [negb].
  2:{ exists false. split; [reflexivity|]. apply F. intros t E; inversion E; congruence. }
  destruct s as [|c s].
  { exists false. split; [reflexivity|]. apply F. intros t E; inversion E. }
  inversion_clear T2 as [|? ? Hc T3]. mem1. destruct (Z.eqb_spec c 0); [congruence|].
  destruct s as [|d s].
  { exists false. split; [reflexivity|]. apply F. intros t E; inversion E. }
  inversion_clear T3 as [|? ? Hd T4]. mem1. destruct (Z.eqb_spec d 95) as [->|]; cbn [negb].
  2:{ exists false. split; [reflexivity|]. apply F. intros t E; inversion E; congruence. }
  destruct s as [|e s].
  { exists false. split; [reflexivity|]. apply F. intros t E; inversion E. }
  inversion_clear T4 as [|? ? He T5]. mem1. destruct (Z.eqb_spec e 0); [congruence|].
  destruct s as [|f s].
  { exists true. split; [reflexivity|]. split; auto. intros _. eexists. constructor. }
  inversion_clear T5 as [|? ? Hf T6]. mem1. destruct (Z.eqb_spec f 0); [congruence|].
  exists false. split; [reflexivity|]. apply F. intros t E; inversion E.
Qed.

Lemma xchan2seedchan_ok s t d : text s -> has_seed_form s t -> (4 <= length d)%nat ->
  xchan2seedchan (cstr s) d = Ok (t ++ 0 :: skipn 4 d).
Proof.
  intros T H L. unfold xchan2seedchan. destruct (xchan_shape_ok s T) as (b & -> & B).
  replace b with true by (symmetry; apply B; eauto). cbn [bind negb]. destruct H.
  destruct (skipn4 d L) as (d0 & d1 & d2 & d3 & r & ->).
  unfold cstr, getZ, setZ. mem1. repeat (putlit; mem1). reflexivity.
Qed.

Lemma xchan2seedchan_err s d : text s -> (forall t, ~ has_seed_form s t) -> xchan2seedchan (cstr s) d = Err (-1).
Proof.
  intros T H. unfold xchan2seedchan. destruct (xchan_shape_ok s T) as (b & -> & B).
  destruct b; [destruct (proj1 B eq_refl) as (t & E); destruct (H _ E)|]. reflexivity.
Qed.

Lemma xchan_inplace_ok s t r : text s -> has_seed_form s t ->
  xchan2seedchan_inplace (cstr s ++ r) = Ok (t ++ 0 :: skipn 4 (cstr s ++ r)).
Proof.
  intros T H. destruct H. unfold xchan2seedchan_inplace, xchan_shape, cstr. apply text_nz in T.
  inversion_clear T as [|? ? Ha T1]. inversion_clear T1 as [|? ? H1 T2]. inversion_clear T2 as [|? ? Hb T3].
  inversion_clear T3 as [|? ? H3 T4]. inversion_clear T4 as [|? ? Hc T5].
  unfold getZ, setZ. mem1. 
  destruct (Z.eqb_spec a 0); [congruence|]. mem1. cbn [Z.eqb Pos.eqb negb].
  destruct (Z.eqb_spec b 0); [congruence|]. mem1. cbn [Z.eqb Pos.eqb negb].
  destruct (Z.eqb_spec c 0); [congruence|]. mem1. cbn [Z.eqb Pos.eqb negb].
  repeat (putlit; mem1). reflexivity.
Qed.

(** ** Identifiers *)

(** [w]: text produced so far; [orig]: the original buffer. *)
Definition sid_inv (orig : list Z) (sidlen : Z) (w : list Z) (st : sidstate) : Prop :=
  st = (firstn (Z.to_nat sidlen) w ++ skipn (Nat.min (length w) (Z.to_nat sidlen)) orig,
        Z.min (Z.of_nat (length w)) sidlen, Z.of_nat (length w)).

Lemma sid_put_ok orig sidlen w st c : 0 <= sidlen <= Z.of_nat (length orig) -> sid_inv orig sidlen w st ->
  exists st', sid_put sidlen c st = Ok st' /\ sid_inv orig sidlen (w ++ [c]) st'.
Proof.
  intros L ->. unfold sid_put, sid_inv. rewrite app_length. cbn [length].
  destruct (Z.ltb_spec (Z.min (Z.of_nat (length w)) sidlen) sidlen) as [P|P].
  - rewrite firstn_all2 by lia. rewrite Nat.min_l by lia.
    destruct (skipn (length w) orig) as [|x r] eqn:E.
    { apply (f_equal (@length Z)) in E. rewrite skipn_length in E. cbn [length] in E. lia. }
    rewrite setZ_app by lia. cbn [bind]. eexists. split; [reflexivity|].
    rewrite (firstn_all2 (w ++ [c])) by (rewrite app_length; cbn [length]; lia).
    rewrite <- app_assoc. cbn [app]. f_equal; [f_equal|lia]; [|lia].
    f_equal. f_equal. rewrite Nat.min_l by lia. rewrite Nat.add_1_r. change (S (length w)) with (1 + length w)%nat.
    rewrite <- skipn_skipn, E. reflexivity.
  - eexists. split; [reflexivity|]. rewrite !Nat.min_r by lia.
    rewrite firstn_app. replace (Z.to_nat sidlen - length w)%nat with O by lia. cbn [firstn]. rewrite app_nil_r.
    f_equal; [f_equal|]; lia.
Qed.

Lemma sid_puts_ok orig sidlen s : 0 <= sidlen <= Z.of_nat (length orig) -> forall w st, sid_inv orig sidlen w st ->
  exists st', sid_puts sidlen s st = Ok st' /\ sid_inv orig sidlen (w ++ s) st'.
Proof.
  intros L. induction s as [|c s IH]; intros w st I; cbn [sid_puts].
  - exists st. rewrite app_nil_r. auto.
  - destruct (sid_put_ok orig sidlen w st c L I) as (st1 & -> & I1). cbn [bind].
    destruct (IH _ _ I1) as (st2 & E & I2). exists st2. split; auto. now rewrite <- app_assoc in I2.
Qed.

Lemma firstn5 (orig : list Z) : (5 <= length orig)%nat -> sid_prefix fdsn 0 orig = Ok (fdsn ++ skipn 5 orig).
Proof.
  intros H. destruct orig as [|? [|? [|? [|? [|? r]]]]]; cbn [length] in H; try lia.
  unfold fdsn, sid_prefix, setZ. mem1. cbn [Z.add Pos.add Pos.succ]. mem1. repeat (putlit; mem1). reflexivity.
Qed.

Lemma nslc2sid_ok sid sidlen net sta loc chan : 16 <= sidlen <= Z.of_nat (length sid) -> text chan ->
  let w := sid_text net sta (match loc with Some l => l | None => [] end) (extended_form chan) in
  nslc2sid sid sidlen net sta loc chan =
  if Z.of_nat (length w) <? sidlen then Ok (w ++ 0 :: skipn (S (length w)) sid, Z.of_nat (length w))
  else Ok (firstn (Z.to_nat sidlen - 1) w ++ 0 :: skipn (Z.to_nat sidlen) sid, -1).
Proof.
  intros L T w. unfold nslc2sid. destruct (Z.ltb_spec sidlen 16); [lia|].
  rewrite firstn5 by lia. cbn [bind]. assert (L' : 0 <= sidlen <= Z.of_nat (length sid)) by lia.
  assert (I0 : sid_inv sid sidlen fdsn (fdsn ++ skipn 5 sid, 5, 5)).
  { unfold sid_inv. rewrite firstn_all2 by (cbn; lia). cbn [length fdsn].
    rewrite Nat.min_l by lia. f_equal. f_equal. lia. }
  destruct (sid_puts_ok sid sidlen net L' _ _ I0) as (s1 & -> & I1). cbn [bind].
  destruct (sid_put_ok sid sidlen _ _ 95 L' I1) as (s2 & -> & I2). cbn [bind].
  destruct (sid_puts_ok sid sidlen sta L' _ _ I2) as (s3 & -> & I3). cbn [bind].
  destruct (sid_put_ok sid sidlen _ _ 95 L' I3) as (s4 & -> & I4). cbn [bind].
  destruct (sid_puts_ok sid sidlen (match loc with Some l => l | None => [] end) L' _ _ I4) as (s5 & -> & I5). cbn [bind].
  destruct (sid_put_ok sid sidlen _ _ 95 L' I5) as (s6 & -> & I6). cbn [bind].
  assert (C : match seedchan2xchan (cstr chan) (repeat 0 6) with
             | Ok x => Ok (firstn 5 x) | Err _ => Ok chan | UB u => UB u | Fuel => Fuel end = Ok (extended_form chan)).
  { destruct (Nat.eq_dec (length chan) 3) as [E|E].
    - destruct chan as [|a [|b [|c [|]]]]; try discriminate. rewrite seedchan2xchan_ok by (auto; cbn; lia). reflexivity.
    - rewrite seedchan2xchan_err by auto. destruct chan as [|a [|b [|c [|]]]]; cbn [length] in E; try reflexivity; lia. }
  rewrite C. cbn [bind]. clear C.
  destruct (sid_puts_ok sid sidlen (extended_form chan) L' _ _ I6) as (s7 & -> & I7). cbn [bind].
  assert (W : ((((((fdsn ++ net) ++ [95]) ++ sta) ++ [95]) ++ match loc with Some l => l | None => [] end) ++ [95]) ++ extended_form chan = w).
  { subst w. unfold sid_text, fdsn. now rewrite <- !app_assoc. }
  rewrite W in I7. unfold sid_inv in I7. rewrite I7. clearbody w. clear - L.
  destruct (Z.ltb_spec (Z.of_nat (length w)) sidlen) as [P|P].
  - replace (Z.min (Z.of_nat (length w)) sidlen) with (Z.of_nat (length w)) by lia.
    destruct (Z.ltb_spec (Z.of_nat (length w)) sidlen); [|lia].
    rewrite firstn_all2 by lia. rewrite Nat.min_l by lia.
    destruct (skipn (length w) sid) as [|x r] eqn:E.
    { apply (f_equal (@length Z)) in E. rewrite skipn_length in E. cbn [length] in E. lia. }
    rewrite setZ_app by lia. cbn [bind].
    destruct (Z.ltb_spec sidlen (Z.of_nat (length w) + 1)); [lia|].
    do 2 f_equal. f_equal. f_equal. change (S (length w)) with (1 + length w)%nat.
    rewrite <- skipn_skipn, E. reflexivity.
  - replace (Z.min (Z.of_nat (length w)) sidlen) with sidlen by lia.
    destruct (Z.ltb_spec sidlen sidlen); [lia|]. rewrite Nat.min_r by lia.
    destruct (split_nth w (Z.to_nat sidlen - 1)) as (a & x & b & -> & La); [lia|].
    replace (firstn (Z.to_nat sidlen) (a ++ x :: b)) with (a ++ [x]).
    2:{ replace (Z.to_nat sidlen) with (length a + 1)%nat by lia. rewrite firstn_app_2. reflexivity. }
    rewrite <- app_assoc. cbn [app]. rewrite setZ_app by lia. cbn [bind].
    destruct (Z.ltb_spec sidlen (Z.of_nat (length (a ++ x :: b)) + 1)); [|lia].
    do 2 f_equal. rewrite <- La. rewrite firstn_app, firstn_all, Nat.sub_diag. cbn [firstn]. now rewrite app_nil_r.
Qed.

(** Splitting. *)
Lemma split_at_app c a b : ~ In c a -> split_at c (a ++ c :: b) = Some (a, b).
Proof.
  induction a as [|x a IH]; intros N; cbn [app split_at].
  - now rewrite Z.eqb_refl.
  - destruct (Z.eqb_spec x c) as [->|]; [exfalso; apply N; now left|].
    rewrite IH; auto. intros I; apply N; now right.
Qed.

Lemma split_at_inv c s a b : split_at c s = Some (a, b) -> s = a ++ c :: b /\ ~ In c a.
Proof.
  revert a b; induction s as [|x s IH]; intros a b; cbn [split_at]; [discriminate|].
  destruct (Z.eqb_spec x c) as [->|N].
  - intros E; injection E as <- <-. auto.
  - destruct (split_at c s) as [[u v]|]; [|discriminate]. intros E; injection E as <- <-.
    destruct (IH _ _ eq_refl) as [-> I]. split; auto. intros [H|H]; auto.
Qed.

Lemma existsb_in c s : existsb (Z.eqb c) s = true <-> In c s.
Proof.
  rewrite existsb_exists. split.
  - intros (x & I & E). apply Z.eqb_eq in E. now subst.
  - intros I. exists c. split; auto. apply Z.eqb_refl.
Qed.

Lemma after_last_app c a b : ~ In c b -> after_last c (a ++ c :: b) = b.
Proof.
  intros N. induction a as [|x a IH]; cbn [app after_last].
  - destruct (existsb (Z.eqb c) b) eqn:E; [apply existsb_in in E; tauto|]. now rewrite Z.eqb_refl.
  - replace (existsb (Z.eqb c) (a ++ c :: b)) with true; [exact IH|]. symmetry. apply existsb_in, in_or_app.
    right; now left.
Qed.

Lemma after_last_length c s : (length (after_last c s) <= length s)%nat.
Proof.
  induction s as [|x s IH]; cbn [after_last length]; [lia|].
  destruct (existsb (Z.eqb c) s); [lia|]. destruct (x =? c); cbn [length]; lia.
Qed.

Lemma after_last_text c s : text s -> text (after_last c s).
Proof.
  intros T. induction T as [|x s H T IH]; cbn [after_last]; [constructor|].
  destruct (existsb (Z.eqb c) s); auto. destruct (x =? c); auto. now constructor.
Qed.

Lemma count_app c a b : count_char c (a ++ b) = count_char c a + count_char c b.
Proof. induction a; cbn [app count_char]; lia. Qed.

Lemma count_none c a : ~ In c a -> count_char c a = 0.
Proof.
  induction a as [|x a IH]; intros N; cbn [count_char]; auto.
  destruct (Z.eqb_spec x c); [exfalso; apply N; now left|]. rewrite IH; auto. intros I; apply N; now right.
Qed.

Lemma strcpy_ok d s : (length s < length d)%nat -> strcpy d s = Ok (s ++ 0 :: skipn (S (length s)) d).
Proof. intros H. unfold strcpy. destruct (Nat.ltb_spec (length s) (length d)); [reflexivity|lia]. Qed.

Definition stored (before after : option (list Z)) (s : list Z) : Prop :=
  match before, after with
  | None, None => True
  | Some b, Some a => holds_string b a s
  | _, _ => False
  end.
Definition fits (o : option (list Z)) (n : nat) : Prop := match o with None => True | Some d => (n < length d)%nat end.

Lemma strcpy_opt_ok d s : fits d (length s) -> exists d', strcpy_opt d s = Ok d' /\ stored d d' s.
Proof.
  unfold strcpy_opt. destruct d as [d|]; cbn [fits].
  - intros H. rewrite strcpy_ok by auto. cbn [bind]. eexists; split; [reflexivity|]. reflexivity.
  - intros _. eexists; split; [reflexivity|exact I].
Qed.

Lemma seed_form_dec (s : list Z) : (exists t, has_seed_form s t) \/ (forall t, ~ has_seed_form s t).
Proof.
  destruct s as [|a [|b [|c [|d [|e [|]]]]]]; try (right; intros t E; inversion E; fail).
  destruct (Z.eq_dec b 95) as [->|]; [|right; intros t E; inversion E; congruence].
  destruct (Z.eq_dec d 95) as [->|]; [|right; intros t E; inversion E; congruence].
  left. eexists. constructor.
Qed.

Lemma sid2nslc_ok ns net sta loc ch out o :
  (ns = [] \/ exists a, ns = a ++ [58]) ->
  plain_code net -> plain_code sta -> plain_code loc -> text ch -> ~ In 58 ch -> count_char 95 ch = 2 ->
  (has_seed_form ch out \/ (forall t, ~ has_seed_form ch t) /\ out = ch) ->
  fits (o_net o) (length net) -> fits (o_sta o) (length sta) -> fits (o_loc o) (length loc) ->
  fits (o_chan o) (length ch) ->
  exists o', sid2nslc (fdsn ++ ns ++ net ++ [95] ++ sta ++ [95] ++ loc ++ [95] ++ ch) o = Ok o' /\
    stored (o_net o) (o_net o') net /\ stored (o_sta o) (o_sta o') sta /\ stored (o_loc o) (o_loc o') loc /\
    stored (o_chan o) (o_chan o') out.
Proof.
  intros NS (T1 & U1 & K1) (T2 & U2 & K2) (T3 & U3 & K3) T4 K4 U4 H F1 F2 F3 F4.
  set (id := net ++ [95] ++ sta ++ [95] ++ loc ++ [95] ++ ch).
  assert (N58 : ~ In 58 id).
  { subst id. rewrite !in_app_iff. cbn [In]. intros X.
    repeat (destruct X as [X|X]; try tauto; try discriminate). }
  unfold sid2nslc.
  change (starts_with_fdsn (fdsn ++ ns ++ id)) with true. cbn [negb].
  assert (A : after_last 58 (fdsn ++ ns ++ id) = id).
  { destruct NS as [->|(a & ->)].
    - change (fdsn ++ [] ++ id) with ([70; 68; 83; 78] ++ 58 :: id). now apply after_last_app.
    - rewrite <- app_assoc. rewrite app_assoc. cbn [app]. now apply after_last_app. }
  rewrite A.
  assert (C : count_char 95 id = 5).
  { subst id. rewrite !count_app, (count_none 95 net), (count_none 95 sta), (count_none 95 loc), U4 by auto. reflexivity. }
  rewrite C. cbn [Z.eqb Pos.eqb negb]. subst id. cbn [app].
  rewrite split_at_app by auto. destruct (strcpy_opt_ok _ _ F1) as (d1 & -> & S1). cbn [bind].
  rewrite split_at_app by auto. destruct (strcpy_opt_ok _ _ F2) as (d2 & -> & S2). cbn [bind].
  rewrite split_at_app by auto. destruct (strcpy_opt_ok _ _ F3) as (d3 & -> & S3). cbn [bind].
  destruct ch as [|c0 ch]; [discriminate|]. destruct (o_chan o) as [c|] eqn:Ec.
  - cbn [fits] in F4. destruct H as [H|[H ->]].
    + rewrite (xchan2seedchan_ok _ out) by (auto; inversion H; subst; cbn [length] in F4; lia).
      eexists. split; [reflexivity|]. cbn [o_net o_sta o_loc o_chan stored]. repeat split; auto.
      inversion H; subst. reflexivity.
    + rewrite xchan2seedchan_err by auto. rewrite strcpy_ok by auto. cbn [bind].
      eexists. split; [reflexivity|]. cbn [o_net o_sta o_loc o_chan stored]. repeat split; auto.
  - eexists. split; [reflexivity|]. cbn [o_net o_sta o_loc o_chan stored]. repeat split; auto.
Qed.

(** No undefined behaviour when every buffer is larger than the identifier. *)
Lemma sid2nslc_safe sid o : text sid ->
  fits (o_net o) (length sid) -> fits (o_sta o) (length sid) -> fits (o_loc o) (length sid) -> fits (o_chan o) (length sid) ->
  sid2nslc sid o = Err (-1) \/ exists o', sid2nslc sid o = Ok o'.
Proof.
  intros T F1 F2 F3 F4. unfold sid2nslc. destruct (starts_with_fdsn sid) eqn:Q; cbn [negb]; [|auto].
  pose proof (after_last_length 58 sid) as L. pose proof (after_last_text 58 sid T) as T'.
  set (id := after_last 58 sid) in *. clearbody id.
  destruct (count_char 95 id =? 5); cbn [negb]; [right|auto].
  assert (F : forall d n m, fits d n -> (m <= n)%nat -> fits d m) by (intros [d|] n m; cbn; lia).
  assert (S : forall d top, fits d (length sid) -> (length top <= length sid)%nat -> text top ->
     exists d' top', match split_at 95 top with
                     | Some (a, b) => let! d := strcpy_opt d a in Ok (d, b)
                     | None => Ok (d, top) end = Ok (d', top') /\ (length top' <= length sid)%nat /\ text top').
  { intros d top Fd Lt Tt. destruct (split_at 95 top) as [[a b]|] eqn:E.
    - apply split_at_inv in E. destruct E as [-> _]. rewrite app_length in Lt. cbn [length] in Lt.
      destruct (strcpy_opt_ok d a) as (d' & -> & _); [eapply F; eauto; lia|]. cbn [bind].
      exists d', b. split; auto. split; [lia|]. apply Forall_app in Tt. destruct Tt as [_ Tt]. now inversion Tt.
    - exists d, top. auto. }
  destruct (S _ id F1 L T') as (d1 & t1 & -> & L1 & T1). cbn [bind].
  destruct (S _ t1 F2 L1 T1) as (d2 & t2 & -> & L2 & T2). cbn [bind].
  destruct (S _ t2 F3 L2 T2) as (d3 & t3 & -> & L3 & T3). cbn [bind].
  destruct t3 as [|c0 t3]; [eauto|]. destruct (o_chan o) as [c|] eqn:Ec; [|eauto]. cbn [fits] in F4.
  destruct (seed_form_dec (c0 :: t3)) as [(t & H)|H].
  - rewrite (xchan2seedchan_ok _ t); eauto. inversion H; subst. cbn [length] in L3. lia.
  - rewrite xchan2seedchan_err by auto. rewrite strcpy_ok by lia. cbn [bind]. eauto.
Qed.

(** ** Version 2 record identifiers *)

Lemma ascii_wf s : Forall (fun c => 1 <= c <= 127) s -> utf8_wf s.
Proof. induction 1 as [|c s H T IH]; [constructor|]. apply (wf_cons [c]); auto. constructor. lia. Qed.

Lemma visible_text s r : text s -> visible (s ++ r) (Z.of_nat (length s)) = s.
Proof.
  intros T. unfold visible. rewrite Nat2Z.id, firstn_app, firstn_all, Nat.sub_diag. cbn [firstn]. rewrite app_nil_r.
  induction T as [|c s H T IH]; cbn [before_nul]; [reflexivity|]. destruct (Z.eqb_spec c 0); [lia|]. now rewrite IH.
Qed.

Lemma longest_self s : utf8_wf s -> longest_utf8 s s.
Proof.
  intros W. split; [exists []; now rewrite app_nil_r|]. split; auto.
  intros p' r' -> _. rewrite app_length. lia.
Qed.

Lemma text_of_ok s r : text s -> text_of (s ++ 0 :: r) = Ok s.
Proof.
  induction 1 as [|c s H T IH]; cbn [app text_of]; [reflexivity|].
  destruct (Z.eqb_spec c 0); [lia|]. now rewrite IH.
Qed.

Lemma no_spaces_text s : text s -> text (no_spaces s).
Proof. intros T. unfold text, no_spaces in *. rewrite Forall_forall in *. intros x I. apply filter_In in I. now apply T. Qed.

Lemma no_spaces_length s : (length (no_spaces s) <= length s)%nat.
Proof. unfold no_spaces. induction s as [|c s IH]; cbn [filter length]; [lia|]. destruct (negb (c =? 32)); cbn [length]; lia. Qed.

Lemma clean_field f r n : Forall (fun c => 1 <= c <= 127) f -> r <> [] -> bytes_ok r -> (length f < n)%nat ->
  exists d, strncpclean (repeat 0 n) (Some (f ++ r)) (Z.of_nat (length f)) = Ok (d, Z.of_nat (length (no_spaces f)))
    /\ text_of d = Ok (no_spaces f).
Proof.
  intros T R B L. assert (T' : text f) by (eapply Forall_impl; [|exact T]; cbn; lia).
  pose proof (no_spaces_length f) as NL.
  destruct (strncpclean_ok (repeat 0 n) (f ++ r) (Z.of_nat (length f)) f) as (d & E & H).
  - apply Forall_app. split; [|exact B]. eapply Forall_impl; [|exact T]. unfold byte_ok. cbn. lia.
  - left. rewrite app_length. destruct r; [congruence|]. cbn [length]. lia.
  - rewrite visible_text by auto. apply longest_self, ascii_wf, T.
  - rewrite repeat_length. lia.
  - exists d. split; auto. unfold holds_string in H. rewrite H. apply text_of_ok, no_spaces_text, T'.
Qed.

Lemma recordsid_ok pre sta loc chan net rest sid sidlen a b c :
  length pre = 8%nat -> length sta = 5%nat -> length loc = 2%nat -> chan = [a; b; c] -> length net = 2%nat -> rest <> [] ->
  Forall (fun c => 1 <= c <= 127) (sta ++ loc ++ chan ++ net) -> bytes_ok rest ->
  22 < sidlen <= Z.of_nat (length sid) ->
  let w := sid_text (no_spaces net) (no_spaces sta) (no_spaces loc) [a; 95; b; 95; c] in
  recordsid (pre ++ sta ++ loc ++ chan ++ net ++ rest) sid sidlen =
  Ok (w ++ 0 :: skipn (S (length w)) sid, Z.of_nat (length w)).
Proof.
  intros Lp Ls Ll -> Ln R T B L w. apply Forall_app in T. destruct T as [Ts T].
  apply Forall_app in T. destruct T as [Tl T]. apply Forall_app in T. destruct T as [Tc Tn].
  assert (AB : forall s, Forall (fun c => 1 <= c <= 127) s -> bytes_ok s).
  { intros s H. eapply Forall_impl; [|exact H]. unfold byte_ok. cbn. lia. }
  unfold recordsid. pose proof (AB _ Tl) as Bl. pose proof (AB _ Tc) as Bc. pose proof (AB _ Tn) as Bn.
  assert (Ball : bytes_ok ([a; b; c] ++ net ++ rest)) by (unfold bytes_ok in *; repeat (apply Forall_app; split); assumption).
  assert (Ball2 : bytes_ok (loc ++ [a; b; c] ++ net ++ rest)) by (unfold bytes_ok in *; apply Forall_app; split; assumption).
  assert (S18 : skipn 18 (pre ++ sta ++ loc ++ [a; b; c] ++ net ++ rest) = net ++ rest).
  { rewrite !app_assoc. rewrite <- (app_assoc _ net rest). rewrite skipn_app.
    replace (skipn 18 _) with (@nil Z) by (symmetry; apply skipn_all2; rewrite !app_length; cbn [length]; lia).
    replace (18 - _)%nat with O by (rewrite !app_length; cbn [length]; lia). reflexivity. }
  assert (S8 : skipn 8 (pre ++ sta ++ loc ++ [a; b; c] ++ net ++ rest) = sta ++ loc ++ [a; b; c] ++ net ++ rest).
  { rewrite <- Lp. rewrite skipn_app, skipn_all, Nat.sub_diag. reflexivity. }
  assert (S13 : skipn 13 (pre ++ sta ++ loc ++ [a; b; c] ++ net ++ rest) = loc ++ [a; b; c] ++ net ++ rest).
  { rewrite (app_assoc pre). rewrite skipn_app.
    replace (skipn 13 _) with (@nil Z) by (symmetry; apply skipn_all2; rewrite !app_length; cbn [length]; lia).
    replace (13 - _)%nat with O by (rewrite !app_length; cbn [length]; lia). reflexivity. }
  rewrite S18, S8, S13.
  destruct (clean_field net rest 3 Tn R B ltac:(lia)) as (d1 & E1 & X1). rewrite Ln in E1. change (Z.of_nat 2) with 2 in E1. rewrite E1. cbn [bind].
  destruct (clean_field sta (loc ++ [a; b; c] ++ net ++ rest) 6 Ts) as (d2 & E2 & X2); [|exact Ball2|lia|].
  { destruct loc; discriminate. }
  rewrite Ls in E2. change (Z.of_nat 5) with 5 in E2. rewrite E2. cbn [bind].
  destruct (clean_field loc ([a; b; c] ++ net ++ rest) 3 Tl) as (d3 & E3 & X3); [discriminate|exact Ball|lia|].
  rewrite Ll in E3. change (Z.of_nat 2) with 2 in E3. rewrite E3. cbn [bind].
  assert (G : forall k x l1 l2, [a; b; c] = l1 ++ x :: l2 -> k = Z.of_nat (15 + length l1) ->
     getZ k (pre ++ sta ++ loc ++ [a; b; c] ++ net ++ rest) = Ok x).
  { intros k x l1 l2 E ->. rewrite E. rewrite <- (app_assoc l1). cbn [app]. rewrite !app_assoc. apply getZ_app.
    rewrite !app_length, Lp, Ls, Ll. reflexivity. }
  rewrite (G 15 a [] [b; c]), (G 16 b [a] [c]), (G 17 c [a; b] []) by reflexivity. cbn [bind].
  rewrite X1, X2, X3. cbn [bind].
  assert (Tx : text [a; 95; b; 95; c]).
  { unfold text. inversion_clear Tc as [|? ? ? T1]. inversion_clear T1 as [|? ? ? T2]. inversion_clear T2.
    repeat constructor; lia. }
  change [a; 95; b; 95; c; 0] with ([a; 95; b; 95; c] ++ [0]). rewrite text_of_ok by auto. cbn [bind].
  rewrite nslc2sid_ok by (auto; lia). cbn [extended_form]. fold w.
  assert (LW : Z.of_nat (length w) <= 22).
  { subst w. unfold sid_text. rewrite !app_length. cbn [length].
    pose proof (no_spaces_length net). pose proof (no_spaces_length sta). pose proof (no_spaces_length loc). lia. }
  destruct (Z.ltb_spec (Z.of_nat (length w)) sidlen); [reflexivity|lia].
Qed.
