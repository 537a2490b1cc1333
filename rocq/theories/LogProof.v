(** * Proofs about the logging facility. *)

From Verif Require Import Base BaseLemmas LogModel LogSpec.
Open Scope Z_scope.

(** ** Buffers *)

Lemma cstr_plain s : plain_text s -> cstr s = s.
Proof.
  induction 1 as [|c s Hc Hs IH]; [reflexivity|]. cbn [cstr]. destruct (Z.eqb_spec c 0); [contradiction|].
  now rewrite IH.
Qed.
Lemma cstr_zero s r : plain_text s -> cstr (s ++ 0 :: r) = s.
Proof.
  induction 1 as [|c s Hc Hs IH]; [reflexivity|]. cbn [cstr app]. destruct (Z.eqb_spec c 0); [contradiction|].
  now rewrite IH.
Qed.
Lemma put_mid a s x r off : off = Z.of_nat (length a) -> length s = length x -> put off s (a ++ x ++ r) = Ok (a ++ s ++ r).
Proof.
  intros -> Hl. unfold put. rewrite !app_length.
  destruct (_ && _) eqn:E; [|lia].
  rewrite Nat2Z.id, firstn_app_exact by reflexivity. rewrite Hl, Nat.add_comm, <- skipn_skipn.
  rewrite (skipn_app_exact a) by reflexivity. now rewrite skipn_app_exact.
Qed.
(** Splitting a buffer at an offset. *)
Lemma split_at (b : list Z) (n k : nat) : (n + k <= length b)%nat ->
  exists a x r, b = a ++ x ++ r /\ length a = n /\ length x = k.
Proof.
  intros H. exists (firstn n b), (firstn k (skipn n b)), (skipn k (skipn n b)).
  rewrite !firstn_skipn. split; [reflexivity|]. rewrite !firstn_length, skipn_length. lia.
Qed.
Lemma put_length off s b b' : put off s b = Ok b' -> length b' = length b.
Proof.
  unfold put. destruct (_ && _) eqn:E; [|discriminate]. intros [= <-].
  rewrite !app_length, firstn_length, skipn_length. lia.
Qed.
Lemma plain_firstn n s : plain_text s -> plain_text (firstn n s).
Proof. apply Forall_firstn. Qed.

Lemma firstn_zeros k n : (k <= n)%nat -> firstn k (repeat 0 n) = repeat 0 k.
Proof. revert n. induction k as [|k IH]; intros [|n] H; try reflexivity; [lia|]. cbn. rewrite IH by lia. reflexivity. Qed.

(** [strncpy] and the terminator put at the end of the buffer. *)
Lemma copy_cut s b n : 1 <= n -> Z.of_nat (length b) = n -> plain_text s ->
  exists b1 r, strncpy 0 s n b = Ok b1 /\ length b1 = length b
    /\ put (n - 1) [0] b1 = Ok (firstn (Z.to_nat (n - 1)) s ++ 0 :: r)
    /\ length (firstn (Z.to_nat (n - 1)) s ++ 0 :: r) = length b.
Proof.
  intros Hn Hb Hs. unfold strncpy. set (w := firstn (Z.to_nat n) (s ++ repeat 0 (Z.to_nat n))).
  assert (Lw : length w = Z.to_nat n) by (unfold w; rewrite firstn_length, app_length, repeat_length; lia).
  exists w.
  pose proof (put_mid [] w b [] 0) as P. cbn [app] in P. rewrite !app_nil_r in P. rewrite P by (cbn; lia).
  assert (Ew : exists x, w = (firstn (Z.to_nat (n - 1)) s ++ repeat 0 (Z.to_nat (n - 1) - length s)) ++ [x] ++ []).
  { replace (Z.to_nat n) with (S (Z.to_nat (n - 1))) in Lw by lia.
    destruct (@exists_last _ w) as (w0 & x & E); [intros E; rewrite E in Lw; discriminate|].
    exists x. rewrite app_nil_r, E. f_equal.
    rewrite E, app_length in Lw. cbn [length] in Lw.
    assert (E0 : w0 = firstn (Z.to_nat (n - 1)) w) by (rewrite E, firstn_app_exact by lia; reflexivity).
    rewrite E0. unfold w. rewrite firstn_firstn, Nat.min_l by lia. rewrite firstn_app. f_equal. apply firstn_zeros. lia. }
  destruct Ew as (x & Ew).
  assert (Lp : length (firstn (Z.to_nat (n - 1)) s ++ repeat 0 (Z.to_nat (n - 1) - length s)) = Z.to_nat (n - 1))
    by (rewrite app_length, firstn_length, repeat_length; lia).
  assert (Q : put (n - 1) [0] w = Ok ((firstn (Z.to_nat (n - 1)) s ++ repeat 0 (Z.to_nat (n - 1) - length s)) ++ [0] ++ [])).
  { rewrite Ew. apply put_mid; [rewrite Lp; lia|reflexivity]. }
  destruct (Z.to_nat (n - 1) - length s)%nat as [|k] eqn:Ek.
  - exists []. split; [reflexivity|]. split; [lia|]. cbn [repeat] in *. rewrite app_nil_r in *. cbn [app] in *.
    split; [exact Q|]. rewrite app_length, Lp. cbn [length]. lia.
  - exists (repeat 0 k ++ [0]). split; [reflexivity|]. split; [lia|]. cbn [repeat] in *. rewrite app_nil_r in Q.
    rewrite <- app_assoc in Q. cbn [app] in Q. split; [exact Q|]. rewrite app_length in *. cbn [length] in *. rewrite app_length. cbn [length]. lia.
Qed.

(** [vsnprintf] behind a prefix. *)
Lemma vsn_ok pre t r : Z.of_nat (length pre) < 200 -> length (pre ++ 0 :: r) = 200%nat -> Z.of_nat (length t) < 2 ^ 31 ->
  exists b, vsnprintf (Z.of_nat (length pre)) (200 - Z.of_nat (length pre)) (Some t) (pre ++ 0 :: r) = Ok (Z.of_nat (length t), b)
    /\ exists r', put 199 [0] b = Ok (firstn 199 (pre ++ t) ++ 0 :: r') /\ length (firstn 199 (pre ++ t) ++ 0 :: r') = 200%nat.
Proof.
  intros Hp Hb Ht. rewrite app_length in Hb. cbn [length] in Hb. unfold vsnprintf.
  destruct (Z.leb_spec (2 ^ 31) (Z.of_nat (length t))); [lia|].
  destruct (Z.leb_spec (200 - Z.of_nat (length pre)) 0); [lia|].
  set (u := firstn (Z.to_nat (200 - Z.of_nat (length pre) - 1)) t).
  assert (Lu : (length u <= 199 - length pre)%nat) by (unfold u; rewrite firstn_length; lia).
  assert (Eu : firstn 199 (pre ++ t) = pre ++ u).
  { rewrite firstn_app, firstn_all2 by lia. f_equal. unfold u. f_equal. lia. }
  destruct (split_at (0 :: r) 0 (length (u ++ [0]))) as (a & x & r' & E & La & Lx); [rewrite app_length; cbn [length]; lia|].
  destruct a; [|discriminate]. cbn [app] in E. rewrite E.
  rewrite put_mid by (try reflexivity; congruence). cbn [bind].
  eexists; split; [reflexivity|].
  assert (Lr : (length r' = 199 - length pre - length u)%nat).
  { apply (f_equal (@length Z)) in E. rewrite app_length, Lx, app_length in E. cbn [length] in E. lia. }
  rewrite Eu.
  destruct r' as [|c r2].
  - exists []. cbn [length] in Lr. rewrite app_nil_r.
    assert (Q : put 199 [0] ((pre ++ u) ++ [0] ++ []) = Ok ((pre ++ u) ++ [0] ++ [])).
    { apply put_mid; [rewrite app_length; lia|reflexivity]. }
    rewrite app_nil_r in Q. rewrite app_assoc. split; [exact Q|]. rewrite !app_length. cbn [length]. lia.
  - destruct (@exists_last _ (c :: r2)) as (r0 & y & Ey); [discriminate|].
    exists (r0 ++ [0]).
    assert (L0 : (length r0 = 198 - length pre - length u)%nat).
    { apply (f_equal (@length Z)) in Ey. rewrite app_length in Ey. cbn [length] in *. lia. }
    assert (Q : put 199 [0] ((pre ++ u ++ 0 :: r0) ++ [y] ++ []) = Ok ((pre ++ u ++ 0 :: r0) ++ [0] ++ [])).
    { apply put_mid; [rewrite !app_length; cbn [length] in *; lia|reflexivity]. }
    rewrite Ey. rewrite !app_nil_r in Q.
    replace (pre ++ (u ++ [0]) ++ r0 ++ [y]) with ((pre ++ u ++ 0 :: r0) ++ [y]) by (rewrite <- !app_assoc; reflexivity).
    rewrite Q. rewrite <- !app_assoc. cbn [app]. split; [reflexivity|]. rewrite !app_length. cbn [length]. rewrite !app_length. cbn [length] in *. lia.
Qed.

Lemma chomp_last m : m <> [] -> chomp m = if last m 0 =? 10 then removelast m else m.
Proof.
  induction m as [|c m IH]; [contradiction|]. intros _. cbn [chomp last removelast]. destruct m as [|d m]; [destruct (c =? 10); reflexivity|].
  rewrite IH by discriminate. destruct (_ =? 10); reflexivity.
Qed.

(** ** Logging *)

Lemma core_ok p level t junk pre :
  pre = match prefix_of p level with Some s => s | None => [] end -> good_prefix pre -> plain_text t -> Z.of_nat (length t) < 2 ^ 30 ->
  length junk = 200%nat ->
  exists b r,
    (let! b := put 0 [0] junk in
     let! b := match prefix_of p level with
               | Some s => let! b := strncpy 0 s MAX_LOG_MSG_LENGTH b in put (MAX_LOG_MSG_LENGTH - 1) [0] b
               | None => Ok b
               end in
     let presize := Z.of_nat (length (cstr b)) in
     let! (n, b) := vsnprintf presize (MAX_LOG_MSG_LENGTH - presize) (Some t) b in
     let! b := put (MAX_LOG_MSG_LENGTH - 1) [0] b in
     Ok (n, presize, b)) = Ok (Z.of_nat (length t), Z.of_nat (length pre), b)
    /\ b = firstn 199 (pre ++ t) ++ 0 :: r /\ length b = 200%nat.
Proof.
  intros Ep (Hp & Lp) Ht Lt Lj.
  assert (E0 : exists j, put 0 [0] junk = Ok (0 :: j) /\ length j = 199%nat).
  { destruct junk as [|c j]; [discriminate|]. cbn [length] in Lj. exists j.
    pose proof (put_mid [] [0] [c] j 0 eq_refl eq_refl) as P. cbn [app] in P. rewrite P. split; [reflexivity|lia]. }
  destruct E0 as (j & E0 & Lj0). rewrite E0. cbn [bind].
  assert (E1 : exists r, match prefix_of p level with
               | Some s => let! b := strncpy 0 s MAX_LOG_MSG_LENGTH (0 :: j) in put (MAX_LOG_MSG_LENGTH - 1) [0] b
               | None => Ok (0 :: j)
               end = Ok (pre ++ 0 :: r) /\ length (pre ++ 0 :: r) = 200%nat).
  { destruct (prefix_of p level) as [s|]; subst pre.
    - destruct (copy_cut s (0 :: j) MAX_LOG_MSG_LENGTH) as (b1 & r & E & L & Q & L2); [unfold MAX_LOG_MSG_LENGTH; lia|cbn [length]; unfold MAX_LOG_MSG_LENGTH; lia|assumption|].
      rewrite E. cbn [bind]. rewrite Q. rewrite firstn_all2 in * by (unfold MAX_LOG_MSG_LENGTH; lia).
      exists r. split; [reflexivity|]. rewrite L2. cbn [length]. lia.
    - exists j. split; [reflexivity|]. cbn [length app]. lia. }
  destruct E1 as (r & E1 & L1). rewrite E1. cbn [bind]. rewrite cstr_zero by assumption. cbv zeta.
  destruct (vsn_ok pre t r) as (b & E2 & r' & E3 & L3); [lia|assumption|lia|].
  unfold MAX_LOG_MSG_LENGTH. rewrite E2. cbn [bind]. change (200 - 1) with 199. rewrite E3. cbn [bind].
  exists (firstn 199 (pre ++ t) ++ 0 :: r'), r'. auto.
Qed.

Lemma whole_prefix p b level : represents p b -> match prefix_of p level with Some s => s | None => [] end = prefix b level.
Proof.
  intros (_ & _ & _ & H1 & H2 & _). unfold prefix_of, prefix. destruct (2 <=? level); [|assumption].
  rewrite <- H2. destruct (a_errprefix p); reflexivity.
Qed.
Lemma good_of p b level : represents p b -> good_prefix (prefix b level).
Proof. intros (_ & _ & _ & _ & _ & _ & _ & H1 & H2 & _). unfold prefix. destruct (2 <=? level); assumption. Qed.

Lemma trim_ok p ms : a_memory p = false -> forall count, 0 <= count -> count + Z.of_nat (length ms) < 2 ^ 31 ->
  trim p count ms = Ok (firstn (Z.to_nat (a_max p - count)) ms).
Proof.
  intros Hm. induction ms as [|m ms IH]; intros count H0 H; cbn [trim]; [now rewrite firstn_nil|].
  cbn [length] in H. rewrite sarith_ok by (unfold in_s; lia). cbn [bind].
  unfold release. rewrite Hm. replace (if a_max p <? count + 1 then Ok tt else Ok tt) with (@Ok unit tt) by (destruct (_ <? _); reflexivity).
  cbn [bind]. rewrite IH by lia. cbn [bind].
  destruct (Z.ltb_spec (a_max p) (count + 1)).
  - replace (Z.to_nat (a_max p - (count + 1))) with O by lia. replace (Z.to_nat (a_max p - count)) with O by lia. reflexivity.
  - replace (Z.to_nat (a_max p - count)) with (S (Z.to_nat (a_max p - (count + 1)))) by lia. cbn [firstn].
    destruct (Z.eqb_spec (count + 1) (a_max p)); [|reflexivity].
    replace (Z.to_nat (a_max p - (count + 1))) with O by lia. reflexivity.
Qed.

Lemma rev_lastn {A} n (l : list A) : rev (lastn n l) = firstn (Z.to_nat n) (rev l).
Proof. unfold lastn. now rewrite firstn_rev. Qed.
Lemma rev_but_last {A} n (l : list A) : rev (but_last n l) = skipn (Z.to_nat n) (rev l).
Proof. unfold but_last. now rewrite skipn_rev. Qed.

Lemma add_ok p b f level m : represents p b -> names f -> 1 <= level -> 1 <= b_max b -> a_cnt p + 1 < 2 ^ 31 -> plain_text m -> Z.of_nat (length m) <= 199 ->
  exists p', add_message p f level m = Ok p' /\ p' = with_registry p (a_cnt p + 1) (rev (lastn (b_max b) (b_kept b ++ [mk_entry level (match f with Some f => firstn 29 f | None => [] end) m])))
    /\ represents p' (with_kept b (lastn (b_max b) (b_kept b ++ [mk_entry level (match f with Some f => firstn 29 f | None => [] end) m]))).
Proof.
  intros (R1 & R2 & R3 & R4 & R5 & R6 & R7 & R8 & R9 & R10 & R11 & R12) Hf Hl Hmax Hc Hm Lm.
  unfold add_message.
  assert (Ef : exists fn, match f with
            | Some s => let! b := strncpy 0 s FUNCTION_SIZE (repeat 0 (Z.to_nat FUNCTION_SIZE)) in
                        let! b := put (FUNCTION_SIZE - 1) [0] b in Ok (cstr b)
            | None => Ok []
            end = Ok fn /\ fn = match f with Some f => firstn 29 f | None => [] end).
  { destruct f as [s|]; [|eexists; split; reflexivity].
    destruct (copy_cut s (repeat 0 (Z.to_nat FUNCTION_SIZE)) FUNCTION_SIZE) as (b1 & r & E & L & Q & L2); [unfold FUNCTION_SIZE; lia|rewrite repeat_length; reflexivity|now apply Hf|].
    rewrite E. cbn [bind]. rewrite Q. cbn [bind]. rewrite cstr_zero by (apply plain_firstn; now apply Hf).
    eexists; split; reflexivity. }
  destruct Ef as (fn & Ef & Efn). rewrite Ef. cbn [bind].
  destruct (copy_cut m (repeat 0 (Z.to_nat MAX_LOG_MSG_LENGTH)) MAX_LOG_MSG_LENGTH) as (b1 & r & E & L & Q & L2); [unfold MAX_LOG_MSG_LENGTH; lia|rewrite repeat_length; reflexivity|assumption|].
  rewrite E. cbn [bind]. rewrite Q. cbn [bind]. rewrite firstn_all2 by (unfold MAX_LOG_MSG_LENGTH; lia). rewrite cstr_zero by assumption.
  rewrite sarith_ok by (unfold in_s; lia). cbn [bind]. rewrite <- Efn. set (e := mk_entry level fn m).
  assert (Hms : e :: a_msgs p = rev (b_kept b ++ [e])) by (rewrite R7, rev_app_distr; reflexivity).
  rewrite Hms.
  assert (Hlen : Z.of_nat (length (b_kept b ++ [e])) = Z.of_nat (length (b_kept b)) + 1) by (rewrite app_length; cbn [length]; lia).
  assert (Et : (if a_max p <? a_cnt p + 1 then let! ms' := trim p 0 (rev (b_kept b ++ [e])) in Ok (with_registry p (a_cnt p + 1) ms')
                else Ok (with_registry p (a_cnt p + 1) (rev (b_kept b ++ [e])))) = Ok (with_registry p (a_cnt p + 1) (rev (lastn (b_max b) (b_kept b ++ [e]))))).
  { rewrite rev_lastn. destruct (Z.ltb_spec (a_max p) (a_cnt p + 1)).
    - rewrite trim_ok by (try assumption; rewrite ?rev_length; lia). cbn [bind]. rewrite Z.sub_0_r, R6. reflexivity.
    - rewrite firstn_all2 by (rewrite rev_length; lia). reflexivity. }
  rewrite Et. eexists; split; [reflexivity|]. split; [reflexivity|].
  assert (Le : (length (lastn (b_max b) (b_kept b ++ [e])) <= length (b_kept b) + 1)%nat).
  { unfold lastn. rewrite skipn_length, app_length. cbn [length]. lia. }
  unfold represents. cbn. repeat split; try assumption; try apply R8; try apply R9; try lia.
  unfold lastn. apply Forall_skipn, Forall_app. split; [assumption|]. constructor; [|constructor]. cbn.
  subst fn. repeat split; try assumption.
  - destruct f as [s|]; [apply plain_firstn; now apply Hf|constructor].
  - destruct f as [s|]; cbn [length]; [rewrite firstn_length|]; lia.
Qed.

Lemma plain_chomp m : plain_text m -> plain_text (chomp m).
Proof.
  induction 1 as [|c m Hc Hm IH]; [constructor|]. cbn [chomp]. destruct m; [destruct (c =? 10)|]; repeat constructor; auto.
Qed.
Lemma chomp_length m : m <> [] -> length (chomp m) = if last m 0 =? 10 then (length m - 1)%nat else length m.
Proof.
  intros H. rewrite chomp_last by assumption. destruct (_ =? 10); [|reflexivity].
  destruct (exists_last H) as (m' & x & ->). rewrite removelast_last, app_length. cbn [length]. lia.
Qed.

Lemma log_ok p b f level t junk : represents p b -> names f -> loggable b level t -> buffer junk -> a_cnt p + 1 < 2 ^ 31 ->
  exists p', rlog p f level (Some t) junk = Ok (fst (logged b f level t), p') /\ p' = (if retains b level then with_registry p (a_cnt p + 1) (rev (b_kept (snd (logged b f level t)))) else p)
    /\ represents p' (snd (logged b f level t)).
Proof.
  intros R Hf (Ht & Lt & Hr) Hj Hc.
  pose proof (whole_prefix p b level R) as Hpre. pose proof (good_of p b level R) as Hgood.
  pose proof R as (R1 & R2 & R3 & R4 & R5 & R6 & R7 & R8 & R9 & R10 & R11 & R12).
  destruct (core_ok p level t junk (prefix b level)) as (bf & r & E & Eb & Lb); [now symmetry|assumption..|].
  destruct Hgood as (Hpp & Hpl).
  unfold rlog, logged, retains in *. rewrite <- R6.
  destruct (Z.leb_spec 0 level) as [H0|H0].
  - revert E. destruct (put 0 [0] junk) as [b0| | |] eqn:E0; cbn [bind]; intros E; try discriminate. rewrite E. cbn [bind].
    rewrite sarith_ok by (unfold in_s; lia). cbn [bind].
    set (m := whole b level t) in *.
    assert (Lm : Z.of_nat (length t) + Z.of_nat (length (prefix b level)) = Z.of_nat (length m)) by (unfold m, whole; rewrite app_length; lia).
    rewrite Lm. change (prefix b level ++ t) with m in Eb.
    assert (Hm : plain_text m) by (apply Forall_app; split; assumption).
    destruct ((1 <=? level) && (0 <? a_max p)) eqn:Er.
    + rewrite R6 in Er. specialize (Hr Er).
      assert (Hne : m <> []) by (intros ->; cbn in Hr; lia).
      assert (Hc1 : exists c, getZ (Z.of_nat (length m) - 1) bf = Ok c /\ (Z.of_nat (length m) <= 199 -> c = last m 0) /\ (Z.of_nat (length m) = 200 -> c = 0)).
      { unfold getZ. destruct (Z.leb_spec 0 (Z.of_nat (length m) - 1)); [|lia].
        destruct (Z.eq_dec (Z.of_nat (length m)) 200) as [E2|E2].
        - rewrite Eb. rewrite nth_error_app2 by (rewrite firstn_length; lia). rewrite firstn_length.
          replace (Z.to_nat (Z.of_nat (length m) - 1) - Nat.min 199 (length m))%nat with O by lia. cbn. eexists; split; [reflexivity|]. lia.
        - rewrite Eb. rewrite firstn_all2 by lia. destruct (exists_last Hne) as (m' & x & Ex). rewrite Ex, app_length in *. cbn [length] in *.
          rewrite <- app_assoc. rewrite nth_error_app2 by lia.
          replace (Z.to_nat (Z.of_nat (length m' + 1) - 1) - length m')%nat with O by lia. cbn [app nth_error].
          exists x. split; [reflexivity|]. rewrite last_app_one. lia. }
      destruct Hc1 as (c & Ec & Hc1 & Hc2). rewrite Ec. cbn [bind].
      assert (Hcut : exists b2, (if c =? NL then let! b := put (Z.of_nat (length m) - 1) [0] bf in Ok (Z.of_nat (length m) - 1, b) else Ok (Z.of_nat (length m), bf))
                = Ok b2 /\ cstr (snd b2) = firstn 199 (chomp m) /\ fst b2 = Z.of_nat (length (if Nat.leb 200 (length m) then m else chomp m))).
      { unfold NL. destruct (Z.eqb_spec c 10) as [E2|E2].
        - assert (Z.of_nat (length m) <= 199) by (destruct (Z.eq_dec (Z.of_nat (length m)) 200); lia).
          rewrite Hc1 in E2 by assumption.
          destruct (exists_last Hne) as (m' & x & Ex). rewrite Eb. rewrite firstn_all2 by lia. rewrite Ex in *.
          rewrite last_app_one in E2. subst x. rewrite app_length in *. cbn [length] in *.
          pose proof (put_mid m' [0] [10] (0 :: r) (Z.of_nat (length m' + 1) - 1)) as P.
          rewrite <- app_assoc. rewrite P by (try reflexivity; lia). cbn [bind]. eexists; split; [reflexivity|]. cbn [fst snd].
          rewrite chomp_last by (intros X; destruct m'; discriminate). rewrite last_app_one. cbn [Z.eqb Pos.eqb]. rewrite removelast_last.
          split; [|destruct (Nat.leb_spec 200 (length m' + 1)); rewrite ?app_length in *; cbn [length] in *; lia]. cbn [app]. rewrite cstr_zero by (apply Forall_app in Hm; apply Hm). now rewrite firstn_all2 by lia.
        - eexists; split; [reflexivity|]. cbn [fst snd]. rewrite Eb, cstr_zero by (now apply plain_firstn).
          destruct (Z.eq_dec (Z.of_nat (length m)) 200) as [E3|E3].
          + split.
            * rewrite chomp_last by assumption. destruct (Z.eqb_spec (last m 0) 10); [|reflexivity].
              destruct (exists_last Hne) as (m' & x & Ex). rewrite Ex in *. rewrite app_length in *. cbn [length] in *. rewrite removelast_last.
              rewrite firstn_app_exact by lia. rewrite firstn_all2 by lia. reflexivity.
            * destruct (Nat.leb_spec 200 (length m)); [reflexivity|lia].
          + rewrite chomp_last by assumption. rewrite <- Hc1 by lia. destruct (Z.eqb_spec c 10); [contradiction|]. split; [reflexivity|]. destruct (Nat.leb_spec 200 (length m)); reflexivity. }
      destruct Hcut as ((n2 & b2) & Ecut & Es & En). rewrite Ecut. cbn [bind]. cbn [fst snd] in Es, En. rewrite Es.
      destruct (add_ok p b f level (firstn 199 (chomp m))) as (p' & Ea & Ecnt & Ra); [assumption..|lia|lia|assumption|apply plain_firstn, plain_chomp, Hm|rewrite firstn_length; lia|].
      rewrite Ea. cbn [bind].
      exists p'. cbn [fst snd]. split; [|split; [rewrite R6; exact Ecnt|rewrite R6; exact Ra]]. rewrite En. reflexivity.
    + destruct (Z.ltb_spec level 0); [lia|]. exists p. cbn [fst snd]. split; [|split; [reflexivity|exact R]].
      rewrite Eb, cstr_zero by (now apply plain_firstn). do 3 f_equal. unfold print_message, channel.
      destruct (Z.ltb_spec level 0); [lia|].
      destruct (Z.leb_spec 1 level), (Z.eqb_spec level 0); try lia; rewrite ?R2, ?R3, ?app_nil_r; [destruct (b_diag b)|destruct (b_log b)]; rewrite ?app_nil_r; reflexivity.
  - revert E. destruct (put 0 [0] junk) as [b0| | |] eqn:E0; cbn [bind]; intros E; try discriminate.
    destruct (Z.leb_spec 1 level); [lia|]. cbn [andb]. destruct (Z.ltb_spec level 0); [|lia].
    rewrite sarith_ok by (unfold in_s; lia). cbn [bind]. exists p. cbn [fst snd]. split; [|split; [reflexivity|exact R]].
    do 3 f_equal. unfold print_message. destruct (Z.leb_spec 1 level), (Z.eqb_spec level 0); try lia. reflexivity.
Qed.

(** ** Emitting and clearing *)

Lemma pop_ok ms : forall n acc, 0 < n -> pop n ms acc = (skipn (Z.to_nat n) ms, rev (firstn (Z.to_nat n) ms) ++ acc).
Proof.
  induction ms as [|m ms IH]; intros n acc Hn; cbn [pop]; [now rewrite skipn_nil, firstn_nil|].
  destruct (Z.eqb_spec n 0); [lia|]. destruct (Z.ltb_spec 0 n); [|lia].
  replace (Z.to_nat n) with (S (Z.to_nat (n - 1))) by lia. cbn [skipn firstn rev].
  destruct (Z.eq_dec n 1) as [->|].
  - change (Z.to_nat (1 - 1)) with O. cbn [skipn firstn rev app]. destruct ms; reflexivity.
  - rewrite IH by lia. rewrite <- app_assoc. reflexivity.
Qed.
Lemma pop_all ms : forall acc, pop (-1) ms acc = ([], rev ms ++ acc).
Proof. induction ms as [|m ms IH]; intros acc; cbn [pop]; [reflexivity|]. cbn. rewrite IH. cbn [rev]. now rewrite <- app_assoc. Qed.

Lemma emitted_ok c e : plain_text (e_function e) -> plain_text (e_message e) -> Z.of_nat (length (e_function e)) <= 29 ->
  emitted c e = Ok (line c e).
Proof.
  intros Hf Hm Lf. unfold emitted, line. destruct c; [|reflexivity]. destruct (e_function e) as [|x f] eqn:Ef; [reflexivity|]. rewrite <- Ef in *.
  cbn [negb andb]. unfold vsnprintf.
  change (Z.to_nat (MAX_LOG_MSG_LENGTH - FUNCTION_SIZE - 3)) with 167%nat.
  set (t := e_function e ++ [40; 41; 32] ++ firstn 167 (e_message e)).
  assert (Lt : (length t <= 199)%nat) by (unfold t; rewrite !app_length, firstn_length; cbn [length]; lia).
  assert (Ht : plain_text t).
  { apply Forall_app. split; [assumption|]. apply Forall_app. split; [repeat constructor; discriminate|now apply plain_firstn]. }
  destruct (Z.leb_spec (2 ^ 31) (Z.of_nat (length t))); [lia|]. change (MAX_LOG_MSG_LENGTH <=? 0) with false. cbv iota.
  change (Z.to_nat (MAX_LOG_MSG_LENGTH - 1)) with 199%nat. rewrite firstn_all2 by assumption.
  destruct (split_at (repeat 0 (Z.to_nat MAX_LOG_MSG_LENGTH)) 0 (length (t ++ [0]))) as (a & x' & r & E & La & Lx).
  { rewrite app_length, repeat_length. cbn [length]. unfold MAX_LOG_MSG_LENGTH. lia. }
  destruct a; [|discriminate]. rewrite E. rewrite put_mid by (try reflexivity; congruence). cbn [bind app].
  rewrite <- app_assoc. cbn [app]. now rewrite cstr_zero.
Qed.

Lemma print_ok p b c ms : represents p b ->
  Forall (fun e => 1 <= e_level e /\ plain_text (e_function e) /\ plain_text (e_message e) /\ Z.of_nat (length (e_function e)) <= 29) ms ->
  print_list p c ms = Ok (concat (map (fun e => channel b (e_level e) (line c e) [10]) ms)).
Proof.
  intros R. pose proof R as (R1 & R2 & R3 & _). induction 1 as [|e ms (H1 & H2 & H3 & H4) Hms IH]; [reflexivity|].
  cbn [print_list map concat]. rewrite emitted_ok by assumption. cbn [bind]. unfold release. rewrite R1. cbn [bind]. rewrite IH. cbn [bind].
  do 2 f_equal. unfold print_message, channel. destruct (Z.leb_spec 1 (e_level e)), (Z.ltb_spec (e_level e) 0), (Z.eqb_spec (e_level e) 0); try lia.
  rewrite R3. destruct (b_diag b); [rewrite app_nil_r|]; reflexivity.
Qed.

Lemma kept_less p b n l : represents p b -> (l = lastn n (b_kept b) \/ l = but_last n (b_kept b) \/ l = []) ->
  represents (with_registry p (a_cnt p) (rev l)) (with_kept b l).
Proof.
  intros (R1 & R2 & R3 & R4 & R5 & R6 & R7 & R8 & R9 & R10 & R11 & R12) H.
  assert (X : (length l <= length (b_kept b))%nat /\ Forall (fun e => 1 <= e_level e /\ plain_text (e_function e) /\ plain_text (e_message e) /\ Z.of_nat (length (e_function e)) <= 29) l).
  { destruct H as [->|[->| ->]]; unfold lastn, but_last; rewrite ?skipn_length, ?firstn_length; cbn [length]; (split; [lia|]).
    - now apply Forall_skipn. - now apply Forall_firstn. - constructor. }
  unfold represents. cbn. repeat split; try assumption; try apply R8; try apply R9; try apply X; lia.
Qed.

Lemma emit_ok p b n c : represents p b ->
  exists p', rlog_emit p n c = Ok (fst (does b (OEmit n c)), p') /\ a_cnt p' = a_cnt p /\ represents p' (snd (does b (OEmit n c))).
Proof.
  intros R. pose proof R as (R1 & R2 & R3 & R4 & R5 & R6 & R7 & R8 & R9 & R10 & R11 & R12).
  unfold rlog_emit. cbn [does fst snd]. set (k := if n <=? 0 then Z.of_nat (length (b_kept b)) else n).
  assert (E : pop (if 0 <? n then n else -1) (a_msgs p) [] = (rev (but_last k (b_kept b)), lastn k (b_kept b))).
  { rewrite R7. rewrite rev_but_last. rewrite <- (rev_involutive (lastn k (b_kept b))), rev_lastn. unfold k.
    destruct (Z.ltb_spec 0 n), (Z.leb_spec n 0); try lia.
    - rewrite pop_ok by assumption. now rewrite app_nil_r.
    - rewrite pop_all, app_nil_r. rewrite Nat2Z.id.
      rewrite skipn_all2 by (rewrite rev_length; lia). rewrite firstn_all2 by (rewrite rev_length; lia). reflexivity. }
  rewrite E. rewrite (print_ok p b) by (try assumption; now apply Forall_skipn). cbn [bind].
  eexists; split; [reflexivity|]. split; [reflexivity|]. apply kept_less with (n := k); auto.
Qed.

Lemma free_count p ms : a_memory p = false -> forall n, 0 <= n -> n + Z.of_nat (length ms) < 2 ^ 31 -> free_all p n ms = Ok (n + Z.of_nat (length ms)).
Proof.
  intros Hm. induction ms as [|m ms IH]; intros n Hn H; cbn [free_all length] in *; [f_equal; lia|].
  rewrite sarith_ok by (unfold in_s; lia). cbn [bind]. unfold release. rewrite Hm. cbn [bind]. rewrite IH by lia. f_equal. lia.
Qed.
Lemma free_ok p b : represents p b -> a_cnt p < 2 ^ 31 ->
  exists p', rlog_free p = Ok (Z.of_nat (length (b_kept b)), p') /\ a_cnt p' = a_cnt p /\ represents p' (with_kept b []).
Proof.
  intros R Hc. pose proof R as (R1 & R2 & R3 & R4 & R5 & R6 & R7 & R8 & R9 & R10 & R11 & R12).
  unfold rlog_free. rewrite R7. rewrite free_count by (try assumption; rewrite ?rev_length; lia). cbn [bind]. rewrite rev_length.
  eexists; split; [reflexivity|]. split; [reflexivity|]. apply (kept_less p b 0 []); auto.
Qed.

(** ** Settings *)

Lemma printers_ok p b l d : represents p b -> represents (set_print p l d) (set_printers b l d).
Proof. unfold represents. cbn. intros (? & -> & -> & H). repeat split; try assumption; apply H. Qed.

Lemma prefix_ok p b s text junk (set : params -> list Z -> params) (setb : book -> list Z -> book) : represents p b ->
  (forall s, good_prefix s -> represents (set p s) (setb b s)) -> (forall s, a_cnt (set p s) = a_cnt p) ->
  prefix_allowed b s text -> buffer junk -> a_cnt p + 1 < 2 ^ 31 ->
  exists p', match s with
             | Some s => if MAX_LOG_MSG_LENGTH <=? Z.of_nat (length s)
                         then let! (_, o, p) := rlog p (Some rloginit_name) 2 (Some text) junk in Ok (o, p)
                         else Ok ([], set p s)
             | None => Ok ([], p)
             end = Ok (fst (prefix_set b s setb text), p') /\ a_cnt p' <= a_cnt p + 1 /\ represents p' (snd (prefix_set b s setb text)).
Proof.
  intros R Hset Hcnt Ha Hj Hc. unfold prefix_set. destruct s as [s|].
  - destruct (Ha s eq_refl) as (Hs & Hl). unfold MAX_LOG_MSG_LENGTH. destruct (Z.leb_spec 200 (Z.of_nat (length s))) as [H|H].
    + destruct (log_ok p b (Some rloginit_name) 2 text junk) as (p' & E & Ec & R'); try assumption; [|now apply Hl|].
      2: assert (a_cnt p' <= a_cnt p + 1) by (rewrite Ec; destruct (retains _ _); cbn; lia).
      { intros s' [= <-]. repeat constructor; discriminate. }
      rewrite E. destruct (logged b (Some rloginit_name) 2 text) as ((n & o) & b'). cbn [fst snd bind] in *. exists p'. auto.
    + exists (set p s). cbn [fst snd]. rewrite Hcnt. split; [reflexivity|]. split; [lia|]. apply Hset. split; assumption.
  - exists p. cbn [fst snd]. split; [reflexivity|]. split; [lia|assumption].
Qed.

Lemma step_ok p b o : represents p b -> allowed b o -> a_cnt p + adds o < 2 ^ 31 ->
  exists p', step p o = Ok (fst (does b o), p') /\ a_cnt p' <= a_cnt p + adds o /\ represents p' (snd (does b o)).
Proof.
  intros R Ha Hc. destruct o as [f level [t|] j|n c| |l lp d ep n j]; cbn [allowed adds step] in *.
  - destruct Ha as (Hf & Hl & Hj). destruct (log_ok p b f level t j) as (p' & E & Ec & R'); try assumption.
    exists p'. split; [assumption|]. split; [rewrite Ec; destruct (retains _ _); cbn; lia|assumption].
  - contradiction.
  - destruct (emit_ok p b n c R) as (p' & E & Ec & R'). exists p'. rewrite Ec. split; [assumption|]. split; [lia|assumption].
  - destruct (free_ok p b R) as (p' & E & Ec & R'); [lia|]. rewrite E. cbn [bind]. exists p'. rewrite Ec. split; [reflexivity|]. split; [lia|assumption].
  - destruct Ha as (Hj & Hn & H1 & H2). unfold rloginit. cbn [does].
    pose proof (printers_ok p b l false R) as R1.
    destruct (prefix_ok _ _ lp log_too_large j set_log set_logprefix R1) as (p1 & E1 & C1 & R2); try assumption; try (cbn; lia); try reflexivity.
    { intros s Hs. unfold represents in *. cbn in *. intuition auto. }
    rewrite E1. cbn [bind]. destruct (prefix_set (set_printers b l false) lp set_logprefix log_too_large) as (o1 & b1). cbn [fst snd] in *.
    pose proof (printers_ok p1 b1 false d R2) as R3.
    destruct (prefix_ok _ _ ep err_too_large j set_err set_errprefix R3) as (p2 & E2 & C2 & R4); try assumption; try (cbn in *; lia); try reflexivity.
    { intros s Hs. unfold represents in *. cbn in *. intuition auto. }
    rewrite E2. cbn [bind]. destruct (prefix_set (set_printers b1 false d) ep set_errprefix err_too_large) as (o2 & b2). cbn [fst snd] in *.
    eexists; split; [reflexivity|]. destruct (Z.leb_spec 0 n).
    + split; [cbn in *; lia|]. unfold represents in *. cbn in *. intuition auto.
    + split; [cbn in *; lia|assumption].
Qed.

Lemma adds_nonneg o : 0 <= adds o. Proof. destruct o; cbn; lia. Qed.
Lemma additions_nonneg os : 0 <= additions os. Proof. induction os as [|o os IH]; cbn; [lia|]. pose proof (adds_nonneg o). lia. Qed.

Lemma run_ok os : forall p b, represents p b -> all_allowed b os -> a_cnt p + additions os < 2 ^ 31 ->
  exists p', run p os = Ok (fst (history b os), p') /\ a_cnt p' <= a_cnt p + additions os /\ represents p' (snd (history b os)).
Proof.
  induction os as [|o os IH]; intros p b R Ha Hc; cbn [all_allowed additions run history] in *.
  - exists p. cbn [fst snd]. split; [reflexivity|]. split; [lia|assumption].
  - destruct Ha as (Ha & Hs). pose proof (additions_nonneg os).
    destruct (step_ok p b o R Ha) as (p1 & E & C1 & R1); [lia|]. rewrite E.
    destruct (does b o) as ((r & s) & b1). cbn [fst snd bind] in *.
    destruct (IH p1 b1 R1 Hs) as (p2 & E2 & C2 & R2); [lia|]. rewrite E2. cbn [bind].
    destruct (history b1 os) as (l & b2). cbn [fst snd] in *. exists p2. split; [reflexivity|]. split; [lia|assumption].
Qed.

Lemma init_represents m : represents (log_init m false) book0.
Proof.
  unfold represents, log_init, book0, good_prefix. cbn. repeat split; try lia; try constructor.
  all: repeat constructor; discriminate.
Qed.

(** ** Consequences *)

Lemma lastn_all {A} n (l : list A) : Z.of_nat (length l) <= n -> lastn n l = l.
Proof. intros H. unfold lastn. replace (length l - Z.to_nat n)%nat with O by lia. reflexivity. Qed.
Lemma lastn_lastn {A} n (l r : list A) : lastn n (lastn n l ++ r) = lastn n (l ++ r).
Proof.
  unfold lastn. rewrite !app_length, skipn_length. rewrite !skipn_app, skipn_skipn, skipn_length. set (k := Z.to_nat n).
  replace (length l - (length l - k) + length r - k + (length l - k))%nat with (length l + length r - k)%nat by lia.
  replace (length l - (length l - k) + length r - k - (length l - (length l - k)))%nat with (length l + length r - k - length l)%nat by lia. reflexivity.
Qed.

Lemma history_logs b cs : forall k, Z.of_nat (length k) <= b_max b -> Forall (fun c => retains b (c_level c) = true) cs ->
  b_kept (snd (history (with_kept b k) (map log_call cs))) = lastn (b_max b) (k ++ map (entry_of b) cs)
  /\ Forall (fun o => snd o = []) (fst (history (with_kept b k) (map log_call cs))).
Proof.
  induction cs as [|c cs IH]; intros k Hk Hcs; cbn [map history].
  - rewrite app_nil_r, lastn_all by assumption. split; [reflexivity|constructor].
  - apply Forall_cons_iff in Hcs. destruct Hcs as (Hc & Hcs). cbn [log_call does]. unfold logged.
    change (retains (with_kept b k) (c_level c)) with (retains b (c_level c)). rewrite Hc. cbn [with_kept b_kept b_max].
    change (whole (mk_book (b_log b) (b_diag b) (b_logprefix b) (b_errprefix b) (b_max b) k) (c_level c) (c_text c)) with (whole b (c_level c) (c_text c)).
    change (retained (c_function c) (c_level c) (whole b (c_level c) (c_text c))) with (entry_of b c).
    unfold with_kept. cbn [b_log b_diag b_logprefix b_errprefix b_max b_kept].
    destruct (IH (lastn (b_max b) (k ++ [entry_of b c]))) as (E1 & E2); [unfold lastn; rewrite skipn_length; lia|assumption|].
    unfold with_kept in E1, E2. destruct (history _ (map log_call cs)) as (l & b2). cbn [fst snd] in *.
    split; [|constructor; [reflexivity|assumption]]. rewrite E1, lastn_lastn, <- app_assoc. reflexivity.
Qed.

Lemma allowed_logs b cs : forall k, Forall (fun c => retains b (c_level c) = true) cs ->
  Forall (fun c => names (c_function c) /\ loggable b (c_level c) (c_text c) /\ buffer (c_junk c)) cs ->
  all_allowed (with_kept b k) (map log_call cs).
Proof.
  induction cs as [|c cs IH]; intros k Hr Ha; [exact I|].
  apply Forall_cons_iff in Hr. destruct Hr as (Hr & Hrs). apply Forall_cons_iff in Ha. destruct Ha as (Ha & Has).
  cbn [map all_allowed]. split; [exact Ha|]. cbn [log_call does]. unfold logged.
  change (retains (with_kept b k) (c_level c)) with (retains b (c_level c)). rewrite Hr. cbn [snd]. now apply IH.
Qed.

Lemma additions_logs cs : additions (map log_call cs) = Z.of_nat (length cs).
Proof. induction cs as [|c cs IH]; cbn [map additions length]; [reflexivity|]. rewrite IH. cbn [log_call adds]. lia. Qed.

Lemma newest p b cs : represents p b -> Z.of_nat (length (b_kept b)) <= b_max b ->
  Forall (fun c => 1 <= c_level c) cs -> 0 < b_max b ->
  Forall (fun c => names (c_function c) /\ loggable b (c_level c) (c_text c) /\ buffer (c_junk c)) cs ->
  a_cnt p + Z.of_nat (length cs) < 2 ^ 31 ->
  exists outs p', run p (map log_call cs) = Ok (outs, p') /\ Forall (fun o => snd o = []) outs
    /\ a_msgs p' = firstn (Z.to_nat (b_max b)) (rev (b_kept b ++ map (entry_of b) cs)).
Proof.
  intros R Hk Hl Hm Ha Hc.
  assert (Hr : Forall (fun c => retains b (c_level c) = true) cs).
  { eapply Forall_impl; [|exact Hl]. intros c H. unfold retains. cbn beta in H. lia. }
  assert (Eb : with_kept b (b_kept b) = b) by (destruct b; reflexivity).
  destruct (run_ok (map log_call cs) p b R) as (p' & E & _ & R').
  { rewrite <- Eb. now apply allowed_logs. } { rewrite additions_logs. assumption. }
  destruct (history_logs b cs (b_kept b)) as (E1 & E2); try assumption. rewrite Eb in E1, E2.
  exists (fst (history b (map log_call cs))), p'. split; [assumption|]. split; [assumption|].
  destruct R' as (_ & _ & _ & _ & _ & _ & R7 & _). rewrite R7, E1, rev_lastn. reflexivity.
Qed.

(** A retained message of more than 200 bytes. *)
Lemma long_message p b f level t junk : represents p b -> plain_text t -> Z.of_nat (length t) < 2 ^ 30 -> buffer junk ->
  retains b level = true -> 200 < Z.of_nat (length (whole b level t)) -> rlog p f level (Some t) junk = UB OOBRead.
Proof.
  intros R Ht Lt Hj Hr Hl.
  pose proof (whole_prefix p b level R) as Hpre. pose proof (good_of p b level R) as Hgood.
  pose proof R as (R1 & R2 & R3 & R4 & R5 & R6 & R7 & R8 & R9 & R10 & R11 & R12).
  destruct (core_ok p level t junk (prefix b level)) as (bf & r & E & Eb & Lb); [now symmetry|assumption..|].
  destruct Hgood as (Hpp & Hpl). unfold rlog, retains in *.
  destruct (Z.leb_spec 0 level) as [H0|H0]; [|lia].
  revert E. destruct (put 0 [0] junk) as [b0| | |] eqn:E0; cbn [bind]; intros E; try discriminate. rewrite E. cbn [bind].
  rewrite sarith_ok by (unfold in_s; lia). cbn [bind]. rewrite R6, Hr.
  unfold whole in Hl. rewrite app_length in Hl. unfold getZ.
  destruct (Z.leb_spec 0 (Z.of_nat (length t) + Z.of_nat (length (prefix b level)) - 1)); [|lia].
  replace (nth_error bf _) with (@None Z); [reflexivity|]. symmetry. apply nth_error_None. lia.
Qed.

Lemma run_app p a c : run p (a ++ c) = let! (l1, p1) := run p a in let! (l2, p2) := run p1 c in Ok (l1 ++ l2, p2).
Proof.
  revert p. induction a as [|o a IH]; intros p; cbn [app run bind].
  - destruct (run p c) as [(l & q)| | |]; reflexivity.
  - destruct (step p o) as [((r & s) & q)| | |]; cbn [bind]; [|reflexivity..]. rewrite IH.
    destruct (run q a) as [(l1 & q1)| | |]; cbn [bind]; [|reflexivity..]. destruct (run q1 c) as [(l2 & q2)| | |]; reflexivity.
Qed.

(** ** The message counter *)

Definition hello : op := OLog None 1 (Some [65]) (repeat 0 200).
Definition one (m : ovmode) (n : Z) : params := mk_params m false false false None None 1 n [mk_entry 1 [] [65]].
Definition keep_one : op := OInit false None false None 1 (repeat 0 200).

Lemma hello_step m n : 1 <= n -> n + 1 < 2 ^ 31 -> step (one m n) hello = Ok (1, [], one m (n + 1)).
Proof.
  intros H1 H2. set (b := mk_book false false [] default_errprefix 1 [mk_entry 1 [] [65]]).
  assert (R : represents (one m n) b).
  { unfold represents, one, b, good_prefix. cbn. repeat split; try lia; repeat constructor; discriminate || (cbn; lia). }
  destruct (log_ok (one m n) b None 1 [65] (repeat 0 200)) as (p' & E & Ep & _); [assumption|intros s; discriminate| | |cbn; lia|].
  - split; [repeat constructor; discriminate|]. split; cbn; lia.
  - reflexivity.
  - cbn [step hello]. rewrite E, Ep. reflexivity.
Qed.
Lemma hello_run m k : forall n, 1 <= n -> n + Z.of_nat k < 2 ^ 31 ->
  exists outs, run (one m n) (repeat hello k) = Ok (outs, one m (n + Z.of_nat k)).
Proof.
  induction k as [|k IH]; intros n H1 H2.
  - exists []. cbn. do 3 f_equal. lia.
  - cbn [repeat run]. rewrite hello_step by lia. cbn [bind]. destruct (IH (n + 1)) as (outs & E); [lia..|].
    rewrite E. cbn [bind]. replace (n + 1 + Z.of_nat k) with (n + Z.of_nat (S k)) by lia. eauto.
Qed.
Definition many : list op := keep_one :: hello :: repeat hello (Z.to_nat (2 ^ 31 - 2)).
Lemma many_run m : exists outs, run (log_init m false) many = Ok (outs, one m (2 ^ 31 - 1)).
Proof.
  unfold many. cbn [run].
  replace (step (log_init m false) keep_one) with (Ok (0, @nil shown, mk_params m false false false None None 1 0 [])) by reflexivity. cbn [bind].
  replace (step (mk_params m false false false None None 1 0 []) hello) with (Ok (1, @nil shown, one m 1)) by (destruct m; vm_compute; reflexivity). cbn [bind].
  destruct (hello_run m (Z.to_nat (2 ^ 31 - 2)) 1) as (outs & E); [lia|rewrite Z2Nat.id; lia|].
  rewrite E. cbn [bind]. rewrite Z2Nat.id by lia. eexists. replace (1 + (2 ^ 31 - 2)) with (2 ^ 31 - 1) by lia. reflexivity.
Qed.
Lemma many_strict : run (log_init Strict false) (many ++ [hello]) = UB SignedOverflow.
Proof. rewrite run_app. destruct (many_run Strict) as (outs & ->). reflexivity. Qed.
Lemma many_wrap : exists outs p', run (log_init Wrap false) (many ++ [hello]) = Ok (outs, p') /\ a_max p' = 1 /\ length (a_msgs p') = 2%nat.
Proof. rewrite run_app. destruct (many_run Wrap) as (outs & ->). cbn [bind]. do 2 eexists. split; [reflexivity|]. split; reflexivity. Qed.

Lemma histories m os : all_allowed book0 os -> additions os < 2 ^ 31 ->
  exists p', run (log_init m false) os = Ok (fst (history book0 os), p')
    /\ a_max p' = b_max (snd (history book0 os)) /\ a_msgs p' = rev (b_kept (snd (history book0 os))).
Proof.
  intros Ha Hc. destruct (run_ok os _ _ (init_represents m) Ha) as (p' & E & _ & R); [cbn; lia|].
  exists p'. destruct R as (_ & _ & _ & _ & _ & R6 & R7 & _). auto.
Qed.
Lemma emitting p b n c : represents p b ->
  exists p' k, rlog_emit p n c = Ok (0, concat (map (fun e => channel b (e_level e) (line c e) [10]) (rev (firstn k (a_msgs p)))), p')
    /\ a_msgs p' = skipn k (a_msgs p) /\ k = (if 0 <? n then Z.to_nat n else length (a_msgs p)) /\ represents p' (with_kept b (rev (a_msgs p'))).
Proof.
  intros R. destruct (emit_ok p b n c R) as (p' & E & _ & R'). cbn [does fst snd] in E, R'.
  set (k := if n <=? 0 then Z.of_nat (length (b_kept b)) else n) in *.
  pose proof R as (_ & _ & _ & _ & _ & _ & R7 & _). pose proof R' as (_ & _ & _ & _ & _ & _ & R7' & _). cbn in R7'.
  assert (Ek : Z.to_nat k = if 0 <? n then Z.to_nat n else length (a_msgs p)).
  { unfold k. rewrite R7, rev_length. destruct (Z.ltb_spec 0 n), (Z.leb_spec n 0); lia. }
  exists p', (Z.to_nat k). split.
  - rewrite R7. rewrite <- rev_lastn, rev_involutive. assumption.
  - split; [rewrite R7', R7; apply rev_but_last|]. split; [assumption|]. rewrite R7', rev_involutive. assumption.
Qed.
Lemma clearing p b : represents p b -> a_cnt p < 2 ^ 31 ->
  exists p', rlog_free p = Ok (Z.of_nat (length (a_msgs p)), p') /\ a_msgs p' = [] /\ represents p' (with_kept b []).
Proof.
  intros R Hc. destruct (free_ok p b R Hc) as (p' & E & _ & R'). pose proof R as (_ & _ & _ & _ & _ & _ & R7 & _).
  pose proof R' as (_ & _ & _ & _ & _ & _ & R7' & _). exists p'. rewrite R7, rev_length. auto.
Qed.
Lemma direct p b f level t junk : represents p b -> names f -> plain_text t -> Z.of_nat (length t) < 2 ^ 30 -> buffer junk ->
  a_cnt p + 1 < 2 ^ 31 -> retains b level = false -> 0 <= level ->
  rlog p f level (Some t) junk = Ok (Z.of_nat (length (whole b level t)), channel b level (firstn 199 (whole b level t)) [], p).
Proof.
  intros R Hf Ht Lt Hj Hc Hr Hl.
  destruct (log_ok p b f level t junk) as (p' & E & Ep & _); try assumption.
  { split; [assumption|]. split; [assumption|]. congruence. }
  rewrite E, Ep. unfold logged. rewrite Hr. destruct (Z.ltb_spec level 0); [lia|]. reflexivity.
Qed.
