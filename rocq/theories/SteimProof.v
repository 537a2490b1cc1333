(** * Proofs about the Steim codecs. *)
From Verif Require Import BaseLemmas SteimModel SteimSpec.

(** ** Memory images *)

Lemma st_length hb sw n v : length (st hb sw n v) = n.
Proof. unfold st. now rewrite gswap_if_length, host_bytes_length. Qed.

Lemma st_ok hb sw n v : bytes_ok (st hb sw n v).
Proof. apply gswap_if_ok, host_bytes_ok. Qed.

Lemma ld_st hb1 sw1 hb2 sw2 n v :
  xorb hb1 sw1 = xorb hb2 sw2 ->
  ld hb2 sw2 (st hb1 sw1 n v) = v mod 2 ^ (8 * Z.of_nat n).
Proof.
  intros E. unfold ld, st. rewrite gswap_host_val, gswap_host_bytes, E. apply host_val_bytes.
Qed.

Lemma sx_mod w v : 1 <= w -> in_s w v -> sx w (v mod 2 ^ w) = v.
Proof. intros Hw H. unfold sx. rewrite swrap_mod by lia. now apply swrap_id. Qed.

(** ** Bit widths *)

Lemma w_le_in_s n d :
  In n [4;5;6;8;10;15;16;30] -> w_le n d = true -> in_s n d.
Proof.
  unfold w_le, bitwidth, in_s. intros Hn H.
  repeat match type of Hn with
  | In _ (_ :: _) => destruct Hn as [<-|Hn]
  | In _ [] => destruct Hn
  end; simpl Z.pow;
  repeat match type of H with
  | context [if ?c then _ else _] => destruct c eqn:?; [try lia|]
  end; try lia.
Qed.

Lemma forallb_w_le n l :
  In n [4;5;6;8;10;15;16;30] -> forallb (w_le n) l = true -> Forall (in_s n) l.
Proof.
  intros Hn H. apply Forall_forall. intros x Hx.
  rewrite forallb_forall in H. apply w_le_in_s; auto.
Qed.

Lemma fits30_w_le d : w_le 30 d = true <-> fits30 d.
Proof.
  unfold w_le, bitwidth, fits30. simpl Z.pow.
  repeat match goal with
  | |- context [if ?c then _ else _] => destruct c eqn:?; [split; lia|]
  end. split; lia.
Qed.

(** ** Bit fields *)

Fixpoint pack_sum (bits : Z) (ds : list Z) : Z :=
  match ds with
  | [] => 0
  | d :: t => (d mod 2 ^ bits) * 2 ^ (bits * Z.of_nat (length t)) + pack_sum bits t
  end.

Lemma pack_sum_range bits ds :
  0 <= bits -> 0 <= pack_sum bits ds < 2 ^ (bits * Z.of_nat (length ds)).
Proof.
  intros Hb. induction ds as [|d t IH]; [simpl; rewrite Z.mul_0_r; simpl; lia|].
  cbn [pack_sum length]. rewrite Nat2Z.inj_succ, Z.mul_succ_r, Z.pow_add_r by lia.
  pose proof (Z.mod_pos_bound d (2 ^ bits) (pow2_pos bits Hb)).
  pose proof (pow2_pos (bits * Z.of_nat (length t)) ltac:(lia)).
  nia.
Qed.

Lemma mod_mod_pow d bits : 0 <= bits <= 32 -> (d mod 2 ^ 32) mod 2 ^ bits = d mod 2 ^ bits.
Proof.
  intros H. symmetry. apply Znumtheory.Zmod_div_mod; try (apply pow2_pos; lia).
  exists (2 ^ (32 - bits)). rewrite <- Z.pow_add_r by lia. f_equal; lia.
Qed.

Lemma pack_fields_sum bits ds :
  0 <= bits <= 32 -> pack_fields bits ds = pack_sum bits ds.
Proof.
  intros Hb. induction ds as [|d t IH]; [reflexivity|].
  cbn [pack_fields pack_sum]. rewrite IH, Z.lor_comm, lor_disjoint_add.
  - unfold uwrap. rewrite land_ones_mod, mod_mod_pow by lia. lia.
  - lia.
  - apply pack_sum_range; lia.
  - rewrite land_ones_mod by lia. apply Z.mod_pos_bound, pow2_pos; lia.
Qed.

Lemma extract_div v s l : 0 <= s -> 0 <= l -> extract v s l = (v / 2 ^ s) mod 2 ^ l.
Proof. intros. unfold extract. rewrite land_ones_mod, Z.shiftr_div_pow2 by lia. reflexivity. Qed.

Lemma fields_pack_sum bits ds h :
  1 <= bits -> Forall (in_s bits) ds ->
  fields bits (length ds) (h * 2 ^ (bits * Z.of_nat (length ds)) + pack_sum bits ds) = ds.
Proof.
  intros Hb H. revert h. induction H as [|d t Hd Ht IH]; intros h; [reflexivity|].
  cbn [length fields]. f_equal.
  - cbn [pack_sum]. rewrite extract_div by lia.
    pose proof (pow2_pos (bits * Z.of_nat (length t)) ltac:(lia)) as Hp.
    pose proof (pack_sum_range bits t ltac:(lia)) as Hr.
    pose proof (pow2_pos bits ltac:(lia)) as Hp2.
    rewrite Nat2Z.inj_succ, Z.mul_succ_r, Z.pow_add_r by lia.
    replace (h * (2 ^ (bits * Z.of_nat (length t)) * 2 ^ bits) +
             (d mod 2 ^ bits * 2 ^ (bits * Z.of_nat (length t)) + pack_sum bits t))
      with (pack_sum bits t + (h * 2 ^ bits + d mod 2 ^ bits) * 2 ^ (bits * Z.of_nat (length t))) by ring.
    rewrite Z.div_add by lia. rewrite (Z.div_small (pack_sum _ _)) by lia.
    rewrite Z.add_0_l, Z.add_comm, Z.mod_add by lia.
    rewrite Z.mod_mod by lia. apply sx_mod; auto; lia.
  - etransitivity; [|apply (IH (h * 2 ^ bits + d mod 2 ^ bits))]. f_equal.
    cbn [pack_sum]. rewrite Nat2Z.inj_succ, Z.mul_succ_r, Z.pow_add_r by lia. ring.
Qed.

(** A packed Steim-2 word: the decode nibble and the fields come back. *)
Lemma s2_img_decode hb1 sw1 hb2 sw2 bits dnib n ds :
  xorb hb1 sw1 = xorb hb2 sw2 ->
  1 <= bits <= 32 -> 0 <= dnib < 4 -> bits * Z.of_nat n <= 30 ->
  (n <= length ds)%nat -> Forall (in_s bits) (firstn n ds) ->
  let v := ld hb2 sw2 (s2_img hb1 sw1 bits dnib n ds) in
  extract v 30 2 = dnib /\ fields bits n v = firstn n ds.
Proof.
  intros Hx Hb Hd Hn Hl HF v.
  assert (Hlen : length (firstn n ds) = n) by (rewrite firstn_length; lia).
  pose proof (pack_sum_range bits (firstn n ds) ltac:(lia)) as Hr. rewrite Hlen in Hr.
  assert (2 ^ (bits * Z.of_nat n) <= 2 ^ 30) by (apply Z.pow_le_mono_r; lia).
  assert (Hv : v = pack_sum bits (firstn n ds) + dnib * 2 ^ 30).
  { unfold v, s2_img. rewrite ld_st by auto.
    rewrite pack_fields_sum, lor_disjoint_add by lia.
    apply Z.mod_small. change (8 * Z.of_nat 4) with 32. lia. }
  split.
  - rewrite extract_div, Hv by lia. rewrite Z.div_add by discriminate.
    rewrite (Z.div_small (pack_sum _ _)) by (split; [apply Hr|eapply Z.lt_le_trans; [apply Hr|auto]]).
    rewrite Z.add_0_l. apply Z.mod_small. change (2 ^ 2) with 4. lia.
  - rewrite Hv.
    etransitivity; [|apply (fields_pack_sum bits (firstn n ds) (dnib * 2 ^ (30 - bits * Z.of_nat n))); auto; lia].
    rewrite Hlen. f_equal.
    rewrite <- Z.mul_assoc, <- Z.pow_add_r by lia.
    replace (30 - bits * Z.of_nat n + bits * Z.of_nat n) with 30 by lia. lia.
Qed.

(** ** Control word *)

Lemma set_nibble_same ctl code w :
  In code [0;1;2;3] -> 1 <= w <= 15 -> extract ctl (30 - 2 * w) 2 = 0 ->
  extract (set_nibble ctl code w) (30 - 2 * w) 2 = code.
Proof.
  intros Hc Hw H. unfold extract, set_nibble in *.
  rewrite Z.shiftr_lor, Z.land_lor_distr_l, H, Z.lor_0_l.
  rewrite Z.shiftr_shiftl_l by lia. rewrite Z.sub_diag, Z.shiftl_0_r.
  simpl in Hc. intuition subst; reflexivity.
Qed.

Definition nib_sweep : bool :=
  forallb (fun code => forallb (fun w => forallb (fun w' =>
    (w =? w') || (extract (Z.shiftl code (30 - 2 * w)) (30 - 2 * w') 2 =? 0))
    (map Z.of_nat (seq 0 16))) (map Z.of_nat (seq 0 16))) [0;1;2;3].

Lemma nib_sweep_ok : nib_sweep = true.
Proof. vm_compute. reflexivity. Qed.

Lemma in_map_seq w : 0 <= w <= 15 -> In w (map Z.of_nat (seq 0 16)).
Proof. intros. apply in_map_iff. exists (Z.to_nat w). split; [lia|]. apply in_seq. lia. Qed.

Lemma set_nibble_other ctl code w w' :
  In code [0;1;2;3] -> 0 <= w <= 15 -> 0 <= w' <= 15 -> w <> w' ->
  extract (set_nibble ctl code w) (30 - 2 * w') 2 = extract ctl (30 - 2 * w') 2.
Proof.
  intros Hc Hw Hw' Hne. pose proof nib_sweep_ok as S. unfold nib_sweep in S.
  rewrite forallb_forall in S. specialize (S code Hc).
  rewrite forallb_forall in S. specialize (S w (in_map_seq w Hw)).
  rewrite forallb_forall in S. specialize (S w' (in_map_seq w' Hw')).
  apply orb_true_iff in S. destruct S as [S|S]; [lia|].
  apply Z.eqb_eq in S. unfold extract, set_nibble in *.
  rewrite Z.shiftr_lor, Z.land_lor_distr_l, S, Z.lor_0_r. reflexivity.
Qed.

Lemma set_nibble_range ctl code w :
  In code [0;1;2;3] -> 1 <= w <= 15 -> 0 <= ctl < 2 ^ 30 -> 0 <= set_nibble ctl code w < 2 ^ 30.
Proof.
  intros Hc Hw H. apply lor_bound; auto; [lia|].
  rewrite Z.shiftl_mul_pow2 by lia.
  assert (2 ^ (30 - 2 * w) <= 2 ^ 28) by (apply Z.pow_le_mono_r; lia).
  pose proof (pow2_pos (30 - 2 * w) ltac:(lia)).
  simpl in Hc. change (2 ^ 30) with (4 * 2 ^ 28). intuition subst; lia.
Qed.

(** ** Words *)

(** What a word packer must satisfy relative to the word decoder.  [bad d] says
    a difference cannot be packed. *)
Definition word_spec (wordf : list Z -> res (Z * list Z * nat))
           (diffsf : Z -> list Z -> res (list Z)) (max : nat) (good bad : Z -> Prop) : Prop :=
  forall ds, ds <> [] -> Forall int32 ds -> (length ds <= max)%nat ->
  match wordf ds with
  | Ok (code, img, n) =>
      In code [1;2;3] /\ length img = 4%nat /\ bytes_ok img /\
      (1 <= n <= length ds)%nat /\ diffsf code img = Ok (firstn n ds) /\
      Forall good (firstn n ds)
  | Err c => c = -1 /\ exists d t, ds = d :: t /\ bad d
  | _ => False
  end.

Lemma uwrap8_ok l : bytes_ok (map (uwrap 8) l).
Proof.
  apply Forall_forall. intros x Hx. apply in_map_iff in Hx. destruct Hx as [y [<- _]].
  apply (uwrap_range 8 y). lia.
Qed.

Lemma map_sx_uwrap l : Forall (in_s 8) l -> map (sx 8) (map (uwrap 8) l) = l.
Proof.
  induction 1 as [|x l Hx Hl IH]; [reflexivity|]. cbn [map]. rewrite IH. f_equal.
  apply sx_mod; auto; lia.
Qed.

Lemma s1_two hb1 sw1 hb2 sw2 d0 d1 :
  xorb hb1 sw1 = xorb hb2 sw2 -> in_s 16 d0 -> in_s 16 d1 ->
  s1_diffs hb2 sw2 2 (st hb1 sw1 2 d0 ++ st hb1 sw1 2 d1) = Ok [d0; d1].
Proof.
  intros Hx H0 H1. unfold s1_diffs. cbn [Z.eqb Pos.eqb].
  rewrite firstn_app_exact, skipn_app_exact by (now rewrite st_length).
  rewrite !ld_st by auto. change (8 * Z.of_nat 2) with 16.
  rewrite !sx_mod by (auto; lia). reflexivity.
Qed.

Lemma s1_word_spec hb1 sw1 hb2 sw2 :
  xorb hb1 sw1 = xorb hb2 sw2 ->
  word_spec (s1_word hb1 sw1) (s1_diffs hb2 sw2) 4 (fun _ => True) (fun _ => False).
Proof.
  intros Hx ds Hne HF Hl.
  assert (H2 : forall d0 d1 t, ds = d0 :: d1 :: t ->
     forallb (w_le 16) [d0; d1] = true ->
     In 2 [1;2;3] /\ length (st hb1 sw1 2 d0 ++ st hb1 sw1 2 d1) = 4%nat /\
     bytes_ok (st hb1 sw1 2 d0 ++ st hb1 sw1 2 d1) /\ (1 <= 2 <= length ds)%nat /\
     s1_diffs hb2 sw2 2 (st hb1 sw1 2 d0 ++ st hb1 sw1 2 d1) = Ok (firstn 2 ds) /\
     Forall (fun _ => True) (firstn 2 ds)).
  { intros d0 d1 t -> Hw. apply forallb_w_le in Hw; [|simpl; tauto].
    inversion Hw as [|? ? A B]; subst. inversion B as [|? ? C D]; subst.
    split; [simpl; tauto|]. rewrite app_length, !st_length. split; [reflexivity|].
    split; [apply Forall_app; split; apply st_ok|]. split; [simpl; lia|].
    split; [apply s1_two; auto|]. apply Forall_forall; auto. }
  assert (H1 : forall d0 t, ds = d0 :: t ->
     In 3 [1;2;3] /\ length (st hb1 sw1 4 d0) = 4%nat /\ bytes_ok (st hb1 sw1 4 d0) /\
     (1 <= 1 <= length ds)%nat /\ s1_diffs hb2 sw2 3 (st hb1 sw1 4 d0) = Ok (firstn 1 ds) /\
     Forall (fun _ => True) (firstn 1 ds)).
  { intros d0 t ->. inversion HF; subst. split; [simpl; tauto|]. rewrite st_length.
    split; [reflexivity|]. split; [apply st_ok|]. split; [simpl; lia|].
    split; [|apply Forall_forall; auto].
    unfold s1_diffs. cbn [Z.eqb Pos.eqb]. rewrite ld_st by auto.
    change (8 * Z.of_nat 4) with 32. rewrite sx_mod by (auto; lia). reflexivity. }
  destruct ds as [|d0 t]; [congruence|]. cbn [s1_word].
  destruct t as [|d1 t]; [apply (H1 d0 []); reflexivity|].
  destruct t as [|d2 t].
  { destruct (forallb (w_le 16) [d0; d1]) eqn:E; [eapply H2; eauto|eapply H1; eauto]. }
  destruct t as [|d3 t].
  { destruct (forallb (w_le 16) [d0; d1]) eqn:E; [eapply H2; eauto|eapply H1; eauto]. }
  destruct t as [|d4 t]; [|simpl in Hl; lia].
  destruct (forallb (w_le 8) [d0; d1; d2; d3]) eqn:E8.
  - apply forallb_w_le in E8; [|simpl; tauto].
    split; [simpl; tauto|]. split; [reflexivity|]. split; [apply uwrap8_ok|].
    split; [simpl; lia|]. split; [|apply Forall_forall; auto].
    unfold s1_diffs. cbn [Z.eqb Pos.eqb].
    rewrite map_sx_uwrap by auto. reflexivity.
  - destruct (forallb (w_le 16) [d0; d1]) eqn:E; [eapply H2; eauto|eapply H1; eauto].
Qed.

Lemma s2_try_spec bits n ds :
  In bits [4;5;6;8;10;15;16;30] -> s2_try bits n ds = true ->
  (n <= length ds)%nat /\ Forall (in_s bits) (firstn n ds).
Proof.
  intros Hb H. unfold s2_try in H. apply andb_true_iff in H. destruct H as [H1 H2].
  split; [lia|]. now apply forallb_w_le.
Qed.

Lemma in_s_fits30 bits l : 1 <= bits <= 30 -> Forall (in_s bits) l -> Forall fits30 l.
Proof.
  intros Hb. apply Forall_impl. intros d [H1 H2]. unfold fits30.
  assert (2 ^ (bits - 1) <= 2 ^ 29) by (apply Z.pow_le_mono_r; lia). lia.
Qed.

Lemma s2_case hb1 sw1 hb2 sw2 ds code bits dnib n :
  xorb hb1 sw1 = xorb hb2 sw2 ->
  In (code, bits, dnib, n) [(3,4,2,7%nat);(3,5,1,6%nat);(3,6,0,5%nat);(2,10,3,3%nat);(2,15,2,2%nat);(2,30,1,1%nat)] ->
  (n <= length ds)%nat -> Forall (in_s bits) (firstn n ds) ->
  In code [1;2;3] /\ length (s2_img hb1 sw1 bits dnib n ds) = 4%nat /\
  bytes_ok (s2_img hb1 sw1 bits dnib n ds) /\ (1 <= n <= length ds)%nat /\
  s2_diffs hb2 sw2 code (s2_img hb1 sw1 bits dnib n ds) = Ok (firstn n ds) /\
  Forall fits30 (firstn n ds).
Proof.
  intros Hx Hin Hl HF.
  assert (B : 1 <= bits <= 32 /\ 0 <= dnib < 4 /\ bits * Z.of_nat n <= 30 /\ (1 <= n)%nat /\ In code [1;2;3]).
  { simpl in Hin. repeat (destruct Hin as [E|Hin]; [inversion E; subst; simpl; intuition lia|]). destruct Hin. }
  destruct B as (B1 & B2 & B3 & B4 & B5).
  destruct (s2_img_decode hb1 sw1 hb2 sw2 bits dnib n ds Hx B1 B2 B3 Hl HF) as [E1 E2].
  split; [auto|]. split; [apply st_length|]. split; [apply st_ok|]. split; [lia|].
  split; [|eapply in_s_fits30; [|apply HF]; nia].
  unfold s2_diffs. cbv zeta. rewrite E1.
  simpl in Hin.
  repeat (destruct Hin as [E|Hin]; [inversion E; subst; cbn [Z.eqb Pos.eqb]; now rewrite E2|]).
  destruct Hin.
Qed.

Lemma s2_word_spec hb1 sw1 hb2 sw2 :
  xorb hb1 sw1 = xorb hb2 sw2 ->
  word_spec (s2_word hb1 sw1) (s2_diffs hb2 sw2) 7 fits30 (fun d => ~ fits30 d).
Proof.
  intros Hx ds Hne HF Hl. unfold s2_word.
  destruct ((length ds =? 7)%nat && forallb (w_le 4) ds) eqn:E7.
  { apply andb_true_iff in E7. destruct E7 as [L7 W7].
    apply s2_case; auto; [simpl; tauto|lia|].
    apply Forall_firstn. apply forallb_w_le; simpl; auto. }
  destruct (s2_try 5 6 ds) eqn:E6.
  { apply s2_try_spec in E6; [|simpl; tauto]. apply s2_case; try tauto; simpl; tauto. }
  destruct (s2_try 6 5 ds) eqn:E5.
  { apply s2_try_spec in E5; [|simpl; tauto]. apply s2_case; try tauto; simpl; tauto. }
  destruct (s2_try 8 4 ds) eqn:E4.
  { apply s2_try_spec in E4; [|simpl; tauto]. destruct E4 as [L4 F4].
    split; [simpl; tauto|]. rewrite map_length, firstn_length. split; [lia|].
    split; [apply uwrap8_ok|]. split; [lia|].
    split; [|eapply in_s_fits30; [|apply F4]; lia].
    unfold s2_diffs. cbn [Z.eqb Pos.eqb]. now rewrite map_sx_uwrap. }
  destruct (s2_try 10 3 ds) eqn:E3.
  { apply s2_try_spec in E3; [|simpl; tauto]. apply s2_case; try tauto; simpl; tauto. }
  destruct (s2_try 15 2 ds) eqn:E2.
  { apply s2_try_spec in E2; [|simpl; tauto]. apply s2_case; try tauto; simpl; tauto. }
  destruct (s2_try 30 1 ds) eqn:E1.
  { apply s2_try_spec in E1; [|simpl; tauto]. apply s2_case; try tauto; simpl; tauto. }
  split; [reflexivity|]. destruct ds as [|d t]; [congruence|].
  exists d, t. split; [reflexivity|]. rewrite <- fits30_w_le. intros Hw.
  unfold s2_try in E1. cbn [length Nat.leb firstn forallb andb] in E1. rewrite Hw in E1.
  discriminate.
Qed.

(** ** The encoder loop *)

Definition pend (s : est) : list Z := e_ds s ++ wdiffs (e_prev s) (e_rest s).

Lemma sarith_sub m x p l : arith_ok m p (x :: l) -> sarith m 32 (x - p) = Ok (swrap 32 (x - p)).
Proof.
  intros [->|H]; [apply sarith_wrap; lia|].
  cbn [diffs_of] in H. inversion H; subst. rewrite sarith_ok by auto. rewrite swrap_id; auto. lia.
Qed.

Lemma arith_ok_tl m x p l : arith_ok m p (x :: l) -> arith_ok m x l.
Proof. intros [->|H]; [left; auto|right]. cbn [diffs_of] in H. inversion H; auto. Qed.

Lemma arith_ok_skipn m j : forall p l, (j <= length l)%nat -> arith_ok m p l ->
  arith_ok m (last (firstn j l) p) (skipn j l).
Proof.
  induction j as [|j IH]; intros p l Hj H; [exact H|].
  destruct l as [|x l]; [simpl in Hj; lia|]. cbn [firstn skipn]. rewrite last_cons.
  apply IH; [simpl in Hj; lia|]. eapply arith_ok_tl; eauto.
Qed.

Lemma wdiffs_int32 p l : Forall int32 (wdiffs p l).
Proof. revert p; induction l; intros; constructor; auto. apply swrap_range; lia. Qed.

Definition stok (m : ovmode) (s : est) : Prop :=
  Forall int32 (pend s) /\ arith_ok m (e_prev s) (e_rest s).

Lemma refill_spec m room prev rest ds :
  arith_ok m prev rest ->
  exists p r d, refill m room prev rest ds = Ok (p, r, d) /\ arith_ok m p r /\
    d ++ wdiffs p r = ds ++ wdiffs prev rest /\
    (length ds <= length d <= length ds + room)%nat /\
    (room <> 0%nat -> rest <> [] -> d <> []).
Proof.
  revert prev rest ds. induction room as [|room IH]; intros prev rest ds HF; cbn [refill].
  { exists prev, rest, ds. repeat split; auto; try lia; congruence. }
  destruct rest as [|x rest]; [exists prev, [], ds; repeat split; auto; try lia; congruence|].
  rewrite (sarith_sub m x prev rest HF). cbn [bind].
  destruct (IH x rest (ds ++ [swrap 32 (x - prev)]) (arith_ok_tl _ _ _ _ HF)) as (p & r & d & E & Hr & Ea & El & _).
  rewrite E. exists p, r, d. rewrite app_length in El. cbn [length] in El.
  repeat split; auto; try lia.
  - rewrite Ea, <- app_assoc. reflexivity.
  - intros _ _ ->. simpl in El. lia.
Qed.

Lemma refill_to_spec m max s :
  stok m s -> (length (e_ds s) <= max)%nat -> (1 <= max)%nat ->
  exists s1, refill_to m max s = Ok s1 /\ arith_ok m (e_prev s1) (e_rest s1) /\ pend s1 = pend s /\ e_out s1 = e_out s /\
    (length (e_ds s1) <= max)%nat /\ (pend s <> [] -> e_ds s1 <> []).
Proof.
  intros [_ HF] Hl Hm. unfold refill_to.
  destruct (Nat.ltb_spec (length (e_ds s)) max) as [Hlt|Hge].
  - destruct (refill_spec m (max - length (e_ds s)) (e_prev s) (e_rest s) (e_ds s) HF)
      as (p & r & d & E & Hr & Ea & El & Hn).
    rewrite E. cbn [bind]. eexists. split; [reflexivity|]. unfold pend. cbn [e_ds e_prev e_rest e_out].
    repeat split; auto; try lia.
    intros Hp Hd. destruct (e_rest s) as [|x rs] eqn:Er.
    + cbn [wdiffs] in *. rewrite app_nil_r in Hp. subst d. simpl in El.
      destruct (e_ds s); [congruence|simpl in El; lia].
    + apply Hn in Hd; auto; [lia|congruence].
  - exists s. repeat split; auto. intros _ Hd. rewrite Hd in Hge. simpl in Hge. lia.
Qed.

Lemma extract_0_len w : extract 0 w 2 = 0.
Proof. unfold extract. rewrite Z.shiftr_0_l. reflexivity. Qed.

Section Loops.
  Variable wordf : list Z -> res (Z * list Z * nat).
  Variable diffsf : Z -> list Z -> res (list Z).
  Variable max : nat.
  Variables good bad : Z -> Prop.
  Variable m : ovmode.
  Hypothesis max1 : (1 <= max)%nat.
  Hypothesis WS : word_spec wordf diffsf max good bad.
  Hypothesis zero_word : forall w, diffsf 0 w = Ok [].

  Definition clear_from (ctl widx : Z) : Prop :=
    forall w, widx <= w <= 15 -> extract ctl (30 - 2 * w) 2 = 0.

  Lemma dec_zero_words dmax ctl widx acc ws :
    acc <= dmax -> clear_from ctl widx -> widx + Z.of_nat (length ws) <= 16 ->
    dec_words diffsf dmax ctl widx acc ws = Ok [].
  Proof.
    revert widx. induction ws as [|w ws IH]; intros widx Ha Hc Hw; [reflexivity|].
    cbn [dec_words length] in *. rewrite Hc by lia. rewrite zero_word. cbn [bind length app].
    replace (acc + Z.of_nat 0) with acc by lia.
    destruct (Z.ltb_spec dmax acc); [lia|].
    rewrite IH; auto; [|lia].
    - intros w' Hw'. apply Hc; lia.
  Qed.

  (** Every word loop step consumes a prefix of the pending differences and the
      decoder recovers exactly that prefix. *)
  Lemma enc_words_spec cnt k : forall widx ctl s,
    1 <= widx -> widx + Z.of_nat k <= 16 ->
    0 <= ctl < 2 ^ 30 -> clear_from ctl widx ->
    stok m s -> (length (e_ds s) <= max)%nat ->
    e_out s + Z.of_nat (length (pend s)) = cnt ->
    match enc_words wordf m max cnt k widx ctl s with
    | Ok (ctl', imgs, s') =>
        exists j, (j <= length (pend s))%nat /\
          stok m s' /\ pend s' = skipn j (pend s) /\ e_out s' = e_out s + Z.of_nat j /\
          (length (e_ds s') <= max)%nat /\
          length imgs = (4 * k)%nat /\ bytes_ok imgs /\ 0 <= ctl' < 2 ^ 30 /\
          (forall w, 0 <= w < widx -> extract ctl' (30 - 2 * w) 2 = extract ctl (30 - 2 * w) 2) /\
          (k <> 0%nat -> pend s <> [] -> (1 <= j)%nat) /\
          (forall dmax acc rest, acc + Z.of_nat (max * k) <= dmax ->
             dec_words diffsf dmax ctl' widx acc (chunks 4 k (imgs ++ rest)) = Ok (firstn j (pend s))) /\
          Forall good (firstn j (pend s))
    | Err c => c = -1 /\ exists j d, nth_error (pend s) j = Some d /\ bad d
    | _ => False
    end.
  Proof.
    induction k as [|k IH]; intros widx ctl s Hw1 Hw Hctl Hclr HF Hl Hcnt; cbn [enc_words].
    { exists 0%nat. cbn [skipn firstn chunks dec_words length Nat.mul].
      repeat split; auto; try apply HF; try lia; try congruence; constructor. }
    destruct (Z.ltb_spec (e_out s) cnt) as [Hlt|Hge].
    2:{ assert (Hp : pend s = []) by (destruct (pend s); [auto|simpl in Hcnt; lia]).
        exists 0%nat. rewrite Hp. cbn [skipn firstn length].
        rewrite repeat_length.
        repeat split; auto; try apply HF; try lia; try congruence.
        - apply Forall_repeat. unfold byte_ok; lia.
        - intros dmax acc rest Ha. apply dec_zero_words; auto.
          + lia.
          + rewrite chunks_length. lia. }
    destruct (refill_to_spec m max s HF Hl max1) as (s1 & E1 & A1 & P1 & O1 & L1 & N1).
    rewrite E1. cbn [bind].
    assert (Hpne : pend s <> []) by (intros E; rewrite E in Hcnt; simpl in Hcnt; lia).
    specialize (N1 Hpne).
    assert (HF1 : Forall int32 (e_ds s1)).
    { destruct HF as [HF _]. rewrite <- P1 in HF. unfold pend in HF. apply Forall_app in HF. tauto. }
    pose proof (WS (e_ds s1) N1 HF1 L1) as W.
    destruct (wordf (e_ds s1)) as [[[code img] n]|c|u|] eqn:Ew; cbn [bind]; try tauto.
    2:{ destruct W as [-> (d & t & Ed & Hb)]. split; [reflexivity|]. exists 0%nat, d.
        split; auto. rewrite <- P1. unfold pend. rewrite Ed. reflexivity. }
    destruct W as (Wc & Wl & Wb & Wn & Wd & Wg).
    assert (Wc' : In code [0;1;2;3]) by (simpl in *; tauto).
    set (s2 := mk_est (e_prev s1) (e_rest s1) (skipn n (e_ds s1)) (e_out s1 + Z.of_nat n)) in *.
    assert (P2 : pend s2 = skipn n (pend s)).
    { rewrite <- P1. unfold pend, s2. cbn [e_ds e_prev e_rest]. rewrite skipn_app.
      replace (n - length (e_ds s1))%nat with 0%nat by lia. reflexivity. }
    assert (Hn : (n <= length (pend s))%nat).
    { rewrite <- P1. unfold pend. rewrite app_length. lia. }
    assert (Hfn : firstn n (pend s) = firstn n (e_ds s1)).
    { rewrite <- P1. unfold pend. rewrite firstn_app.
      replace (n - length (e_ds s1))%nat with 0%nat by lia. cbn [firstn]. apply app_nil_r. }
    specialize (IH (widx + 1) (set_nibble ctl code widx) s2).
    assert (Hsame : extract (set_nibble ctl code widx) (30 - 2 * widx) 2 = code).
    { apply set_nibble_same; auto; [lia|]. apply Hclr; lia. }
    assert (IHpre : match enc_words wordf m max cnt k (widx + 1) (set_nibble ctl code widx) s2 with
    | Ok (ctl', imgs, s') =>
        exists j, (j <= length (pend s2))%nat /\
          stok m s' /\ pend s' = skipn j (pend s2) /\ e_out s' = e_out s2 + Z.of_nat j /\
          (length (e_ds s') <= max)%nat /\
          length imgs = (4 * k)%nat /\ bytes_ok imgs /\ 0 <= ctl' < 2 ^ 30 /\
          (forall w, 0 <= w < widx + 1 -> extract ctl' (30 - 2 * w) 2 =
              extract (set_nibble ctl code widx) (30 - 2 * w) 2) /\
          (k <> 0%nat -> pend s2 <> [] -> (1 <= j)%nat) /\
          (forall dmax acc rest, acc + Z.of_nat (max * k) <= dmax ->
             dec_words diffsf dmax ctl' (widx + 1) acc (chunks 4 k (imgs ++ rest)) = Ok (firstn j (pend s2))) /\
          Forall good (firstn j (pend s2))
    | Err c => c = -1 /\ exists j d, nth_error (pend s2) j = Some d /\ bad d
    | _ => False
    end).
    { apply IH; clear IH.
      - lia.
      - lia.
      - apply set_nibble_range; auto; lia.
      - intros w Hww. rewrite set_nibble_other by (auto; lia). apply Hclr; lia.
      - split; [rewrite P2; apply Forall_skipn, HF|exact A1].
      - unfold s2; cbn [e_ds]. rewrite skipn_length. lia.
      - rewrite P2, skipn_length. unfold s2; cbn [e_out]. lia. }
    clear IH.
    destruct (enc_words wordf m max cnt k (widx + 1) (set_nibble ctl code widx) s2)
      as [[[ctl' imgs] s']|c|u|]; cbn [bind]; try tauto.
    2:{ destruct IHpre as [-> (j & d & Hj & Hb)]. split; [reflexivity|].
        exists (n + j)%nat, d. split; auto. rewrite P2 in Hj.
        rewrite <- (firstn_skipn n (pend s)), nth_error_app2; rewrite firstn_length; [|lia].
        rewrite Nat.min_l by lia. replace (n + j - n)%nat with j by lia. exact Hj. }
    destruct IHpre as (j & J1 & J0 & J2 & J3 & J4 & J5 & J6 & J7 & J8 & J9 & J10 & J11).
    exists (n + j)%nat.
    assert (Hlen2 : length (pend s2) = (length (pend s) - n)%nat) by (rewrite P2, skipn_length; auto).
    repeat split; try apply J0; try lia.
    - rewrite J2, P2, skipn_skipn. f_equal; lia.
    - rewrite J3. unfold s2; cbn [e_out]. lia.
    - rewrite app_length, Wl, J5. lia.
    - apply Forall_app; auto.
    - intros w Hww. rewrite J8 by lia. apply set_nibble_other; auto; lia.
    - intros dmax acc rest Ha. rewrite <- app_assoc, chunks_app by auto.
      cbn [dec_words]. rewrite J8 by lia. rewrite Hsame, Wd. cbn [bind].
      assert (Hfl : length (firstn n (e_ds s1)) = n) by (rewrite firstn_length; lia).
      rewrite Hfl.
      destruct (Z.ltb_spec dmax (acc + Z.of_nat n)) as [Hbad|_].
      { assert (n <= max)%nat by lia. nia. }
      rewrite J10 by nia. cbn [bind].
      rewrite P2, <- Hfn, <- firstn_plus. reflexivity.
    - rewrite firstn_plus, Hfn, <- P2. apply Forall_app; auto.
  Qed.

End Loops.

(** ** Reconstructing samples from differences *)

Lemma wdiffs_length p l : length (wdiffs p l) = length l.
Proof. revert p; induction l; intros; simpl; auto. Qed.

Lemma wdiffs_skipn j p l :
  (j <= length l)%nat -> skipn j (wdiffs p l) = wdiffs (last (firstn j l) p) (skipn j l).
Proof.
  revert p l. induction j as [|j IH]; intros p l H; [reflexivity|].
  destruct l as [|x l]; [simpl in H; lia|]. cbn [wdiffs skipn firstn].
  rewrite IH by (simpl in H; lia). now rewrite last_cons.
Qed.

Lemma swrap_add_sub x p : int32 x -> swrap 32 (p + swrap 32 (x - p)) = x.
Proof.
  intros Hx. rewrite <- (swrap_id 32 x) at 2 by (auto; lia). unfold swrap at 1 3.
  replace ((p + swrap 32 (x - p)) mod 2 ^ 32) with (x mod 2 ^ 32); [reflexivity|].
  unfold swrap. destruct ((x - p) mod 2 ^ 32 <? 2 ^ (32 - 1)); lia.
Qed.

Lemma sarith_add m x p l : int32 x -> arith_ok m p (x :: l) ->
  sarith m 32 (p + swrap 32 (x - p)) = Ok x.
Proof.
  intros Hx [->|H].
  - rewrite sarith_wrap by lia. now rewrite swrap_add_sub.
  - cbn [diffs_of] in H. inversion H; subst. rewrite swrap_id by (auto; lia).
    replace (p + (x - p)) with x by lia. now apply sarith_ok.
Qed.

Lemma apply_diffs_spec m j : forall p l need ocap,
  Forall int32 l -> arith_ok m p l -> (j <= length l)%nat -> Z.of_nat j <= need -> Z.of_nat j <= ocap ->
  apply_diffs m need ocap p (firstn j (wdiffs p l)) = Ok (firstn j l).
Proof.
  induction j as [|j IH]; intros p l need ocap HF HA Hj Hn Ho; [reflexivity|].
  destruct l as [|x l]; [simpl in Hj; lia|]. cbn [wdiffs firstn apply_diffs].
  destruct (Z.leb_spec need 0); [lia|]. destruct (Z.leb_spec ocap 0); [lia|].
  inversion HF; subst. rewrite (sarith_add m x p l) by auto. cbn [bind].
  rewrite IH; [reflexivity|auto|eapply arith_ok_tl; eauto|simpl in Hj; lia|lia|lia].
Qed.

Lemma last_firstn_int32 j l p : Forall int32 l -> int32 p -> int32 (last (firstn j l) p).
Proof.
  revert l p. induction j as [|j IH]; intros l p Hl Hp; [auto|].
  destruct l as [|x l]; [auto|]. cbn [firstn]. rewrite last_cons.
  inversion Hl; subst. apply IH; auto.
Qed.

(** ** Frames *)

Section Frames.
  Variable wordf : bool -> bool -> list Z -> res (Z * list Z * nat).
  Variable diffsf : bool -> bool -> Z -> list Z -> res (list Z).
  Variable max : nat.
  Variable dmax : Z.
  Variables good bad : Z -> Prop.
  Variables hb1 sw1 hb2 sw2 : bool.
  Variables m1 m2 : ovmode.
  Hypothesis Hx : xorb hb1 sw1 = xorb hb2 sw2.
  Hypothesis max1 : (1 <= max)%nat.
  Hypothesis dmax_ok : Z.of_nat (max * 15) <= dmax.
  Hypothesis WS : word_spec (wordf hb1 sw1) (diffsf hb2 sw2) max good bad.
  Hypothesis zero_word : forall w, diffsf hb2 sw2 0 w = Ok [].

  Lemma ld_ctl ctl : 0 <= ctl < 2 ^ 30 -> ld hb2 sw2 (st hb1 sw1 4 ctl) = ctl.
  Proof. intros H. rewrite ld_st by auto. change (8 * Z.of_nat 4) with 32. apply Z.mod_small. lia. Qed.

  Lemma enc_frames_spec cnt frames : forall s p R,
    pend s = wdiffs p R -> Forall int32 R -> arith_ok m2 p R -> stok m1 s ->
    (length (e_ds s) <= max)%nat ->
    e_out s + Z.of_nat (length (pend s)) = cnt ->
    match enc_frames (wordf hb1 sw1) hb1 sw1 m1 max cnt frames s with
    | Ok (out, s') =>
        exists j g, (j <= length R)%nat /\ e_out s' = e_out s + Z.of_nat j /\
          (g <= frames)%nat /\ length out = (64 * g)%nat /\ bytes_ok out /\
          (e_out s' < cnt -> g = frames) /\ Forall good (firstn j (pend s)) /\
          forall tail ocap gf, (g <= gf)%nat -> (64 * gf <= length (out ++ tail))%nat ->
            Z.of_nat j <= ocap ->
            dec_frames diffsf dmax hb2 sw2 m2 gf (out ++ tail) (Z.of_nat j) ocap p = Ok (firstn j R)
    | Err c => c = -1 /\ exists j d, nth_error (pend s) j = Some d /\ bad d
    | _ => False
    end.
  Proof.
    induction frames as [|f IH]; intros s p R HP HR HA HF Hl Hcnt; cbn [enc_frames].
    { exists 0%nat, 0%nat. repeat split; auto; try lia; try constructor.
      intros tail ocap gf _ _ _. destruct gf; reflexivity. }
    destruct (Z.ltb_spec (e_out s) cnt) as [Hlt|Hge].
    2:{ exists 0%nat, 0%nat. repeat split; auto; try lia; try constructor.
        intros tail ocap gf _ _ _. destruct gf; reflexivity. }
    pose proof (enc_words_spec (wordf hb1 sw1) (diffsf hb2 sw2) max good bad m1 max1 WS zero_word
                  cnt 15 1 0 s ltac:(lia) ltac:(lia) ltac:(lia)
                  (fun w _ => extract_0_len _) HF Hl Hcnt) as W.
    destruct (enc_words (wordf hb1 sw1) m1 max cnt 15 1 0 s) as [[[ctl imgs] s1]|c|u|]; cbn [bind]; try tauto.
    destruct W as (j1 & J1 & J0 & J2 & J3 & J4 & J5 & J6 & J7 & _ & J9 & J10 & J11).
    assert (Hlp : length (pend s) = length R) by (rewrite HP; apply wdiffs_length).
    assert (HP1 : pend s1 = wdiffs (last (firstn j1 R) p) (skipn j1 R)).
    { rewrite J2, HP. apply wdiffs_skipn. lia. }
    assert (Hpne : pend s <> []) by (intros E; rewrite E in Hcnt; simpl in Hcnt; lia).
    specialize (J9 ltac:(lia) Hpne).
    specialize (IH s1 (last (firstn j1 R) p) (skipn j1 R) HP1 (Forall_skipn _ _ _ HR)
                    (arith_ok_skipn m2 j1 p R ltac:(lia) HA)).
    assert (IH' : match enc_frames (wordf hb1 sw1) hb1 sw1 m1 max cnt f s1 with
    | Ok (out, s') =>
        exists j g, (j <= length (skipn j1 R))%nat /\ e_out s' = e_out s1 + Z.of_nat j /\
          (g <= f)%nat /\ length out = (64 * g)%nat /\ bytes_ok out /\
          (e_out s' < cnt -> g = f) /\ Forall good (firstn j (pend s1)) /\
          forall tail ocap gf, (g <= gf)%nat -> (64 * gf <= length (out ++ tail))%nat ->
            Z.of_nat j <= ocap ->
            dec_frames diffsf dmax hb2 sw2 m2 gf (out ++ tail) (Z.of_nat j) ocap
                       (last (firstn j1 R) p) = Ok (firstn j (skipn j1 R))
    | Err c => c = -1 /\ exists j d, nth_error (pend s1) j = Some d /\ bad d
    | _ => False
    end).
    { apply IH; auto.
      - rewrite J2, skipn_length. lia. }
    clear IH.
    destruct (enc_frames (wordf hb1 sw1) hb1 sw1 m1 max cnt f s1) as [[out s2]|c|u|]; cbn [bind]; try tauto.
    2:{ destruct IH' as [-> (j & d & Hj & Hb)]. split; [reflexivity|].
        exists (j1 + j)%nat, d. split; auto. rewrite J2 in Hj.
        rewrite <- (firstn_skipn j1 (pend s)), nth_error_app2; rewrite firstn_length; [|lia].
        rewrite Nat.min_l by lia. replace (j1 + j - j1)%nat with j by lia. exact Hj. }
    destruct IH' as (j2 & g & K1 & K2 & K3 & K4 & K5 & K6 & K8 & K7).
    rewrite skipn_length in K1.
    exists (j1 + j2)%nat, (S g). repeat split; try lia.
    - rewrite !app_length, st_length, J5, K4. lia.
    - apply Forall_app; split; [apply st_ok|]. apply Forall_app; auto.
    - rewrite firstn_plus, <- J2. apply Forall_app; auto.
    - intros tail ocap gf Hg Htl Ho. destruct gf as [|gf]; [lia|]. cbn [dec_frames].
      destruct (Z.leb_spec (Z.of_nat (j1 + j2)) 0) as [Hz|_]; [lia|].
      unfold slice.
      assert (L64 : length (st hb1 sw1 4 ctl ++ imgs) = 64%nat)
        by (rewrite app_length, st_length, J5; reflexivity).
      replace ((st hb1 sw1 4 ctl ++ imgs ++ out) ++ tail)
        with ((st hb1 sw1 4 ctl ++ imgs) ++ (out ++ tail)) in * by (rewrite <- !app_assoc; reflexivity).
      destruct (Nat.leb_spec (0 + 64) (length ((st hb1 sw1 4 ctl ++ imgs) ++ out ++ tail))) as [_|Hb].
      2:{ rewrite app_length, L64 in Hb. lia. }
      rewrite skipn_O. cbn [bind]. rewrite firstn_app_exact by auto.
      unfold frame_words. rewrite <- (app_nil_r imgs) at 1. rewrite chunks_app by apply st_length.
      rewrite ld_ctl by auto. rewrite J10 by lia. cbn [bind].
      rewrite HP, apply_diffs_spec by (auto; lia). cbn [bind].
      rewrite firstn_length_le by lia.
      rewrite skipn_app_exact by auto.
      replace (Z.of_nat (j1 + j2) - Z.of_nat j1) with (Z.of_nat j2) by lia.
      rewrite K7; try lia.
      + cbn [bind]. now rewrite <- firstn_plus.
      + rewrite (app_length (st hb1 sw1 4 ctl ++ imgs) (out ++ tail)), L64 in Htl. lia.
  Qed.

  Lemma steim_roundtrip_gen samples cap diff0 :
    compressible m1 samples -> compressible m2 samples -> int32 diff0 -> 64 <= cap ->
    match steim_encode wordf max hb1 sw1 m1 samples cap diff0 with
    | Ok (n, bytes) =>
        1 <= n <= Z.of_nat (length samples) /\
        (exists g, (1 <= g)%nat /\ length bytes = (64 * g)%nat /\ Z.of_nat (length bytes) <= cap /\
           (n < Z.of_nat (length samples) -> Z.of_nat g = cap / 64)) /\
        bytes_ok bytes /\
        Forall good (firstn (Z.to_nat n) (stored_diffs diff0 samples)) /\
        forall tail inlen ocap,
          Z.of_nat (length bytes) <= inlen <= Z.of_nat (length (bytes ++ tail)) ->
          4 * n <= ocap -> n < 2 ^ 62 ->
          steim_decode diffsf dmax hb2 sw2 m2 (bytes ++ tail) inlen n ocap =
            Ok (firstn (Z.to_nat n) samples, false)
    | Err c => c = -1 /\
        exists j d, nth_error (stored_diffs diff0 samples) j = Some d /\ bad d
    | _ => False
    end.
  Proof.
    intros [HS HD] [_ HD2] Hd0 Hcap. destruct samples as [|x0 rest]; [destruct HD|].
    cbn [stored_diffs]. unfold steim_encode.
    destruct (Z.eqb_spec cap 0); [lia|].
    destruct (Z.to_nat (cap / 64)) as [|f] eqn:Ef; [exfalso; lia|].
    set (cnt := Z.of_nat (length (x0 :: rest))).
    set (s0 := mk_est x0 rest [diff0] 0).
    assert (HP0 : pend s0 = diff0 :: wdiffs x0 rest) by reflexivity.
    assert (HF0 : stok m1 s0) by (split; [rewrite HP0; constructor; auto; apply wdiffs_int32|exact HD]).
    assert (Hc0 : e_out s0 + Z.of_nat (length (pend s0)) = cnt).
    { rewrite HP0. cbn [length]. rewrite wdiffs_length. unfold cnt. reflexivity. }
    pose proof (enc_words_spec (wordf hb1 sw1) (diffsf hb2 sw2) max good bad m1 max1 WS zero_word
                  cnt 13 3 0 s0 ltac:(lia) ltac:(lia) ltac:(lia)
                  (fun w _ => extract_0_len _) HF0 ltac:(simpl; lia) Hc0) as W.
    destruct (enc_words (wordf hb1 sw1) m1 max cnt 13 3 0 s0) as [[[ctl imgs] s1]|c|u|]; cbn [bind]; try tauto.
    destruct W as (j1 & J1 & J0 & J2 & J3 & J4 & J5 & J6 & J7 & _ & J9 & J10 & J11).
    specialize (J9 ltac:(lia) ltac:(rewrite HP0; congruence)).
    rewrite HP0 in J1. cbn [length] in J1. rewrite wdiffs_length in J1.
    destruct j1 as [|j1]; [lia|].
    assert (HP1 : pend s1 = wdiffs (last (firstn j1 rest) x0) (skipn j1 rest)).
    { rewrite J2, HP0. cbn [skipn]. apply wdiffs_skipn. lia. }
    inversion HS as [|? ? Hx0 Hrest]; subst.
    pose proof (enc_frames_spec cnt f s1 (last (firstn j1 rest) x0) (skipn j1 rest) HP1
                  (Forall_skipn _ _ _ Hrest) (arith_ok_skipn m2 j1 x0 rest ltac:(lia) HD2)) as F.
    assert (Hc1 : e_out s1 + Z.of_nat (length (pend s1)) = cnt).
    { rewrite J2, skipn_length, HP0. cbn [length]. rewrite wdiffs_length, J3. unfold cnt, s0.
      cbn [e_out length]. lia. }
    specialize (F J0 J4 Hc1).
    destruct (enc_frames (wordf hb1 sw1) hb1 sw1 m1 max cnt f s1) as [[out s2]|c|u|]; cbn [bind]; try tauto.
    2:{ destruct F as [-> (j & d & Hj & Hb)]. split; [reflexivity|].
        exists (S j1 + j)%nat, d. split; auto. rewrite J2 in Hj.
        rewrite HP0 in Hj. cbn [skipn] in Hj. cbn [Nat.add nth_error].
        rewrite <- (firstn_skipn j1 (wdiffs x0 rest)), nth_error_app2; rewrite firstn_length, wdiffs_length; [|lia].
        rewrite Nat.min_l by lia. replace (j1 + j - j1)%nat with j by lia. exact Hj. }
    destruct F as (j2 & g & K1 & K2 & K3 & K4 & K5 & K6 & K8 & K7).
    rewrite skipn_length in K1.
    assert (Eout : e_out s2 = Z.of_nat (S j1 + j2)).
    { rewrite K2, J3. unfold s0; cbn [e_out]. lia. }
    unfold getZ. destruct (Z.leb_spec 0 (e_out s2 - 1)) as [_|Hb]; [|lia].
    replace (Z.to_nat (e_out s2 - 1)) with (j1 + j2)%nat by lia.
    destruct (nth_error (x0 :: rest) (j1 + j2)) as [xn|] eqn:Exn.
    2:{ apply nth_error_None in Exn. cbn [length] in Exn. lia. }
    cbn [bind].
    assert (Hxn : last (firstn (S j1 + j2) (x0 :: rest)) x0 = xn).
    { assert (G : forall k l d, nth_error l k = Some xn -> last (firstn (S k) l) d = xn).
      { clear. induction k as [|k IH]; intros l d H; destruct l as [|y l]; try discriminate.
        - simpl in *. congruence.
        - cbn [nth_error] in H. change (firstn (S (S k)) (y :: l)) with (y :: firstn (S k) l).
          rewrite last_cons. auto. }
      cbn [Nat.add]. apply G; auto. }
    assert (Hxn32 : int32 xn).
    { apply nth_error_In in Exn. rewrite Forall_forall in HS. auto. }
    set (h1 := st hb1 sw1 4 x0). set (h2 := st hb1 sw1 4 xn). set (h0 := st hb1 sw1 4 ctl).
    assert (L64 : length (h0 ++ h1 ++ h2 ++ imgs) = 64%nat).
    { unfold h0, h1, h2. rewrite !app_length, !st_length, J5. reflexivity. }
    replace (h0 ++ h1 ++ h2 ++ imgs ++ out) with ((h0 ++ h1 ++ h2 ++ imgs) ++ out)
      by (rewrite <- !app_assoc; reflexivity).
    rewrite Eout. fold cnt in K6. split; [unfold cnt; cbn [length]; lia|].
    split; [|split; [|split]].
    - exists (S g). rewrite app_length, L64, K4. repeat split; try lia.
    - apply Forall_app; split; auto. unfold h0, h1, h2.
      repeat (apply Forall_app; split); auto; apply st_ok.
    - rewrite Nat2Z.id, <- HP0, firstn_plus, <- J2. apply Forall_app; auto.
    - intros tail inlen ocap Hin Hoc Hn62. unfold steim_decode.
      rewrite app_length, L64, K4 in Hin.
      destruct (Z.to_nat (inlen / 64)) as [|gf] eqn:Eg; [exfalso; lia|].
      destruct (Z.eqb_spec ocap 0); [lia|].
      unfold uwrap. rewrite Z.mod_small by lia.
      destruct (Z.ltb_spec ocap (Z.of_nat (S j1 + j2) * 4)); [lia|].
      destruct (Z.leb_spec (Z.of_nat (S j1 + j2)) 0); [lia|].
      unfold slice. rewrite <- app_assoc in *.
      destruct (Nat.leb_spec (0 + 64) (length ((h0 ++ h1 ++ h2 ++ imgs) ++ out ++ tail))) as [_|Hb].
      2:{ rewrite app_length, L64 in Hb. lia. }
      rewrite skipn_O. cbn [bind]. rewrite firstn_app_exact by auto.
      unfold frame_words. rewrite <- (app_nil_r imgs) at 1.
      unfold h0, h1, h2 at 1. rewrite !chunks_app by apply st_length.
      destruct (Z.leb_spec (ocap / 4) 0); [lia|].
      rewrite ld_ctl by auto. rewrite J10 by lia. cbn [bind].
      rewrite HP0. cbn [firstn tl]. rewrite !ld_st by auto.
      change (8 * Z.of_nat 4) with 32. rewrite !sx_mod by (auto; lia).
      rewrite apply_diffs_spec by (auto; lia). cbn [bind].
      rewrite firstn_length_le by lia.
      rewrite skipn_app_exact by auto.
      replace (Z.of_nat (S j1 + j2) - 1 - Z.of_nat j1) with (Z.of_nat j2) by lia.
      rewrite K7; try lia.
      2:{ rewrite (app_length (h0 ++ h1 ++ h2 ++ imgs)), L64 in Hin. lia. }
      cbn [bind]. rewrite <- firstn_plus.
      change (x0 :: firstn (j1 + j2) rest) with (firstn (S j1 + j2) (x0 :: rest)).
      rewrite Nat2Z.id. rewrite Hxn, Z.eqb_refl. rewrite andb_false_r. reflexivity.
  Qed.
End Frames.

(** ** The two codecs *)

Lemma s1_zero hb sw w : s1_diffs hb sw 0 w = Ok [].
Proof. reflexivity. Qed.
Lemma s2_zero hb sw w : s2_diffs hb sw 0 w = Ok [].
Proof. reflexivity. Qed.

Lemma steim1_lossless_lemma hb1 sw1 hb2 sw2 m1 m2 samples cap diff0 :
  xorb hb1 sw1 = xorb hb2 sw2 ->
  compressible m1 samples -> compressible m2 samples -> int32 diff0 -> 64 <= cap ->
  exists n bytes,
    encode_steim1 hb1 sw1 m1 samples cap diff0 = Ok (n, bytes) /\
    1 <= n <= Z.of_nat (length samples) /\
    (exists g, (1 <= g)%nat /\ length bytes = (64 * g)%nat /\ Z.of_nat (length bytes) <= cap /\
       (n < Z.of_nat (length samples) -> Z.of_nat g = cap / 64)) /\
    bytes_ok bytes /\
    forall tail inlen ocap,
      Z.of_nat (length bytes) <= inlen <= Z.of_nat (length (bytes ++ tail)) ->
      4 * n <= ocap -> n < 2 ^ 62 ->
      decode_steim1 hb2 sw2 m2 (bytes ++ tail) inlen n ocap =
        Ok (firstn (Z.to_nat n) samples, false).
Proof.
  intros Hx Hc1 Hc2 Hd Hcap.
  pose proof (steim_roundtrip_gen s1_word s1_diffs 4 60 (fun _ => True) (fun _ => False) hb1 sw1 hb2 sw2 m1 m2 Hx
                ltac:(lia) ltac:(lia) (s1_word_spec _ _ _ _ Hx) (s1_zero hb2 sw2)
                samples cap diff0 Hc1 Hc2 Hd Hcap) as G.
  unfold encode_steim1, decode_steim1.
  destruct (steim_encode s1_word 4 hb1 sw1 m1 samples cap diff0) as [[n bytes]|c|u|]; try tauto.
  - exists n, bytes. tauto.
  - destruct G as [_ (j & d & _ & [])].
Qed.

Lemma steim2_lossless_lemma hb1 sw1 hb2 sw2 m1 m2 samples cap diff0 :
  xorb hb1 sw1 = xorb hb2 sw2 ->
  compressible m1 samples -> compressible m2 samples -> int32 diff0 -> 64 <= cap ->
  (encode_steim2 hb1 sw1 m1 samples cap diff0 = Err (-1) /\
   exists j d, nth_error (stored_diffs diff0 samples) j = Some d /\ ~ fits30 d)
  \/
  exists n bytes,
    encode_steim2 hb1 sw1 m1 samples cap diff0 = Ok (n, bytes) /\
    1 <= n <= Z.of_nat (length samples) /\
    (exists g, (1 <= g)%nat /\ length bytes = (64 * g)%nat /\ Z.of_nat (length bytes) <= cap /\
       (n < Z.of_nat (length samples) -> Z.of_nat g = cap / 64)) /\
    bytes_ok bytes /\
    Forall fits30 (firstn (Z.to_nat n) (stored_diffs diff0 samples)) /\
    forall tail inlen ocap,
      Z.of_nat (length bytes) <= inlen <= Z.of_nat (length (bytes ++ tail)) ->
      4 * n <= ocap -> n < 2 ^ 62 ->
      decode_steim2 hb2 sw2 m2 (bytes ++ tail) inlen n ocap =
        Ok (firstn (Z.to_nat n) samples, false).
Proof.
  intros Hx Hc1 Hc2 Hd Hcap.
  pose proof (steim_roundtrip_gen s2_word s2_diffs 7 105 fits30 (fun d => ~ fits30 d) hb1 sw1 hb2 sw2 m1 m2 Hx
                ltac:(lia) ltac:(lia) (s2_word_spec _ _ _ _ Hx) (s2_zero hb2 sw2)
                samples cap diff0 Hc1 Hc2 Hd Hcap) as G.
  unfold encode_steim2, decode_steim2.
  destruct (steim_encode s2_word 7 hb1 sw1 m1 samples cap diff0) as [[n bytes]|c|u|]; try tauto.
  - right. exists n, bytes. tauto.
  - left. destruct G as [-> G]. auto.
Qed.
