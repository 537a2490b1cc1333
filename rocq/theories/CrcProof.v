(** * Proofs about the checksum routine. *)

From Verif Require Import Base BaseLemmas CrcTable CrcModel CrcSpec.
Open Scope Z_scope.

(** ** The one-bit step *)

Definition step (x : Z) : Z := if Z.odd x then Z.lxor (Z.div2 x) 0x82F63B78 else Z.div2 x.

Fixpoint steps (n : nat) (x : Z) : Z :=
  match n with O => x | S n' => steps n' (step x) end.

Lemma steps_add a b x : steps (a + b) x = steps b (steps a x).
Proof. revert x. induction a as [|a IH]; intros x; cbn [steps Nat.add]; [reflexivity|apply IH]. Qed.

Lemma div2_lxor a b : Z.div2 (Z.lxor a b) = Z.lxor (Z.div2 a) (Z.div2 b).
Proof. rewrite !Z.div2_spec. apply Z.shiftr_lxor. Qed.

Lemma odd_lxor a b : Z.odd (Z.lxor a b) = xorb (Z.odd a) (Z.odd b).
Proof. rewrite <- !Z.bit0_odd. apply Z.lxor_spec. Qed.

Lemma lxor4 a b c d : Z.lxor (Z.lxor a b) (Z.lxor c d) = Z.lxor (Z.lxor a c) (Z.lxor b d).
Proof. rewrite !Z.lxor_assoc. f_equal. rewrite <- !Z.lxor_assoc. f_equal. apply Z.lxor_comm. Qed.

Lemma step_lxor a b : step (Z.lxor a b) = Z.lxor (step a) (step b).
Proof.
  unfold step. rewrite odd_lxor, div2_lxor. set (P := 0x82F63B78).
  destruct (Z.odd a), (Z.odd b); cbn [xorb].
  - now rewrite lxor4, Z.lxor_nilpotent, Z.lxor_0_r.
  - rewrite !Z.lxor_assoc. f_equal. apply Z.lxor_comm.
  - now rewrite Z.lxor_assoc.
  - reflexivity.
Qed.

Lemma steps_lxor n : forall a b, steps n (Z.lxor a b) = Z.lxor (steps n a) (steps n b).
Proof. induction n as [|n IH]; intros a b; cbn [steps]; [reflexivity|]. now rewrite step_lxor, IH. Qed.

Lemma step_double x : step (2 * x) = x.
Proof.
  unfold step. rewrite Z.odd_mul. cbn [Z.odd]. cbn [andb].
  rewrite Z.div2_div, Z.mul_comm. apply Z.div_mul. lia.
Qed.

Lemma steps_shift n : forall x, steps n (x * 2 ^ Z.of_nat n) = x.
Proof.
  induction n as [|n IH]; intros x.
  - cbn [steps]. change (Z.of_nat 0) with 0. rewrite Z.pow_0_r. lia.
  - cbn [steps]. rewrite Nat2Z.inj_succ, Z.pow_succ_r by lia.
    replace (x * (2 * 2 ^ Z.of_nat n)) with (2 * (x * 2 ^ Z.of_nat n)) by ring.
    now rewrite step_double.
Qed.

Lemma lxor_range a b k : 0 <= k -> 0 <= a < 2 ^ k -> 0 <= b < 2 ^ k -> 0 <= Z.lxor a b < 2 ^ k.
Proof.
  intros Hk Ha Hb.
  assert (E : Z.lxor a b = (Z.lxor a b) mod 2 ^ k).
  { rewrite <- Z.land_ones by lia. apply Z.bits_inj'. intros n Hn.
    rewrite Z.land_spec, Z.lxor_spec. destruct (Z.ltb_spec n k).
    - rewrite Z.ones_spec_low by lia. now rewrite andb_true_r.
    - rewrite Z.ones_spec_high by lia. rewrite andb_false_r.
      rewrite <- (Z.mod_small a (2 ^ k)), <- (Z.mod_small b (2 ^ k)) by lia.
      now rewrite !Z.mod_pow2_bits_high by lia. }
  rewrite E. apply Z.mod_pos_bound. apply pow2_pos. lia.
Qed.

Lemma step_range x k : 32 <= k -> 0 <= x < 2 ^ k -> 0 <= step x < 2 ^ k.
Proof.
  intros Hk Hx. unfold step.
  assert (0 <= Z.div2 x < 2 ^ k) by (rewrite Z.div2_div; lia).
  destruct (Z.odd x); [|assumption].
  apply lxor_range; try lia. split; [lia|].
  assert (2 ^ 32 <= 2 ^ k) by (apply Z.pow_le_mono_r; lia). lia.
Qed.

Lemma steps_range n : forall x, 0 <= x < 2 ^ 32 -> 0 <= steps n x < 2 ^ 32.
Proof.
  induction n as [|n IH]; intros x Hx; cbn [steps]; [exact Hx|]. apply IH. now apply step_range.
Qed.

Lemma lxor_disjoint a b k : 0 <= k -> 0 <= a < 2 ^ k -> Z.lxor a (b * 2 ^ k) = a + b * 2 ^ k.
Proof.
  intros Hk Ha. symmetry. apply Z.add_nocarry_lxor.
  apply Z.bits_inj'. intros n Hn. rewrite Z.land_spec, Z.bits_0.
  destruct (Z.ltb_spec n k).
  - rewrite Z.mul_pow2_bits_low by lia. apply andb_false_r.
  - rewrite <- (Z.mod_small a (2 ^ k)) by lia. now rewrite Z.mod_pow2_bits_high by lia.
Qed.

(** A byte's worth of steps in terms of the low byte. *)
Lemma steps_split n k x : 0 <= k -> n = Z.to_nat k ->
  steps n x = Z.lxor (Z.shiftr x k) (steps n (x mod 2 ^ k)).
Proof.
  intros Hk ->. set (n := Z.to_nat k).
  assert (E : x = Z.lxor (Z.shiftr x k * 2 ^ k) (x mod 2 ^ k)).
  { rewrite Z.lxor_comm, lxor_disjoint; [|lia|apply Z.mod_pos_bound, pow2_pos; lia].
    rewrite Z.shiftr_div_pow2 by lia. pose proof (Z.div_mod x (2 ^ k)). pose proof (pow2_pos k). lia. }
  rewrite E at 1. rewrite steps_lxor. f_equal.
  replace (2 ^ k) with (2 ^ Z.of_nat n) by (f_equal; unfold n; lia). apply steps_shift.
Qed.

(** ** Bits and bytes *)

Lemma crc_bit_step c b : crc_bit c b = step (Z.lxor c b).
Proof. reflexivity. Qed.

Lemma fold_bits l : Forall (fun b => b = 0 \/ b = 1) l -> forall c,
  fold_left crc_bit l c = steps (length l) (Z.lxor c (fold_right (fun b acc => b + 2 * acc) 0 l)).
Proof.
  induction l as [|b l IH]; intros H c; cbn [fold_left fold_right length steps].
  - now rewrite Z.lxor_0_r.
  - inversion H as [|? ? Hb Hl]; subst. rewrite (IH Hl). f_equal. rewrite crc_bit_step.
    set (v := fold_right _ 0 l).
    replace (b + 2 * v) with (Z.lxor b (v * 2 ^ 1)).
    2:{ rewrite lxor_disjoint by (simpl; lia). lia. }
    rewrite (Z.mul_comm v (2 ^ 1)). change (2 ^ 1) with 2. rewrite <- Z.lxor_assoc, (step_lxor _ (2 * v)).
    now rewrite step_double.
Qed.

Lemma byte_bits_01 v : Forall (fun b => b = 0 \/ b = 1) (byte_bits v).
Proof.
  unfold byte_bits. apply Forall_forall. intros x Hx. apply in_map_iff in Hx.
  destruct Hx as (i & <- & _). destruct (Z.testbit v i); auto.
Qed.

Lemma byte_bits_val v : byte_ok v -> fold_right (fun b acc => b + 2 * acc) 0 (byte_bits v) = v.
Proof.
  intros Hv. assert (S : (fold_right (fun b acc => b + 2 * acc) 0 (byte_bits v) =? v) = true).
  { revert v Hv. apply (sweep_below 8 (fun v => fold_right (fun b acc => b + 2 * acc) 0 (byte_bits v) =? v)).
    vm_compute. reflexivity. }
  lia.
Qed.

(** Folding the bit step over bytes = many steps of one big number. *)
Lemma fold_bytes l : bytes_ok l -> forall c,
  fold_left crc_bit (bits l) c = steps (8 * length l) (Z.lxor c (le_val l)).
Proof.
  induction l as [|b l IH]; intros H c.
  - cbn. now rewrite Z.lxor_0_r.
  - inversion H as [|? ? Hb Hl]; subst. unfold bits. cbn [map concat]. rewrite fold_left_app.
    change (concat (map byte_bits l)) with (bits l).
    rewrite (fold_bits (byte_bits b)) by apply byte_bits_01. rewrite byte_bits_val by exact Hb.
    change (length (byte_bits b)) with 8%nat.
    rewrite (IH Hl). replace (8 * length (b :: l))%nat with (8 + 8 * length l)%nat by (cbn [length]; lia).
    rewrite steps_add. f_equal. cbn [le_val].
    replace (b + 256 * le_val l) with (Z.lxor b (le_val l * 2 ^ 8)).
    2:{ rewrite lxor_disjoint by (unfold byte_ok in Hb; lia). lia. }
    rewrite <- Z.lxor_assoc, (steps_lxor 8 _ (le_val l * 2 ^ 8)). f_equal. symmetry.
    apply (steps_shift 8).
Qed.

(** ** The table *)

Fixpoint check_rows (prev : list Z) (rows : list (list Z)) : bool :=
  match rows with
  | [] => true
  | r :: rows' => forallb (fun p => snd p =? steps 8 (fst p)) (combine prev r) && check_rows r rows'
  end.

Lemma table_ok :
  (Nat.eqb (length CRC32C_TABLE) 8) &&
  forallb (fun r => Nat.eqb (length r) 256) CRC32C_TABLE &&
  check_rows (map Z.of_nat (seq 0 256)) CRC32C_TABLE = true.
Proof. vm_compute. reflexivity. Qed.

Lemma table_rows prev rows :
  check_rows prev rows = true ->
  length prev = 256%nat -> forallb (fun r => Nat.eqb (length r) 256) rows = true ->
  forall k r, nth_error rows k = Some r -> r = map (steps (8 * (k + 1))) prev.
Proof.
  revert prev. induction rows as [|r0 rows IH]; intros prev G Hp Hr k r Hk; [destruct k; discriminate|].
  cbn [check_rows] in G. apply andb_prop in G. destruct G as [G1 G2]. cbn [forallb] in Hr. apply andb_prop in Hr. destruct Hr as [Hr1 Hr2].
  apply Nat.eqb_eq in Hr1.
  assert (E : r0 = map (steps 8) prev).
  { assert (L : length prev = length r0) by lia. clear - G1 L. revert r0 L G1.
    induction prev as [|p prev IHp]; intros [|x r0] L G1; try discriminate; [reflexivity|].
    cbn [combine forallb fst snd] in G1. apply andb_prop in G1. destruct G1 as [A B].
    cbn [map]. f_equal; [lia|]. apply IHp; [cbn in L; lia|exact B]. }
  destruct k as [|k]; cbn [nth_error] in Hk.
  - injection Hk as <-. exact E.
  - rewrite (IH r0 G2 Hr1 Hr2 k r Hk). rewrite E at 1. rewrite map_map. apply map_ext. intros x.
    rewrite <- steps_add. f_equal. lia.
Qed.

Lemma tab_ok k i : 0 <= k < 8 -> 0 <= i < 256 -> tab k i = Ok (steps (8 * (Z.to_nat k + 1)) i).
Proof.
  intros Hk Hi. pose proof table_ok as T. apply andb_prop in T. destruct T as [T G].
  apply andb_prop in T. destruct T as [T1 T2]. apply Nat.eqb_eq in T1.
  assert (exists r, nth_error CRC32C_TABLE (Z.to_nat k) = Some r) as (r & Hr).
  { destruct (nth_error CRC32C_TABLE (Z.to_nat k)) eqn:E; [eauto|]. apply nth_error_None in E. lia. }
  pose proof (table_rows (map Z.of_nat (seq 0 256)) CRC32C_TABLE G eq_refl T2 (Z.to_nat k) r Hr) as E.
  unfold tab, getZ at 1. destruct (Z.leb_spec 0 k); [|lia]. rewrite Hr. cbn [bind].
  unfold getZ. destruct (Z.leb_spec 0 i); [|lia]. rewrite E.
  rewrite nth_error_map, nth_error_map.
  replace (nth_error (seq 0 256) (Z.to_nat i)) with (Some (Z.to_nat i)).
  2:{ rewrite (nth_error_nth' _ 0%nat) by (rewrite seq_length; lia). now rewrite seq_nth by lia. }
  cbn [option_map]. now rewrite Z2Nat.id by lia.
Qed.

Ltac fcons := repeat (apply Forall_cons; [assumption|]); apply Forall_nil.

Lemma tab_mod k y : 0 <= k < 8 -> tab k (y mod 256) = Ok (steps (8 * (Z.to_nat k + 1)) (y mod 256)).
Proof. intros Hk. apply tab_ok; [exact Hk|]. apply Z.mod_pos_bound. lia. Qed.

(** ** The loops *)

Definition p_ok (p : ptr) : Prop := 0 <= fst p < 4 /\ bytes_ok (snd p).

Lemma le_val_app a b : le_val (a ++ b) = le_val a + 2 ^ (8 * Z.of_nat (length a)) * le_val b.
Proof.
  induction a as [|x a IH]; cbn [app le_val length].
  - change (8 * Z.of_nat 0) with 0. rewrite Z.pow_0_r. lia.
  - rewrite IH. replace (8 * Z.of_nat (S (length a))) with (8 + 8 * Z.of_nat (length a)) by lia.
    rewrite Z.pow_add_r by lia. change (2 ^ 8) with 256. ring.
Qed.

Definition crcb (c : Z) (l : list Z) : Z := steps (8 * length l) (Z.lxor c (le_val l)).

Lemma crcb_app c a b : bytes_ok a -> bytes_ok b -> crcb c (a ++ b) = crcb (crcb c a) b.
Proof.
  intros Ha Hb. unfold crcb. rewrite <- !fold_bytes.
  - unfold bits. rewrite map_app, concat_app, fold_left_app. reflexivity.
  - exact Ha.
  - exact Hb.
  - apply Forall_app. auto.
Qed.

Lemma crcb_range c l : 0 <= c < 2 ^ 32 -> bytes_ok l -> 0 <= crcb c l < 2 ^ 32.
Proof.
  intros Hc. revert c Hc. induction l as [|b l IH]; intros c Hc H.
  - unfold crcb. cbn. now rewrite Z.lxor_0_r.
  - inversion H as [|? ? Hb Hl]; subst. change (b :: l) with ([b] ++ l).
    rewrite crcb_app; [|constructor; auto|exact Hl]. apply IH; [|exact Hl].
    unfold crcb. apply steps_range. apply lxor_range; try lia. cbn. unfold byte_ok in Hb. lia.
Qed.

Lemma low_byte x : Z.land x 0xff = x mod 256.
Proof. change 0xff with (2 ^ 8 - 1). now rewrite land_ones_mod. Qed.

Lemma sb1_ok n : forall a l c, (n <= length l)%nat -> bytes_ok l -> 0 <= c < 2 ^ 32 ->
  sb1_loop n (a, l) c = Ok (crcb c (firstn n l)).
Proof.
  induction n as [|n IH]; intros a l c Hn Hl Hc.
  - cbn. unfold crcb. cbn. now rewrite Z.lxor_0_r.
  - destruct l as [|b l]; [cbn in Hn; lia|]. inversion Hl as [|? ? Hb Hl']; subst.
    cbn [sb1_loop read_byte snd fst bind]. rewrite low_byte.
    assert (R : 0 <= Z.lxor (c mod 256) b < 2 ^ 8) by (apply lxor_range; unfold byte_ok in Hb; lia).
    rewrite tab_ok by lia. cbn [bind].
    assert (E : Z.lxor (Z.shiftr c 8) (steps (8 * (Z.to_nat 0 + 1)) (Z.lxor (c mod 256) b)) = crcb c [b]).
    { change (8 * (Z.to_nat 0 + 1))%nat with 8%nat. unfold crcb. change (8 * length [b])%nat with 8%nat.
      cbn [le_val]. rewrite Z.mul_0_r, Z.add_0_r. rewrite !steps_lxor.
      rewrite (steps_split 8 8 c) by lia. change (2 ^ 8) with 256. apply eq_sym, Z.lxor_assoc. }
    rewrite E. rewrite IH; [|cbn in Hn; lia|exact Hl'|apply crcb_range; [exact Hc|constructor; auto]].
    f_equal. cbn [firstn]. change (b :: firstn n l) with ([b] ++ firstn n l).
    symmetry. apply crcb_app; [constructor; auto|]. now apply Forall_firstn.
Qed.

Lemma byte_k x k : 0 <= k -> Z.land (Z.shiftr x k) 0xff = x / 2 ^ k mod 256.
Proof. intros. rewrite low_byte, Z.shiftr_div_pow2 by lia. reflexivity. Qed.

Lemma shift_steps n m v : steps (n + m) (v * 2 ^ Z.of_nat n) = steps m v.
Proof. now rewrite steps_add, steps_shift. Qed.

(** Combining four table look-ups. *)
Lemma steps_bytes4 k x : 0 <= x < 2 ^ 32 ->
  Z.lxor (Z.lxor (Z.lxor (steps (32 + k) (x mod 256)) (steps (24 + k) (x / 2 ^ 8 mod 256)))
                 (steps (16 + k) (x / 2 ^ 16 mod 256))) (steps (8 + k) (x / 2 ^ 24 mod 256))
  = steps (32 + k) x.
Proof.
  intros Hx.
  assert (E : x = Z.lxor (Z.lxor (Z.lxor (x mod 256) (x / 2 ^ 8 mod 256 * 2 ^ 8))
                (x / 2 ^ 16 mod 256 * 2 ^ 16)) (x / 2 ^ 24 mod 256 * 2 ^ 24)).
  { rewrite (lxor_disjoint _ _ 8) by lia. rewrite (lxor_disjoint _ _ 16) by lia.
    rewrite (lxor_disjoint _ _ 24) by lia. lia. }
  rewrite E at 5. rewrite !steps_lxor.
  f_equal; [f_equal; [f_equal|]|]; symmetry.
  - exact (shift_steps 8 (24 + k) _).
  - exact (shift_steps 16 (16 + k) _).
  - exact (shift_steps 24 (8 + k) _).
Qed.

Lemma le_val4 b0 b1 b2 b3 : bytes_ok [b0; b1; b2; b3] -> 0 <= le_val [b0; b1; b2; b3] < 2 ^ 32.
Proof. intros H. exact (le_val_range _ H). Qed.

Lemma sb4_loop_ok f : forall l c rem, bytes_ok l -> 0 <= c < 2 ^ 32 ->
  0 <= rem <= Z.of_nat (length l) -> rem < 4 * Z.of_nat f + 4 ->
  sb4_loop f (0, l) rem c =
    Ok (crcb c (firstn (Z.to_nat (4 * (rem / 4))) l), (0, skipn (Z.to_nat (4 * (rem / 4))) l), rem mod 4).
Proof.
  induction f as [|f IH]; intros l c rem Hl Hc Hr Hf.
  - cbn [sb4_loop]. destruct (Z.leb_spec 4 rem); [lia|].
    replace (rem / 4) with 0 by lia. cbn. unfold crcb. cbn. rewrite Z.lxor_0_r. repeat f_equal. lia.
  - cbn [sb4_loop]. destruct (Z.leb_spec 4 rem).
    2:{ replace (rem / 4) with 0 by lia. cbn. unfold crcb. cbn. rewrite Z.lxor_0_r. repeat f_equal. lia. }
    destruct l as [|b0 [|b1 [|b2 [|b3 l]]]]; try (cbn [length] in Hr; lia).
    inversion Hl as [|? ? H0 L1]; subst. inversion L1 as [|? ? H1 L2]; subst.
    inversion L2 as [|? ? H2 L3]; subst. inversion L3 as [|? ? H3 Hl']; subst.
    assert (B4 : bytes_ok [b0; b1; b2; b3]) by fcons.
    unfold read_u32. cbn [fst snd]. change (0 =? 0) with true. cbv iota. cbn [bind].
    pose proof (le_val4 _ _ _ _ B4) as W. set (w := le_val [b0; b1; b2; b3]) in *.
    assert (X : 0 <= Z.lxor c w < 2 ^ 32) by (apply lxor_range; lia). set (x := Z.lxor c w) in *.
    rewrite low_byte, !byte_k by lia.
    rewrite (Z.shiftr_div_pow2 x 24) by lia.
    rewrite !tab_ok by lia. cbn [bind].
    replace (x / 2 ^ 24) with (x / 2 ^ 24 mod 256) by lia.
    change (8 * (Z.to_nat 3 + 1))%nat with (32 + 0)%nat. change (8 * (Z.to_nat 2 + 1))%nat with (24 + 0)%nat.
    change (8 * (Z.to_nat 1 + 1))%nat with (16 + 0)%nat. change (8 * (Z.to_nat 0 + 1))%nat with (8 + 0)%nat.
    rewrite steps_bytes4 by exact X.
    assert (E4 : steps (32 + 0) x = crcb c [b0; b1; b2; b3]).
    { unfold crcb. change (8 * length [b0; b1; b2; b3])%nat with (32 + 0)%nat. f_equal. }
    rewrite E4.
    rewrite IH; [|exact Hl'|now apply crcb_range|cbn [length] in Hr; lia|lia].
    replace (Z.to_nat (4 * (rem / 4))) with (4 + Z.to_nat (4 * ((rem - 4) / 4)))%nat by lia.
    cbn [firstn skipn Nat.add]. replace ((rem - 4) mod 4) with (rem mod 4) by lia.
    rewrite <- crcb_app; [reflexivity|exact B4|]. now apply Forall_firstn.
Qed.

Lemma padd_ok p n : 0 <= n <= Z.of_nat (length (snd p)) ->
  padd p n = Ok ((fst p + n) mod 4, skipn (Z.to_nat n) (snd p)).
Proof. intros H. unfold padd. destruct (Z.leb_spec n (Z.of_nat (length (snd p)))); [reflexivity|lia]. Qed.

Lemma sb4_ok l c len : bytes_ok l -> 0 <= c < 2 ^ 32 -> 0 <= len <= Z.of_nat (length l) ->
  sb4 (0, l) len c = Ok (crcb c (firstn (Z.to_nat len) l)).
Proof.
  intros Hl Hc Hlen. unfold sb4. rewrite sb4_loop_ok by (auto; lia). cbn [bind].
  rewrite padd_ok by (cbn [snd]; lia). cbn [bind fst snd].
  unfold sb1. rewrite sb1_ok.
  - f_equal. rewrite <- crcb_app by (try apply Forall_firstn; try apply Forall_skipn; assumption).
    f_equal. replace (Z.to_nat (len - len mod 4)) with (Z.to_nat (4 * (len / 4))) by lia.
    rewrite <- firstn_plus. f_equal. lia.
  - rewrite skipn_length. lia.
  - now apply Forall_skipn.
  - apply crcb_range; [exact Hc|]. now apply Forall_firstn.
Qed.

(** sb4 when fewer than four bytes remain works at any alignment. *)
Lemma sb4_short a l c len : bytes_ok l -> 0 <= c < 2 ^ 32 -> len < 4 -> len <= Z.of_nat (length l) ->
  sb4 (a, l) len c = Ok (crcb c (firstn (Z.to_nat len) l)).
Proof.
  intros Hl Hc H4 Hlen. unfold sb4.
  assert (E : sb4_loop (Z.to_nat len) (a, l) len c = Ok (c, (a, l), len)).
  { destruct (Z.to_nat len); cbn [sb4_loop]; destruct (Z.leb_spec 4 len); try lia; reflexivity. }
  rewrite E. cbn [bind]. rewrite Z.sub_diag. rewrite padd_ok by lia. cbn [bind fst snd].
  change (Z.to_nat 0) with 0%nat. cbn [skipn].
  unfold sb1. apply sb1_ok; auto. lia.
Qed.

Lemma sb8_loop_ok f : forall l c rem, bytes_ok l -> 0 <= c < 2 ^ 32 ->
  0 <= rem <= Z.of_nat (length l) -> rem < 8 * Z.of_nat f + 8 ->
  sb8_loop f (0, l) rem c =
    Ok (crcb c (firstn (Z.to_nat (8 * (rem / 8))) l), (0, skipn (Z.to_nat (8 * (rem / 8))) l), rem mod 8).
Proof.
  induction f as [|f IH]; intros l c rem Hl Hc Hr Hf.
  - cbn [sb8_loop]. destruct (Z.leb_spec 8 rem); [lia|].
    replace (rem / 8) with 0 by lia. cbn. unfold crcb. cbn. rewrite Z.lxor_0_r. repeat f_equal. lia.
  - cbn [sb8_loop]. destruct (Z.leb_spec 8 rem).
    2:{ replace (rem / 8) with 0 by lia. cbn. unfold crcb. cbn. rewrite Z.lxor_0_r. repeat f_equal. lia. }
    destruct l as [|b0 [|b1 [|b2 [|b3 [|b4 [|b5 [|b6 [|b7 l]]]]]]]]; try (cbn [length] in Hr; lia).
    repeat match goal with H : bytes_ok (_ :: _) |- _ => inversion H; clear H; subst
           | H : Forall byte_ok (_ :: _) |- _ => inversion H; clear H; subst end.
    assert (A4 : bytes_ok [b0; b1; b2; b3]) by fcons.
    assert (B4 : bytes_ok [b4; b5; b6; b7]) by fcons.
    assert (B8 : bytes_ok ([b0; b1; b2; b3] ++ [b4; b5; b6; b7])) by (apply Forall_app; auto).
    assert (E8 : crcb c ([b0; b1; b2; b3] ++ [b4; b5; b6; b7])
       = Z.lxor (steps 64 (Z.lxor (le_val [b0; b1; b2; b3]) c)) (steps 32 (le_val [b4; b5; b6; b7]))).
    { unfold crcb. rewrite le_val_app. change (8 * Z.of_nat (length [b0; b1; b2; b3])) with 32.
      rewrite (Z.mul_comm (2 ^ 32)). rewrite <- lxor_disjoint by (try lia; now apply le_val4).
      change (8 * length ([b0; b1; b2; b3] ++ [b4; b5; b6; b7]))%nat with 64%nat.
      rewrite <- Z.lxor_assoc, steps_lxor. rewrite (Z.lxor_comm c). f_equal.
      exact (shift_steps 32 32 _). }
    pose proof (le_val4 _ _ _ _ A4) as W1. pose proof (le_val4 _ _ _ _ B4) as W2.
    unfold read_u32. cbn [fst snd]. change (0 =? 0) with true. cbv iota. cbn [bind fst snd].
    change (0 =? 0) with true. cbv iota. cbn [bind].
    cbn [app] in E8, B8.
    set (w1 := le_val [b0; b1; b2; b3]) in *. set (w2 := le_val [b4; b5; b6; b7]) in *.
    assert (X : 0 <= Z.lxor w1 c < 2 ^ 32) by (apply lxor_range; lia). set (x := Z.lxor w1 c) in *.
    rewrite !byte_k by discriminate. rewrite !low_byte.
    rewrite !tab_mod by (split; [discriminate|reflexivity]). cbn [bind].
    change (8 * (Z.to_nat 7 + 1))%nat with (32 + 32)%nat. change (8 * (Z.to_nat 6 + 1))%nat with (24 + 32)%nat.
    change (8 * (Z.to_nat 5 + 1))%nat with (16 + 32)%nat. change (8 * (Z.to_nat 4 + 1))%nat with (8 + 32)%nat.
    change (8 * (Z.to_nat 3 + 1))%nat with (32 + 0)%nat. change (8 * (Z.to_nat 2 + 1))%nat with (24 + 0)%nat.
    change (8 * (Z.to_nat 1 + 1))%nat with (16 + 0)%nat. change (8 * (Z.to_nat 0 + 1))%nat with (8 + 0)%nat.
    rewrite !steps_bytes4 by assumption.
    change (32 + 32)%nat with 64%nat. change (32 + 0)%nat with 32%nat. rewrite <- E8.
    rewrite IH; [|assumption|now apply crcb_range|cbn [length] in Hr; lia|lia].
    replace (Z.to_nat (8 * (rem / 8))) with (8 + Z.to_nat (8 * ((rem - 8) / 8)))%nat by lia.
    cbn [firstn skipn Nat.add]. replace ((rem - 8) mod 8) with (rem mod 8) by lia.
    rewrite <- crcb_app; [reflexivity|exact B8|]. now apply Forall_firstn.
Qed.

Lemma sb8_ok l c len : bytes_ok l -> 0 <= c < 2 ^ 32 -> 0 <= len <= Z.of_nat (length l) ->
  sb8 (0, l) len c = Ok (crcb c (firstn (Z.to_nat len) l)).
Proof.
  intros Hl Hc Hlen. unfold sb8. rewrite sb8_loop_ok by (auto; lia). cbn [bind].
  rewrite padd_ok by (cbn [snd]; lia). cbn [bind fst snd].
  replace ((0 + (len - len mod 8)) mod 4) with 0 by lia.
  rewrite sb4_ok.
  - f_equal. rewrite <- crcb_app by (try apply Forall_firstn; try apply Forall_skipn; assumption).
    f_equal. replace (Z.to_nat (len - len mod 8)) with (Z.to_nat (8 * (len / 8))) by lia.
    rewrite <- firstn_plus. f_equal. lia.
  - now apply Forall_skipn.
  - apply crcb_range; [exact Hc|]. now apply Forall_firstn.
  - rewrite skipn_length. lia.
Qed.

Lemma sb8_short a l c len : bytes_ok l -> 0 <= c < 2 ^ 32 -> len < 4 -> len <= Z.of_nat (length l) ->
  sb8 (a, l) len c = Ok (crcb c (firstn (Z.to_nat len) l)).
Proof.
  intros Hl Hc H4 Hlen. unfold sb8.
  assert (E : sb8_loop (Z.to_nat len) (a, l) len c = Ok (c, (a, l), len)).
  { destruct (Z.to_nat len); cbn [sb8_loop]; destruct (Z.leb_spec 8 len); try lia; reflexivity. }
  rewrite E. cbn [bind]. rewrite Z.sub_diag. rewrite padd_ok by lia. cbn [bind fst snd].
  change (Z.to_nat 0) with 0%nat. cbn [skipn]. now apply sb4_short.
Qed.

Lemma not32_range c : in_u 32 c -> 0 <= not32 c < 2 ^ 32.
Proof. intros H. apply lxor_range; [lia|exact H|lia]. Qed.

Lemma not32_invol c : not32 (not32 c) = c.
Proof. unfold not32. now rewrite Z.lxor_assoc, Z.lxor_nilpotent, Z.lxor_0_r. Qed.

Lemma crc32c_crcb l prev : bytes_ok l -> crc32c l prev = not32 (crcb (not32 prev) l).
Proof. intros H. unfold crc32c, not32, crcb. now rewrite <- fold_bytes. Qed.

(** Number of bytes before the first aligned one. *)
Lemma leading_eq a : 0 <= a < 4 -> Z.land (4 - Z.land a 3) 3 = (4 - a) mod 4.
Proof.
  intros H. change 3 with (2 ^ 2 - 1). rewrite !land_ones_mod by lia. change (2 ^ 2) with 4.
  now rewrite (Z.mod_small a 4) by lia.
Qed.

Lemma ms_crc32c_ok hb a buf len prev :
  0 <= a < 4 -> bytes_ok buf -> in_u 32 prev -> 1 <= len <= Z.of_nat (length buf) ->
  len < 2 ^ 31 -> (4 - a) mod 4 <= len ->
  ms_crc32c hb (a, buf) len prev = Ok (crc32c (firstn (Z.to_nat len) buf) prev).
Proof.
  intros Ha Hb Hp Hlen Hint Hlead. unfold ms_crc32c. destruct (Z.leb_spec len 0); [lia|].
  assert (F : bytes_ok (firstn (Z.to_nat len) buf)) by now apply Forall_firstn.
  pose proof (not32_range _ Hp) as Hc.
  rewrite crc32c_crcb by exact F.
  destruct hb.
  - unfold sb1. rewrite sb1_ok by (auto; lia). reflexivity.
  - unfold crc_align. cbn [fst snd]. rewrite leading_eq by exact Ha.
    set (lead := (4 - a) mod 4) in *. assert (0 <= lead < 4) by lia.
    destruct (Z.eqb_spec lead 0) as [E0|E0]; cbn [negb andb bind].
    + assert (a = 0) by lia. subst a. rewrite sb8_ok by (auto; lia). reflexivity.
    + rewrite (uwrap_id 64) by (split; lia).
      destruct (Z.ltb_spec 0 (len - lead)); cbn [bind].
      * unfold sb1. rewrite sb1_ok by (auto; lia). cbn [bind]. rewrite padd_ok by (cbn [snd]; lia).
        cbn [bind fst snd]. replace ((a + lead) mod 4) with 0 by lia.
        rewrite sb8_ok.
        -- cbn [bind]. f_equal. f_equal.
           rewrite <- crcb_app by (try apply Forall_firstn; try apply Forall_skipn; assumption).
           f_equal. rewrite <- firstn_plus. f_equal. lia.
        -- now apply Forall_skipn.
        -- apply crcb_range; [exact Hc|]. now apply Forall_firstn.
        -- rewrite skipn_length. lia.
      * rewrite sb8_short by (auto; lia). reflexivity.
Qed.

Lemma crc32c_chain a b prev : bytes_ok a -> bytes_ok b ->
  crc32c b (crc32c a prev) = crc32c (a ++ b) prev.
Proof.
  intros Ha Hb. assert (bytes_ok (a ++ b)) by (apply Forall_app; auto).
  rewrite !crc32c_crcb by assumption. rewrite not32_invol. now rewrite crcb_app.
Qed.

Lemma crc32c_range l prev : bytes_ok l -> in_u 32 prev -> in_u 32 (crc32c l prev).
Proof.
  intros Hl Hp. rewrite crc32c_crcb by exact Hl. apply not32_range. apply crcb_range; [|exact Hl].
  now apply not32_range.
Qed.

(** ** Burst errors *)

Lemma step_inj0 x : 0 < x < 2 ^ 32 -> 0 < step x < 2 ^ 32.
Proof.
  intros Hx. pose proof (step_range x 32 ltac:(lia) ltac:(lia)) as R. split; [|lia].
  unfold step in *. destruct (Z.odd x) eqn:O.
  - destruct (Z.eq_dec (Z.lxor (Z.div2 x) 2197175160) 0) as [E|E]; [|lia].
    apply Z.lxor_eq in E. rewrite Z.div2_div in E. lia.
  - rewrite Z.div2_div in *. pose proof (Zodd_mod x) as M. unfold Zeq_bool in M.
    destruct (Z.eq_dec x 1) as [->|]; [discriminate|]. lia.
Qed.

Lemma steps_inj0 n : forall x, 0 < x < 2 ^ 32 -> 0 < steps n x < 2 ^ 32.
Proof. induction n as [|n IH]; intros x H; cbn [steps]; [exact H|]. apply IH. now apply step_inj0. Qed.

Lemma burst a b prev pos e : bytes_ok a -> bytes_ok b ->
  differ_by a b pos e -> 0 <= pos -> 0 < e < 2 ^ 32 -> crc32c a prev <> crc32c b prev.
Proof.
  intros Ha Hb [Hlen D] Hpos He E.
  rewrite !crc32c_crcb in E by assumption. apply (f_equal not32) in E. rewrite !not32_invol in E.
  unfold crcb in E. rewrite Hlen in E.
  assert (X : Z.lxor (steps (8 * length b) (Z.lxor (not32 prev) (le_val a)))
                     (steps (8 * length b) (Z.lxor (not32 prev) (le_val b))) = 0).
  { rewrite E. apply Z.lxor_nilpotent. }
  rewrite <- steps_lxor, lxor4, Z.lxor_nilpotent, Z.lxor_0_l, D in X.
  assert (P : pos < 8 * Z.of_nat (length b)).
  { assert (R : 0 <= Z.lxor (le_val a) (le_val b) < 2 ^ (8 * Z.of_nat (length b))).
    { apply lxor_range; [lia| |now apply le_val_range].
      rewrite <- Hlen. now apply le_val_range. }
    rewrite D, Z.shiftl_mul_pow2 in R by lia.
    destruct (Z.lt_ge_cases pos (8 * Z.of_nat (length b))); [assumption|].
    assert (2 ^ (8 * Z.of_nat (length b)) <= 2 ^ pos) by (apply Z.pow_le_mono_r; lia). nia. }
  rewrite Z.shiftl_mul_pow2 in X by lia.
  replace (8 * length b)%nat with (Z.to_nat pos + (8 * length b - Z.to_nat pos))%nat in X by lia.
  replace (2 ^ pos) with (2 ^ Z.of_nat (Z.to_nat pos)) in X by (f_equal; lia).
  rewrite shift_steps in X.
  pose proof (steps_inj0 (8 * length b - Z.to_nat pos) e He). lia.
Qed.

(** Corruption confined to four consecutive bytes is such a burst. *)
Lemma burst4 pre w w' post prev :
  bytes_ok (pre ++ w ++ post) -> bytes_ok (pre ++ w' ++ post) ->
  length w = length w' -> (length w <= 4)%nat -> w <> w' ->
  crc32c (pre ++ w ++ post) prev <> crc32c (pre ++ w' ++ post) prev.
Proof.
  intros Ha Hb Hlen H4 Hne.
  assert (Ww : bytes_ok w /\ bytes_ok w').
  { apply Forall_app in Ha, Hb. destruct Ha as [_ Ha], Hb as [_ Hb]. apply Forall_app in Ha, Hb. tauto. }
  destruct Ww as [W W'].
  apply (burst _ _ prev (8 * Z.of_nat (length pre)) (Z.lxor (le_val w) (le_val w'))); auto; try lia.
  - split; [rewrite !app_length; lia|].
    rewrite !le_val_app. rewrite Z.shiftl_mul_pow2 by lia.
    set (k := 8 * Z.of_nat (length pre)). assert (Kp : 0 <= le_val pre < 2 ^ k).
    { apply le_val_range. apply Forall_app in Ha. tauto. }
    rewrite !(Z.mul_comm (2 ^ k)). rewrite <- !lxor_disjoint by lia.
    rewrite lxor4, Z.lxor_nilpotent, Z.lxor_0_l.
    rewrite !(Z.mul_comm (2 ^ (8 * _))). rewrite Hlen.
    rewrite <- lxor_disjoint by (try lia; rewrite <- Hlen; now apply le_val_range).
    rewrite <- lxor_disjoint by (try lia; now apply le_val_range).
    rewrite <- !Z.shiftl_mul_pow2 by lia. rewrite <- Z.shiftl_lxor.
    now rewrite lxor4, Z.lxor_nilpotent, Z.lxor_0_r.
  - assert (R : 0 <= Z.lxor (le_val w) (le_val w') < 2 ^ 32).
    { assert (Q : forall x, bytes_ok x -> (length x <= 4)%nat -> 0 <= le_val x < 2 ^ 32).
      { intros x Hx L. pose proof (le_val_range x Hx).
        assert (2 ^ (8 * Z.of_nat (length x)) <= 2 ^ 32) by (apply Z.pow_le_mono_r; lia). lia. }
      apply lxor_range; [lia|apply Q; auto|apply Q; auto; lia]. }
    destruct (Z.eq_dec (Z.lxor (le_val w) (le_val w')) 0) as [E|E]; [|lia].
    exfalso. apply Hne. apply Z.lxor_eq in E.
    rewrite <- (le_bytes_le_val w W), <- (le_bytes_le_val w' W'). now rewrite Hlen, E.
Qed.

(** ** Polynomial division *)

Lemma rev_bits_range n : forall v, 0 <= rev_bits n v < 2 ^ Z.of_nat n.
Proof.
  induction n as [|n IH]; intros v; cbn [rev_bits]; [simpl; lia|].
  rewrite Nat2Z.inj_succ, Z.pow_succ_r by lia. specialize (IH (v / 2)).
  pose proof (pow2_pos (Z.of_nat n)). assert (v mod 2 = 0 \/ v mod 2 = 1) as [-> | ->] by lia; lia.
Qed.

Lemma rev_bits_small n : forall v, 0 <= v < 2 ^ Z.of_nat n -> rev_bits (S n) v = 2 * rev_bits n v.
Proof.
  induction n as [|n IH]; intros v Hv.
  - change (2 ^ Z.of_nat 0) with 1 in Hv. assert (v = 0) by lia. subst. reflexivity.
  - cbn [rev_bits] in *. rewrite Nat2Z.inj_succ, Z.pow_succ_r in * by lia.
    rewrite IH by lia. lia.
Qed.

Lemma lxor_mod2 a b : Z.lxor a b mod 2 = Z.lxor (a mod 2) (b mod 2).
Proof.
  rewrite !Zmod_odd, odd_lxor. destruct (Z.odd a), (Z.odd b); reflexivity.
Qed.

Lemma rev_bits_lxor n : forall a b, rev_bits n (Z.lxor a b) = Z.lxor (rev_bits n a) (rev_bits n b).
Proof.
  induction n as [|n IH]; intros a b; cbn [rev_bits]; [reflexivity|].
  rewrite <- !Z.div2_div, div2_lxor, IH, lxor_mod2, !Z.div2_div.
  pose proof (rev_bits_range n (a / 2)) as Ra. pose proof (rev_bits_range n (b / 2)) as Rb.
  pose proof (lxor_range _ _ _ (Nat2Z.is_nonneg n) Ra Rb) as Rx.
  rewrite !(Z.mul_comm (2 ^ _)), !(Z.add_comm (_ * 2 ^ _)).
  rewrite <- !lxor_disjoint by lia. rewrite lxor4. f_equal.
  rewrite <- !Z.shiftl_mul_pow2 by lia. apply Z.shiftl_lxor.
Qed.

Lemma rev_step c : 0 <= c < 2 ^ 32 ->
  2 * rev_bits 32 c = Z.lxor (if Z.odd c then castagnoli else 0) (rev_bits 32 (step c)).
Proof.
  intros Hc. unfold step.
  assert (R : rev_bits 32 c = 2 ^ 31 * (c mod 2) + rev_bits 31 (c / 2)) by reflexivity.
  assert (S : rev_bits 32 (c / 2) = 2 * rev_bits 31 (c / 2)) by (apply (rev_bits_small 31); change (2 ^ Z.of_nat 31) with 2147483648; change (2 ^ 32) with 4294967296 in Hc; lia).
  rewrite Z.div2_div. destruct (Z.odd c) eqn:O.
  - rewrite rev_bits_lxor. change (rev_bits 32 2197175160) with 0x1EDC6F41.
    rewrite (Z.lxor_comm (rev_bits 32 (c / 2))), <- Z.lxor_assoc.
    change (Z.lxor castagnoli 0x1EDC6F41) with (1 * 2 ^ 32). rewrite Z.lxor_comm, lxor_disjoint.
    + rewrite Zmod_odd, O in R. lia.
    + lia.
    + apply (rev_bits_range 32).
  - rewrite Z.lxor_0_l. rewrite Zmod_odd, O in R. lia.
Qed.

Lemma clmul_double q t : 0 <= q -> (t = 0 \/ t = 1) ->
  clmul (2 * q + t) castagnoli = Z.lxor (2 * clmul q castagnoli) (if t =? 1 then castagnoli else 0).
Proof.
  intros Hq [-> | ->]; destruct q as [|q|q]; try lia; cbn; rewrite ?Z.lxor_0_r; reflexivity.
Qed.

Lemma double_lxor a b : 2 * Z.lxor a b = Z.lxor (2 * a) (2 * b).
Proof. rewrite !(Z.mul_comm 2). rewrite <- !(Z.shiftl_mul_pow2 _ 1) by lia. apply Z.shiftl_lxor. Qed.

Lemma rev_bit0 b : b = 0 \/ b = 1 -> rev_bits 32 b = b * 2 ^ 31.
Proof. intros [-> | ->]; reflexivity. Qed.

Lemma poly_of_bits_snoc l b : poly_of_bits (l ++ [b]) = 2 * poly_of_bits l + b.
Proof. unfold poly_of_bits. now rewrite fold_left_app. Qed.

Lemma crc_division c0 l : 0 <= c0 < 2 ^ 32 -> Forall (fun b => b = 0 \/ b = 1) l ->
  0 <= fold_left crc_bit l c0 < 2 ^ 32 /\
  exists q, 0 <= q /\
    Z.lxor (poly_of_bits l * 2 ^ 32) (rev_bits 32 c0 * 2 ^ Z.of_nat (length l))
    = Z.lxor (clmul q castagnoli) (rev_bits 32 (fold_left crc_bit l c0)).
Proof.
  intros Hc. induction l as [|b l IH] using rev_ind; intros Hl.
  - cbn [fold_left length]. split; [exact Hc|]. exists 0. split; [lia|].
    cbn [clmul poly_of_bits fold_left]. change (2 ^ Z.of_nat 0) with 1.
    rewrite Z.mul_0_l, !Z.lxor_0_l. lia.
  - apply Forall_app in Hl. destruct Hl as [Hl Hb]. inversion Hb as [|? ? Hb1 _]; subst.
    destruct (IH Hl) as [R (q & Hq & E)]. rewrite fold_left_app. cbn [fold_left].
    set (c := fold_left crc_bit l c0) in *. rewrite crc_bit_step.
    assert (X : 0 <= Z.lxor c b < 2 ^ 32) by (apply lxor_range; lia).
    split; [now apply step_range|].
    exists (2 * q + Z.b2z (Z.odd (Z.lxor c b))). split; [clear - Hq; destruct (Z.odd _); cbn [Z.b2z]; lia|].
    rewrite clmul_double by (try lia; destruct (Z.odd _); auto).
    replace (Z.b2z (Z.odd (Z.lxor c b)) =? 1) with (Z.odd (Z.lxor c b)) by (destruct (Z.odd _); reflexivity).
    rewrite Z.lxor_assoc, <- rev_step by exact X.
    rewrite rev_bits_lxor, (rev_bit0 b Hb1), double_lxor.
    rewrite <- Z.lxor_assoc, <- double_lxor, <- E.
    rewrite poly_of_bits_snoc, app_length, Nat.add_1_r, Nat2Z.inj_succ, Z.pow_succ_r by lia.
    rewrite double_lxor.
    replace (2 * (poly_of_bits l * 2 ^ 32)) with (2 * poly_of_bits l * 2 ^ 32) by ring.
    replace (2 * (rev_bits 32 c0 * 2 ^ Z.of_nat (length l))) with (rev_bits 32 c0 * (2 * 2 ^ Z.of_nat (length l))) by ring.
    rewrite Z.lxor_assoc, (Z.lxor_comm (rev_bits 32 c0 * _)), <- Z.lxor_assoc. f_equal.
    replace (2 * (b * 2 ^ 31)) with (b * 2 ^ 32) by lia.
    rewrite <- !(Z.shiftl_mul_pow2 _ 32) by lia. rewrite <- Z.shiftl_lxor. f_equal.
    rewrite Z.lxor_comm, (Z.mul_comm 2). change (poly_of_bits l * 2) with (poly_of_bits l * 2 ^ 1).
    rewrite lxor_disjoint by (simpl; lia). lia.
Qed.

Lemma bits_01 l : Forall (fun b => b = 0 \/ b = 1) (bits l).
Proof.
  unfold bits. induction l as [|b l IH]; cbn [map concat]; [constructor|].
  apply Forall_app. split; [apply byte_bits_01|exact IH].
Qed.

Lemma bits_length l : length (bits l) = (8 * length l)%nat.
Proof.
  unfold bits. induction l as [|b l IH]; cbn [map concat length]; [reflexivity|].
  rewrite app_length, IH. change (length (byte_bits b)) with 8%nat. lia.
Qed.

Lemma crc_is_remainder l prev : in_u 32 prev ->
  is_remainder
    (Z.lxor (poly_of_bits (bits l) * 2 ^ 32)
            (rev_bits 32 (Z.lxor prev 0xFFFFFFFF) * 2 ^ (8 * Z.of_nat (length l))))
    (rev_bits 32 (Z.lxor (crc32c l prev) 0xFFFFFFFF)).
Proof.
  intros Hp. unfold crc32c. rewrite Z.lxor_assoc, Z.lxor_nilpotent, Z.lxor_0_r.
  assert (R : 0 <= Z.lxor prev 0xFFFFFFFF < 2 ^ 32) by (apply lxor_range; [lia|exact Hp|lia]).
  destruct (crc_division _ (bits l) R (bits_01 l)) as [_ (q & Hq & E)].
  split; [apply (rev_bits_range 32)|]. exists q. split; [exact Hq|].
  rewrite bits_length in E. rewrite <- E. repeat f_equal. lia.
Qed.

(** A remainder is unique: the generator has degree 32. *)
Lemma clmul_bound q : clmul_pos q castagnoli >= 2 ^ 32.
Proof.
  assert (H : forall q, 2 ^ (32 + Z.log2 (Z.pos q)) <= clmul_pos q castagnoli < 2 ^ (33 + Z.log2 (Z.pos q))).
  { clear q. intros q. induction q as [q IH|q IH|].
    - change (clmul_pos q~1 castagnoli) with (Z.lxor (2 * clmul_pos q castagnoli) castagnoli). rewrite (Pos2Z.inj_xI q), Z.log2_succ_double by lia.
      pose proof (Z.log2_nonneg (Z.pos q)). set (k := Z.log2 (Z.pos q)) in *.
      set (v := 2 * clmul_pos q castagnoli).
      assert (V : 2 ^ (33 + k) <= v < 2 ^ (34 + k)).
      { unfold v. replace (33 + k) with (Z.succ (32 + k)) by lia. replace (34 + k) with (Z.succ (33 + k)) by lia.
        rewrite !Z.pow_succ_r by lia. lia. }
      replace (32 + Z.succ k) with (33 + k) by lia. replace (33 + Z.succ k) with (34 + k) by lia.
      assert (C : 0 <= castagnoli < 2 ^ (33 + k)).
      { assert (2 ^ 33 <= 2 ^ (33 + k)) by (apply Z.pow_le_mono_r; lia). unfold castagnoli. lia. }
      assert (P : 2 ^ (34 + k) = 2 * 2 ^ (33 + k)) by (replace (34 + k) with (Z.succ (33 + k)) by lia; rewrite Z.pow_succ_r by lia; reflexivity).
      split.
      + assert (E : v = v mod 2 ^ (33 + k) + 1 * 2 ^ (33 + k)).
        { rewrite <- (Z.mod_unique v (2 ^ (33 + k)) 1 (v - 2 ^ (33 + k))); lia. }
        rewrite E. rewrite <- lxor_disjoint by (try lia; apply Z.mod_pos_bound; lia).
        rewrite Z.lxor_assoc, (Z.lxor_comm (1 * _)), <- Z.lxor_assoc.
        assert (R : 0 <= Z.lxor (v mod 2 ^ (33 + k)) castagnoli < 2 ^ (33 + k)).
        { apply lxor_range; try lia; apply Z.mod_pos_bound; lia. }
        rewrite lxor_disjoint by lia. lia.
      + apply lxor_range; lia.
    - change (clmul_pos q~0 castagnoli) with (2 * clmul_pos q castagnoli). rewrite (Pos2Z.inj_xO q), Z.log2_double by lia.
      pose proof (Z.log2_nonneg (Z.pos q)).
      replace (32 + Z.succ (Z.log2 (Z.pos q))) with (Z.succ (32 + Z.log2 (Z.pos q))) by lia.
      replace (33 + Z.succ (Z.log2 (Z.pos q))) with (Z.succ (33 + Z.log2 (Z.pos q))) by lia.
      rewrite !Z.pow_succ_r by lia. lia.
    - cbn. unfold castagnoli. lia. }
  specialize (H q). pose proof (Z.log2_nonneg (Z.pos q)).
  assert (2 ^ 32 <= 2 ^ (32 + Z.log2 (Z.pos q))) by (apply Z.pow_le_mono_r; lia). lia.
Qed.

Lemma clmul_lxor n : forall a b, 0 <= a < 2 ^ Z.of_nat n -> 0 <= b < 2 ^ Z.of_nat n ->
  Z.lxor (clmul a castagnoli) (clmul b castagnoli) = clmul (Z.lxor a b) castagnoli.
Proof.
  induction n as [|n IH]; intros a b Ha Hb.
  - change (2 ^ Z.of_nat 0) with 1 in *. assert (a = 0) by lia. assert (b = 0) by lia. subst. reflexivity.
  - rewrite Nat2Z.inj_succ, Z.pow_succ_r in Ha, Hb by lia.
    rewrite (Z.div_mod a 2), (Z.div_mod b 2) at 1 by lia.
    assert (Ma : a mod 2 = 0 \/ a mod 2 = 1) by lia. assert (Mb : b mod 2 = 0 \/ b mod 2 = 1) by lia.
    rewrite !clmul_double by lia.
    assert (E : Z.lxor a b = 2 * Z.lxor (a / 2) (b / 2) + Z.lxor (a mod 2) (b mod 2)).
    { rewrite (Z.div_mod (Z.lxor a b) 2) by lia. rewrite <- !Z.div2_div, div2_lxor, lxor_mod2. reflexivity. }
    rewrite E, clmul_double.
    + rewrite <- IH by lia. rewrite lxor4, double_lxor. f_equal.
      destruct Ma as [-> | ->], Mb as [-> | ->]; cbn; reflexivity.
    + apply Z.lxor_nonneg. lia.
    + destruct Ma as [-> | ->], Mb as [-> | ->]; cbn; auto.
Qed.

Lemma remainder_unique a r1 r2 : is_remainder a r1 -> is_remainder a r2 -> r1 = r2.
Proof.
  intros [R1 (q1 & Q1 & E1)] [R2 (q2 & Q2 & E2)].
  assert (X : clmul (Z.lxor q1 q2) castagnoli = Z.lxor r1 r2).
  { set (n := Z.to_nat (1 + Z.max (Z.log2 q1) (Z.log2 q2))).
    assert (B : forall q, 0 <= q -> Z.log2 q <= Z.max (Z.log2 q1) (Z.log2 q2) -> 0 <= q < 2 ^ Z.of_nat n).
    { intros q Hq L. split; [exact Hq|]. pose proof (Z.log2_nonneg q1). destruct (Z.eq_dec q 0) as [->|].
      - apply pow2_pos. lia.
      - apply Z.log2_lt_pow2; lia. }
    rewrite <- (clmul_lxor n) by (apply B; lia).
    assert (Y : Z.lxor (Z.lxor (clmul q1 castagnoli) r1) (Z.lxor (clmul q2 castagnoli) r2) = 0).
    { rewrite <- E1, <- E2. apply Z.lxor_nilpotent. }
    rewrite lxor4 in Y. apply Z.lxor_eq in Y. exact Y. }
  pose proof (lxor_range r1 r2 32 ltac:(lia) R1 R2) as R.
  assert (N : 0 <= Z.lxor q1 q2) by (apply Z.lxor_nonneg; lia).
  destruct (Z.lxor q1 q2) as [|q|q]; try lia.
  - cbn in X. symmetry in X. now apply Z.lxor_eq in X.
  - cbn [clmul] in X. pose proof (clmul_bound q). lia.
Qed.
