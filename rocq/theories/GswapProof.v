(** * The mask-and-shift byte swaps reverse the bytes of a value. *)

From Verif Require Import Base BaseLemmas.
From Coq Require Import Btauto.

Lemma land_byte d k : 0 <= k -> Z.land d (Z.shiftl 255 k) = Z.shiftl (Z.shiftr d k mod 256) k.
Proof.
  intros Hk. change 255 with (Z.ones 8). change 256 with (2 ^ 8). rewrite <- Z.land_ones by lia.
  apply Z.bits_inj'. intros n Hn. rewrite Z.land_spec.
  destruct (Z.lt_ge_cases n k).
  - rewrite !Z.shiftl_spec_low by lia. apply andb_false_r.
  - rewrite !Z.shiftl_spec by lia. rewrite Z.land_spec, Z.shiftr_spec by lia.
    replace (n - k + k) with n by lia. reflexivity.
Qed.

Lemma le_val_lor b l : byte_ok b -> bytes_ok l -> le_val (b :: l) = Z.lor b (Z.shiftl (le_val l) 8).
Proof.
  intros Hb Hl. pose proof (le_val_range l Hl). cbn [le_val].
  rewrite (lor_disjoint_add b (le_val l) 8); [|lia|unfold byte_ok in Hb; change (2 ^ 8) with 256; lia|lia].
  change (2 ^ 8) with 256. lia.
Qed.

Lemma byte_mod v : byte_ok (v mod 256).
Proof. unfold byte_ok. apply Z.mod_pos_bound. lia. Qed.

Lemma shr_shl a n m : 0 <= m <= n -> Z.shiftr (Z.shiftl a n) m = Z.shiftl a (n - m).
Proof. intros. rewrite Z.shiftr_shiftl_l by lia. reflexivity. Qed.

Lemma uwrap_shl_byte w v n : 0 <= n -> n + 8 <= w ->
  uwrap w (Z.shiftl (v mod 256) n) = Z.shiftl (v mod 256) n.
Proof.
  intros Hn Hw. apply uwrap_id. rewrite Z.shiftl_mul_pow2 by lia.
  pose proof (byte_mod v) as [B1 B2]. pose proof (pow2_pos n Hn).
  assert (2 ^ (n + 8) <= 2 ^ w) by (apply Z.pow_le_mono_r; lia).
  rewrite Z.pow_add_r in * by lia. change (2 ^ 8) with 256 in *. unfold in_u. nia.
Qed.

Lemma land_mask d m k : 0 <= k -> m = Z.shiftl 255 k -> Z.land d m = Z.shiftl (d / 2 ^ k mod 256) k.
Proof. intros Hk ->. rewrite land_byte by auto. now rewrite Z.shiftr_div_pow2. Qed.

(** A byte taken at bit [k] and moved down or up to bit [j]. *)
Lemma move_down d m k s : 0 <= s <= k -> m = Z.shiftl 255 k ->
  Z.shiftr (Z.land d m) s = Z.shiftl (d / 2 ^ k mod 256) (k - s).
Proof. intros Hk E. rewrite (land_mask d m k) by (auto; lia). apply shr_shl; lia. Qed.

Lemma move_up w d m k s : 0 <= s -> 0 <= k -> k + s + 8 <= w -> m = Z.shiftl 255 k ->
  uwrap w (Z.shiftl (Z.land d m) s) = Z.shiftl (d / 2 ^ k mod 256) (k + s).
Proof.
  intros Hs Hk Hw E. rewrite (land_mask d m k) by (auto; lia).
  rewrite Z.shiftl_shiftl by lia. apply uwrap_shl_byte; lia.
Qed.

Lemma le_val_nil : le_val [] = 0.
Proof. reflexivity. Qed.

Lemma le_bytes_div n d : forall k, 0 <= k ->
  le_bytes n (d / 2 ^ k) = map (fun i => d / 2 ^ (k + 8 * Z.of_nat i) mod 256) (seq 0 n).
Proof.
  induction n as [|n IH]; intros k Hk; [reflexivity|].
  cbn [le_bytes seq map]. f_equal; [do 3 f_equal; lia|].
  rewrite <- seq_shift, map_map.
  change 256 with (2 ^ 8) at 1. rewrite Z.div_div by (try apply pow2_pos; try lia; apply Z.pow_nonzero; lia).
  rewrite <- Z.pow_add_r by lia. rewrite IH by lia. apply map_ext. intros i. do 3 f_equal. lia.
Qed.

Lemma le_bytes_map n d : le_bytes n d = map (fun i => d / 2 ^ (8 * Z.of_nat i) mod 256) (seq 0 n).
Proof.
  replace (le_bytes n d) with (le_bytes n (d / 2 ^ 0)) by (now rewrite Z.div_1_r).
  rewrite le_bytes_div by lia. apply map_ext. intros i. reflexivity.
Qed.

Ltac lor_bits := apply Z.bits_inj'; intros n Hn; rewrite !Z.lor_spec; btauto.

Ltac swap_tac :=
  rewrite !le_val_lor by (first [apply byte_mod | repeat (apply Forall_cons; [apply byte_mod|]); apply Forall_nil]); rewrite le_val_nil;
  rewrite Z.shiftl_0_l, Z.lor_0_r; rewrite ?Z.shiftl_lor;
  rewrite ?Z.shiftl_shiftl by lia;
  cbn [Z.add Z.sub Z.opp Pos.add Pos.succ Z.pos_sub Pos.pred_double Z.double Z.succ_double Z.pred_double Z.mul Pos.mul Z.of_nat Pos.of_succ_nat];
  rewrite ?Z.shiftl_0_r; lor_bits.

(** libmseed.h:1272-1282 *)
Lemma gswap2v_val d : gswap2v d = le_val (gswap (le_bytes 2 d)).
Proof.
  rewrite le_bytes_map. unfold gswap2v, gswap.
  rewrite (move_down d 0xff00 8 8) by (reflexivity || lia).
  rewrite (move_up 16 d 0x00ff 0 8) by (reflexivity || lia).
  cbn [seq map rev app]. swap_tac.
Qed.

(** libmseed.h:1284-1297 *)
Lemma gswap4v_val d : gswap4v d = le_val (gswap (le_bytes 4 d)).
Proof.
  rewrite le_bytes_map. unfold gswap4v, gswap.
  rewrite (move_down d 0xff000000 24 24), (move_down d 0x00ff0000 16 8) by (reflexivity || lia).
  rewrite (move_up 32 d 0x000000ff 0 24), (move_up 32 d 0x0000ff00 8 8) by (reflexivity || lia).
  cbn [seq map rev app]. swap_tac.
Qed.

(** libmseed.h:1299-1314 *)
Lemma gswap8v_val d : gswap8v d = le_val (gswap (le_bytes 8 d)).
Proof.
  rewrite le_bytes_map. unfold gswap8v, gswap.
  rewrite (move_down d 0xff00000000000000 56 56), (move_down d 0x00ff000000000000 48 40),
          (move_down d 0x0000ff0000000000 40 24), (move_down d 0x000000ff00000000 32 8) by (reflexivity || lia).
  rewrite (move_up 64 d 0x00000000000000ff 0 56), (move_up 64 d 0x000000000000ff00 8 40),
          (move_up 64 d 0x0000000000ff0000 16 24), (move_up 64 d 0x00000000ff000000 24 8) by (reflexivity || lia).
  cbn [seq map rev app fold_left]. rewrite Z.lor_0_l. swap_tac.
Qed.

Lemma gswap_bytes n v d : v = le_val (gswap (le_bytes n d)) -> le_bytes n v = gswap (le_bytes n d).
Proof.
  intros ->. pose proof (le_bytes_le_val (gswap (le_bytes n d))) as E.
  unfold gswap in *. rewrite rev_length, le_bytes_length in E. apply E.
  apply Forall_rev, le_bytes_ok.
Qed.

(** In memory, in either host byte order, the value swap reverses the bytes. *)
Lemma gswapv_correct_lemma hb d :
  host_bytes hb 2 (gswap2v d) = gswap (host_bytes hb 2 d) /\
  host_bytes hb 4 (gswap4v d) = gswap (host_bytes hb 4 d) /\
  host_bytes hb 8 (gswap8v d) = gswap (host_bytes hb 8 d).
Proof.
  pose proof (gswap_bytes 2 _ d (gswap2v_val d)) as E2.
  pose proof (gswap_bytes 4 _ d (gswap4v_val d)) as E4.
  pose proof (gswap_bytes 8 _ d (gswap8v_val d)) as E8.
  unfold host_bytes, be_bytes. rewrite E2, E4, E8. destruct hb; unfold gswap; auto.
Qed.
