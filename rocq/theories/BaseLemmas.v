(** * Lemmas about Base. *)
From Verif Require Export Base.

(** ** Lists *)

Lemma skipn_skipn {A} (x y : nat) (l : list A) : skipn x (skipn y l) = skipn (x + y) l.
Proof.
  revert l; induction y as [|y IH]; intros l.
  - now rewrite Nat.add_0_r.
  - destruct l as [|a l]; [now rewrite !skipn_nil|].
    rewrite Nat.add_succ_r. simpl. apply IH.
Qed.

Lemma firstn_app_exact {A} (l1 l2 : list A) n : n = length l1 -> firstn n (l1 ++ l2) = l1.
Proof. intros ->. rewrite firstn_app, Nat.sub_diag, firstn_all. simpl. apply app_nil_r. Qed.

Lemma skipn_app_exact {A} (l1 l2 : list A) n : n = length l1 -> skipn n (l1 ++ l2) = l2.
Proof. intros ->. rewrite skipn_app, skipn_all, Nat.sub_diag. reflexivity. Qed.

Lemma Forall_firstn {A} (P : A -> Prop) n l : Forall P l -> Forall P (firstn n l).
Proof.
  revert l; induction n; intros l H; simpl; [constructor|].
  destruct l; [constructor|]. inversion H; subst. constructor; auto.
Qed.

Lemma Forall_skipn {A} (P : A -> Prop) n l : Forall P l -> Forall P (skipn n l).
Proof.
  revert l; induction n; intros l H; simpl; [auto|].
  destruct l; [constructor|]. inversion H; subst. auto.
Qed.

Lemma Forall_repeat {A} (P : A -> Prop) n x : P x -> Forall P (repeat x n).
Proof. intros H; induction n; simpl; constructor; auto. Qed.

Lemma firstn_plus {A} (a b : nat) (l : list A) :
  firstn (a + b) l = firstn a l ++ firstn b (skipn a l).
Proof.
  revert l; induction a as [|a IH]; intros l; simpl; [reflexivity|].
  destruct l; simpl; [now rewrite firstn_nil|]. now rewrite IH.
Qed.

Lemma chunks_app {A} n k (l1 l2 : list A) :
  length l1 = n -> chunks n (S k) (l1 ++ l2) = l1 :: chunks n k l2.
Proof.
  intros H. cbn [chunks]. rewrite firstn_app_exact, skipn_app_exact by auto. reflexivity.
Qed.

Lemma chunks_length {A} n k (l : list A) : length (chunks n k l) = k.
Proof. revert l; induction k; intros; simpl; auto. Qed.

Lemma chunks_Forall_len {A} n k (l : list A) :
  (n * k <= length l)%nat -> Forall (fun c => length c = n) (chunks n k l).
Proof.
  revert l; induction k as [|k IH]; intros l H; simpl; [constructor|].
  constructor; [rewrite firstn_length; lia|].
  apply IH. rewrite skipn_length; lia.
Qed.

Lemma chunks_Forall {A} (P : A -> Prop) n k (l : list A) :
  Forall P l -> Forall (Forall P) (chunks n k l).
Proof.
  revert l; induction k as [|k IH]; intros l H; simpl; constructor;
    auto using Forall_firstn, Forall_skipn.
Qed.

Lemma last_cons {A} (a : A) l d : last (a :: l) d = last l a.
Proof.
  revert a d; induction l as [|b l IH]; intros a d; [reflexivity|].
  change (last (a :: b :: l) d) with (last (b :: l) d). rewrite !IH. reflexivity.
Qed.

Lemma last_app_one {A} (l : list A) a d : last (l ++ [a]) d = a.
Proof. induction l as [|b l IH]; [reflexivity|]. simpl. rewrite IH. destruct l; reflexivity. Qed.

Lemma last_app {A} (l1 l2 : list A) d : last (l1 ++ l2) d = last l2 (last l1 d).
Proof.
  revert d; induction l1 as [|a l1 IH]; intros d; simpl app; [reflexivity|].
  rewrite !last_cons. apply IH.
Qed.

(** ** Outcomes *)

Lemma bind_ok {A B} (m : res A) (f : A -> res B) b :
  bind m f = Ok b -> exists a, m = Ok a /\ f a = Ok b.
Proof. destruct m; simpl; intros H; try discriminate. eauto. Qed.

(** ** C integers *)

Lemma pow2_pos w : 0 <= w -> 0 < 2 ^ w.
Proof. intros; apply Z.pow_pos_nonneg; lia. Qed.

Lemma pow2_split w : 1 <= w -> 2 ^ w = 2 * 2 ^ (w - 1).
Proof. intros. rewrite <- Z.pow_succ_r by lia. f_equal; lia. Qed.

Lemma swrap_id w v : 1 <= w -> in_s w v -> swrap w v = v.
Proof.
  intros Hw [H1 H2]. unfold swrap.
  pose proof (pow2_split w Hw) as Hp. pose proof (pow2_pos (w - 1) ltac:(lia)) as Hq.
  set (P := 2 ^ (w - 1)) in *. rewrite Hp.
  destruct (Z.ltb_spec (v mod (2 * P)) P) as [Hl|Hl].
  - assert (0 <= v mod (2 * P) < 2 * P) by (apply Z.mod_pos_bound; lia).
    assert (v / (2 * P) = 0 \/ v / (2*P) = -1) as [E|E].
    { assert (-1 <= v / (2*P) < 1); [|lia]. split; [apply Z.div_le_lower_bound|apply Z.div_lt_upper_bound]; lia. }
    + rewrite Z.mod_eq by lia. rewrite E. lia.
    + rewrite Z.mod_eq in * by lia. rewrite E in *. lia.
  - assert (0 <= v mod (2 * P) < 2 * P) by (apply Z.mod_pos_bound; lia).
    assert (v / (2 * P) = 0 \/ v / (2*P) = -1) as [E|E].
    { assert (-1 <= v / (2*P) < 1); [|lia]. split; [apply Z.div_le_lower_bound|apply Z.div_lt_upper_bound]; lia. }
    + rewrite Z.mod_eq in * by lia. rewrite E in *. lia.
    + rewrite Z.mod_eq in * by lia. rewrite E in *. lia.
Qed.

Lemma swrap_mod w v : 0 <= w -> swrap w (v mod 2 ^ w) = swrap w v.
Proof. intros. unfold swrap. rewrite Z.mod_mod; [reflexivity|]. pose proof (pow2_pos w); lia. Qed.

Lemma swrap_range w v : 1 <= w -> in_s w (swrap w v).
Proof.
  intros Hw. unfold swrap, in_s.
  pose proof (pow2_split w Hw) as Hp. pose proof (pow2_pos (w - 1) ltac:(lia)) as Hq.
  assert (0 <= v mod 2 ^ w < 2 ^ w) by (apply Z.mod_pos_bound; lia).
  destruct (Z.ltb_spec (v mod 2 ^ w) (2 ^ (w - 1))); lia.
Qed.

Lemma uwrap_range w v : 0 <= w -> in_u w (uwrap w v).
Proof. intros. apply Z.mod_pos_bound, pow2_pos; auto. Qed.

Lemma uwrap_id w v : in_u w v -> uwrap w v = v.
Proof. intros [? ?]. apply Z.mod_small; auto. Qed.

Lemma in_sb_spec w v : in_sb w v = true <-> in_s w v.
Proof. unfold in_sb, in_s. lia. Qed.

Lemma sarith_ok m w v : in_s w v -> sarith m w v = Ok v.
Proof. intros H. unfold sarith. apply in_sb_spec in H. now rewrite H. Qed.

Lemma sarith_wrap w v : 1 <= w -> sarith Wrap w v = Ok (swrap w v).
Proof.
  intros Hw. unfold sarith. destruct (in_sb w v) eqn:E; auto.
  apply in_sb_spec in E. now rewrite swrap_id.
Qed.

(** ** Bytes *)

Lemma le_bytes_length n v : length (le_bytes n v) = n.
Proof. revert v; induction n; intros; simpl; auto. Qed.

Lemma be_bytes_length n v : length (be_bytes n v) = n.
Proof. unfold be_bytes. now rewrite rev_length, le_bytes_length. Qed.

Lemma le_bytes_ok n v : bytes_ok (le_bytes n v).
Proof.
  revert v; induction n; intros; simpl; constructor; [|apply IHn].
  unfold byte_ok. apply Z.mod_pos_bound; lia.
Qed.

Lemma Forall_rev' {A} (P : A -> Prop) l : Forall P l -> Forall P (rev l).
Proof. apply Forall_rev. Qed.

Lemma be_bytes_ok n v : bytes_ok (be_bytes n v).
Proof. apply Forall_rev, le_bytes_ok. Qed.

Lemma pow256 n : 2 ^ (8 * Z.of_nat n) = 256 ^ Z.of_nat n.
Proof. change 256 with (2 ^ 8). rewrite <- Z.pow_mul_r by lia. reflexivity. Qed.

Lemma pow256_S n : 256 ^ Z.of_nat (S n) = 256 * 256 ^ Z.of_nat n.
Proof. rewrite Nat2Z.inj_succ, Z.pow_succ_r by lia. reflexivity. Qed.

Lemma le_val_le_bytes n v : le_val (le_bytes n v) = v mod 2 ^ (8 * Z.of_nat n).
Proof.
  rewrite pow256. revert v; induction n as [|n IH]; intros v.
  - simpl. now rewrite Z.mod_1_r.
  - cbn [le_bytes le_val]. rewrite IH, pow256_S.
    pose proof (Z.pow_pos_nonneg 256 (Z.of_nat n) ltac:(lia) ltac:(lia)).
    rewrite (Z.rem_mul_r v 256) by lia. reflexivity.
Qed.

Lemma le_val_range l : bytes_ok l -> 0 <= le_val l < 2 ^ (8 * Z.of_nat (length l)).
Proof.
  rewrite pow256. induction 1 as [|b l Hb Hl IH]; [simpl; lia|].
  cbn [le_val length]. rewrite pow256_S. unfold byte_ok in Hb. nia.
Qed.

Lemma le_bytes_le_val l : bytes_ok l -> le_bytes (length l) (le_val l) = l.
Proof.
  induction 1 as [|b l Hb Hl IH]; [reflexivity|].
  cbn [length le_bytes le_val]. unfold byte_ok in Hb.
  rewrite (Z.mul_comm 256), Z.mod_add, Z.mod_small by lia.
  rewrite Z.div_add, (Z.div_small b) by lia. now rewrite Z.add_0_l, IH.
Qed.

Lemma be_val_be_bytes n v : be_val (be_bytes n v) = v mod 2 ^ (8 * Z.of_nat n).
Proof. unfold be_val, be_bytes. rewrite rev_involutive. apply le_val_le_bytes. Qed.

Lemma be_val_range l : bytes_ok l -> 0 <= be_val l < 2 ^ (8 * Z.of_nat (length l)).
Proof. intros. unfold be_val. rewrite <- rev_length. apply le_val_range, Forall_rev, H. Qed.

Lemma be_bytes_be_val l : bytes_ok l -> be_bytes (length l) (be_val l) = l.
Proof.
  intros. unfold be_bytes, be_val. rewrite <- rev_length.
  rewrite le_bytes_le_val by now apply Forall_rev. apply rev_involutive.
Qed.

Lemma host_bytes_length hb n v : length (host_bytes hb n v) = n.
Proof. destruct hb; [apply be_bytes_length|apply le_bytes_length]. Qed.

Lemma host_bytes_ok hb n v : bytes_ok (host_bytes hb n v).
Proof. destruct hb; [apply be_bytes_ok|apply le_bytes_ok]. Qed.

Lemma host_val_range hb l : bytes_ok l -> 0 <= host_val hb l < 2 ^ (8 * Z.of_nat (length l)).
Proof. destruct hb; [apply be_val_range|apply le_val_range]. Qed.

Lemma host_val_bytes hb n v : host_val hb (host_bytes hb n v) = v mod 2 ^ (8 * Z.of_nat n).
Proof. destruct hb; [apply be_val_be_bytes|apply le_val_le_bytes]. Qed.

Lemma host_bytes_val hb l : bytes_ok l -> host_bytes hb (length l) (host_val hb l) = l.
Proof. destruct hb; [apply be_bytes_be_val|apply le_bytes_le_val]. Qed.

Lemma gswap_if_length sw l : length (gswap_if sw l) = length l.
Proof. destruct sw; simpl; [apply rev_length|reflexivity]. Qed.

Lemma gswap_if_ok sw l : bytes_ok l -> bytes_ok (gswap_if sw l).
Proof. destruct sw; simpl; [apply Forall_rev|auto]. Qed.

Lemma gswap_if_invol sw l : gswap_if sw (gswap_if sw l) = l.
Proof. destruct sw; simpl; [apply rev_involutive|reflexivity]. Qed.

(** Swapped host order depends only on [xorb hb sw]. *)
Lemma gswap_host_bytes hb sw n v :
  gswap_if sw (host_bytes hb n v) = host_bytes (xorb hb sw) n v.
Proof.
  destruct hb, sw; simpl; unfold gswap, be_bytes; rewrite ?rev_involutive; reflexivity.
Qed.

Lemma gswap_host_val hb sw l :
  host_val hb (gswap_if sw l) = host_val (xorb hb sw) l.
Proof.
  destruct hb, sw; simpl; unfold gswap, be_val; rewrite ?rev_involutive; reflexivity.
Qed.

(** ** Bit ranges *)

Lemma lor_disjoint_add a b k :
  0 <= k -> 0 <= a < 2 ^ k -> 0 <= b -> Z.lor a (Z.shiftl b k) = a + b * 2 ^ k.
Proof.
  intros Hk Ha Hb. rewrite <- Z.shiftl_mul_pow2 by lia.
  rewrite Z.add_nocarry_lxor.
  - apply Z.bits_inj'. intros n Hn. rewrite Z.lxor_spec, Z.lor_spec.
    destruct (Z.testbit a n) eqn:E1; [|simpl; now destruct (Z.testbit (Z.shiftl b k) n)].
    rewrite Z.shiftl_spec by lia.
    destruct (Z.ltb_spec n k).
    + rewrite Z.testbit_neg_r by lia. reflexivity.
    + rewrite (Z.bits_above_log2 a n) in E1; [discriminate|lia|].
      destruct (Z.eq_dec a 0) as [->|]; [simpl; rewrite Z.bits_0 in E1; discriminate|].
      assert (Z.log2 a < k) by (apply Z.log2_lt_pow2; lia). lia.
  - apply Z.bits_inj'. intros n Hn. rewrite Z.land_spec, Z.bits_0, Z.shiftl_spec by lia.
    destruct (Z.ltb_spec n k).
    + rewrite (Z.testbit_neg_r b) by lia. apply andb_false_r.
    + destruct (Z.eq_dec a 0) as [->|]; [now rewrite Z.bits_0|].
      assert (Z.log2 a < k) by (apply Z.log2_lt_pow2; lia).
      rewrite (Z.bits_above_log2 a n) by lia. reflexivity.
Qed.

Lemma land_ones_mod v k : 0 <= k -> Z.land v (2 ^ k - 1) = v mod 2 ^ k.
Proof. intros. rewrite <- Z.land_ones by lia. f_equal. rewrite Z.ones_equiv. lia. Qed.

Lemma lor_bound a b k : 0 <= k -> 0 <= a < 2 ^ k -> 0 <= b < 2 ^ k -> 0 <= Z.lor a b < 2 ^ k.
Proof.
  intros Hk Ha Hb. split; [apply Z.lor_nonneg; lia|].
  destruct (Z.eq_dec (Z.lor a b) 0) as [->|]; [lia|].
  apply Z.log2_lt_pow2; [assert (0 <= Z.lor a b) by (apply Z.lor_nonneg; lia); lia|].
  rewrite Z.log2_lor by lia.
  destruct (Z.eq_dec k 0) as [->|]; [assert (a = 0) as -> by lia; assert (b = 0) as -> by lia; simpl in *; lia|].
  apply Z.max_lub_lt.
  - destruct (Z.eq_dec a 0) as [->|]; [simpl; lia|]. apply Z.log2_lt_pow2; lia.
  - destruct (Z.eq_dec b 0) as [->|]; [simpl; lia|]. apply Z.log2_lt_pow2; lia.
Qed.

(** ** Finite sweeps lifted to ranges *)

(** [f] holds of all values whose binary expansion extends [acc] by [n] bits. *)
Fixpoint sweep (n : nat) (f : Z -> bool) (acc : Z) : bool :=
  match n with
  | O => f acc
  | S n' => sweep n' f (2 * acc) && sweep n' f (2 * acc + 1)
  end.

Lemma sweep_spec n f : forall acc, sweep n f acc = true ->
  forall v, acc * 2 ^ Z.of_nat n <= v < (acc + 1) * 2 ^ Z.of_nat n -> f v = true.
Proof.
  induction n as [|n IH]; intros acc H v Hv; cbn [sweep] in H.
  - replace v with acc by (change (2 ^ Z.of_nat 0) with 1 in Hv; lia). exact H.
  - apply andb_prop in H. destruct H as [H0 H1].
    rewrite Nat2Z.inj_succ, Z.pow_succ_r in Hv by lia.
    destruct (Z.lt_ge_cases v ((2 * acc + 1) * 2 ^ Z.of_nat n)).
    + apply (IH (2 * acc) H0). split; nia.
    + apply (IH (2 * acc + 1) H1). split; nia.
Qed.

Lemma sweep_below n f : sweep n f 0 = true -> forall v, 0 <= v < 2 ^ Z.of_nat n -> f v = true.
Proof. intros H v Hv. apply (sweep_spec n f 0 H). lia. Qed.

Lemma In_firstn {A} n (l : list A) x : In x (firstn n l) -> In x l.
Proof. revert l; induction n; intros [|a l]; simpl; try tauto. intros [->|H]; auto. Qed.
