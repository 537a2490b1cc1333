(** * Proofs about the extra header routines. *)

From Coq Require Import String.
From Verif Require Import Base BaseLemmas EhModel EhSpec.
Open Scope Z_scope.
Open Scope list_scope.

(** ** Keys and tokens *)

Lemma same_spec : forall a b : list Z, same a b = true <-> a = b.
Proof.
  induction a as [|x a IH]; intros [|y b]; cbn [same]; try (split; congruence).
  rewrite andb_true_iff, Z.eqb_eq, IH. split; [intros (-> & ->); reflexivity|intros E; injection E; auto].
Qed.
Lemma same_refl : forall a : list Z, same a a = true.
Proof. intros a. apply same_spec. reflexivity. Qed.
Lemma same_neq : forall a b : list Z, a <> b -> same a b = false.
Proof. intros a b N. destruct (same a b) eqn:E; [apply same_spec in E; contradiction|reflexivity]. Qed.
Lemma key_dec : forall a b : list Z, {a = b} + {a <> b}.
Proof. exact (list_eq_dec Z.eq_dec). Qed.

Lemma esc_cons : forall c k, esc (c :: k) = (if c =? 126 then [126; 48] else if c =? 47 then [126; 49] else [c]) ++ esc k.
Proof. reflexivity. Qed.
Lemma esc_app : forall a b, esc (a ++ b) = esc a ++ esc b.
Proof. intros. apply flat_map_app. Qed.

Lemma toks_keys : forall ks k acc, toks (esc k ++ written ks) acc = Some (rev acc ++ esc k) :: map (fun k => Some (esc k)) ks.
Proof.
  intros ks.
  assert (E : forall ks k acc, (forall k' ks', ks = k' :: ks' -> toks (esc k' ++ written ks') [] = map (fun k => Some (esc k)) ks) ->
    toks (esc k ++ written ks) acc = Some (rev acc ++ esc k) :: map (fun k => Some (esc k)) ks).
  { clear ks. intros ks k. induction k as [|c k IH]; intros acc H.
    - cbn [esc flat_map app]. rewrite app_nil_r. destruct ks as [|k' ks']; [reflexivity|].
      change (written (k' :: ks')) with (47 :: esc k' ++ written ks'). cbn [toks]. change (47 =? 47) with true. cbn iota.
      rewrite (H k' ks' eq_refl). reflexivity.
    - rewrite esc_cons. destruct (c =? 126) eqn:E1; [|destruct (c =? 47) eqn:E2]; cbn [app toks].
      + change (126 =? 47) with false. change (126 =? 126) with true. change ((48 =? 48) || (48 =? 49)) with true. cbn iota.
        rewrite IH by exact H. cbn [rev]. rewrite <- !app_assoc. reflexivity.
      + change (126 =? 47) with false. change (126 =? 126) with true. change ((49 =? 48) || (49 =? 49)) with true. cbn iota.
        rewrite IH by exact H. cbn [rev]. rewrite <- !app_assoc. reflexivity.
      + rewrite E1, E2. rewrite IH by exact H. cbn [rev]. rewrite <- !app_assoc. reflexivity. }
  induction ks as [|k0 ks IH]; intros k acc; apply E.
  - intros k' ks' F. discriminate F.
  - intros k' ks' F. injection F as <- <-. rewrite IH. reflexivity.
Qed.
Lemma tokens_written : forall ks, ks <> [] -> tokens (written ks) = map (fun k => Some (esc k)) ks.
Proof.
  intros [|k ks] N; [contradiction|]. unfold tokens. change (written (k :: ks)) with (47 :: esc k ++ written ks). cbn [tl].
  rewrite toks_keys. reflexivity.
Qed.

(** A pointer that is not written so stops at a tilde. *)
Lemma toks_other : forall n s acc a, (List.length s <= n)%nat -> rev acc = esc a ->
  (exists k ks, s = esc k ++ written ks) \/ (exists ks, toks s acc = map (fun k => Some (esc k)) ks ++ [None]).
Proof.
  induction n as [|n IH]; intros s acc a L A; destruct s as [|c s]; cbn [List.length] in L; try lia;
    try (left; exists [], []; reflexivity).
  cbn [toks]. destruct (c =? 47) eqn:E1.
  - apply Z.eqb_eq in E1. subst c. destruct (IH s [] [] ltac:(lia) eq_refl) as [(k & ks & E)|(ks & E)].
    + left. exists [], (k :: ks). rewrite E. reflexivity.
    + right. exists (a :: ks). rewrite E, A. reflexivity.
  - destruct (c =? 126) eqn:E2.
    + apply Z.eqb_eq in E2. subst c. destruct s as [|d s]; [right; exists []; reflexivity|].
      destruct ((d =? 48) || (d =? 49)) eqn:E3; [|right; exists []; reflexivity]. cbn [List.length] in L.
      assert (D : esc [if d =? 48 then 126 else 47] = [126; d]).
      { destruct (d =? 48) eqn:E4; [apply Z.eqb_eq in E4; subst; reflexivity|]. cbn [orb] in E3. apply Z.eqb_eq in E3. subst. reflexivity. }
      destruct (IH s (d :: 126 :: acc) (a ++ [if d =? 48 then 126 else 47]) ltac:(lia)) as [(k & ks & E)|(ks & E)].
      { cbn [rev]. rewrite A, esc_app, D, <- app_assoc. reflexivity. }
      * left. exists ((if d =? 48 then 126 else 47) :: k), ks. rewrite E.
        change ((if d =? 48 then 126 else 47) :: k) with ([if d =? 48 then 126 else 47] ++ k). rewrite esc_app, D. reflexivity.
      * right. exists ks. exact E.
    + destruct (IH s (c :: acc) (a ++ [c]) ltac:(lia)) as [(k & ks & E)|(ks & E)].
      { cbn [rev]. rewrite A, esc_app. f_equal. unfold esc. cbn [flat_map]. rewrite E2, E1. reflexivity. }
      * left. exists (c :: k), ks. rewrite esc_cons, E2, E1, E. reflexivity.
      * right. exists ks. exact E.
Qed.
Lemma tokens_other : forall ptr, hd 0 ptr = 47 -> (forall ks, ptr <> written ks) ->
  exists ks, tokens ptr = map (fun k => Some (esc k)) ks ++ [None].
Proof.
  intros [|c ptr] H N; [discriminate|]. cbn [hd] in H. subst c. unfold tokens. cbn [tl].
  destruct (toks_other (List.length ptr) ptr [] [] (le_n _) eq_refl) as [(k & ks & E)|E]; [|exact E].
  exfalso. apply (N (k :: ks)). rewrite E. reflexivity.
Qed.

Lemma esc_length : forall k, (List.length (esc k) = List.length k + escapes (esc k))%nat.
Proof.
  induction k as [|c k IH]; [reflexivity|]. rewrite esc_cons. unfold escapes in *.
  destruct (c =? 126) eqn:E1; [|destruct (c =? 47) eqn:E2]; cbn [app filter List.length].
  - change (126 =? 126) with true. change (126 =? 48) with false. cbn [List.length]. rewrite IH at 1. lia.
  - change (126 =? 126) with true. change (126 =? 49) with false. cbn [List.length]. rewrite IH at 1. lia.
  - rewrite Z.eqb_sym, E1. rewrite IH at 1. lia.
Qed.
Lemma token_len_esc : forall k, token_len (esc k) = List.length k.
Proof. intros k. unfold token_len. rewrite (esc_length k). lia. Qed.

Lemma esc_plain : forall k, escapes (esc k) = 0%nat -> esc k = k.
Proof.
  induction k as [|c k IH]; intros H; [reflexivity|]. rewrite esc_cons in *. unfold escapes in *.
  destruct (c =? 126) eqn:E1; [cbn in H; discriminate|destruct (c =? 47) eqn:E2; [cbn in H; discriminate|]].
  cbn [app filter] in *. rewrite Z.eqb_sym, E1 in H. rewrite IH by exact H. reflexivity.
Qed.
Lemma eq_esc_spec : forall k x, List.length x = List.length k -> (eq_esc x (esc k) = true <-> x = k).
Proof.
  induction k as [|c k IH]; intros [|y x] L; cbn [List.length] in L; try discriminate.
  - cbn. tauto.
  - injection L as L. rewrite esc_cons. destruct (c =? 126) eqn:E1; [|destruct (c =? 47) eqn:E2]; cbn [app eq_esc].
    + change (126 =? 126) with true. change (48 =? 48) with true. cbn iota. rewrite andb_true_iff, (IH x L), Z.eqb_eq. apply Z.eqb_eq in E1.
      split; [intros (-> & ->); subst; reflexivity|intros F; injection F; intros; subst; auto].
    + change (126 =? 126) with true. change (49 =? 48) with false. cbn iota. rewrite andb_true_iff, (IH x L), Z.eqb_eq. apply Z.eqb_eq in E2.
      split; [intros (-> & ->); subst; reflexivity|intros F; injection F; intros; subst; auto].
    + rewrite E1. rewrite andb_true_iff, (IH x L), Z.eqb_eq. split; [intros (-> & ->); reflexivity|intros F; injection F; auto].
Qed.
Lemma token_eq_spec : forall x k, token_eq x (esc k) = true <-> x = k.
Proof.
  intros x k. unfold token_eq. rewrite token_len_esc. destruct (List.length x =? List.length k)%nat eqn:E; cbn [negb].
  - apply Nat.eqb_eq in E. destruct (escapes (esc k) =? 0)%nat eqn:F.
    + apply Nat.eqb_eq in F. rewrite (esc_plain k F). apply same_spec.
    + apply eq_esc_spec. exact E.
  - apply Nat.eqb_neq in E. split; [discriminate|intros ->; contradiction].
Qed.
Lemma token_eq_same : forall x k, token_eq x (esc k) = same x k.
Proof.
  intros x k. destruct (same x k) eqn:E.
  - apply token_eq_spec. apply same_spec. exact E.
  - destruct (token_eq x (esc k)) eqn:F; [|reflexivity]. apply token_eq_spec in F. apply same_spec in F. congruence.
Qed.
Lemma unesc_esc : forall k, unesc (esc k) = k.
Proof.
  induction k as [|c k IH]; [reflexivity|]. rewrite esc_cons. destruct (c =? 126) eqn:E1; [|destruct (c =? 47) eqn:E2]; cbn [app unesc].
  - apply Z.eqb_eq in E1. subst c. change (126 =? 126) with true. change (48 =? 48) with true. cbn iota. rewrite IH. reflexivity.
  - apply Z.eqb_eq in E2. subst c. change (126 =? 126) with true. change (49 =? 48) with false. cbn iota. rewrite IH. reflexivity.
  - rewrite E1, IH. reflexivity.
Qed.
Lemma new_key_esc : forall k, new_key (esc k) = k.
Proof.
  intros k. unfold new_key. destruct (escapes (esc k) =? 0)%nat eqn:E; [apply esc_plain; apply Nat.eqb_eq; exact E|apply unesc_esc].
Qed.

(** ** Indices *)

Definition value (k : list Z) : Z := fold_left (fun a c => 10 * a + (c - 48)) k 0.
Lemma value_snoc : forall k c, value (k ++ [c]) = 10 * value k + (c - 48).
Proof. intros. unfold value. rewrite fold_left_app. reflexivity. Qed.
Lemma value_bound : forall k, Forall (fun c => 48 <= c <= 57) k -> 0 <= value k < 10 ^ Z.of_nat (List.length k).
Proof.
  induction k as [|c k IH] using rev_ind; intros H; [cbn; lia|]. apply Forall_app in H. destruct H as (H1 & H2). inversion H2; subst.
  specialize (IH H1). rewrite value_snoc, app_length. cbn [List.length].
  replace (Z.of_nat (List.length k + 1)) with (Z.succ (Z.of_nat (List.length k))) by lia. rewrite Z.pow_succ_r by lia. lia.
Qed.
Lemma value_pos : forall k, Forall (fun c => 48 <= c <= 57) k -> k <> [] -> hd 0 k <> 48 -> 0 < value k.
Proof.
  induction k as [|c k IH] using rev_ind; intros H N Z0; [contradiction|]. apply Forall_app in H. destruct H as (H1 & H2). inversion H2; subst.
  rewrite value_snoc. destruct k as [|d k]; [cbn [app hd] in Z0; change (value []) with 0; lia|].
  assert (P : 0 < value (d :: k)) by (apply IH; [exact H1|discriminate|exact Z0]). lia.
Qed.
Lemma value_inj : forall k k', Forall (fun c => 48 <= c <= 57) k -> Forall (fun c => 48 <= c <= 57) k' ->
  hd 0 k <> 48 -> hd 0 k' <> 48 -> value k = value k' -> k = k'.
Proof.
  induction k as [|c k IH] using rev_ind; intros k' H H' Z0 Z0' E.
  - destruct k' as [|d k']; [reflexivity|]. pose proof (value_pos (d :: k') H' ltac:(discriminate) Z0') as P. change (value []) with 0 in E. lia.
  - destruct k' as [|c' k' _] using rev_ind.
    + pose proof (value_pos (k ++ [c]) H ltac:(destruct k; discriminate) Z0) as P. change (value []) with 0 in E. lia.
    + rewrite !value_snoc in E. apply Forall_app in H, H'. destruct H as (H1 & H2), H' as (H1' & H2'). inversion H2; inversion H2'; subst.
      assert (c = c') by lia. subst c'. f_equal. apply IH; try assumption; try lia.
      * destruct k; [cbn; lia|exact Z0].
      * destruct k'; [cbn; lia|exact Z0'].
Qed.
Lemma index_inj : forall k k' i, index_of k i -> index_of k' i -> k = k'.
Proof.
  intros k k' i (N & D & L & _ & E) (N' & D' & L' & _ & E'). fold (value k) in E. fold (value k') in E'.
  destruct (Z.eq_dec (hd 0 k) 48) as [Z0|Z0]; destruct (Z.eq_dec (hd 0 k') 48) as [Z0'|Z0'].
  - rewrite (L Z0), (L' Z0'). reflexivity.
  - rewrite (L Z0) in E. pose proof (value_pos k' D' N' Z0'). change (value [48]) with 0 in E. lia.
  - rewrite (L' Z0') in E'. pose proof (value_pos k D N Z0). change (value [48]) with 0 in E'. lia.
  - apply value_inj; try assumption. lia.
Qed.
Lemma index_fun : forall k i i', index_of k i -> index_of k i' -> i = i'.
Proof. intros k i i' (_ & _ & _ & _ & E) (_ & _ & _ & _ & E'). congruence. Qed.

Lemma idx_digits_ok : forall k num, 0 <= num -> (num + 1) * 10 ^ Z.of_nat (List.length k) <= 10 ^ 19 -> forall i,
  idx_digits k num = Some i <-> Forall (fun c => 48 <= c <= 57) k /\ fold_left (fun a c => 10 * a + (c - 48)) k num = i /\ i <> 0.
Proof.
  induction k as [|c k IH]; intros num N B i; cbn [idx_digits fold_left].
  - destruct (num =? 0) eqn:E.
    + apply Z.eqb_eq in E. split; [discriminate|]. intros (_ & <- & F). contradiction.
    + apply Z.eqb_neq in E. split; [intros F; injection F as <-; auto|intros (_ & <- & _); reflexivity].
  - destruct ((48 <=? c) && (c <=? 57)) eqn:E.
    + assert (C : 48 <= c <= 57) by lia. cbn [List.length] in B. rewrite Nat2Z.inj_succ, Z.pow_succ_r in B by lia.
      assert (P : 1 <= 10 ^ Z.of_nat (List.length k)) by (pose proof (Z.pow_pos_nonneg 10 (Z.of_nat (List.length k)) ltac:(lia) ltac:(lia)); lia).
      assert (Q : num * 10 + (c - 48) + 1 <= 10 ^ 19).
      { apply Z.le_trans with ((num + 1) * 10); [lia|]. apply Z.le_trans with ((num + 1) * (10 * 10 ^ Z.of_nat (List.length k))); [|exact B].
        apply Z.mul_le_mono_nonneg_l; lia. }
      rewrite uwrap_id by (unfold in_u; change (2 ^ 64) with 18446744073709551616; change (10 ^ 19) with 10000000000000000000 in Q; lia).
      replace (num * 10 + (c - 48)) with (10 * num + (c - 48)) in * by lia. rewrite IH.
      * split; intros (F & G); (split; [|exact G]); [constructor; [exact C|exact F]|inversion F; assumption].
      * lia.
      * apply Z.le_trans with ((num + 1) * (10 * 10 ^ Z.of_nat (List.length k))); [|exact B].
        rewrite Z.mul_assoc. apply Z.mul_le_mono_nonneg_r; lia.
    + split; [discriminate|]. intros (F & _). inversion F; subst. lia.
Qed.

Lemma esc_digits : forall k, Forall (fun c => 48 <= c <= 57) k -> esc k = k.
Proof.
  induction k as [|c k IH]; intros H; [reflexivity|]. inversion H; subst. rewrite esc_cons, IH by assumption.
  replace (c =? 126) with false by lia. replace (c =? 47) with false by lia. reflexivity.
Qed.
(** The first characters of a token with escapes show one of them. *)
Lemma firstn_esc : forall k, Forall (fun c => 48 <= c <= 57) (firstn (List.length k) (esc k)) -> esc k = k.
Proof.
  induction k as [|c k IH]; intros H; [reflexivity|]. rewrite esc_cons in *. cbn [List.length] in H.
  destruct (c =? 126) eqn:E1; [cbn [app firstn] in H; inversion H; subst; lia|].
  destruct (c =? 47) eqn:E2; [cbn [app firstn] in H; inversion H; subst; lia|].
  cbn [app firstn] in *. inversion H; subst. rewrite IH by assumption. reflexivity.
Qed.
Lemma token_idx_spec : forall k i, token_idx (esc k) = Some i <-> index_of k i.
Proof.
  intros k i. unfold token_idx. rewrite token_len_esc. destruct ((List.length k =? 0)%nat || (19 <? List.length k)%nat) eqn:E.
  - split; [discriminate|]. intros (N & _ & _ & L & _). destruct k; [contradiction|]. cbn [List.length] in *.
    apply orb_true_iff in E. rewrite Nat.eqb_eq, Nat.ltb_lt in E. lia.
  - apply orb_false_iff in E. rewrite Nat.eqb_neq, Nat.ltb_ge in E. destruct E as (E0 & E1).
    destruct k as [|c k]; [cbn in E0; lia|].
    assert (X : exists d r, esc (c :: k) = d :: r /\ (d = c \/ d = 126)).
    { rewrite esc_cons. destruct (c =? 126); [|destruct (c =? 47)]; cbn [app]; eauto. }
    destruct X as (d & r & X & D). rewrite X.
    destruct (d =? 48) eqn:Z0; [|destruct (d =? 45) eqn:Z1].
    + assert (c = 48) by lia. subst c. cbn [List.length] in *. destruct (1 <? S (List.length k))%nat eqn:E2.
      * apply Nat.ltb_lt in E2. split; [discriminate|]. intros (_ & _ & F & _). specialize (F eq_refl). injection F as ->. cbn in E2. lia.
      * apply Nat.ltb_ge in E2. destruct k as [|? k]; [|cbn in E2; lia]. split.
        -- intros F. injection F as <-. unfold index_of. cbn. repeat split; try lia; [discriminate|repeat constructor; lia].
        -- intros (_ & _ & _ & _ & F). cbn in F. congruence.
    + assert (c = 45) by lia. subst c. split; [discriminate|]. intros (_ & F & _). inversion F; subst. lia.
    + rewrite <- X. split.
      * intros F. apply idx_digits_ok in F; [|lia|].
        2:{ rewrite Z.add_0_l, Z.mul_1_l. apply Z.pow_le_mono_r; [lia|]. rewrite firstn_length. cbn [List.length] in *. lia. }
        destruct F as (F & G & H). assert (Q := firstn_esc (c :: k) F). rewrite Q in *.
        rewrite firstn_all in F, G. unfold index_of. repeat split; try assumption; [discriminate|].
        cbn [hd]. intros ->. injection X as <- <-. discriminate Z0.
      * intros (_ & F & G & _ & H). rewrite (esc_digits (c :: k) F), firstn_all. apply idx_digits_ok; [lia| |].
        -- rewrite Z.add_0_l, Z.mul_1_l. apply Z.pow_le_mono_r; [lia|]. cbn [List.length] in *. lia.
        -- split; [exact F|]. split; [exact H|]. fold (value (c :: k)) in H. rewrite <- H. rewrite (esc_digits (c :: k) F) in X. injection X as <- <-.
           pose proof (value_pos (c :: k) F ltac:(discriminate)) as P. cbn [hd] in P. lia.
Qed.

(** ** Objects and arrays *)

Lemma obj_at_member : forall l k, obj_at l (esc k) = member l k.
Proof. induction l as [|(x, v) l IH]; intros k; cbn [obj_at member]; [reflexivity|]. rewrite token_eq_same, IH. reflexivity. Qed.
Lemma member_spec : forall l k v, member l k = Some v <-> first_member l k v.
Proof.
  induction l as [|(x, w) l IH]; intros k v; cbn [member].
  - split; [discriminate|]. intros (a & b & E & _). destruct a; discriminate E.
  - destruct (same x k) eqn:E.
    + apply same_spec in E. subst x. split.
      * intros F. injection F as <-. exists [], l. split; [reflexivity|intros []].
      * intros (a & b & F & N). destruct a as [|(y, u) a]; injection F; intros; subst; [reflexivity|]. exfalso. apply N. left. reflexivity.
    + rewrite IH. split.
      * intros (a & b & F & N). exists ((x, w) :: a), b. rewrite F. split; [reflexivity|]. cbn [map fst In]. intros [->|I]; [|contradiction].
        rewrite same_refl in E. discriminate.
      * intros (a & b & F & N). destruct a as [|(y, u) a]; injection F; intros; subst; [rewrite same_refl in E; discriminate|].
        exists a, b. split; [reflexivity|]. intros I. apply N. right. exact I.
Qed.
Lemma member_none : forall l k, member l k = None <-> ~ In k (map fst l).
Proof.
  induction l as [|(x, w) l IH]; intros k; cbn [member map fst In]; [tauto|]. destruct (same x k) eqn:E.
  - apply same_spec in E. subst. split; [discriminate|]. intros N. exfalso. apply N. left. reflexivity.
  - rewrite IH. split; [intros N [->|I]; [rewrite same_refl in E; discriminate|contradiction]|tauto].
Qed.
Lemma first_fun : forall l k v w, first_member l k v -> first_member l k w -> v = w.
Proof. intros l k v w A B. apply member_spec in A, B. congruence. Qed.
Lemma first_in : forall l k v, first_member l k v -> In k (map fst l).
Proof. intros l k v (a & b & -> & _). rewrite map_app. apply in_or_app. right. left. reflexivity. Qed.

Lemma member_change : forall l k n q, has l k = true ->
  member (obj_change l (esc k) n) q = if same k q then Some n else member l q.
Proof.
  unfold has. induction l as [|(x, v) l IH]; intros k n q H; cbn [member obj_change] in *; [discriminate|].
  rewrite token_eq_same. destruct (same x k) eqn:E; cbn [member].
  - apply same_spec in E. subst x. destruct (same k q); reflexivity.
  - rewrite (IH k n q H). destruct (same x q) eqn:F; [|reflexivity]. apply same_spec in F. subst q.
    destruct (same k x) eqn:G; [|reflexivity]. apply same_spec in G. subst. rewrite same_refl in E. discriminate.
Qed.
Lemma member_put : forall l k n b q, member (obj_put l k n b) q = if same k q then (if b then None else if has l k then Some n else None) else member l q.
Proof.
  unfold has. induction l as [|(x, v) l IH]; intros k n b q; cbn [member obj_put]; [destruct (same k q), b; reflexivity|].
  destruct (same x k) eqn:E.
  - apply same_spec in E. subst x. destruct b; cbn [member]; rewrite IH; destruct (same k q); reflexivity.
  - cbn [member]. rewrite IH. destruct (same x q) eqn:F; [|reflexivity]. apply same_spec in F. subst q.
    destruct (same k x) eqn:G; [|reflexivity]. apply same_spec in G. subst. rewrite same_refl in E. discriminate.
Qed.
Lemma member_app : forall a b k, member (a ++ b) k = match member a k with Some v => Some v | None => member b k end.
Proof. induction a as [|(x, v) a IH]; intros b k; cbn [member app]; [reflexivity|]. destruct (same x k); [reflexivity|apply IH]. Qed.
Lemma obj_key_esc : forall l k v, member l k = Some v -> obj_key l (esc k) = k.
Proof.
  induction l as [|(x, v) l IH]; intros k w H; cbn [member obj_key] in *; [discriminate|]. rewrite token_eq_same.
  destruct (same x k) eqn:E; [apply same_spec; exact E|exact (IH k w H)].
Qed.

Lemma arr_at_spec : forall l k i, arr_at l (esc k) = Some i <-> index_of k (Z.of_nat i) /\ (i < List.length l)%nat.
Proof.
  intros l k i. unfold arr_at. destruct l as [|v l']; [split; [discriminate|cbn; lia]|]. set (l := v :: l').
  destruct (token_idx (esc k)) as [z|] eqn:E.
  - apply token_idx_spec in E. assert (P : 0 <= z).
    { destruct E as (_ & D & _ & _ & <-). fold (value k). apply value_bound. exact D. }
    destruct (Z.of_nat (List.length l) <=? z) eqn:F.
    + split; [discriminate|]. intros (I & L). rewrite (index_fun _ _ _ E I) in F. lia.
    + split.
      * intros G. injection G as <-. rewrite Z2Nat.id by exact P. split; [exact E|lia].
      * intros (I & L). rewrite (index_fun _ _ _ E I). rewrite Nat2Z.id. reflexivity.
  - split; [discriminate|]. intros (I & _). apply token_idx_spec in I. congruence.
Qed.
Lemma set_nth_length : forall (A : Type) (l : list A) i v, List.length (set_nth i v l) = List.length l.
Proof. induction l as [|x l IH]; intros [|i] v; cbn; auto. Qed.
Lemma nth_set_nth : forall (A : Type) (l : list A) i v n, (i < List.length l)%nat ->
  nth_error (set_nth i v l) n = if (n =? i)%nat then Some v else nth_error l n.
Proof.
  induction l as [|x l IH]; intros [|i] v [|n] H; cbn [List.length] in H; try lia; cbn [set_nth nth_error Nat.eqb]; try reflexivity.
  apply IH. lia.
Qed.

(** ** Walking a path *)

Definition look (v : jv) (ks : list (list Z)) : option jv := getx v (map (fun k => Some (esc k)) ks).
Lemma look_nil : forall v, look v [] = Some v.
Proof. reflexivity. Qed.
Lemma look_obj : forall l k ks, look (JObj l) (k :: ks) = match member l k with Some c => look c ks | None => None end.
Proof. intros. unfold look. cbn [map getx]. rewrite obj_at_member. reflexivity. Qed.
Lemma look_arr : forall l k ks, look (JArr l) (k :: ks) =
  match arr_at l (esc k) with Some i => match nth_error l i with Some c => look c ks | None => None end | None => None end.
Proof. reflexivity. Qed.
Lemma look_spec : forall ks v w, look v ks = Some w <-> at_path v ks w.
Proof.
  induction ks as [|k ks IH]; intros v w.
  - rewrite look_nil. split; [intros E; injection E as <-; constructor|intros H; inversion H; reflexivity].
  - split.
    + destruct v; try discriminate.
      * rewrite look_arr. destruct (arr_at l (esc k)) as [i|] eqn:E; [|discriminate]. apply arr_at_spec in E. destruct E as (E & L).
        destruct (nth_error l i) as [c|] eqn:F; [|discriminate]. intros H. apply IH in H. exact (at_element _ _ _ _ _ _ E F H).
      * rewrite look_obj. destruct (member l k) as [c|] eqn:E; [|discriminate]. apply member_spec in E. intros H. apply IH in H.
        exact (at_member _ _ _ _ _ E H).
    + intros H. inversion H; subst.
      * rewrite look_obj. apply member_spec in H3. rewrite H3. apply IH. assumption.
      * rewrite look_arr. assert (A : arr_at l (esc k) = Some i).
        { apply arr_at_spec. split; [assumption|]. apply nth_error_Some. congruence. }
        rewrite A, H4. apply IH. assumption.
Qed.
Lemma look_none : forall ks v, look v ks = None <-> forall w, ~ at_path v ks w.
Proof.
  intros ks v. split.
  - intros E w H. apply look_spec in H. congruence.
  - intros H. destruct (look v ks) eqn:E; [|reflexivity]. apply look_spec in E. elim (H _ E).
Qed.
Lemma at_fun : forall v ks w w', at_path v ks w -> at_path v ks w' -> w = w'.
Proof. intros v ks w w' A B. apply look_spec in A, B. congruence. Qed.

Lemma getx_bad : forall ks v ts, getx v (map (fun k => Some (esc k)) ks ++ None :: ts) = None.
Proof.
  induction ks as [|k ks IH]; intros v ts; [reflexivity|]. cbn [map app getx]. destruct v; try reflexivity.
  - destruct (arr_at l (esc k)); [|reflexivity]. destruct (nth_error l n); [apply IH|reflexivity].
  - destruct (obj_at l (esc k)); [apply IH|reflexivity].
Qed.
Lemma create_bad : forall ks n ts, create (map (fun k => Some (esc k)) ks ++ None :: ts) n = None.
Proof. induction ks as [|k ks IH]; intros n ts; [reflexivity|]. cbn [map app create]. rewrite IH. reflexivity. Qed.
Lemma putx_bad : forall ks v n ts, putx v (map (fun k => Some (esc k)) ks ++ None :: ts) n = None.
Proof.
  induction ks as [|k ks IH]; intros v n ts; [reflexivity|]. cbn [map app putx]. destruct v; try reflexivity.
  - destruct (arr_at l (esc k)); [|reflexivity]. destruct (nth_error l n0); [rewrite IH|]; reflexivity.
  - destruct (obj_at l (esc k)).
    + rewrite IH. destruct (map (fun k0 : list Z => Some (esc k0)) ks); reflexivity.
    + rewrite create_bad. reflexivity.
Qed.

(** The object made for a path. *)
Lemma create_ok : forall ks n, exists v, create (map (fun k => Some (esc k)) ks) n = Some v /\ look v ks = Some n /\
  (forall qs, apart ks qs -> look v qs = None) /\
  (forall ps qs, ks = ps ++ qs -> qs <> [] -> exists l, look v ps = Some (JObj l)).
Proof.
  induction ks as [|k ks IH]; intros n.
  - exists n. split; [reflexivity|]. split; [reflexivity|]. split.
    + intros qs (c & a & b & p & q & E & _). destruct c; discriminate E.
    + intros ps qs E N. destruct ps; [|discriminate E]. cbn [app] in E. subst. contradiction.
  - destruct (IH n) as (v & E & L & A & K). cbn [map create]. rewrite E, new_key_esc. eexists. split; [reflexivity|]. split.
    + rewrite look_obj. cbn [member]. rewrite same_refl. exact L.
    + split; [|intros [|x ps] qs F N; cbn [app] in F; [eexists; reflexivity|injection F as <- F; rewrite look_obj; cbn [member]; rewrite same_refl; exact (K _ _ F N)]].
      intros qs (c & a & b & p & q & E1 & E2 & N). destruct c as [|x c]; cbn [app] in *; injection E1; intros; subst.
      * rewrite look_obj. cbn [member]. rewrite (same_neq _ _ N). reflexivity.
      * rewrite look_obj. cbn [member]. rewrite same_refl. apply A. exists c, a, b, p, q. auto.
Qed.

(** A change of one member or element. *)
Definition put_in (v : jv) (k : list Z) (c : jv) (v' : jv) : Prop :=
  forall q qs, look v' (q :: qs) = if same k q then look c qs else look v (q :: qs).
Lemma change_in : forall l k n c, member l k = Some c -> put_in (JObj l) k n (JObj (obj_change l (esc k) n)).
Proof.
  intros l k n c H q qs. rewrite !look_obj, member_change by (unfold has; rewrite H; reflexivity). destruct (same k q); reflexivity.
Qed.
Lemma replace_in : forall l k n c, member l k = Some c -> put_in (JObj l) k n (JObj (obj_put l k n false)).
Proof.
  intros l k n c H q qs. rewrite !look_obj, member_put. unfold has. rewrite H. destruct (same k q); reflexivity.
Qed.
Lemma add_in : forall l k n, member l k = None -> put_in (JObj l) k n (JObj (l ++ [(k, n)])).
Proof.
  intros l k n H q qs. rewrite !look_obj, member_app. cbn [member]. destruct (same k q) eqn:E.
  - apply same_spec in E. subst q. rewrite H. reflexivity.
  - destruct (member l q); reflexivity.
Qed.
Lemma set_in : forall l k i n, index_of k (Z.of_nat i) -> (i < List.length l)%nat -> put_in (JArr l) k n (JArr (set_nth i n l)).
Proof.
  intros l k i n I L q qs. rewrite !look_arr. destruct (same k q) eqn:E.
  - apply same_spec in E. subst q. assert (A : arr_at (set_nth i n l) (esc k) = Some i) by (apply arr_at_spec; rewrite set_nth_length; auto).
    rewrite A, nth_set_nth by exact L. rewrite Nat.eqb_refl. reflexivity.
  - destruct (arr_at l (esc q)) as [j|] eqn:F.
    + apply arr_at_spec in F. destruct F as (J & M).
      assert (A : arr_at (set_nth i n l) (esc q) = Some j) by (apply arr_at_spec; rewrite set_nth_length; auto).
      rewrite A, nth_set_nth by exact L. destruct (j =? i)%nat eqn:G; [|reflexivity]. apply Nat.eqb_eq in G. subst j.
      rewrite (index_inj _ _ _ I J), same_refl in E. discriminate.
    + destruct (arr_at (set_nth i n l) (esc q)) as [j|] eqn:G; [|reflexivity]. apply arr_at_spec in G. rewrite set_nth_length in G.
      apply arr_at_spec in G. congruence.
Qed.

(** [j'] has [n] at a path, and the same as [j] beside it. *)
Definition kept (j : jv) (ks : list (list Z)) (j' : jv) : Prop :=
  forall ps qs, ks = ps ++ qs -> qs <> [] -> match look j ps with
    | Some (JArr _) => exists l, look j' ps = Some (JArr l)
    | _ => exists l, look j' ps = Some (JObj l)
    end.
Definition moved (j : jv) (ks : list (list Z)) (n j' : jv) : Prop :=
  look j' ks = Some n /\ (forall qs, apart ks qs -> look j' qs = look j qs) /\ kept j ks j'.
Lemma moved_changed : forall j ks n j', moved j ks n j' -> changed j ks n j'.
Proof.
  intros j ks n j' (A & B & C). split; [apply look_spec; exact A|]. split.
  - intros qs w H. rewrite <- !look_spec, (B qs H). reflexivity.
  - intros ps qs v E N V. apply look_spec in V. specialize (C ps qs E N). split.
    + intros l L. apply look_spec in L. rewrite L in C. destruct C as (l' & C). exists l'. congruence.
    + intros L. assert (X : exists l, look j' ps = Some (JObj l)).
      { destruct (look j ps) as [[ | | | | |l|]|] eqn:F; try exact C. apply look_spec in F. elim (L l F). }
      destruct X as (l & X). exists l. congruence.
Qed.
Lemma moved_here : forall j n, moved j [] n n.
Proof.
  intros j n. split; [reflexivity|]. split.
  - intros qs (c & a & b & p & q & E & _). destruct c; discriminate E.
  - intros ps qs E N. destruct ps; [|discriminate E]. cbn [app] in E. subst. contradiction.
Qed.
Definition kin (j j' : jv) : Prop := match j with JArr _ => exists l, j' = JArr l | _ => exists l, j' = JObj l end.
Lemma kin_here : forall j j', kin j j' -> match look j [] with
    | Some (JArr _) => exists l, look j' [] = Some (JArr l)
    | _ => exists l, look j' [] = Some (JObj l)
    end.
Proof. intros j j' K. rewrite look_nil. destruct j; destruct K as (l' & ->); eexists; reflexivity. Qed.
Lemma moved_in : forall j k c ks n c' j', (forall qs, look j (k :: qs) = look c qs) -> moved c ks n c' -> put_in j k c' j' -> kin j j' -> moved j (k :: ks) n j'.
Proof.
  intros j k c ks n c' j' Hc (A & B & C) P K. split; [rewrite P, same_refl; exact A|]. split.
  - intros qs (d & a & b & p & q & E1 & E2 & N). destruct d as [|x d]; cbn [app] in *; injection E1; intros; subst.
    + rewrite P, (same_neq _ _ N). reflexivity.
    + rewrite P, same_refl, Hc. apply B. exists d, a, b, p, q. auto.
  - intros [|x ps] qs E N; cbn [app] in E; [exact (kin_here _ _ K)|]. injection E as <- E.
    rewrite P, same_refl, Hc. exact (C _ _ E N).
Qed.
Lemma kin_arr : forall l l', kin (JArr l) (JArr l').
Proof. intros. eexists. reflexivity. Qed.
Lemma kin_obj : forall l l', kin (JObj l) (JObj l').
Proof. intros. eexists. reflexivity. Qed.

Lemma putx_ok : forall ks j n, match putx j (map (fun k => Some (esc k)) ks) n with
  | Some j' => settable j ks /\ moved j ks n j'
  | None => ~ settable j ks
  end.
Proof.
  induction ks as [|k ks IH]; intros j n; cbn [map putx]; [split; [constructor|apply moved_here]|].
  destruct j; try (intros H; inversion H; fail).
  - destruct (arr_at l (esc k)) as [i|] eqn:E.
    + apply arr_at_spec in E. destruct E as (I & L). destruct (nth_error l i) as [c|] eqn:F; [|apply nth_error_None in F; lia].
      specialize (IH c n). destruct (putx c (map (fun k0 : list Z => Some (esc k0)) ks) n) as [c'|].
      * destruct IH as (A & B). split; [exact (s_element _ _ _ _ _ I F A)|].
        apply (moved_in _ _ c _ _ c'); [|exact B|apply set_in; assumption|apply kin_arr].
        intros qs. rewrite look_arr. replace (arr_at l (esc k)) with (Some i) by (symmetry; apply arr_at_spec; auto). rewrite F. reflexivity.
      * intros H. inversion H; subst. pose proof (index_fun _ _ _ I H3) as Q. apply Nat2Z.inj in Q. subst i0. rewrite F in H4.
        injection H4 as <-. contradiction.
    + intros H. inversion H; subst. assert (A : arr_at l (esc k) = Some i) by (apply arr_at_spec; split; [assumption|apply nth_error_Some; congruence]).
      congruence.
  - rewrite obj_at_member. destruct (member l k) as [c|] eqn:E.
    + assert (LK : forall qs, look (JObj l) (k :: qs) = look c qs) by (intros qs; rewrite look_obj, E; reflexivity).
      assert (F := E). apply member_spec in F. specialize (IH c n).
      destruct ks as [|k1 ks]; cbn [map] in *.
      * split; [exact (s_member _ _ _ _ F (s_here c))|]. rewrite (obj_key_esc _ _ _ E).
        apply (moved_in _ _ c _ _ n); [exact LK|apply moved_here|exact (replace_in _ _ _ _ E)|apply kin_obj].
      * destruct (putx c (Some (esc k1) :: map (fun k0 : list Z => Some (esc k0)) ks) n) as [c'|].
        -- destruct IH as (A & B). split; [exact (s_member _ _ _ _ F A)|].
           apply (moved_in _ _ c _ _ c'); [exact LK|exact B|exact (change_in _ _ _ _ E)|apply kin_obj].
        -- intros H. inversion H; subst.
           ++ match goal with X : first_member _ _ _ |- _ => rewrite (first_fun _ _ _ _ F X) in IH end. contradiction.
           ++ match goal with X : ~ In _ _ |- _ => apply X end. exact (first_in _ _ _ F).
    + destruct (create_ok ks n) as (c' & Ec & L & A & K). rewrite Ec, new_key_esc. split.
      * apply s_new. apply member_none. exact E.
      * split; [rewrite (add_in _ _ _ E), same_refl; exact L|].
        split; [|intros [|x ps] qs F N; cbn [app] in F; [apply kin_here, kin_obj|injection F as <- F; rewrite (add_in _ _ _ E), same_refl, look_obj, E; exact (K _ _ F N)]].
        intros qs (d & a & b & p & q & E1 & E2 & N). destruct d as [|x d]; cbn [app] in *; injection E1; intros; subst.
        -- rewrite (add_in _ _ _ E), (same_neq _ _ N). reflexivity.
        -- rewrite (add_in _ _ _ E), same_refl, look_obj, E. apply A. exists d, a, b, p, q. auto.
Qed.

Lemma replacex_ok : forall ks j n, match replacex j (map (fun k => Some (esc k)) ks) n with
  | Some j' => (exists w, look j ks = Some w) /\ moved j ks n j'
  | None => look j ks = None
  end.
Proof.
  induction ks as [|k ks IH]; intros j n; cbn [map replacex]; [split; [eexists; reflexivity|apply moved_here]|].
  destruct j; try reflexivity.
  - rewrite look_arr. destruct (arr_at l (esc k)) as [i|] eqn:E; [|reflexivity].
    assert (E' := E). apply arr_at_spec in E. destruct E as (I & L). destruct (nth_error l i) as [c|] eqn:F; [|reflexivity].
    specialize (IH c n). destruct (replacex c (map (fun k0 : list Z => Some (esc k0)) ks) n) as [c'|]; [|exact IH].
    destruct IH as (A & B). split; [exact A|]. apply (moved_in _ _ c _ _ c'); [|exact B|apply set_in; assumption|apply kin_arr].
    intros qs. rewrite look_arr, E', F. reflexivity.
  - rewrite obj_at_member, look_obj. destruct (member l k) as [c|] eqn:E; [|reflexivity].
    assert (LK : forall qs, look (JObj l) (k :: qs) = look c qs) by (intros qs; rewrite look_obj, E; reflexivity).
    specialize (IH c n). destruct ks as [|k1 ks]; cbn [map] in *.
    + split; [eexists; reflexivity|]. rewrite (obj_key_esc _ _ _ E).
      apply (moved_in _ _ c _ _ n); [exact LK|apply moved_here|exact (replace_in _ _ _ _ E)|apply kin_obj].
    + destruct (replacex c (Some (esc k1) :: map (fun k0 : list Z => Some (esc k0)) ks) n) as [c'|]; [|exact IH].
      destruct IH as (A & B). split; [exact A|]. apply (moved_in _ _ c _ _ c'); [exact LK|exact B|exact (change_in _ _ _ _ E)|apply kin_obj].
Qed.
Lemma appendx_ok : forall ks j n, match appendx j (map (fun k => Some (esc k)) ks) n with
  | Some j' => exists l, look j ks = Some (JArr l) /\ moved j ks (JArr (l ++ [n])) j'
  | None => forall l, look j ks <> Some (JArr l)
  end.
Proof.
  induction ks as [|k ks IH]; intros j n; cbn [map appendx].
  - rewrite look_nil. destruct j; try discriminate. exists l. split; [reflexivity|apply moved_here].
  - destruct j; try discriminate.
    + rewrite look_arr. destruct (arr_at l (esc k)) as [i|] eqn:E; [|discriminate].
      assert (E' := E). apply arr_at_spec in E. destruct E as (I & L). destruct (nth_error l i) as [c|] eqn:F; [|discriminate].
      specialize (IH c n). destruct (appendx c (map (fun k0 : list Z => Some (esc k0)) ks) n) as [c'|]; [|exact IH].
      destruct IH as (a & A & B). exists a. split; [exact A|]. apply (moved_in _ _ c _ _ c'); [|exact B|apply set_in; assumption|apply kin_arr].
      intros qs. rewrite look_arr, E', F. reflexivity.
    + rewrite obj_at_member, look_obj. destruct (member l k) as [c|] eqn:E; [|discriminate].
      specialize (IH c n). destruct (appendx c (map (fun k0 : list Z => Some (esc k0)) ks) n) as [c'|]; [|exact IH].
      destruct IH as (a & A & B). exists a. split; [exact A|]. apply (moved_in _ _ c _ _ c'); [|exact B|exact (change_in _ _ _ _ E)|apply kin_obj].
      intros qs. rewrite look_obj, E. reflexivity.
Qed.
Lemma moved_trans : forall j ks m n j1 j2, moved j ks m j1 -> moved j1 ks n j2 -> moved j ks n j2.
Proof.
  intros j ks m n j1 j2 (A & B & E) (C & D & F). split; [exact C|]. split; [intros qs H; rewrite (D qs H); exact (B qs H)|].
  intros ps qs Q N. specialize (E ps qs Q N). specialize (F ps qs Q N). destruct (look j ps) as [[ | | | | |l|]|]; destruct E as (l1 & E); rewrite E in F; exact F.
Qed.

(** ** Merge patch *)

Lemma jv_all : forall P : jv -> Prop, P JNull -> (forall b, P (JBool b)) -> (forall v, P (JInt v)) -> (forall b, P (JReal b)) ->
  (forall s, P (JStr s)) -> (forall l, Forall P l -> P (JArr l)) -> (forall l, Forall (fun kv => P (snd kv)) l -> P (JObj l)) -> forall v, P v.
Proof.
  intros P H1 H2 H3 H4 H5 H6 H7. fix IH 1. intros [ |b|v|b|s|l|l]; [exact H1|apply H2|apply H3|apply H4|apply H5| |].
  - apply H6. induction l as [|x l IHl]; constructor; [apply IH|exact IHl].
  - apply H7. induction l as [|(k, x) l IHl]; constructor; [apply IH|exact IHl].
Qed.

Fixpoint mm (os l : list (list Z * jv)) : list (list Z * jv) :=
  match l with
  | [] => []
  | (k, p) :: l' => if is_null p then mm os l' else (k, merge_patch p (member os k)) :: mm os l'
  end.
Definition members_of (o : option jv) : list (list Z * jv) := match o with Some (JObj os) => os | _ => [] end.
Lemma merge_obj : forall ps o, merge_patch (JObj ps) o =
  JObj (filter (fun kv => negb (has ps (fst kv))) (members_of o) ++ mm (members_of o) ps).
Proof.
  intros ps o. cbn [merge_patch]. fold (members_of o). f_equal. f_equal. generalize (members_of o) as os. clear o. intros os.
  induction ps as [|(k, p) ps IH]; [reflexivity|]. cbn [mm]. rewrite <- IH. reflexivity.
Qed.
Lemma member_filter : forall ps os k, member (filter (fun kv => negb (has ps (fst kv))) os) k = if has ps k then None else member os k.
Proof.
  intros ps. induction os as [|(x, v) os IH]; intros k; [destruct (has ps k); reflexivity|]. cbn [filter fst member].
  destruct (has ps x) eqn:E; cbn [negb]; rewrite ?IH.
  - destruct (same x k) eqn:F; [apply same_spec in F; subst k; rewrite E; reflexivity|reflexivity].
  - cbn [member]. rewrite IH. destruct (same x k) eqn:F; [apply same_spec in F; subst k; rewrite E; reflexivity|reflexivity].
Qed.
Lemma member_mm : forall os ps k, NoDup (map fst ps) ->
  member (mm os ps) k = match member ps k with
                        | None => None
                        | Some p => if is_null p then None else Some (merge_patch p (member os k))
                        end.
Proof.
  intros os. induction ps as [|(x, p) ps IH]; intros k N; [reflexivity|]. cbn [map fst] in N. inversion N as [|? ? N1 N2]; subst.
  cbn [mm member]. destruct (same x k) eqn:E.
  - apply same_spec in E. subst x. destruct (is_null p).
    + rewrite (IH k N2). apply member_none in N1. rewrite N1. reflexivity.
    + cbn [member]. rewrite same_refl. reflexivity.
  - destruct (is_null p); [apply IH; exact N2|]. cbn [member]. rewrite E. apply IH. exact N2.
Qed.
Lemma member_in : forall l k v, member l k = Some v -> In (k, v) l.
Proof.
  induction l as [|(x, w) l IH]; intros k v H; cbn [member] in H; [discriminate|]. destruct (same x k) eqn:E.
  - apply same_spec in E. injection H as ->. subst. left. reflexivity.
  - right. apply IH. exact H.
Qed.
Lemma is_null_spec : forall v, is_null v = true <-> v = JNull.
Proof. intros []; cbn; split; congruence. Qed.

Lemma merge_ok : forall p o, distinct p -> merges o p (merge_patch p o).
Proof.
  induction p as [ |b|v|b|s|l|ps IH] using jv_all; intros o D; try (apply m_plain; intros (l0 & E); discriminate E).
  inversion D as [v0 N1 N2| |l0 N DD]; subst; [exfalso; apply N1; eexists; reflexivity|].
  rewrite merge_obj. set (r := filter _ _ ++ _).
  assert (R : forall k, member r k = match member ps k with
      | None => member (members_of o) k
      | Some p => if is_null p then None else Some (merge_patch p (member (members_of o) k)) end).
  { intros k. unfold r. rewrite member_app, member_filter, (member_mm _ _ _ N). unfold has.
    destruct (member ps k) as [p|]; [reflexivity|]. destruct (member (members_of o) k); reflexivity. }
  assert (IH' : forall k p, member ps k = Some p -> forall o, merges o p (merge_patch p o)).
  { intros k p H. pose proof (member_in _ _ _ H) as I. rewrite Forall_forall in IH. intros o'. exact (IH _ I o' (DD _ _ I)). }
  clearbody r. apply m_obj with (os := members_of o).
  - destruct o as [[ | | | | | |os]|]; cbn [members_of]; auto; right; (split; [reflexivity|discriminate]).
  - intros k H v. apply member_none in H. rewrite <- !member_spec, R, H. reflexivity.
  - intros k H. apply member_none. apply member_spec in H. rewrite R, H. reflexivity.
  - intros k p v H HN Hv. apply member_spec in H, Hv. exists (merge_patch p (Some v)). rewrite <- member_spec, R, H, Hv.
    destruct (is_null p) eqn:E; [apply is_null_spec in E; contradiction|]. split; [reflexivity|exact (IH' _ _ H _)].
  - intros k p H HN Hv. apply member_spec in H. apply member_none in Hv. exists (merge_patch p None). rewrite <- member_spec, R, H, Hv.
    destruct (is_null p) eqn:E; [apply is_null_spec in E; contradiction|]. split; [reflexivity|exact (IH' _ _ H _)].
Qed.

(** ** Queries *)

Lemma text_of_ctext : forall s, exists t, text_of (s ++ [0]) = Ok t /\ ctext s t.
Proof.
  induction s as [|c s (t & E & N & T)]; cbn [app text_of].
  - exists []. change (0 =? 0) with true. split; [reflexivity|]. split; [intros []|left; reflexivity].
  - destruct (c =? 0) eqn:Z0.
    + apply Z.eqb_eq in Z0. subst c. exists []. split; [reflexivity|]. split; [intros []|right; exists s; reflexivity].
    + apply Z.eqb_neq in Z0. exists (c :: t). rewrite E. split; [reflexivity|]. split; [intros [F|F]; [congruence|contradiction]|].
      destruct T as [->|(r & ->)]; [left; reflexivity|right; exists r; reflexivity].
Qed.
Lemma firstn_repeat0 : forall a b, (a <= b)%nat -> firstn a (repeat 0 b) = repeat 0 a.
Proof. induction a as [|a IH]; intros [|b] H; cbn; try reflexivity; [lia|]. rewrite IH by lia. reflexivity. Qed.
Lemma copy_ok : forall mem s n, 1 <= n <= Z.of_nat (List.length mem) -> n < 2 ^ 32 -> exists m, copy_text mem s n = Ok m /\ stored s mem n m.
Proof.
  intros mem s n L B. unfold copy_text. rewrite uwrap_id by (unfold in_u; lia).
  destruct (text_of_ctext s) as (t & E & T). rewrite E. cbn [bind].
  replace (S (Z.to_nat (n - 1)) <=? List.length mem)%nat with true by (symmetry; apply Nat.leb_le; lia).
  eexists. split; [reflexivity|]. exists t. split; [exact T|]. cbv zeta. set (a := Z.to_nat (n - 1)).
  replace (Z.to_nat n) with (S a) by lia. rewrite firstn_app, firstn_repeat0 by lia. rewrite <- !app_assoc. f_equal.
  rewrite firstn_length. replace (S a - Nat.min a (List.length t))%nat with (S (a - List.length t)) by lia.
  rewrite app_assoc. f_equal. change [0] with (repeat 0 1). rewrite <- repeat_app. f_equal. lia.
Qed.
Lemma swrap32 : forall i, in_s 32 (swrap 32 i) /\ (i - swrap 32 i) mod 2 ^ 32 = 0.
Proof.
  intros i. unfold in_s, swrap. change (2 ^ (32 - 1)) with 2147483648. change (2 ^ 32) with 4294967296.
  destruct (i mod 4294967296 <? 2147483648) eqn:E; lia.
Qed.
Lemma fetch_ok : forall v value type n, (type = 115 -> forall mem, value = Some mem -> 1 <= n <= Z.of_nat (List.length mem) /\ n < 2 ^ 32) ->
  exists rc g, fetch v value type n = Ok (g, rc) /\ answer v value type n (rc, g).
Proof.
  intros v val type n H. unfold fetch. destruct val as [mem|].
  2:{ exists 0, GNothing. split; [|constructor].
      destruct (type =? 110); [destruct v; reflexivity|]. destruct (type =? 105); [destruct v; reflexivity|].
      destruct (type =? 115); [destruct v; reflexivity|]. destruct (type =? 98); [destruct v; reflexivity|reflexivity]. }
  assert (W : forall (u : jv), ~ suits u type -> exists rc g, Ok (GNothing, 2) = Ok (g, rc) /\ answer u (Some mem) type n (rc, g)).
  { intros u S0. exists 2, GNothing. split; [reflexivity|constructor; exact S0]. }
  unfold suits in W. destruct (type =? 110) eqn:E1; [apply Z.eqb_eq in E1; subst type|].
  { destruct v; try (apply W; intros [(_ & [(? & F)|(? & F)])|[(F & _)|[(F & _)|(F & _)]]]; discriminate F).
    - exists 0, (GNum (dofz v)). split; [reflexivity|constructor].
    - exists 0, (GReal bits). split; [reflexivity|constructor]. }
  apply Z.eqb_neq in E1. destruct (type =? 105) eqn:E2; [apply Z.eqb_eq in E2; subst type|].
  { destruct v; try (apply W; intros [(F & _)|[(_ & (? & F))|[(F & _)|(F & _)]]]; discriminate F).
    exists 0, (GInt (swrap 32 v)). split; [reflexivity|]. destruct (swrap32 v) as (A & B). constructor; assumption. }
  apply Z.eqb_neq in E2. destruct (type =? 115) eqn:E3; [apply Z.eqb_eq in E3; subst type|].
  { destruct v; try (apply W; intros [(F & _)|[(F & _)|[(_ & (? & F))|(F & _)]]]; discriminate F).
    destruct (H eq_refl mem eq_refl) as (A & B). destruct (copy_ok mem s n A B) as (m & E & T). rewrite E. cbn [bind].
    exists 0, (GText m). split; [reflexivity|constructor; exact T]. }
  apply Z.eqb_neq in E3. destruct (type =? 98) eqn:E4; [apply Z.eqb_eq in E4; subst type|].
  { destruct v; try (apply W; intros [(F & _)|[(F & _)|[(F & _)|(_ & (? & F))]]]; discriminate F).
    exists 0, (GBool (if b then 1 else 0)). split; [reflexivity|]. destruct b; constructor. }
  apply Z.eqb_neq in E4. apply W. intros [(F & _)|[(F & _)|[(F & _)|(F & _)]]]; contradiction.
Qed.

(** ** Requests *)

Lemma written_hd : forall ks, ks <> [] -> hd 0 (written ks) = 47.
Proof. intros [|k ks] N; [contradiction|reflexivity]. Qed.
Lemma pointer_cases : forall ptr, hd 0 ptr = 47 ->
  (exists ks, ks <> [] /\ ptr = written ks) \/ ((forall ks, ptr <> written ks) /\ exists ks, tokens ptr = map (fun k => Some (esc k)) ks ++ [None]).
Proof.
  intros ptr H. destruct ptr as [|c s]; [discriminate|]. cbn [hd] in H. subst c.
  destruct (toks_other (List.length s) s [] [] (le_n _) eq_refl) as [(k & ks & E)|(ks & E)].
  - left. exists (k :: ks). split; [discriminate|]. rewrite E. reflexivity.
  - right. split; [|exists ks; exact E]. intros [|k' ks'] F; [discriminate F|]. assert (G : s = esc k' ++ written ks') by (injection F; auto).
    rewrite G, toks_keys in E. clear F G. cbn [rev app] in E. change (Some (esc k') :: map (fun k => Some (esc k)) ks') with (map (fun k => Some (esc k)) (k' :: ks')) in E.
    assert (I : In None (map (fun k => Some (esc k)) (k' :: ks'))) by (rewrite E; apply in_or_app; right; left; reflexivity).
    apply in_map_iff in I. destruct I as (x & X & _). discriminate X.
Qed.
Lemma written_inj : forall ks ks', written ks = written ks' -> ks <> [] -> ks = ks'.
Proof.
  intros ks ks' E N. assert (N' : ks' <> []) by (intros ->; destruct ks; [contradiction|discriminate E]).
  assert (T := tokens_written ks N). rewrite E, (tokens_written ks' N') in T. clear E N N'. symmetry in T.
  revert ks' T. induction ks as [|k ks IH]; intros [|k' ks'] T; try discriminate T; [reflexivity|]. cbn [map] in T. injection T as T1 T2.
  rewrite (IH _ T2). f_equal. rewrite <- (unesc_esc k), T1, unesc_esc. reflexivity.
Qed.
Lemma doc_get_look : forall ks j, doc_get (Some j) (written ks) = look j ks.
Proof.
  intros [|k ks] j; [reflexivity|]. unfold look. rewrite <- tokens_written by discriminate. reflexivity.
Qed.

Definition inv (rd : list Z -> option jv) (t : list Z) (s : pstate) (j : jv) : Prop :=
  (p_mut s = None /\ p_doc s = Some j /\ rd t = Some j) \/ (p_mut s = Some (Some j) /\ (p_doc s = None \/ p_doc s = Some j)).
Definition holds (rd : list Z -> option jv) (t : list Z) (st : option pstate) (j : jv) : Prop :=
  (st = None /\ rd t = Some j) \/ exists s, st = Some s /\ inv rd t s j.

Lemma parse_ok : forall rd h t j, headed h t -> rd t = Some j -> parse_json rd h = Some (mk_pstate (Some j) None).
Proof.
  intros rd h t j (A & B & C) R. unfold parse_json. rewrite A, B. destruct t as [|c t]; [contradiction|].
  replace (Z.of_nat (List.length (c :: t)) =? 0) with false by (cbn [List.length]; lia).
  rewrite Nat2Z.id, firstn_all, R. reflexivity.
Qed.
Lemma state_ok : forall rd h t st j, headed h t -> holds rd t st j ->
  exists s, (match st with Some s => Some s | None => parse_json rd h end) = Some s /\ inv rd t s j.
Proof.
  intros rd h t st j H [(-> & R)|(s & -> & I)].
  - rewrite (parse_ok rd h t j H R). eexists. split; [reflexivity|]. left. cbn. auto.
  - exists s. auto.
Qed.

Lemma get_ok : forall rd h t st j ptr value type n, headed h t -> holds rd t st j -> roomy (OGet ptr value type n) ->
  exists rc g st', get_ptr rd h ptr value type n st = Ok (rc, g, st') /\ step rd j (OGet ptr value type n) (rc, g) j /\ holds rd t st' j.
Proof.
  intros rd h t st j ptr val type n H R Q. destruct H as (A & B & C). unfold get_ptr. rewrite B.
  replace (Z.of_nat (List.length t) =? 0) with false by (destruct t; [contradiction|cbn [List.length]; lia]). rewrite A.
  destruct (hd 0 ptr =? 47) eqn:P; cbn [negb].
  2:{ apply Z.eqb_neq in P. exists MS_GENERROR, GNothing, st. split; [reflexivity|]. split; [constructor; exact P|exact R]. }
  apply Z.eqb_eq in P. destruct (state_ok rd h t st j (conj A (conj B C)) R) as (s & -> & I).
  assert (X : forall (d : option jv) (m : option (option jv)), d = Some j -> inv rd t (mk_pstate d m) j ->
    exists rc g st', (match doc_get d ptr with
      | Some v => let! (g, rc) := fetch v val type n in Ok (rc, g, Some (mk_pstate d m))
      | None => Ok (1, GNothing, Some (mk_pstate d m)) end) = Ok (rc, g, st') /\ step rd j (OGet ptr val type n) (rc, g) j /\ holds rd t st' j).
  { intros d m -> K. destruct (pointer_cases ptr P) as [(ks & N & ->)|(N & ks & T)].
    - rewrite doc_get_look. destruct (look j ks) as [v|] eqn:L.
      + destruct (fetch_ok v val type n) as (rc & g & E & F).
        { intros -> mem ->. exact Q. }
        rewrite E. cbn [bind]. exists rc, g, (Some (mk_pstate (Some j) m)). split; [reflexivity|]. split.
        * apply st_get with (v := v); [exact N|apply look_spec; exact L|exact F].
        * right. eexists. split; [reflexivity|exact K].
      + exists 1, GNothing, (Some (mk_pstate (Some j) m)). split; [reflexivity|]. split.
        * apply st_absent; [exact P|]. intros ks' v E. assert (ks = ks') by (apply written_inj; [exact E|exact N]). subst ks'. apply look_none. exact L.
        * right. eexists. split; [reflexivity|exact K].
    - assert (G : doc_get (Some j) ptr = None).
      { destruct ptr as [|c ptr]; [discriminate P|]. cbn [hd] in P. subst c. unfold doc_get. change (47 =? 47) with true. cbn iota. rewrite T. apply getx_bad. }
      rewrite G. exists 1, GNothing, (Some (mk_pstate (Some j) m)). split; [reflexivity|]. split.
      + apply st_absent; [exact P|]. intros ks' v E. elim (N _ E).
      + right. eexists. split; [reflexivity|exact K]. }
  destruct s as (d, m). destruct I as [(I1 & I2 & I3)|(I1 & I2)]; cbn [p_mut p_doc] in *; subst m.
  - subst d. cbv zeta. apply X; [reflexivity|]. left. cbn. auto.
  - destruct I2 as [I2 | I2]; subst d; cbv zeta; (apply X; [reflexivity|]); right; split; auto; right; reflexivity.
Qed.

Lemma plain_fun : forall g v w, plain g v -> plain g w -> v = w.
Proof. intros g v w A B. destruct A; inversion B; subst; try reflexivity; contradiction. Qed.

Lemma change_ok : forall rd j ptr g, hd 0 ptr = 47 \/ (exists t, g = SetPatch t) ->
  exists j' rv, change rd (Some j) ptr g = (Some j', rv) /\ step rd j (OSet ptr g) (if rv then 0 else -1, GNothing) j' /\ (rv = false -> j' = j).
Proof.
  intros rd j ptr g H.
  assert (PL : forall v, plain g v -> hd 0 ptr = 47 ->
    exists j' rv, (match doc_set (Some j) ptr v with Some r => (Some r, true) | None => (Some j, false) end) = (Some j', rv) /\
      step rd j (OSet ptr g) (if rv then 0 else -1, GNothing) j' /\ (rv = false -> j' = j)).
  { intros v V P. destruct (pointer_cases ptr P) as [(ks & N & ->)|(N & ks & T)].
    - assert (D : doc_set (Some j) (written ks) v = putx j (map (fun k => Some (esc k)) ks) v).
      { rewrite <- tokens_written by exact N. destruct ks; [contradiction|reflexivity]. }
      rewrite D. pose proof (putx_ok ks j v) as O. destruct (putx j (map (fun k => Some (esc k)) ks) v) as [j'|].
      + exists j', true. split; [reflexivity|]. split; [|discriminate]. destruct O as (O1 & O2).
        exact (st_set rd j ks g v j' N V O1 (moved_changed _ _ _ _ O2)).
      + exists j, false. split; [reflexivity|]. split; [|reflexivity]. apply st_refused.
        * intros v' ks' E _ _. rewrite <- (written_inj _ _ E N). exact O.
        * intros t p ks' tg G. subst g. inversion V.
        * intros v' ks' G. subst g. inversion V.
    - assert (D : doc_set (Some j) ptr v = None).
      { destruct ptr as [|c s]; [discriminate P|]. cbn [hd] in P. subst c. unfold doc_set. change (47 =? 47) with true. cbn iota. rewrite T. apply putx_bad. }
      rewrite D. exists j, false. split; [reflexivity|]. split; [|reflexivity]. apply st_refused; intros; subst; exfalso; eapply N; reflexivity. }
  destruct g as [b|v|s|v|text|v|v| ]; cbn [change]; cbv zeta.
  1, 2, 3, 4, 6: (destruct H as [P|(t & E)]; [|discriminate E]).
  1: (apply PL; [constructor|exact P]).
  1: (apply PL; [constructor|exact P]).
  1: (apply PL; [constructor|exact P]).
  - destruct (v =? 0) eqn:E; cbn [negb].
    + apply Z.eqb_eq in E. subst v. apply PL; [constructor|exact P].
    + apply Z.eqb_neq in E. apply PL; [constructor; exact E|exact P].
  - apply PL; [constructor|exact P].
  - (* patch *)
    clear PL.
    assert (NO : (forall p ks tg, rd text = Some p -> ptr = written ks -> ~ at_path j ks tg) ->
      step rd j (OSet ptr (SetPatch text)) (-1, GNothing) j).
    { intros X. apply st_refused; [intros v ks _ _ V; inversion V| |discriminate]. intros t p ks tg E. injection E as <-. apply X. }
    destruct (rd text) as [p|] eqn:R.
    2:{ exists j, false. split; [reflexivity|]. split; [apply NO; discriminate|reflexivity]. }
    assert (D : (exists ks, ptr = written ks) \/ ((forall ks, ptr <> written ks) /\ doc_get (Some j) ptr = None)).
    { destruct ptr as [|c s]; [left; exists []; reflexivity|]. destruct (Z.eq_dec c 47) as [->|NE].
      - destruct (pointer_cases (47 :: s) eq_refl) as [(ks & N & E)|(N & ks & T)]; [left; exists ks; exact E|right].
        split; [exact N|]. unfold doc_get. change (47 =? 47) with true. cbn iota. rewrite T. apply getx_bad.
      - right. split; [intros [|k ks] E; [discriminate E|injection E; intros; congruence]|]. unfold doc_get.
        replace (c =? 47) with false by lia. reflexivity. }
    destruct D as [(ks & ->)|(N & D)].
    2:{ rewrite D. exists j, false. split; [reflexivity|]. split; [|reflexivity]. apply NO. intros p0 ks tg _ E. elim (N _ E). }
    rewrite doc_get_look. destruct (look j ks) as [target|] eqn:L.
    2:{ exists j, false. split; [reflexivity|]. split; [|reflexivity]. apply NO. intros p0 ks' tg _ E.
        destruct ks as [|k ks]; [discriminate L|]. rewrite <- (written_inj _ _ E) by discriminate. apply look_none. exact L. }
    assert (DR : doc_replace (Some j) (written ks) (merge_patch p (Some target)) =
      replacex j (map (fun k => Some (esc k)) ks) (merge_patch p (Some target))).
    { destruct ks as [|k ks]; [reflexivity|]. rewrite <- tokens_written by discriminate. reflexivity. }
    rewrite DR. pose proof (replacex_ok ks j (merge_patch p (Some target))) as O.
    destruct (replacex j (map (fun k => Some (esc k)) ks) (merge_patch p (Some target))) as [j'|]; [|congruence].
    destruct O as (_ & O). exists j', true. split; [reflexivity|]. split; [|discriminate].
    apply (st_patch rd j ks text p target (merge_patch p (Some target)) j' R); [apply look_spec; exact L|apply merge_ok|apply moved_changed; exact O].
  - (* append *)
    clear PL. destruct H as [P|(t & E)]; [|discriminate E].
    assert (NO : (forall ks, ptr = written ks -> ks <> [] -> (forall l, ~ at_path j ks (JArr l)) /\ ((forall w, ~ at_path j ks w) -> ~ settable j ks)) ->
      step rd j (OSet ptr (SetAppend v)) (-1, GNothing) j).
    { intros X. apply st_refused; [intros v' ks _ _ V; inversion V|discriminate|]. intros v' ks E. apply X. }
    destruct (pointer_cases ptr P) as [(ks & N & ->)|(N & ks & T)].
    + rewrite doc_get_look, (tokens_written ks N).
      assert (D : doc_set (Some j) (written ks) (JArr []) = putx j (map (fun k => Some (esc k)) ks) (JArr [])).
      { rewrite <- tokens_written by exact N. destruct ks; [contradiction|reflexivity]. }
      destruct (look j ks) as [w|] eqn:L.
      * pose proof (appendx_ok ks j v) as O. destruct (appendx j (map (fun k => Some (esc k)) ks) v) as [j'|].
        -- destruct O as (l & O1 & O2). exists j', true. split; [reflexivity|]. split; [|discriminate].
           apply (st_append rd j ks l v j' N); [apply look_spec; exact O1|apply moved_changed; exact O2].
        -- exists j, false. split; [reflexivity|]. split; [|reflexivity]. apply NO. intros ks' E _. rewrite <- (written_inj _ _ E N). split.
           ++ intros l F. apply look_spec in F. exact (O l F).
           ++ intros F. exfalso. apply look_spec in L. exact (F _ L).
      * rewrite D. pose proof (putx_ok ks j (JArr [])) as O. destruct (putx j (map (fun k => Some (esc k)) ks) (JArr [])) as [j1|].
        -- destruct O as (O1 & O2). pose proof (appendx_ok ks j1 v) as O3. destruct (appendx j1 (map (fun k => Some (esc k)) ks) v) as [j'|].
           ++ destruct O3 as (l & O4 & O5). assert (O8 := O2). destruct O2 as (O6 & O7). assert (l = []) by congruence. subst l.
              exists j', true. split; [reflexivity|]. split; [|discriminate]. apply (st_first rd j ks v j' N); [apply look_none; exact L|exact O1|].
              apply moved_changed. exact (moved_trans _ _ _ _ _ _ O8 O5).
           ++ destruct O2 as (O6 & _). elim (O3 [] O6).
        -- exists j, false. split; [reflexivity|]. split; [|reflexivity]. apply NO. intros ks' E _. rewrite <- (written_inj _ _ E N). split; [|intros _; exact O].
           intros l F. apply look_spec in F. congruence.
    + assert (D : doc_set (Some j) ptr (JArr []) = None /\ doc_get (Some j) ptr = None).
      { destruct ptr as [|c s]; [discriminate P|]. cbn [hd] in P. subst c. unfold doc_set, doc_get. change (47 =? 47) with true. cbn iota. rewrite T.
        split; [apply putx_bad|apply getx_bad]. }
      destruct D as (D1 & D2). rewrite D2, D1. exists j, false. split; [reflexivity|]. split; [|reflexivity]. apply NO. intros ks' E. elim (N _ E).
  - exists j, false. split; [reflexivity|]. split; [|reflexivity]. apply st_refused; [intros v ks _ _ V; inversion V|discriminate|discriminate].
Qed.

(** ** Whole calls *)

Lemma serialize_ok : forall wr h d j, exists rc h', serialize wr h (Some (mk_pstate d (Some (Some j)))) = (rc, h') /\ saved wr h j h'.
Proof.
  intros wr h d j. unfold serialize, saved. destruct (wr j) as [t|] eqn:E.
  - destruct (65535 <? Z.of_nat (List.length t)) eqn:L; do 2 eexists; (split; [reflexivity|]).
    + right. split; [right; exists t; split; [reflexivity|lia]|reflexivity].
    + left. exists t. split; [reflexivity|]. split; [lia|reflexivity].
  - do 2 eexists. split; [reflexivity|]. right. auto.
Qed.
Lemma refused_noptr : forall rd j ptr g, hd 0 ptr <> 47 -> (forall t, g <> SetPatch t) -> step rd j (OSet ptr g) (-1, GNothing) j.
Proof.
  intros rd j ptr g P G. apply st_refused.
  - intros v ks -> N _. elim P. apply written_hd. exact N.
  - intros t p ks tg E. elim (G _ E).
  - intros v ks _ -> N. elim P. apply written_hd. exact N.
Qed.
Lemma set_ok : forall rd wr h t st j ptr g, headed h t -> holds rd t st j ->
  exists rc st' j', set_ptr rd wr h ptr g true st = (rc, h, st') /\ step rd j (OSet ptr g) (rc, GNothing) j' /\ holds rd t st' j' /\
    exists h', set_ptr rd wr h ptr g false st = (rc, h', if negb (hd 0 ptr =? 47) && negb (match g with SetPatch _ => true | _ => false end) then st else None) /\
      (saved wr h j' h' \/ rc = -1 /\ h' = h /\ j' = j).
Proof.
  intros rd wr h t st j ptr g H R. unfold set_ptr.
  destruct (negb (hd 0 ptr =? 47) && negb (match g with SetPatch _ => true | _ => false end)) eqn:P.
  - apply andb_true_iff in P. destruct P as (P & G). exists MS_GENERROR, st, j. split; [reflexivity|].
    split; [apply refused_noptr; [lia|intros t' ->; discriminate G]|]. split; [exact R|].
    exists h. split; [reflexivity|right; auto].
  - assert (P' : hd 0 ptr = 47 \/ exists t, g = SetPatch t).
    { apply andb_false_iff in P. destruct P as [P|P]; [left; lia|right]. destruct g; try discriminate P. eexists. reflexivity. }
    destruct (state_ok rd h t st j H R) as (s & -> & I).
    assert (E : (match p_mut s with Some r => r | None => p_doc s end) = Some j).
    { destruct I as [(-> & -> & _)|(-> & _)]; reflexivity. }
    rewrite E. destruct (change_ok rd j ptr g P') as (j' & rv & C & S1 & S2). rewrite C.
    destruct (serialize_ok wr h (p_doc s) j') as (rc & h' & Z1 & Z2).
    exists (if rv then 0 else MS_GENERROR), (Some (mk_pstate (if rv then None else p_doc s) (Some (Some j')))), j'.
    split; [reflexivity|]. split; [exact S1|]. split.
    + right. eexists. split; [reflexivity|]. right. split; [reflexivity|]. cbn [p_doc]. destruct rv; [left; reflexivity|]. rewrite (S2 eq_refl).
      destruct I as [(_ & I & _)|(_ & [I|I])]; auto.
    + exists h'. rewrite Z1. split; [reflexivity|left; exact Z2].
Qed.

Lemma session_ok : forall rd h t os st j, headed h t -> holds rd t st j -> Forall roomy os ->
  exists rs st' j', session rd h os st = Ok (rs, st') /\ steps rd j os rs j' /\ holds rd t st' j'.
Proof.
  intros rd h t. induction os as [|o os IH]; intros st j H R Q.
  - exists [], st, j. split; [reflexivity|]. split; [constructor|exact R].
  - inversion Q as [|? ? Q1 Q2]; subst. cbn [session]. destruct o as [ptr value0 type n|ptr g].
    + destruct (get_ok rd h t st j ptr value0 type n H R Q1) as (rc & g & st1 & E & S1 & R1). rewrite E. cbn [bind].
      destruct (IH st1 j H R1 Q2) as (rs & st' & j' & E2 & S2 & R2). rewrite E2. cbn [bind].
      exists ((rc, g) :: rs), st', j'. split; [reflexivity|]. split; [exact (sts_cons _ _ _ _ _ _ _ _ S1 S2)|exact R2].
    + destruct (set_ok rd (fun _ => None) h t st j ptr g H R) as (rc & st1 & j1 & E & S1 & R1 & _). rewrite E. cbn [bind].
      destruct (IH st1 j1 H R1 Q2) as (rs & st' & j' & E2 & S2 & R2). rewrite E2. cbn [bind].
      exists ((rc, GNothing) :: rs), st', j'. split; [reflexivity|]. split; [exact (sts_cons _ _ _ _ _ _ _ _ S1 S2)|exact R2].
Qed.
(** What is written at the end of a session. *)
Lemma saved_ok : forall rd wr h t st j, headed h t -> holds rd t st j ->
  exists rc h', serialize wr h st = (rc, h') /\ (saved wr h j h' \/ rc = 0 /\ h' = h /\ rd t = Some j).
Proof.
  intros rd wr h t st j H [(-> & R)|(s & -> & I)].
  - exists 0, h. split; [reflexivity|]. right. auto.
  - destruct s as (d, m). destruct I as [(I1 & I2 & I3)|(I1 & I2)]; cbn [p_mut p_doc] in *; subst.
    + exists 0, h. split; [reflexivity|]. right. auto.
    + destruct (serialize_ok wr h d j) as (rc & h' & E & S0). exists rc, h'. split; [exact E|left; exact S0].
Qed.

(** ** Entries *)

Lemma text_of_end : forall mem, In 0 mem -> exists t r, text_of mem = Ok t /\ mem = t ++ 0 :: r /\ ~ In 0 t.
Proof.
  induction mem as [|c mem IH]; intros H; [destruct H|]. cbn [text_of]. destruct (c =? 0) eqn:E.
  - apply Z.eqb_eq in E. subst c. exists [], mem. repeat split. intros [].
  - apply Z.eqb_neq in E. destruct H as [H|H]; [congruence|]. destruct (IH H) as (t & r & T & M & N). rewrite T. cbn [bind].
    exists (c :: t), r. split; [reflexivity|]. split; [rewrite M; reflexivity|]. intros [F|F]; [congruence|contradiction].
Qed.
Lemma split_unique : forall (t t' r r' : list Z), ~ In 0 t -> ~ In 0 t' -> t ++ 0 :: r = t' ++ 0 :: r' -> t = t'.
Proof.
  induction t as [|c t IH]; intros [|c' t'] r r' N N' E; cbn [app] in E; injection E; intros; subst.
  - reflexivity.
  - elim N'. left. reflexivity.
  - elim N. left. reflexivity.
  - f_equal. eapply IH; [intros I; apply N; right; exact I|intros I; apply N'; right; exact I|eassumption].
Qed.

(** An optional member. *)
Definition one (f : res (list (list Z * jv))) (x : string * (jv -> Prop)) : Prop :=
  exists l, f = Ok l /\ (l = [] /\ (forall w, ~ snd x w) \/ exists v, l = [(zs (fst x), v)] /\ forall w, snd x w <-> w = v).

Lemma one_text : forall name mem, In 0 mem -> one (f_text name mem) (name, text_field mem).
Proof.
  intros name mem H. destruct (text_of_end mem H) as (t & r & T & M & N). unfold one, f_text. rewrite T. cbn [bind fst snd]. eexists. split; [reflexivity|].
  destruct t as [|c t].
  - left. split; [reflexivity|]. intros w (t' & r' & _ & Z0 & N' & E). rewrite M in E. apply Z0. symmetry. exact (split_unique _ _ _ _ N N' E).
  - right. eexists. split; [reflexivity|]. intros w. split.
    + intros (t' & r' & -> & Z0 & N' & E). rewrite M in E. rewrite (split_unique _ _ _ _ N N' E). reflexivity.
    + intros ->. exists (c :: t), r. repeat split; try assumption. discriminate.
Qed.
Lemma one_real : forall name bits, in_u 64 bits -> one (f_real name bits) (name, real_field bits).
Proof.
  intros name bits H. unfold one, f_real, real_field, in_u in *. eexists. split; [reflexivity|]. cbn [fst snd].
  change (2 ^ 64) with 18446744073709551616 in H. change (2 ^ 63) with 9223372036854775808.
  destruct (bits mod 9223372036854775808 =? 0) eqn:E.
  - left. split; [reflexivity|]. intros w (_ & A & B). lia.
  - right. eexists. split; [reflexivity|]. intros w. split; [tauto|]. intros ->. split; [reflexivity|]. lia.
Qed.
Lemma one_int : forall name i, one (f_int name i) (name, int_field i).
Proof.
  intros name i. unfold one, f_int, int_field. eexists. split; [reflexivity|]. cbn [fst snd]. destruct (0 <=? i) eqn:E.
  - right. eexists. split; [reflexivity|]. intros w. split; [tauto|]. intros ->. split; [reflexivity|lia].
  - left. split; [reflexivity|]. intros w (_ & A). lia.
Qed.
Lemma one_bool : forall name i, one (f_bool name i) (name, bool_field i).
Proof.
  intros name i. unfold one, f_bool, bool_field. eexists. split; [reflexivity|]. cbn [fst snd]. destruct (0 <=? i) eqn:E.
  - right. eexists. split; [reflexivity|]. intros w. destruct (i =? 0) eqn:F; cbn [negb].
    + split; [intros [(A & _)|(_ & B)]; [lia|exact B]|intros ->; right; split; [lia|reflexivity]].
    + split; [intros [(_ & B)|(A & _)]; [exact B|lia]|intros ->; left; split; [lia|reflexivity]].
  - left. split; [reflexivity|]. intros w [(A & _)|(A & _)]; lia.
Qed.
Lemma one_time : forall name t,
  (t = NSTERROR \/ t = NSTUNSET \/ exists s, nstime2timestr t ISOMONTHDAY_Z NANO_MICRO_NONE = Ok (Some s)) -> one (f_time name t) (name, time_field t).
Proof.
  intros name t H. unfold one, f_time, time_field. cbn [fst snd]. destruct ((t =? NSTERROR) || (t =? NSTUNSET)) eqn:E.
  - exists []. split; [reflexivity|]. left. split; [reflexivity|]. intros w (A & B & _). apply orb_true_iff in E. rewrite !Z.eqb_eq in E. tauto.
  - apply orb_false_iff in E. rewrite !Z.eqb_neq in E. destruct E as (E1 & E2). destruct H as [H|[H|(s & H)]]; [contradiction|contradiction|].
    rewrite H. cbn [bind]. eexists. split; [reflexivity|]. right. eexists. split; [reflexivity|]. intros w. split.
    + intros (_ & _ & s' & F & ->). congruence.
    + intros ->. split; [exact E1|]. split; [exact E2|]. exists s. auto.
Qed.
Lemma one_snr : forall name l, one (Ok (if forallb (Z.eqb 0) l then [] else [(zs name, JArr (map JInt l))])) (name, snr_field l).
Proof.
  intros name l. unfold one, snr_field. eexists. split; [reflexivity|]. cbn [fst snd]. destruct (forallb (Z.eqb 0) l) eqn:E.
  - left. split; [reflexivity|]. intros w ((x & I & N) & _). rewrite forallb_forall in E. specialize (E x I). lia.
  - right. eexists. split; [reflexivity|]. intros w. split; [tauto|]. intros ->. split; [|reflexivity].
    clear -E. induction l as [|x l IH]; [discriminate E|]. cbn [forallb] in E. destruct (0 =? x) eqn:F.
    + destruct (IH E) as (y & I & N). exists y. split; [right; exact I|exact N].
    + exists x. split; [left; reflexivity|lia].
Qed.
Lemma one_vco : forall name bits, one (Ok (if not_negative bits then [(zs name, JReal bits)] else [])) (name, vco_field bits).
Proof.
  intros name bits. unfold one, vco_field. eexists. split; [reflexivity|]. cbn [fst snd].
  assert (Q : not_negative bits = true <-> dval bits = DInf false \/ exists q, dval bits = DFin q /\ (0 <= q)%Q).
  { unfold not_negative, dlt, dzero. destruct (dval bits) as [q|s| ].
    - assert (X : negb (Qle_bool q 0) || qzero q = true <-> (0 <= q)%Q).
      { unfold Qle_bool, qzero, Qle. cbn [Qnum Qden]. rewrite !Z.mul_1_r, !Z.mul_0_l, orb_true_iff, negb_true_iff, Z.eqb_eq, Z.leb_gt. lia. }
      rewrite X. split; [intros H; right; exists q; auto|intros [H|(r & H & I)]; [discriminate H|injection H as <-; exact I]].
    - destruct s; cbn [negb orb]; (split; [intros H; try discriminate H; left; reflexivity|intros [H|(q & H & _)]; try discriminate H; reflexivity]).
    - cbn. split; [discriminate|intros [H|(q & H & _)]; discriminate H]. }
  destruct (not_negative bits) eqn:E.
  - right. eexists. split; [reflexivity|]. intros w. split; [tauto|]. intros ->. split; [reflexivity|]. apply Q. reflexivity.
  - left. split; [reflexivity|]. intros w (_ & A). apply Q in A. discriminate A.
Qed.
Lemma one_count : forall name i, one (Ok (if 0 <? i then [(zs name, JInt i)] else [])) (name, fun v => v = JInt i /\ 0 < i).
Proof.
  intros name i. unfold one. eexists. split; [reflexivity|]. cbn [fst snd]. destruct (0 <? i) eqn:E.
  - right. eexists. split; [reflexivity|]. intros w. split; [tauto|]. intros ->. split; [reflexivity|lia].
  - left. split; [reflexivity|]. intros w (_ & A). lia.
Qed.

Lemma fields_ok : forall fs xs, Forall2 one fs xs -> NoDup (map (fun x => zs (fst x)) xs) ->
  exists l, fields fs = Ok l /\ NoDup (map fst l) /\ (forall k w, In (k, w) l <-> exists name P, In (name, P) xs /\ k = zs name /\ P w).
Proof.
  induction 1 as [|f x fs xs O Fs IH]; intros N.
  - exists []. split; [reflexivity|]. split; [constructor|]. intros k w. split; [intros []|intros (? & ? & [] & _)].
  - cbn [map] in N. inversion N as [|? ? N1 N2]; subst. destruct (IH N2) as (l & E & D & S0). destruct O as (l0 & E0 & C).
    cbn [fields]. rewrite E0, E. cbn [bind]. exists (l0 ++ l). split; [reflexivity|]. destruct x as (nm, P0). cbn [fst snd] in *.
    assert (KS : forall k w, In (k, w) l -> In k (map (fun x => zs (fst x)) xs)).
    { intros k w I. apply S0 in I. destruct I as (name & P & I & -> & _). apply in_map_iff. exists (name, P). auto. }
    destruct C as [(-> & NW)|(v & -> & W)]; cbn [app map fst].
    + split; [exact D|]. intros k w. rewrite S0. split.
      * intros (name & P & I & R). exists name, P. split; [right; exact I|exact R].
      * intros (name & P & [I|I] & -> & PW); [injection I as <- <-; elim (NW _ PW)|exists name, P; auto].
    + split.
      * constructor; [|exact D]. intros I. apply in_map_iff in I. destruct I as ((k, w) & K & I). cbn [fst] in K. subst k. exact (N1 (KS _ _ I)).
      * intros k w. split.
        -- intros [I|I]; [injection I as <- <-; exists nm, P0; split; [left; reflexivity|]; split; [reflexivity|apply W; reflexivity]|].
           apply S0 in I. destruct I as (name & P & I & R). exists name, P. split; [right; exact I|exact R].
        -- intros (name & P & [I|I] & -> & PW); [injection I as <- <-; left; apply W in PW; subst; reflexivity|].
           right. apply S0. exists name, P. auto.
Qed.

Ltac nodup_names := repeat (constructor; [cbv; intros H; repeat (destruct H as [H|H]; [discriminate H|]); exact H|]); constructor.
Ltac each := repeat match goal with
  | H : Forall _ (_ :: _) |- _ => inversion H; clear H; subst
  | H : Forall _ [] |- _ => clear H
  end.
Lemma entry_ok : forall e, ready e -> exists v, entry_value e = Ok v /\ entry_says e v.
Proof.
  intros e (T & R & M). unfold entry_says.
  assert (X : exists fs, entry_value e = (let! l := fields fs in Ok (JObj l)) /\ Forall2 one fs (says e) /\ NoDup (map (fun x => zs (fst x)) (says e))).
  { destruct e as [d|k|x|c]; cbn [texts_of reals_of times_of] in *; each; (eexists; split; [reflexivity|]); (split; [|nodup_names]); cbn [says];
      repeat (constructor; [first [apply one_text; assumption|apply one_real; assumption|apply one_int|apply one_bool|apply one_time; assumption|apply one_snr|apply one_vco|apply one_count]|]); constructor. }
  destruct X as (fs & E & F & N). destruct (fields_ok _ _ F N) as (l & E1 & D & S0). rewrite E, E1. cbn [bind].
  exists (JObj l). split; [reflexivity|]. exists l. auto.
Qed.
Lemma place_ok : forall e, entry_place e = written (place_of e).
Proof. intros []; reflexivity. Qed.

(** ** Summary *)

Lemma session_all : forall rd wr h t j os, headed h t -> rd t = Some j -> Forall roomy os ->
  exists rs st j' rc h', session rd h os None = Ok (rs, st) /\ steps rd j os rs j' /\ serialize wr h st = (rc, h') /\
    (saved wr h j' h' \/ rc = 0 /\ h' = h /\ j' = j).
Proof.
  intros rd wr h t j os H R Q. destruct (session_ok rd h t os None j H (or_introl (conj eq_refl R)) Q) as (rs & st & j' & E & S0 & K).
  destruct (saved_ok rd wr h t st j' H K) as (rc & h' & E2 & S2). exists rs, st, j', rc, h'. split; [exact E|]. split; [exact S0|]. split; [exact E2|].
  destruct S2 as [S2|(A & B & C)]; [left; exact S2|right]. split; [exact A|]. split; [exact B|congruence].
Qed.
Lemma set_all : forall rd wr h t j ptr g, headed h t -> rd t = Some j ->
  exists rc h' j', set_ptr rd wr h ptr g false None = (rc, h', None) /\ step rd j (OSet ptr g) (rc, GNothing) j' /\
    (saved wr h j' h' \/ rc = -1 /\ h' = h /\ j' = j).
Proof.
  intros rd wr h t j ptr g H R. destruct (set_ok rd wr h t None j ptr g H (or_introl (conj eq_refl R))) as (rc & st & j' & _ & S0 & _ & h' & E & S1).
  exists rc, h', j'. rewrite E. split; [|auto]. destruct (negb (hd 0 ptr =? 47) && negb (match g with SetPatch _ => true | _ => false end)); reflexivity.
Qed.
Lemma get_all : forall rd h t j ptr value type n, headed h t -> rd t = Some j -> roomy (OGet ptr value type n) ->
  exists rc g st, get_ptr rd h ptr value type n None = Ok (rc, g, st) /\ step rd j (OGet ptr value type n) (rc, g) j.
Proof.
  intros rd h t j ptr val type n H R Q. destruct (get_ok rd h t None j ptr val type n H (or_introl (conj eq_refl R)) Q) as (rc & g & st & E & S0 & _).
  exists rc, g, st. auto.
Qed.

(** A record without extra headers. *)
Lemma set_new : forall rd wr h ks g v, e_length h = 0 -> ks <> [] -> plain g v ->
  exists j h', set_ptr rd wr h (written ks) g false None = (0, h', None) /\ changed (JObj []) ks v j /\ saved wr h j h'.
Proof.
  intros rd wr h ks g v L N V.
  assert (P : parse_json rd h = Some (mk_pstate None None)).
  { unfold parse_json. rewrite L. destruct (e_text h); reflexivity. }
  assert (X : exists j, doc_set None (written ks) v = Some j /\ changed (JObj []) ks v j).
  { assert (D : doc_set None (written ks) v = putx (JObj []) (map (fun k => Some (esc k)) ks) v).
    { rewrite <- tokens_written by exact N. destruct ks; [contradiction|reflexivity]. }
    rewrite D. pose proof (putx_ok ks (JObj []) v) as O. destruct (putx (JObj []) (map (fun k => Some (esc k)) ks) v) as [j|].
    - destruct O as (_ & O). exists j. split; [reflexivity|apply moved_changed; exact O].
    - elim O. destruct ks as [|k ks]; [contradiction|]. apply s_new. intros []. }
  destruct X as (j & D & C). destruct (serialize_ok wr h None j) as (rc & h' & E & S0). exists j, h'. unfold set_ptr.
  rewrite written_hd by exact N. change (negb (47 =? 47)) with false. cbn [andb]. rewrite P. cbn [p_mut p_doc].
  assert (CH : change rd None (written ks) g = (Some j, true)).
  { destruct V; cbn [change]; cbv zeta; try rewrite D; try reflexivity.
    - replace (v =? 0) with false by lia. cbn [negb]. rewrite D. reflexivity.
    - change (negb (0 =? 0)) with false. rewrite D. reflexivity. }
  rewrite CH, E. split; [reflexivity|]. split; [exact C|exact S0].
Qed.
Lemma get_empty : forall rd h ptr value type n st, e_length h = 0 -> get_ptr rd h ptr value type n st = Ok (1, GNothing, st).
Proof. intros. unfold get_ptr. rewrite H. reflexivity. Qed.

(** What was set and written is found again. *)
Lemma found_again : forall rd wr h ks g v, ks <> [] -> plain g v ->
  (exists t j, headed h t /\ rd t = Some j /\ settable j ks) \/ e_length h = 0 ->
  exists h' j', set_ptr rd wr h (written ks) g false None = (0, h', None) /\ at_path j' ks v /\ saved wr h j' h' /\
    forall t', wr j' = Some t' -> t' <> [] -> Z.of_nat (List.length t') <= 65535 -> rd t' = Some j' ->
    forall value type n, roomy (OGet (written ks) value type n) ->
      exists rc a st, get_ptr rd h' (written ks) value type n None = Ok (rc, a, st) /\ answer v value type n (rc, a).
Proof.
  intros rd wr h ks g v N V C.
  assert (X : exists j' h', set_ptr rd wr h (written ks) g false None = (0, h', None) /\ at_path j' ks v /\ saved wr h j' h').
  { destruct C as [(t & j & H & R & S0)|L].
    - destruct (set_all rd wr h t j (written ks) g H R) as (rc & h' & j' & E & S1 & K). exists j', h'. inversion S1; subst.
      + assert (ks0 = ks) by (apply written_inj; assumption). subst ks0. match goal with U : plain g ?w |- _ => assert (w = v) by (exact (plain_fun _ _ _ U V)); subst w end.
        match goal with U : changed _ _ _ _ |- _ => destruct U as (U & _) end. split; [exact E|]. split; [assumption|].
        destruct K as [K|(K & _)]; [exact K|discriminate K].
      + inversion V.
      + inversion V.
      + inversion V.
      + exfalso. match goal with U : forall v ks, _ -> _ -> plain g v -> _ |- _ => exact (U v ks eq_refl N V S0) end.
    - destruct (set_new rd wr h ks g v L N V) as (j & h' & E & (U & _) & K). exists j, h'. auto. }
  destruct X as (j' & h' & E & A & K). exists h', j'. split; [exact E|]. split; [exact A|]. split; [exact K|]. intros t' W T1 L T2 val type n Q.
  destruct K as [(t & K1 & K2 & ->)|([K|(t & K & L2)] & _)]; [|congruence|assert (t = t') by congruence; subst t; lia].
  assert (t = t') by congruence. subst t'.
  destruct (get_all rd (mk_heads (Some t) (Z.of_nat (List.length t))) t j' (written ks) val type n) as (rc & a & st & E1 & S1).
  { repeat split. exact T1. } { exact T2. } { exact Q. }
  exists rc, a, st. split; [exact E1|]. inversion S1; subst.
  - assert (ks0 = ks) by (apply written_inj; assumption). subst ks0. match goal with U : at_path j' ks ?w |- _ => match goal with Y : answer w _ _ _ _ |- _ => assert (w = v) by (exact (at_fun _ _ _ _ U A)); subst w; exact Y end end.
  - exfalso. match goal with U : forall ks v, _ -> ~ at_path _ _ _ |- _ => exact (U ks v eq_refl A) end.
  - exfalso. match goal with U : hd 0 _ <> 47 |- _ => apply U end. apply written_hd. exact N.
Qed.

Lemma add_all : forall rd wr h t j ptr e, headed h t -> rd t = Some j -> ready e ->
  exists v rc h' j', entry_says e v /\ add_entry rd wr h ptr e false None = Ok (rc, h', None) /\
    step rd j (OSet (match ptr with Some p => p | None => written (place_of e) end) (SetAppend v)) (rc, GNothing) j' /\
    (saved wr h j' h' \/ rc = -1 /\ h' = h /\ j' = j).
Proof.
  intros rd wr h t j ptr e H R Q. destruct (entry_ok e Q) as (v & E & S0).
  destruct (set_all rd wr h t j (match ptr with Some p => p | None => entry_place e end) (SetAppend v) H R) as (rc & h' & j' & E1 & S1 & K).
  exists v, rc, h', j'. split; [exact S0|]. unfold add_entry. rewrite E, E1. rewrite <- place_ok. split; [|split; assumption].
  do 3 f_equal. destruct (rc =? 0) eqn:Z0; [lia|]. inversion S1; subst; try discriminate Z0. reflexivity.
Qed.
Lemma replace_all : forall rd wr h text, match text with
  | None => replace rd wr h text = (0, mk_heads None 0)
  | Some t => match rd t with
              | Some j => exists rc h', replace rd wr h text = (rc, h') /\ saved wr h j h' /\ (rc = -1 \/ rc = e_length h')
              | None => replace rd wr h text = (-1, h)
              end
  end.
Proof.
  intros rd wr h [t|]; [|reflexivity]. unfold replace. destruct (rd t) as [j|]; [|reflexivity]. unfold saved. destruct (wr j) as [s|].
  - destruct (65535 <? Z.of_nat (List.length s)) eqn:L; do 2 eexists; (split; [reflexivity|]).
    + split; [right; split; [right; exists s; split; [reflexivity|lia]|reflexivity]|left; reflexivity].
    + split; [left; exists s; split; [reflexivity|]; split; [lia|reflexivity]|right; reflexivity].
  - do 2 eexists. split; [reflexivity|]. split; [right; auto|left; reflexivity].
Qed.
(** A successful request whose document cannot be written. *)
Lemma silent : forall rd wr h t j ptr g, headed h t -> rd t = Some j -> (forall j, wr j = None) ->
  exists rc, set_ptr rd wr h ptr g false None = (rc, h, None).
Proof.
  intros rd wr h t j ptr g H R W. destruct (set_all rd wr h t j ptr g H R) as (rc & h' & j' & E & _ & K). exists rc. rewrite E.
  destruct K as [[(s & K & _)|(_ & K)]|(_ & K & _)]; [rewrite W in K; discriminate K| |]; rewrite K; reflexivity.
Qed.
Lemma zero_size : forall mem, Z.of_nat (List.length mem) < 2 ^ 32 ->
  get_ptr (fun _ => Some (JObj [(zs "a", JStr [])])) (mk_heads (Some [123]) 1) (zs "/a") (Some mem) 115 0 None = UB OOBWrite.
Proof.
  intros mem L. assert (C : copy_text mem [] 0 = UB OOBWrite).
  { unfold copy_text. change (text_of ([] ++ [0])) with (@Ok (list Z) []). change (uwrap 32 (0 - 1)) with 4294967295. cbn [bind].
    set (n := Z.to_nat 4294967295). assert (N : Z.of_nat n = 4294967295) by (unfold n; lia). clearbody n.
    destruct (S n <=? List.length mem)%nat eqn:E; [|reflexivity]. apply Nat.leb_le in E. lia. }
  assert (X : fetch (JStr []) (Some mem) 115 0 = UB OOBWrite) by (unfold fetch; cbn -[copy_text]; rewrite C; reflexivity).
  assert (G : doc_get (Some (JObj [(zs "a", JStr [])])) (zs "/a") = Some (JStr [])) by reflexivity.
  unfold get_ptr. cbn -[fetch doc_get zs]. change (hd 0 (zs "/a")) with 47. cbn -[fetch doc_get zs]. rewrite G, X. reflexivity.
Qed.
Lemma too_long : forall big, 65535 < Z.of_nat (List.length big) ->
  let h := mk_heads (Some [123; 125]) 2 in
  set_ptr (fun _ => Some (JObj [])) (fun _ => Some big) h (zs "/a") (SetInt 1) false None = (0, h, None).
Proof.
  intros big L h. assert (S0 : forall r, serialize (fun _ => Some big) h (Some (mk_pstate (Some (JObj [])) (Some (Some r)))) = (-1, h)).
  { intros r. unfold serialize. cbn [p_mut]. cbv zeta. replace (65535 <? Z.of_nat (List.length big)) with true by lia. reflexivity. }
  assert (C : change (fun _ => Some (JObj [])) (Some (JObj [])) (zs "/a") (SetInt 1) = (Some (JObj [(zs "a", JInt 1)]), true)) by reflexivity.
  unfold set_ptr. change (hd 0 (zs "/a")) with 47. change (parse_json (fun _ => Some (JObj [])) h) with (Some (mk_pstate (Some (JObj [])) None)).
  cbn [p_mut p_doc]. rewrite C. rewrite S0. reflexivity.
Qed.
Lemma long_text : exists big : list Z, 65535 < Z.of_nat (List.length big).
Proof. exists (repeat 32 (Z.to_nat 65536)). rewrite repeat_length. lia. Qed.
