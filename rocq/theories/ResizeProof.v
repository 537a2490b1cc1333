(** * Proofs about resizing of sample buffers. *)

From Verif Require Import Base BaseLemmas PackModel ResizeModel ResizeSpec.
Open Scope Z_scope.
Open Scope list_scope.

Lemma width_size t w : width t w -> samplesize t = w /\ 1 <= w <= 8.
Proof. intros [([-> | ->] & ->)|[([-> | ->] & ->)|[-> ->]]]; (split; [reflexivity|lia]). Qed.
Lemma size_width t : samplesize t <> 0 -> width t (samplesize t).
Proof.
  unfold samplesize, width. intros H. destruct ((t =? 116) || (t =? 97)) eqn:E1; [left; split; lia|].
  destruct ((t =? 105) || (t =? 102)) eqn:E2; [right; left; split; lia|]. destruct (t =? 100) eqn:E3; [right; right; lia|congruence].
Qed.
Lemma needed_is b w : room b -> width (r_type b) w -> 0 <= r_num b -> needed b = r_num b * w.
Proof.
  intros (S & N & _ & F) W P. specialize (F w W). destruct (width_size _ _ W) as [E L]. unfold needed, uwrap. rewrite E.
  rewrite (Z.mod_small (r_num b)) by lia. apply Z.mod_small. nia.
Qed.
Lemma has_unique b d e : room b -> has_extra b d e -> oversize b = true /\ Z.of_nat (length d) = needed b /\
  exists mem, r_mem b = Some mem /\ d = firstn (Z.to_nat (needed b)) mem.
Proof.
  intros R (M & P & X & w & W & L). pose proof (needed_is b w R W ltac:(lia)) as E. destruct (width_size _ _ W) as [Ws Lw].
  destruct R as (S & N & Q & F). specialize (Q _ M). rewrite app_length in Q.
  assert (0 < Z.of_nat (length e)) by (destruct e; [congruence|cbn [length]; lia]).
  split. { unfold oversize. rewrite M, Ws, E. lia. }
  split; [lia|]. exists (d ++ e). split; [exact M|]. rewrite E, <- L, Nat2Z.id. rewrite firstn_app, Nat.sub_diag, firstn_all. cbn [firstn]. now rewrite app_nil_r.
Qed.
Lemma over_has b : room b -> oversize b = true -> exists d e, has_extra b d e.
Proof.
  intros R O. pose proof R as (S & N & Q & F). unfold oversize in O. destruct (r_mem b) as [mem|] eqn:M; [|rewrite andb_false_r in O; discriminate O].
  assert (W : width (r_type b) (samplesize (r_type b))) by (apply size_width; lia).
  pose proof (needed_is b _ R W ltac:(lia)) as E. pose proof (width_size _ _ W) as [_ L]. specialize (Q _ eq_refl). specialize (F _ W).
  exists (firstn (Z.to_nat (needed b)) mem), (skipn (Z.to_nat (needed b)) mem). split; [now rewrite firstn_skipn|]. split; [lia|]. split.
  - intros Z0. apply (f_equal (@length Z)) in Z0. rewrite skipn_length in Z0. cbn [length] in Z0. lia.
  - exists (samplesize (r_type b)). split; [exact W|]. rewrite firstn_length. nia.
Qed.
Lemma realloc_trims b : room b -> oversize b = true -> trimmed b (realloc true b).
Proof.
  intros R O. destruct (over_has b R O) as (d & e & H). left. exists d, e. split; [exact H|]. destruct (has_unique b d e R H) as (_ & L & mem & M & E).
  unfold realloc. rewrite M, L, E. reflexivity.
Qed.
Lemma realloc_loses b : room b -> oversize b = true -> lost b (realloc false b).
Proof.
  intros R O. destruct (over_has b R O) as (d & e & H). split; [eauto|]. destruct (has_unique b d e R H) as (_ & L & mem & M & E).
  unfold realloc. rewrite M. reflexivity.
Qed.
Lemma same_trims b : room b -> oversize b = false -> trimmed b b.
Proof. intros R O. right. split; [|reflexivity]. intros d e H. destruct (has_unique b d e R H) as (E & _). congruence. Qed.

Lemma record_ok b : room b -> forall granted,
  exists b', resize_record granted b = (b', if oversize b && negb granted then -1 else 0) /\ (granted = true -> trimmed b b') /\
    (granted = false -> lost b b' \/ (trimmed b b' /\ b' = b)).
Proof.
  intros R granted. unfold resize_record. destruct (oversize b) eqn:O.
  - exists (realloc granted b). split; [destruct granted; reflexivity|]. split; intros ->; [exact (realloc_trims b R O)|left; exact (realloc_loses b R O)].
  - exists b. split; [reflexivity|]. split; [intros _; exact (same_trims b R O)|intros _; right; split; [exact (same_trims b R O)|reflexivity]].
Qed.

Lemma record_trimmed b : room b -> exists b', resize_record true b = (b', 0) /\ trimmed b b'.
Proof. intros R. destruct (record_ok b R true) as (b' & E & T & _). exists b'. split; [|now apply T]. rewrite E. now rewrite andb_false_r. Qed.
Lemma record_failed b : room b -> (exists b', resize_record false b = (b', -1) /\ lost b b') \/ (resize_record false b = (b, 0) /\ trimmed b b).
Proof.
  intros R. unfold resize_record. destruct (oversize b) eqn:O.
  - left. exists (realloc false b). split; [reflexivity|exact (realloc_loses b R O)].
  - right. split; [reflexivity|exact (same_trims b R O)].
Qed.

Lemma segs_ok alloc l : Forall room l -> forall i, exists r n ok, resize_segs alloc i l = (r, n, ok) /\
  ((forall k, alloc k = true) -> ok = true) /\ (ok = true -> Forall2 trimmed l r) /\ (ok = false -> stopped l r).
Proof.
  intros F. induction F as [|b l R F IH]; intros i.
  - exists [], i, true. split; [reflexivity|]. split; [reflexivity|]. split; [constructor|discriminate].
  - cbn [resize_segs]. destruct (oversize b) eqn:O.
    + destruct (alloc i) eqn:A.
      * destruct (IH (S i)) as (r & n & ok & -> & H1 & H2 & H3). exists (realloc true b :: r), n, ok. split; [reflexivity|]. split; [exact H1|].
        split; intros E; [constructor; [exact (realloc_trims b R O)|exact (H2 E)]|].
        destruct (H3 E) as (a & x & c & a' & x' & -> & -> & T & L). exists (b :: a), x, c, (realloc true b :: a'), x'.
        split; [reflexivity|]. split; [reflexivity|]. split; [constructor; [exact (realloc_trims b R O)|exact T]|exact L].
      * exists (realloc false b :: l), (S i), false. split; [reflexivity|]. split; [intros H; now rewrite H in A|]. split; [discriminate|].
        intros _. exists [], b, l, [], (realloc false b). split; [reflexivity|]. split; [reflexivity|]. split; [constructor|exact (realloc_loses b R O)].
    + destruct (IH i) as (r & n & ok & -> & H1 & H2 & H3). exists (b :: r), n, ok. split; [reflexivity|]. split; [exact H1|].
      split; intros E; [constructor; [exact (same_trims b R O)|exact (H2 E)]|].
      destruct (H3 E) as (a & x & c & a' & x' & -> & -> & T & L). exists (b :: a), x, c, (b :: a'), x'.
      split; [reflexivity|]. split; [reflexivity|]. split; [constructor; [exact (same_trims b R O)|exact T]|exact L].
Qed.
Lemma ids_ok alloc ids : Forall (Forall room) ids -> forall i, exists r ok, resize_ids alloc i ids = (r, ok) /\
  ((forall k, alloc k = true) -> ok = true) /\ (ok = true -> Forall2 (Forall2 trimmed) ids r) /\
  (ok = false -> exists a l c a' l', ids = a ++ l :: c /\ r = a' ++ l' :: c /\ Forall2 (Forall2 trimmed) a a' /\ stopped l l').
Proof.
  intros F. induction F as [|l ids R F IH]; intros i.
  - exists [], true. split; [reflexivity|]. split; [reflexivity|]. split; [constructor|discriminate].
  - cbn [resize_ids]. destruct (segs_ok alloc l R i) as (r & n & ok & -> & H1 & H2 & H3). destruct ok.
    + destruct (IH n) as (rs & ok & -> & K1 & K2 & K3). exists (r :: rs), ok. split; [reflexivity|]. split; [exact K1|].
      split; intros E; [constructor; [exact (H2 eq_refl)|exact (K2 E)]|].
      destruct (K3 E) as (a & x & c & a' & x' & -> & -> & T & L). exists (l :: a), x, c, (r :: a'), x'.
      split; [reflexivity|]. split; [reflexivity|]. split; [constructor; [exact (H2 eq_refl)|exact T]|exact L].
    + exists (r :: ids), false. split; [reflexivity|]. split; [exact H1|]. split; [discriminate|]. intros _. exists [], l, ids, [], r.
      split; [reflexivity|]. split; [reflexivity|]. split; [constructor|exact (H3 eq_refl)].
Qed.
Lemma list_ok alloc ids : Forall (Forall room) ids -> exists r rc, resize_list alloc ids = (r, rc) /\
  ((forall k, alloc k = true) -> rc = 0) /\ (rc = 0 /\ Forall2 (Forall2 trimmed) ids r \/
  rc = -1 /\ exists a l c a' l', ids = a ++ l :: c /\ r = a' ++ l' :: c /\ Forall2 (Forall2 trimmed) a a' /\ stopped l l').
Proof.
  intros R. unfold resize_list. destruct (ids_ok alloc ids R 0) as (r & ok & -> & H1 & H2 & H3). exists r, (if ok then 0 else -1). split; [reflexivity|].
  split; [intros A; now rewrite (H1 A)|]. destruct ok; [left|right]; (split; [reflexivity|]); [exact (H2 eq_refl)|exact (H3 eq_refl)].
Qed.

(** Trimming again changes nothing. *)
Lemma trimmed_room b b' : room b -> trimmed b b' -> room b'.
Proof.
  intros R [(d & e & H & ->)|[_ ->]]; [|exact R]. pose proof R as (S & N & Q & F). destruct H as (M & P & X & w & W & L). specialize (Q _ M).
  rewrite app_length in Q. split; [cbn [r_size]; lia|]. split; [exact N|]. cbn [r_mem r_size r_type r_num]. split; [intros mem E; now injection E as <-|].
  intros v V. destruct (width_size _ _ W), (width_size _ _ V). lia.
Qed.
Lemma trimmed_twice b b' b'' : trimmed b b' -> trimmed b' b'' -> b'' = b'.
Proof.
  intros [(d & e & H & ->)|[N ->]] T.
  - destruct T as [(d2 & e2 & H2 & _)|[_ ->]]; [|reflexivity]. exfalso. destruct H as (_ & _ & _ & w & W & L), H2 as (M2 & _ & X2 & w2 & W2 & L2).
    cbn [r_mem r_type r_num] in *. injection M2 as ->. rewrite app_length in L. destruct (width_size _ _ W), (width_size _ _ W2).
    destruct e2; [congruence|cbn [length] in L; lia].
  - destruct T as [(d2 & e2 & H2 & _)|[_ ->]]; [destruct (N _ _ H2)|reflexivity].
Qed.
