(** * C66: resizing of sample buffers *)

From Verif Require Import Base ResizeModel ResizeSpec ResizeProof.
Open Scope Z_scope.
Open Scope list_scope.

(** A record's buffer ends up with exactly its samples. *)
Theorem C66_record : forall b, room b -> exists b', resize_record true b = (b', 0) /\ trimmed b b'.
Proof. exact record_trimmed. Qed.
Print Assumptions C66_record.

(** If memory is refused, a record that needs none is as before; the others lose theirs. *)
Theorem C66_record_failure : forall b, room b ->
  (exists b', resize_record false b = (b', -1) /\ lost b b') \/ (resize_record false b = (b, 0) /\ trimmed b b).
Proof. exact record_failed. Qed.
Print Assumptions C66_record_failure.

(** The buffers of a trace list, however many requests are granted: all are trimmed, or those
    up to one that lost its memory while the rest are as before. *)
Theorem C66_list : forall alloc ids, Forall (Forall room) ids -> exists r rc, resize_list alloc ids = (r, rc) /\
  ((forall k, alloc k = true) -> rc = 0) /\ (rc = 0 /\ Forall2 (Forall2 trimmed) ids r \/
  rc = -1 /\ exists a l c a' l', ids = a ++ l :: c /\ r = a' ++ l' :: c /\ Forall2 (Forall2 trimmed) a a' /\ stopped l l').
Proof. exact list_ok. Qed.
Print Assumptions C66_list.

(** Trimmed buffers can be trimmed again, which changes nothing. *)
Theorem C66_again : forall b b', room b -> trimmed b b' -> room b' /\ forall b'', trimmed b' b'' -> b'' = b'.
Proof. intros b b' R T. split; [exact (trimmed_room b b' R T)|exact (fun b'' => trimmed_twice b b' b'' T)]. Qed.
Print Assumptions C66_again.

(** ** Cases *)

(** Two doubles in a buffer for three, five letters in one for eight, and a full one. *)
Definition b1 : rbuf := mk_rbuf 100 2 24 (Some (map Z.of_nat (seq 0 24))).
Definition b2 : rbuf := mk_rbuf 116 5 8 (Some [97; 98; 99; 100; 101; 0; 0; 0]).
Definition b3 : rbuf := mk_rbuf 105 1 4 (Some [1; 2; 3; 4]).
Lemma rooms : Forall (Forall room) [[b1; b3]; [b2]].
Proof.
  assert (H : forall t n s mem, (0 <=? s) && (s <? 2 ^ 64) && (0 <=? n) && (n <? 2 ^ 60) && (Z.of_nat (length mem) =? s) && (n * PackModel.samplesize t <=? s) = true -> room (mk_rbuf t n s (Some mem))).
  { intros t n s mem H. split; [cbn [r_size]; lia|]. split; [cbn [r_num]; lia|]. cbn [r_mem r_size r_type r_num]. split; [intros m E; injection E as <-; lia|].
    intros w W. destruct (width_size _ _ W) as [<- _]. lia. }
  repeat constructor; apply H; reflexivity.
Qed.

Example C66_record_instance : room b1 /\ resize_record true b1 = (mk_rbuf 100 2 16 (Some (map Z.of_nat (seq 0 16))), 0) /\
  resize_record false b1 = (mk_rbuf 100 2 24 None, -1) /\ resize_record false b3 = (b3, 0).
Proof. pose proof rooms as R. inversion R as [|? ? R1 _]. inversion R1 as [|? ? R2 _]. split; [exact R2|]. split; [reflexivity|]. split; reflexivity. Qed.

Example C66_list_instance : Forall (Forall room) [[b1; b3]; [b2]] /\
  resize_list (fun _ => true) [[b1; b3]; [b2]] = ([[mk_rbuf 100 2 16 (Some (map Z.of_nat (seq 0 16))); b3]; [mk_rbuf 116 5 5 (Some [97; 98; 99; 100; 101])]], 0) /\
  resize_list (fun k => Nat.eqb k 0) [[b1; b3]; [b2]] = ([[mk_rbuf 100 2 16 (Some (map Z.of_nat (seq 0 16))); b3]; [mk_rbuf 116 5 8 None]], -1).
Proof. split; [exact rooms|]. split; reflexivity. Qed.

Example C66_again_instance : room b1 /\ trimmed b1 (mk_rbuf 100 2 16 (Some (map Z.of_nat (seq 0 16)))).
Proof.
  destruct C66_record_instance as (R & E & _). split; [exact R|]. destruct (C66_record b1 R) as (b' & E' & T). rewrite E in E'. injection E' as <-. exact T.
Qed.

(** ** What does not hold *)

(** When memory is refused the samples are not kept, though the old block still exists: the
    only pointer to it has been overwritten. *)
Theorem C66_kept_refuted : ~ (forall b b' rc, room b -> resize_record false b = (b', rc) -> r_mem b' = r_mem b).
Proof.
  intros H. destruct C66_record_instance as (R & _ & E & _). specialize (H _ _ _ R E). discriminate H.
Qed.

(** Without room for the samples stated, the product of their number and size may wrap and
    bytes that are there are cut off. *)
Theorem C66_room_refuted : ~ (forall t n mem b' rc, 0 < n < 2 ^ 63 -> Z.of_nat (length mem) < n * 8 ->
  resize_record true (mk_rbuf t n (Z.of_nat (length mem)) (Some mem)) = (b', rc) -> r_mem b' = Some mem).
Proof.
  intros H. specialize (H 100 (2 ^ 61 + 1) (repeat 0 16) (mk_rbuf 100 (2 ^ 61 + 1) 8 (Some (repeat 0 8))) 0 ltac:(lia) ltac:(cbn; lia) eq_refl). discriminate H.
Qed.
