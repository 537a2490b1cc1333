(** * What resizing leaves of sample buffers. *)

From Verif Require Import Base ResizeModel.
Open Scope Z_scope.
Open Scope list_scope.

(** Bytes of a sample of a type: text, integers and floats, doubles. *)
Definition width (type w : Z) : Prop :=
  ((type = 116 \/ type = 97) /\ w = 1) \/ ((type = 105 \/ type = 102) /\ w = 4) \/ (type = 100 /\ w = 8).

(** A buffer that has the size stated and room for the samples stated. *)
Definition room (b : rbuf) : Prop :=
  0 <= r_size b < 2 ^ 64 /\ - 2 ^ 63 <= r_num b < 2 ^ 63 /\ (forall mem, r_mem b = Some mem -> Z.of_nat (length mem) = r_size b) /\
  (forall w, width (r_type b) w -> r_num b * w <= r_size b).

(** There are samples, and [extra] bytes after them. *)
Definition has_extra (b : rbuf) (data extra : list Z) : Prop :=
  r_mem b = Some (data ++ extra) /\ 0 < r_num b /\ extra <> [] /\
  exists w, width (r_type b) w /\ Z.of_nat (length data) = r_num b * w.

(** Trimmed: the bytes after the samples are given back, nothing else changes. *)
Definition trimmed (b b' : rbuf) : Prop :=
  (exists data extra, has_extra b data extra /\ b' = mk_rbuf (r_type b) (r_num b) (Z.of_nat (length data)) (Some data)) \/
  ((forall data extra, ~ has_extra b data extra) /\ b' = b).
(** Lost: the memory is no longer known, the rest is as before. *)
Definition lost (b b' : rbuf) : Prop :=
  (exists data extra, has_extra b data extra) /\ b' = mk_rbuf (r_type b) (r_num b) (r_size b) None.
(** The lists of segments up to one that lost its memory are trimmed, the others as before. *)
Definition stopped (l l' : list rbuf) : Prop :=
  exists a b c a' b', l = a ++ b :: c /\ l' = a' ++ b' :: c /\ Forall2 trimmed a a' /\ lost b b'.
