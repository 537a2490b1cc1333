(** * Channels with gaps: specification. *)

From Coq Require Export Permutation.
From Verif Require Export Base TlModel TlSpec.
Open Scope Z_scope.

(** A channel: the stretches of data it has, each a list of records with their end times. *)
Definition channel := list (list (trec * Z)).

(** [y] starts a period [p] after the end of [x], up to [tol]. *)
Definition continues (p tol : Z) (x y : trec * Z) : Prop := Z.abs (r_start (fst y) - snd x - p) <= tol.

(** No record of one stretch continues one of the other or starts at the same time. *)
Definition unrelated (p tol : Z) (S1 S2 : list (trec * Z)) : Prop :=
  forall x y, In x S1 -> In y S2 -> ~ continues p tol x y /\ ~ continues p tol y x /\ r_start (fst x) <> r_start (fst y).

(** Every stretch is tiled up to [d], any two of them are unrelated. *)
Definition stretches (p tol d : Z) (c : channel) : Prop :=
  c <> [] /\ Forall (fun T => T <> [] /\ tiles p d T) c /\ ForallOrdPairs (unrelated p tol) c.

(** The records of two channels: other identifiers, or other versions when these are kept
    apart (where version 0 goes with any). *)
Definition other_channel (f : conf) (c1 c2 : channel) : Prop :=
  forall x y, In x (concat c1) -> In y (concat c2) -> r_sid (fst x) <> r_sid (fst y) \/
    (f_split f = true /\ r_pub (fst x) <> r_pub (fst y) /\ r_pub (fst x) <> 0 /\ r_pub (fst y) <> 0).

(** The list has one entry for each channel, the entry one segment for each stretch, made of
    its records in order. *)
Definition entry_of (f : conf) (t : tid) (c : channel) : Prop :=
  exists segs gs, well_formed t segs /\ Permutation gs c /\ Forall2 (made f) segs gs /\ about f t (concat c).
Definition recovered (f : conf) (k : tlist) (chs : list channel) : Prop :=
  exists ids chs', tl_ids k = Ok ids /\ k_num k = Z.of_nat (length ids) mod 2 ^ 32 /\ ids_sorted f ids /\
    Permutation chs' chs /\ Forall2 (entry_of f) ids chs'.

(** Two lists with the same entries and segments. *)
Definition same_entries (k k' : tlist) : Prop :=
  exists ids ids', tl_ids k = Ok ids /\ tl_ids k' = Ok ids' /\
    Forall2 (fun t t' => t_sid t' = t_sid t /\ t_pub t' = t_pub t /\ t_early t' = t_early t /\ t_late t' = t_late t /\ t_num t' = t_num t /\
                         exists segs, tid_segs t = Ok segs /\ tid_segs t' = Ok segs) ids ids'.
