(** * What a printed time means. *)
From Verif Require Export Base TimeStrModel.
Open Scope Z_scope.

(** Nanoseconds of resolution promised by a sub-second option. *)
Definition resolution (sub : subseconds) : Z :=
  match sub with
  | NONE => 1000000000
  | MICRO | MICRO_NONE => 1000
  | NANO | NANO_NONE | NANO_MICRO | NANO_MICRO_NONE => 1
  end.

(** Truncation towards the past, and towards the epoch. *)
Definition floor_to (r t : Z) : Z := t - t mod r.
Definition chop_to (r t : Z) : Z := Z.quot t r * r.
