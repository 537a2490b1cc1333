(** * The value of an IEEE number (stdlib [SpecFloat]) as a rational. *)

From Coq Require Export QArith SpecFloat.
From Verif Require Export Base.
Open Scope Z_scope.

(** [m * 2^e] *)
Definition dyadic (m e : Z) : Q :=
  if 0 <=? e then inject_Z (m * 2 ^ e) else Qmake m (Z.to_pos (2 ^ (- e))).

Definition sf_int (s : bool) (m : positive) : Z := if s then Z.neg m else Z.pos m.

(** [x] is finite and its value is [q]. *)
Definition sf_is (x : spec_float) (q : Q) : Prop :=
  match x with
  | S754_zero _ => Qeq q 0
  | S754_finite s m e => Qeq q (dyadic (sf_int s m) e)
  | _ => False
  end.
