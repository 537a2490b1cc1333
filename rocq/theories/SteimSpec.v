(** * Specification vocabulary for the Steim codecs.

    Independent of the encoder's and decoder's internals. *)
From Verif Require Export Base.

(** Successive differences of the series [p, l0, l1, ...]. *)
Fixpoint diffs_of (p : Z) (l : list Z) : list Z :=
  match l with
  | [] => []
  | x :: l' => (x - p) :: diffs_of x l'
  end.

(** The same differences reduced to 32 bits (what 32-bit machine subtraction with
    wrap-around delivers). *)
Fixpoint wdiffs (p : Z) (l : list Z) : list Z :=
  match l with
  | [] => []
  | x :: l' => swrap 32 (x - p) :: wdiffs x l'
  end.

(** The successive differences of the series are 32-bit values, or arithmetic
    wraps around so that it does not matter. *)
Definition arith_ok (m : ovmode) (p : Z) (l : list Z) : Prop :=
  m = Wrap \/ Forall int32 (diffs_of p l).

(** A non-empty series of 32-bit samples that an encoder compiled with overflow
    behaviour [m] can difference. *)
Definition compressible (m : ovmode) (samples : list Z) : Prop :=
  Forall int32 samples /\
  match samples with [] => False | x0 :: rest => arith_ok m x0 rest end.

(** The differences an encoder stores: an initial one given by the caller, then
    those between successive samples. *)
Definition stored_diffs (diff0 : Z) (samples : list Z) : list Z :=
  match samples with [] => [] | x0 :: rest => diff0 :: wdiffs x0 rest end.

(** A difference representable in 30 bits (the widest Steim-2 field). *)
Definition fits30 (d : Z) : Prop := - 2 ^ 29 <= d < 2 ^ 29.
