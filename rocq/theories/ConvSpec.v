(** * Specification vocabulary for the conversion of sample types. *)

From Verif Require Export Base.
Open Scope Z_scope.

(** The value of a finite float or double, given its bits, in units of 2^-1074. *)
Definition units32 (b : Z) : option Z :=
  let e := b mod 2 ^ 31 / 2 ^ 23 in
  let f := b mod 2 ^ 23 in
  if e =? 255 then None
  else Some ((if b <? 2 ^ 31 then 1 else -1) * (if e =? 0 then f else (2 ^ 23 + f) * 2 ^ (e - 1)) * 2 ^ 925).
Definition units64 (b : Z) : option Z :=
  let e := b mod 2 ^ 63 / 2 ^ 52 in
  let f := b mod 2 ^ 52 in
  if e =? 2047 then None
  else Some ((if b <? 2 ^ 63 then 1 else -1) * (if e =? 0 then f else (2 ^ 52 + f) * 2 ^ (e - 1))).
Definition one : Z := 2 ^ 1074.

Definition infinity32 (neg : bool) : Z := (if neg then 2 ^ 31 else 0) + 255 * 2 ^ 23.
Definition infinity64 (neg : bool) : Z := (if neg then 2 ^ 63 else 0) + 2047 * 2 ^ 52.
Definition nan32 (b : Z) : Prop := 255 * 2 ^ 23 < b mod 2 ^ 31.
Definition nan64 (b : Z) : Prop := 2047 * 2 ^ 52 < b mod 2 ^ 63.

(** [b] is the pattern whose value is nearest to [x], the even one of two. *)
Definition nearest_pattern (units : Z -> option Z) (w x b : Z) : Prop :=
  0 <= b < 2 ^ w /\ exists v, units b = Some v /\
  forall b' v', 0 <= b' < 2 ^ w -> units b' = Some v' ->
    Z.abs (x - v) <= Z.abs (x - v') /\ (Z.abs (x - v) = Z.abs (x - v') -> v = v' \/ Z.even b = true).

(** Values that round to an infinite float: half way from the largest float to 2^128 and
    beyond. *)
Definition beyond_float (x : Z) : Prop := (2 ^ 25 - 1) * 2 ^ 103 * one <= Z.abs x.

(** The double [b] has the value of the float [w]; the float [w] is nearest to the double [b]. *)
Definition same_value (w b : Z) : Prop :=
  0 <= b < 2 ^ 64 /\ (2 ^ 63 <= b <-> 2 ^ 31 <= w) /\
  (forall v, units32 w = Some v -> units64 b = Some v) /\
  (forall neg, w = infinity32 neg -> b = infinity64 neg) /\ (nan32 w -> nan64 b).
Definition nearest_float (b w : Z) : Prop :=
  0 <= w < 2 ^ 32 /\ (2 ^ 63 <= b <-> 2 ^ 31 <= w) /\
  (forall v, units64 b = Some v -> ~ beyond_float v -> nearest_pattern units32 32 v w) /\
  (forall v, units64 b = Some v -> beyond_float v -> w = infinity32 (v <? 0)) /\
  (forall neg, b = infinity64 neg -> w = infinity32 neg) /\ (nan64 b -> nan32 w).

(** The integer nearest to [x] units, the larger of two. *)
Definition nearest_int (x z : Z) : Prop := - one <= 2 * (x - z * one) < one.

(** Samples that fit in an int32_t after rounding. *)
Definition fits_int (x : Z) : Prop := 0 <= x /\ 2 * x < (2 ^ 32 - 1) * one.
(** More than the double nearest to one millionth above an integer. *)
Definition millionth : Z := 0x10C6F7A0B5ED8D * 2 ^ 1002.
Definition lossy (x : Z) : bool := millionth <? x mod one.

(** Doubles in a memory of 32-bit words. *)
Definition dwords (l : list Z) : list Z := flat_map (fun b => [b mod 2 ^ 32; b / 2 ^ 32]) l.

(** Samples of either floating point type. *)
Definition stored (dbl : bool) (l : list Z) : list Z := if dbl then dwords l else l.
Definition units_of (dbl : bool) : Z -> option Z := if dbl then units64 else units32.
Definition bits_of (dbl : bool) : Z := if dbl then 64 else 32.

(** The largest double below one half. *)
Definition below_half : Z := 9007199254740991 * 2 ^ 1020.

(** The integer stored for a non-negative sample: the nearest, but for one double. *)
Definition nearest_or_one (dbl : bool) (x z : Z) : Prop := nearest_int x z \/ (dbl = true /\ x = below_half /\ z = 1).
