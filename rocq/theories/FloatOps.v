(** * Double arithmetic as correctly rounded rational arithmetic.

    IEEE 754 defines each basic operation as the exact result rounded to the
    format.  A finite double is represented by its rational value (the sign of zero
    is not represented).  [rnd64] is the rounding to binary64, nearest-even; [None]
    is overflow to infinity. *)

From Coq Require Export QArith Qround Qabs.
From Verif Require Export Base FloatSpec.
Open Scope Z_scope.

(** Nearest integer to [n / d], ties to even ([0 <= n], [0 < d]). *)
Definition rne_div (n d : Z) : Z :=
  let q := n / d in
  let r := n mod d in
  if 2 * r <? d then q
  else if d <? 2 * r then q + 1
  else if Z.even q then q else q + 1.

(** [n * 2^k <= d], [n * 2^k / d] with [k] of either sign. *)
Definition num_pow (n k : Z) : Z := if 0 <=? k then n * 2 ^ k else n.
Definition den_pow (d k : Z) : Z := if 0 <=? k then d else d * 2 ^ (- k).

(** The exponent [l] with [2^l <= n / d < 2^(l+1)] ([0 < n], [0 < d]). *)
Definition flog2 (n d : Z) : Z :=
  let l := Z.log2 n - Z.log2 d in
  if num_pow n (- l) <? den_pow d (- l) then l - 1 else l.

(** Significand and exponent of [n / d] rounded to binary64. *)
Definition rnd_pos (n d : Z) : Z * Z :=
  let e := Z.max (-1074) (flog2 n d - 52) in
  (rne_div (num_pow n (- e)) (den_pow d (- e)), e).

Definition rnd64 (x : Q) : option Q :=
  match Qnum x with
  | 0 => Some 0%Q
  | Zpos n =>
    let (m, e) := rnd_pos (Zpos n) (Zpos (Qden x)) in
    let v := dyadic m e in
    if Qle_bool (dyadic 1 1024) v then None else Some v
  | Zneg n =>
    let (m, e) := rnd_pos (Zpos n) (Zpos (Qden x)) in
    let v := dyadic m e in
    if Qle_bool (dyadic 1 1024) v then None else Some (Qopp v)
  end.

(** Conversion of a double to an integer: towards zero. *)
Definition qtrunc (x : Q) : Z := Z.quot (Qnum x) (Zpos (Qden x)).
