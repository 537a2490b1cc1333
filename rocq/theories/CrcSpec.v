(** * What CRC-32C is.

    Reflected Castagnoli CRC: the register is complemented at the start and the end,
    bits enter least significant first. *)

From Verif Require Export Base.
Open Scope Z_scope.

(** One bit: shift right and subtract the (reflected) polynomial on carry. *)
Definition crc_bit (c b : Z) : Z :=
  let x := Z.lxor c b in
  if Z.odd x then Z.lxor (Z.div2 x) 0x82F63B78 else Z.div2 x.

(** The bits of a byte in transmission order (least significant first). *)
Definition byte_bits (v : Z) : list Z :=
  map (fun i => Z.b2z (Z.testbit v i)) [0; 1; 2; 3; 4; 5; 6; 7].
Definition bits (bytes : list Z) : list Z := concat (map byte_bits bytes).

(** Continue the CRC [prev] over [bytes] ([prev] = 0 for a fresh CRC). *)
Definition crc32c (bytes : list Z) (prev : Z) : Z :=
  Z.lxor (fold_left crc_bit (bits bytes) (Z.lxor prev 0xFFFFFFFF)) 0xFFFFFFFF.

(** ** The same thing as polynomial division over GF(2)

    A polynomial is a non-negative [Z]; bit [i] is the coefficient of x^i. *)

(** Carry-less product. *)
Fixpoint clmul_pos (q : positive) (p : Z) : Z :=
  match q with
  | xH => p
  | xO q' => 2 * clmul_pos q' p
  | xI q' => Z.lxor (2 * clmul_pos q' p) p
  end.
Definition clmul (q p : Z) : Z := match q with Zpos q' => clmul_pos q' p | _ => 0 end.

(** x^32 + x^28 + x^27 + x^26 + x^25 + x^23 + x^22 + x^20 + x^19 + x^18 + x^14 +
    x^13 + x^11 + x^10 + x^9 + x^8 + x^6 + 1. *)
Definition castagnoli : Z := 0x11EDC6F41.

(** The polynomial of a bit sequence, first bit = highest power. *)
Definition poly_of_bits (l : list Z) : Z := fold_left (fun acc b => 2 * acc + b) l 0.

(** Reversal of the low [n] bits. *)
Fixpoint rev_bits (n : nat) (v : Z) : Z :=
  match n with
  | O => 0
  | S n' => 2 ^ Z.of_nat n' * (v mod 2) + rev_bits n' (v / 2)
  end.

(** [r] is the remainder of [a] modulo the generator. *)
Definition is_remainder (a r : Z) : Prop :=
  0 <= r < 2 ^ 32 /\ exists q, 0 <= q /\ a = Z.lxor (clmul q castagnoli) r.

(** ** Corruption *)

(** [a] and [b] differ exactly by the bit pattern [e] placed at bit [pos], where bit
    [8k+i] of a byte string is bit [i] of byte [k]. *)
Definition differ_by (a b : list Z) (pos e : Z) : Prop :=
  length a = length b /\ Z.lxor (le_val a) (le_val b) = Z.shiftl e pos.
