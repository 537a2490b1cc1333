(** * Model of the checksum routine (libmseed/crc32c.c).

    A buffer is its address modulo 4 together with the bytes from there to the end
    of the object; a cursor into it is the same pair after advancing.  [hb]: host is
    big-endian. *)

From Verif Require Import Base CrcTable.
Open Scope Z_scope.

(** A pointer: address modulo 4 and the readable bytes from it on. *)
Definition ptr : Type := Z * list Z.

Definition padd (p : ptr) (n : Z) : res ptr :=
  if n <=? Z.of_nat (length (snd p)) then Ok ((fst p + n) mod 4, skipn (Z.to_nat n) (snd p))
  else UB OOBRead.

(** [*input++] *)
Definition read_byte (p : ptr) : res (Z * ptr) :=
  match snd p with
  | [] => UB OOBRead
  | b :: l => Ok (b, ((fst p + 1) mod 4, l))
  end.

(** [*current++] for [const uint32_t *current] on a little-endian host (the only
    callers, crc32c.c:406-409); the pointer must be 4-byte aligned. *)
Definition read_u32 (p : ptr) : res (Z * ptr) :=
  if fst p =? 0 then
    match snd p with
    | b0 :: b1 :: b2 :: b3 :: l => Ok (le_val [b0; b1; b2; b3], (fst p, l))
    | _ => UB OOBRead
    end
  else UB BadAlign.

(** Entry [i] of slice [k] of the table. *)
Definition tab (k i : Z) : res Z :=
  let! row := getZ k CRC32C_TABLE in getZ i row.

(** s_crc_generic_sb1, crc32c.c:307-313; [n] iterations. *)
Fixpoint sb1_loop (n : nat) (p : ptr) (crc : Z) : res Z :=
  match n with
  | O => Ok crc
  | S n' =>
    let! (b, p') := read_byte p in
    let! t := tab 0 (Z.lxor (Z.land crc 0xff) b) in
    sb1_loop n' p' (Z.lxor (Z.shiftr crc 8) t)
  end.
Definition sb1 (p : ptr) (length : Z) (crc : Z) : res Z := sb1_loop (Z.to_nat length) p crc.

(** s_crc_generic_sb4, crc32c.c:344-357.  The loop runs while [remaining >= 4];
    fuel counts iterations. *)
Fixpoint sb4_loop (fuel : nat) (p : ptr) (remaining crc : Z) : res (Z * ptr * Z) :=
  if 4 <=? remaining then
    match fuel with
    | O => Fuel
    | S fuel' =>
      let! (w, p') := read_u32 p in
      let crc := Z.lxor crc w in
      let! t3 := tab 3 (Z.land crc 0xff) in
      let! t2 := tab 2 (Z.land (Z.shiftr crc 8) 0xff) in
      let! t1 := tab 1 (Z.land (Z.shiftr crc 16) 0xff) in
      let! t0 := tab 0 (Z.shiftr crc 24) in
      sb4_loop fuel' p' (remaining - 4) (Z.lxor (Z.lxor (Z.lxor t3 t2) t1) t0)
    end
  else Ok (crc, p, remaining).
Definition sb4 (p : ptr) (length crc : Z) : res Z :=
  let! (crc', _, remaining) := sb4_loop (Z.to_nat length) p length crc in
  let! q := padd p (length - remaining) in
  sb1 q remaining crc'.

(** s_crc_generic_sb8, crc32c.c:360-377. *)
Fixpoint sb8_loop (fuel : nat) (p : ptr) (remaining crc : Z) : res (Z * ptr * Z) :=
  if 8 <=? remaining then
    match fuel with
    | O => Fuel
    | S fuel' =>
      let! (w1, p1) := read_u32 p in
      let c1 := Z.lxor w1 crc in
      let! (c2, p2) := read_u32 p1 in
      let! a7 := tab 7 (Z.land c1 0xff) in
      let! a6 := tab 6 (Z.land (Z.shiftr c1 8) 0xff) in
      let! a5 := tab 5 (Z.land (Z.shiftr c1 16) 0xff) in
      let! a4 := tab 4 (Z.land (Z.shiftr c1 24) 0xff) in
      let t1 := Z.lxor (Z.lxor (Z.lxor a7 a6) a5) a4 in
      let! a3 := tab 3 (Z.land c2 0xff) in
      let! a2 := tab 2 (Z.land (Z.shiftr c2 8) 0xff) in
      let! a1 := tab 1 (Z.land (Z.shiftr c2 16) 0xff) in
      let! a0 := tab 0 (Z.land (Z.shiftr c2 24) 0xff) in
      let t2 := Z.lxor (Z.lxor (Z.lxor a3 a2) a1) a0 in
      sb8_loop fuel' p2 (remaining - 8) (Z.lxor t1 t2)
    end
  else Ok (crc, p, remaining).
Definition sb8 (p : ptr) (length crc : Z) : res Z :=
  let! (crc', _, remaining) := sb8_loop (Z.to_nat length) p length crc in
  let! q := padd p (length - remaining) in
  sb4 q remaining crc'.

(** s_crc_generic_align, crc32c.c:318-341: advances pointer and length.  [leading]
    and [remaining] are size_t (64 bits), so [remaining] wraps when there are fewer
    than [leading] bytes. *)
Definition crc_align (p : ptr) (length crc : Z) : res (ptr * Z * Z) :=
  let input_alignment := Z.land (fst p) 3 in
  let leading := Z.land (4 - input_alignment) 3 in
  let remaining := uwrap 64 (length - leading) in
  if negb (leading =? 0) && (0 <? remaining) then
    let! crc' := sb1 p leading crc in
    let! q := padd p leading in
    Ok (q, length - leading, crc')
  else Ok (p, length, crc).

Definition not32 (c : Z) : Z := Z.lxor c 0xFFFFFFFF.

(** s_crc32c_no_slice, s_crc32c_sb8 and ms_crc32c, crc32c.c:380-410 (non-NULL
    input). *)
Definition ms_crc32c (hb : bool) (p : ptr) (length prev : Z) : res Z :=
  if length <=? 0 then Ok 0
  else if hb then
    let! c := sb1 p length (not32 prev) in Ok (not32 c)
  else
    let! (q, len, c) := crc_align p length (not32 prev) in
    let! c' := sb8 q len c in Ok (not32 c').
