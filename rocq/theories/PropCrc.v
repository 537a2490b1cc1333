(** * Properties C06 and C07: the record checksum.  Vocabulary: CrcSpec.v. *)

From Verif Require Import Base BaseLemmas CrcModel CrcSpec CrcProof.
Open Scope Z_scope.

(** The routine returns the CRC-32C of the first [len] bytes of the buffer, whatever
    the host and the buffer's address modulo 4, reading nothing else. *)
Theorem C06_checksum_is_crc32c : forall hb addr buf len prev,
  0 <= addr < 4 -> bytes_ok buf -> in_u 32 prev ->
  1 <= len <= Z.of_nat (length buf) -> len < 2 ^ 31 -> (4 - addr) mod 4 <= len ->
  ms_crc32c hb (addr, buf) len prev = Ok (crc32c (firstn (Z.to_nat len) buf) prev).
Proof. exact ms_crc32c_ok. Qed.
Print Assumptions C06_checksum_is_crc32c.

(** The bitwise definition is polynomial division: the complemented, bit-reversed
    CRC is the remainder of message * x^32 + start * x^(message bits). *)
Theorem C06_crc32c_is_polynomial_division : forall msg prev, in_u 32 prev ->
  is_remainder
    (Z.lxor (poly_of_bits (bits msg) * 2 ^ 32)
            (rev_bits 32 (Z.lxor prev 0xFFFFFFFF) * 2 ^ (8 * Z.of_nat (length msg))))
    (rev_bits 32 (Z.lxor (crc32c msg prev) 0xFFFFFFFF)).
Proof. exact crc_is_remainder. Qed.
Print Assumptions C06_crc32c_is_polynomial_division.

Theorem C06_remainder_unique : forall a r1 r2, is_remainder a r1 -> is_remainder a r2 -> r1 = r2.
Proof. exact remainder_unique. Qed.
Print Assumptions C06_remainder_unique.

(** Chaining over pieces. *)
Theorem C06_chaining : forall a b prev, bytes_ok a -> bytes_ok b ->
  crc32c b (crc32c a prev) = crc32c (a ++ b) prev.
Proof. exact crc32c_chain. Qed.
Print Assumptions C06_chaining.

(** The alignment guard is needed: for a two byte buffer at an address that is 1
    modulo 4 the size_t subtraction wraps and three bytes are read
    (crc32c.c:331-338). *)
Theorem C06_short_misaligned_refuted : exists addr buf len,
  0 <= addr < 4 /\ bytes_ok buf /\ 1 <= len <= Z.of_nat (length buf) /\
  ms_crc32c false (addr, buf) len 0 = UB OOBRead.
Proof.
  exists 1, [49; 50], 2. split; [lia|]. split.
  - repeat constructor; lia.
  - split; [simpl; lia|vm_compute; reflexivity].
Qed.
Print Assumptions C06_short_misaligned_refuted.

(** With more bytes behind it the result is the CRC of three bytes, not two. *)
Theorem C06_short_misaligned_value_refuted : exists addr buf len c,
  0 <= addr < 4 /\ bytes_ok buf /\ 1 <= len <= Z.of_nat (length buf) /\
  ms_crc32c false (addr, buf) len 0 = Ok c /\ c <> crc32c (firstn (Z.to_nat len) buf) 0.
Proof.
  exists 1, [49; 50; 51], 2, (crc32c [49; 50; 51] 0). split; [lia|]. split.
  - repeat constructor; lia.
  - split; [simpl; lia|]. split; vm_compute; [reflexivity|discriminate].
Qed.
Print Assumptions C06_short_misaligned_value_refuted.

(** Chaining through the routine breaks for an empty piece: it returns 0
    (crc32c.c:403-404). *)
Theorem C06_empty_piece_refuted : exists prev,
  in_u 32 prev /\ ms_crc32c false (0, [1; 2; 3; 4]) 0 prev = Ok 0 /\ crc32c [] prev = prev /\ prev <> 0.
Proof. exists 5. unfold in_u. repeat split; try lia. Qed.
Print Assumptions C06_empty_piece_refuted.

(** The standard check value: CRC-32C of "123456789". *)
Example C06_check_value :
  ms_crc32c false (3, [49; 50; 51; 52; 53; 54; 55; 56; 57]) 9 0 = Ok 0xE3069283 /\
  crc32c [49; 50; 51; 52; 53; 54; 55; 56; 57] 0 = 0xE3069283 /\ (4 - 3) mod 4 <= 9.
Proof. split; [|split]; [vm_compute; reflexivity|vm_compute; reflexivity|lia]. Qed.

(** ** C07 *)

(** A difference confined to 32 consecutive bits changes the checksum. *)
Theorem C07_burst_detected : forall a b prev pos e,
  bytes_ok a -> bytes_ok b -> differ_by a b pos e -> 0 <= pos -> 0 < e < 2 ^ 32 ->
  crc32c a prev <> crc32c b prev.
Proof. exact burst. Qed.
Print Assumptions C07_burst_detected.

(** In particular one confined to four consecutive bytes. *)
Theorem C07_four_bytes_detected : forall pre w w' post prev,
  bytes_ok (pre ++ w ++ post) -> bytes_ok (pre ++ w' ++ post) ->
  length w = length w' -> (length w <= 4)%nat -> w <> w' ->
  crc32c (pre ++ w ++ post) prev <> crc32c (pre ++ w' ++ post) prev.
Proof. exact burst4. Qed.
Print Assumptions C07_four_bytes_detected.

Example C07_instance : differ_by [1; 2; 3; 255; 5] [1; 34; 195; 127; 5] 13 263681.
Proof. split; reflexivity. Qed.
