(** * Properties C01, C02, C03: the Steim codecs.

    Vocabulary: SteimSpec.v.  [hb] is the host byte order, [sw] the swap flag, so
    [xorb hb sw] is the byte order of the data.  [m1]/[m2] say how the encoder's and
    decoder's compilers treat signed overflow ([Strict]: undefined behaviour). *)

From Verif Require Import Base BaseLemmas SteimModel SteimSpec SteimProof SteimSafe.

(** C01 *)
Theorem C01_steim1_lossless : forall hb1 sw1 hb2 sw2 m1 m2 samples cap diff0,
  xorb hb1 sw1 = xorb hb2 sw2 ->
  compressible m1 samples -> compressible m2 samples -> int32 diff0 -> 64 <= cap ->
  exists n bytes,
    encode_steim1 hb1 sw1 m1 samples cap diff0 = Ok (n, bytes) /\
    1 <= n <= Z.of_nat (length samples) /\
    (exists g, (1 <= g)%nat /\ length bytes = (64 * g)%nat /\ Z.of_nat (length bytes) <= cap /\
       (n < Z.of_nat (length samples) -> Z.of_nat g = cap / 64)) /\
    bytes_ok bytes /\
    forall tail inlen ocap,
      Z.of_nat (length bytes) <= inlen <= Z.of_nat (length (bytes ++ tail)) ->
      4 * n <= ocap -> n < 2 ^ 62 ->
      decode_steim1 hb2 sw2 m2 (bytes ++ tail) inlen n ocap =
        Ok (firstn (Z.to_nat n) samples, false).
Proof. exact steim1_lossless_lemma. Qed.
Print Assumptions C01_steim1_lossless.

Definition demo : list Z := [100; 102; 99; 99; 1000; -70000; 5; 6; 2000000000; 0; 1; 2; 3; 4; 5; 6; 7].

Example C01_hypotheses_met :
  compressible Strict demo /\ int32 0 /\
  encode_steim1 false true Strict demo 128 0 = encode_steim1 true false Strict demo 128 0.
Proof.
  split; [|split; [unfold in_s; lia|reflexivity]].
  split; [|right]; repeat constructor; unfold in_s; simpl; lia.
Qed.

Example C01_instance :
  match encode_steim1 false true Strict demo 128 0 with
  | Ok (n, bytes) => n = 17 /\ length bytes = 64%nat /\
       decode_steim1 false true Strict bytes 64 17 68 = Ok (demo, false)
  | _ => False end.
Proof. vm_compute. auto. Qed.

(** Full-range samples also round-trip when overflow wraps. *)
Example C01_wrap_hypotheses : compressible Wrap [-2147483648; 2147483647].
Proof. split; [repeat constructor; unfold in_s; simpl; lia|left; reflexivity]. Qed.

(** The hypothesis on differences is needed: with two ordinary int32 samples the
    subtraction at packdata.c:315 overflows, undefined behaviour in C. *)
Theorem C01_full_range_refuted :
  Forall int32 [-2147483648; 2147483647] /\
  encode_steim1 false true Strict [-2147483648; 2147483647] 64 0 = UB SignedOverflow.
Proof. split; [repeat constructor; unfold in_s; simpl; lia|reflexivity]. Qed.
Print Assumptions C01_full_range_refuted.

(** So is the buffer size: a buffer of 1..63 bytes makes the encoders swap through a
    NULL pointer (packdata.c:401-402). *)
Theorem C01_small_buffer_refuted : forall cap, 0 < cap < 64 ->
  encode_steim1 false true Strict [1; 2; 3] cap 0 = UB NullDeref /\
  encode_steim2 false true Strict [1; 2; 3] cap 0 = UB NullDeref.
Proof.
  intros cap H. unfold encode_steim1, encode_steim2, steim_encode.
  destruct (Z.eqb_spec cap 0); [lia|]. rewrite Z.div_small by lia. split; reflexivity.
Qed.
Print Assumptions C01_small_buffer_refuted.

(** C02 *)
Theorem C02_steim2_lossless_or_refused : forall hb1 sw1 hb2 sw2 m1 m2 samples cap diff0,
  xorb hb1 sw1 = xorb hb2 sw2 ->
  compressible m1 samples -> compressible m2 samples -> int32 diff0 -> 64 <= cap ->
  (encode_steim2 hb1 sw1 m1 samples cap diff0 = Err (-1) /\
   exists j d, nth_error (stored_diffs diff0 samples) j = Some d /\ ~ fits30 d)
  \/
  exists n bytes,
    encode_steim2 hb1 sw1 m1 samples cap diff0 = Ok (n, bytes) /\
    1 <= n <= Z.of_nat (length samples) /\
    (exists g, (1 <= g)%nat /\ length bytes = (64 * g)%nat /\ Z.of_nat (length bytes) <= cap /\
       (n < Z.of_nat (length samples) -> Z.of_nat g = cap / 64)) /\
    bytes_ok bytes /\
    Forall fits30 (firstn (Z.to_nat n) (stored_diffs diff0 samples)) /\
    forall tail inlen ocap,
      Z.of_nat (length bytes) <= inlen <= Z.of_nat (length (bytes ++ tail)) ->
      4 * n <= ocap -> n < 2 ^ 62 ->
      decode_steim2 hb2 sw2 m2 (bytes ++ tail) inlen n ocap =
        Ok (firstn (Z.to_nat n) samples, false).
Proof. exact steim2_lossless_lemma. Qed.
Print Assumptions C02_steim2_lossless_or_refused.

Definition demo2 : list Z := [100; 102; 99; 99; 1000; -70000; 5; 6; 200000; 0; 1; 2; 3; 4; 5; 6; 7].

Example C02_accepts : compressible Strict demo2 /\
  match encode_steim2 false true Strict demo2 128 0 with
  | Ok (n, bytes) => n = 17 /\ decode_steim2 false true Strict bytes 64 17 68 = Ok (demo2, false)
  | _ => False end.
Proof.
  split; [split; [|right]; repeat constructor; unfold in_s; simpl; lia|vm_compute; auto].
Qed.

Example C02_refuses : compressible Strict demo /\ encode_steim2 false true Strict demo 128 0 = Err (-1).
Proof.
  split; [split; [|right]; repeat constructor; unfold in_s; simpl; lia|reflexivity].
Qed.

(** C03: [input] is the real buffer, [inlen] what the caller declares.  A read
    outside the buffer, a write outside the output or non-termination would be
    one of the other outcomes. *)
Theorem C03_steim1_decoder_safe : forall hb sw m input inlen cnt ocap,
  0 <= inlen <= Z.of_nat (length input) -> 1 <= cnt < 2 ^ 62 -> 0 <= ocap ->
  match decode_steim1 hb sw m input inlen cnt ocap with
  | Ok (outs, _) => Z.of_nat (length outs) <= cnt /\ Forall int32 outs /\
                    Z.of_nat (length outs) * 4 <= ocap
  | Err c => c = -1
  | UB SignedOverflow => m = Strict
  | _ => False
  end.
Proof. exact steim1_safe_lemma. Qed.
Print Assumptions C03_steim1_decoder_safe.

Theorem C03_steim2_decoder_safe : forall hb sw m input inlen cnt ocap,
  0 <= inlen <= Z.of_nat (length input) -> 1 <= cnt < 2 ^ 62 -> 0 <= ocap ->
  match decode_steim2 hb sw m input inlen cnt ocap with
  | Ok (outs, _) => Z.of_nat (length outs) <= cnt /\ Forall int32 outs /\
                    Z.of_nat (length outs) * 4 <= ocap
  | Err c => c = -1
  | UB SignedOverflow => m = Strict
  | _ => False
  end.
Proof. exact steim2_safe_lemma. Qed.
Print Assumptions C03_steim2_decoder_safe.

(** The result depends only on the declared input bytes. *)
Theorem C03_steim_decoders_ignore_tail : forall hb sw m input tail inlen cnt ocap,
  inlen <= Z.of_nat (length input) ->
  decode_steim1 hb sw m (input ++ tail) inlen cnt ocap = decode_steim1 hb sw m input inlen cnt ocap /\
  decode_steim2 hb sw m (input ++ tail) inlen cnt ocap = decode_steim2 hb sw m input inlen cnt ocap.
Proof. exact steim_tail_lemma. Qed.
Print Assumptions C03_steim_decoders_ignore_tail.

(** All-ones frame: code 3, i.e. one 32-bit difference -1 per word. *)
Example C03_instance :
  decode_steim1 false true Strict (repeat 255 64) 64 3 12 = Ok ([-1; -2; -3], true).
Proof. reflexivity. Qed.

(** The excluded corners.  A request for zero samples reads output[-1]
    (unpackdata.c:343), and hostile bytes overflow the signed addition (:338). *)
Theorem C03_zero_count_refuted :
  decode_steim1 false true Strict (repeat 0 64) 64 0 4 = UB OOBRead.
Proof. reflexivity. Qed.
Print Assumptions C03_zero_count_refuted.

Theorem C03_hostile_overflow_refuted : exists input,
  length input = 64%nat /\ decode_steim1 false true Strict input 64 3 12 = UB SignedOverflow.
Proof. exists (0 :: 255 :: 0 :: 0 :: repeat 127 60). split; reflexivity. Qed.
Print Assumptions C03_hostile_overflow_refuted.
