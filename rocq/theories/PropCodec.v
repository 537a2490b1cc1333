(** * Properties C04 and C05: fixed-width and legacy encodings.

    Vocabulary: CodecSpec.v, FloatSpec.v.  [xorb hb sw] is the byte order of the
    data.  Float samples are bit patterns. *)

From Verif Require Import Base BaseLemmas SteimModel FloatSpec CodecModel CodecSpec CodecProof GswapProof.
Open Scope Z_scope.

(** The byte swaps really reverse the bytes of a value, on either host. *)
Theorem C04_byte_swaps_reverse : forall hb d,
  host_bytes hb 2 (gswap2v d) = rev (host_bytes hb 2 d) /\
  host_bytes hb 4 (gswap4v d) = rev (host_bytes hb 4 d) /\
  host_bytes hb 8 (gswap8v d) = rev (host_bytes hb 8 d).
Proof. exact gswapv_correct_lemma. Qed.
Print Assumptions C04_byte_swaps_reverse.

Theorem C04_int32_roundtrip : forall hb1 sw1 hb2 sw2 samples cap,
  xorb hb1 sw1 = xorb hb2 sw2 -> samples <> [] -> Forall (in_s 32) samples -> 1 <= cap ->
  exists n bytes,
    encode_int32 hb1 sw1 samples cap = Ok (n, bytes) /\
    n = Z.min (Z.of_nat (length samples)) (cap / 4) /\
    Z.of_nat (length bytes) = 4 * n /\ Z.of_nat (length bytes) <= cap /\ bytes_ok bytes /\
    forall tail k ocap, 0 <= k <= n -> 4 * k <= ocap -> k < 2 ^ 32 ->
      decode_int32 hb2 sw2 (bytes ++ tail) k ocap = Ok (firstn (Z.to_nat k) samples).
Proof. exact int32_roundtrip. Qed.
Print Assumptions C04_int32_roundtrip.

Theorem C04_int16_roundtrip : forall hb1 sw1 hb2 sw2 samples cap,
  xorb hb1 sw1 = xorb hb2 sw2 -> samples <> [] -> Forall (in_s 16) samples -> 1 <= cap ->
  exists n bytes,
    encode_int16 hb1 sw1 samples cap = Ok (n, bytes) /\
    n = Z.min (Z.of_nat (length samples)) (cap / 2) /\
    Z.of_nat (length bytes) = 2 * n /\ Z.of_nat (length bytes) <= cap /\ bytes_ok bytes /\
    forall tail k ocap, 0 <= k <= n -> 4 * k <= ocap -> k < 2 ^ 32 ->
      decode_int16 hb2 sw2 (bytes ++ tail) k ocap = Ok (firstn (Z.to_nat k) samples).
Proof. exact int16_roundtrip. Qed.
Print Assumptions C04_int16_roundtrip.

Theorem C04_float32_roundtrip : forall hb1 sw1 hb2 sw2 samples cap,
  xorb hb1 sw1 = xorb hb2 sw2 -> samples <> [] -> Forall (in_u 32) samples -> 1 <= cap ->
  exists n bytes,
    encode_float32 hb1 sw1 samples cap = Ok (n, bytes) /\
    n = Z.min (Z.of_nat (length samples)) (cap / 4) /\
    Z.of_nat (length bytes) = 4 * n /\ Z.of_nat (length bytes) <= cap /\ bytes_ok bytes /\
    forall tail k ocap, 0 <= k <= n -> 4 * k <= ocap -> k < 2 ^ 32 ->
      decode_float32 hb2 sw2 (bytes ++ tail) k ocap = Ok (firstn (Z.to_nat k) samples).
Proof. exact float32_roundtrip. Qed.
Print Assumptions C04_float32_roundtrip.

Theorem C04_float64_roundtrip : forall hb1 sw1 hb2 sw2 samples cap,
  xorb hb1 sw1 = xorb hb2 sw2 -> samples <> [] -> Forall (in_u 64) samples -> 1 <= cap ->
  exists n bytes,
    encode_float64 hb1 sw1 samples cap = Ok (n, bytes) /\
    n = Z.min (Z.of_nat (length samples)) (cap / 8) /\
    Z.of_nat (length bytes) = 8 * n /\ Z.of_nat (length bytes) <= cap /\ bytes_ok bytes /\
    forall tail k ocap, 0 <= k <= n -> 8 * k <= ocap -> k < 2 ^ 32 ->
      decode_float64 hb2 sw2 (bytes ++ tail) k ocap = Ok (firstn (Z.to_nat k) samples).
Proof. exact float64_roundtrip. Qed.
Print Assumptions C04_float64_roundtrip.

Theorem C04_text_roundtrip : forall samples cap,
  samples <> [] -> bytes_ok samples -> 1 <= cap ->
  exists n bytes, encode_text samples cap = Ok (n, bytes) /\
    n = Z.min (Z.of_nat (length samples)) cap /\ Z.of_nat (length bytes) = n /\
    forall tail k ocap, 0 <= k <= n -> k <= ocap ->
      decode_text (bytes ++ tail) k ocap = Ok (firstn (Z.to_nat k) samples).
Proof. exact text_roundtrip. Qed.
Print Assumptions C04_text_roundtrip.

Example C04_instance :
  encode_int16 false true [1; -2; 300; -32768; 7] 9 = Ok (4, [0; 1; 255; 254; 1; 44; 128; 0]) /\
  decode_int16 true false [0; 1; 255; 254; 1; 44; 128; 0] 4 16 = Ok [1; -2; 300; -32768] /\
  Forall (in_s 16) [1; -2; 300; -32768; 7].
Proof. repeat split; repeat constructor; unfold in_s; simpl; lia. Qed.

(** The bytes are in data byte order (independent of the host). *)
Example C04_float64_instance :
  encode_float64 false true [4613937818241073152] 8 = Ok (1, [64; 8; 0; 0; 0; 0; 0; 0]).
Proof. reflexivity. Qed.

(** The last clause of C04 fails: a sample that is no 16-bit integer is written as
    a different value without an error (packdata.c:78). *)
Theorem C04_int16_range_refuted : exists x,
  int32 x /\ ~ in_s 16 x /\
  exists bytes, encode_int16 false true [x] 2 = Ok (1, bytes) /\
    decode_int16 false true bytes 1 4 = Ok [0].
Proof.
  exists 65536. split; [unfold in_s; lia|]. split; [unfold in_s; lia|].
  exists [0; 0]. split; reflexivity.
Qed.
Print Assumptions C04_int16_range_refuted.

(** ** C05: legacy encodings, series of any length *)

Theorem C05_cdsn : forall hb sw us tail ocap,
  Forall (in_u 16) us -> Z.of_nat (length us) < 2 ^ 32 -> 4 * Z.of_nat (length us) <= ocap ->
  decode_cdsn hb sw (series_bytes (xorb hb sw) 2 us ++ tail) (Z.of_nat (length us)) ocap
    = Ok (map cdsn_value us).
Proof. exact cdsn_series. Qed.
Print Assumptions C05_cdsn.

Theorem C05_dwwssn : forall hb sw us tail ocap,
  Forall (in_u 16) us -> Z.of_nat (length us) < 2 ^ 32 -> 4 * Z.of_nat (length us) <= ocap ->
  decode_dwwssn hb sw (series_bytes (xorb hb sw) 2 us ++ tail) (Z.of_nat (length us)) ocap
    = Ok (map dwwssn_value us).
Proof. exact dwwssn_series. Qed.
Print Assumptions C05_dwwssn.

Theorem C05_sro : forall hb sw us tail ocap,
  Forall (in_u 16) us -> Z.of_nat (length us) < 2 ^ 32 -> 4 * Z.of_nat (length us) <= ocap ->
  Forall sro_defined us ->
  decode_sro hb sw (series_bytes (xorb hb sw) 2 us ++ tail) (Z.of_nat (length us)) ocap
    = Ok (map sro_value us).
Proof. exact sro_series. Qed.
Print Assumptions C05_sro.

Theorem C05_sro_undefined_gain : forall hb sw us tail ocap,
  Forall (in_u 16) us -> Z.of_nat (length us) < 2 ^ 32 -> 4 * Z.of_nat (length us) <= ocap ->
  ~ Forall sro_defined us ->
  decode_sro hb sw (series_bytes (xorb hb sw) 2 us ++ tail) (Z.of_nat (length us)) ocap
    = Err (-1).
Proof. exact sro_series_err. Qed.
Print Assumptions C05_sro_undefined_gain.

Theorem C05_geoscope_gain3 : forall hb sw us tail ocap,
  Forall (in_u 16) us -> Z.of_nat (length us) < 2 ^ 32 -> 4 * Z.of_nat (length us) <= ocap ->
  exists outs,
    decode_geoscope 13 hb sw (series_bytes (xorb hb sw) 2 us ++ tail) (Z.of_nat (length us)) ocap = Ok outs /\
    Forall2 (fun x u => sf_is x (geoscope163_value u)) outs us.
Proof. exact geoscope163_series. Qed.
Print Assumptions C05_geoscope_gain3.

Theorem C05_geoscope_gain4 : forall hb sw us tail ocap,
  Forall (in_u 16) us -> Z.of_nat (length us) < 2 ^ 32 -> 4 * Z.of_nat (length us) <= ocap ->
  exists outs,
    decode_geoscope 14 hb sw (series_bytes (xorb hb sw) 2 us ++ tail) (Z.of_nat (length us)) ocap = Ok outs /\
    Forall2 (fun x u => sf_is x (geoscope164_value u)) outs us.
Proof. exact geoscope164_series. Qed.
Print Assumptions C05_geoscope_gain4.

(** 24-bit, big-endian data. *)
Theorem C05_geoscope24_big_endian : forall hb sw us tail ocap,
  xorb hb sw = true -> Forall (in_u 24) us -> Z.of_nat (length us) < 2 ^ 32 ->
  4 * Z.of_nat (length us) <= ocap ->
  exists outs,
    decode_geoscope 12 hb sw (series_bytes true 3 us ++ tail) (Z.of_nat (length us)) ocap = Ok outs /\
    Forall2 (fun x u => sf_is x (geoscope24_value u)) outs us.
Proof. exact geoscope24_series. Qed.
Print Assumptions C05_geoscope24_big_endian.

(** For little-endian data the 24-bit decoder puts the bytes one position too high
    (unpackdata.c:664-666): the word 1 decodes to 256. *)
Theorem C05_geoscope24_little_endian_refuted : exists u,
  in_u 24 u /\
  (exists x, decode_geoscope 12 false false (series_bytes false 3 [u]) 1 4 = Ok [x] /\
             ~ sf_is x (geoscope24_value u)) /\
  (exists x, decode_geoscope 12 true true (series_bytes false 3 [u]) 1 4 = Ok [x] /\
             ~ sf_is x (geoscope24_value u)).
Proof.
  exists 1. split; [unfold in_u; lia|].
  split; eexists; (split; [vm_compute; reflexivity|]); vm_compute; discriminate.
Qed.
Print Assumptions C05_geoscope24_little_endian_refuted.

Example C05_instances :
  Forall (in_u 16) [0xFFFF; 0x0000; 0x7FFF; 0x4001] /\
  map cdsn_value [0xFFFF; 0x0000; 0x7FFF; 0x4001] = [1048576; -8191; 32768; -32760] /\
  map sro_value [0x0800; 0xA7FF; 0x5001] = [-2097152; 2047; 32] /\
  Forall sro_defined [0x0800; 0xA7FF; 0x5001] /\ ~ Forall sro_defined [0xB000] /\
  Qeq (geoscope163_value 0x7FFF) (2047 # 128) /\
  map dwwssn_value [0x8000; 0x7FFF] = [-32768; 32767].
Proof.
  repeat split; try reflexivity.
  - repeat constructor; unfold in_u; simpl; lia.
  - repeat constructor; unfold sro_defined; vm_compute; discriminate.
  - intros H. inversion H as [|? ? H1 _]. revert H1. unfold sro_defined. vm_compute. auto.
Qed.
