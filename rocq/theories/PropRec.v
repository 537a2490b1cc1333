(** * C22, C23 and the record clause of C07: version 3 record detection and parsing.
    Vocabulary: RecSpec.v (layout, stated lengths), CrcSpec.v (differ_by). *)

From Verif Require Import Base CrcSpec TimeSpec RecModel RecSpec RecProof.
Open Scope Z_scope.

(** A record used as an instance below: text payload "data". *)
Definition sample_hdr : hdr :=
  mk_hdr 4 500 2024 60 1 2 3 0 0x3FF0000000000000 4 1745263372 1
         [70; 68; 83; 78; 58; 88; 88; 95; 65] [123; 125] [100; 97; 116; 97].

Lemma sample_hdr_ok : hdr_ok sample_hdr.
Proof. unfold hdr_ok, in_u. cbn -[Z.pow]. repeat split; try lia; repeat constructor; lia. Qed.

(** ** C22 *)

(** A buffer with the signature and at least the fixed header: the length detected is
    the fixed header plus the stated lengths, modulo 2^32. *)
Theorem C22_detected_length : forall buf, 40 <= lenZ buf -> signature3 buf ->
  detect false buf = Ok (3, (40 + stated_lengths buf) mod 2 ^ 32).
Proof. exact detect_any. Qed.
Print Assumptions C22_detected_length.

(** Nothing after the fixed header matters. *)
Theorem C22_prefix_stable : forall buf buf', 40 <= lenZ buf -> 40 <= lenZ buf' -> signature3 buf ->
  firstn 40 buf' = firstn 40 buf -> detect false buf' = detect false buf.
Proof. exact detect_prefix. Qed.
Print Assumptions C22_prefix_stable.

(** For a record the library supports the length is exact. *)
Theorem C22_exact : forall h rest, hdr_ok h ->
  detect false (fixed3 h ++ rest) = Ok (3, lenZ (layout3 h)).
Proof. exact detect_fixed. Qed.
Print Assumptions C22_exact.

Example C22_instance : hdr_ok sample_hdr /\ signature3 (fixed3 sample_hdr) /\
  detect false (fixed3 sample_hdr) = Ok (3, 55) /\ lenZ (layout3 sample_hdr) = 55.
Proof. split; [exact sample_hdr_ok|]. repeat split; cbn; lia. Qed.

(** Without the modulus it is false: the sum of extreme length fields wraps and the
    detected length is 40, shorter than the header it is computed from. *)
Theorem C22_wrap_refuted : exists buf, 40 <= lenZ buf /\ signature3 buf /\ bytes_ok buf /\
  stated_lengths buf = 2 ^ 32 /\ detect false buf = Ok (3, 40).
Proof.
  exists ([77; 83; 3] ++ repeat 0 30 ++ [50; 232; 3; 230; 251; 255; 255]).
  repeat split; try (cbn; lia). vm_compute. repeat constructor; discriminate.
Qed.
Print Assumptions C22_wrap_refuted.

(** On a big-endian host the length fields are not swapped (parseutils.c:207-210). *)
Theorem C22_big_endian_host_refuted : exists h, hdr_ok h /\ lenZ (layout3 h) = 55 /\
  detect true (layout3 h) = Ok (3, 67109425).
Proof. exists sample_hdr. split; [exact sample_hdr_ok|]. split; reflexivity. Qed.
Print Assumptions C22_big_endian_host_refuted.

(** ** C23 *)

(** A part of a record, from the fixed header on, gives the exact number of missing
    bytes; with these the record parses as it does alone, whatever follows. *)
Theorem C23_hint : forall unpack2 mode addr flags h k, hdr_ok h -> 40 <= k < lenZ (layout3 h) ->
  exists n, 0 < n /\ k + n = lenZ (layout3 h) /\
    parse unpack2 false mode addr flags (firstn (Z.to_nat k) (layout3 h)) = Ok (PHint n) /\
    forall tail, bytes_ok tail ->
      parse unpack2 false mode addr flags (firstn (Z.to_nat (k + n)) (layout3 h) ++ tail) =
      parse unpack2 false mode addr flags (layout3 h).
Proof. exact hint_then_parse. Qed.
Print Assumptions C23_hint.

Theorem C23_tail : forall unpack2 mode addr flags h tail, hdr_ok h -> bytes_ok tail ->
  parse unpack2 false mode addr flags (layout3 h ++ tail) = parse unpack2 false mode addr flags (layout3 h).
Proof. exact parse_tail. Qed.
Print Assumptions C23_tail.

(** A complete record with a valid time is parsed, not asked for more: the fields are
    those of the layout.  The checksum must be right if validation is requested. *)
Theorem C23_complete : forall unpack2 mode addr flags h, hdr_ok h -> lenZ (h_sid h) < 64 ->
  has_flag flags 1 = false -> (has_flag flags 4 = true -> h_crc h = crc3 h) ->
  forall t, time2nstime mode (h_year h) (h_day h) (h_hour h) (h_min h) (h_sec h) (h_nsec h) = Ok t ->
  t <> NSTERROR ->
  parse unpack2 false mode addr flags (layout3 h) = Ok (PRec (rec_of false t h None)).
Proof. exact parse_record. Qed.
Print Assumptions C23_complete.

Example C23_instance :
  parse (fun _ _ => Err (-1)) false Strict 0 5 (firstn 47 (layout3 sample_hdr)) = Ok (PHint 8) /\
  parse (fun _ _ => Err (-1)) false Strict 0 5 (layout3 sample_hdr ++ [1; 2; 3]) =
    Ok (PRec (rec_of false 1709168523000000500 sample_hdr (Some (SInt [100; 97; 116; 97])))).
Proof. split; vm_compute; reflexivity. Qed.

(** Below the fixed header there is no hint: the result is "not SEED". *)
Theorem C23_below_fixed_header_refuted : exists h k, hdr_ok h /\ 0 < k < lenZ (layout3 h) /\
  forall unpack2 hb mode addr flags,
    parse unpack2 hb mode addr flags (firstn (Z.to_nat k) (layout3 h)) = Err (-2).
Proof.
  exists sample_hdr, 39. split; [exact sample_hdr_ok|]. split; [split; reflexivity|].
  intros. apply parse_short. reflexivity.
Qed.
Print Assumptions C23_below_fixed_header_refuted.

(** ** C07: damaged records are rejected *)

(** msr3_unpack_mseed3 with checksum validation rejects a record damaged within 32
    consecutive bits outside the checksum field. *)
Theorem C07_record_rejected : forall hb mode addr flags r r' m pos e,
  has_flag flags 4 = true -> bytes_ok r -> bytes_ok r' -> 40 <= lenZ r ->
  unpack3 hb mode addr flags r (lenZ r) = Ok m ->
  firstn 4 (skipn 28 r') = firstn 4 (skipn 28 r) -> differ_by r r' pos e -> 0 <= pos -> 0 < e < 2 ^ 32 ->
  exists c, unpack3 hb mode addr flags r' (lenZ r) = Err c.
Proof. exact damage_rejected. Qed.
Print Assumptions C07_record_rejected.

(** Through msr3_parse, when the three signature bytes and the length fields are not
    among the damaged ones. *)
Theorem C07_parse_rejected : forall unpack2 mode addr flags r r' m pos e,
  has_flag flags 4 = true -> bytes_ok r -> bytes_ok r' -> 40 <= lenZ r <= 10485760 ->
  signature3 r -> 40 + stated_lengths r = lenZ r ->
  parse unpack2 false mode addr flags r = Ok (PRec m) ->
  firstn 3 r' = firstn 3 r -> firstn 4 (skipn 28 r') = firstn 4 (skipn 28 r) ->
  firstn 7 (skipn 33 r') = firstn 7 (skipn 33 r) ->
  differ_by r r' pos e -> 0 <= pos -> 0 < e < 2 ^ 32 ->
  exists c, parse unpack2 false mode addr flags r' = Err c.
Proof. exact parse_damage. Qed.
Print Assumptions C07_parse_rejected.

(** One flipped bit in the payload. *)
Example C07_record_instance :
  let r := layout3 sample_hdr in let r' := firstn 52 r ++ [96] ++ skipn 53 r in
  unpack3 false Strict 0 4 r 55 = Ok (rec_of false 1709168523000000500 sample_hdr None) /\
  differ_by r r' (8 * 52) 1 /\ unpack3 false Strict 0 4 r' 55 = Err (-7).
Proof. repeat split; vm_compute; reflexivity. Qed.

(** In the payload length the guard is needed: with a chosen continuation of the
    stream the damaged record is accepted, four bytes longer, and its checksum
    verifies. *)
Theorem C07_length_field_refuted : exists r r' tail m, bytes_ok r' /\ bytes_ok tail /\
  parse (fun _ _ => Err (-1)) false Strict 0 4 r = Ok (PRec m) /\
  firstn 4 (skipn 28 r') = firstn 4 (skipn 28 r) /\ differ_by r r' 288 12 /\
  exists m', parse (fun _ _ => Err (-1)) false Strict 0 4 (r' ++ tail) = Ok (PRec m') /\ m_datalen m' = 8.
Proof.
  exists (layout3 sample_hdr).
  exists (firstn 36 (layout3 sample_hdr) ++ [8] ++ skipn 37 (layout3 sample_hdr)).
  exists [226; 130; 131; 93]. eexists.
  split; [vm_compute; repeat constructor; discriminate|].
  split; [repeat constructor; lia|].
  split; [vm_compute; reflexivity|]. split; [reflexivity|]. split; [split; vm_compute; reflexivity|].
  eexists. split; vm_compute; reflexivity.
Qed.
Print Assumptions C07_length_field_refuted.
