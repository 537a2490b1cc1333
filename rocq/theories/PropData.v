(** * C39: unpacking the samples of a record.  Vocabulary: DataSpec.v. *)

From Verif Require Import Base BaseLemmas RecModel RecSpec RecProof DataSpec DataProof PropRec.
Open Scope Z_scope.

(** A record of either version whose payload lies inside the record: whatever the
    encoding and the sample count, unpacking stays inside the record when the samples
    stated fit in the bytes at the decoder's disposal. *)
Theorem C39_inside_partial : forall hb mode addr rec m off ext,
  lenZ rec = m_reclen m -> payload_at hb rec m off ext ->
  0 <= off -> 0 <= ext -> off + ext <= m_reclen m -> -1 <= m_enc m < 256 ->
  (forall w, sample_bytes (m_enc m) = Some w ->
     m_cnt m * w <= available addr m off ext (m_cnt m * w)) ->
  inside mode (unpack_data hb mode addr rec m).
Proof. exact inside_lemma. Qed.
Print Assumptions C39_inside_partial.

(** The Steim encodings and unknown encodings need no condition on the count. *)
Theorem C39_compressed : forall hb mode addr rec m off ext,
  lenZ rec = m_reclen m -> payload_at hb rec m off ext ->
  0 <= off -> 0 <= ext -> off + ext <= m_reclen m -> -1 <= m_enc m < 256 ->
  sample_bytes (m_enc m) = None -> inside mode (unpack_data hb mode addr rec m).
Proof.
  intros hb mode addr rec m off ext L P H1 H2 H3 E S. eapply inside_lemma; eauto. congruence.
Qed.
Print Assumptions C39_compressed.

(** Otherwise it reads outside, always. *)
Theorem C39_outside : forall hb mode addr rec m off ext w,
  lenZ rec = m_reclen m -> payload_at hb rec m off ext -> 0 <= ext ->
  off + ext <= m_reclen m -> unpackable m off ->
  sample_bytes (m_enc m) = Some w -> m_enc m <> 30 ->
  available addr m off ext (m_cnt m * w) < m_cnt m * w ->
  unpack_data hb mode addr rec m = UB OOBRead.
Proof. exact outside_lemma. Qed.
Print Assumptions C39_outside.

(** From the bytes: parsing a complete version 3 record, with any flags and whatever
    follows it in the buffer, stays inside when its header is consistent. *)
Theorem C39_record_partial : forall unpack2 mode addr flags h tail,
  hdr_ok h -> bytes_ok tail -> consistent h -> not_truncated addr h ->
  inside mode (parse unpack2 false mode addr flags (layout3 h ++ tail)).
Proof. exact parse_inside. Qed.
Print Assumptions C39_record_partial.

(** Unpacking later, with any start time set on the record. *)
Theorem C39_deferred_partial : forall hb mode addr h start,
  hdr_ok h -> consistent h -> not_truncated addr h ->
  inside mode (unpack_data hb mode addr (layout3 h) (rec_of hb start h None)).
Proof. exact inside3. Qed.
Print Assumptions C39_deferred_partial.

(** A record of four text samples at an odd address, unpacked while parsing; a version 2
    header description with 16 Steim bytes; and one with three samples for four bytes. *)
Definition v2_rec (off : Z) (body : list Z) : list Z := repeat 0 44 ++ [off / 256; off mod 256] ++ body.
Definition v2_msr (reclen enc cnt : Z) : msr :=
  mk_msr reclen true true 2 0 [] 0 0 enc 1 cnt 0 [] 0 None.
Example C39_instance :
  hdr_ok sample_hdr /\ consistent sample_hdr /\ not_truncated 3 sample_hdr /\
  (exists m, parse (fun _ _ => Err (-1)) false Strict 3 1 (layout3 sample_hdr ++ [1; 2]) = Ok (PRec m)
    /\ m_data m = Some (SInt [100; 97; 116; 97])) /\
  payload_at false (v2_rec 48 (repeat 0 18)) (v2_msr 64 10 5) 48 16 /\
  inside Strict (unpack_data false Strict 0 (v2_rec 48 (repeat 0 18)) (v2_msr 64 10 5)) /\
  unpackable (v2_msr 64 1 2) 48 /\
  unpack_data false Strict 0 (v2_rec 48 ([0; 0; 1; 2; 3; 4] ++ repeat 0 12)) (v2_msr 64 1 2) = Ok (SInt [258; 772]) /\
  available 0 (v2_msr 64 1 9) 48 16 18 < 9 * 2 /\
  unpack_data false Strict 0 (v2_rec 48 (repeat 0 18)) (v2_msr 64 1 9) = UB OOBRead.
Proof.
  split; [exact sample_hdr_ok|]. split; [cbn; lia|]. split; [left; reflexivity|].
  split; [eexists; split; reflexivity|]. split; [right; repeat split|].
  split; [vm_compute; reflexivity|]. split; [unfold unpackable; cbn; lia|].
  split; [reflexivity|]. split; [cbn; lia|]. reflexivity.
Qed.

(** The claim without the conditions is false.  A record with a valid checksum, a
    one-byte payload and one 32-bit sample stated. *)
Definition short_hdr : hdr :=
  mk_hdr 0 0 2024 1 0 0 0 3 0 1 0 1 [88] [] [7].
Theorem C39_count_refuted : exists h, hdr_ok h /\ h_crc h = crc3 h /\
  lenZ (layout3 h) = 42 /\ lenZ (h_payload h) = 1 /\ h_enc h = 3 /\ h_cnt h = 1 /\
  forall unpack2 mode, parse unpack2 false mode 0 5 (layout3 h) = UB OOBRead.
Proof.
  exists (with_crc short_hdr (crc3 short_hdr)).
  split. { vm_compute. repeat split; try discriminate; repeat constructor; discriminate. }
  repeat split; vm_compute; reflexivity.
Qed.
Print Assumptions C39_count_refuted.

(** A consistent record whose payload is larger than its samples: the size copied for an
    unaligned payload is computed as a 16-bit integer (unpack.c:1077), so that a
    payload of 65540 bytes with 32768 16-bit samples gives a copy of zero bytes, of which
    65536 are read. *)
Definition long_hdr (p : list Z) : hdr := mk_hdr 0 0 2024 1 0 0 0 1 0 32768 0 1 [88] [] p.
Lemma long_hdr_outside p : lenZ p = 65540 -> bytes_ok p ->
  hdr_ok (long_hdr p) /\ consistent (long_hdr p) /\ forall mode start,
  unpack_data false mode 0 (layout3 (long_hdr p)) (rec_of false start (long_hdr p) None) = UB OOBRead.
Proof.
  intros P B. set (h := long_hdr p).
  assert (L : lenZ (layout3 h) = 65581).
  { rewrite layout3_len. change (h_payload h) with p. rewrite P. reflexivity. }
  split. { unfold hdr_ok. rewrite L. change (h_payload h) with p. unfold in_u. cbn -[Z.pow]. repeat split; try lia; auto; repeat constructor; lia. }
  split. { unfold consistent. change (h_payload h) with p. rewrite P. cbn. lia. }
  intros mode start. apply (outside_lemma false mode 0 (layout3 h) (rec_of false start h None) 41 65540 2).
  - reflexivity.
  - left. repeat split. symmetry. exact P.
  - lia.
  - unfold rec_of. cbn [m_reclen]. rewrite L. lia.
  - unfold unpackable, rec_of. cbn [m_cnt m_reclen]. rewrite L. cbn [h_cnt h long_hdr]. lia.
  - reflexivity.
  - discriminate.
  - reflexivity.
Qed.
Theorem C39_truncated_refuted : exists h, hdr_ok h /\ consistent h /\
  lenZ (h_payload h) = 65540 /\ h_enc h = 1 /\ h_cnt h = 32768 /\
  forall mode start, unpack_data false mode 0 (layout3 h) (rec_of false start h None) = UB OOBRead.
Proof.
  assert (P : lenZ (repeat 0 (Z.to_nat 65540)) = 65540) by (unfold lenZ; rewrite repeat_length; apply Z2Nat.id; lia).
  assert (B : bytes_ok (repeat 0 (Z.to_nat 65540))).
  { apply Forall_forall. intros x Hx. apply repeat_spec in Hx. subst x. unfold byte_ok. clear. lia. }
  destruct (long_hdr_outside _ P B) as (H & C & O).
  exists (long_hdr (repeat 0 (Z.to_nat 65540))). split; [exact H|]. split; [exact C|].
  split; [exact P|]. split; [reflexivity|]. split; [reflexivity|]. exact O.
Qed.
Print Assumptions C39_truncated_refuted.

(** A version 2 record whose data offset is beyond its end, with Steim data: the payload
    size wraps to 2^32-64 and the search for trailing zero frames starts there, before
    the check of the offset (unpack.c:1085 and 1168). *)
Theorem C39_offset_refuted : exists rec m, lenZ rec = 128 /\ m_reclen m = 128 /\ bytes_ok rec /\
  m_fver m = 2 /\ m_enc m = 11 /\ rd false true 2 44 rec = Ok 192 /\
  forall mode addr, unpack_data false mode addr rec m = UB OOBRead.
Proof.
  exists (v2_rec 192 (repeat 0 82)), (v2_msr 128 11 1).
  repeat split; try reflexivity.
  vm_compute. repeat constructor; discriminate.
Qed.
Print Assumptions C39_offset_refuted.
