(** * C42: repacking a parsed record as version 3.
    Vocabulary: RepackSpec.v, DataSpec.v (where the payload is), PackSpec.v. *)

From Verif Require Import Base BaseLemmas RecModel RecSpec RecProof PackModel PackSpec DataSpec RepackSpec RepackProof PropRec PropData.
Open Scope Z_scope.

(** Given room for the identifier too, a record of either version is repacked: the header
    carries the fields given, the payload bytes are those kept of the original, the
    checksum is valid (flag 4 validates it), and nothing beyond the record is written. *)
Theorem C42_record_partial : forall recip hb addr rec m buf off ext, repackable recip m ->
  bytes_ok rec -> bytes_ok buf -> 0 <= addr < 4 ->
  lenZ rec = m_reclen m -> payload_at hb rec m off ext -> 0 <= off -> 0 <= ext -> off + ext <= m_reclen m ->
  hdrlen m + ext <= 10485760 -> hdrlen m + ext <= lenZ buf ->
  exists size buf' c, repack3 recip hb addr rec m buf = Ok (buf', hdrlen m + size) /\
    0 <= size <= ext /\ kept (m_enc m) (m_cnt m) ext size /\ lenZ buf' = lenZ buf /\
    skipn (Z.to_nat (hdrlen m + size)) buf' = skipn (Z.to_nat (hdrlen m + size)) buf /\
    firstn (Z.to_nat size) (skipn (Z.to_nat (hdrlen m)) buf') = firstn (Z.to_nat size) (skipn (Z.to_nat off) rec) /\
    forall u mode a, parse u false mode a 4 buf' = Ok (PRec (repacked recip m size c None)).
Proof. exact repack_record. Qed.
Print Assumptions C42_record_partial.

(** The samples: when the payload holds them in the byte order of version 3, and a Steim
    payload has its unused frames at the end, the new record unpacks to the samples the
    original unpacks to. *)
Theorem C42_samples_partial : forall recip mode addr ar rec m buf off ext s, repackable recip m ->
  bytes_ok rec -> bytes_ok buf -> 0 <= ar < 4 ->
  lenZ rec = m_reclen m -> payload_at false rec m off ext -> 0 <= off -> 0 <= ext -> off + ext <= m_reclen m ->
  hdrlen m + ext <= 10485760 -> hdrlen m + ext <= lenZ buf -> 1 <= m_cnt m -> 0 <= m_enc m < 256 ->
  holds_samples m ext -> version3_order m -> Forall (fun b => b <> 0) (m_extra m) ->
  (is_steim (m_enc m) = true -> frames_then_padding (firstn (Z.to_nat ext) (skipn (Z.to_nat off) rec))) ->
  unpack_data false mode addr rec m = Ok s ->
  exists size buf' c, repack3 recip false ar rec m buf = Ok (buf', hdrlen m + size) /\ 0 <= size <= ext /\
    forall u a, parse u false mode a 5 buf' = Ok (PRec (repacked recip m size c (Some s))).
Proof. exact repack_samples. Qed.
Print Assumptions C42_samples_partial.

(** A version 3 original needs no condition on order or frames. *)
Theorem C42_samples3_partial : forall recip mode addr ar h start buf s, let m := rec_of false start h None in
  hdr_ok h -> repackable recip m -> Forall (fun b => b <> 0) (h_sid h) -> bytes_ok buf -> 0 <= ar < 4 ->
  lenZ (layout3 h) <= lenZ buf -> 1 <= h_cnt h -> holds_samples m (lenZ (h_payload h)) ->
  unpack_data false mode addr (layout3 h) m = Ok s ->
  exists size buf' c, repack3 recip false ar (layout3 h) m buf = Ok (buf', hdrlen m + size) /\ 0 <= size <= lenZ (h_payload h) /\
    forall u a, parse u false mode a 5 buf' = Ok (PRec (repacked recip m size c (Some s))).
Proof. exact repack_samples3. Qed.
Print Assumptions C42_samples3_partial.

(** A smaller buffer is refused, or, when it is short by no more than the identifier,
    written beyond its end, always. *)
Theorem C42_room : forall recip hb addr rec m buf off ext, repackable recip m ->
  bytes_ok rec -> bytes_ok buf -> 0 <= addr < 4 ->
  lenZ rec = m_reclen m -> payload_at hb rec m off ext -> 0 <= off -> 0 <= ext -> off + ext <= m_reclen m ->
  exists size, 0 <= size <= ext /\ kept (m_enc m) (m_cnt m) ext size /\
    (lenZ buf < hdrlen m \/ lenZ buf < 40 + lenZ (m_extra m) + size -> repack3 recip hb addr rec m buf = Err (-1)) /\
    (hdrlen m <= lenZ buf -> 40 + lenZ (m_extra m) + size <= lenZ buf < hdrlen m + size -> repack3 recip hb addr rec m buf = UB OOBWrite).
Proof. exact repack_room. Qed.
Print Assumptions C42_room.

(** Instances: a version 3 text record; a big-endian version 2 record with two Steim-1
    frames of which the second is padding. *)
Definition repack_v2 (reclen : Z) (swapp : bool) (enc cnt : Z) : msr :=
  mk_msr reclen true swapp 2 0 [88; 88] 1709168523000000500 0x4059000000000000 enc 1 cnt 0 [] 0 None.
Definition steim_frame : list Z := [1; 85; 85; 85; 0; 0; 0; 10; 0; 0; 0; 61] ++ repeat 1 52.
Definition v2_steim : list Z := v2_rec 64 (repeat 0 18 ++ steim_frame ++ repeat 0 64).

Lemma v2_repackable reclen swapp enc cnt : 40 <= reclen <= 10485760 -> 0 <= cnt < 2 ^ 31 -> repackable Z.opp (repack_v2 reclen swapp enc cnt).
Proof.
  intros H1 H2. unfold repackable, msr_ok, readable_time, in_u, in_s. cbn -[Z.pow]. repeat split; try lia; try (repeat constructor; lia).
  unfold NSTERROR. lia.
Qed.

Example C42_instance :
  repackable Z.opp (rec_of false 1709168523000000500 sample_hdr None) /\
  holds_samples (rec_of false 1709168523000000500 sample_hdr None) 4 /\
  unpack_data false Strict 0 (layout3 sample_hdr) (rec_of false 1709168523000000500 sample_hdr None) = Ok (SInt [100; 97; 116; 97]) /\
  (exists buf', repack3 Z.opp false 1 (layout3 sample_hdr) (rec_of false 1709168523000000500 sample_hdr None) (repeat 9 60) = Ok (buf', 55) /\
     skipn 55 buf' = [9; 9; 9; 9; 9]) /\
  payload_at false v2_steim (repack_v2 192 true 10 52) 64 128 /\ version3_order (repack_v2 192 true 10 52) /\
  frames_then_padding (firstn 128 (skipn 64 v2_steim)) /\
  unpack_data false Strict 0 v2_steim (repack_v2 192 true 10 52) = Ok (SInt (map (fun k => 10 + Z.of_nat k) (seq 0 52))) /\
  exists buf', repack3 Z.opp false 0 v2_steim (repack_v2 192 true 10 52) (repeat 9 200) = Ok (buf', 170).
Proof.
  split. { unfold repackable, msr_ok, readable_time, in_u, in_s. cbn -[Z.pow]. repeat split; try lia; try (repeat constructor; lia). unfold NSTERROR. lia. }
  split. { cbn. lia. }
  split; [reflexivity|]. split; [eexists; split; vm_compute; reflexivity|]. split; [right; repeat split|].
  split; [right; reflexivity|]. split.
  { exists 1%nat. split; [lia|]. split; [intros k Hk; replace k with 0%nat by lia; discriminate|].
    intros k i Hk Hi. destruct (le_lt_dec 2 k) as [G|G]; [apply nth_overflow; vm_compute length; lia|].
    replace k with 1%nat by lia. do 4 (destruct i as [|i]; [reflexivity|]). lia. }
  split; [vm_compute; reflexivity|]. eexists. vm_compute. reflexivity.
Qed.

(** The claim as stated is false.  The check of the buffer leaves out the identifier
    (pack.c:441): a record of 46 bytes is written into a buffer of 45. *)
Theorem C42_overflow_refuted : exists rec m buf, repackable Z.opp m /\ lenZ rec = m_reclen m /\ lenZ buf = 45 /\
  payload_at false rec m 60 4 /\ repack3 Z.opp false 0 rec m buf = UB OOBWrite.
Proof.
  exists (v2_rec 60 (repeat 0 14 ++ [0; 0; 1; 2])), (repack_v2 64 true 3 1), (repeat 0 45).
  split; [apply v2_repackable; lia|]. split; [reflexivity|]. split; [reflexivity|]. split; [right; repeat split|].
  vm_compute. reflexivity.
Qed.
Print Assumptions C42_overflow_refuted.

(** The payload is copied as it is: the integers of a big-endian version 2 record come
    out with their bytes reversed. *)
Theorem C42_order_refuted : exists rec m buf buf' n, repackable Z.opp m /\ lenZ rec = m_reclen m /\
  payload_at false rec m 60 4 /\ unpack_data false Strict 0 rec m = Ok (SInt [258]) /\
  repack3 Z.opp false 0 rec m buf = Ok (buf', n) /\
  forall u, exists m', parse u false Strict 0 5 buf' = Ok (PRec m') /\ m_data m' = Some (SInt [33619968]).
Proof.
  exists (v2_rec 60 (repeat 0 14 ++ [0; 0; 1; 2])), (repack_v2 64 true 3 1), (repeat 0 46). do 2 eexists.
  split; [apply v2_repackable; lia|]. split; [reflexivity|]. split; [right; repeat split|].
  split; [vm_compute; reflexivity|]. split; [vm_compute; reflexivity|].
  intros u. eexists. split; [vm_compute; reflexivity|]. reflexivity.
Qed.
Print Assumptions C42_order_refuted.

(** A version 2 record that does not say its encoding (no blockette 1000) is decoded as
    Steim-1 (unpack.c:1175-1180), but its new header says Steim-2 (pack.c:512). *)
Theorem C42_encoding_refuted : exists rec m buf buf' n s, repackable Z.opp m /\ lenZ rec = m_reclen m /\ m_enc m = -1 /\
  payload_at false rec m 64 64 /\ unpack_data false Strict 0 rec m = Ok s /\
  repack3 Z.opp false 0 rec m buf = Ok (buf', n) /\
  forall u, parse u false Strict 0 5 buf' = Err (-1).
Proof.
  exists (v2_rec 64 (repeat 0 18 ++ [2; 0; 0; 0; 0; 0; 0; 10; 0; 0; 0; 11; 0; 1; 0; 1] ++ repeat 0 48)), (repack_v2 128 true (-1) 2), (repeat 0 106). do 3 eexists.
  split; [apply v2_repackable; lia|]. split; [reflexivity|]. split; [reflexivity|]. split; [right; repeat split|].
  split; [vm_compute; reflexivity|]. split; [vm_compute; reflexivity|].
  intros u. vm_compute. reflexivity.
Qed.
Print Assumptions C42_encoding_refuted.

(** The search for padding frames counts from the start of the record, not of the data
    (unpack.c:1086): zeros between the header and the data make it drop a frame in use. *)
Theorem C42_frames_refuted : exists rec m buf buf', repackable Z.opp m /\ lenZ rec = m_reclen m /\
  payload_at false rec m 128 128 /\ (exists i, (64 <= i < 128)%nat /\ nth (128 + i) rec 0 <> 0) /\
  hdrlen m + 128 <= lenZ buf /\ repack3 Z.opp false 0 rec m buf = Ok (buf', hdrlen m + 64).
Proof.
  exists (v2_rec 128 (repeat 0 82 ++ steim_frame ++ [21; 85; 85; 85] ++ repeat 1 60)), (repack_v2 256 true 10 112), (repeat 0 200). eexists.
  split; [apply v2_repackable; lia|]. split; [reflexivity|]. split; [right; repeat split|].
  split; [exists 64%nat; split; [lia|discriminate]|]. split; [vm_compute; discriminate|].
  vm_compute. reflexivity.
Qed.
Print Assumptions C42_frames_refuted.

(** The size of the samples is taken modulo 2^16 when the payload is larger
    (unpack.c:1077): 32768 16-bit samples in 65540 bytes, and none of them is taken over. *)
Theorem C42_truncated_refuted : exists h, hdr_ok h /\ h_enc h = 1 /\ h_cnt h = 32768 /\ lenZ (h_payload h) = 65540 /\
  exists start, repackable Z.opp (rec_of false start h None) /\
  forall buf, bytes_ok buf -> 65581 <= lenZ buf ->
  exists buf', repack3 Z.opp false 0 (layout3 h) (rec_of false start h None) buf = Ok (buf', 41).
Proof.
  assert (P : lenZ (repeat 0 (Z.to_nat 65540)) = 65540) by (unfold lenZ; rewrite repeat_length; apply Z2Nat.id; lia).
  assert (B : bytes_ok (repeat 0 (Z.to_nat 65540))).
  { apply Forall_forall. intros x Hx. apply repeat_spec in Hx. subst x. unfold byte_ok. clear. lia. }
  revert P B. generalize (repeat 0 (Z.to_nat 65540)). intros p P B.
  destruct (long_hdr_outside _ P B) as (H & _ & _). exists (long_hdr p). set (h := long_hdr p) in *.
  split; [exact H|]. split; [reflexivity|]. split; [reflexivity|]. split; [exact P|]. exists 1704067200000000000.
  assert (L : lenZ (layout3 h) = 65581).
  { rewrite layout3_len. change (h_payload h) with p. rewrite P. reflexivity. }
  assert (R : repackable Z.opp (rec_of false 1704067200000000000 h None)).
  { unfold repackable, msr_ok, readable_time, in_u, in_s, rec_of. rewrite L. cbn -[Z.pow]. repeat split; try lia; try (repeat constructor; lia).
    unfold NSTERROR. lia. }
  split; [exact R|]. intros buf Bb Hb.
  destruct (repack_record Z.opp false 0 (layout3 h) (rec_of false 1704067200000000000 h None) buf 41 65540 R) as (size & buf' & c & E & _ & K & _).
  - apply layout3_ok. exact H.
  - exact Bb.
  - lia.
  - reflexivity.
  - left. repeat split. symmetry. exact P.
  - lia.
  - lia.
  - unfold rec_of. cbn [m_reclen]. rewrite L. lia.
  - cbn. lia.
  - cbn. lia.
  - exists buf'. rewrite E. cbn in K. rewrite K. reflexivity.
Qed.
Print Assumptions C42_truncated_refuted.
