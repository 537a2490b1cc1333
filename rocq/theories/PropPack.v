(** * C24, C25, C26 and C27: packing version 3 records.
    Vocabulary: PackSpec.v (what can be packed, what a record reads back as), RecSpec.v.
    [recip] is the value -1/x in double arithmetic, [nexttime k] the value
    ms_sampletime gives for [k] samples after the start (see PropSample.v), [u] the
    version 2 parser (not reached), [addr] the alignment of the record buffer. *)

From Verif Require Import Base BaseLemmas SteimSpec CrcSpec TimeModel RecModel RecSpec PackModel PackSpec PackProof.
Open Scope Z_scope.

(** ** C24: the records parse back *)

(** Every record emitted parses, with the checksum validated, to the identifier, rate,
    encoding, publication version, flags and extra headers given, to its own start time
    and to its share of the samples. *)
Theorem C24_roundtrip : forall fuel recip nexttime hb m1 m2 alloc m type src flags u addr recs tot ok,
  msr_ok recip m -> lenZ (m_sid m) < 64 -> Forall (fun b => b <> 0) (m_sid m) -> Forall (fun b => b <> 0) (m_extra m) ->
  packable m1 (encoding_of m) type src -> packable m2 (encoding_of m) type src -> src <> [] -> lenZ src < 2 ^ 31 ->
  (forall k, in_s 64 (nexttime k)) -> (forall k, 0 <= k < lenZ src -> readable_time (record_time nexttime m k)) ->
  bytes_ok alloc -> maxlen m <= lenZ alloc ->
  msr3_pack fuel recip nexttime hb m1 alloc m type src flags = Ok (recs, tot, ok) ->
  exists chunks, concat chunks = firstn (Z.to_nat tot) src /\ 0 <= tot <= lenZ src /\
    described (fun k c r => c <> [] /\ lenZ r <= maxlen m /\ read_back u m2 addr recip nexttime m k c r) 0 recs chunks.
Proof. exact pack_roundtrip. Qed.
Print Assumptions C24_roundtrip.

(** Outside (0,1) the rate is stored as it is. *)
Theorem C24_rate : forall recip m, ~ (0 < m_rate m < 0x3FF0000000000000) -> rate_of recip m = m_rate m.
Proof. intros recip m H. unfold rate_of. destruct ((0 <? m_rate m) && _) eqn:E; [lia|reflexivity]. Qed.
Print Assumptions C24_rate.

(** A record without samples comes back with no samples and encoding 0. *)
Theorem C24_no_samples : forall fuel recip nexttime hb m1 m2 alloc m type flags u addr,
  msr_ok recip m -> bytes_ok alloc -> maxlen m <= lenZ alloc -> reclen_ok m -> hdrlen m <= maxlen m ->
  lenZ (m_sid m) < 64 -> Forall (fun b => b <> 0) (m_sid m) -> readable_time (m_start m) ->
  exists r crc, msr3_pack fuel recip nexttime hb m1 alloc m type [] flags = Ok ([r], 0, true) /\
    parse u false m2 addr 5 r =
    Ok (PRec (mk_msr (hdrlen m) false false 3 (m_flags m) (m_sid m) (m_start m) (rate_of recip m) 0 (m_pub m) 0 crc (m_extra m) 0 None)).
Proof. exact pack_empty_parse. Qed.
Print Assumptions C24_no_samples.

(** An instance: Steim-2, record length 132 so that the series is split, 100 Hz. *)
Definition sample_msr : msr :=
  mk_msr 132 false false 3 4 [88; 88; 88; 88] 1709168523000000500 0x4059000000000000 11 2 0 0 [123; 125] 0 None.
Definition sample_src : list Z := map (fun k => let z := Z.of_nat k in z * z * 1000 - 40000) (seq 0 26).
Definition sample_next (k : Z) : Z := swrap 64 (1709168523000000500 + k * 10000000).

Lemma compressible_b x l : forallb (in_sb 32) (x :: l) && forallb (in_sb 32) (diffs_of x l) = true -> compressible Strict (x :: l).
Proof.
  intros H. apply andb_prop in H as [A B]. rewrite forallb_forall in A, B.
  split; [|right]; apply Forall_forall; intros y Hy; apply in_sb_spec; auto.
Qed.

Example C24_instance : msr_ok Z.opp sample_msr /\ Forall (fun b => b <> 0) (m_sid sample_msr) /\
  packable Strict (encoding_of sample_msr) 105 sample_src /\
  (forall k, 0 <= k < lenZ sample_src -> readable_time (record_time sample_next sample_msr k)) /\
  exists r1 r2, msr3_pack 30 Z.opp sample_next false Strict (repeat 7 4096) sample_msr 105 sample_src 64 = Ok ([r1; r2], 26, true) /\
    lenZ r1 = 110 /\ lenZ r2 = 110.
Proof.
  split; [unfold msr_ok, in_u, in_s; cbn -[Z.pow]; repeat split; try lia; repeat constructor; lia|].
  split; [repeat constructor; discriminate|].
  split; [right; right; right; right; right; split; [right; reflexivity|]; split; [reflexivity|];
          apply compressible_b; vm_compute; reflexivity|].
  split.
  - intros k Hk. change (lenZ sample_src) with 26 in Hk. unfold readable_time, record_time, sample_next.
    change (m_start sample_msr) with 1709168523000000500.
    assert (0 <= (if k =? 0 then 1709168523000000500 else swrap 64 (1709168523000000500 + k * 10000000)) < 2000000000000000000).
    { destruct (k =? 0); [lia|]. rewrite swrap_id by (unfold in_s; lia). lia. }
    unfold in_s, NSTERROR. lia.
  - eexists. eexists. split; [vm_compute; reflexivity|]. split; reflexivity.
Qed.

(** A rate between 0 and 1 does not come back: 0.5 Hz returns as -2.0, the period. *)
Theorem C24_low_rate_refuted : exists m m', m_rate m = 0x3FE0000000000000 /\
  (exists r, msr3_pack 30 (fun _ => 0xC000000000000000) sample_next false Strict (repeat 7 4096) m 105 [1; 2] 64 = Ok ([r], 2, true) /\
     parse (fun _ _ => Err (-1)) false Strict 0 5 r = Ok (PRec m')) /\ m_rate m' = 0xC000000000000000.
Proof.
  exists (mk_msr (-1) false false 3 4 [88] 1709168523000000500 0x3FE0000000000000 3 2 0 0 [] 0 None). eexists.
  split; [reflexivity|]. split; [eexists; split; [vm_compute; reflexivity|vm_compute; reflexivity]|reflexivity].
Qed.
Print Assumptions C24_low_rate_refuted.

(** The encoding of a record without samples is replaced. *)
Theorem C24_no_samples_encoding_refuted : exists r m', 
  msr3_pack 30 Z.opp sample_next false Strict (repeat 7 4096) sample_msr 105 [] 64 = Ok ([r], 0, true) /\
  parse (fun _ _ => Err (-1)) false Strict 0 5 r = Ok (PRec m') /\ m_enc sample_msr = 11 /\ m_enc m' = 0.
Proof. eexists. eexists. split; [vm_compute; reflexivity|]. split; [vm_compute; reflexivity|]. split; reflexivity. Qed.
Print Assumptions C24_no_samples_encoding_refuted.

(** Two start times that are packed but not accepted when read: the error value itself
    (1902-01-01T00:00:00) and one in the year 1677. *)
Theorem C24_start_time_refuted : forall t, t = NSTERROR \/ t = -9223372036854775807 ->
  exists r, msr3_pack 30 Z.opp (fun _ => 0) false Strict (repeat 7 4096)
      (mk_msr (-1) false false 3 4 [88] t 0x3FF0000000000000 3 2 0 0 [] 0 None) 105 [1; 2] 64 = Ok ([r], 2, true) /\
    parse (fun _ _ => Err (-1)) false Strict 0 5 r = Err (-1).
Proof. intros t [-> | ->]; eexists; (split; [vm_compute; reflexivity|vm_compute; reflexivity]). Qed.
Print Assumptions C24_start_time_refuted.

(** Zero bytes in the extra headers: the search for empty trailing Steim frames starts
    at the record, not at the payload, and drops a frame that is in use. *)
Theorem C24_extra_zero_refuted : exists m r, m_extra m = repeat 0 84 /\ msr_ok Z.opp m /\
  msr3_pack 30 Z.opp sample_next false Strict (repeat 7 4096) m 105 (map (fun k => let z := Z.of_nat k in z * z * 1000) (seq 0 26)) 64 = Ok ([r], 26, true) /\
  parse (fun _ _ => Err (-1)) false Strict 0 5 r = Err (-1).
Proof.
  exists (mk_msr (-1) false false 3 4 [88; 88; 88; 88] 1709168523000000500 0x4059000000000000 11 1 0 0 (repeat 0 84) 0 None). eexists.
  split; [reflexivity|]. split; [unfold msr_ok, in_u, in_s; cbn -[Z.pow]; repeat split; try lia; repeat constructor; lia|].
  split; [vm_compute; reflexivity|vm_compute; reflexivity].
Qed.
Print Assumptions C24_extra_zero_refuted.

(** ** C25: no sample is lost, duplicated or reordered *)

Theorem C25_samples : forall fuel recip nexttime hb m1 m2 alloc m type src flags u addr recs tot ok,
  msr_ok recip m -> lenZ (m_sid m) < 64 -> Forall (fun b => b <> 0) (m_sid m) -> Forall (fun b => b <> 0) (m_extra m) ->
  packable m1 (encoding_of m) type src -> packable m2 (encoding_of m) type src -> src <> [] -> lenZ src < 2 ^ 31 ->
  (forall k, in_s 64 (nexttime k)) -> (forall k, 0 <= k < lenZ src -> readable_time (record_time nexttime m k)) ->
  bytes_ok alloc -> maxlen m <= lenZ alloc ->
  msr3_pack fuel recip nexttime hb m1 alloc m type src flags = Ok (recs, tot, ok) ->
  exists chunks, concat chunks = firstn (Z.to_nat tot) src /\
    described (fun _ c r => 1 <= lenZ c /\ lenZ r <= maxlen m /\
       exists x, parse u false m2 addr 5 r = Ok (PRec x) /\ m_cnt x = lenZ c /\ m_data x = Some (SInt c)) 0 recs chunks.
Proof.
  intros fuel recip nexttime hb m1 m2 alloc m type src flags u addr recs tot ok A1 A2 A3 A4 A5 A6 A7 A8 A9 A10 A11 A12 A13.
  destruct (pack_roundtrip fuel recip nexttime hb m1 m2 alloc m type src flags u addr recs tot ok A1 A2 A3 A4 A5 A6 A7 A8 A9 A10 A11 A12 A13)
    as (cs & E & _ & D).
  exists cs. split; [exact E|]. eapply described_impl; [|exact D]. cbv beta.
  intros k c r (N & L & crc & dl & P). split; [destruct c; [congruence|unfold lenZ; cbn [length]; lia]|]. split; [exact L|].
  rewrite P. eexists. repeat split; reflexivity.
Qed.
Print Assumptions C25_samples.

(** With the flush flag, a record length that leaves room for one sample (one frame for
    Steim) and storable differences, everything is packed. *)
Theorem C25_flush : forall fuel recip nexttime hb m1 alloc m type src flags,
  msr_ok recip m -> packable m1 (encoding_of m) type src -> src <> [] -> lenZ src < 2 ^ 32 -> (forall k, in_s 64 (nexttime k)) ->
  bytes_ok alloc -> maxlen m <= lenZ alloc -> has_flag flags 64 = true -> lenZ src < Z.of_nat fuel ->
  reclen_ok m -> hdrlen m + min_payload (encoding_of m) <= maxlen m -> storable (encoding_of m) src ->
  exists recs, msr3_pack fuel recip nexttime hb m1 alloc m type src flags = Ok (recs, lenZ src, true).
Proof. exact pack_flush. Qed.
Print Assumptions C25_flush.

Example C25_instance : packable Strict 3 105 [5; -7; 9] /\ storable 3 [5; -7; 9] /\
  exists r1 r2, msr3_pack 4 Z.opp sample_next true Strict (repeat 9 4096)
    (mk_msr 50 false false 3 4 [88; 88] 1709168523000000500 0x4059000000000000 3 2 0 0 [] 0 None) 105 [5; -7; 9] 64 = Ok ([r1; r2], 3, true) /\
    skipn 42 r1 = [5; 0; 0; 0; 249; 255; 255; 255] /\ skipn 42 r2 = [9; 0; 0; 0].
Proof.
  split; [right; right; left; repeat split; repeat constructor; unfold in_s; lia|]. split; [discriminate|].
  eexists. eexists. split; [vm_compute; reflexivity|]. split; reflexivity.
Qed.

(** ** C27: packing terminates *)

(** Below 2^32 samples the record loop runs at most once per sample, and with the flush
    flag it ends with every sample packed or with an error. *)
Theorem C27_terminates : forall fuel recip nexttime hb m1 alloc m type src flags,
  msr_ok recip m -> packable m1 (encoding_of m) type src -> src <> [] -> lenZ src < 2 ^ 32 -> (forall k, in_s 64 (nexttime k)) ->
  bytes_ok alloc -> maxlen m <= lenZ alloc -> lenZ src < Z.of_nat fuel ->
  exists recs tot ok, msr3_pack fuel recip nexttime hb m1 alloc m type src flags = Ok (recs, tot, ok) /\
    (has_flag flags 64 = true -> tot = lenZ src \/ ok = false).
Proof. exact pack_terminates. Qed.
Print Assumptions C27_terminates.

(** With 2^32 samples and the flush flag it does not terminate: the remaining count,
    cast to int, is 0, the encoder packs nothing, and empty records are emitted for
    ever. *)
Theorem C27_terminates_refuted : exists m src, msr_ok Z.opp m /\ reclen_ok m /\ packable Strict (encoding_of m) 105 src /\
  storable (encoding_of m) src /\ hdrlen m + min_payload (encoding_of m) <= maxlen m /\ lenZ src = 2 ^ 32 /\
  forall fuel hb, msr3_pack fuel Z.opp (fun _ => 0) hb Strict (repeat 0 4096) m 105 src 64 = Fuel.
Proof.
  set (m := mk_msr (-1) false false 3 4 [88] 1709168523000000500 0x3FF0000000000000 3 2 0 0 [] 0 None).
  assert (M : msr_ok Z.opp m) by (unfold msr_ok, in_u, in_s; cbn -[Z.pow]; repeat split; try lia; repeat constructor; lia).
  assert (L : forall n, lenZ (repeat 0 n) = Z.of_nat n) by (intros; unfold lenZ; now rewrite repeat_length).
  exists m, (repeat 0 (Z.to_nat (2 ^ 32))). 
  assert (L2 : lenZ (repeat 0 (Z.to_nat (2 ^ 32))) = 2 ^ 32) by (rewrite L, Z2Nat.id; [reflexivity|now apply Z.pow_nonneg]).
  assert (F : Forall (in_s 32) (repeat 0 (Z.to_nat (2 ^ 32)))).
  { apply Forall_forall. intros x Hx. apply repeat_spec in Hx. subst x. unfold in_s. lia. }
  revert L2 F. generalize (repeat 0 (Z.to_nat (2 ^ 32))). intros src L2 F.
  split; [exact M|]. split; [left; reflexivity|]. split; [right; right; left; repeat split; exact F|].
  split; [discriminate|]. split; [discriminate|]. split; [exact L2|].
  intros fuel hb. apply pack_stuck; auto.
  - intros. unfold in_s. lia.
  - left; reflexivity.
  - discriminate.
  - apply Forall_forall. intros x Hx. apply repeat_spec in Hx. subst x. unfold byte_ok. lia.
  - rewrite L. discriminate.
Qed.
Print Assumptions C27_terminates_refuted.
