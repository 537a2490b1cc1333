(** * C44: version 2 records written from samples read back *)

From Coq Require Import String QArith.
From Verif Require Import Base SampleModel PackSpec Pack2Model Pack2Spec Pack2Proof Pack2All.
Open Scope Z_scope.

(** Every record that msr3_pack_mseed2 hands to its handler has the length asked for and
    parses, on a host of either byte order, to the identifier, flags, encoding and rate
    given, the time of its first sample and the samples it was made of; together the
    records hold the samples packed, in order. *)
Theorem C44_roundtrip_partial : forall J fuel nexttime hb hb2 m1 m2 addr stack alloc m k type src flags recs tot ok,
  headers_accepted J -> sendable m k -> (64 <= length stack)%nat -> maxlen m <= lenZ alloc ->
  packable m1 (encoding_of m) type src -> packable m2 (encoding_of m) type src -> src <> [] -> lenZ src < 2 ^ 32 -> readable m ->
  (forall i, in_s 64 (nexttime i)) -> (forall i, 0 <= i < lenZ src -> dated hb2 (record_time nexttime m i)) ->
  pack2 fuel nexttime hb m1 stack alloc m type src flags = Ok (recs, tot, ok) ->
  exists chunks, concat chunks = firstn (Z.to_nat tot) src /\ 0 <= tot <= lenZ src /\
    described (fun i c r => c <> [] /\ lenZ r = maxlen m /\ read_back2 J hb2 m2 addr nexttime m i c r) 0 recs chunks.
Proof. exact pack2_roundtrip. Qed.
Print Assumptions C44_roundtrip_partial.

(** With MSF_FLUSHDATA everything is packed: fewer than 65536 samples, in records that
    leave a Steim frame for the data, at a rate for which factor and multiplier exist. *)
Theorem C44_everything : forall fuel nexttime hb mode stack alloc m k type src flags f,
  sendable m k -> (64 <= length stack)%nat -> maxlen m <= lenZ alloc ->
  packable mode (encoding_of m) type src -> src <> [] -> lenZ src < 65536 -> (forall i, in_s 64 (nexttime i)) ->
  genfactmult mode (sampratehz (m_rate m)) = Ok f -> has_flag flags 64 = true -> lenZ src < Z.of_nat fuel ->
  (is_steim (encoding_of m) = true -> 128 < maxlen m) -> storable (encoding_of m) src ->
  exists recs, pack2 fuel nexttime hb mode stack alloc m type src flags = Ok (recs, lenZ src, true).
Proof. exact pack2_flush. Qed.
Print Assumptions C44_everything.

(** The packer ends, and a fault can only come from the computation of the factors. *)
Theorem C44_no_fault : forall fuel nexttime hb mode stack alloc m k type src flags,
  sendable m k -> (64 <= length stack)%nat -> maxlen m <= lenZ alloc ->
  packable mode (encoding_of m) type src -> src <> [] -> lenZ src < 2 ^ 32 -> (forall i, in_s 64 (nexttime i)) -> lenZ src < Z.of_nat fuel ->
  match genfactmult mode (sampratehz (m_rate m)) with
  | Ok _ => exists recs tot ok, pack2 fuel nexttime hb mode stack alloc m type src flags = Ok (recs, tot, ok) /\
      (has_flag flags 64 = true -> tot = lenZ src \/ ok = false)
  | Err _ => pack2 fuel nexttime hb mode stack alloc m type src flags = Ok ([], 0, false)
  | UB u => pack2 fuel nexttime hb mode stack alloc m type src flags = UB u
  | Fuel => pack2 fuel nexttime hb mode stack alloc m type src flags = Fuel
  end.
Proof. exact pack2_terminates. Qed.
Print Assumptions C44_no_fault.

(** Without samples: one record that reads back as a header. *)
Theorem C44_no_samples_partial : forall J fuel nexttime hb hb2 m1 m2 addr stack alloc m k type flags f pf,
  headers_accepted J -> sendable m k -> (64 <= length stack)%nat -> maxlen m <= lenZ alloc ->
  genfactmult m1 (sampratehz (m_rate m)) = Ok f -> dated hb2 (m_start m) ->
  exists r rate datalen, pack2 fuel nexttime hb m1 stack alloc m type [] flags = Ok ([r], 0, true) /\ lenZ r = maxlen m /\
    rate_back (m_rate m) rate /\
    parse (unpack2 J hb2 m2 addr pf) hb2 m2 addr pf r =
    Ok (PRec (mk_msr (maxlen m) (negb hb2) (negb hb2) 2 (m_flags m mod 8) (m_sid m) (tenths (m_start m) + micros (m_start m) * 1000) rate 0
                     (version2 (m_pub m)) 0 0 (if micros (m_start m) =? 0 then [] else quality0) datalen None)).
Proof. exact pack2_empty. Qed.
Print Assumptions C44_no_samples_partial.

(** A length that is not a power of two from 128 to 131072 is refused. *)
Theorem C44_length : forall fuel nexttime hb mode stack alloc m type src flags, ~ reclen2_ok (maxlen m) ->
  pack2 fuel nexttime hb mode stack alloc m type src flags = Ok ([], 0, false).
Proof. exact pack2_length. Qed.
Print Assumptions C44_length.

(** ** A case that meets the hypotheses *)

Definition J0 : json := mk_json (fun _ _ => false) (fun t ops => []).
Definition k0 : codes := mk_codes (chars "XX") (chars "ABCD") (chars "00") 66 72 90.
Definition m0 (reclen enc start rate pub : Z) : msr :=
  mk_msr reclen false false 2 5 (codes_sid k0) start rate enc pub 0 0 [] 0 None.
Definition t0 : Z := 1580552430123456789.            (* 2020-02-01T10:20:30.123456789 *)
Definition stack0 : list Z := repeat 170 64.
Definition hz3 : Z := 0x4008000000000000.            (* 3.0 *)
Definition next0 (k : Z) : Z := swrap 64 (t0 + k * 333333333).
Definition ma : msr := m0 128 3 t0 hz3 4.
Definition sa : list Z := [1; 2; 3; 4; 5; 6; 7; 8; 9; 10; 11; 12; 13; 14; 15; 16; -17; -18; 19; 20].

Lemma k0_ok : codes_ok k0.
Proof.
  assert (forall n s, (lenZ s <=? n) && forallb (fun c => (1 <=? c) && (c <=? 127) && negb (c =? 32) && negb (c =? 95) && negb (c =? 58)) s = true -> code_ok n s) as H.
  { intros n s H. apply andb_prop in H. destruct H as [H1 H2]. split; [lia|]. rewrite forallb_forall in H2. apply Forall_forall. intros x I. specialize (H2 x I). lia. }
  unfold codes_ok, k0, band_ok. cbn [k_net k_sta k_loc k_band k_source k_sub].
  split; [apply H; reflexivity|]. split; [apply H; reflexivity|]. split; [apply H; reflexivity|]. lia.
Qed.

Lemma dated_in_february hb t : 1580552430123456789 <= t < 1580552530123456789 -> dated hb t.
Proof.
  intros T. unfold dated. cbv zeta. assert (E : t / 86400000000000 = 18293) by lia. rewrite E.
  split; [unfold in_s; lia|]. split; [vm_compute; split; discriminate|].
  split; [destruct hb; [vm_compute; split; discriminate|intros [A _]; vm_compute in A; decompose [or] A; discriminate || contradiction]|].
  unfold tenths, NSTERROR. lia.
Qed.

Lemma next0_range i : in_s 64 (next0 i).
Proof.
  unfold next0, swrap, in_s. pose proof (Z.mod_pos_bound (t0 + i * 333333333) (2 ^ 64) eq_refl).
  destruct (_ <? _) eqn:?; lia.
Qed.

Example C44_instance :
  headers_accepted J0 /\ sendable ma k0 /\ packable Strict (encoding_of ma) 105 sa /\ readable ma /\ storable (encoding_of ma) sa
  /\ (forall i, in_s 64 (next0 i)) /\ (forall i, 0 <= i < lenZ sa -> dated false (record_time next0 ma i))
  /\ genfactmult Strict (sampratehz (m_rate ma)) = Ok (3, 1)
  /\ exists r1 r2, pack2 30 next0 false Strict stack0 (repeat 7 200) ma 105 sa 64 = Ok ([r1; r2], 20, true) /\ lenZ r1 = 128 /\ lenZ r2 = 128
     /\ exists a b, parse (unpack2 J0 false Strict 0 1) false Strict 0 1 r1 = Ok (PRec a) /\ parse (unpack2 J0 false Strict 0 1) false Strict 0 1 r2 = Ok (PRec b)
     /\ m_start a = 1580552430123456000 /\ m_start b = 1580552435456756000 /\ m_rate b = hz3 /\ m_pub b = 4 /\ m_flags b = 5
     /\ m_data a = Some (SInt [1; 2; 3; 4; 5; 6; 7; 8; 9; 10; 11; 12; 13; 14; 15; 16]) /\ m_data b = Some (SInt [-17; -18; 19; 20]).
Proof.
  split; [intros ? ?; reflexivity|]. split.
  { split; [exact k0_ok|]. split; [reflexivity|]. split; [exists 7; split; [lia|reflexivity]|]. split; [vm_compute; split; [discriminate|reflexivity]|].
    split; [vm_compute; split; [discriminate|reflexivity]|]. eexists. vm_compute. reflexivity. }
  split. { right. right. left. split; [reflexivity|]. split; [reflexivity|]. unfold sa. repeat (apply Forall_cons; [unfold in_s; lia|]). apply Forall_nil. }
  split; [unfold readable; vm_compute; discriminate|]. split; [intros H; vm_compute in H; discriminate|].
  split; [exact next0_range|]. split.
  { intros i I. assert (I' : 0 <= i < 20) by exact I. apply dated_in_february. unfold record_time, ma, m0. cbn [m_start]. unfold t0.
    destruct (i =? 0); [lia|]. unfold next0, swrap, t0. rewrite Z.mod_small by lia. destruct (_ <? _) eqn:?; lia. }
  split; [vm_compute; reflexivity|].
  eexists. eexists. split; [vm_compute; reflexivity|]. split; [reflexivity|]. split; [reflexivity|].
  eexists. eexists. split; [vm_compute; reflexivity|]. split; [vm_compute; reflexivity|]. repeat split; vm_compute; reflexivity.
Qed.

(** ** Where the claim fails *)

(** What a packed record reads back as. *)
Definition reads (f : msr -> Prop) (r : list Z) : Prop := exists m, parse (unpack2 J0 false Strict 0 1) false Strict 0 1 r = Ok (PRec m) /\ f m.

(** The microseconds of the first record stand in every later one: at 3 Hz the second
    record, whose first sample is at ….456790117, reads as ….456756. *)
Theorem C44_later_times_refuted : exists r1 r2, pack2 30 next0 false Strict stack0 (repeat 7 200) ma 105 sa 64 = Ok ([r1; r2], 20, true)
  /\ next0 16 = 1580552435456790117 /\ reads (fun m => m_start m = 1580552435456756000) r2.
Proof.
  eexists. eexists. split; [vm_compute; reflexivity|]. split; [reflexivity|].
  eexists. split; [vm_compute; reflexivity|reflexivity].
Qed.

(** Nanoseconds are lost, and the publication version 7 becomes 2. *)
Theorem C44_first_time_refuted : exists r, pack2 30 next0 false Strict stack0 (repeat 7 200) (m0 128 3 t0 hz3 7) 105 [1; 2] 64 = Ok ([r], 2, true)
  /\ t0 = 1580552430123456789 /\ reads (fun m => m_start m = 1580552430123456000 /\ m_pub m = 2) r.
Proof.
  eexists. split; [vm_compute; reflexivity|]. split; [reflexivity|].
  eexists. split; [vm_compute; reflexivity|split; reflexivity].
Qed.

(** Extra headers appear that nobody gave: a timing quality of 0. *)
Theorem C44_quality_refuted : exists r, pack2 30 next0 false Strict stack0 (repeat 7 200) ma 105 [1; 2] 64 = Ok ([r], 2, true)
  /\ m_extra ma = [] /\ reads (fun m => m_extra m = chars "{""FDSN"":{""Time"":{""Quality"":0}}}") r.
Proof.
  eexists. split; [vm_compute; reflexivity|]. split; [reflexivity|].
  eexists. split; [vm_compute; reflexivity|reflexivity].
Qed.

(** Steim compressed records of 256 bytes with a blockette 100 and no blockette 1001 are
    packed, all 50 samples of them, and every one is refused by the parser. *)
Definition mb : msr := m0 256 10 1580552430123400000 0x40C1D77A78132A7F 2.   (* 9134.9568 Hz, roughly *)
Definition sb : list Z := map (fun k => Z.of_nat k * Z.of_nat k * 1000 - 40000) (seq 0 50).
Theorem C44_steim_refuted : exists r1 r2, pack2 60 next0 false Strict stack0 (repeat 7 256) mb 105 sb 64 = Ok ([r1; r2], 50, true)
  /\ parse (unpack2 J0 false Strict 0 1) false Strict 0 1 r1 = Err (-1) /\ parse (unpack2 J0 false Strict 0 1) false Strict 0 1 r2 = Err (-1).
Proof.
  eexists. eexists. split; [vm_compute; reflexivity|]. split; vm_compute; reflexivity.
Qed.

(** A record of 2056-01-01 is packed and not recognized on a little-endian host, one of
    2101 not on a big-endian host. *)
Theorem C44_date_refuted : forall hb s, In (hb, s) [(false, 2713953600000000000) (* 2056-01-01 *); (true, 4134067200000000000) (* 2101-01-02 *)] ->
  exists r, pack2 30 next0 hb Strict stack0 (repeat 7 200) (m0 128 3 s hz3 2) 105 [1; 2] 64 = Ok ([r], 2, true)
  /\ forall m, parse (unpack2 J0 hb Strict 0 1) hb Strict 0 1 r <> Ok (PRec m).
Proof.
  intros hb s [E|[E|[]]]; injection E as <- <-; (eexists; split; [vm_compute; reflexivity|vm_compute; intros m H; discriminate]).
Qed.

(** 70000 characters in records of 131072 bytes: nothing is packed, though the record
    could hold 65535 of them. *)
Theorem C44_text_refuted : forall nexttime hb mode alloc, 131072 <= lenZ alloc ->
  sendable (m0 131072 0 t0 hz3 2) k0 /\ packable mode 0 116 (repeat 65 (Z.to_nat 70000)) /\
  pack2 (Z.to_nat 80000) nexttime hb mode stack0 alloc (m0 131072 0 t0 hz3 2) 116 (repeat 65 (Z.to_nat 70000)) 64 = Ok ([], 0, false).
Proof.
  intros nexttime hb mode alloc La.
  assert (Lr : lenZ (repeat 65 (Z.to_nat 70000)) = 70000) by (unfold lenZ; rewrite repeat_length; lia).
  split. { split; [exact k0_ok|]. split; [reflexivity|]. split; [exists 17; split; [lia|reflexivity]|]. split; [vm_compute; split; [discriminate|reflexivity]|].
    split; [vm_compute; split; [discriminate|reflexivity]|]. eexists. vm_compute. reflexivity. }
  split. { left. split; [reflexivity|]. split; [left; reflexivity|]. apply Forall_forall. intros x I. apply repeat_spec in I. subst x. unfold byte_ok. lia. }
  eapply (pack2_long_text _ _ _ _ _ _ _ k0) with (f := 3) (mu := 1).
  - exact k0_ok.
  - reflexivity.
  - cbn; lia.
  - reflexivity.
  - vm_compute; split; [discriminate|reflexivity].
  - destruct mode; vm_compute; reflexivity.
  - change (maxlen _) with 131072. exact La.
  - reflexivity.
  - reflexivity.
  - reflexivity.
  - rewrite Lr. lia.
  - lia.
Qed.
