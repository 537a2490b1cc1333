(** * C64: version 2 records with samples and extra headers *)

From Coq Require Import String QArith.
From Verif Require Import Base BaseLemmas TimeModel TimeSpec RecModel RecSpec SampleModel PackModel PackSpec ConvSpec
  EhModel EhSpec EhProof V2Model V2RecSpec V2RecParse Pack2Model Pack2Spec EhPackModel EhPackSpec EhPack2Model EhPack2Spec EhPack2Read PropEhPack.
Open Scope list_scope.
Open Scope Z_scope.

(** Every record made of a series with extra headers has the length asked for and parses, on a
    host of either byte order, to the fields given, the time of its first sample, the samples it
    was made of, and the extra headers that the bits and blockettes of C63 stand for, the same in
    all of them; together the records hold the samples packed, in order. *)
Theorem C64_roundtrip : forall J rd fuel nexttime hb hb2 m1 m2 addr stack alloc m k f mu j type src flags,
  headers_accepted J -> sendable m k -> (64 <= List.length stack)%nat -> maxlen m <= lenZ alloc ->
  doc_of rd m j -> document_ok j -> document_kept j -> genfactmult m1 (sampratehz (m_rate m)) = Ok (f, mu) ->
  packable m1 (encoding_of m) type src -> packable m2 (encoding_of m) type src -> src <> [] -> lenZ src < 2 ^ 32 ->
  (forall i, in_s 64 (nexttime i)) -> (forall i, 0 <= i < lenZ src -> dated hb2 (record_time nexttime m i)) ->
  exists h e w bs, maxlen m = 2 ^ e /\ header_says j m k f mu h /\ blockettes_say j (encoding_of m) e (micros (m_start m)) w bs /\
    (readable_at m (header_size bs) -> forall recs tot ok, pack2x rd fuel nexttime hb m1 stack alloc m type src flags = Ok (recs, tot, ok) ->
     exists chunks, concat chunks = firstn (Z.to_nat tot) src /\ 0 <= tot <= lenZ src /\
       described (fun i c r => c <> [] /\ lenZ r = maxlen m /\ read_backx J hb2 m2 addr nexttime m h bs i c r) 0 recs chunks).
Proof. exact packx_all. Qed.
Print Assumptions C64_roundtrip.

(** The packer ends without a fault.  With MSF_FLUSHDATA it packs everything if the header leaves
    room for a sample or a frame, and nothing is packed if the header does not fit. *)
Theorem C64_everything : forall rd fuel nexttime hb mode stack alloc m k f mu j type src flags,
  sendable m k -> (64 <= List.length stack)%nat -> maxlen m <= lenZ alloc ->
  doc_of rd m j -> document_ok j -> genfactmult mode (sampratehz (m_rate m)) = Ok (f, mu) ->
  packable mode (encoding_of m) type src -> src <> [] -> lenZ src < 2 ^ 32 ->
  (forall i, in_s 64 (nexttime i)) -> lenZ src < Z.of_nat fuel ->
  exists e w bs, maxlen m = 2 ^ e /\ blockettes_say j (encoding_of m) e (micros (m_start m)) w bs /\
    exists recs tot ok, pack2x rd fuel nexttime hb mode stack alloc m type src flags = Ok (recs, tot, ok) /\
      (has_flag flags 64 = true -> tot = lenZ src \/ ok = false) /\
      (has_flag flags 64 = true -> lenZ src < 65536 -> storable (encoding_of m) src ->
       min_payload (encoding_of m) <= maxlen m - data_begin (encoding_of m) (header_size bs) -> tot = lenZ src /\ ok = true) /\
      (maxlen m < header_size bs -> recs = [] /\ tot = 0 /\ ok = false).
Proof. exact packx_goes. Qed.
Print Assumptions C64_everything.

(** Without samples: one record that states text as its encoding, and reads back as a header with
    the extra headers. *)
Theorem C64_no_samples : forall J rd fuel nexttime hb hb2 m1 m2 addr pf stack alloc m k f mu j type flags,
  headers_accepted J -> sendable m k -> (64 <= List.length stack)%nat -> maxlen m <= lenZ alloc ->
  doc_of rd m j -> document_ok j -> document_kept j -> genfactmult m1 (sampratehz (m_rate m)) = Ok (f, mu) -> dated hb2 (m_start m) ->
  exists h e w bs, maxlen m = 2 ^ e /\ header_says j m k f mu h /\ blockettes_say j 0 e (micros (m_start m)) w bs /\
    if header_size bs <=? maxlen m then
    exists r, pack2x rd fuel nexttime hb m1 stack alloc m type [] flags = Ok ([r], 0, true) /\ lenZ r = maxlen m /\
     (header_size bs < maxlen m -> header_size bs < 65536 -> exists rate datalen, rate_back (m_rate m) rate /\
       parse (unpack2 J hb2 m2 addr pf) hb2 m2 addr pf r =
       Ok (PRec (mk_msr (maxlen m) (negb hb2) (negb hb2) 2 (m_flags m mod 8) (m_sid m)
                        (tenths (m_start m) + micros (m_start m) * 1000) rate 0 (version_of (f_quality h))
                        0 0 (extra_text J h bs) datalen None)))
    else pack2x rd fuel nexttime hb m1 stack alloc m type [] flags = Ok ([], 0, false).
Proof. exact packx_empty. Qed.
Print Assumptions C64_no_samples.

(** Extra headers that cannot be read: nothing is packed. *)
Theorem C64_refused : forall rd fuel nexttime hb mode stack alloc m k f type src flags,
  sendable m k -> (64 <= List.length stack)%nat -> m_extra m <> [] -> rd (m_extra m) = None ->
  genfactmult mode (sampratehz (m_rate m)) = Ok f ->
  pack2x rd fuel nexttime hb mode stack alloc m type src flags = Ok ([], 0, false).
Proof. exact packx_refused. Qed.
Print Assumptions C64_refused.

(** ** Instances *)

Definition t1 : Z := 1580552430123456789.
Definition next1 (k : Z) : Z := swrap 64 (t1 + k * 333333333).
Definition s1 : list Z := map (fun k => Z.of_nat k * Z.of_nat k - 100) (seq 0 40).
Definition packed1 (j : jv) (src : list Z) : res (list (list Z) * Z * bool) :=
  pack2x (rdx j) 50 next1 false Strict sx (repeat 7 256) (mx 256 [1]) 105 src 64.
Definition read1 (r : list Z) : res (list Z * Z * option samples) :=
  let! p := parse (unpack2 Jx true Strict 0 1) true Strict 0 1 r in match p with PRec m => Ok (m_extra m, m_start m, m_data m) | _ => Err (-1) end.
Definition text1 : list Z :=
  zs "/FDSN/Event/Begin" ++ [10] ++ zs "/FDSN/Time/LeapSecond=1" ++ [10] ++ zs "/FDSN/Flags/Spikes" ++ [10] ++ zs "/FDSN/Time/Quality=" ++ [138; 10]
  ++ zs "GENERIC::AB" ++ [10] ++ zs "ABORT" ++ [10].

Lemma next1_range i : in_s 64 (next1 i).
Proof.
  unfold next1, swrap, in_s. pose proof (Z.mod_pos_bound (t1 + i * 333333333) (2 ^ 64) eq_refl).
  destruct (_ <? _) eqn:?; lia.
Qed.
Lemma dated1 hb t : 1580552430123456789 <= t < 1580552530123456789 -> dated hb t.
Proof.
  intros T. unfold dated. cbv zeta. assert (E : t / 86400000000000 = 18293) by lia. rewrite E.
  split; [unfold in_s; lia|]. split; [vm_compute; split; discriminate|].
  split; [destruct hb; [vm_compute; split; discriminate|intros [A _]; vm_compute in A; decompose [or] A; discriminate || contradiction]|].
  unfold tenths, NSTERROR. lia.
Qed.

Example C64_instance :
  headers_accepted Jx /\ sendable (mx 256 [1]) kx /\ doc_of (rdx docx) (mx 256 [1]) docx /\ document_ok docx /\ document_kept docx /\
  genfactmult Strict (sampratehz (m_rate (mx 256 [1]))) = Ok (3, 1) /\ packable Strict (encoding_of (mx 256 [1])) 105 s1 /\
  (forall i, in_s 64 (next1 i)) /\ (forall i, 0 <= i < lenZ s1 -> dated true (record_time next1 (mx 256 [1]) i)) /\
  readable_at (mx 256 [1]) 132 /\ min_payload (encoding_of (mx 256 [1])) <= maxlen (mx 256 [1]) - 132 /\
  exists r1 r2, packed1 docx s1 = Ok ([r1; r2], 40, true) /\
    read1 r1 = Ok (text1, 1580552430123456000, Some (SInt (firstn 31 s1))) /\
    read1 r2 = Ok (text1, 1580552440456756000, Some (SInt (skipn 31 s1))).
Proof.
  split; [intros ? ?; reflexivity|]. split; [apply sendable0; exists 8; split; [lia|reflexivity]|]. split; [right; split; [discriminate|reflexivity]|].
  split; [exact docx_ok|]. split; [exact docx_kept|]. split; [vm_compute; reflexivity|].
  split. { right. right. left. split; [reflexivity|]. split; [reflexivity|]. apply Forall_forall. intros x I. unfold s1 in I. apply in_map_iff in I.
           destruct I as (y & <- & I). apply in_seq in I. unfold in_s. nia. }
  split; [exact next1_range|]. split.
  { intros i I. assert (I' : 0 <= i < 40) by exact I. apply dated1. unfold record_time, mx. cbn [m_start].
    destruct (i =? 0); [lia|]. unfold next1, swrap, t1. rewrite Z.mod_small by lia. destruct (_ <? _) eqn:?; lia. }
  split; [vm_compute; discriminate|]. split; [vm_compute; discriminate|].
  eexists. eexists. split; [vm_compute; reflexivity|]. split; [vm_compute; reflexivity|]. vm_compute. reflexivity.
Qed.

Example C64_no_samples_instance : exists r, packed1 docx [] = Ok ([r], 0, true) /\ slice 52 1 r = Ok [0] /\
  (let! p := parse (unpack2 Jx true Strict 0 1) true Strict 0 1 r in match p with PRec m => Ok (m_extra m, m_enc m, m_cnt m) | _ => Err (-1) end) = Ok (text1, 0, 0).
Proof. eexists. split; [vm_compute; reflexivity|]. split; [vm_compute; reflexivity|]. vm_compute. reflexivity. Qed.

Example C64_refused_instance : pack2x (rdx docx) 50 next1 false Strict sx (repeat 7 256) (mx 256 [2]) 105 s1 64 = Ok ([], 0, false).
Proof. vm_compute. reflexivity. Qed.

(** ** Where the claim fails *)

(** A timing exception takes 200 bytes, most of them zeros.  Compressed samples behind it are
    packed, and the record is refused by the parser: it looks for frames of zeros from the
    beginning of the record on, not from the data on, and takes the bytes of the blockette for
    the end of the data. *)
Definition late : jv := with_time [("Exception", JArr [ob [("Time", tx "2020-02-01T10:20Z")]])]%string.
Definition m512 : msr := mk_msr 512 false false 2 5 (codes_sid kx) 1580552430123400000 0x4008000000000000 10 4 0 0 [1] 0 None.
Definition s2 : list Z := map (fun k => if Nat.even k then 1000000 * Z.of_nat k else - 1000000) (seq 0 40).
Theorem C64_frames_refuted : exists r, pack2x (rdx late) 50 next1 false Strict sx (repeat 7 512) m512 105 s2 64 = Ok ([r], 40, true) /\
  parse (unpack2 Jx false Strict 0 1) false Strict 0 1 r = Err (-1).
Proof. eexists. split; [vm_compute; reflexivity|]. vm_compute. reflexivity. Qed.
