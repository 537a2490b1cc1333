(** * C34, C35, C36: reading records from a stream.
    Vocabulary: ReadSpec.v (reference reading by position, deliveries, files of records,
    path suffixes), RecSpec.v (record layout). *)

From Verif Require Import Base RecSpec PropRec ReadModel ReadSpec ReadProof RangeProof.
Open Scope Z_scope.

Definition no_unpack2 : list Z -> Z -> res msr := fun _ _ => Err (-1).
(** Little-endian host, buffer at a multiple of 8, no selections. *)
Definition conf (flags : Z) : rconf := mk_rconf no_unpack2 false Strict 0 flags None.

Lemma whole_delivers : delivers whole_reads.
Proof. intros k size remaining H1 H2. unfold whole_reads. destruct (Z.leb_spec size remaining); repeat split; try discriminate; lia. Qed.
Lemma byte_delivers : delivers byte_reads.
Proof. intros k size remaining H1 H2. unfold byte_reads. destruct (Z.eqb_spec remaining 0); repeat split; try discriminate; lia. Qed.

(** ** C34 *)

(** However the input arrives, reading gives what the reference says: the records at
    their positions and the final status.  Only if no record at all was returned before
    the end of a byte range the status may be "not SEED" instead of end of file. *)
Theorem C34_reference_partial : forall g sch file start last l f,
  g_hb g = false -> delivers sch -> 0 <= last < 2 ^ 63 - 1 -> bytes_ok file -> 0 <= start -> start + lenZ file < 2 ^ 63 ->
  reads g last start file 0 l f ->
  read_all (S (length file)) g sch (opened file start last) = outcome l f \/
  (last <> 0 /\ l = [] /\ f = Ok 1 /\ read_all (S (length file)) g sch (opened file start last) = Ok ([], -2)).
Proof. exact read_opened. Qed.
Print Assumptions C34_reference_partial.

(** Hence two ways of delivering a file with no version 2 header and no overflowing
    length give the same, when samples are not unpacked. *)
Theorem C34_chunking_partial : forall g sch sch' file start last,
  g_hb g = false -> has_flag (g_flags g) 1 = false -> delivers sch -> delivers sch' ->
  0 <= last < 2 ^ 63 - 1 -> bytes_ok file -> plain file -> 0 <= start -> start + lenZ file < 2 ^ 63 ->
  let x := read_all (S (length file)) g sch (opened file start last) in
  let x' := read_all (S (length file)) g sch' (opened file start last) in
  x <> Fuel /\ (x' = x \/ (last <> 0 /\ exists c c', x = Ok ([], c) /\ x' = Ok ([], c') /\ In c [1; -2] /\ In c' [1; -2])).
Proof. exact chunking. Qed.
Print Assumptions C34_chunking_partial.

(** Two records with five bytes between them, whole and byte by byte. *)
Example C34_instance :
  let file := layout3 sample_hdr ++ [1; 2; 3; 4; 5] ++ layout3 sample_hdr in
  delivers whole_reads /\ delivers byte_reads /\
  match read_all 3 (conf 6) whole_reads (opened file 0 0), read_all 3 (conf 6) byte_reads (opened file 0 0) with
  | Ok (l, c), Ok (l', c') => map fst l = [0; 60] /\ map fst l' = [0; 60] /\ map snd l = map snd l' /\ c = 1 /\ c' = 1
  | _, _ => False
  end.
Proof. split; [exact whole_delivers|]. split; [exact byte_delivers|]. vm_compute. auto 10. Qed.

(** The status after a byte range without records depends on the deliveries. *)
Theorem C34_range_status_refuted : exists file, bytes_ok file /\ lenZ file = 50 /\
  delivers whole_reads /\ delivers byte_reads /\
  read_all 51 (conf 2) whole_reads (opened file 0 49) = Ok ([], -2) /\
  read_all 51 (conf 2) byte_reads (opened file 0 49) = Ok ([], 1).
Proof.
  exists (repeat 0 50). split; [vm_compute; repeat constructor; discriminate|]. split; [reflexivity|].
  split; [exact whole_delivers|]. split; [exact byte_delivers|]. split; vm_compute; reflexivity.
Qed.
Print Assumptions C34_range_status_refuted.

(** A record whose identifier field contains NUL bytes (the data are then looked for too
    early) and that claims more samples than it has: decoded or undefined behaviour
    according to the place in the buffer, which depends on the deliveries. *)
Definition misplaced_hdr : hdr :=
  mk_hdr 0 0 2024 60 1 2 3 3 0x3FF0000000000000 1 0 1 [88; 89; 90; 65; 0; 0; 0; 0] [] [].
Definition before_hdr : hdr :=
  mk_hdr 0 0 2024 60 1 2 3 0 0x3FF0000000000000 0 0 1 [88; 89; 90; 65; 66] [] [].

Theorem C34_unpacking_refuted : exists file, bytes_ok file /\ lenZ file = 93 /\
  (exists l, read_all 3 (conf 1) byte_reads (opened file 0 0) = Ok (l, 1) /\ map fst l = [0; 45]) /\
  read_all 3 (conf 1) whole_reads (opened file 0 0) = UB OOBRead.
Proof.
  exists (layout3 before_hdr ++ layout3 misplaced_hdr). split; [vm_compute; repeat constructor; discriminate|].
  split; [reflexivity|]. split; [|vm_compute; reflexivity]. eexists. split; [vm_compute; reflexivity|reflexivity].
Qed.
Print Assumptions C34_unpacking_refuted.

(** A file of 40 bytes whose length fields overflow 32 bits: its extra headers are read
    from behind the buffer. *)
Theorem C34_overflow_refuted : exists file, bytes_ok file /\ lenZ file = 40 /\
  read_all 1 (conf 0) whole_reads (opened file 0 0) = UB OOBRead.
Proof.
  exists ([77; 83; 3; 0] ++ [0; 0; 0; 0] ++ [232; 7] ++ [60; 0] ++ repeat 0 22 ++ [255; 255; 1; 0; 255; 255]).
  split; [vm_compute; repeat constructor; discriminate|]. split; [reflexivity|]. vm_compute. reflexivity.
Qed.
Print Assumptions C34_overflow_refuted.

(** ** C35 *)

(** A file of readable records, with bytes between and after them in which no header
    starts if these are skipped: exactly the selected records, in order, at their
    positions and with their samples when these are asked for, then the end of the
    file; "not SEED" if there is none. *)
Theorem C35_records_partial : forall g sch parts rest,
  g_hb g = false -> delivers sch ->
  Forall (readable (g_mode g) (g_flags g)) parts -> bytes_ok rest -> junk_ok parts rest ->
  has_flag (g_flags g) 2 = true \/ no_junk parts rest -> lenZ (file_of parts rest) < 2 ^ 63 ->
  read_all (S (length (file_of parts rest))) g sch (opened (file_of parts rest) 0 0) =
  Ok (expected g 0 parts, if lenZ (expected g 0 parts) =? 0 then -2 else 1).
Proof. exact file_read. Qed.
Print Assumptions C35_records_partial.

(** Without selections these are all the records. *)
Example C35_all : forall flags parts p, expected (conf flags) p parts = map (fun px => (fst px, part_rec (snd px))) (contents p parts).
Proof.
  intros flags parts. unfold expected. cut (forall p, filter (fun px => selected (conf flags) (part_head (snd px))) (contents p parts) = contents p parts).
  { intros H p. now rewrite H. }
  induction parts as [|x parts IH]; intros p; cbn [contents filter]; [reflexivity|].
  change (selected _ _) with true. cbv iota. now rewrite IH.
Qed.

Definition sample_part (junk : list Z) (d : option samples) : part := mk_part junk sample_hdr 1709168523000000500 d.

Example C35_instance : let parts := [sample_part [] (Some (SInt [100; 97; 116; 97])); sample_part [7; 7; 7] (Some (SInt [100; 97; 116; 97]))] in
  Forall (readable Strict 7) parts /\ junk_ok parts [9] /\ lenZ (file_of parts [9]) = 114 /\
  map fst (expected (conf 7) 0 parts) = [0; 58].
Proof.
  assert (R : forall j, bytes_ok j -> readable Strict 7 (sample_part j (Some (SInt [100; 97; 116; 97])))).
  { intros j Hj. unfold readable. cbn [pt_hdr pt_junk pt_time pt_data sample_part].
    split; [exact Hj|]. split; [exact sample_hdr_ok|]. split; [reflexivity|]. split; [intros _; vm_compute; reflexivity|].
    split; [vm_compute; reflexivity|]. split; [vm_compute; discriminate|]. split; [reflexivity|]. split; [reflexivity|].
    intros addr. unfold unpack_data.
    assert (DB : data_bounds false (layout3 sample_hdr) (rec_of false 1709168523000000500 sample_hdr None) = Ok (51, 4)) by (vm_compute; reflexivity).
    rewrite DB. cbn [bind].
    match goal with |- context [encoding_sizetype ?x] => change (encoding_sizetype x) with (Some (1, 116)) end.
    cbv iota beta. rewrite Z.mod_1_r. vm_compute. reflexivity. }
  split; [apply Forall_cons; [apply R; constructor|apply Forall_cons; [apply R; repeat constructor; lia|apply Forall_nil]]|]. split; [|split; reflexivity].
  assert (N : forall r, nth 0 r 0 = 7 \/ nth 0 r 0 = 9 -> ~ signature3 r /\ ~ signature2 r).
  { intros r H. split; intros [X _]; [lia|]. specialize (X 0%nat ltac:(lia)). lia. }
  cbn [junk_ok]. split; [intros i Hi; cbn in Hi; lia|]. split.
  - intros i Hi. apply N. left. do 3 (destruct i as [|i]; [reflexivity|]). cbn in Hi. lia.
  - intros i Hi. apply N. right. destruct i as [|i]; [reflexivity|]. cbn in Hi. lia.
Qed.

(** A file of no records is not reported as its end, but as not being SEED; so is a file
    of records none of which is selected. *)
Theorem C35_empty_refuted :
  read_all 1 (conf 0) whole_reads (opened (file_of [] []) 0 0) = Ok ([], -2) /\
  read_all 1 (mk_rconf no_unpack2 false Strict 0 0 (Some (fun _ => false))) whole_reads
    (opened (file_of [sample_part [] None] []) 0 0) = Ok ([], -2).
Proof. split; vm_compute; reflexivity. Qed.
Print Assumptions C35_empty_refuted.

(** ** C36 *)

(** A suffix is recognised exactly if it is '@' and a range text after the last '@'. *)
Theorem C36_suffix : forall path i x y, pathname_range path = Some (i, x, y) <->
  exists prefix t a b, path = prefix ++ 64 :: t /\ range_text t a b /\ i = lenZ prefix /\
    x = offset_of a /\ y = offset_of b.
Proof. exact range_iff. Qed.
Print Assumptions C36_suffix.

(** A path with a range: the file without the suffix is opened, at the start offset, and
    the records returned are ones found in the file at their positions, which are not
    before the start and leave room for a header before the end (if it is not 0).
    [HU]: version 2 parsing keeps the detected length. *)
Theorem C36_range_partial : forall g sch prefix t a b file,
  has_flag (g_flags g) 8 = true -> range_text t a b -> lenZ prefix < 512 ->
  value a < 2 ^ 63 -> value b < 2 ^ 63 - 1 -> value a + lenZ file < 2 ^ 63 -> bytes_ok file -> delivers sch ->
  (forall buf k m, g_unpack2 g buf k = Ok m -> m_reclen m = k) ->
  exists q, open_stream (g_flags g) (prefix ++ 64 :: t) file = Ok (prefix, q) /\
    forall calls l c, read_all calls g sch q = Ok (l, c) ->
    forall p m, In (p, m) l ->
      value a <= p /\ (value b <> 0 -> p + 40 <= value b + 1) /\ read_at g file p m.
Proof. exact range_read. Qed.
Print Assumptions C36_range_partial.

(** A path without a range suffix is used as it is. *)
Theorem C36_unchanged_partial : forall flags path, lenZ path < 512 ->
  (forall prefix t a b, path = prefix ++ 64 :: t -> ~ range_text t a b) \/ has_flag flags 8 = false ->
  stored_path flags path = Ok (path, 0, 0).
Proof. exact stored_unchanged. Qed.
Print Assumptions C36_unchanged_partial.

(** Three records; the range holds the second. *)
Definition three : list Z := layout3 sample_hdr ++ layout3 sample_hdr ++ layout3 sample_hdr.
(** "d" followed by [t]. *)
Definition positions (path : list Z) : res (list Z) :=
  let! (_, q) := open_stream 8 path three in
  let! (l, _) := read_all 4 (conf 8) whole_reads q in Ok (map fst l).

Example C36_instance : (* "d@55-109" *)
  range_text [53; 53; 45; 49; 48; 57] [53; 53] [49; 48; 57] /\
  positions (100 :: 64 :: [53; 53; 45; 49; 48; 57]) = Ok [55].
Proof.
  split; [|vm_compute; reflexivity]. unfold range_text, digits. repeat split; try (cbn; lia); try (repeat constructor; lia); auto.
Qed.

Example C36_other_suffixes : (* "d@5x", "d@1-2-3", "d@" with 21 digits *)
  pathname_range [100; 64; 53; 120] = None /\ pathname_range [100; 64; 49; 45; 50; 45; 51] = None /\
  pathname_range (100 :: 64 :: repeat 48 21) = None.
Proof. repeat split; reflexivity. Qed.

(** An end offset of 0 is no end: "d@0-0" returns all records. *)
Theorem C36_zero_end_refuted : range_text [48; 45; 48] [48] [48] /\ value [48] = 0 /\
  positions (100 :: 64 :: [48; 45; 48]) = Ok [0; 55; 110].
Proof.
  split; [|split; [reflexivity|vm_compute; reflexivity]].
  unfold range_text, digits. repeat split; try (cbn; lia); try (repeat constructor; lia); auto.
Qed.
Print Assumptions C36_zero_end_refuted.

(** A start of 2^63 becomes negative and is ignored: "d@9223372036854775808". *)
Definition two63 : list Z := [57; 50; 50; 51; 51; 55; 50; 48; 51; 54; 56; 53; 52; 55; 55; 53; 56; 48; 56].
Theorem C36_large_start_refuted : range_text two63 two63 [] /\ value two63 = 2 ^ 63 /\
  positions (100 :: 64 :: two63) = Ok [0; 55; 110].
Proof.
  split; [|split; [reflexivity|vm_compute; reflexivity]].
  unfold range_text, digits. repeat split; try (cbn; lia); try (repeat constructor; lia); auto.
Qed.
Print Assumptions C36_large_start_refuted.

(** An end of 2^63 - 1: the limit is computed with signed overflow. *)
Definition max63 : list Z := [57; 50; 50; 51; 51; 55; 50; 48; 51; 54; 56; 53; 52; 55; 55; 53; 56; 48; 55].
Theorem C36_large_end_refuted : range_text (48 :: 45 :: max63) [48] max63 /\ value max63 = 2 ^ 63 - 1 /\
  positions (100 :: 64 :: 48 :: 45 :: max63) = UB SignedOverflow.
Proof.
  split; [|split; [reflexivity|vm_compute; reflexivity]].
  unfold range_text, digits. repeat split; try (cbn; lia); try (repeat constructor; lia); auto.
Qed.
Print Assumptions C36_large_end_refuted.

(** A '@' (or "@-") with no number after it is removed from the path. *)
Theorem C36_bare_suffix_refuted : stored_path 8 [100; 64] = Ok ([100], 0, 0) /\ stored_path 8 [100; 64; 45] = Ok ([100], 0, 0).
Proof. split; reflexivity. Qed.
Print Assumptions C36_bare_suffix_refuted.

(** Paths of 512 bytes and more: cut off, and with a suffix behind that length a byte is
    written outside the path field. *)
Theorem C36_long_path_refuted :
  stored_path 8 (repeat 100 600) = Ok (repeat 100 511, 0, 0) /\
  stored_path 8 (repeat 100 600 ++ [64; 48]) = UB OOBWrite.
Proof. split; vm_compute; reflexivity. Qed.
Print Assumptions C36_long_path_refuted.
