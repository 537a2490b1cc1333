(** * C54, C55: trace lists from buffers, samples from record lists.
    Vocabulary: BufSpec.v, ReadSpec.v (files of records), TlSpec.v (trace lists). *)

From Verif Require Import Base RecModel RecSpec PropRec ReadModel ReadSpec PropRead TlModel TlSpec PropTl BufModel BufSpec BufProof BufRead BufUnpack.
Open Scope Z_scope.

(** ** C54 *)

(** A buffer of readable version 3 records, with at most 40 bytes or an incomplete record
    behind them: the selected ones are added to the list in order, their number is
    returned, and with MSF_RECORDLIST an entry is made for each, pointing at it. *)
Theorem C54_records : forall b parts rest want k heights k', b_hb b = false -> bytes_ok rest -> ends rest ->
  Forall (readable (b_mode b) (b_flags b)) parts -> Forall (fun x => pt_junk x = []) parts -> all_read parts rest ->
  Forall (fun x => b_selected b (part_head x) = Ok (want x)) parts -> (length (filter want parts) <= length heights)%nat ->
  add_all (b_conf b) k (combine (map (fun x => trec_of (part_rec x)) (filter want parts)) heights) = Ok k' ->
  exists ptrs, readbuffer b k (file_of parts rest) heights = Ok (lenZ (filter want parts), Some k', ptrs) /\
    if has_flag (b_flags b) 256
    then Forall2 (entry_for (b_addr b) (file_of parts rest)) (filter (fun px => want (snd px)) (contents 0 parts)) ptrs
    else ptrs = [].
Proof. exact read_buffer. Qed.
Print Assumptions C54_records.

(** These are the records that reading the same bytes as a file returns, however they
    arrive. *)
Theorem C54_file : forall b g sch parts rest,
  b_hb b = false -> g_hb g = false -> g_mode g = b_mode b -> g_flags g = b_flags b -> delivers sch ->
  Forall (readable (b_mode b) (b_flags b)) parts -> bytes_ok rest -> junk_ok parts rest -> no_junk parts rest -> all_read parts rest ->
  Forall (fun x => b_selected b (part_head x) = Ok (selected g (part_head x))) parts -> lenZ (file_of parts rest) < 2 ^ 63 ->
  exists l c, read_all (S (length (file_of parts rest))) g sch (opened (file_of parts rest) 0 0) = Ok (l, c) /\
    forall k heights k', (length l <= length heights)%nat ->
      add_all (b_conf b) k (combine (map (fun x => trec_of (snd x)) l) heights) = Ok k' ->
      exists ptrs, readbuffer b k (file_of parts rest) heights = Ok (lenZ l, Some k', ptrs).
Proof. exact same_as_file. Qed.
Print Assumptions C54_file.

(** Something else behind the records ends the reading with its error code, whatever the
    flags; the records before it are in the list. *)
Theorem C54_stops : forall b parts rest want k heights k' c, b_hb b = false -> bytes_ok rest -> stops (b_flags b) rest c ->
  Forall (readable (b_mode b) (b_flags b)) parts -> Forall (fun x => pt_junk x = []) parts ->
  Forall (fun x => b_selected b (part_head x) = Ok (want x)) parts -> (length (filter want parts) <= length heights)%nat ->
  add_all (b_conf b) k (combine (map (fun x => trec_of (part_rec x)) (filter want parts)) heights) = Ok k' ->
  exists ptrs, readbuffer b k (file_of parts rest) heights = Ok (c, Some k', ptrs).
Proof. exact read_stopped. Qed.
Print Assumptions C54_stops.

(** Two records of four text samples, one per second, the second right after the first
    (01:02:03 and 01:02:07 of 2024-060), and one of another identifier. *)
Definition buf_hdr (id sec : Z) (d : list Z) : hdr :=
  mk_hdr 4 0 2024 60 1 2 sec 0 0x3FF0000000000000 (lenZ d) 0 1 [88; id] [123; 125] d.
Definition buf_part (id sec : Z) (d : list Z) : part :=
  mk_part [] (buf_hdr id sec d) (1709168520000000000 + sec * 1000000000) (Some (SInt d)).
Definition buf_parts : list part := [buf_part 65 3 [1; 2; 3; 4]; buf_part 66 3 [9; 9]; buf_part 65 7 [5; 6; 7; 8]].
(** No selections, or those of identifiers that begin with XA. *)
Definition buf_conf (flags : Z) (s : option (list sel)) : bconf := mk_bconf false Strict 0 [] None None false flags s (fun _ _ => no_unpack2).
Definition only_A : list sel := [{| SelModel.s_pat := [88; 65; 42]; SelModel.s_win := [(NSTUNSET, NSTUNSET)]; SelModel.s_ver := 0 |}].
Definition is_A (x : part) : bool := nth 1 (h_sid (pt_hdr x)) 0 =? 65.

Lemma buf_readable flags : has_flag flags 1 = true -> has_flag flags 4 = false -> Forall (readable Strict flags) buf_parts.
Proof.
  intros F1 F4. unfold buf_parts.
  repeat (apply Forall_cons; [|]); [| | |constructor];
    (unfold readable; cbn [pt_hdr pt_junk pt_time pt_data buf_part]; split; [constructor|]; split;
     [unfold hdr_ok, in_u, bytes_ok; cbn; repeat split; try lia; repeat constructor; lia|]; split; [reflexivity|]; split; [congruence|];
     split; [vm_compute; reflexivity|]; split; [vm_compute; discriminate|]; split; [exact F1|]; split; [reflexivity|];
     intros addr; unfold unpack_data;
     match goal with |- context [data_bounds ?a ?b ?c] => let x := eval vm_compute in (data_bounds a b c) in assert (DB : data_bounds a b c = x) by (vm_compute; reflexivity) end;
     rewrite DB; cbn [bind];
     match goal with |- context [encoding_sizetype ?x] => change (encoding_sizetype x) with (Some (1, 116)) end;
     cbv iota beta; rewrite Z.mod_1_r; vm_compute; reflexivity).
Qed.

Example C54_instance :
  let buffer := file_of buf_parts [7; 7; 7] in
  let b := buf_conf 257 (Some only_A) in
  Forall (readable Strict 257) buf_parts /\ Forall (fun x => pt_junk x = []) buf_parts /\ all_read buf_parts [7; 7; 7] /\ ends [7; 7; 7] /\
  Forall (fun x => b_selected b (part_head x) = Ok (is_A x)) buf_parts /\
  view (add_all (b_conf b) tl_init (combine (map (fun x => trec_of (part_rec x)) (filter is_A buf_parts)) [1; 1]%nat))
  = Ok [([88; 65], 1, 1, 1709168523000000000, 1709168530000000000, [(1709168523000000000, 1709168530000000000, 8, [1; 2; 3; 4; 5; 6; 7; 8])])] /\
  match readbuffer b tl_init buffer [1; 1]%nat with
  | Ok (n, Some k, ptrs) => n = 2 /\ map p_off ptrs = [44; 44] /\
      view (Ok k) = Ok [([88; 65], 1, 1, 1709168523000000000, 1709168530000000000, [(1709168523000000000, 1709168530000000000, 8, [1; 2; 3; 4; 5; 6; 7; 8])])]
  | _ => False
  end.
Proof.
  cbv zeta. split; [apply buf_readable; reflexivity|]. split; [repeat constructor|]. split.
  { intros front x _. rewrite RecProof.layout3_len. change (lenZ [7; 7; 7]) with 3. unfold lenZ. lia. }
  split; [left; vm_compute; discriminate|]. split; [repeat (apply Forall_cons; [vm_compute; reflexivity|]); constructor|].
  split; [vm_compute; reflexivity|]. vm_compute. auto.
Qed.

Example C54_stops_instance : (* bytes that are no record behind the records: with MSF_SKIPNOTDATA too *)
  stops 259 (repeat 7 41) (-2) /\
  match readbuffer (buf_conf 259 None) tl_init (file_of buf_parts (repeat 7 41)) [1; 1; 1]%nat with
  | Ok (n, Some k, ptrs) => n = -2 /\ length ptrs = 3%nat /\ k_num k = 2
  | _ => False
  end.
Proof.
  split.
  - split; [vm_compute; reflexivity|]. left. split; [|split; [|reflexivity]].
    + intros [X _]. vm_compute in X. discriminate X.
    + intros (X & _). specialize (X 0%nat ltac:(lia)). cbn in X. lia.
  - vm_compute. auto.
Qed.

(** A record of 40 bytes at the end of the buffer is not read (tracelist.c:898), while it
    is read from a file. *)
Definition tiny_hdr : hdr := mk_hdr 0 0 2024 60 1 2 3 0 0x3FF0000000000000 0 0 1 [] [] [].
Theorem C54_last_record_refuted :
  hdr_ok tiny_hdr /\ lenZ (layout3 tiny_hdr) = 40 /\ readable Strict 0 (mk_part [] tiny_hdr 1709168523000000000 None) /\
  readbuffer (buf_conf 0 None) tl_init (layout3 tiny_hdr) [1]%nat = Ok (0, Some tl_init, []) /\
  exists m, read_all 2 (PropRead.conf 0) whole_reads (opened (layout3 tiny_hdr) 0 0) = Ok ([(0, m)], 1).
Proof.
  assert (H : hdr_ok tiny_hdr) by (unfold hdr_ok, in_u, bytes_ok; cbn; repeat split; try lia; constructor).
  split; [exact H|]. split; [reflexivity|]. split.
  - unfold readable. cbn [pt_hdr pt_junk pt_time pt_data]. split; [constructor|]. split; [exact H|]. split; [reflexivity|]. split; [intros X; discriminate X|].
    split; [vm_compute; reflexivity|]. split; [vm_compute; discriminate|]. left. reflexivity.
  - split; [vm_compute; reflexivity|]. eexists. vm_compute. reflexivity.
Qed.
Print Assumptions C54_last_record_refuted.

(** ** C55 *)

(** Unpacking a record list gives the samples of its records in order, their number is
    returned, and they become the samples of the segment (or are put in the caller's
    buffer), of the type of the first record. *)
Theorem C55_unpacked : forall hb mode al null0 s out p ps ds,
  Forall2 (entry_holds hb mode) (p :: ps) ds -> (al = true -> Forall data_aligned (p :: ps)) ->
  known_encoding (m_enc (p_msr p)) ->
  Forall (fun q => 0 < m_cnt (p_msr q) -> type_of (m_enc (p_msr q)) = type_of (m_enc (p_msr p))) (p :: ps) ->
  s_cnt s = total (p :: ps) -> s_cnt s < 2 ^ 60 ->
  match out with Some cap => s_cnt s * decoded_bytes (m_enc (p_msr p)) <= cap | None => s_data s = [] /\ 0 < s_cnt s end ->
  unpack_recordlist hb mode al null0 s out (Some (p :: ps)) =
    Ok (s_cnt s, concat (map sample_words ds),
        seg_samples s (if 0 <? s_cnt s then type_of (m_enc (p_msr p)) else s_type s)
                    (match out with Some _ => s_data s | None => concat (map sample_words ds) end)).
Proof. exact unpack_list. Qed.
Print Assumptions C55_unpacked.

(** A buffer that is too small, and a record that cannot be used (another sample type, an
    unknown encoding, a file that is too short, no place): an error, and the segment is as
    before. *)
Theorem C55_small : forall hb mode al null0 s cap p ps, known_encoding (m_enc (p_msr p)) -> 0 <= s_cnt s < 2 ^ 60 ->
  cap < s_cnt s * decoded_bytes (m_enc (p_msr p)) ->
  unpack_recordlist hb mode al null0 s (Some cap) (Some (p :: ps)) = Ok (-1, [], s).
Proof. exact unpack_small. Qed.
Print Assumptions C55_small.

Theorem C55_unusable : forall hb mode al null0 s out p ps q tail ds,
  Forall2 (entry_holds hb mode) ps ds -> (al = true -> Forall data_aligned ps) ->
  known_encoding (m_enc (p_msr p)) -> (exists l, ps ++ q :: tail = p :: l) -> unusable (type_of (m_enc (p_msr p))) q ->
  Forall (fun q => 0 < m_cnt (p_msr q) -> type_of (m_enc (p_msr q)) = type_of (m_enc (p_msr p))) ps ->
  total ps <= s_cnt s < 2 ^ 60 ->
  unpack_recordlist hb mode al null0 s out (Some (ps ++ q :: tail)) = Ok (-1, [], s).
Proof. exact unpack_unusable. Qed.
Print Assumptions C55_unusable.

(** Reading a buffer with a record list and without unpacking gives the same list, return
    value and entries as with unpacking, but no samples ... *)
Theorem C55_deferred : forall b parts rest want heights k, b_hb b = false -> bytes_ok rest -> ends rest -> has_flag (b_flags b) 256 = true ->
  blind (b_conf b) ->
  Forall (readable (b_mode b) (b_flags b)) parts -> Forall (fun x => pt_junk x = []) parts -> all_read parts rest ->
  Forall (fun x => b_selected b (part_head x) = Ok (want (part_head x))) parts -> (length parts <= length heights)%nat ->
  add_all (b_conf b) tl_init (combine (map (fun x => trec_of (part_rec x)) (filter (fun x => want (part_head x)) parts)) heights) = Ok k ->
  exists n ptrs k', readbuffer b tl_init (file_of parts rest) heights = Ok (n, Some k, ptrs) /\
    readbuffer (b_undecoded b) tl_init (file_of parts rest) heights = Ok (n, Some k', ptrs) /\ same_without_samples k k'.
Proof. exact without_samples. Qed.
Print Assumptions C55_deferred.

(** ... and unpacking the record list of any of its segments later gives the samples that
    the segment has when they are unpacked while reading. *)
Theorem C55_same_samples : forall b parts rest heights want k ids t segs s ps al null0, b_hb b = false -> b_mode b = Strict ->
  has_flag (b_flags b) 1 = true -> has_flag (b_flags b) 256 = true ->
  Forall (readable (b_mode b) (b_flags b)) parts -> Forall (fun x => pt_junk x = [] /\ 0 < h_cnt (pt_hdr x)) parts -> Forall valid_height heights ->
  add_all (b_conf b) tl_init (combine (map (fun x => trec_of (part_rec x)) (filter want parts)) heights) = Ok k ->
  tl_ids k = Ok ids -> In t ids -> tid_segs t = Ok segs -> In s segs -> s_cnt s < 2 ^ 60 ->
  Forall2 (entry_of (b_addr b) (file_of parts rest) parts) (s_recs s) ps -> (al = true -> Forall data_aligned ps) ->
  unpack_recordlist false (b_mode b) al null0 (bare_seg s) None (Some ps) = Ok (s_cnt s, s_data s, seg_samples (bare_seg s) (s_type s) (s_data s)).
Proof. exact buffer_unpacked. Qed.
Print Assumptions C55_same_samples.

(** The records of XA again, read without unpacking, then unpacked. *)
Example C55_instance :
  match readbuffer (b_undecoded (buf_conf 257 (Some only_A))) tl_init (file_of buf_parts []) [1; 1; 1]%nat with
  | Ok (n, Some k, ptrs) => n = 2 /\
    view (Ok k) = Ok [([88; 65], 1, 1, 1709168523000000000, 1709168530000000000, [(1709168523000000000, 1709168530000000000, 8, [])])] /\
    match unpack_recordlist false Strict true false (mk_seg 1709168523000000000 1709168530000000000 (sampratehz 0x3FF0000000000000) 8 0 [] []) None (Some ptrs) with
    | Ok (n, l, s) => n = 8 /\ l = [1; 2; 3; 4; 5; 6; 7; 8] /\ s_type s = 116 /\ s_data s = l
    | _ => False
    end
  | _ => False
  end.
Proof. vm_compute. auto 10. Qed.

(** Entries in memory and in a file: both are used, a file cut short is not. *)
Definition buf_entry (x : part) (src : source) : rptr := mk_rptr (part_head x) src 44.
Definition buf_seg (n : Z) : seg := mk_seg 0 0 (sampratehz 0x3FF0000000000000) n 0 [] [].
Example C55_entries :
  let x := buf_part 65 3 [1; 2; 3; 4] in let y := buf_part 65 7 [5; 6] in
  let p := buf_entry x (SBuf (layout3 (pt_hdr x) ++ [1]) 3) in let q := buf_entry y (SFile (layout3 (pt_hdr y))) in
  let cut := buf_entry y (SFile (removelast (layout3 (pt_hdr y)))) in
  Forall2 (entry_holds false Strict) [p; q] [SInt [1; 2; 3; 4]; SInt [5; 6]] /\ Forall data_aligned [p; q] /\ total [p; q] = 6 /\
  unpack_recordlist false Strict true true (buf_seg 6) (Some 6) (Some [p; q]) = Ok (6, [1; 2; 3; 4; 5; 6], seg_samples (buf_seg 6) 116 []) /\
  unusable 116 cut /\ unpack_recordlist false Strict true true (buf_seg 6) None (Some [p; cut]) = Ok (-1, [], buf_seg 6).
Proof.
  cbv zeta. split.
  - constructor; [|constructor; [|constructor]]; right; (split; [vm_compute; reflexivity|]; split; [cbn; lia|]; split; [discriminate|]).
    + exists (layout3 (buf_hdr 65 3 [1; 2; 3; 4])), 4, 0. split; [split; [reflexivity|exists [1]; reflexivity]|]. split; [left; repeat split; reflexivity|].
      cbn [buf_entry p_off p_msr]. split; [lia|]. split; [lia|]. split; vm_compute; [discriminate|reflexivity].
    + exists (layout3 (buf_hdr 65 7 [5; 6])), 2, 0. split; [split; [reflexivity|exists []; reflexivity]|]. split; [left; repeat split; reflexivity|].
      cbn [buf_entry p_off p_msr]. split; [lia|]. split; [lia|]. split; vm_compute; [discriminate|reflexivity].
  - split; [repeat constructor; cbn; discriminate|]. split; [reflexivity|]. split; [vm_compute; reflexivity|]. split; [|vm_compute; reflexivity].
    split; [vm_compute; reflexivity|]. split; [cbn; lia|]. right. right. vm_compute. reflexivity.
Qed.

(** C55 fails when the header is in the other byte order and the payload is not: the
    decoder is told to swap if either is (tracelist.c:1825-1827), while msr3_unpack_data only
    looks at the payload (unpack.c:1243-1245).  The record: version 2 with a big-endian header
    (data at byte 48) and a little-endian INT32. *)
Definition mixed_rec : list Z := repeat 0 44 ++ [0; 48; 0; 0] ++ [1; 0; 0; 0] ++ repeat 0 12.
Definition mixed_msr : msr := mk_msr 64 true false 2 0 [88; 65] 0 0x3FF0000000000000 3 1 1 0 [] 0 None.
Theorem C55_byte_order_refuted :
  unpack_data false Strict 0 mixed_rec mixed_msr = Ok (SInt [1]) /\
  bytes_at (mk_rptr mixed_msr (SBuf mixed_rec 0) 48) mixed_rec /\
  unpack_recordlist false Strict false false (buf_seg 1) None (Some [mk_rptr mixed_msr (SBuf mixed_rec 0) 48]) =
    Ok (1, [16777216], seg_samples (buf_seg 1) 105 [16777216]).
Proof. split; [vm_compute; reflexivity|]. split; [split; [reflexivity|exists []; apply app_nil_end]|]. vm_compute. reflexivity. Qed.
Print Assumptions C55_byte_order_refuted.

(** C55 fails on hosts that need aligned integers when the payload is not aligned:
    msr3_unpack_data copies it first (unpack.c:1191-1203), here it is used in place
    (tracelist.c:1722-1725).  The record: a version 3 header with a four-byte identifier
    and one INT32, at an odd address. *)
Definition odd_hdr : hdr := mk_hdr 0 0 2024 60 1 2 3 3 0x3FF0000000000000 1 0 1 [88; 65; 66; 67] [] [1; 0; 0; 0].
Theorem C55_alignment_refuted : hdr_ok odd_hdr /\
  let m := rec_of false 0 odd_hdr None in
  unpack_data false Strict 1 (layout3 odd_hdr) m = Ok (SInt [1]) /\
  unpack_recordlist false Strict true false (buf_seg 1) None (Some [mk_rptr m (SBuf (layout3 odd_hdr) 1) 44]) = UB BadAlign.
Proof. split; [unfold hdr_ok, in_u, bytes_ok; cbn; repeat split; try lia; repeat constructor; lia|]. split; vm_compute; reflexivity. Qed.
Print Assumptions C55_alignment_refuted.

(** C55 fails when the first record has no samples: its encoding decides the type. *)
Theorem C55_first_type_refuted :
  let m := rec_of false 0 odd_hdr None in
  let first := mk_rptr (rec_of false 0 tiny_hdr None) (SBuf (layout3 tiny_hdr) 0) 40 in
  let p := mk_rptr m (SBuf (layout3 odd_hdr) 0) 44 in
  m_cnt (p_msr first) = 0 /\
  unpack_recordlist false Strict false false (buf_seg 1) None (Some [first; p]) = Ok (-1, [], buf_seg 1) /\
  unpack_recordlist false Strict false false (buf_seg 1) None (Some [p; first]) = Ok (1, [1], seg_samples (buf_seg 1) 105 [1]).
Proof. split; [reflexivity|]. split; vm_compute; reflexivity. Qed.
Print Assumptions C55_first_type_refuted.

(** C55 fails for version 2 records that do not state their encoding (no blockette 1000):
    msr3_unpack_data takes them for Steim-1 (unpack.c:1174-1181), here it is an error. *)
Definition plain_rec : list Z := repeat 0 44 ++ [0; 64; 0; 0] ++ repeat 0 16 ++ [64; 0; 0; 0] ++ repeat 0 60.
Definition plain_msr : msr := mk_msr 128 true true 2 0 [88; 65] 0 0x3FF0000000000000 (-1) 1 1 0 [] 0 None.
Theorem C55_no_encoding_refuted :
  unpack_data false Strict 0 plain_rec plain_msr = Ok (SInt [0]) /\
  unpack_recordlist false Strict false false (buf_seg 1) None (Some [mk_rptr plain_msr (SBuf plain_rec 0) 64]) = Ok (-1, [], buf_seg 1).
Proof. split; vm_compute; reflexivity. Qed.
Print Assumptions C55_no_encoding_refuted.
