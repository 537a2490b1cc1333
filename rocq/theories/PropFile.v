(** * C56: trace lists read from files.
    Vocabulary: FileSpec.v, BufSpec.v, ReadSpec.v (files of records), TlSpec.v (trace lists). *)

From Verif Require Import Base RecModel RecSpec PropRec ReadModel ReadSpec ReadProof PropRead TlModel TlSpec PropTl BufModel BufSpec PropBuf FileModel FileSpec FileProof.
From Verif Require SelSpec.
Open Scope Z_scope.

(** ** C56 *)

(** A file of readable version 3 records, with other bytes between them if they are
    skipped: the selected ones are added to the list in order; 0 is returned if there is
    one, else MS_NOTSEED; and with MSF_RECORDLIST an entry is made for each, at its place in
    the file of the path that was given. *)
Theorem C56_records : forall fs stdin x sch path parts rest k heights k', let g := t_read x in
  g_hb g = false -> delivers sch -> holds fs stdin (g_flags g) path (file_of parts rest) ->
  Forall (readable (g_mode g) (g_flags g)) parts -> bytes_ok rest -> junk_ok parts rest ->
  has_flag (g_flags g) 2 = true \/ no_junk parts rest -> lenZ (file_of parts rest) < 2 ^ 63 ->
  let wanted := filter (fun x => selected g (part_head x)) parts in
  (length wanted <= length heights)%nat ->
  add_all (t_conf x) k (combine (map (fun x => trec_of (part_rec x)) wanted) heights) = Ok k' ->
  exists ptrs, read_tracelist fs stdin x sch path k heights = Ok (if lenZ wanted =? 0 then -2 else 0, Some k', ptrs) /\
    if has_flag (g_flags g) 256
    then Forall2 (file_entry (fs path)) (filter (fun px => selected g (part_head (snd px))) (contents 0 parts)) ptrs
    else ptrs = [].
Proof. exact read_list. Qed.
Print Assumptions C56_records.

(** With a time window: those that share an instant with it, whose bounds may be open. *)
Theorem C56_window : forall (fs : files) stdin (x : tconf) sch path parts rest (k : tlist) heights (k' : tlist) (keep : part -> bool) a b, let g := t_read x in
  g_hb g = false -> delivers sch -> holds fs stdin (g_flags g) path (file_of parts rest) ->
  Forall (readable (g_mode g) (g_flags g)) parts -> bytes_ok rest -> junk_ok parts rest ->
  has_flag (g_flags g) 2 = true \/ no_junk parts rest -> lenZ (file_of parts rest) < 2 ^ 63 -> SelSpec.wellformed_window (a, b) ->
  Forall (fun p => exists e, endtime (g_mode g) (t_leaps x) (pt_time p) (h_cnt (pt_hdr p)) (h_rate (pt_hdr p)) = Ok e /\
    ~ SelSpec.open (pt_time p) /\ ~ SelSpec.open e /\ pt_time p <= e /\ (keep p = true <-> SelSpec.overlaps (pt_time p) e (a, b))) parts ->
  let wanted := filter keep parts in
  (length wanted <= length heights)%nat ->
  add_all (t_conf x) k (combine (map (fun x => trec_of (part_rec x)) wanted) heights) = Ok k' ->
  exists ptrs, read_timewin fs stdin x sch path a b k heights = Ok (if lenZ wanted =? 0 then -2 else 0, Some k', ptrs) /\
    if has_flag (g_flags g) 256
    then Forall2 (file_entry (fs path)) (filter (fun px => keep (snd px)) (contents 0 parts)) ptrs
    else ptrs = [].
Proof. exact window_list. Qed.
Print Assumptions C56_window.

(** Any file, with a byte range or not: the records that [read_all] returns are added, and
    its code is returned (0 for the end of the file). *)
Theorem C56_reading : forall fs stdin x sch path k heights name a b data name' q l c k', has_flag (g_flags (t_read x)) 256 = false ->
  stored_path (g_flags (t_read x)) path = Ok (name, a, b) ->
  (path = [45] /\ data = stdin \/ path <> [45] /\ exists n, local_name name = Some n /\ fs n = Some data) ->
  open_stream (g_flags (t_read x)) path data = Ok (name', q) ->
  read_all (S (length data)) (t_read x) sch q = Ok (l, c) -> (length l <= length heights)%nat ->
  add_all (t_conf x) k (combine (map (fun pm => trec_of (snd pm)) l) heights) = Ok k' ->
  read_tracelist fs stdin x sch path k heights = Ok (if c =? 1 then 0 else c, Some k', []).
Proof. exact read_any. Qed.
Print Assumptions C56_reading.

(** A path that stands for nothing: MS_GENERROR, and the list is as before. *)
Theorem C56_nothing : forall fs stdin x sch path k heights, nothing fs (g_flags (t_read x)) path ->
  read_tracelist fs stdin x sch path k heights = Ok (-1, Some k, []).
Proof. exact read_nothing. Qed.
Print Assumptions C56_nothing.

(** With a record list and without unpacking: the same list, return value and entries as
    with unpacking, but no samples ... *)
Theorem C56_deferred : forall fs stdin x sch path parts rest heights k, let g := t_read x in
  g_hb g = false -> delivers sch -> holds fs stdin (g_flags g) path (file_of parts rest) -> has_flag (g_flags g) 256 = true -> blind (t_conf x) ->
  Forall (readable (g_mode g) (g_flags g)) parts -> bytes_ok rest -> junk_ok parts rest ->
  has_flag (g_flags g) 2 = true \/ no_junk parts rest -> lenZ (file_of parts rest) < 2 ^ 63 ->
  (length parts <= length heights)%nat ->
  add_all (t_conf x) tl_init (combine (map (fun x => trec_of (part_rec x)) (filter (fun x => selected g (part_head x)) parts)) heights) = Ok k ->
  exists c ptrs k', read_tracelist fs stdin x sch path tl_init heights = Ok (c, Some k, ptrs) /\
    read_tracelist fs stdin (t_undecoded x) sch path tl_init heights = Ok (c, Some k', ptrs) /\ same_without_samples k k'.
Proof. exact file_deferred. Qed.
Print Assumptions C56_deferred.

(** ... and if the path is the name of the file, unpacking the record list of a segment
    later gives the samples it has when they are unpacked while reading. *)
Theorem C56_same_samples : forall (x : tconf) (fs : files) path parts rest heights want k ids t segs s ps al null0, let g := t_read x in g_mode g = Strict ->
  has_flag (g_flags g) 1 = true -> has_flag (g_flags g) 256 = true -> fs path = Some (file_of parts rest) ->
  Forall (readable (g_mode g) (g_flags g)) parts -> Forall (fun x => 0 < h_cnt (pt_hdr x)) parts -> Forall valid_height heights ->
  add_all (t_conf x) tl_init (combine (map (fun x => trec_of (part_rec x)) (filter want parts)) heights) = Ok k ->
  tl_ids k = Ok ids -> In t ids -> tid_segs t = Ok segs -> In s segs -> s_cnt s < 2 ^ 60 ->
  Forall2 (file_entry_of (fs path) parts) (s_recs s) ps -> (al = true -> Forall data_aligned ps) ->
  unpack_recordlist false (g_mode g) al null0 (bare_seg s) None (Some ps) = Ok (s_cnt s, s_data s, seg_samples (bare_seg s) (s_type s) (s_data s)).
Proof. exact file_unpacked. Qed.
Print Assumptions C56_same_samples.

(** The records of PropBuf.v, with "zz" before the last one, in a file "f" read byte by byte;
    those of the identifiers beginning with XA are selected. *)
Definition file_parts : list part :=
  [buf_part 65 3 [1; 2; 3; 4]; buf_part 66 3 [9; 9];
   mk_part [122; 122] (buf_hdr 65 7 [5; 6; 7; 8]) 1709168527000000000 (Some (SInt [5; 6; 7; 8]))].
Definition one_file (name data : list Z) : files := fun n => if list_eq_dec Z.eq_dec n name then Some data else None.
Definition file_conf (flags : Z) : tconf :=
  mk_tconf (mk_rconf no_unpack2 false Strict 0 flags (Some (fun m => nth 1 (m_sid m) 0 =? 65))) [] None None false.
Definition f_file : files := one_file [102] (file_of file_parts [7; 7; 7]).
Definition file_view : list (list Z * Z * Z * Z * Z * list (Z * Z * Z * list Z)) :=
  [([88; 65], 1, 1, 1709168523000000000, 1709168530000000000, [(1709168523000000000, 1709168530000000000, 8, [1; 2; 3; 4; 5; 6; 7; 8])])].

Lemma file_readable flags : has_flag flags 1 = true -> has_flag flags 4 = false -> Forall (readable Strict flags) file_parts.
Proof.
  intros F1 F4. pose proof (buf_readable flags F1 F4) as B. unfold buf_parts in B. inversion B as [|? ? B1 B']; subst. inversion B' as [|? ? B2 B'']; subst. inversion B'' as [|? ? B3 _]; subst.
  constructor; [exact B1|]. constructor; [exact B2|]. constructor; [|constructor].
  destruct B3 as (_ & B3). split; [|exact B3]. repeat constructor; lia.
Qed.

Example C56_instance :
  holds f_file [] 259 [102] (file_of file_parts [7; 7; 7]) /\ holds f_file [] 259 [70; 105; 108; 69; 58; 47; 47; 102] (file_of file_parts [7; 7; 7]) /\
  nothing f_file 259 [103] /\ nothing f_file 259 [104; 58; 47; 47; 102] /\
  Forall (readable Strict 259) file_parts /\ junk_ok file_parts [7; 7; 7] /\ blind (t_conf (file_conf 259)) /\
  match read_tracelist f_file [] (file_conf 259) byte_reads [102] tl_init [1; 1; 1]%nat with
  | Ok (n, Some k, ptrs) => n = 0 /\ map p_off ptrs = [44; 44] /\ view (Ok k) = Ok file_view
  | _ => False
  end /\
  match read_tracelist f_file [] (t_undecoded (file_conf 259)) byte_reads [102] tl_init [1; 1; 1]%nat with
  | Ok (n, Some k, ptrs) => n = 0 /\ map p_off ptrs = [44; 44] /\
    match unpack_recordlist false Strict true false (mk_seg 1709168523000000000 1709168530000000000 (sampratehz 0x3FF0000000000000) 8 0 [] []) None (Some ptrs) with
    | Ok (n, l, s) => n = 8 /\ l = [1; 2; 3; 4; 5; 6; 7; 8] /\ s_type s = 116 /\ s_data s = l
    | _ => False
    end
  | _ => False
  end.
Proof.
  assert (NR : forall p, ~ In 64 p -> no_range 259 p).
  { intros p N. right. intros pre t a b ->. exfalso. apply N. apply in_or_app. right. left. reflexivity. }
  assert (NC : forall p, ~ In 58 p -> ~ has_colon p).
  { intros p N (a & b & ->). apply N. apply in_or_app. right. left. reflexivity. }
  split; [apply h_file; [apply NR; cbn; lia|reflexivity|discriminate|apply NC; cbn; lia|reflexivity]|].
  split.
  { apply (h_scheme f_file [] 259 [102] [70; 105; 108; 69; 58; 47; 47]); [apply NR; cbn; lia|reflexivity| |reflexivity].
    unfold file_scheme. repeat (apply Forall2_cons; [lia|]). constructor. }
  split; [apply n_file; [apply NR; cbn; lia|reflexivity|discriminate|apply NC; cbn; lia|reflexivity]|].
  split.
  { apply n_url; [apply NR; cbn; lia|reflexivity|exists [104], [102]; reflexivity|].
    intros scheme name E F. unfold file_scheme in F. inversion F as [|? ? ? ? [X|X] F']; subst; cbn in E; injection E as E _; lia. }
  split; [apply file_readable; reflexivity|].
  split; [|split; [split; exact I|vm_compute; auto 10]].
  assert (N : forall r, nth 0 r 0 = 7 \/ nth 0 r 0 = 122 -> ~ signature3 r /\ ~ signature2 r).
  { intros r H. split; intros [X _]; [lia|]. specialize (X 0%nat ltac:(lia)). lia. }
  cbn [junk_ok file_parts]. split; [intros i Hi; cbn in Hi; lia|]. split; [intros i Hi; cbn in Hi; lia|]. split.
  - intros i Hi. apply N. right. do 2 (destruct i as [|i]; [reflexivity|]). cbn in Hi. lia.
  - intros i Hi. apply N. left. do 3 (destruct i as [|i]; [reflexivity|]). cbn in Hi. lia.
Qed.

Example C56_window_instance : (* from 01:02:05 on: the first and the third, which end at 01:02:06 and 01:02:10 *)
  let a := 1709168525000000000 in
  SelSpec.wellformed_window (a, NSTUNSET) /\
  Forall (fun p => exists e, endtime Strict [] (pt_time p) (h_cnt (pt_hdr p)) (h_rate (pt_hdr p)) = Ok e /\
    ~ SelSpec.open (pt_time p) /\ ~ SelSpec.open e /\ pt_time p <= e /\ (is_A p = true <-> SelSpec.overlaps (pt_time p) e (a, NSTUNSET))) file_parts /\
  match read_timewin f_file [] (file_conf 259) byte_reads [102] a NSTUNSET tl_init [1; 1]%nat with
  | Ok (n, Some k, ptrs) => n = 0 /\ map p_off ptrs = [44; 44] /\ view (Ok k) = Ok file_view
  | _ => False
  end.
Proof.
  cbv zeta. split; [right; left; right; reflexivity|]. split; [|vm_compute; auto].
  assert (F : forall p e, endtime Strict [] (pt_time p) (h_cnt (pt_hdr p)) (h_rate (pt_hdr p)) = Ok e -> 0 <= pt_time p <= e ->
    is_A p = (1709168525000000000 <=? e) -> exists e, endtime Strict [] (pt_time p) (h_cnt (pt_hdr p)) (h_rate (pt_hdr p)) = Ok e /\
    ~ SelSpec.open (pt_time p) /\ ~ SelSpec.open e /\ pt_time p <= e /\ (is_A p = true <-> SelSpec.overlaps (pt_time p) e (1709168525000000000, NSTUNSET))).
  { intros p e E L K. exists e. split; [exact E|]. unfold SelSpec.open, NSTERROR, NSTUNSET in *. split; [lia|]. split; [lia|]. split; [lia|]. rewrite K, Z.leb_le.
    unfold SelSpec.overlaps, SelSpec.open. cbn [fst snd]. split.
    - intros H. exists e. split; [lia|]. split; [right; exact H|left; right; reflexivity].
    - intros (t & T & [[X|X]|X] & _); [discriminate X|discriminate X|]. eapply Z.le_trans; [exact X|]. apply T. }
  repeat (apply Forall_cons; [eapply F; [vm_compute; reflexivity|vm_compute; split; discriminate|vm_compute; reflexivity]|]). constructor.
Qed.

Example C56_reading_instance : (* f@48-: the bytes from 48 on *)
  let data := file_of file_parts [7; 7; 7] in
  exists q l k, stored_path 11 [102; 64; 52; 56; 45] = Ok ([102], 48, 0) /\ open_stream 11 [102; 64; 52; 56; 45] data = Ok ([102], q) /\
    read_all (S (length data)) (t_read (file_conf 11)) whole_reads q = Ok (l, 1) /\ map fst l = [96] /\
    add_all (t_conf (file_conf 11)) tl_init (combine (map (fun pm => trec_of (snd pm)) l) [1]%nat) = Ok k /\
    view (Ok k) = Ok [([88; 65], 1, 1, 1709168527000000000, 1709168530000000000, [(1709168527000000000, 1709168530000000000, 4, [5; 6; 7; 8])])] /\
    read_tracelist f_file [] (file_conf 11) whole_reads [102; 64; 52; 56; 45] tl_init [1]%nat = Ok (0, Some k, []).
Proof. cbv zeta. eexists _, _, _. split; [vm_compute; reflexivity|]. split; [vm_compute; reflexivity|]. split; [vm_compute; reflexivity|]. split; [vm_compute; reflexivity|].
  split; [vm_compute; reflexivity|]. split; vm_compute; reflexivity. Qed.

(** C56_same_samples needs the path to be the name of the file.  Read with a byte range,
    with "file://" or from standard input, the list and the number of entries are the same,
    but the samples cannot be unpacked later (fileutils.c:756 names the path as it was
    given, tracelist.c:1755 opens it with fopen). *)
Theorem C56_path_refuted : forall path stdin, In (path, stdin)
    [([102; 64; 48; 45; 57; 57; 57], []) (* f@0-999 *); ([102; 105; 108; 101; 58; 47; 47; 102], []) (* file://f *);
     ([45], file_of file_parts [7; 7; 7])] ->
  match read_tracelist f_file stdin (t_undecoded (file_conf 267)) whole_reads path tl_init [1; 1; 1]%nat with
  | Ok (n, Some k, ptrs) => n = 0 /\ map p_off ptrs = [44; 44] /\
      view (Ok k) = Ok [([88; 65], 1, 1, 1709168523000000000, 1709168530000000000, [(1709168523000000000, 1709168530000000000, 8, [])])] /\
      let s := mk_seg 1709168523000000000 1709168530000000000 (sampratehz 0x3FF0000000000000) 8 0 [] [] in
      unpack_recordlist false Strict true false s None (Some ptrs) = Ok (-1, [], s)
  | _ => False
  end.
Proof. intros path stdin [[= <- <-]|[[= <- <-]|[[= <- <-]|[]]]]; vm_compute; auto 10. Qed.
Print Assumptions C56_path_refuted.
