(** * C57: trace lists written to files.
    Vocabulary: WriteSpec.v, TlPackSpec.v (what can be packed), ReadSpec.v (files of records). *)

From Verif Require Import Base RecModel RecSpec PackSpec PackModel ReadModel ReadSpec TlModel TlSpec TlPackModel TlPackSpec PropRec PropTlPack FileModel FileSpec WriteSpec WriteProof.
Open Scope Z_scope.

(** A trace list written to a file: behind what it holds (nothing, if overwritten) it has
    the records of all segments, entry after entry; those of a segment are read as its
    identifier, version, rate, times and all its samples.  Their number is returned; the
    other files and the list are as before. *)
Theorem C57_written : forall mode2 F fs closed wrote e path overwrite reclen encoding flags k ids old, let o := write_opts (mk_popt reclen encoding None flags) in
  has_flag F 1 = true -> path <> [45] -> writes_all wrote -> starts_with fs overwrite path old ->
  has_flag flags MSF_PACKVER2 = false -> good_call e o -> tl_ids k = Ok ids ->
  Forall (fun t => good_id t /\ exists segs, tid_segs t = Ok segs /\ Forall (ready3 mode2 e o t) segs) ids ->
  exists w partss, write_tracelist fs true closed wrote e path overwrite reclen encoding flags k = Ok w /\
    let parts := concat (concat partss) in
    w_ret w = lenZ parts /\ w_files w path = Some (old ++ file_of parts []) /\ (forall name, name <> path -> w_files w name = fs name) /\ w_stdout w = [] /\ w_closed w = closed /\
    (exists p n k', w_packed w = Some p /\ p_done p = Some (n, k') /\ kept k k') /\
    Forall2 (fun t pss => exists segs, tid_segs t = Ok segs /\ Forall2 (written_as mode2 F (e_recip e) (e_leaps e) o t) segs pss) ids partss.
Proof. exact write_list. Qed.
Print Assumptions C57_written.

(** The same for standard output. *)
Theorem C57_stdout : forall mode2 F fs wrote e overwrite reclen encoding flags k ids, let o := write_opts (mk_popt reclen encoding None flags) in
  has_flag F 1 = true -> writes_all wrote -> has_flag flags MSF_PACKVER2 = false -> good_call e o -> tl_ids k = Ok ids ->
  Forall (fun t => good_id t /\ exists segs, tid_segs t = Ok segs /\ Forall (ready3 mode2 e o t) segs) ids ->
  exists w partss, write_tracelist fs true false wrote e [45] overwrite reclen encoding flags k = Ok w /\
    let parts := concat (concat partss) in
    w_ret w = lenZ parts /\ w_stdout w = file_of parts [] /\ (forall name, w_files w name = fs name) /\ w_closed w = true /\
    (exists p n k', w_packed w = Some p /\ p_done p = Some (n, k') /\ kept k k') /\
    Forall2 (fun t pss => exists segs, tid_segs t = Ok segs /\ Forall2 (written_as mode2 F (e_recip e) (e_leaps e) o t) segs pss) ids partss.
Proof. exact write_out. Qed.
Print Assumptions C57_stdout.

(** Reading the file afterwards, however its bytes arrive, returns the records that were
    there and then these, and the trace list read from it is the one made by adding them. *)
Theorem C57_read_back : forall fs stdin closed wrote e path overwrite reclen encoding flags k ids parts0 x sch,
  let o := write_opts (mk_popt reclen encoding None flags) in let g := t_read x in
  path <> [45] -> lenZ path < 512 -> ~ has_colon path -> no_range (g_flags g) path -> has_flag (g_flags g) 1 = true -> g_hb g = false -> g_select g = None -> delivers sch ->
  writes_all wrote -> starts_with fs overwrite path (file_of parts0 []) ->
  Forall (fun x => ReadSpec.readable (g_mode g) (g_flags g) x /\ pt_junk x = []) parts0 ->
  has_flag flags MSF_PACKVER2 = false -> good_call e o -> tl_ids k = Ok ids ->
  Forall (fun t => good_id t /\ exists segs, tid_segs t = Ok segs /\ Forall (ready3 (g_mode g) e o t) segs) ids ->
  exists w partss, write_tracelist fs true closed wrote e path overwrite reclen encoding flags k = Ok w /\
    Forall2 (fun t pss => exists segs, tid_segs t = Ok segs /\ Forall2 (written_as (g_mode g) (g_flags g) (e_recip e) (e_leaps e) o t) segs pss) ids partss /\
    let parts := parts0 ++ concat (concat partss) in
    (parts <> [] -> lenZ (file_of parts []) < 2 ^ 63 ->
     read_all (S (length (file_of parts []))) g sch (opened (file_of parts []) 0 0) = Ok (map (fun px => (fst px, part_rec (snd px))) (contents 0 parts), 1) /\
     forall heights k', (length parts <= length heights)%nat ->
       add_all (t_conf x) tl_init (combine (map (fun x => trec_of (part_rec x)) parts) heights) = Ok k' ->
       exists ptrs, read_tracelist (w_files w) stdin x sch path tl_init heights = Ok (0, Some k', ptrs)).
Proof. exact written_read. Qed.
Print Assumptions C57_read_back.

(** A single record structure, split into records: with MSF_FLUSHDATA all samples are
    written, otherwise those of full records. *)
Theorem C57_record : forall mode2 F fs closed wrote e path overwrite flags m type src old, let next := next_start (e_mode e) (e_leaps e) m in
  has_flag F 1 = true -> path <> [45] -> writes_all wrote -> starts_with fs overwrite path old ->
  m_fver m <> 2 -> has_flag flags MSF_PACKVER2 = false ->
  msr_ok (e_recip e) m -> lenZ (m_sid m) < 64 -> Forall (fun b => b <> 0) (m_sid m) -> Forall (fun b => b <> 0) (m_extra m) ->
  packable (e_mode e) (encoding_of m) type src -> packable mode2 (encoding_of m) type src -> src <> [] -> lenZ src < 2 ^ 31 -> lenZ src < Z.of_nat (e_fuel e) ->
  (forall k, 0 <= k < lenZ src -> readable_time (record_time next m k)) ->
  bytes_ok (e_alloc e) -> maxlen m <= lenZ (e_alloc e) -> reclen_ok m -> hdrlen m + min_payload (encoding_of m) <= maxlen m -> storable (encoding_of m) src ->
  exists w parts chunks, write_record fs true closed wrote e path overwrite flags m type src = Ok w /\
    w_ret w = lenZ parts /\ w_files w path = Some (old ++ file_of parts []) /\ (forall name, name <> path -> w_files w name = fs name) /\
    Forall (fun x => ReadSpec.readable mode2 F x /\ pt_junk x = []) parts /\
    (exists n, concat chunks = firstn n src /\ (has_flag flags 64 = true -> concat chunks = src)) /\
    in_turn (fun k c x => c <> [] /\ exists len crc datalen, len <= maxlen m /\
      part_rec x = mk_msr len false (is_steim (encoding_of m)) 3 (m_flags m) (m_sid m) (record_time next m k) (rate_of (e_recip e) m) (encoding_of m) (m_pub m) (lenZ c) crc
                          (m_extra m) datalen (Some (SInt c))) 0 parts chunks.
Proof. exact write_one. Qed.
Print Assumptions C57_record.

(** A file that cannot be opened: -1, and nothing is changed. *)
Theorem C57_unopened : forall fs closed wrote e path overwrite reclen encoding flags k, path <> [45] ->
  write_tracelist fs false closed wrote e path overwrite reclen encoding flags k = Ok (mk_written (-1) fs [] closed None).
Proof. intros fs closed wrote e path overwrite reclen encoding flags k N. unfold write_tracelist, write_with. now rewrite (FileProof.match_minus _ _ _ N). Qed.
Print Assumptions C57_unopened.

(** The list of PropTlPack.v, written to a file "f" that holds a record already. *)
Definition no_files : files := fun _ => None.
Definition old_hdr : hdr := mk_hdr 4 0 2024 60 1 2 3 0 0x3FF0000000000000 2 0 1 [88; 66] [] [5; 6].
Definition old_part : part := mk_part [] old_hdr 1709168523000000000 (Some (SInt [5; 6])).
Definition f_old : files := fun n => if list_eq_dec Z.eq_dec n [102] then Some (layout3 old_hdr) else None.
Definition big_writes : nat -> nat := fun _ => Z.to_nat 10485760.
Definition back_conf : tconf := mk_tconf (mk_rconf (fun _ _ => Err (-1)) false Strict 0 1 None) [] None None true.

Example C57_instance :
  writes_all big_writes /\ starts_with f_old false [102] (file_of [old_part] []) /\ ReadSpec.readable Strict 1 old_part /\
  good_call env0 (write_opts (mk_popt 128 3 None 0)) /\ tl_ids list0 = Ok ids0 /\
  Forall (fun t => good_id t /\ exists segs, tid_segs t = Ok segs /\ Forall (ready3 Strict env0 (write_opts (mk_popt 128 3 None 0)) t) segs) ids0.
Proof.
  destruct C51_instance as (A & B & C). split; [intros i; unfold big_writes; lia|]. split; [left; reflexivity|]. split; [|auto].
  unfold ReadSpec.readable. cbn [pt_junk pt_hdr pt_time pt_data old_part]. split; [constructor|]. split.
  { unfold hdr_ok, in_u, bytes_ok; cbn; repeat split; try lia; repeat constructor; lia. }
  split; [reflexivity|]. split; [intros X; discriminate X|]. split; [vm_compute; reflexivity|]. split; [discriminate|]. split; [reflexivity|]. split; [reflexivity|].
  intros addr; unfold unpack_data.
  match goal with |- context [data_bounds ?a ?b ?c] => let x := eval vm_compute in (data_bounds a b c) in assert (DB : data_bounds a b c = x) by (vm_compute; reflexivity) end.
  rewrite DB. cbn [bind]. match goal with |- context [encoding_sizetype ?x] => change (encoding_sizetype x) with (Some (1, 116)) end.
  cbv iota beta. rewrite Z.mod_1_r. vm_compute. reflexivity.
Qed.

(** What is read back: the two segments of the first entry (16 and 4, and one sample per
    record), the second entry without samples, and the record that was there. *)
Definition short_view (k : tlist) : option (list (list Z * Z * list (Z * Z * list Z))) :=
  match tl_ids k with
  | Ok l => Some (map (fun t => (t_sid t, t_pub t, match tid_segs t with Ok ss => map (fun s => (s_start s, s_end s, s_data s)) ss | _ => [] end)) l)
  | _ => None
  end.
Example C57_run :
  match write_tracelist f_old true false (fun _ => 200%nat) env0 [102] false 128 3 0 list0 with
  | Ok w => w_ret w = 4 /\
    match read_tracelist (w_files w) [] back_conf whole_reads [102] tl_init (repeat 1%nat 5) with
    | Ok (c, Some k, ptrs) => c = 0 /\ ptrs = [] /\ short_view k =
        Some [(codes_sid ka, 1, [(t0, 1580552436456790122, [1; 2; 3; 4; 5; 6; 7; 8; 9; 10; 11; 12; 13; 14; 15; 16; -17; -18; 19; 20]); (t0 + 50000000000, t0 + 50000000000, [7])]);
              (codes_sid kb, 1, [(t0, t0, [])]);
              ([88; 66], 1, [(1709168523000000000, 1709168524000000000, [5; 6])])]
    | _ => False
    end
  | _ => False
  end.
Proof. vm_compute. split; [reflexivity|]. split; [reflexivity|]. split; [reflexivity|]. reflexivity. Qed.

(** C57 fails when a write fails: ms_record_handler_int only logs it (fileutils.c:868-871),
    and the number returned counts the records that were not written. *)
Theorem C57_failed_write_refuted :
  match write_tracelist no_files true false (fun _ => 0%nat) env0 [102] true 128 3 0 list0 with
  | Ok w => w_ret w = 4 /\ w_files w [102] = Some []
  | _ => False
  end.
Proof. vm_compute. auto. Qed.
Print Assumptions C57_failed_write_refuted.

(** Standard output is closed afterwards (fileutils.c:935, 1001): another call writes to a
    closed stream. *)
Theorem C57_stdout_twice_refuted :
  match write_tracelist no_files true false (fun _ => 200%nat) env0 [45] true 128 3 0 list0 with
  | Ok w => w_ret w = 4 /\ write_tracelist no_files true (w_closed w) (fun _ => 200%nat) env0 [45] true 128 3 0 list0 = UB BadFree
  | _ => False
  end.
Proof. vm_compute. auto. Qed.
Print Assumptions C57_stdout_twice_refuted.

(** A single record structure of 20 samples, without MSF_FLUSHDATA: the last four are not
    written. *)
Definition one_msr : msr := mk_msr 128 false false 3 0 (codes_sid ka) t0 0x4008000000000000 3 1 20 0 [] 0 None.
Definition one_data : list Z := [1; 2; 3; 4; 5; 6; 7; 8; 9; 10; 11; 12; 13; 14; 15; 16; 17; 18; 19; 20].
Example C57_record_run :
  match write_record no_files true false (fun _ => 200%nat) env0 [102] true 0 one_msr 105 one_data, write_record no_files true false (fun _ => 200%nat) env0 [102] true 64 one_msr 105 one_data with
  | Ok w, Ok w' => w_ret w = 1 /\ w_ret w' = 2 /\
    match w_files w [102], w_files w' [102] with Some a, Some b => lenZ a = 125 /\ a = firstn 125 b /\ lenZ b = 202 | _, _ => False end
  | _, _ => False
  end.
Proof. vm_compute. auto 10. Qed.

Example C57_record_instance :
  msr_ok (e_recip env0) one_msr /\ packable Strict (encoding_of one_msr) 105 one_data /\ lenZ one_data < Z.of_nat (e_fuel env0) /\
  (forall k, 0 <= k < lenZ one_data -> readable_time (record_time (next_start Strict [] one_msr) one_msr k)) /\
  maxlen one_msr <= lenZ (e_alloc env0) /\ reclen_ok one_msr /\ hdrlen one_msr + min_payload (encoding_of one_msr) <= maxlen one_msr /\ storable (encoding_of one_msr) one_data.
Proof.
  split.
  { unfold msr_ok. change (rate_of (e_recip env0) one_msr) with 4613937818241073152. unfold in_u, in_s. cbn [one_msr m_flags m_start m_pub m_sid m_extra]. unfold t0.
    split; [lia|]. split; [lia|]. split; [lia|]. split; [lia|]. split; [apply (range_all _ 0 255); [unfold byte_ok; lia|reflexivity]|]. split; [reflexivity|]. split; [constructor|reflexivity]. }
  split. { right; right; left. split; [reflexivity|]. split; [reflexivity|]. apply (range_all _ (-100) 100); [unfold in_s; lia|reflexivity]. }
  split; [reflexivity|]. split.
  { assert (E : forallb (fun k => let t := record_time (next_start Strict [] one_msr) one_msr k in (t0 <=? t) && (t <=? t0 + 10000000000)) (map Z.of_nat (seq 0 20)) = true) by (vm_compute; reflexivity).
    rewrite forallb_forall in E. intros k Hk. change (lenZ one_data) with 20 in Hk. specialize (E k). cbv zeta in E.
    assert (I : In k (map Z.of_nat (seq 0 20))) by (apply in_map_iff; exists (Z.to_nat k); split; [lia|]; apply in_seq; lia).
    specialize (E I). apply andb_prop in E. destruct E as [E1 E2]. apply Z.leb_le in E1, E2. unfold t0 in *. unfold readable_time, in_s, NSTERROR. lia. }
  split; [vm_compute; discriminate|]. split; [right; cbn; lia|]. split; [vm_compute; discriminate|]. intros H. discriminate.
Qed.
