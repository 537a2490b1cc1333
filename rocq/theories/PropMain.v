(** * C61: the inspector as a whole.
    Vocabulary: MainSpec.v (inputs, the records processed, the outputs), CliSpec.v (filters),
    ReadSpec.v and FileSpec.v (files of records), C60 (the text of a record). *)

From Coq Require Import String.
From Verif Require Import Base BaseLemmas TimeModel TimeStrModel RecModel RecSpec ReadModel ReadSpec PropRead TlModel PropTl BufModel CliModel CliSpec
  FileModel FileSpec PropBuf PropFile ShowModel MainModel MainSpec MainProof.
Open Scope Z_scope.
Open Scope list_scope.

(** ** C61 *)

(** Files of records with right checksums: the exit status is 0.  The records that are
    processed are the first (at most those asked for with -n) of all that pass the filters, in the
    order of the files.  Printed are their texts (none with -tgo) and then the totals; the -o
    file has their bytes, the binary file their samples, and the trace list is made of them. *)
Theorem C61_run : forall fs stdin n i heights ts te m rj keep data text xs, good_run fs stdin n i heights ts te m rj keep data text xs ->
  let done := processed i keep xs in
  exists s, main_run fs stdin n i heights (map (fun x => (in_path x, in_sch x)) xs) = Ok (0, s) /\
    output n i heights data text done (if i_sum i then totals (lenZ xs) (lenZ done) (samples_in done) else []) s.
Proof. exact run_good. Qed.
Print Assumptions C61_run.

(** A path that stands for nothing, while more records are wanted: the exit status is 1.  All that came before
    is in the outputs; there are no totals, and the other paths make no difference. *)
Theorem C61_stop : forall fs stdin n i heights ts te m rj keep data text xs path sch others, good_run fs stdin n i heights ts te m rj keep data text xs ->
  nothing fs (main_flags i) path -> let done := processed i keep xs in i_count i < 0 \/ lenZ done < i_count i ->
  exists s, main_run fs stdin n i heights (map (fun x => (in_path x, in_sch x)) xs ++ (path, sch) :: others) = Ok (1, s) /\
    output n i heights data text done [] s.
Proof. exact run_stop. Qed.
Print Assumptions C61_stop.

(** With as many records as asked for, another path adds nothing, whether it exists or not; but the
    totals count it as a file. *)
Theorem C61_enough : forall fs stdin n i heights ts te m rj keep data text xs path sch, good_run fs stdin n i heights ts te m rj keep data text xs ->
  let done := processed i keep xs in i_count i = lenZ done -> lenZ xs + 1 < 2 ^ 63 ->
  exists s, main_run fs stdin n i heights (map (fun x => (in_path x, in_sch x)) xs ++ [(path, sch)]) = Ok (0, s) /\
    output n i heights data text done (if i_sum i then totals (lenZ xs + 1) (lenZ done) (samples_in done) else []) s.
Proof. exact run_enough. Qed.
Print Assumptions C61_enough.

(** The -o file, read in the same way (and without offsets), gives the same texts, samples and
    traces, and the same file again; the totals are those of one file. *)
Theorem C61_again : forall fs stdin n i heights ts te m rj keep data text xs, good_run fs stdin n i heights ts te m rj keep data text xs ->
  let done := processed i keep xs in done <> [] -> i_offset i = false ->
  let copy := concat (map (fun px => layout3 (pt_hdr (snd px))) done) in lenZ copy < 2 ^ 63 ->
  forall fs' stdin' out sch, holds fs' stdin' (main_flags i) out copy -> delivers sch ->
  exists s', main_run fs' stdin' n i heights [(out, sch)] = Ok (0, s') /\
    output n i heights data text done (if i_sum i then totals 1 (lenZ done) (samples_in done) else []) s'.
Proof. exact run_again. Qed.
Print Assumptions C61_again.

(** ** An instance

    Two files: "f" with the records XA (abcd, 01:02:03 to 01:02:06), XB (xy, 01:02:03 and 01:02:04) and, after two other bytes,
    XA (efgh, from 01:02:07 on); "g" with XA (ijkl, from 01:02:11 on).  Wanted are two records from 01:02:05 on. *)
Definition main_hdr (id sec : Z) (d : list Z) : hdr := let h := buf_hdr id sec d in with_crc h (crc3 h).
Definition main_part (junk : list Z) (id sec : Z) (d : list Z) : part :=
  mk_part junk (main_hdr id sec d) (1709168520000000000 + sec * 1000000000) None.
Definition f_parts : list part := [main_part [] 65 3 (zs "abcd"); main_part [] 66 3 (zs "xy"); main_part [122; 122] 65 7 (zs "efgh")].
Definition g_parts : list part := [main_part [] 65 11 (zs "ijkl")].
Definition main_inputs : list input := [mk_input [102] byte_reads f_parts [7; 7; 7]; mk_input [103] whole_reads g_parts []].
Definition main_files : files :=
  fun name => if list_eq_dec Z.eq_dec name [102] then Some (file_of f_parts [7; 7; 7])
              else if list_eq_dec Z.eq_dec name [103] then Some (file_of g_parts []) else None.
Definition main_env : menv := mk_menv no_unpack2 false Strict 0 [] (fun _ => zs "1") (fun _ => []) (fun _ => []) None None false.
Definition main_set (count : Z) : mset :=
  mk_mset (settings_of 1709168525000000000 NSTERROR None None) count true false 0 2 true false true true.
Definition main_data (x : part) : res samples := Ok (SInt (h_payload (pt_hdr x))).
Definition main_text (px : Z * part) : list Z :=
  match show_record Strict (fun _ => zs "1") (fun _ => []) (fun _ => []) None None 0 2
    (type_of (h_enc (pt_hdr (snd px)))) (part_head (snd px)) (main_data (snd px)) with Ok t => t | _ => [] end.

Lemma main_readable flags : has_flag flags 1 = false -> Forall (ReadSpec.readable Strict flags) (f_parts ++ g_parts).
Proof.
  intros F1. unfold f_parts, g_parts. cbn [app].
  repeat (apply Forall_cons; [|]); [| | | |constructor];
    (unfold ReadSpec.readable, hdr_ok, in_u, bytes_ok; split; [repeat constructor; cbn; lia|]; split;
     [vm_compute; repeat split; try discriminate; repeat constructor; discriminate|]; split; [reflexivity|]; split; [intros _; vm_compute; reflexivity|];
     split; [vm_compute; reflexivity|]; split; [vm_compute; discriminate|left; exact F1]).
Qed.

Lemma main_samples : Forall (fun x => has_samples Strict x (main_data x)) (f_parts ++ g_parts).
Proof.
  unfold f_parts, g_parts. cbn [app]. repeat (apply Forall_cons; [|]); [| | | |constructor];
  (split; [|left; eexists; reflexivity]; intros addr; unfold unpack_data;
     match goal with |- context [data_bounds ?a ?b ?c] => let x := eval vm_compute in (data_bounds a b c) in assert (DB : data_bounds a b c = x) by (vm_compute; reflexivity) end;
     rewrite DB; cbn [bind];
     match goal with |- context [encoding_sizetype ?x] => change (encoding_sizetype x) with (Some (1, 116)) end;
     cbv iota beta; rewrite Z.mod_1_r; vm_compute; reflexivity).
Qed.

Example C61_instance : good_run main_files [] main_env (main_set 2) [1; 1]%nat 1709168525000000000 NSTERROR None None is_A main_data main_text main_inputs.
Proof.
  assert (NR : forall p, ~ In 64 p -> no_range 14 p).
  { intros p N. right. intros pre t a b ->. exfalso. apply N. apply in_or_app. right. left. reflexivity. }
  assert (NC : forall p, ~ In 58 p -> ~ has_colon p).
  { intros p N (a & b & ->). apply N. apply in_or_app. right. left. reflexivity. }
  assert (N : forall r, nth 0 r 0 = 7 \/ nth 0 r 0 = 122 -> ~ signature3 r /\ ~ signature2 r).
  { intros r H. split; intros [X _]; [lia|]. specialize (X 0%nat ltac:(lia)). lia. }
  pose proof (main_readable 14 eq_refl) as R. rewrite Forall_app in R. destruct R as (R1 & R2).
  split; [repeat split; discriminate|]. split; [|split; [|split; [repeat split; vm_compute; reflexivity|]]].
  - change (main_flags (main_set 2)) with 14. constructor; [|constructor; [|constructor]]; unfold good_input; cbn [in_path in_sch in_parts in_rest main_inputs].
    + split; [apply h_file; [apply NR; cbn; lia|reflexivity|discriminate|apply NC; cbn; lia|reflexivity]|]. split; [exact byte_delivers|]. split; [exact R1|].
      split; [repeat constructor; lia|]. split; [|split; [left; reflexivity|split; [vm_compute; reflexivity|discriminate]]].
      cbn [junk_ok f_parts]. split; [intros j Hj; cbn in Hj; lia|]. split; [intros j Hj; cbn in Hj; lia|]. split.
      * intros j Hj. apply N. right. do 2 (destruct j as [|j]; [reflexivity|]). cbn in Hj. lia.
      * intros j Hj. apply N. left. do 3 (destruct j as [|j]; [reflexivity|]). cbn in Hj. lia.
    + split; [apply h_file; [apply NR; cbn; lia|reflexivity|discriminate|apply NC; cbn; lia|reflexivity]|]. split; [exact whole_delivers|]. split; [exact R2|].
      split; [constructor|]. split; [|split; [left; reflexivity|split; [vm_compute; reflexivity|discriminate]]].
      cbn [junk_ok g_parts]. split; intros j Hj; cbn in Hj; lia.
  - pose proof main_samples as HS. unfold f_parts, g_parts in HS. cbn [app] in HS.
    inversion HS as [|? ? H1 HS1]; subst. inversion HS1 as [|? ? H2 HS2]; subst. inversion HS2 as [|? ? H3 HS3]; subst. inversion HS3 as [|? ? H4 _]; subst.
    unfold all_records, main_inputs, f_parts, g_parts. cbn [flat_map in_parts contents app].
    assert (FX : forall px e, has_samples Strict (snd px) (main_data (snd px)) ->
      SampleModel.endtime Strict [] (pt_time (snd px)) (h_cnt (pt_hdr (snd px))) (h_rate (pt_hdr (snd px))) = Ok e -> pt_time (snd px) <= e ->
      is_A (snd px) = (1709168525000000000 <=? e) -> text_is main_env (main_set 2) (main_data (snd px)) px (main_text px) ->
      record_facts main_env (main_set 2) 1709168525000000000 NSTERROR None None is_A main_data main_text px).
    { intros px e HX E1 E2 E3 E4. split; [exists e; split; [exact E1|split; [exact E2|]]|split; [exact HX|intros _; exact E4]].
      rewrite E3, Z.leb_le. unfold passes, in_limits. cbn [seen c_end]. split.
      - intros L. split; [split; [right; exact L|left; reflexivity]|]. split; discriminate.
      - intros (([X|X] & _) & _); [discriminate X|exact X]. }
    apply Forall_cons; [eapply FX; [exact H1|vm_compute; reflexivity|vm_compute; discriminate|vm_compute; reflexivity|vm_compute; reflexivity]|].
    apply Forall_cons; [eapply FX; [exact H2|vm_compute; reflexivity|vm_compute; discriminate|vm_compute; reflexivity|vm_compute; reflexivity]|].
    apply Forall_cons; [eapply FX; [exact H3|vm_compute; reflexivity|vm_compute; discriminate|vm_compute; reflexivity|vm_compute; reflexivity]|].
    apply Forall_cons; [eapply FX; [exact H4|vm_compute; reflexivity|vm_compute; discriminate|vm_compute; reflexivity|vm_compute; reflexivity]|constructor].
  - intros _. eexists. split; [vm_compute; lia|]. vm_compute. reflexivity.
Qed.

(** What comes out, and what the copy gives. *)
Example C61_run_instance :
  match main_run main_files [] main_env (main_set 2) [1; 1]%nat (map (fun x => (in_path x, in_sch x)) main_inputs) with
  | Ok (rc, s) => rc = 0 /\ v_bin s = zs "abcdefgh" /\
      v_text s = zs "XA, 1, 48, 4 samples, 1 Hz, 2024-02-29T01:02:03.000000Z (060)" ++ [10] ++ zs "Text Data:" ++ [10] ++ zs "abcd" ++ [10]
                 ++ zs "XA, 1, 48, 4 samples, 1 Hz, 2024-02-29T01:02:07.000000Z (060)" ++ [10] ++ zs "Text Data:" ++ [10] ++ zs "efgh" ++ [10]
                 ++ zs "Files: 2, Records: 2, Samples: 8" ++ [10]
  | _ => False
  end.
Proof. vm_compute. auto. Qed.

Example C61_stop_instance : (* four records wanted: after "f" the path "h", which stands for nothing *)
  nothing main_files (main_flags (main_set 4)) [104] /\ lenZ (processed (main_set 4) is_A (firstn 1 main_inputs)) = 2 /\
  match main_run main_files [] main_env (main_set 4) [1; 1]%nat [([102], byte_reads); ([104], byte_reads); ([103], whole_reads)] with
  | Ok (rc, s) => rc = 1 /\ v_bin s = zs "abcdefgh" /\ lenZ (v_text s) = 156
  | _ => False
  end.
Proof.
  split; [|split; vm_compute; auto]. apply n_file; try reflexivity; [|discriminate|].
  - right. intros pre t a b E. destruct pre as [|? [|]]; discriminate.
  - intros (a & b & E). destruct a as [|? [|]]; discriminate.
Qed.

Example C61_again_instance : (* the copy of the run above, in a file "o" *)
  let copy := concat (map (fun px => layout3 (pt_hdr (snd px))) (processed (main_set 2) is_A main_inputs)) in
  processed (main_set 2) is_A main_inputs <> [] /\ i_offset (main_set 2) = false /\ lenZ copy = 96 /\ holds (one_file [111] copy) [] 14 [111] copy /\
  match main_run main_files [] main_env (main_set 2) [1; 1]%nat (map (fun x => (in_path x, in_sch x)) main_inputs),
        main_run (one_file [111] copy) [] main_env (main_set 2) [1; 1]%nat [([111], whole_reads)] with
  | Ok (rc, s), Ok (rc', s') => st_out (v_cli s) = copy /\ st_out (v_cli s') = copy /\ v_bin s' = v_bin s /\ v_traces s' = v_traces s /\
      firstn 156 (v_text s') = firstn 156 (v_text s) /\ skipn 156 (v_text s') = zs "Files: 1, Records: 2, Samples: 8" ++ [10]
  | _, _ => False
  end.
Proof.
  cbv zeta. split; [vm_compute; discriminate|]. split; [reflexivity|]. split; [vm_compute; reflexivity|]. split; [|vm_compute; auto 10].
  apply h_file; try reflexivity; [|discriminate|].
  - right. intros pre t a b E. destruct pre as [|? [|]]; discriminate.
  - intros (a & b & E). destruct a as [|? [|]]; discriminate.
Qed.

(** "The number of files in the totals is that of the files read" is false: with enough records
    from the first, a path that stands for nothing is counted, and the exit status is 0. *)
Theorem C61_files_refuted : ~ (forall fs stdin n i heights paths s, main_run fs stdin n i heights paths = Ok (0, s) ->
  Forall (fun p => exists data, fs (fst p) = Some data) (firstn (Z.to_nat (st_files (v_cli s))) paths)).
Proof.
  intros H.
  destruct (main_run main_files [] main_env (main_set 2) [1; 1]%nat [([102], byte_reads); ([104], byte_reads)]) as [[rc s]| | |] eqn:E;
    try (vm_compute in E; discriminate E).
  assert (rc = 0 /\ st_files (v_cli s) = 2) as (-> & F).
  { assert (X : match main_run main_files [] main_env (main_set 2) [1; 1]%nat [([102], byte_reads); ([104], byte_reads)] with
       Ok (rc, s) => rc = 0 /\ st_files (v_cli s) = 2 | _ => False end) by (vm_compute; auto). rewrite E in X. exact X. }
  specialize (H _ _ _ _ _ _ _ E). rewrite F in H. inversion H as [|? ? _ H']; subst. inversion H' as [|? ? (d & H'') _]; subst. discriminate H''.
Qed.
Print Assumptions C61_files_refuted.
