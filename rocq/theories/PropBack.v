(** * C59: a trace list written to a file and read back is the same list.
    Vocabulary: BackSpec.v, TlPackSpec.v (what can be packed), WriteSpec.v. *)

From Verif Require Import Base RecModel RecSpec PackSpec PackModel ReadModel ReadSpec SampleProof TlModel TlSpec TlPackModel TlPackSpec PropTl PropTlPack FileModel FileSpec WriteSpec PropWrite
  BackSpec BackProof.
Open Scope Z_scope.

(** ** C59 *)

(** A list of entries with one sampling rate each (1 to 200000 samples per second) and
    segments in order, with samples, separated by at least one and a half sample periods
    and free of leap seconds, is written to a file that is then read back with the default
    tolerances, however its bytes arrive: the list read has the same entries in the same
    order, with the same segments: start, samples, type, rate, and the end up to rounding. *)
Theorem C59_back : forall fs closed wrote e path overwrite reclen encoding flags k ids segss x sch type_of,
  let o := write_opts (mk_popt reclen encoding None flags) in let g := t_read x in
  path <> [45] -> lenZ path < 512 -> ~ has_colon path -> no_range (g_flags g) path -> has_flag (g_flags g) 1 = true -> g_hb g = false -> g_select g = None -> delivers sch ->
  g_mode g = Strict -> t_ttol x = None -> t_rtol x = None ->
  writes_all wrote -> starts_with fs overwrite path [] -> has_flag flags MSF_PACKVER2 = false -> good_call e o ->
  tl_ids k = Ok ids -> ids <> [] -> Forall2 (fun t segs => tid_segs t = Ok segs) ids segss -> Forall good_id ids ->
  Forall2 (fun t segs => Forall (ready3 Strict e o t) segs /\ regular (e_leaps e ++ t_leaps x) type_of t segs) ids segss ->
  ids_sorted (t_conf x) ids -> (t_split x = true -> Forall (fun t => 0 < t_pub t) ids) ->
  TlSpec.sum (map (fun s => lenZ (s_data s)) (concat segss)) < 2 ^ 63 ->
  exists w data, write_tracelist fs true closed wrote e path overwrite reclen encoding flags k = Ok w /\ w_files w path = Some data /\
    (lenZ data < 2 ^ 63 -> forall stdin heights, Forall valid_height heights -> w_ret w <= lenZ heights ->
     exists k' ptrs, read_tracelist (w_files w) stdin x sch path tl_init heights = Ok (0, Some k', ptrs) /\ list_back ids segss k').
Proof. exact written_back. Qed.
Print Assumptions C59_back.

(** Two entries of 3 samples per second: two segments, the first of them written as two
    records, and one segment. *)
Definition data_a : list Z := [1; 2; 3; 4; 5; 6; 7; 8; 9; 10; 11; 12; 13; 14; 15; 16; -17; -18; 19; 20].
Definition full_adds : list (trec * nat) := [(rec0 ka t0 data_a, 1%nat); (rec0 ka (t0 + 50000000000) [7], 1%nat); (rec0 kb t0 [5; 6], 2%nat)].
Definition full : tlist := built full_adds.
Definition full_segs : list (list seg) :=
  [[mk_seg t0 1580552436456790122 (DFin q3) 20 105 data_a []; mk_seg (t0 + 50000000000) (t0 + 50000000000) (DFin q3) 1 105 [7] []];
   [mk_seg t0 (t0 + 333333333) (DFin q3) 2 105 [5; 6] []]].
Definition back_leaps : tconf := mk_tconf (mk_rconf (fun _ _ => Err (-1)) false Strict 0 1 None) embedded_leaps None None true.

Lemma full_ids : exists a b, tl_ids full = Ok [a; b] /\ t_sid a = codes_sid ka /\ t_sid b = codes_sid kb /\ t_pub a = 1 /\ t_pub b = 1 /\
  Forall2 (fun t segs => tid_segs t = Ok segs) [a; b] full_segs.
Proof.
  assert (E : views full = Some [(codes_sid ka, 1, Ok (nth 0 full_segs [])); (codes_sid kb, 1, Ok (nth 1 full_segs []))]) by (vm_compute; reflexivity).
  unfold views in E. destruct (tl_ids full) as [l| | |]; try discriminate. destruct l as [|a [|b [|c l]]]; try discriminate. cbn [map] in E. unfold PropTlPack.view in E.
  exists a, b. split; [reflexivity|]. injection E as E1 E2 E3 E4 E5 E6. repeat (split; [assumption|]). constructor; [exact E3|]. constructor; [exact E6|constructor].
Qed.

Example C59_instance : exists ids, tl_ids full = Ok ids /\ Forall2 (fun t segs => tid_segs t = Ok segs) ids full_segs /\ Forall good_id ids /\ good_call env0 (write_opts (mk_popt 128 3 None 0)) /\
  Forall2 (fun t segs => Forall (ready3 Strict env0 (write_opts (mk_popt 128 3 None 0)) t) segs /\ regular (e_leaps env0 ++ t_leaps back_leaps) (fun _ => 105) t segs) ids full_segs /\
  ids_sorted (t_conf back_leaps) ids /\ Forall (fun t => 0 < t_pub t) ids.
Proof.
  destruct full_ids as (a & b & E & Sa & Sb & Pa & Pb & F). exists [a; b]. split; [exact E|]. split; [exact F|]. destruct C51_instance as (_ & GC & _).
  assert (G : forall t s e d, (t_sid t = codes_sid ka \/ t_sid t = codes_sid kb) -> t0 <= s <= t0 + 50000000000 -> lenZ d <= 20 -> in_range (-100) 100 d = true ->
    ready3 Strict env0 (write_opts (mk_popt 128 3 None 0)) t (mk_seg s e (DFin q3) (lenZ d) 105 d [])).
  { intros t s e d St Hs Ld Rg. unfold t0 in Hs. assert (L0 : 0 <= lenZ d) by (unfold lenZ; lia). split.
    { exists (3%Q), q3. split; [reflexivity|]. split; [reflexivity|]. split; [reflexivity|]. cbn [s_data].
      eapply Qle_trans; [apply (exact_span_mono _ 20); [discriminate|lia]|vm_compute; discriminate]. }
    cbn [s_start s_cnt s_data s_type]. unfold NSTERROR. split; [lia|]. split; [lia|].
    assert (P : packable Strict 3 105 d) by (right; right; left; split; [reflexivity|]; split; [reflexivity|]; eapply range_all; [|exact Rg]; unfold in_s; lia).
    change (encoding_of _) with 3. split; [exact P|]. split; [exact P|]. split; [intros H; discriminate|]. split; [lia|]. split; [change (Z.of_nat (e_fuel env0)) with 30; lia|].
    unfold hdrlen, maxlen. cbn [wanted m_sid m_extra m_reclen]. destruct St as [->| ->]; vm_compute; discriminate. }
  assert (ST : forall s e d, d <> [] -> t0 <= s <= t0 + 50000000000 -> lenZ d <= 20 -> steady (e_leaps env0 ++ t_leaps back_leaps) q3 (mk_seg s e (DFin q3) (lenZ d) 105 d [])).
  { intros s e d Nd Hs Ld. unfold t0 in Hs. assert (L0 : 0 <= lenZ d) by (unfold lenZ; lia). split; [exact Nd|]. split; [reflexivity|]. cbn [s_start s_data]. split; [lia|]. split.
    - eapply Qle_trans; [apply (exact_span_mono _ 20); [discriminate|lia]|vm_compute; discriminate].
    - apply Forall_forall. intros l Hl. left. assert (A : Forall (fun l => l <= t0) embedded_leaps) by (repeat constructor; vm_compute; discriminate). rewrite Forall_forall in A. specialize (A l Hl). unfold t0 in A. lia. }
  assert (I : forall t, (t_sid t = codes_sid ka \/ t_sid t = codes_sid kb) -> t_pub t = 1 -> good_id t).
  { intros t Si Pt. unfold good_id. rewrite Pt. destruct Si as [->| ->]; (split; [apply (range_all _ 0 255); [unfold byte_ok; lia|reflexivity]|]; split; [reflexivity|]; split; [apply (range_all _ 1 255); [lia|reflexivity]|unfold in_u; lia]). }
  split; [constructor; [auto|constructor; [auto|constructor]]|]. split; [exact GC|]. split; [|split].
  - constructor; [|constructor; [|constructor]].
    + split; [constructor; [|constructor; [|constructor]]|].
      * apply (G a t0 _ data_a); auto; [lia|vm_compute; discriminate].
      * apply (G a (t0 + 50000000000) _ [7]); auto; [lia|vm_compute; discriminate].
      * exists q3. split; [split; vm_compute; discriminate|]. split; [discriminate|]. split; [constructor; [|constructor; [|constructor]]|].
        -- apply (ST t0 _ data_a); [discriminate|lia|vm_compute; discriminate].
        -- apply (ST (t0 + 50000000000) _ [7]); [discriminate|lia|vm_compute; discriminate].
        -- split; [repeat constructor; vm_compute; discriminate|]. split; [repeat constructor|discriminate].
    + split; [constructor; [|constructor]|].
      * apply (G b t0 _ [5; 6]); auto; [lia|vm_compute; discriminate].
      * exists q3. split; [split; vm_compute; discriminate|]. split; [discriminate|]. split; [constructor; [|constructor]|].
        -- apply (ST t0 _ [5; 6]); [discriminate|lia|vm_compute; discriminate].
        -- split; [repeat constructor|]. split; [repeat constructor|discriminate].
  - cbn [ids_sorted]. split; [|auto]. constructor; [|constructor]. left. rewrite Sa, Sb. vm_compute. auto 20.
  - constructor; [lia|constructor; [lia|constructor]].
Qed.

Example C59_run :
  match write_tracelist no_files true false (fun _ => 200%nat) env0 [102] true 128 3 0 full with
  | Ok w => w_ret w = 4 /\
    match read_tracelist (w_files w) [] back_leaps whole_reads [102] tl_init (repeat 1%nat 5) with
    | Ok (c, Some k, ptrs) => c = 0 /\ short_view k = short_view full /\ k_num k = 2
    | _ => False
    end
  | _ => False
  end.
Proof. vm_compute. auto. Qed.

(** Without the condition on leap seconds: one segment of 20 samples, a second apart, that
    starts ten seconds before the leap second at the end of 2016 (the list of leap seconds
    has its end, 1483228800 seconds).  It is written as records of 11 and 9 samples.  The
    first one ends with this leap second, which has the time of the next second; so has the
    start of the second record, and the list read back has two segments. *)
Definition leap : Z := 1483228800000000000.
Definition leap_env : penv := mk_penv 30 (fun _ => 0) [leap] false Strict (repeat 170 64) (repeat 7 200).
Definition leap_list : tlist := match add_all (mk_conf Strict [leap] None None true true false) tl_init
  [(mk_trec (codes_sid kb) 1 (leap - 10000000000) 0x3FF0000000000000 20 105 data_a, 1%nat)] with Ok k => k | _ => tl_init end.
Theorem C59_leap_refuted :
  short_view leap_list = Some [(codes_sid kb, 1, [(leap - 10000000000, leap + 8000000000, data_a)])] /\
  match write_tracelist no_files true false (fun _ => 200%nat) leap_env [102] true 101 3 0 leap_list with
  | Ok w => w_ret w = 2 /\
    match read_tracelist (w_files w) [] (mk_tconf (t_read back_leaps) [leap] None None true) whole_reads [102] tl_init (repeat 1%nat 5) with
    | Ok (c, Some k, ptrs) => c = 0 /\
        short_view k = Some [(codes_sid kb, 1, [(leap - 10000000000, leap, firstn 11 data_a); (leap, leap + 8000000000, skipn 11 data_a)])]
    | _ => False
    end
  | _ => False
  end.
Proof. vm_compute. auto. Qed.
Print Assumptions C59_leap_refuted.
