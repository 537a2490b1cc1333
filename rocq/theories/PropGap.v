(** * Property C33: the gap list. *)

From Verif Require Import Base SampleSpec TlModel TlSpec GapModel GapSpec GapProof.
Open Scope Z_scope.

(** For every trace list of well-formed entries with times inside 64 bits and finite
    sampling rates, and all limits: the lines are, entry by entry, one for each pair of
    consecutive segments the first of which has a sampling rate and whose gap is not
    outside the limits; the total is the number of lines. *)
Theorem C33_lines_partial : forall mode lo hi k ids, tl_ids k = Ok ids ->
  Forall (fun t => exists segs, tid_segs t = Ok segs /\ segs <> [] /\ Forall gap_seg segs) ids ->
  exists lss, (Z.of_nat (length (concat lss)) < 2 ^ 31 -> gap_list mode k (fin lo) (fin hi) = Ok (concat lss, Z.of_nat (length (concat lss))))
    /\ Forall2 (fun t ls => exists segs, tid_segs t = Ok segs /\ reports lo hi (t_sid t) (consecutive segs) ls) ids lss.
Proof. exact list_gaps. Qed.
Print Assumptions C33_lines_partial.

(** The same for the trace list of any ordinary records added with the default time
    tolerance. *)
Theorem C33_records_partial : forall f rs k mode lo hi, given rs -> f_mode f = Strict -> f_ttol f = None -> Forall ordinary (map fst rs) ->
  Forall rated (map fst rs) -> add_all f tl_init rs = Ok k ->
  exists ids lss, tl_ids k = Ok ids
    /\ (Z.of_nat (length (concat lss)) < 2 ^ 31 -> gap_list mode k (fin lo) (fin hi) = Ok (concat lss, Z.of_nat (length (concat lss))))
    /\ Forall2 (fun t ls => exists segs, tid_segs t = Ok segs /\ reports lo hi (t_sid t) (consecutive segs) ls) ids lss.
Proof. exact records_gaps. Qed.
Print Assumptions C33_records_partial.

(** What [to_report] in [reports] means: the difference of the times when the segments do
    not overlap; otherwise a negative value, not longer than the overlap and than what
    the later segment covers. *)
Theorem C33_gap : forall a b v, close v (to_report a b) -> (0 <= exact_gap a b)%Q -> close v (exact_gap a b).
Proof. exact gap_value. Qed.
Print Assumptions C33_gap.
Theorem C33_overlap : forall a b v, close v (to_report a b) -> (exact_gap a b < 0)%Q -> (0 <= coverage b)%Q ->
  (v <= 0)%Q /\ (- v <= coverage b * (1 + (1 # 1125899906842624)))%Q /\ (- v <= - exact_gap a b * (1 + (1 # 1125899906842624)))%Q.
Proof. exact overlap_bound. Qed.
Print Assumptions C33_overlap.

(** One sample per second (the bits of 1.0) or no rate. *)
Definition rec1 (rate s : Z) (n : Z) : trec := mk_trec [65] 1 (s * 1000000000) rate n 105 [].
Definition plain : conf := mk_conf Strict [] None None false true true.
Definition hz1 : Z := 4607182418800017408.
Definition three : list (trec * nat) := [(rec1 hz1 0 10, 1%nat); (rec1 hz1 15 10, 1%nat); (rec1 hz1 5 3, 1%nat)].

(** Segments 0 to 9, 5 to 7 and 15 to 24: an overlap, reported as what the second covers
    (3 seconds, 4 samples), and a gap of 8 seconds. *)
Definition line_view (l : gapline) := (l_end l, l_next l, match l_gap l with DFin q => Some (Qred q) | _ => None end,
  match l_nsamp l with DFin q => Some (Qred q) | _ => None end).
Definition list_view (m : res (list gapline * Z)) := let! (l, n) := m in Ok (map line_view l, n).
Example C33_instance : given three /\ Forall ordinary (map fst three) /\ Forall rated (map fst three)
  /\ list_view (let! k := add_all plain tl_init three in gap_list Strict k None None)
     = Ok ([(9000000000, 5000000000, Some (-3 # 1), Some (4 # 1)); (7000000000, 15000000000, Some (8 # 1), Some (7 # 1))], 2)
  /\ list_view (let! k := add_all plain tl_init three in gap_list Strict k (Some (DFin 0%Q)) (Some (DFin (8 # 1))))
     = Ok ([(7000000000, 15000000000, Some (8 # 1), Some (7 # 1))], 1).
Proof.
  split; [|split; [|split; [|split]]].
  - unfold given, three, valid_height. repeat constructor; cbn; lia.
  - unfold three. cbn [map fst]. repeat constructor; unfold ordinary;
      (eexists; split; [vm_compute; reflexivity|]; split; [vm_compute; discriminate|]; split; [vm_compute; discriminate|];
       split; [vm_compute; discriminate|]; split; [cbn; lia|cbn; lia]).
  - unfold three. cbn [map fst]. repeat constructor; (eexists; split; [vm_compute; reflexivity|vm_compute; discriminate]).
  - vm_compute. reflexivity.
  - vm_compute. reflexivity.
Qed.

(** Two segments without a sampling rate: no line, although there are two segments 100 seconds
    apart. *)
Theorem C33_no_rate_refuted : exists rs k n, given rs /\ add_all plain tl_init rs = Ok k
  /\ gap_list Strict k None None = Ok ([], 0)
  /\ (let! ids := tl_ids k in Ok (map t_num ids)) = Ok [n] /\ n = 2.
Proof.
  set (rs := [(rec1 0 0 1, 1%nat); (rec1 0 100 1, 1%nat)]).
  assert (A : (let! k := add_all plain tl_init rs in gap_list Strict k None None) = Ok ([], 0)) by (vm_compute; reflexivity).
  assert (B : (let! k := add_all plain tl_init rs in let! ids := tl_ids k in Ok (map t_num ids)) = Ok [2]) by (vm_compute; reflexivity).
  assert (G : given rs) by (unfold given, rs, valid_height; repeat constructor; cbn; lia).
  destruct (add_all plain tl_init rs) as [k| | |] eqn:E; try discriminate. cbn [bind] in A, B. exists rs, k, 2. auto.
Qed.
Print Assumptions C33_no_rate_refuted.
