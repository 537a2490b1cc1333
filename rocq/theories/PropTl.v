(** * Properties C28 to C32: the trace list. *)

From Coq Require Import Permutation.
From Verif Require Import Base SampleSpec TlModel TlSpec TlProof RateProof TlTime TlTile TlIds.
Open Scope Z_scope.

(** What the examples look at: identifier, version, number of segments, earliest and
    latest time, and the segments with start, end, count and samples. *)
Definition view_seg (s : seg) := (s_start s, s_end s, s_cnt s, s_data s).
Fixpoint view_ids (ids : list tid) : res (list (list Z * Z * Z * Z * Z * list (Z * Z * Z * list Z))) :=
  match ids with
  | [] => Ok []
  | t :: ids' =>
    let! segs := tid_segs t in let! l := view_ids ids' in
    Ok ((t_sid t, t_pub t, t_num t, t_early t, t_late t, map view_seg segs) :: l)
  end.
Definition view (m : res tlist) := let! k := m in let! ids := tl_ids k in view_ids ids.
Definition entry_view (t : tid) (x : list Z * Z * Z * Z * Z * list (Z * Z * Z * list Z)) : Prop :=
  exists segs, tid_segs t = Ok segs /\ x = (t_sid t, t_pub t, t_num t, t_early t, t_late t, map view_seg segs).
Lemma view_ok m v : view m = Ok v -> exists k ids, m = Ok k /\ tl_ids k = Ok ids /\ Forall2 entry_view ids v.
Proof.
  unfold view. destruct m as [k| | |]; try discriminate. cbn [bind]. destruct (tl_ids k) as [ids| | |] eqn:E; try discriminate. cbn [bind].
  intro H. exists k, ids. split; [reflexivity|]. split; [exact E|]. clear E k. revert v H. induction ids as [|t ids IH]; intros v H; cbn [view_ids] in H.
  - injection H as <-. constructor.
  - destruct (tid_segs t) as [segs| | |] eqn:Es; try discriminate. cbn [bind] in H.
    destruct (view_ids ids) as [l| | |]; try discriminate. simpl in H. injection H as <-. constructor; [|apply IH; reflexivity].
    exists segs. auto.
Qed.

(** One sample per second (the bits of 1.0), from second [s], integer samples [d]. *)
Definition rec1 (sid pub s : Z) (d : list Z) : trec :=
  mk_trec [sid] pub (s * 1000000000) 4607182418800017408 (Z.of_nat (length d)) 105 d.
Definition plain : conf := mk_conf Strict [] None None false true true.

(** ** C28 *)

(** Any records, any tolerances, healing or not: when all are added, the segments of
    every entry are linked in both directions, in order, and counted. *)
Theorem C28_segments_well_formed : forall f rs k, given rs -> add_all f tl_init rs = Ok k ->
  exists ids, tl_ids k = Ok ids /\ Forall (fun t => exists segs, well_formed t segs) ids.
Proof. exact all_segments. Qed.
Print Assumptions C28_segments_well_formed.

(** When time tolerances do not exceed the sample period, the earliest and latest
    times are the extremes of the segments. *)
Theorem C28_extremes_partial : forall f rs k, given rs -> f_mode f = Strict -> all_narrow f (map fst rs) -> add_all f tl_init rs = Ok k ->
  exists ids, tl_ids k = Ok ids /\ Forall (fun t => exists segs, well_formed t segs /\ extremes t segs) ids.
Proof. exact all_extremes. Qed.
Print Assumptions C28_extremes_partial.

(** The default tolerance does not, for ordinary records. *)
Theorem C28_default_narrow : forall f rs, f_ttol f = None -> Forall ordinary rs -> all_narrow f rs.
Proof. exact ordinary_all_narrow. Qed.
Print Assumptions C28_default_narrow.

(** Adding records within range never has undefined behaviour and never goes outside
    the lists (it may fail on sample types that do not match). *)
Theorem C28_defined : forall f rs, given rs -> tame f (map fst rs) ->
  (exists k, add_all f tl_init rs = Ok k) \/ (exists e, add_all f tl_init rs = Err e).
Proof. exact all_defined. Qed.
Print Assumptions C28_defined.

(** Ordinary records of one sample type per identifier are all added. *)
Theorem C28_added : forall f rs, given rs -> f_mode f = Strict -> f_ttol f = None -> Forall ordinary (map fst rs) ->
  sum (map r_cnt (map fst rs)) < 2 ^ 63 ->
  (forall r r', In r (map fst rs) -> In r' (map fst rs) -> r_sid r = r_sid r' -> r_data r <> [] ->
     r_type r' = r_type r /\ known_type (r_type r) = true) ->
  exists k, add_all f tl_init rs = Ok k.
Proof. exact all_ordinary. Qed.
Print Assumptions C28_added.

Definition three : list (trec * nat) :=
  [(rec1 65 1 0 [1; 2; 3], 1%nat); (rec1 66 1 5 [7], 3%nat); (rec1 65 2 10 [4; 5], 2%nat)].
Example C28_instance : given three /\ all_narrow plain (map fst three) /\
  view (add_all plain tl_init three)
  = Ok [([65], 2, 2, 0, 11000000000, [(0, 2000000000, 3, [1; 2; 3]); (10000000000, 11000000000, 2, [4; 5])]);
        ([66], 1, 1, 5000000000, 5000000000, [(5000000000, 5000000000, 1, [7])])].
Proof.
  split; [|split].
  - unfold given, three, valid_height. repeat constructor; cbn; lia.
  - apply ordinary_all_narrow; [reflexivity|]. unfold three. cbn [map fst]. repeat constructor; unfold ordinary;
      (eexists; split; [vm_compute; reflexivity|]; split; [vm_compute; discriminate|]; split; [vm_compute; discriminate|];
       split; [vm_compute; discriminate|]; split; [cbn; lia|cbn; lia]).
  - vm_compute. reflexivity.
Qed.

(** With a tolerance above the sample period a segment can shrink: the latest time is no
    longer the end of a segment. *)
Definition wide : conf := mk_conf Strict [] (Some (fun _ => DFin (5 # 1))) None false true true.
Definition shrinking : list (trec * nat) := [(rec1 65 1 0 [0; 1; 2; 3; 4; 5; 6; 7; 8; 9], 1%nat); (rec1 65 1 5 [5], 1%nat)].
Lemma shrinking_view : view (add_all wide tl_init shrinking)
  = Ok [([65], 1, 1, 0, 9000000000, [(0, 5000000000, 11, [0; 1; 2; 3; 4; 5; 6; 7; 8; 9; 5])])].
Proof. vm_compute. reflexivity. Qed.
Theorem C28_extremes_refuted : exists f rs k t segs, given rs /\ f_mode f = Strict /\ add_all f tl_init rs = Ok k
  /\ tl_ids k = Ok [t] /\ well_formed t segs /\ ~ extremes t segs.
Proof.
  assert (G : given shrinking) by (unfold given, shrinking, valid_height; repeat constructor; cbn; lia).
  destruct (view_ok _ _ shrinking_view) as (k & ids & E & Ei & F). inversion F as [|t x ids' v' (segs & Es & Ex) F' X Y]; subst. inversion F'; subst.
  destruct (C28_segments_well_formed _ _ _ G E) as (ids'' & Ei' & FW). rewrite Ei in Ei'. injection Ei' as <-.
  inversion FW as [|t' l (segs' & W) _ X]; subst. pose proof W as (_ & Es' & _). rewrite Es in Es'. injection Es' as <-.
  exists wide, shrinking, k, t, segs. repeat (split; [assumption || reflexivity|]).
  intros (_ & (s & Hs & He) & _). apply (in_map s_end) in Hs. rewrite He in Hs.
  destruct segs as [|a [|b segs]]; try discriminate Ex. injection Ex as _ _ _ _ Hl _ Ha _ _. cbn in Hs. rewrite <- Ha, <- Hl in Hs.
  destruct Hs as [Hs|[]]. discriminate Hs.
Qed.
Print Assumptions C28_extremes_refuted.

(** ** C29 *)

(** The records of the segments are, together, the records added; [holds] says that
    each segment has their samples in time order, the sum of their counts and, when it is
    kept, the list of them ([made]). *)
Theorem C29_conserved_partial : forall f rs k, given rs -> add_all f tl_init rs = Ok k ->
  exists ids gss, holds f k (map fst rs) ids gss
    /\ (f_mode f = Strict -> Forall2 counted ids gss)
    /\ (f_mode f = Strict -> all_narrow f (map fst rs) -> Forall2 covered ids gss).
Proof. exact all_conserved. Qed.
Print Assumptions C29_conserved_partial.

Example C29_instance : exists k, add_all plain tl_init three = Ok k.
Proof. eexists. vm_compute. reflexivity. Qed.

(** The wide tolerance again: the first record ends at 9 seconds, its segment at 5. *)
Theorem C29_coverage_refuted : exists f rs k t r e, given rs /\ f_mode f = Strict /\ add_all f tl_init rs = Ok k
  /\ tl_ids k = Ok [t] /\ In r (map fst rs) /\ rec_end f r = Ok e
  /\ exists segs, tid_segs t = Ok segs /\ ~ exists s, In s segs /\ s_start s <= r_start r /\ e <= s_end s.
Proof.
  assert (G : given shrinking) by (unfold given, shrinking, valid_height; repeat constructor; cbn; lia).
  destruct (view_ok _ _ shrinking_view) as (k & ids & E & Ei & F). inversion F as [|t x ids' v' (segs & Es & Ex) F' X Y]; subst. inversion F'; subst.
  exists wide, shrinking, k, t, (rec1 65 1 0 [0; 1; 2; 3; 4; 5; 6; 7; 8; 9]), 9000000000.
  repeat (split; [assumption || reflexivity|]). split; [left; reflexivity|]. split; [vm_compute; reflexivity|].
  exists segs. split; [assumption|]. intros (s & Hs & _ & He). apply (in_map s_end) in Hs.
  destruct segs as [|a [|b segs]]; try discriminate Ex. injection Ex as _ _ _ _ _ _ Ha _ _. cbn in Hs. rewrite <- Ha in Hs.
  destruct Hs as [Hs|[]]. lia.
Qed.
Print Assumptions C29_coverage_refuted.

(** ** C30 *)

(** Entries are in ascending order and their keys, all different, are keys of records;
    every record has an entry with its key, or, when versions are kept apart and its
    version is 0, an entry with its identifier.  The heights are any. *)
Theorem C30_unique_sorted_partial : forall f rs k, given rs -> add_all f tl_init rs = Ok k ->
  exists ids, tl_ids k = Ok ids /\ ids_sorted f ids /\ NoDup (map (tkey f) ids)
    /\ k_num k = Z.of_nat (length ids) mod 2 ^ 32
    /\ (forall t, In t ids -> exists r, In r (map fst rs) /\ rkey f r = tkey f t)
    /\ (forall r, In r (map fst rs) -> f_split f = false \/ r_pub r <> 0 -> exists t, In t ids /\ tkey f t = rkey f r)
    /\ (forall r, In r (map fst rs) -> exists t, In t ids /\ t_sid t = r_sid r).
Proof. exact all_ids. Qed.
Print Assumptions C30_unique_sorted_partial.

(** The lookup finds an entry exactly when a record with the identifier, and the version
    when it is not 0, was added. *)
Theorem C30_lookup : forall f rs k sid pub, given rs -> add_all f tl_init rs = Ok k -> pub = 0 \/ f_split f = true ->
  exists ids o, tl_ids k = Ok ids /\ tl_find k sid pub = Ok o /\
    match o with
    | Some t => In t ids /\ t_sid t = sid /\ (pub = 0 \/ t_pub t = pub)
                /\ exists r, In r (map fst rs) /\ r_sid r = sid /\ (pub = 0 \/ r_pub r = pub)
    | None => forall r, In r (map fst rs) -> r_sid r = sid -> pub <> 0 /\ r_pub r <> pub
    end.
Proof. exact all_find. Qed.
Print Assumptions C30_lookup.

(** The heights the code draws are valid. *)
Theorem C30_heights : forall state, 1 <= snd (lm_random_height state) <= 8.
Proof. exact drawn_ok. Qed.
Print Assumptions C30_heights.

Definition splitting : conf := mk_conf Strict [] None None true true true.
Example C30_instance :
  view (add_all splitting tl_init
          [(rec1 66 2 0 [1], 1%nat); (rec1 65 3 0 [2], 4%nat); (rec1 66 1 0 [3], 2%nat); (rec1 66 2 1 [4], 1%nat)])
  = Ok [([65], 3, 1, 0, 0, [(0, 0, 1, [2])]);
        ([66], 1, 1, 0, 0, [(0, 0, 1, [3])]);
        ([66], 2, 1, 0, 1000000000, [(0, 1000000000, 2, [1; 4])])].
Proof. vm_compute. reflexivity. Qed.

(** When versions are kept apart a record of version 0 is put to another version, and to
    which depends on the heights. *)
Theorem C30_version_0_refuted :
  view (add_all splitting tl_init [(rec1 65 1 0 [1], 1%nat); (rec1 65 2 0 [2], 1%nat); (rec1 65 0 1 [3], 1%nat)])
  = Ok [([65], 1, 1, 0, 1000000000, [(0, 1000000000, 2, [1; 3])]); ([65], 2, 1, 0, 0, [(0, 0, 1, [2])])]
  /\ view (add_all splitting tl_init [(rec1 65 1 0 [1], 1%nat); (rec1 65 2 0 [2], 2%nat); (rec1 65 0 1 [3], 1%nat)])
  = Ok [([65], 1, 1, 0, 0, [(0, 0, 1, [1])]); ([65], 2, 1, 0, 1000000000, [(0, 1000000000, 2, [2; 3])])].
Proof. split; vm_compute; reflexivity. Qed.
Print Assumptions C30_version_0_refuted.

(** ** C31 *)

(** Records of one rate that tile a span up to [d] nanoseconds, less than a quarter of the
    sample period, added in any order with healing and the default tolerances: one segment,
    with the records in time order. *)
Theorem C31_tiling_partial : forall f p d T rs,
  f_mode f = Strict -> f_heal f = true -> f_ttol f = None -> f_rtol f = None ->
  one_rate f p T -> T <> [] -> tiles p d T -> 0 <= d -> 4 * d + 4 < p ->
  (forall x y, In x T -> In y T -> r_data (fst x) <> [] -> r_type (fst y) = r_type (fst x) /\ known_type (r_type (fst x)) = true) ->
  sum (map (fun x => r_cnt (fst x)) T) < 2 ^ 63 ->
  Permutation (map fst rs) (map fst T) -> given rs ->
  exists k, add_all f tl_init rs = Ok k /\ one_segment f k T.
Proof. exact tile_default. Qed.
Print Assumptions C31_tiling_partial.

(** The same for any tolerances, period [p] and tolerance [tol] being those of all records
    and their rates taken for each other, whenever the records are added. *)
Theorem C31_tiling_any_tolerance_partial : forall f p tol d T rs k,
  f_mode f = Strict -> f_heal f = true -> alike f p tol T -> tiles p d T -> T <> [] -> 0 <= d <= tol -> 2 * d + tol < p ->
  Permutation (map fst rs) (map fst T) -> given rs ->
  add_all f tl_init rs = Ok k -> one_segment f k T.
Proof. exact tile_one. Qed.
Print Assumptions C31_tiling_any_tolerance_partial.

Definition tiled : list (trec * Z) :=
  [(rec1 65 1 0 [1; 2; 3], 2000000000); (rec1 65 1 3 [4], 3000000000); (rec1 65 1 4 [5; 6], 5000000000)].
Definition shuffled : list (trec * nat) :=
  [(rec1 65 1 4 [5; 6], 1%nat); (rec1 65 1 0 [1; 2; 3], 3%nat); (rec1 65 1 3 [4], 2%nat)].
Example C31_instance : one_rate plain 1000000000 tiled /\ tiles 1000000000 0 tiled /\ Permutation (map fst shuffled) (map fst tiled)
  /\ given shuffled /\
  view (add_all plain tl_init shuffled) = Ok [([65], 1, 1, 0, 5000000000, [(0, 5000000000, 6, [1; 2; 3; 4; 5; 6])])].
Proof.
  split; [|split; [|split; [|split]]].
  - split; [|split].
    + unfold tiled. repeat constructor; cbn [fst];
      try (eexists; split; [vm_compute; reflexivity|]; split; [vm_compute; discriminate|]; split; [vm_compute; discriminate|];
       split; [vm_compute; discriminate|]; split; [cbn; lia|cbn; lia]); vm_compute; reflexivity.
    + exists 4607182418800017408, [65]. split; [unfold tiled; repeat constructor|]. split; [vm_compute; reflexivity|]. split; [lia|].
      eexists. split; [vm_compute; reflexivity|]. reflexivity.
    + discriminate.
  - cbn. repeat split; lia.
  - cbn. apply Permutation_cons_append with (l := [_; _]).
  - unfold given, shuffled, valid_height. repeat constructor; cbn; lia.
  - vm_compute. reflexivity.
Qed.

(** With a sample rate tolerance given, records of the same rate are never joined. *)
Definition with_rt : conf := mk_conf Strict [] None (Some (fun _ => DFin (1 # 10))) false true true.
Lemma with_rt_view : view (add_all with_rt tl_init shuffled)
  = Ok [([65], 1, 3, 0, 5000000000, [(0, 2000000000, 3, [1; 2; 3]); (3000000000, 3000000000, 1, [4]); (4000000000, 5000000000, 2, [5; 6])])].
Proof. vm_compute. reflexivity. Qed.
Theorem C31_rate_tolerance_refuted : exists f rs k T p, given rs /\ f_mode f = Strict /\ f_heal f = true /\ f_ttol f = None
  /\ one_rate f p T /\ tiles p 0 T /\ Permutation (map fst rs) (map fst T) /\ add_all f tl_init rs = Ok k /\ ~ one_segment f k T.
Proof.
  destruct (view_ok _ _ with_rt_view) as (k & ids & E & Ei & F). inversion F as [|t x ids' v' (segs & Es & Ex) F' X Y]; subst. inversion F'; subst.
  exists with_rt, shuffled, k, tiled, 1000000000. destruct C31_instance as (H1 & H2 & H3 & H4 & _).
  repeat (split; [assumption || reflexivity|]). intros (t' & s & Ht & Hs & _). rewrite Ei in Ht. injection Ht as <-. rewrite Es in Hs. injection Hs as ->.
  discriminate Ex.
Qed.
Print Assumptions C31_rate_tolerance_refuted.

(** Without healing the order matters. *)
Definition no_heal : conf := mk_conf Strict [] None None false false true.
Example C31_healing_needed :
  view (add_all no_heal tl_init shuffled)
  = Ok [([65], 1, 2, 0, 5000000000, [(0, 3000000000, 4, [1; 2; 3; 4]); (4000000000, 5000000000, 2, [5; 6])])].
Proof. vm_compute. reflexivity. Qed.

(** ** C32 *)

(** Without a supplied tolerance positive finite rates are taken for each other when
    their ratio is within 0.0001 of 1, and not when it is farther (up to rounding,
    1e-14). *)
Theorem C32_default_tolerance_partial : forall a b tol, (0 < a)%Q -> (0 < b)%Q -> dlt dzero tol = false ->
  ((Qabs (1 - a / b) <= (1 # 10000) - (1 # 100000000000000))%Q -> rate_similar (DFin a) (DFin b) tol = true)
  /\ ((Qabs (1 - a / b) >= (1 # 10000) + (1 # 100000000000000))%Q -> rate_similar (DFin a) (DFin b) tol = false).
Proof. exact default_tolerance. Qed.
Print Assumptions C32_default_tolerance_partial.

(** The records of a segment are joined by such pairs: a set of them that is closed
    under rates taken for each other is empty or all of them. *)
Theorem C32_joined : forall f rs k, given rs -> add_all f tl_init rs = Ok k ->
  exists ids, tl_ids k = Ok ids /\
    Forall (fun t => exists segs gs, tid_segs t = Ok segs /\ Forall2 (fun s g => rates_joined f g /\ (f_keep f = true -> s_recs s = g)) segs gs) ids.
Proof. exact all_rates. Qed.
Print Assumptions C32_joined.

(** A supplied tolerance works the other way round: rates are taken for each other when
    they differ by more than it, and a rate is not taken for itself. *)
Theorem C32_supplied_tolerance_refuted : forall a b t, (0 < t)%Q -> (Qabs (a - b) <= inject_Z (2 ^ 100))%Q ->
  ((Qabs (a - b) * (1 + (1 # 9007199254740992)) + (1 # 10000000000000000000000000000000000000000) <= t)%Q
     -> rate_similar (DFin a) (DFin b) (DFin t) = false)
  /\ ((Qabs (a - b) * (1 - (1 # 9007199254740992)) - (1 # 10000000000000000000000000000000000000000) > t)%Q
     -> rate_similar (DFin a) (DFin b) (DFin t) = true).
Proof. exact supplied_inverted. Qed.
Print Assumptions C32_supplied_tolerance_refuted.
Theorem C32_same_rate_refuted : forall a tol, dlt dzero tol = true -> rate_similar (DFin a) (DFin a) tol = false.
Proof. exact supplied_self. Qed.
Print Assumptions C32_same_rate_refuted.

Example C32_instance :
  rate_similar (DFin (100 # 1)) (DFin (100005 # 1000)) (DFin (-1 # 1)) = true
  /\ rate_similar (DFin (100 # 1)) (DFin (1002 # 10)) (DFin (-1 # 1)) = false
  /\ rate_similar (DFin (100 # 1)) (DFin (50 # 1)) (DFin (1 # 1)) = true.
Proof. split; [|split]; vm_compute; reflexivity. Qed.
