(** * C17: selection lists. *)
From Verif Require Import Base GlobModel GlobSpec SelModel SelSpec SelProof TimeModel.
Open Scope Z_scope.

(** C17: an entry is found exactly when the list selects the record, and the entry and
    window returned are ones that select it. *)
Theorem C17_match : forall l sid st en pv,
  wellformed l -> ~ open st -> ~ open en -> st <= en ->
  exists r, matchselect l sid st en pv = Ok r /\
    match r with
    | Some (e, w) => In e l /\ entry_selects e sid st en pv /\
        match w with None => s_win e = [] | Some w => In w (s_win e) /\ overlaps st en w end
    | None => ~ selected l sid st en pv
    end.
Proof. exact matchselect_ok. Qed.
Print Assumptions C17_match.

Definition ex_list : list sel :=
  [ {| s_pat := [66; 42]; s_win := [(100, 200); (NSTUNSET, 50)]; s_ver := 2 |};
    {| s_pat := [63; 90]; s_win := []; s_ver := 0 |} ].
Example C17_instance :
  wellformed ex_list /\
  matchselect ex_list [66; 88] 150 400 2 = Ok (Some (hd {| s_pat := []; s_win := []; s_ver := 0 |} ex_list, Some (100, 200))) /\
  matchselect ex_list [66; 88] 60 99 2 = Ok None /\
  matchselect ex_list [66; 90] 60 99 3 = Ok (Some (nth 1 ex_list {| s_pat := []; s_win := []; s_ver := 0 |}, None)).
Proof.
  split; [|split; [reflexivity|split; reflexivity]].
  constructor; [|constructor; [|constructor]].
  - cbn [s_pat s_win s_ver]. split; [|split; [|lia]].
    + exists [Lit 66; Star]. split; [repeat constructor; lia|]. intros c [E|[E|[]]]; discriminate.
    + constructor; [right; right; cbn; lia|]. constructor; [left; right; reflexivity|constructor].
  - cbn [s_pat s_win s_ver]. split; [|split; [constructor|lia]].
    exists [One; Lit 90]. split; [repeat constructor; lia|]. intros c [E|[E|[]]]; discriminate.
Qed.

(** C17, for every range, its bounds open, reversed or equal to a bound of the window: the
    first entry and window taking the range are returned.  What is missing for open bounds
    is that taking be overlapping, see [C17_open_range_refuted]. *)
Theorem C17_any_range_partial : forall l sid st en pv,
  wellformed l ->
  exists r, matchselect l sid st en pv = Ok r /\
    match r with
    | Some (e, w) => exists a b, l = a ++ e :: b /\ entry_takes e sid st en pv /\
        Forall (fun x => ~ entry_takes x sid st en pv) a /\
        match w with
        | None => s_win e = []
        | Some w => exists p q, s_win e = p ++ w :: q /\ taken st en w /\ Forall (fun x => ~ taken st en x) p
        end
    | None => Forall (fun x => ~ entry_takes x sid st en pv) l
    end.
Proof. exact matchselect_taken. Qed.
Print Assumptions C17_any_range_partial.

(** A start equal to the start of the window selects it although the end is open. *)
Example C17_any_range_instance :
  matchselect ex_list [66; 88] 100 NSTUNSET 2 = Ok (Some (hd {| s_pat := []; s_win := []; s_ver := 0 |} ex_list, Some (100, 200))) /\
  taken 100 NSTUNSET (100, 200) /\ ~ taken 99 NSTUNSET (100, 200).
Proof. split; [reflexivity|]. unfold taken, open, NSTUNSET, NSTERROR. cbn [fst snd]. lia. Qed.

(** C17: adding a selection extends what is selected by exactly its own matches. *)
Theorem C17_add : forall l pat wst wen pv sid st en qv,
  (length pat <= 99)%nat -> (forall e, In e l -> s_win e <> []) ->
  (selected (addselect l pat wst wen pv) sid st en qv <->
   selected l sid st en qv \/
   matches pat sid /\ (pv = 0 \/ pv = qv) /\ overlaps st en (wst, wen)).
Proof. exact addselect_selected. Qed.
Print Assumptions C17_add.

(** C17: a list built by any sequence of additions selects exactly what one of the added
    selections covers. *)
Theorem C17_build : forall rs sid st en qv,
  Forall (fun r => (length (fst (fst r)) <= 99)%nat) rs ->
  (selected (build rs) sid st en qv <->
   exists p w v, In (p, w, v) rs /\ matches p sid /\ (v = 0 \/ v = qv) /\ overlaps st en w).
Proof. exact build_selected. Qed.
Print Assumptions C17_build.

Example C17_build_instance :
  build [([66; 42], (1, 2), 0); ([67], (3, 4), 1); ([66; 42], (5, 6), 0)] =
  [ {| s_pat := [67]; s_win := [(3, 4)]; s_ver := 1 |}; {| s_pat := [66; 42]; s_win := [(5, 6); (1, 2)]; s_ver := 0 |} ].
Proof. reflexivity. Qed.

(** C17 fails for ranges with one open bound: [0, open) against a window [100, 200] is
    not found, and (open, 50] against [100, 200] is. *)
Theorem C17_open_range_refuted :
  let l := [ {| s_pat := [42]; s_win := [(100, 200)]; s_ver := 0 |} ] in
  matchselect l [65] 0 NSTUNSET 1 = Ok None /\
  (exists e w, matchselect l [65] NSTUNSET 50 1 = Ok (Some (e, w))).
Proof. split; [reflexivity|]. eexists. eexists. reflexivity. Qed.
Print Assumptions C17_open_range_refuted.

(** C17 fails for patterns longer than the field: the last character is dropped and
    the selection no longer matches its own identifier. *)
Theorem C17_long_pattern_refuted :
  let p := repeat 65 100 in
  pat_text p (map Lit p) /\ mat (map Lit p) p /\ matchselect (addselect [] p NSTUNSET NSTUNSET 0) p 1 2 1 = Ok None.
Proof.
  split; [|split; [|vm_compute; reflexivity]].
  - cbn [repeat map]. repeat (apply pt_lit; [lia|lia|lia|lia|lia|]). constructor.
  - cbn [repeat map]. repeat apply m_lit. constructor.
Qed.
Print Assumptions C17_long_pattern_refuted.

(** C17 fails for a list made by other means, whose entry has no window (which selects all
    times): adding a window to it unselects the rest. *)
Theorem C17_unrestricted_refuted :
  let l := [ {| s_pat := [65]; s_win := []; s_ver := 0 |} ] in
  (exists r, matchselect l [65] 1000 2000 1 = Ok (Some r)) /\
  matchselect (addselect l [65] 1 2 0) [65] 1000 2000 1 = Ok None.
Proof. split; [eexists|]; reflexivity. Qed.
Print Assumptions C17_unrestricted_refuted.
