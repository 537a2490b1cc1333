(** * Properties C47 and C48: the trace list and the SYNC list. *)

From Coq Require Import String.
From Verif Require Import Base TlModel TlSpec GapModel GapSpec StrModel StrSpec TimeStrModel TimeStrSpec ListModel ListSpec ListProof.
Open Scope Z_scope.
Open Scope list_scope.

(** ** C47 *)

(** For every trace list of well-formed entries and all options: entry by entry and in
    order, one line for each segment with the identifier (and the version when asked for),
    both times, the rate and the count (with details) and the gap to the segment before
    (with gaps); the totals are the number of entries and the number of lines. *)
Theorem C47_lines : forall mode f d g ver k ids, tl_ids k = Ok ids -> Forall listed ids ->
  exists lss, Forall2 (fun t ls => exists segs, tid_segs t = Ok segs /\ trace_lines f d g (shown_sid ver t) None segs ls) ids lss
    /\ (Z.of_nat (List.length (concat lss)) < 2 ^ 31 -> trace_list mode k f d g ver
        = Ok (concat lss, if d then Some (Z.of_nat (List.length ids), Z.of_nat (List.length (concat lss))) else None)).
Proof. exact list_lines. Qed.
Print Assumptions C47_lines.

(** The same for the trace list of any ordinary records added with the default time
    tolerance. *)
Theorem C47_records : forall f rs k mode tf d g ver, given rs -> f_mode f = Strict -> f_ttol f = None -> Forall ordinary (map fst rs) ->
  Forall rated (map fst rs) -> Forall rec_fits (map fst rs) -> add_all f tl_init rs = Ok k ->
  exists ids lss, tl_ids k = Ok ids
    /\ Forall2 (fun t ls => exists segs, tid_segs t = Ok segs /\ trace_lines tf d g (shown_sid ver t) None segs ls) ids lss
    /\ (Z.of_nat (List.length (concat lss)) < 2 ^ 31 -> trace_list mode k tf d g ver
        = Ok (concat lss, if d then Some (Z.of_nat (List.length ids), Z.of_nat (List.length (concat lss))) else None)).
Proof. exact records_lines. Qed.
Print Assumptions C47_records.

(** One sample per second (the bits of 1.0). *)
Definition rec1 (sid : list Z) (pub s n : Z) : trec := mk_trec sid pub (s * 1000000000) 4607182418800017408 n 105 [].
Definition plain : conf := mk_conf Strict [] None None true true true.
Definition sid_a : list Z := zs "FDSN:IU_ANMO_00_B_H_Z".
Definition sid_x : list Z := zs "XFDSN:IU_COLA_00_B_H_Z".
Definition three : list (trec * nat) := [(rec1 sid_a 2 0 10, 1%nat); (rec1 sid_a 2 7215 10, 1%nat); (rec1 sid_x 1 5 3, 1%nat)].

(** Two segments of one identifier with a gap of 7206 seconds, shown in hours, and one
    segment of another. *)
Definition gap_view (g : option (option (gap_unit * dbl))) :=
  match g with
  | Some (Some (u, DFin q)) => Some (Some (u, Qred q))
  | Some (Some (u, _)) => Some (Some (u, (-1 # 1)%Q))
  | Some None => Some None
  | None => None
  end.
Definition line_view (l : traceline) := (q_sid l, q_start l, q_end l, match gap_view (q_gap l) with
  | Some (Some (Hours, q)) => Some (Some (Qle_bool (2 # 1) q && Qle_bool q (21 # 10)))%bool | Some (Some _) => Some (Some false) | Some None => Some None | None => None end,
  match q_more l with Some (_, n) => Some n | None => None end).
Definition trace_view (m : res (list traceline * option (Z * Z))) := let! (l, n) := m in Ok (map line_view l, n).
Example C47_instance : given three /\ Forall ordinary (map fst three) /\ Forall rated (map fst three) /\ Forall rec_fits (map fst three)
  /\ trace_view (let! k := add_all plain tl_init three in trace_list Strict k ISOMONTHDAY_Z true true true)
     = Ok ([(zs "FDSN:IU_ANMO_00_B_H_Z#2", zs "1970-01-01T00:00:00.000000Z", zs "1970-01-01T00:00:09.000000Z", Some None, Some 10);
            (zs "FDSN:IU_ANMO_00_B_H_Z#2", zs "1970-01-01T02:00:15.000000Z", zs "1970-01-01T02:00:24.000000Z", Some (Some true), Some 10);
            (zs "XFDSN:IU_COLA_00_B_H_Z#1", zs "1970-01-01T00:00:05.000000Z", zs "1970-01-01T00:00:07.000000Z", Some None, Some 3)], Some (2, 3))
  /\ trace_view (let! k := add_all plain tl_init three in trace_list Strict k UNIXEPOCH false false false)
     = Ok ([(sid_a, zs "0.000000", zs "9.000000", None, None); (sid_a, zs "7215.000000", zs "7224.000000", None, None);
            (sid_x, zs "5.000000", zs "7.000000", None, None)], None).
Proof.
  split; [|split; [|split; [|split; [|split]]]].
  - unfold given, three, valid_height. repeat constructor; cbn; lia.
  - unfold three. cbn [map fst]. repeat constructor; unfold ordinary;
      (eexists; split; [vm_compute; reflexivity|]; split; [vm_compute; discriminate|]; split; [vm_compute; discriminate|];
       split; [vm_compute; discriminate|]; split; [cbn; lia|cbn; lia]).
  - unfold three. cbn [map fst]. repeat constructor; (eexists; split; [vm_compute; reflexivity|vm_compute; discriminate]).
  - unfold three. cbn [map fst]. repeat constructor; vm_compute; discriminate.
  - vm_compute. reflexivity.
  - vm_compute. reflexivity.
Qed.

(** In the epoch format the sign of a time in the second before 1970 is lost: a segment
    from 0.5 s before to 0.5 s after the epoch is shown with the same two texts. *)
Definition around : list (trec * nat) := [(mk_trec sid_a 1 (-500000000) 4607182418800017408 2 105 [], 1%nat)].
Theorem C47_epoch_refuted : exists rs k l n, given rs /\ Forall ordinary (map fst rs) /\ Forall rated (map fst rs) /\ Forall rec_fits (map fst rs)
  /\ add_all plain tl_init rs = Ok k /\ trace_list Strict k UNIXEPOCH true true false = Ok ([l], n)
  /\ q_start l = q_end l /\ (let! ids := tl_ids k in Ok (map (fun t => (t_early t, t_late t)) ids)) = Ok [(-500000000, 500000000)].
Proof.
  assert (A : (let! k := add_all plain tl_init around in let! (l, n) := trace_list Strict k UNIXEPOCH true true false in Ok (map (fun x => (q_start x, q_end x)) l))
    = Ok [(zs "0.500000", zs "0.500000")]) by (vm_compute; reflexivity).
  assert (B : (let! k := add_all plain tl_init around in let! ids := tl_ids k in Ok (map (fun t => (t_early t, t_late t)) ids)) = Ok [(-500000000, 500000000)]) by (vm_compute; reflexivity).
  destruct (add_all plain tl_init around) as [k| | |] eqn:E; [|discriminate A|discriminate A|discriminate A]. cbn [bind] in A, B.
  destruct (trace_list Strict k UNIXEPOCH true true false) as [[l n]| | |] eqn:T; [|discriminate A|discriminate A|discriminate A]. cbn [bind] in A.
  destruct l as [|x [|]]; try discriminate A. cbn [map] in A. injection A as A1 A2. exists around, k, x, n.
  split; [unfold given, around, valid_height; repeat constructor; cbn; lia|].
  split; [unfold around; cbn [map fst]; repeat constructor; unfold ordinary;
      (eexists; split; [vm_compute; reflexivity|]; split; [vm_compute; discriminate|]; split; [vm_compute; discriminate|];
       split; [vm_compute; discriminate|]; split; [cbn; lia|cbn; lia])|].
  split; [unfold around; cbn [map fst]; repeat constructor; (eexists; split; [vm_compute; reflexivity|vm_compute; discriminate])|].
  split; [unfold around; cbn [map fst]; repeat constructor; vm_compute; discriminate|].
  split; [exact E|]. split; [exact T|]. split; [rewrite A1, A2; reflexivity|exact B].
Qed.
Print Assumptions C47_epoch_refuted.

(** ** C48 *)

(** For every trace list whose identifiers are made of codes of at most ten characters, any
    date, any DCC name and sub-second option: the lines are, entry by entry and in order,
    one for each segment, with its codes, times, rate and count and the date. *)
Theorem C48_lines : forall k dcc day sub ids, tl_ids k = Ok ids -> Forall synced ids ->
  exists lss, sync_list k dcc day sub = Ok ((match dcc with Some d => d | None => [68; 67; 67] end, day), concat lss)
    /\ Forall2 (fun t ls => exists segs net sta loc chan, tid_segs t = Ok segs /\ sid_codes (t_sid t) net sta loc chan
                            /\ Forall2 (sync_line sub day net sta loc chan) segs ls) ids lss.
Proof. exact list_sync. Qed.
Print Assumptions C48_lines.

Definition two : list (trec * nat) := [(rec1 sid_a 2 0 10, 1%nat); (rec1 (zs "FDSN:XX_B__L_OG_1") 1 5 3, 1%nat)].
Definition sync_view (m : res ((list Z * list Z) * list syncline)) :=
  let! (h, l) := m in Ok (h, map (fun y => (y_net y, y_sta y, y_loc y, y_chan y, y_start y, y_end y, y_cnt y, y_day y)) l).
Example C48_instance :
  sync_view (let! k := add_all plain tl_init two in sync_list k None (zs "2026,320") MICRO)
  = Ok ((zs "DCC", zs "2026,320"),
      [(zs "IU", zs "ANMO", zs "00", zs "BHZ", zs "1970,001,00:00:00.000000", zs "1970,001,00:00:09.000000", 10, zs "2026,320");
       (zs "XX", zs "B", [], zs "L_OG_1", zs "1970,001,00:00:05.000000", zs "1970,001,00:00:07.000000", 3, zs "2026,320")])
  /\ sid_codes sid_a (zs "IU") (zs "ANMO") (zs "00") (zs "BHZ") /\ sid_codes (zs "FDSN:XX_B__L_OG_1") (zs "XX") (zs "B") [] (zs "L_OG_1").
Proof.
  assert (P : forall s, forallb (fun c => (1 <=? c) && (c <=? 255) && negb (c =? 95) && negb (c =? 58))%bool s = true -> plain_code s).
  { intros s H. rewrite forallb_forall in H. split; [apply Forall_forall; intros c Hc; specialize (H c Hc); lia|split; intro X; specialize (H _ X); cbn in H; discriminate]. }
  assert (T : forall s, forallb (fun c => (1 <=? c) && (c <=? 255))%bool s = true -> text s).
  { intros s H. rewrite forallb_forall in H. apply Forall_forall. intros c Hc. specialize (H c Hc). lia. }
  split; [vm_compute; reflexivity|]. split.
  - exists [], (zs "B_H_Z"). split; [vm_compute; reflexivity|]. split; [auto|]. do 3 (split; [apply P; vm_compute; reflexivity|]).
    split; [apply T; vm_compute; reflexivity|]. split; [cbn; intuition discriminate|]. split; [vm_compute; reflexivity|].
    split; [left; apply (seed_form_of 66 72 90)|]. cbn. lia.
  - exists [], (zs "L_OG_1"). split; [vm_compute; reflexivity|]. split; [auto|]. do 3 (split; [apply P; vm_compute; reflexivity|]).
    split; [apply T; vm_compute; reflexivity|]. split; [cbn; intuition discriminate|]. split; [vm_compute; reflexivity|].
    split; [right; split; [intros t H; inversion H|reflexivity]|]. cbn. lia.
Qed.

(** An identifier that is not of this form is listed under the codes of the entry before
    it: the third record of [three] is shown as a segment of IU ANMO 00 BHZ. *)
Theorem C48_stale_codes_refuted : exists rs k l1 l2 l3 h, given rs /\ add_all plain tl_init rs = Ok k
  /\ (let! ids := tl_ids k in Ok (map t_sid ids)) = Ok [sid_a; sid_x]
  /\ sync_list k None (zs "2026,320") MICRO = Ok (h, [l1; l2; l3])
  /\ (y_net l3, y_sta l3, y_loc l3, y_chan l3) = (zs "IU", zs "ANMO", zs "00", zs "BHZ") /\ y_start l3 = zs "1970,001,00:00:05.000000".
Proof.
  assert (A : (let! k := add_all plain tl_init three in let! ids := tl_ids k in Ok (map t_sid ids)) = Ok [sid_a; sid_x]) by (vm_compute; reflexivity).
  assert (B : sync_view (let! k := add_all plain tl_init three in sync_list k None (zs "2026,320") MICRO)
    = Ok ((zs "DCC", zs "2026,320"),
      [(zs "IU", zs "ANMO", zs "00", zs "BHZ", zs "1970,001,00:00:00.000000", zs "1970,001,00:00:09.000000", 10, zs "2026,320");
       (zs "IU", zs "ANMO", zs "00", zs "BHZ", zs "1970,001,02:00:15.000000", zs "1970,001,02:00:24.000000", 10, zs "2026,320");
       (zs "IU", zs "ANMO", zs "00", zs "BHZ", zs "1970,001,00:00:05.000000", zs "1970,001,00:00:07.000000", 3, zs "2026,320")])) by (vm_compute; reflexivity).
  destruct (add_all plain tl_init three) as [k| | |] eqn:E; [|discriminate A|discriminate A|discriminate A]. cbn [bind] in A, B.
  destruct (sync_list k None (zs "2026,320") MICRO) as [[h l]| | |] eqn:T; [|discriminate B|discriminate B|discriminate B]. unfold sync_view in B. cbn [bind] in B.
  destruct l as [|l1 [|l2 [|l3 [|]]]]; try discriminate B. cbn [map] in B. apply (f_equal (fun m => match m with Ok (_, [_; _; x]) => Some x | _ => None end)) in B.
  cbn in B. injection B as B1 B2 B3 B4 B5 _ _ _. exists three, k, l1, l2, l3, h.
  split; [unfold given, three, valid_height; repeat constructor; cbn; lia|]. split; [exact E|]. split; [exact A|]. split; [exact T|].
  split; [rewrite B1, B2, B3, B4; reflexivity|exact B5].
Qed.
Print Assumptions C48_stale_codes_refuted.

(** A network code of eleven characters, within what an identifier holds, is written past
    the end of its array. *)
Definition long : list (trec * nat) := [(rec1 (zs "FDSN:ABCDEFGHIJK_S__B_H_Z") 1 0 10, 1%nat)].
Theorem C48_overflow_refuted : exists rs k, given rs /\ Forall rec_fits (map fst rs) /\ add_all plain tl_init rs = Ok k
  /\ sync_list k None (zs "2026,320") MICRO = UB OOBWrite.
Proof.
  assert (A : (let! k := add_all plain tl_init long in sync_list k None (zs "2026,320") MICRO) = UB OOBWrite) by (vm_compute; reflexivity).
  assert (B : match add_all plain tl_init long with Ok _ => true | _ => false end = true) by (vm_compute; reflexivity).
  destruct (add_all plain tl_init long) as [k| | |] eqn:E; [|discriminate B|discriminate B|discriminate B]. cbn [bind] in A. exists long, k.
  split; [unfold given, long, valid_height; repeat constructor; cbn; lia|].
  split; [unfold long; cbn [map fst]; repeat constructor; vm_compute; discriminate|]. auto.
Qed.
Print Assumptions C48_overflow_refuted.
