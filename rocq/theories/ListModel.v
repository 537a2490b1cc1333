(** * The trace list and the SYNC list (mstl3_printtracelist, mstl3_printsynclist,
    libmseed/tracelist.c:2120-2308).

    A line is kept as the values it is printed from: texts as printed by %s, the sampling
    rate and a gap in seconds as doubles, counts as integers.  The %f and %g conversions,
    the padding and the fixed header line of the trace list are not modelled.  The list is
    not NULL; the identifiers are the ones found along the lowest level (TlModel.tl_ids). *)

From Verif Require Export Base TlModel GapModel StrModel TimeStrModel.
Open Scope Z_scope.

(** ** The trace list *)

(** [q_gap]: [None] without the gaps option, [Some None] for " == ", else unit and value;
    [q_more]: the sampling rate and the number of samples, with the details option. *)
Record traceline := mk_traceline {
  q_sid : list Z; q_start : list Z; q_end : list Z; q_gap : option (option (gap_unit * dbl)); q_more : option (dbl * Z) }.

(** tracelist.c:2160-2169: the identifier shown; versioned_sid has LM_SIDLEN + 10 = 74
    bytes, one of them for the terminator (snprintf cuts what does not fit). *)
Definition display_sid (versions : bool) (t : tid) : list Z :=
  if versions then firstn 73 (t_sid t ++ 35 :: dec (t_pub t)) else t_sid t.

(** tracelist.c:2185-2212 *)
Definition trace_gap (mode : ovmode) (h : heap) (n : node) : res (option (gap_unit * dbl)) :=
  match n_prev n with
  | None => Ok None
  | Some _ => let! p := deref h (n_prev n) in
              let! g := gap_of mode (n_seg p) (n_seg n) in
              Ok (Some (gap_shown g))
  end.

(** The loop over the segments, tracelist.c:2172-2229, with segcnt (an int): the lines, and
    the count ([None] after an early return). *)
Fixpoint trace_segs (fuel : nat) (mode : ovmode) (f : timeformat) (details gaps : bool) (sid : list Z) (h : heap)
  (p : option nat) (cnt : Z) : res (list traceline * option Z) :=
  match fuel with
  | O => Fuel
  | S fuel' =>
    match p with
    | None => Ok ([], Some cnt)
    | Some _ =>
      let! n := deref h p in
      let s := n_seg n in
      let! st := nstime2timestr (s_start s) f NANO_MICRO in
      match st with
      | None => Ok ([], None)
      | Some st =>
        let! et := nstime2timestr (s_end s) f NANO_MICRO in
        match et with
        | None => Ok ([], None)
        | Some et =>
          let! g := (if gaps then let! g := trace_gap mode h n in Ok (Some g) else Ok None) in
          let! cnt := sarith mode 32 (cnt + 1) in
          let! (ls, c) := trace_segs fuel' mode f details gaps sid h (n_next n) cnt in
          Ok (mk_traceline sid st et g (if details then Some (s_hz s, s_cnt s) else None) :: ls, c)
        end
      end
    end
  end.

(** The loop over the identifiers, tracelist.c:2157-2233, with tracecnt and segcnt. *)
Fixpoint trace_ids (mode : ovmode) (f : timeformat) (details gaps versions : bool) (ids : list tid) (tcnt cnt : Z)
  : res (list traceline * option (Z * Z)) :=
  match ids with
  | [] => Ok ([], Some (tcnt, cnt))
  | t :: ids' =>
    let! (ls, c) := trace_segs (S (t_fresh t)) mode f details gaps (display_sid versions t) (t_heap t) (t_first t) cnt in
    match c with
    | None => Ok (ls, None)
    | Some cnt =>
      let! tcnt := sarith mode 32 (tcnt + 1) in
      let! (ls', r) := trace_ids mode f details gaps versions ids' tcnt cnt in
      Ok (ls ++ ls', r)
    end
  end.

(** mstl3_printtracelist, tracelist.c:2120-2239: the lines and the totals printed, if any. *)
Definition trace_list (mode : ovmode) (k : tlist) (f : timeformat) (details gaps versions : bool)
  : res (list traceline * option (Z * Z)) :=
  let! ids := tl_ids k in
  let! (ls, r) := trace_ids mode f details gaps versions ids 0 0 in
  Ok (ls, if details then r else None).

(** ** The SYNC list *)

Record syncline := mk_syncline {
  y_net : list Z; y_sta : list Z; y_loc : list Z; y_chan : list Z; y_start : list Z; y_end : list Z; y_hz : dbl; y_cnt : Z; y_day : list Z }.

(** The codes shown by %s from the four arrays. *)
Definition code_of (b : option (list Z)) : res (list Z) :=
  match b with Some m => text_of m | None => UB NullDeref end.

(** The loop over the segments, tracelist.c:2288-2301.  The result of ms_nstime2timestr is
    not looked at: without a text the array printed is indeterminate. *)
Fixpoint sync_segs (fuel : nat) (sub : subseconds) (day : list Z) (o : nslc) (h : heap) (p : option nat) : res (list syncline) :=
  match fuel with
  | O => Fuel
  | S fuel' =>
    match p with
    | None => Ok []
    | Some _ =>
      let! n := deref h p in
      let s := n_seg n in
      let! st := nstime2timestr (s_start s) SEEDORDINAL sub in
      let! et := nstime2timestr (s_end s) SEEDORDINAL sub in
      match st, et with
      | Some st, Some et =>
        let! net := code_of (o_net o) in
        let! sta := code_of (o_sta o) in
        let! loc := code_of (o_loc o) in
        let! chan := code_of (o_chan o) in
        let! ls := sync_segs fuel' sub day o h (n_next n) in
        Ok (mk_syncline net sta loc chan st et (s_hz s) (s_cnt s) day :: ls)
      | _, _ => UB Uninit
      end
    end
  end.

(** The loop over the identifiers, tracelist.c:2282-2305: the result of ms_sid2nslc is not
    looked at, a refused identifier leaves the arrays as they are. *)
Fixpoint sync_ids (sub : subseconds) (day : list Z) (o : nslc) (ids : list tid) : res (list syncline) :=
  match ids with
  | [] => Ok []
  | t :: ids' =>
    let! o := match sid2nslc (t_sid t) o with Err _ => Ok o | m => m end in
    let! ls := sync_segs (S (t_fresh t)) sub day o (t_heap t) (t_first t) in
    let! ls' := sync_ids sub day o ids' in
    Ok (ls ++ ls')
  end.

(** mstl3_printsynclist, tracelist.c:2252-2308; [day] is the text of the current date made
    by snprintf from localtime: the two fields of the header line, and the lines. *)
Definition sync_buffers : nslc :=
  mk_nslc (Some (repeat 0 11)) (Some (repeat 0 11)) (Some (repeat 0 11)) (Some (repeat 0 11)).
Definition sync_list (k : tlist) (dcc : option (list Z)) (day : list Z) (sub : subseconds)
  : res ((list Z * list Z) * list syncline) :=
  let! ids := tl_ids k in
  let! ls := sync_ids sub day sync_buffers ids in
  Ok ((match dcc with Some d => d | None => [68; 67; 67] end, day), ls).
