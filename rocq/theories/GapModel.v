(** * The gap list (mstl3_printgaplist, libmseed/tracelist.c:2325-2421).

    A line is kept as the values it is printed from: the identifier, the two times
    (printed by ms_nstime2timestr), the gap in seconds, the value and unit shown and the
    number of samples.  The %f and %g conversions are not modelled. *)

From Verif Require Export Base TlModel.
Open Scope Z_scope.

Inductive gap_unit := Days | Hours | Zero | Seconds.
Record gapline := mk_gapline {
  l_sid : list Z; l_end : Z; l_next : Z; l_gap : dbl; l_unit : gap_unit; l_shown : dbl; l_nsamp : dbl }.

(** [x == 0.0] *)
Definition is_zero (x : dbl) : bool := match x with DFin q => qzero q | _ => false end.

(** [(double)(x - y) / NSTMODULUS] *)
Definition seconds (mode : ovmode) (x y : Z) : res dbl :=
  let! d := sarith mode 64 (x - y) in Ok (ddiv (dofz d) d1e9).

(** tracelist.c:2362-2371, [a] the segment and [b] the next. *)
Definition gap_of (mode : ovmode) (a b : seg) : res dbl :=
  let! g := seconds mode (s_start b) (s_end a) in
  if dlt g dzero then
    let delta := if is_zero (s_hz b) then dzero else ddiv (DFin 1%Q) (s_hz b) in
    let! cov := seconds mode (s_end b) (s_start b) in
    if dlt (dadd cov delta) (dmul g (DFin (-1 # 1))) then Ok (dopp (dadd cov delta)) else Ok g
  else Ok g.

(** tracelist.c:2373-2382 *)
Definition printed (lo hi : option dbl) (g : dbl) : bool :=
  negb (match lo with Some m => dlt g m | None => false end)
  && negb (match hi with Some m => dlt m g | None => false end).

(** tracelist.c:2386-2391 *)
Definition gap_samples (g hz : dbl) : dbl :=
  let n := dmul (dabs g) hz in
  if dlt dzero g then dadd n (DFin (-1 # 1)) else dadd n (DFin 1%Q).

(** tracelist.c:2394-2401 *)
Definition dle (x y : dbl) : bool := match x, y with DNaN, _ | _, DNaN => false | _, _ => negb (dlt y x) end.
Definition gap_shown (g : dbl) : gap_unit * dbl :=
  let day := DFin (inject_Z 86400) in let hour := DFin (inject_Z 3600) in
  if dle day g || dle g (dopp day) then (Days, ddiv g day)
  else if dle hour g || dle g (dopp hour) then (Hours, ddiv g hour)
  else if is_zero g then (Zero, g) else (Seconds, g).

(** One turn of the loop, tracelist.c:2355-2415: the line printed, if any. *)
Definition gap_line (mode : ovmode) (lo hi : option dbl) (sid : list Z) (a b : seg) : res (list gapline) :=
  if is_zero (s_hz a) then Ok []
  else
    let! g := gap_of mode a b in
    if printed lo hi g then
      let (u, v) := gap_shown g in
      Ok [mk_gapline sid (s_end a) (s_start b) g u v (gap_samples g (s_hz a))]
    else Ok [].

Fixpoint gap_segs (fuel : nat) (mode : ovmode) (lo hi : option dbl) (sid : list Z) (h : heap) (p : option nat) : res (list gapline) :=
  match fuel with
  | O => Fuel
  | S fuel' =>
    let! n := deref h p in
    match n_next n with
    | None => Ok []
    | Some b =>
      let! nb := deref h (Some b) in
      let! l := gap_line mode lo hi sid (n_seg n) (n_seg nb) in
      let! l' := gap_segs fuel' mode lo hi sid h (Some b) in
      Ok (l ++ l')
    end
  end.

Fixpoint gap_ids (mode : ovmode) (lo hi : option dbl) (ids : list tid) : res (list gapline) :=
  match ids with
  | [] => Ok []
  | t :: ids' =>
    let! l := gap_segs (S (t_fresh t)) mode lo hi (t_sid t) (t_heap t) (t_first t) in
    let! l' := gap_ids mode lo hi ids' in
    Ok (l ++ l')
  end.

(** The lines and the total, an int. *)
Definition gap_list (mode : ovmode) (k : tlist) (lo hi : option dbl) : res (list gapline * Z) :=
  let! ids := tl_ids k in
  let! l := gap_ids mode lo hi ids in
  let! n := sarith mode 32 (Z.of_nat (length l)) in
  Ok (l, n).
