(** * Sample times (libmseed/genutils.c, libmseed/msrutils.c). *)

From Verif Require Export Base DblModel.
Open Scope Z_scope.

Definition NSTMODULUS : Z := 1000000000.
Definition d1e9 : dbl := DFin (inject_Z NSTMODULUS).
Definition dhalf : dbl := DFin (1 # 2).

(** The span of ms_sampletime, genutils.c:1640-1652.  [rate] is the bit pattern of
    samprate. *)
Definition sample_span (offset rate : Z) : res Z :=
  let r := dval rate in
  if 0 <? offset then
    if dlt dzero r then to_int64 (dadd (dmul (ddiv (dofz offset) r) d1e9) dhalf)
    else if dlt r dzero then to_int64 (dadd (dmul (dmul (dofz offset) (dopp r)) d1e9) dhalf)
    else Ok 0
  else Ok 0.

(** The leap second loop, genutils.c:1655-1669; [leaps] is leapsecondlist. *)
Fixpoint leap_adjust (mode : ovmode) (leaps : list Z) (time span : Z) : res Z :=
  match leaps with
  | [] => Ok span
  | l :: ls =>
    if time <? l then
      let! a := sarith mode 64 (time + span) in
      let! b := sarith mode 64 (a - NSTMODULUS) in
      if l <=? b then sarith mode 64 (span - NSTMODULUS) else leap_adjust mode ls time span
    else leap_adjust mode ls time span
  end.

(** ms_sampletime, genutils.c:1637-1672. *)
Definition sampletime (mode : ovmode) (leaps : list Z) (time offset rate : Z) : res Z :=
  let! span := sample_span offset rate in
  let! span := leap_adjust mode leaps time span in
  sarith mode 64 (time + span).

(** msr3_endtime, msrutils.c:201-213. *)
Definition endtime (mode : ovmode) (leaps : list Z) (start cnt rate : Z) : res Z :=
  sampletime mode leaps start (if 0 <? cnt then cnt - 1 else 0) rate.

(** msr3_nsperiod, msrutils.c:366-379. *)
Definition nsperiod (rate : Z) : res Z :=
  let r := dval rate in
  if dlt dzero r then to_int64 (dadd (ddiv d1e9 r) dhalf)
  else if dlt r dzero then to_int64 (dadd (dmul d1e9 (dopp r)) dhalf)
  else Ok 0.

(** msr3_sampratehz, msrutils.c:347-357. *)
Definition sampratehz (rate : Z) : dbl :=
  let r := dval rate in
  if dlt r dzero then ddiv (DFin (-1 # 1)) r else r.

(** The embedded leap second list, genutils.c:79-108: NTP times less
    NTPPOSIXEPOCHDELTA, in nanoseconds. *)
Definition embedded_leaps : list Z :=
  map (fun x => (x - 2208988800) * NSTMODULUS)
    [2272060800; 2287785600; 2303683200; 2335219200; 2366755200; 2398291200; 2429913600; 2461449600;
     2492985600; 2524521600; 2571782400; 2603318400; 2634854400; 2698012800; 2776982400; 2840140800;
     2871676800; 2918937600; 2950473600; 2982009600; 3029443200; 3076704000; 3124137600; 3345062400;
     3439756800; 3550089600; 3644697600; 3692217600].
