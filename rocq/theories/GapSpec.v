(** * Specification notions for the gap list. *)

From Verif Require Export Base TlModel TlSpec GapModel.
Open Scope Z_scope.

(** Consecutive segments. *)
Definition consecutive (segs : list seg) : list (seg * seg) := combine segs (tl segs).

Definition secs (ns : Z) : Q := (inject_Z ns / inject_Z 1000000000)%Q.
Definition has_rate (s : seg) : Prop := exists h, s_hz s = DFin h /\ ~ (h == 0)%Q.
Definition rate_of (s : seg) : Q := match s_hz s with DFin h => h | _ => 0%Q end.

(** The start of the later one minus the end of the earlier one, in seconds. *)
Definition exact_gap (a b : seg) : Q := secs (s_start b - s_end a).
(** The time covered by a segment: to its last sample and a sample period. *)
Definition coverage (s : seg) : Q := (secs (s_end s - s_start s) + (if Qeq_bool (rate_of s) 0 then 0 else 1 / rate_of s))%Q.
(** The value to report: an overlap is not longer than the coverage of the later one. *)
Definition to_report (a b : seg) : Q :=
  if Qle_bool 0 (exact_gap a b) then exact_gap a b
  else if Qle_bool (- coverage b) (exact_gap a b) then exact_gap a b else (- coverage b)%Q.

(** Equal up to the rounding of doubles (relative 2^-50). *)
Definition close (v q : Q) : Prop := (Qabs (v - q) <= Qabs q * (1 # 1125899906842624))%Q.

Definition outside (lo hi : option Q) (v : Q) : Prop :=
  (exists m, lo = Some m /\ (v < m)%Q) \/ (exists m, hi = Some m /\ (m < v)%Q).

(** The line of a pair with gap [v]; the samples missing are one less, the samples
    overlapping one more, than the gap in sample periods; long gaps are shown in days or hours. *)
Definition line_of (sid : list Z) (a b : seg) (v : Q) (l : gapline) : Prop :=
  l_sid l = sid /\ l_end l = s_end a /\ l_next l = s_start b /\ l_gap l = DFin v
  /\ (exists n, l_nsamp l = DFin n
        /\ (Qabs (n - (Qabs v * rate_of a + (if Qle_bool v 0 then 1 else - (1)))) <= (Qabs v * rate_of a + 1) * (1 # 1125899906842624))%Q)
  /\ (exists w, l_shown l = DFin w /\
        match l_unit l with
        | Days => (inject_Z 86400 <= Qabs v)%Q /\ close w (v / inject_Z 86400)
        | Hours => (inject_Z 3600 <= Qabs v < inject_Z 86400)%Q /\ close w (v / inject_Z 3600)
        | Zero => (v == 0)%Q
        | Seconds => (Qabs v < inject_Z 3600)%Q /\ ~ (v == 0)%Q /\ w = v
        end).

(** The lines for the pairs, in order: one for each pair whose first segment has a
    sampling rate and whose gap is inside the limits. *)
Inductive reports (lo hi : option Q) (sid : list Z) : list (seg * seg) -> list gapline -> Prop :=
| rp_nil : reports lo hi sid [] []
| rp_no_rate a b ps ls : ~ has_rate a -> reports lo hi sid ps ls -> reports lo hi sid ((a, b) :: ps) ls
| rp_out a b ps ls v : has_rate a -> close v (to_report a b) -> outside lo hi v -> reports lo hi sid ps ls -> reports lo hi sid ((a, b) :: ps) ls
| rp_in a b ps l ls v : has_rate a -> close v (to_report a b) -> ~ outside lo hi v -> line_of sid a b v l ->
    reports lo hi sid ps ls -> reports lo hi sid ((a, b) :: ps) (l :: ls).

(** Segments with times inside 64 bits and a finite sampling rate that is zero or in a
    wide range. *)
Definition gap_seg (s : seg) : Prop :=
  Z.abs (s_start s) <= time_max /\ Z.abs (s_end s) <= time_max /\ s_start s <= s_end s
  /\ exists h, s_hz s = DFin h /\ ((h == 0)%Q \/ ((1 # 1000000000000) <= h <= inject_Z (2 ^ 900))%Q).

(** Limits as doubles. *)
Definition fin (o : option Q) : option dbl := match o with Some q => Some (DFin q) | None => None end.
(** Records with a rate in hertz that is finite and not extreme. *)
Definition rated (r : trec) : Prop := exists h, sampratehz (r_rate r) = DFin h /\ (h <= inject_Z (2 ^ 900))%Q.
