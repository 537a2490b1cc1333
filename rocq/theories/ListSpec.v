(** * Specification notions for the trace list and the SYNC list. *)

From Verif Require Export Base TlModel TlSpec GapSpec StrSpec TimeStrSpec ListModel.
Open Scope Z_scope.

(** The text of an instant: in the formats with a date it reads back as the instant (from
    1678 on, to the resolution). *)
Definition dated (f : timeformat) : Prop :=
  In f [ISOMONTHDAY; ISOMONTHDAY_Z; ISOMONTHDAY_SPACE; ISOMONTHDAY_SPACE_Z; SEEDORDINAL].
Definition time_shown (f : timeformat) (sub : subseconds) (t : Z) (s : list Z) : Prop :=
  nstime2timestr t f sub = Ok (Some s)
  /\ (-9214560000000000000 <= t -> dated f -> forall mode, timestr2nstime mode s = Ok (floor_to (resolution sub) t)).

(** A gap of [v] seconds shown as [w] days, hours or seconds. *)
Definition shown_as (u : gap_unit) (v w : Q) : Prop :=
  match u with
  | Days => (inject_Z 86400 <= Qabs v)%Q /\ close w (v / inject_Z 86400)
  | Hours => (inject_Z 3600 <= Qabs v < inject_Z 86400)%Q /\ close w (v / inject_Z 3600)
  | Zero => (v == 0)%Q
  | Seconds => (Qabs v < inject_Z 3600)%Q /\ ~ (v == 0)%Q /\ w = v
  end.

(** The gap column of [s] after [prv]. *)
Definition gap_column (gaps : bool) (prv : option seg) (s : seg) (g : option (option (gap_unit * dbl))) : Prop :=
  match gaps, prv with
  | false, _ => g = None
  | true, None => g = Some None
  | true, Some a => exists v u w, g = Some (Some (u, DFin w)) /\ close v (to_report a s) /\ shown_as u v w
  end.

(** The line of a segment. *)
Definition trace_line (f : timeformat) (details gaps : bool) (sid : list Z) (prv : option seg) (s : seg) (l : traceline) : Prop :=
  q_sid l = sid /\ time_shown f NANO_MICRO (s_start s) (q_start l) /\ time_shown f NANO_MICRO (s_end s) (q_end l)
  /\ q_more l = (if details then Some (s_hz s, s_cnt s) else None) /\ gap_column gaps prv s (q_gap l).

(** One line for each segment, in order. *)
Fixpoint trace_lines (f : timeformat) (details gaps : bool) (sid : list Z) (prv : option seg) (segs : list seg) (ls : list traceline) : Prop :=
  match segs, ls with
  | [], [] => True
  | s :: segs', l :: ls' => trace_line f details gaps sid prv s l /\ trace_lines f details gaps sid (Some s) segs' ls'
  | _, _ => False
  end.

(** The identifier, with the version when asked for: SID#VERSION. *)
Definition shown_sid (versions : bool) (t : tid) : list Z :=
  if versions then t_sid t ++ [35] ++ dec (t_pub t) else t_sid t.

(** What fits the fields of MS3TraceID: sid of LM_SIDLEN = 64 bytes, a version of 8 bits. *)
Definition id_fits (t : tid) : Prop := Z.of_nat (length (t_sid t)) <= 63 /\ 0 <= t_pub t <= 255.
Definition rec_fits (r : trec) : Prop := Z.of_nat (length (r_sid r)) <= 63 /\ 0 <= r_pub r <= 255.

(** The identifier FDSN:NET_STA_LOC_B_S_SS (other namespaces may precede the codes), the
    channel in SEED form when it has one; the codes have at most ten characters. *)
Definition sid_codes (sid net sta loc chan : list Z) : Prop :=
  exists ns ch, sid = fdsn ++ ns ++ net ++ [95] ++ sta ++ [95] ++ loc ++ [95] ++ ch
    /\ (ns = [] \/ exists a, ns = a ++ [58])
    /\ plain_code net /\ plain_code sta /\ plain_code loc /\ text ch /\ ~ In 58 ch /\ count_char 95 ch = 2
    /\ (has_seed_form ch chan \/ (forall t, ~ has_seed_form ch t) /\ chan = ch)
    /\ (length net <= 10)%nat /\ (length sta <= 10)%nat /\ (length loc <= 10)%nat /\ (length ch <= 10)%nat.

(** The SYNC line of a segment. *)
Definition sync_line (sub : subseconds) (day net sta loc chan : list Z) (s : seg) (l : syncline) : Prop :=
  y_net l = net /\ y_sta l = sta /\ y_loc l = loc /\ y_chan l = chan
  /\ time_shown SEEDORDINAL sub (s_start s) (y_start l) /\ time_shown SEEDORDINAL sub (s_end s) (y_end l)
  /\ y_hz l = s_hz s /\ y_cnt l = s_cnt s /\ y_day l = day.

(** Entries with well-formed segments whose times are far inside 64 bits and whose rates
    are finite. *)
Definition listed (t : tid) : Prop := id_fits t /\ exists segs, well_formed t segs /\ Forall gap_seg segs.

(** Entries with an identifier made of short codes and times of 64 bits. *)
Definition timely (s : seg) : Prop := in_s 64 (s_start s) /\ in_s 64 (s_end s).
Definition synced (t : tid) : Prop :=
  (exists net sta loc chan, sid_codes (t_sid t) net sta loc chan) /\ exists segs, tid_segs t = Ok segs /\ Forall timely segs.
