(** * Trace lists written and read back: specification. *)

From Verif Require Export Base TlModel TlSpec TlPackSpec FileModel FileSpec WriteSpec.
Open Scope Z_scope.

(** A segment of the sampling rate [q]: it has samples, starts between 1902 and 2046, lasts
    at most 18 years and none of the leap seconds falls into it. *)
Definition steady (leaps : list Z) (q : Q) (s : seg) : Prop :=
  s_data s <> [] /\ s_hz s = DFin q /\ -2145916800000000000 < s_start s <= 2400000000000000000 /\
  (exact_span (lenZ (s_data s)) q <= inject_Z (2 ^ 59))%Q /\
  Forall (fun l => l <= s_start s \/ (exact_span (lenZ (s_data s)) q <= inject_Z (l - s_start s))%Q) leaps.

(** [s2] starts at least one and a half sample periods, and two microseconds, after the last
    sample of [s1]. *)
Definition gap_between (q : Q) (s1 s2 : seg) : Prop :=
  (exact_span (lenZ (s_data s1) - 1) q + (3 # 2) * period_ns q + inject_Z 2048 <= inject_Z (s_start s2 - s_start s1))%Q.

(** An entry of one sampling rate, from 1 to 200000 samples per second, whose segments are
    in order with gaps between them; an identifier stands for one type of samples (not 'a',
    text that is read back with type 't'). *)
Definition regular (leaps : list Z) (type_of : list Z -> Z) (t : tid) (segs : list seg) : Prop :=
  exists q, (1 <= q <= inject_Z 200000)%Q /\ segs <> [] /\ Forall (steady leaps q) segs /\ ForallOrdPairs (gap_between q) segs /\
    Forall (fun s => s_type s = type_of (t_sid t)) segs /\ type_of (t_sid t) <> 97.

(** The segment [s'] has the start, the samples, their type and the rate of [s]; its end is
    that of the last sample, up to a nanosecond and the rounding of doubles. *)
Definition seg_back (s s' : seg) : Prop :=
  s_start s' = s_start s /\ s_data s' = s_data s /\ s_type s' = s_type s /\ s_cnt s' = lenZ (s_data s) /\
  exists q q', s_hz s = DFin q /\ s_hz s' = DFin q' /\ (q' == q)%Q /\
    let last := exact_span (lenZ (s_data s) - 1) q in
    (Qabs (inject_Z (s_end s' - s_start s) - last) <= 1 + (last + 2) * (1 # 1125899906842624))%Q.

(** The list [k'] has the entries [ids] with the segments [segss]. *)
Definition list_back (ids : list tid) (segss : list (list seg)) (k' : tlist) : Prop :=
  exists ids', tl_ids k' = Ok ids' /\ k_num k' = Z.of_nat (length ids) mod 2 ^ 32 /\
    Forall2 (fun ts t' => t_sid t' = t_sid (fst ts) /\ t_pub t' = t_pub (fst ts) /\ t_num t' = Z.of_nat (length (snd ts)) mod 2 ^ 32 /\
                          exists segs', tid_segs t' = Ok segs' /\ Forall2 seg_back (snd ts) segs') (combine ids segss) ids'.
