(** * Specification notions for the trace list. *)

From Coq Require Export Permutation.
From Verif Require Export Base TlModel SampleSpec.
Open Scope Z_scope.

(** The segments of an identifier followed through the prev pointers, from the last. *)
Fixpoint walk_back (fuel : nat) (h : heap) (p : option nat) : res (list seg) :=
  match fuel with
  | O => Fuel
  | S fuel' =>
    match p with
    | None => Ok []
    | Some _ => let! n := deref h p in let! l := walk_back fuel' h (n_prev n) in Ok (n_seg n :: l)
    end
  end.
Definition tid_segs_back (t : tid) : res (list seg) := walk_back (S (t_fresh t)) (t_heap t) (t_last t).

(** Earlier first, longer first on ties. *)
Definition seg_le (a b : seg) : Prop :=
  s_start a < s_start b \/ (s_start a = s_start b /\ s_end b <= s_end a).
Fixpoint ordered (l : list seg) : Prop :=
  match l with
  | [] => True
  | a :: l' => Forall (seg_le a) l' /\ ordered l'
  end.

(** The nodes of [segs] from [p] on: each points back to the one before it, the first to
    [prv]. *)
Fixpoint chain (h : heap) (prv p : option nat) (segs : list seg) : Prop :=
  match segs with
  | [] => p = None
  | s :: segs' => exists a nxt, p = Some a /\ h a = Some (mk_node s prv nxt) /\ chain h (Some a) nxt segs'
  end.

(** The segments of an identifier are [segs]: found in both directions, each node pointing
    back to the one before it, in order, with the right count. *)
Definition well_formed (t : tid) (segs : list seg) : Prop :=
  segs <> [] /\ tid_segs t = Ok segs /\ tid_segs_back t = Ok (rev segs) /\ ordered segs
  /\ t_num t = Z.of_nat (length segs) mod 2 ^ 32 /\ chain (t_heap t) None (t_first t) segs.

(** The earliest and latest times are the extremes of the segments. *)
Definition extremes (t : tid) (segs : list seg) : Prop :=
  (exists s, In s segs /\ s_start s = t_early t) /\ (exists s, In s segs /\ s_end s = t_late t)
  /\ Forall (fun s => t_early t <= s_start s /\ s_end s <= t_late t) segs.

(** ** Where the segments come from *)

(** Records with their end times. *)
Definition rec_end (f : conf) (r : trec) : res Z := endtime (f_mode f) (f_leaps f) (r_start r) (r_cnt r) (r_rate r).
Definition timed (f : conf) (x : trec * Z) : Prop := rec_end f (fst x) = Ok (snd x).

(** [y] follows [x]: it starts a sample period after the end of [x], up to the time
    tolerance, period and tolerance being the ones of [x] or of [y].  (Times wrap around
    unless overflow is undefined.) *)
Definition follows (f : conf) (x y : trec * Z) : Prop :=
  exists c, (calc_of f (fst x) (snd x) = Ok c \/ calc_of f (fst y) (snd y) = Ok c)
    /\ c_ntol c <= swrap 64 (r_start (fst y) - snd x - c_period c) <= c_tol c
    /\ (f_mode f = Strict -> c_ntol c <= r_start (fst y) - snd x - c_period c <= c_tol c).
Fixpoint linked (f : conf) (L : list (trec * Z)) : Prop :=
  match L with
  | [] => True
  | x :: L' => match L' with [] => True | y :: _ => follows f x y end /\ linked f L'
  end.

(** The sampling rate of [x] is taken for the one of [y] when [x] is added. *)
Definition rate_like (f : conf) (x y : trec) : Prop :=
  rate_similar (sampratehz (r_rate x)) (sampratehz (r_rate y))
    (match f_rtol f with Some g => g x | None => DFin (-1 # 1) end) = true.
(** Any two of the records are joined by a sequence of such pairs: a set of them closed
    under the relation is empty or all. *)
Definition rates_joined (f : conf) (L : list (trec * Z)) : Prop :=
  forall P : trec -> Prop,
    (forall x y, In x L -> In y L -> rate_like f (fst x) (fst y) \/ rate_like f (fst y) (fst x) -> P (fst x) -> P (fst y)) ->
    (exists x, In x L /\ P (fst x)) -> forall x, In x L -> P (fst x).

Definition sum (l : list Z) : Z := fold_right Z.add 0 l.

(** The segment [s] is made of the records [L] in this order. *)
Record made (f : conf) (s : seg) (L : list (trec * Z)) : Prop := mk_made {
  md_start : exists x L', L = x :: L' /\ s_start s = r_start (fst x);
  md_end : exists L' x, L = L' ++ [x] /\ s_end s = snd x;
  md_data : s_data s = concat (map (fun x => r_data (fst x)) L);
  md_cnt : exists z, s_cnt s = sum (map (fun x => r_cnt (fst x)) L) + z * 2 ^ 64 /\ (f_mode f = Strict -> z = 0);
  md_recs : s_recs s = if f_keep f then L else [];
  md_type : Forall (fun x => r_data (fst x) <> [] -> r_type (fst x) = s_type s /\ known_type (s_type s) = true) L;
  md_hz : exists x, In x L /\ s_hz s = sampratehz (r_rate (fst x)) /\ s_type s = r_type (fst x);
  md_linked : linked f L;
  md_rates : rates_joined f L }.

(** ** The identifiers *)

(** The order of strings. *)
Fixpoint slt (a b : list Z) : Prop :=
  match a, b with
  | _, [] => False
  | [], _ :: _ => True
  | x :: a', y :: b' => x < y \/ (x = y /\ slt a' b')
  end.
(** By identifier, and by version when versions are kept apart. *)
Definition id_lt (f : conf) (t u : tid) : Prop :=
  slt (t_sid t) (t_sid u) \/ (f_split f = true /\ t_sid t = t_sid u /\ t_pub t < t_pub u).
Fixpoint ids_sorted (f : conf) (l : list tid) : Prop :=
  match l with [] => True | t :: l' => Forall (id_lt f t) l' /\ ids_sorted f l' end.

(** The identifier [t] stands for the records [L]. *)
Definition about (f : conf) (t : tid) (L : list (trec * Z)) : Prop :=
  Forall (fun x => r_sid (fst x) = t_sid t /\ (f_split f = true -> r_pub (fst x) = t_pub t \/ r_pub (fst x) = 0)
                   /\ r_pub (fst x) <= t_pub t /\ t_early t <= r_start (fst x) /\ snd x <= t_late t) L
  /\ (exists x, In x L /\ r_pub (fst x) = t_pub t)
  /\ (exists x, In x L /\ r_start (fst x) = t_early t)
  /\ (exists x, In x L /\ snd x = t_late t).

(** The trace list [k] holds the records [rs]: [gss] gives, for each identifier and
    each of its segments, the records it is made of. *)
Definition holds (f : conf) (k : tlist) (rs : list trec) (ids : list tid) (gss : list (list (list (trec * Z)))) : Prop :=
  tl_ids k = Ok ids /\ k_num k = Z.of_nat (length ids) mod 2 ^ 32 /\ ids_sorted f ids
  /\ Forall2 (fun t gs => (exists segs, well_formed t segs /\ Forall2 (made f) segs gs) /\ about f t (concat gs)) ids gss
  /\ Permutation (map fst (concat (concat gss))) rs /\ Forall (timed f) (concat (concat gss)).

(** The years 1844 to 2096 and 31 years, in nanoseconds. *)
Notation time_max := 4000000000000000000 (only parsing).
Notation period_max := 1000000000000000000 (only parsing).

(** Records whose times, periods and counts stay well inside 64 bits (when overflow is
    undefined) and for which the library's conversions are defined. *)
Definition tame_rec (f : conf) (r : trec) : Prop :=
  exists e c, rec_end f r = Ok e /\ calc_of f r e = Ok c
    /\ (f_mode f = Strict -> Z.abs (r_start r) <= time_max /\ Z.abs e <= time_max
                             /\ Z.abs (c_period c) <= period_max /\ Z.abs (c_tol c) <= period_max /\ 0 <= r_cnt r).
Definition tame (f : conf) (rs : list trec) : Prop :=
  Forall (tame_rec f) rs /\ (f_mode f = Strict -> sum (map r_cnt rs) < 2 ^ 63).
Definition valid_height (n : nat) : Prop := (1 <= n <= 8)%nat.

(** Records with end times that are not the error value and, among those of an
    identifier, one type of samples, a known one, if any of them has samples. *)
Definition no_failure (f : conf) (rs : list trec) : Prop :=
  Forall (fun r => rec_end f r <> Ok (-2145916800000000000)) rs
  /\ forall r r', In r rs -> In r' rs -> r_sid r = r_sid r' -> r_data r <> [] -> r_type r' = r_type r /\ known_type (r_type r) = true.

(** ** Records in time *)

(** The tolerance is not larger than the sample period and the record does not end
    before it starts. *)
Definition narrow (f : conf) (x : trec * Z) : Prop :=
  r_start (fst x) <= snd x /\ forall c, calc_of f (fst x) (snd x) = Ok c -> c_tol c <= c_period c.

(** ** Records that tile a time span *)

(** Every record of the list starts a period [p] after the end of the one before, up
    to [d]. *)
Fixpoint tiles (p d : Z) (T : list (trec * Z)) : Prop :=
  match T with
  | [] => True
  | x :: T' => match T' with [] => True | y :: _ => Z.abs (r_start (fst y) - snd x - p) <= d end /\ tiles p d T'
  end.

(** Records of one identifier, with one period [p] and time tolerance [tol], of sampling
    rates taken for each other; [e] is the end time. *)
Definition alike (f : conf) (p tol : Z) (T : list (trec * Z)) : Prop :=
  Forall (fun x => timed f x /\ r_start (fst x) <= snd x
                   /\ exists c, calc_of f (fst x) (snd x) = Ok c /\ c_period c = p /\ c_tol c = tol) T
  /\ (forall x y, In x T -> In y T -> rate_like f (fst x) (fst y))
  /\ (forall x y, In x T -> In y T -> r_sid (fst x) = r_sid (fst y) /\ (f_split f = true -> r_pub (fst x) = r_pub (fst y))).

(** A trace list with one identifier that has one segment, made of the records [T] in
    this order. *)
Definition one_segment (f : conf) (k : tlist) (T : list (trec * Z)) : Prop :=
  exists t s, tl_ids k = Ok [t] /\ tid_segs t = Ok [s] /\ made f s T /\ about f t T.

(** An ordinary record: times between 1902 and 2065, a sampling rate that is a finite
    number other than zero, period and time span below 28 years, a sample count. *)
Definition ordinary (r : trec) : Prop :=
  exists q, dval (r_rate r) = DFin q /\ Qnum q <> 0 /\ (period_ns q <= inject_Z 900000000000000000)%Q
    /\ (exact_span (if 0 <? r_cnt r then r_cnt r - 1 else 0) q <= inject_Z 900000000000000000)%Q
    /\ -2145916800000000000 < r_start r <= 3000000000000000000 /\ 0 <= r_cnt r < 2 ^ 63.

(** Ordinary records of one identifier and one sampling rate, in hertz a positive finite
    number, of sample period [p] nanoseconds at most 13 days; [T] has the end times. *)
Definition one_rate (f : conf) (p : Z) (T : list (trec * Z)) : Prop :=
  Forall (fun x => ordinary (fst x) /\ timed f x) T
  /\ (exists rate sid, Forall (fun x => r_rate (fst x) = rate /\ r_sid (fst x) = sid) T
        /\ nsperiod rate = Ok p /\ p <= 2 ^ 50 /\ exists h, sampratehz rate = DFin h /\ (0 < h)%Q)
  /\ (f_split f = true -> exists v, Forall (fun x => r_pub (fst x) = v) T).

(** ** Entries and records *)

(** The key of a record or entry: the identifier, and the version when versions are
    kept apart. *)
Definition key (f : conf) (sid : list Z) (pub : Z) : list Z * Z := (sid, if f_split f then pub else 0).
Definition rkey (f : conf) (r : trec) := key f (r_sid r) (r_pub r).
Definition tkey (f : conf) (t : tid) := key f (t_sid t) (t_pub t).

(** ** Statements about all records added *)

(** Records with the heights drawn for new entries; versions are not negative. *)
Definition given (rs : list (trec * nat)) : Prop := Forall (fun x => valid_height (snd x) /\ 0 <= r_pub (fst x)) rs.
Definition all_narrow (f : conf) (rs : list trec) : Prop := Forall (fun r => forall e, rec_end f r = Ok e -> narrow f (r, e)) rs.

(** What an entry [t] with the records [gs] of its segments conserves: the sample counts and the time
    spans. *)
Definition counted (t : tid) (gs : list (list (trec * Z))) : Prop :=
  exists segs, tid_segs t = Ok segs /\ sum (map s_cnt segs) = sum (map (fun x => r_cnt (fst x)) (concat gs)).
Definition covered (t : tid) (gs : list (list (trec * Z))) : Prop :=
  exists segs, tid_segs t = Ok segs /\ Forall2 (fun s g => Forall (fun x => s_start s <= r_start (fst x) /\ snd x <= s_end s) g) segs gs.
