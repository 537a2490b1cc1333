(** * Specification vocabulary for sample times. *)

From Coq Require Export QArith Qabs.
From Verif Require Export Base DblModel.
Open Scope Z_scope.

(** The sample period in nanoseconds, exactly: a positive rate is in samples per
    second, a negative one is a period in seconds. *)
Definition period_ns (rate : Q) : Q :=
  (if (0 <? Qnum rate)%Z then inject_Z 1000000000 / rate else (- rate) * inject_Z 1000000000)%Q.

(** The span of [n] sample periods. *)
Definition exact_span (n : Z) (rate : Q) : Q := (inject_Z n * period_ns rate)%Q.

(** A leap second [l] falls between [t] and [t + span]. *)
Definition inside (t span l : Z) : Prop := t < l /\ l + 1000000000 <= t + span.

(** A whole number of nanoseconds at most half a nanosecond, and the rounding of
    doubles (relative 2^-50), away from the exact span. *)
Definition near_span (z : Z) (s : Q) : Prop := (Qabs (inject_Z z - s) <= (1 # 2) + (s + 1) * (1 # 1125899906842624))%Q.

(** The listed leap seconds between [t] and [t + span]. *)
Definition count_inside (t span : Z) (leaps : list Z) : Z :=
  Z.of_nat (length (filter (fun l => (t <? l) && (l + 1000000000 <=? t + span)) leaps)).

(** [t] is [k] sample periods after [start], less a second when a listed leap second is
    between. *)
Definition starts_at (start : Z) (leaps : list Z) (rate : Q) (k t : Z) : Prop :=
  exists z, near_span z (exact_span k rate) /\
    t = start + z - Z.min 1 (count_inside start z leaps) * 1000000000.
