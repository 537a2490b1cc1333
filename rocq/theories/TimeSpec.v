(** * The proleptic Gregorian calendar, counted one day at a time. *)

From Verif Require Export Base.
Open Scope Z_scope.

Definition gleap (y : Z) : bool :=
  if y mod 400 =? 0 then true else if y mod 100 =? 0 then false else y mod 4 =? 0.

Definition month_len (y m : Z) : Z :=
  if m =? 2 then (if gleap y then 29 else 28)
  else if (m =? 4) || (m =? 6) || (m =? 9) || (m =? 11) then 30 else 31.

Definition year_len (y : Z) : Z := if gleap y then 366 else 365.

(** A day: year, month, day of month, day of year. *)
Record day : Type := mk_day { d_year : Z; d_mon : Z; d_mday : Z; d_yday : Z }.

Definition next_day (d : day) : day :=
  if d_mday d <? month_len (d_year d) (d_mon d) then
    mk_day (d_year d) (d_mon d) (d_mday d + 1) (d_yday d + 1)
  else if d_mon d <? 12 then mk_day (d_year d) (d_mon d + 1) 1 (d_yday d + 1)
  else mk_day (d_year d + 1) 1 1 1.

Definition prev_day (d : day) : day :=
  if 1 <? d_mday d then mk_day (d_year d) (d_mon d) (d_mday d - 1) (d_yday d - 1)
  else if 1 <? d_mon d then
    mk_day (d_year d) (d_mon d - 1) (month_len (d_year d) (d_mon d - 1)) (d_yday d - 1)
  else mk_day (d_year d - 1) 12 31 (year_len (d_year d - 1)).

(** Day number [n] counted from 1970-01-01. *)
Definition day_at (n : Z) : day :=
  match n with
  | Z0 => mk_day 1970 1 1 1
  | Zpos p => Pos.iter next_day (mk_day 1970 1 1 1) p
  | Zneg p => Pos.iter prev_day (mk_day 1970 1 1 1) p
  end.

(** A valid calendar instant (leap seconds excluded): year, day of year, hour,
    minute, second, nanosecond. *)
Definition cal_ok (y d h mi s ns : Z) : Prop :=
  1 <= d <= year_len y /\ 0 <= h <= 23 /\ 0 <= mi <= 59 /\ 0 <= s <= 59 /\ 0 <= ns <= 999999999.

(** Chronological order on (year, day of year, hour, minute, second, nanosecond). *)
Fixpoint lex_lt (a b : list Z) : Prop :=
  match a, b with
  | x :: a', y :: b' => x < y \/ (x = y /\ lex_lt a' b')
  | _, _ => False
  end.

(** Nanoseconds from 1970-01-01T00:00:00 to a time of day on day number [n]. *)
Definition epoch_ns (n h mi s ns : Z) : Z :=
  (((n * 24 + h) * 60 + mi) * 60 + s) * 1000000000 + ns.

Definition valid_md (y m d : Z) : Prop := 1 <= m <= 12 /\ 1 <= d <= month_len y m.
