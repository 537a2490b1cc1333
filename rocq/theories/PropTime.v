(** * C08, C09, C10: calendar and epoch conversions. *)
From Verif Require Import TimeModel TimeSpec TimeProof.
Open Scope Z_scope.

(** C08: an epoch value from 1678-01-01T00:00:00 on converts to calendar fields in
    range and back to itself. *)
Theorem C08_epoch_calendar_epoch : forall mode t,
  in_s 64 t -> -9214560000000000000 <= t ->
  exists y d h mi s ns,
    nstime2time t = Ok (y, d, h, mi, s, ns) /\ 1678 <= y <= 2262 /\ cal_ok y d h mi s ns /\
    time2nstime mode y d h mi s ns = Ok t.
Proof. exact epoch_cal_epoch. Qed.
Print Assumptions C08_epoch_calendar_epoch.

Example C08_epoch_instance : nstime2time (-1) = Ok (1969, 365, 23, 59, 59, 999999999)
  /\ time2nstime Strict 1969 365 23 59 59 999999999 = Ok (-1).
Proof. split; reflexivity. Qed.

(** C08: the fields are in range for every 64-bit value. *)
Theorem C08_fields_in_range : forall t, in_s 64 t ->
  exists y d h mi s ns,
    nstime2time t = Ok (y, d, h, mi, s, ns) /\ 1677 <= y <= 2262 /\ cal_ok y d h mi s ns.
Proof. exact fields_range. Qed.
Print Assumptions C08_fields_in_range.

(** C08: a valid calendar time whose conversion does not overflow converts back to
    itself. *)
Theorem C08_calendar_epoch_calendar : forall y d h mi s ns t,
  1678 <= y <= 2262 -> cal_ok y d h mi s ns ->
  time2nstime Strict y d h mi s ns = Ok t ->
  in_s 64 t /\ nstime2time t = Ok (y, d, h, mi, s, ns).
Proof. exact cal_epoch_cal_strict. Qed.
Print Assumptions C08_calendar_epoch_calendar.

(** C08: the conversion does not overflow before 2262-04-11T23:47:16.854775808. *)
Theorem C08_calendar_representable : forall mode y d h mi s ns,
  1678 <= y -> cal_ok y d h mi s ns ->
  lex_lt [y; d; h; mi; s; ns] [2262; 101; 23; 47; 16; 854775808] ->
  exists t, time2nstime mode y d h mi s ns = Ok t.
Proof. exact no_overflow. Qed.
Print Assumptions C08_calendar_representable.

Example C08_calendar_instance :
  cal_ok 2024 366 23 59 59 1 /\
  time2nstime Strict 2024 366 23 59 59 1 = Ok 1735689599000000001 /\
  nstime2time 1735689599000000001 = Ok (2024, 366, 23, 59, 59, 1).
Proof. repeat split; vm_compute; congruence. Qed.

(** C08 without the 1678 guard is false: representable epoch values in 1677 convert
    to fields that convert back to the error value. *)
Theorem C08_year_1677_refuted :
  exists t y d h mi s ns, in_s 64 t /\ nstime2time t = Ok (y, d, h, mi, s, ns) /\
    cal_ok y d h mi s ns /\ time2nstime Strict y d h mi s ns = Ok NSTERROR /\ NSTERROR <> t.
Proof.
  exists (-9223372036854775808), 1677, 264, 0, 12, 43, 145224192.
  repeat split; vm_compute; congruence.
Qed.
Print Assumptions C08_year_1677_refuted.

(** C08 for calendar years the code accepts is false: from 2262-04-11T23:47:17 on the
    64-bit product overflows; with wrap-around the result is a date in 1677. *)
Theorem C08_year_2262_refuted :
  cal_ok 2262 200 0 0 0 0 /\ validyear 2262 = true /\
  time2nstime Strict 2262 200 0 0 0 0 = UB SignedOverflow /\
  exists t, time2nstime Wrap 2262 200 0 0 0 0 = Ok t /\ t < 0.
Proof. repeat split; try (vm_compute; congruence). exists (-9214904073709551616). split; reflexivity. Qed.
Print Assumptions C08_year_2262_refuted.

(** The error value is a legitimate instant: a caller testing for NSTERROR rejects a
    valid time (1902-01-01T00:00:00). *)
Theorem C08_error_value_refuted :
  cal_ok 1902 1 0 0 0 0 /\ time2nstime Strict 1902 1 0 0 0 0 = Ok NSTERROR /\
  time2nstime Strict 1902 0 0 0 0 0 = Ok NSTERROR.
Proof. repeat split; vm_compute; congruence. Qed.
Print Assumptions C08_error_value_refuted.

(** C09: the value computed for (year, day of year) of the n-th day counted from
    1970-01-01 is n days plus the time of day. *)
Theorem C09_gregorian_days : forall n h mi s ns t,
  1678 <= d_year (day_at n) <= 2262 ->
  0 <= h <= 23 -> 0 <= mi <= 59 -> 0 <= s <= 60 -> 0 <= ns <= 999999999 ->
  time2nstime Strict (d_year (day_at n)) (d_yday (day_at n)) h mi s ns = Ok t ->
  t = epoch_ns n h mi s ns.
Proof. exact counting_strict. Qed.
Print Assumptions C09_gregorian_days.

(** C09: every valid (year, day of year) is reached by counting. *)
Theorem C09_all_days_counted : forall y d, 1 <= d <= year_len y ->
  exists n, d_year (day_at n) = y /\ d_yday (day_at n) = d.
Proof. exact day_exists. Qed.
Print Assumptions C09_all_days_counted.

(** C09: the reverse conversion gives the counted date and the time of day, for all
    seconds values far beyond the nanosecond range (also month, day of month and
    day of week). *)
Theorem C09_gmtime_is_counted_date : forall t, - 10 ^ 16 < t < 10 ^ 16 ->
  exists r, gmtime64 t = Ok (Some r) /\
    tm_year r + 1900 = d_year (day_at (t / 86400)) /\ tm_mon r + 1 = d_mon (day_at (t / 86400)) /\
    tm_mday r = d_mday (day_at (t / 86400)) /\ tm_yday r + 1 = d_yday (day_at (t / 86400)) /\
    t = ((t / 86400 * 24 + tm_hour r) * 60 + tm_min r) * 60 + tm_sec r /\
    0 <= tm_hour r <= 23 /\ 0 <= tm_min r <= 59 /\ 0 <= tm_sec r <= 59 /\
    tm_wday r = (t / 86400 + 4) mod 7.
Proof. exact gmtime_fields. Qed.
Print Assumptions C09_gmtime_is_counted_date.

(** C09: later calendar times convert to later epoch values, and conversely. *)
Theorem C09_monotone : forall y d h mi s ns y' d' h' mi' s' ns' t t',
  1678 <= y <= 2262 -> 1678 <= y' <= 2262 ->
  cal_ok y d h mi s ns -> cal_ok y' d' h' mi' s' ns' ->
  time2nstime Strict y d h mi s ns = Ok t -> time2nstime Strict y' d' h' mi' s' ns' = Ok t' ->
  (lex_lt [y; d; h; mi; s; ns] [y'; d'; h'; mi'; s'; ns'] <-> t < t').
Proof. exact mono_strict. Qed.
Print Assumptions C09_monotone.

Example C09_instance :
  d_year (day_at 11016) = 2000 /\ d_mon (day_at 11016) = 2 /\ d_mday (day_at 11016) = 29 /\
  time2nstime Strict 2000 60 12 0 0 7 = Ok (epoch_ns 11016 12 0 0 7).
Proof. repeat split; vm_compute; reflexivity. Qed.

(** C09 monotonicity is false for second 60, which the code accepts: it converts to
    the same value as the first second of the next minute. *)
Theorem C09_second_60_refuted :
  validsec 60 = true /\
  lex_lt [2016; 366; 23; 59; 60; 0] [2017; 1; 0; 0; 0; 0] /\
  time2nstime Strict 2016 366 23 59 60 0 = time2nstime Strict 2017 1 0 0 0 0.
Proof. split; [reflexivity|split; [left; reflexivity|reflexivity]]. Qed.
Print Assumptions C09_second_60_refuted.

(** C10: month and day to day of year and back. *)
Theorem C10_md_doy_md : forall y m d, 1678 <= y <= 2262 -> valid_md y m d ->
  exists yd, md2doy y m d = Ok yd /\ 1 <= yd <= year_len y /\ doy2md y yd = Ok (m, d).
Proof. exact md_doy_md. Qed.
Print Assumptions C10_md_doy_md.

(** C10: day of year to month and day and back. *)
Theorem C10_doy_md_doy : forall y yd, 1678 <= y <= 2262 -> 1 <= yd <= year_len y ->
  exists m d, doy2md y yd = Ok (m, d) /\ valid_md y m d /\ md2doy y m d = Ok yd.
Proof. exact doy_md_doy. Qed.
Print Assumptions C10_doy_md_doy.

(** C10: the month and day are those of the counted calendar. *)
Theorem C10_doy2md_calendar : forall n, 1678 <= d_year (day_at n) <= 2262 ->
  doy2md (d_year (day_at n)) (d_yday (day_at n)) = Ok (d_mon (day_at n), d_mday (day_at n)).
Proof. exact doy2md_calendar. Qed.
Print Assumptions C10_doy2md_calendar.

(** C10: anything outside the calendar is rejected, except day 0 of a month. *)
Theorem C10_doy2md_rejects : forall y yd,
  ~ (1678 <= y <= 2262 /\ 1 <= yd <= year_len y) -> doy2md y yd = Err (-1).
Proof. exact doy2md_rejects. Qed.
Print Assumptions C10_doy2md_rejects.

Theorem C10_md2doy_rejects : forall y m d,
  ~ (1678 <= y <= 2262 /\ valid_md y m d) -> d <> 0 -> md2doy y m d = Err (-1).
Proof. exact md2doy_rejects. Qed.
Print Assumptions C10_md2doy_rejects.

Example C10_instance : md2doy 2023 12 31 = Ok 365 /\ doy2md 2024 60 = Ok (2, 29) /\ md2doy 2023 2 29 = Err (-1).
Proof. repeat split; reflexivity. Qed.

(** Day 0 is accepted: March 0 converts to the last day of February, January 0 to day
    of year 0, which the inverse rejects. *)
Theorem C10_day_zero_refuted :
  ~ valid_md 2023 1 0 /\ md2doy 2023 1 0 = Ok 0 /\ doy2md 2023 0 = Err (-1) /\ md2doy 2023 3 0 = md2doy 2023 2 28.
Proof. repeat split; try reflexivity. unfold valid_md. lia. Qed.
Print Assumptions C10_day_zero_refuted.
