(** * C49: dates as written by hand. *)
From Coq Require Import String.
From Verif Require Import TimeModel TimeStrModel TimeSpec LeapSpec DateSpec DateProof.
Open Scope Z_scope.
Open Scope list_scope.

(** C49: a text in one of the four calendar forms, with any part of the time of day left
    out and numbers of any width, is read as the instant it writes. *)
Theorem C49_dates : forall mode f y r h mi s ns n,
  date_text f y r h mi s ns -> (length f <= 32)%nat -> names n y r -> 1678 <= y <= 2262 -> good_clock h mi s ->
  in_s 64 (epoch_ns n h mi s ns) -> timestr2nstime mode f = Ok (epoch_ns n h mi s ns).
Proof. exact dates_ok. Qed.
Print Assumptions C49_dates.

Ltac dg := split; [discriminate|apply Forall_forall; intros x I; cbn in I; lia].
Example C49_dates_instance :
  date_text (zs "2010/2/3T4:05Z") 2010 (Md 2 3) 4 5 0 0 /\ names 14643 2010 (Md 2 3) /\
  timestr2nstime Strict (zs "2010/2/3T4:05Z") = Ok 1265169900000000000 /\ epoch_ns 14643 4 5 0 0 = 1265169900000000000 /\
  date_text (zs "2010,034") 2010 (Yd 34) 0 0 0 0 /\ timestr2nstime Strict (zs "2010,034") = Ok 1265155200000000000.
Proof.
  split; [|split; [split; [reflexivity|split; reflexivity]|split; [vm_compute; reflexivity|split; [reflexivity|split; [|vm_compute; reflexivity]]]]].
  - apply (date_md (zs "2010") 47 (zs "2") 47 (zs "3") (zs "T4:05Z") 4 5 0 0); [dg|dg|dg|right; reflexivity|right; reflexivity|].
    apply (later_clock t_or_space 84 (zs "4:05") (zs "Z")); [left; reflexivity| |right; left; reflexivity].
    apply (clock_m (zs "4") 58 (zs "05")); [dg|right; right; reflexivity|dg].
  - apply (date_seed (zs "2010") (zs "034") []); [dg|dg|]. constructor. left. reflexivity.
Qed.

(** C49: such a text is refused when it is longer than 32 characters, names no day of the
    calendar, or has a year or time of day out of range. *)
Theorem C49_rejects : forall mode f y r h mi s ns,
  date_text f y r h mi s ns -> y < 2 ^ 31 -> h < 2 ^ 31 -> mi < 2 ^ 31 -> s < 2 ^ 31 ->
  match r with Md m d => m < 2 ^ 31 /\ d < 2 ^ 31 /\ d <> 0 | Yd k => k < 2 ^ 31 end ->
  (32 < length f)%nat \/ ~ (exists n, names n y r) \/ ~ 1678 <= y <= 2262 \/ ~ good_clock h mi s ->
  timestr2nstime mode f = Ok NSTERROR.
Proof. exact dates_reject. Qed.
Print Assumptions C49_rejects.

Example C49_rejects_instance :
  date_text (zs "2011-366") 2011 (Yd 366) 0 0 0 0 /\ timestr2nstime Strict (zs "2011-366") = Ok NSTERROR /\
  timestr2nstime Strict (zs "2012-366") = Ok 1356912000000000000 /\ timestr2nstime Strict (zs "2011-02-29") = Ok NSTERROR.
Proof.
  split; [|split; [|split]; vm_compute; reflexivity].
  apply (date_ordinal (zs "2011") (zs "366") []); [dg|dg|]. constructor. left. reflexivity.
Qed.

(** C49: seconds since 1970, with a sign or without. *)
Theorem C49_seconds : forall mode t ns,
  seconds_text t ns -> in_s 64 ns ->
  (length t <> 4%nat -> timestr2nstime mode t = Ok ns) /\ timestr2nstime mode (43 :: t) = Ok ns /\
  (1000000000 <= ns -> timestr2nstime mode (45 :: t) = Ok (- ns)).
Proof. exact seconds_ok. Qed.
Print Assumptions C49_seconds.

Example C49_seconds_instance :
  seconds_text (zs "12.05") 12050000000 /\ timestr2nstime Strict (zs "-12.05") = Ok (-12050000000) /\
  timestr2nstime Strict (zs "+2010") = Ok 2010000000000.
Proof.
  split; [|split; vm_compute; reflexivity]. apply (seconds_frac (zs "12") (zs "05")); [dg|dg|]. cbn. lia.
Qed.

(** C49: a text with any other character in it is refused. *)
Theorem C49_foreign : forall mode c f, In c f -> ~ known_char c -> timestr2nstime mode f = Ok NSTERROR.
Proof. exact foreign_ok. Qed.
Print Assumptions C49_foreign.

Example C49_foreign_instance : In 74 (zs "2010-Jan-01") /\ ~ known_char 74 /\ timestr2nstime Strict (zs "2010-Jan-01") = Ok NSTERROR.
Proof. split; [cbn; tauto|split; [unfold known_char; lia|vm_compute; reflexivity]]. Qed.

(** C49 fails for the fraction after a comma that the list of forms shows
    (genutils.c:1252): it is dropped, as is anything after the seconds. *)
Theorem C49_comma_fraction_refuted :
  timestr2nstime Strict (zs "2010,034,00,00,00,500000000") = Ok 1265155200000000000 /\
  timestr2nstime Strict (zs "2010,034,00,00,00.500000000") = Ok 1265155200500000000 /\
  timestr2nstime Strict (zs "2010-02-03T00:00:00:99") = Ok 1265155200000000000.
Proof. split; [|split]; vm_compute; reflexivity. Qed.
Print Assumptions C49_comma_fraction_refuted.

(** C49 fails for day zero of a month, which is the last day of the month before. *)
Theorem C49_day_zero_refuted :
  ~ (exists n, names n 2010 (Md 2 0)) /\
  timestr2nstime Strict (zs "2010-02-00") = Ok 1264896000000000000 /\ timestr2nstime Strict (zs "2010-01-31") = Ok 1264896000000000000.
Proof.
  split; [|split; vm_compute; reflexivity]. intros (n & N). destruct (names_ordinal n _ _ N) as (_ & _ & [_ V]). lia.
Qed.
Print Assumptions C49_day_zero_refuted.

(** C49 fails for a fraction of ten digits that rounds up to a whole second: refused. *)
Theorem C49_long_fraction_refuted :
  timestr2nstime Strict (zs "2010-02-03T00:00:00.9999999999") = Ok NSTERROR /\
  timestr2nstime Strict (zs "2010-02-03T00:00:00.9999999994") = Ok 1265155200999999999.
Proof. split; vm_compute; reflexivity. Qed.
Print Assumptions C49_long_fraction_refuted.

(** C49 fails for a number too large for an int and for dates of 2262 after the largest
    time: both are undefined. *)
Theorem C49_overflow_refuted :
  timestr2nstime Strict (zs "2010-99999999999-01") = UB SignedOverflow /\
  timestr2nstime Strict (zs "2262-12-31") = UB SignedOverflow.
Proof. split; vm_compute; reflexivity. Qed.
Print Assumptions C49_overflow_refuted.

(** C49 fails for a negative time of less than a second: the sign is lost. *)
Theorem C49_sign_refuted :
  timestr2nstime Strict (zs "-0.5") = Ok 500000000 /\ seconds_text (zs "0.5") 500000000.
Proof. split; [vm_compute; reflexivity|]. apply (seconds_frac (zs "0") (zs "5")); [dg|dg|cbn; lia]. Qed.
Print Assumptions C49_sign_refuted.
