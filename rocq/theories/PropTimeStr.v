(** * C11: printed times parse back. *)
From Coq Require Import String.
From Verif Require Import FloatOps TimeModel TimeStrModel TimeStrSpec TimeStrProof.
Open Scope Z_scope.
Open Scope list_scope.

(** C11: in every date-time format without the trailing day of year, an instant from
    1678-01-01 on prints, and the general parser reads back the instant truncated to the
    chosen resolution (the very instant for the nanosecond settings). *)
Theorem C11_date_formats : forall mode t f sub,
  in_s 64 t -> -9214560000000000000 <= t ->
  In f [ISOMONTHDAY; ISOMONTHDAY_Z; ISOMONTHDAY_SPACE; ISOMONTHDAY_SPACE_Z; SEEDORDINAL] ->
  exists s, nstime2timestr t f sub = Ok (Some s) /\
            timestr2nstime mode s = Ok (floor_to (resolution sub) t).
Proof. exact calendar_roundtrip. Qed.
Print Assumptions C11_date_formats.

Example C11_date_instance :
  nstime2timestr (-1500) ISOMONTHDAY_SPACE_Z NANO_MICRO = Ok (Some (zs "1969-12-31 23:59:59.999998500Z")) /\
  timestr2nstime Strict (zs "1969-12-31 23:59:59.999998500Z") = Ok (-1500) /\
  nstime2timestr (-1500) SEEDORDINAL MICRO = Ok (Some (zs "1969,365,23:59:59.999998")) /\
  timestr2nstime Strict (zs "1969,365,23:59:59.999998") = Ok (-2000) /\ floor_to 1000 (-1500) = -2000.
Proof. repeat split; vm_compute; reflexivity. Qed.

(** C11: the year-month-day parser reads all six month-day formats, also those with a
    trailing day of year. *)
Theorem C11_month_day_parser : forall mode t f sub,
  in_s 64 t -> -9214560000000000000 <= t ->
  In f [ISOMONTHDAY; ISOMONTHDAY_Z; ISOMONTHDAY_DOY; ISOMONTHDAY_DOY_Z; ISOMONTHDAY_SPACE; ISOMONTHDAY_SPACE_Z] ->
  exists s, nstime2timestr t f sub = Ok (Some s) /\
            mdtimestr2nstime mode s = Ok (floor_to (resolution sub) t).
Proof. exact md_roundtrip. Qed.
Print Assumptions C11_month_day_parser.

Example C11_month_day_instance :
  nstime2timestr 86399999999999 ISOMONTHDAY_DOY_Z NANO_NONE = Ok (Some (zs "1970-01-01T23:59:59.999999999Z (001)")) /\
  mdtimestr2nstime Strict (zs "1970-01-01T23:59:59.999999999Z (001)") = Ok 86399999999999.
Proof. split; vm_compute; reflexivity. Qed.

(** C11: the SEED ordinal parser reads the SEED ordinal format. *)
Theorem C11_seed_parser : forall mode t sub,
  in_s 64 t -> -9214560000000000000 <= t ->
  exists s, nstime2timestr t SEEDORDINAL sub = Ok (Some s) /\
            seedtimestr2nstime mode s = Ok (floor_to (resolution sub) t).
Proof. exact seed_roundtrip. Qed.
Print Assumptions C11_seed_parser.

Example C11_seed_instance :
  nstime2timestr 951782400000000000 SEEDORDINAL NANO_MICRO_NONE = Ok (Some (zs "2000,060,00:00:00")) /\
  seedtimestr2nstime Strict (zs "2000,060,00:00:00") = Ok 951782400000000000.
Proof. split; vm_compute; reflexivity. Qed.

(** C11: epoch seconds parse back (truncated towards the epoch), for non-negative times
    and for times at least one second before the epoch, unless the text has exactly four
    characters and no sign. *)
Theorem C11_epoch_seconds : forall mode t sub,
  in_s 64 t -> (0 <= t \/ t <= -1000000000 /\ sub <> MICRO_NONE) ->
  exists s, nstime2timestr t UNIXEPOCH sub = Ok (Some s) /\
    (length s <> 4%nat \/ t < 0 -> timestr2nstime mode s = Ok (chop_to (resolution sub) t)).
Proof. exact unix_roundtrip. Qed.
Print Assumptions C11_epoch_seconds.

Example C11_epoch_instance :
  nstime2timestr (-1500000000) UNIXEPOCH NANO_MICRO = Ok (Some (zs "-1.500000")) /\
  timestr2nstime Strict (zs "-1.500000") = Ok (-1500000000) /\
  nstime2timestr 9223372036854775807 UNIXEPOCH NANO = Ok (Some (zs "9223372036.854775807")) /\
  timestr2nstime Strict (zs "9223372036.854775807") = Ok 9223372036854775807.
Proof. repeat split; vm_compute; reflexivity. Qed.

(** Every value prints in the nanosecond epoch format. *)
Theorem C11_nanosecond_epoch_prints : forall t sub,
  in_s 64 t -> nstime2timestr t NANOSECONDEPOCH sub = Ok (Some (dec t)).
Proof. exact nano_print. Qed.
Print Assumptions C11_nanosecond_epoch_prints.

Example C11_nanosecond_instance : dec (-9223372036854775807) = zs "-9223372036854775807".
Proof. vm_compute. reflexivity. Qed.

(** What C11 says beyond that is false. *)

(** The day-of-year formats are refused by the general parser. *)
Theorem C11_doy_format_refuted :
  nstime2timestr 0 ISOMONTHDAY_DOY NONE = Ok (Some (zs "1970-01-01T00:00:00 (001)")) /\
  timestr2nstime Strict (zs "1970-01-01T00:00:00 (001)") = Ok NSTERROR.
Proof. split; vm_compute; reflexivity. Qed.

(** Nanosecond epochs are read as seconds. *)
Theorem C11_nanosecond_epoch_refuted :
  nstime2timestr 12345 NANOSECONDEPOCH NANO = Ok (Some (zs "12345")) /\
  timestr2nstime Strict (zs "12345") = Ok 12345000000000.
Proof. split; vm_compute; reflexivity. Qed.

(** Instants in the second before the epoch lose their sign in the epoch format. *)
Theorem C11_epoch_sign_refuted :
  nstime2timestr (-500000000) UNIXEPOCH NANO = Ok (Some (zs "0.500000000")) /\
  timestr2nstime Strict (zs "0.500000000") = Ok 500000000.
Proof. split; vm_compute; reflexivity. Qed.

(** Four-digit epoch seconds are read as a year. *)
Theorem C11_epoch_year_refuted :
  nstime2timestr 1970000000000 UNIXEPOCH NANO_NONE = Ok (Some (zs "1970")) /\
  timestr2nstime Strict (zs "1970") = Ok 0.
Proof. split; vm_compute; reflexivity. Qed.

(** Epoch format with "microseconds or none" drops the microseconds of a negative time. *)
Theorem C11_epoch_micro_none_refuted :
  nstime2timestr (-1999999500) UNIXEPOCH MICRO_NONE = Ok (Some (zs "-1")) /\
  timestr2nstime Strict (zs "-1") = Ok (-1000000000).
Proof. split; vm_compute; reflexivity. Qed.

(** An instant in 1677 prints but is not read back. *)
Theorem C11_year_1677_refuted :
  nstime2timestr (-9223372036854775807) ISOMONTHDAY NANO = Ok (Some (zs "1677-09-21T00:12:43.145224193")) /\
  timestr2nstime Strict (zs "1677-09-21T00:12:43.145224193") = Ok NSTERROR.
Proof. split; vm_compute; reflexivity. Qed.

(** A negative fraction typed by the user makes the parser convert a negative double to
    uint32_t, which is undefined. *)
Theorem C11_negative_fraction_refuted :
  timestr2nstime Strict (zs "2000-01-01T00:00:00-0.5") = UB SignedOverflow.
Proof. vm_compute. reflexivity. Qed.
