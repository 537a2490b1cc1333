(** * Model of the calendar and epoch conversions
    (libmseed/genutils.c, libmseed/gmtime64.c).

    C division truncates ([Z.quot], [Z.rem]); right shifts of negative ints are
    arithmetic (implementation-defined in C, universal in practice). *)

From Verif Require Import Base.
Open Scope Z_scope.

(** libmseed.h:230, 235, 240. *)
Definition NSTMODULUS : Z := 1000000000.
Definition NSTERROR : Z := -2145916800000000000.
Definition NSTUNSET : Z := -2145916799999999999.

(** LEAPYEAR, genutils.c:118. *)
Definition leapyear (year : Z) : bool :=
  ((Z.rem year 4 =? 0) && negb (Z.rem year 100 =? 0)) || (Z.rem year 400 =? 0).

(** monthdays, monthdays_leap, genutils.c:114-115. *)
Definition monthdays (leap : bool) : list Z :=
  if leap then [31; 29; 31; 30; 31; 30; 31; 31; 30; 31; 30; 31]
  else [31; 28; 31; 30; 31; 30; 31; 31; 30; 31; 30; 31].

(** VALIDYEAR .. VALIDNANOSEC, genutils.c:121-142. *)
Definition validyear (y : Z) : bool := (1678 <=? y) && (y <=? 2262).
Definition validmonth (m : Z) : bool := (1 <=? m) && (m <=? 12).
Definition validyearday (y d : Z) : bool := (1 <=? d) && (d <=? 365 + (if leapyear y then 1 else 0)).
Definition validhour (h : Z) : bool := (0 <=? h) && (h <=? 23).
Definition validmin (m : Z) : bool := (0 <=? m) && (m <=? 59).
Definition validsec (s : Z) : bool := (0 <=? s) && (s <=? 60).
Definition validnanosec (n : Z) : bool := n <=? 999999999.
(** VALIDMONTHDAY, genutils.c:127; evaluated only after VALIDMONTH. *)
Definition validmonthday (y m d : Z) : res bool :=
  if 0 <=? d then
    let! l := getZ (m - 1) (monthdays (leapyear y)) in Ok (d <=? l)
  else Ok false.

(** The loop of ms_doy2md, genutils.c:765-776: [None] when it ends without a
    break (the outputs stay unset). *)
Fixpoint doy2md_loop (idx : Z) (days : list Z) (yday : Z) : option (Z * Z) :=
  match days with
  | [] => None
  | d :: days' =>
    let yday' := yday - d in
    if yday' <=? 0 then Some (idx + 1, d + yday') else doy2md_loop (idx + 1) days' yday'
  end.

(** ms_doy2md, genutils.c:741-779 (non-NULL outputs). *)
Definition doy2md (year yday : Z) : res (Z * Z) :=
  if negb (validyear year) then Err (-1)
  else if negb (validyearday year yday) then Err (-1)
  else match doy2md_loop 0 (monthdays (leapyear year)) yday with
       | Some r => Ok r
       | None => UB Uninit
       end.

(** The loop of ms_md2doy, genutils.c:824-836. *)
Fixpoint md2doy_loop (idx month : Z) (days : list Z) (mday acc : Z) : Z :=
  match days with
  | [] => acc
  | d :: days' =>
    if idx =? month then acc + mday else md2doy_loop (idx + 1) month days' mday (acc + d)
  end.

(** ms_md2doy, genutils.c:795-839 (non-NULL output). *)
Definition md2doy (year month mday : Z) : res Z :=
  if negb (validyear year) then Err (-1)
  else if negb (validmonth month) then Err (-1)
  else
    let! ok := validmonthday year month mday in
    if negb ok then Err (-1)
    else Ok (md2doy_loop 0 (month - 1) (monthdays (leapyear year)) mday 0).

(** ** ms_gmtime64_r, gmtime64.c:71-185 *)

Record tm : Type := mk_tm {
  tm_year : Z; tm_mon : Z; tm_mday : Z; tm_yday : Z; tm_hour : Z; tm_min : Z; tm_sec : Z; tm_wday : Z
}.

(** IS_LEAP, gmtime64.c:66. *)
Definition is_leap64 (n : Z) : bool :=
  (Z.rem (n + 1900) 400 =? 0) || ((Z.rem (n + 1900) 4 =? 0) && negb (Z.rem (n + 1900) 100 =? 0)).

Definition length_of_year (leap : bool) : Z := if leap then 366 else 365.
Definition days_in_gregorian_cycle : Z := 146097.
(** julian_days_by_month, gmtime64.c:46-49. *)
Definition julian_days (leap : bool) : list Z :=
  if leap then [0; 31; 60; 91; 121; 152; 182; 213; 244; 274; 305; 335]
  else [0; 31; 59; 90; 120; 151; 181; 212; 243; 273; 304; 334].

(** gmtime64.c:121-127 *)
Fixpoint years_up (fuel : nat) (m year : Z) : res (Z * Z) :=
  if length_of_year (is_leap64 year) <=? m then
    match fuel with
    | O => Fuel
    | S f => years_up f (m - length_of_year (is_leap64 year)) (year + 1)
    end
  else Ok (m, year).

(** gmtime64.c:129-135; [days] is the rest of the month table from [mon]. *)
Fixpoint months_up (days : list Z) (m mon : Z) : res (Z * Z) :=
  match days with
  | [] => UB OOBRead
  | d :: days' => if d <=? m then months_up days' (m - d) (mon + 1) else Ok (m, mon)
  end.

(** gmtime64.c:150-156 *)
Fixpoint years_down (fuel : nat) (m year : Z) : res (Z * Z) :=
  if m <? - length_of_year (is_leap64 year) then
    match fuel with
    | O => Fuel
    | S f => years_down f (m + length_of_year (is_leap64 year)) (year - 1)
    end
  else Ok (m, year).

(** gmtime64.c:158-165; [days] is the month table from [mon] downwards. *)
Fixpoint months_down (days : list Z) (m mon : Z) : res (Z * Z) :=
  match days with
  | [] => UB OOBRead
  | d :: days' => if m <? - d then months_down days' (m + d) (mon - 1) else Ok (m + d, mon)
  end.

(** WRAP_TIME64, gmtime64.c:69: returns the pair of updated (a, b). *)
Definition wrap64 (a b m : Z) : Z * Z := if a <? 0 then (a + m, b - 1) else (a, b).

(** [None]: the function returned NULL. *)
Definition gmtime64 (time : Z) : res (option tm) :=
  let sec := Z.rem time 60 in
  let t1 := Z.quot time 60 in
  let min := Z.rem t1 60 in
  let t2 := Z.quot t1 60 in
  let hour := Z.rem t2 24 in
  let tday := Z.quot t2 24 in
  let (sec, min) := wrap64 sec min 60 in
  let (min, hour) := wrap64 min hour 60 in
  let (hour, tday) := wrap64 hour tday 24 in
  let wday := Z.rem (tday + 4) 7 in
  let wday := if wday <? 0 then wday + 7 else wday in
  let (year, m) := if 13879 <=? tday then (108, tday - 13879) else (70, tday) in
  let! (m, mon, year) :=
    if 0 <=? m then
      let cycles := Z.quot m days_in_gregorian_cycle in
      let m := m - cycles * days_in_gregorian_cycle in
      let year := year + cycles * 400 in
      let! (m, year) := years_up 500 m year in
      let! (m, mon) := months_up (monthdays (is_leap64 year)) m 0 in
      Ok (m, mon, year)
    else
      let year := year - 1 in
      let cycles := Z.quot m days_in_gregorian_cycle + 1 in
      let m := m - cycles * days_in_gregorian_cycle in
      let year := year + cycles * 400 in
      let! (m, year) := years_down 900 m year in
      let! (m, mon) := months_down (rev (monthdays (is_leap64 year))) m 11 in
      Ok (m, mon, year) in
  if negb (swrap 32 year =? year) then Ok None
  else
    let! j := getZ mon (julian_days (is_leap64 year)) in
    Ok (Some (mk_tm year mon (m + 1) (j + m) hour min sec wday)).

(** Splitting nanoseconds, genutils.c:865-875 (also 946-956): whole seconds and
    fraction, both rounded towards minus infinity by the adjustment. *)
Definition nssplit (nstime : Z) : Z * Z :=
  let isec := Z.quot nstime NSTMODULUS in
  let ifract := swrap 32 (nstime - isec * NSTMODULUS) in
  if (nstime <? 0) && negb (ifract =? 0) then (isec - 1, NSTMODULUS - (- ifract)) else (isec, ifract).

(** ms_nstime2time with all outputs requested, genutils.c:859-900: year, day of
    year, hour, minute, second, nanosecond. *)
Definition nstime2time (nstime : Z) : res (Z * Z * Z * Z * Z * Z) :=
  let (isec, ifract) := nssplit nstime in
  let! r := gmtime64 isec in
  match r with
  | None => Err (-1)
  | Some t =>
    Ok (uwrap 16 (tm_year t + 1900), uwrap 16 (tm_yday t + 1), uwrap 8 (tm_hour t),
        uwrap 8 (tm_min t), uwrap 8 (tm_sec t), uwrap 32 ifract)
  end.

(** ms_time2nstime_int, genutils.c:1166-1187.  The [int] intermediate values are
    far from overflow for the years allowed by the callers; the final products are
    64-bit signed. *)
Definition time2nstime_int (mode : ovmode) (year yday hour min sec nsec : Z) : res Z :=
  let shortyear := year - 1900 in
  let a4 := Z.shiftr shortyear 2 + 475 - (if Z.land shortyear 3 =? 0 then 1 else 0) in
  let a100 := Z.quot a4 25 - (if Z.rem a4 25 <? 0 then 1 else 0) in
  let a400 := Z.shiftr a100 2 in
  let intervening_leap_days := (a4 - 492) - (a100 - 19) + (a400 - 4) in
  let days := 365 * (shortyear - 70) + intervening_leap_days + (yday - 1) in
  let! p := sarith mode 64 ((60 * (60 * (24 * days + hour) + min) + sec) * NSTMODULUS) in
  sarith mode 64 (p + nsec).

(** ms_time2nstime, genutils.c:1204-1244: returns NSTERROR for invalid values. *)
Definition time2nstime (mode : ovmode) (year yday hour min sec nsec : Z) : res Z :=
  if negb (validyear year) then Ok NSTERROR
  else if negb (validyearday year yday) then Ok NSTERROR
  else if negb (validhour hour) then Ok NSTERROR
  else if negb (validmin min) then Ok NSTERROR
  else if negb (validsec sec) then Ok NSTERROR
  else if negb (validnanosec nsec) then Ok NSTERROR
  else time2nstime_int mode year yday hour min sec nsec.
