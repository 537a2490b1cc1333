(** * Model of time strings (libmseed/genutils.c:926-1124, 1278-1609).

    A C string is the list of its characters before the terminator. *)

From Coq Require Import String Ascii.
From Verif Require Import Base FloatOps TimeModel.
Open Scope Z_scope.
Open Scope list_scope.

(** Character codes of a literal. *)
Fixpoint zs (s : string) : list Z :=
  match s with
  | EmptyString => []
  | String c s' => Z.of_N (N_of_ascii c) :: zs s'
  end.

(** ** printf conversions of the C library used by the code *)

(** Exactly [w] decimal digits of [v] (leading zeros). *)
Fixpoint pad (w : nat) (v : Z) : list Z :=
  match w with
  | O => []
  | S w' => pad w' (v / 10) ++ [v mod 10 + 48]
  end.

(** Number of decimal digits, [0 <= v]. *)
Fixpoint ndig (fuel : nat) (v : Z) : nat :=
  match fuel with
  | O => 1
  | S f => if v <? 10 then 1 else S (ndig f (v / 10))
  end.

(** "%d" (also PRId64). *)
Definition dec (v : Z) : list Z :=
  if v <? 0 then 45 :: pad (ndig 20 (- v)) (- v) else pad (ndig 20 v) v.

(** "%0[w]d" for [0 <= v] *)
Definition dec0 (w : nat) (v : Z) : list Z :=
  repeat 48 (w - length (dec v)) ++ dec v.

(** "%[w]d" *)
Definition decs (w : nat) (v : Z) : list Z :=
  repeat 32 (w - length (dec v)) ++ dec v.

(** snprintf: what is stored, and the returned count. *)
Definition snprintf (size : nat) (s : list Z) : list Z * Z :=
  (firstn (size - 1) s, Z.of_nat (length s)).

(** ms_timeformat_t, ms_subseconds_t, libmseed.h:282-316. *)
Inductive timeformat : Set :=
| ISOMONTHDAY | ISOMONTHDAY_Z | ISOMONTHDAY_DOY | ISOMONTHDAY_DOY_Z
| ISOMONTHDAY_SPACE | ISOMONTHDAY_SPACE_Z | SEEDORDINAL | UNIXEPOCH | NANOSECONDEPOCH.
Inductive subseconds : Set :=
| NONE | MICRO | NANO | MICRO_NONE | NANO_NONE | NANO_MICRO | NANO_MICRO_NONE.

(** Which of the three branches is taken (genutils.c:976-979, 1020-1023,
    1064-1067): number of sub-second digits, [None] for the "unhandled" branch. *)
Definition sub_digits (sub : subseconds) (nanosec : Z) : option nat :=
  let microsec := Z.quot nanosec 1000 in
  let submicro := nanosec - microsec * 1000 in
  match sub with
  | NONE => Some 0%nat
  | MICRO => Some 6%nat
  | NANO => Some 9%nat
  | MICRO_NONE => if microsec =? 0 then Some 0%nat else Some 6%nat
  | NANO_NONE => if nanosec =? 0 then Some 0%nat else Some 9%nat
  | NANO_MICRO => if submicro =? 0 then Some 6%nat else Some 9%nat
  | NANO_MICRO_NONE =>
    if nanosec =? 0 then Some 0%nat else if submicro =? 0 then Some 6%nat else Some 9%nat
  end.

Definition needs_calendar (f : timeformat) : bool :=
  match f with UNIXEPOCH | NANOSECONDEPOCH => false | _ => true end.

Definition is_z (f : timeformat) : bool :=
  match f with ISOMONTHDAY_Z | ISOMONTHDAY_DOY_Z | ISOMONTHDAY_SPACE_Z => true | _ => false end.
Definition is_space (f : timeformat) : bool :=
  match f with ISOMONTHDAY_SPACE | ISOMONTHDAY_SPACE_Z => true | _ => false end.

(** The sub-second text: nothing, ".%06d" of the microseconds or ".%09d" of the
    nanoseconds. *)
Definition sub_text (digits : nat) (nanosec : Z) : list Z :=
  match digits with
  | O => []
  | 6%nat => 46 :: dec0 6 (Z.quot nanosec 1000)
  | _ => 46 :: dec0 9 nanosec
  end.

(** ms_nstime2timestr, genutils.c:926-1124 (the three sub-second branches differ
    only in the sub-second text and the expected length).  [None]: NULL returned. *)
Definition nstime2timestr (nstime : Z) (f : timeformat) (sub : subseconds) : res (option (list Z)) :=
  let rawisec := Z.quot nstime NSTMODULUS in
  let raw0 := swrap 32 (nstime - rawisec * NSTMODULUS) in
  let adj := (nstime <? 0) && negb (raw0 =? 0) in
  let isec := if adj then rawisec - 1 else rawisec in
  let nanosec := if adj then NSTMODULUS - (- raw0) else raw0 in
  let rawnanosec := if adj then raw0 * -1 else raw0 in
  let! tms :=
    if needs_calendar f then gmtime64 isec else Ok (Some (mk_tm 0 0 0 0 0 0 0 0)) in
  match tms with
  | None => Ok None
  | Some t =>
    match sub_digits sub nanosec with
    | None => Ok None
    | Some dg =>
      let z := if is_z f then zs "Z" else [] in
      let plus := match dg with O => 0%nat | _ => S dg end in
      let year := decs 4 (tm_year t + 1900) in
      let hms := dec0 2 (tm_hour t) ++ zs ":" ++ dec0 2 (tm_min t) ++ zs ":" ++ dec0 2 (tm_sec t)
                 ++ sub_text dg nanosec in
      let date := year ++ zs "-" ++ dec0 2 (tm_mon t + 1) ++ zs "-" ++ dec0 2 (tm_mday t) in
      (* expected length (-1: not checked), buffer size, text *)
      let '(expected, size, text) :=
        match f with
        | ISOMONTHDAY | ISOMONTHDAY_Z | ISOMONTHDAY_SPACE | ISOMONTHDAY_SPACE_Z =>
          let ex := ((if is_z f then 20 else 19) + plus)%nat in
          (Z.of_nat ex, S ex, date ++ (if is_space f then zs " " else zs "T") ++ hms ++ z)
        | ISOMONTHDAY_DOY | ISOMONTHDAY_DOY_Z =>
          let ex := ((if is_z f then 26 else 25) + plus)%nat in
          (Z.of_nat ex, S ex, date ++ zs "T" ++ hms ++ z ++ zs " (" ++ dec0 3 (tm_yday t + 1) ++ zs ")")
        | SEEDORDINAL =>
          let ex := (17 + plus)%nat in
          (Z.of_nat ex, S ex, year ++ zs "," ++ dec0 3 (tm_yday t + 1) ++ zs "," ++ hms)
        | UNIXEPOCH => (-1, 22%nat, dec rawisec ++ sub_text dg rawnanosec)
        | NANOSECONDEPOCH => (-1, 22%nat, dec nstime)
        end in
      let (stored, printed) := snprintf size text in
      if (expected =? 0) || ((0 <? expected) && negb (printed =? expected)) then Ok None
      else Ok (Some stored)
    end
  end.

(** ** sscanf conversions of the C library used by the code *)

Definition is_space_char (c : Z) : bool := (c =? 32) || ((9 <=? c) && (c <=? 13)).
Definition is_digit (c : Z) : bool := (48 <=? c) && (c <=? 57).

Fixpoint skip_ws (s : list Z) : list Z :=
  match s with
  | c :: s' => if is_space_char c then skip_ws s' else s
  | [] => []
  end.

(** Value and number of leading digits. *)
Fixpoint scan_digits (s : list Z) (acc : Z) (n : nat) : Z * nat * list Z :=
  match s with
  | c :: s' => if is_digit c then scan_digits s' (acc * 10 + (c - 48)) (S n) else (acc, n, s)
  | [] => (acc, n, [])
  end.

Definition scan_sign (s : list Z) : bool * list Z :=
  match s with
  | 45 :: s' => (true, s')
  | 43 :: s' => (false, s')
  | _ => (false, s)
  end.

(** "%d" or SCNd64 into a [w]-bit integer; [None]: matching or input failure; a value
    that does not fit is undefined (C11 7.21.6.2 p10). *)
Definition scan_int (w : Z) (s : list Z) : res (option (Z * list Z)) :=
  let (neg, s1) := scan_sign (skip_ws s) in
  match scan_digits s1 0 0 with
  | (_, O, _) => Ok None
  | (v, _, rest) =>
    let v := if neg then - v else v in
    if in_sb w v then Ok (Some (v, rest)) else UB SignedOverflow
  end.

(** "%*[set]" *)
Fixpoint drop_set (set : list Z) (s : list Z) : list Z :=
  match s with
  | c :: s' => if existsb (Z.eqb c) set then drop_set set s' else s
  | [] => []
  end.
Definition scan_set (set : list Z) (s : list Z) : option (list Z) :=
  match s with
  | c :: _ => if existsb (Z.eqb c) set then Some (drop_set set s) else None
  | [] => None
  end.

(** "%lf": decimal notation without exponent, correctly rounded.  Input that starts
    a hexadecimal, infinite, NaN or exponent form is outside the model ([Err 99]). *)
Definition lf_foreign (c : Z) : bool := existsb (Z.eqb c) (zs "eExXiInN").
Definition scan_lf (s : list Z) : res (option (Q * list Z)) :=
  let (neg, s1) := scan_sign (skip_ws s) in
  let '(v1, n1, s2) := scan_digits s1 0 0 in
  let '(v, n2, s3) := match s2 with
                      | 46 :: s2' => scan_digits s2' v1 0
                      | _ => (v1, 0%nat, s2)
                      end in
  if match s3 with c :: _ => lf_foreign c | [] => false end then Err 99
  else if (n1 + n2 =? 0)%nat then Ok None
  else match rnd64 (Qmake (if neg then - v else v) (Z.to_pos (10 ^ Z.of_nat n2))) with
       | Some q => Ok (Some (q, s3))
       | None => Err 99
       end.

(** One conversion at a time; the integers assigned and the floating value. *)
Inductive directive : Set := Dint (w : Z) | Dset (set : list Z) | Dlf.
Fixpoint sscanf (dirs : list directive) (s : list Z) (acc : list Z) : res (list Z * option Q) :=
  match dirs with
  | [] => Ok (acc, None)
  | Dint w :: dirs' =>
    let! r := scan_int w s in
    match r with
    | None => Ok (acc, None)
    | Some (v, s') => sscanf dirs' s' (acc ++ [v])
    end
  | Dset set :: dirs' =>
    match scan_set set s with
    | None => Ok (acc, None)
    | Some s' => sscanf dirs' s' acc
    end
  | Dlf :: _ =>
    let! r := scan_lf s in
    match r with
    | None => Ok (acc, None)
    | Some (q, _) => Ok (acc, Some q)
    end
  end.

(** ** Parsing *)

(** Conversion of a double to int or uint32_t: undefined when the truncated value
    does not fit (C11 6.3.1.4). *)
Definition to_uint32 (q : Q) : res Z :=
  let v := qtrunc q in if in_ub 32 v then Ok v else UB SignedOverflow.
Definition to_int32 (q : Q) : res Z :=
  let v := qtrunc q in if in_sb 32 v then Ok v else UB SignedOverflow.

(** fsec * 1000000000.0 + 0.5 in double arithmetic. *)
Definition fsec_scaled (fsec : Q) : res Q :=
  match rnd64 (fsec * inject_Z 1000000000)%Q with
  | None => Err 99
  | Some y => match rnd64 (y + (1 # 2))%Q with None => Err 99 | Some z => Ok z end
  end.

(** genutils.c:1455-1458, 1561-1564 *)
Definition fsec_nanos (fsec : option Q) : res Z :=
  match fsec with
  | None => Ok 0
  | Some q => if Qeq_bool q 0 then Ok 0 else let! z := fsec_scaled q in to_uint32 z
  end.

Definition set_md1 : list Z := zs "-,/:.".
Definition set_md2 : list Z := zs "-,/:.Tt ".
Definition set_seed1 : list Z := zs "-,:.".
Definition set_seed2 : list Z := zs "-,:.Tt ".

(** ms_mdtimestr2nstime, genutils.c:1431-1515 *)
Definition mdtimestr2nstime (mode : ovmode) (s : list Z) : res Z :=
  let! (ints, fsec) := sscanf [Dint 32; Dset set_md1; Dint 32; Dset set_md1; Dint 32; Dset set_md2;
                               Dint 32; Dset set_md1; Dint 32; Dset set_md1; Dint 32; Dlf] s [] in
  let year := nth 0 ints 0 in
  let mon := nth 1 ints 1 in
  let mday := nth 2 ints 1 in
  let hour := nth 3 ints 0 in
  let min := nth 4 ints 0 in
  let sec := nth 5 ints 0 in
  let! nsec := fsec_nanos fsec in
  if (length ints =? 0)%nat then Ok NSTERROR
  else if negb (validyear year) then Ok NSTERROR
  else if negb (validmonth mon) then Ok NSTERROR
  else
    let! md := validmonthday year mon mday in
    if negb md then Ok NSTERROR
    else if negb (validhour hour) then Ok NSTERROR
    else if negb (validmin min) then Ok NSTERROR
    else if negb (validsec sec) then Ok NSTERROR
    else if negb (validnanosec nsec) then Ok NSTERROR
    else match md2doy year mon mday with
         | Err _ => Ok NSTERROR
         | Ok yday => time2nstime_int mode year yday hour min sec nsec
         | UB u => UB u
         | Fuel => Fuel
         end.

(** ms_seedtimestr2nstime, genutils.c:1539-1609 *)
Definition seedtimestr2nstime (mode : ovmode) (s : list Z) : res Z :=
  let! (ints, fsec) := sscanf [Dint 32; Dset set_seed1; Dint 32; Dset set_seed2;
                               Dint 32; Dset set_seed1; Dint 32; Dset set_seed1; Dint 32; Dlf] s [] in
  let year := nth 0 ints 0 in
  let yday := nth 1 ints 1 in
  let hour := nth 2 ints 0 in
  let min := nth 3 ints 0 in
  let sec := nth 4 ints 0 in
  let! nsec := fsec_nanos fsec in
  if (length ints =? 0)%nat then Ok NSTERROR
  else if negb (validyear year) then Ok NSTERROR
  else if negb (validyearday year yday) then Ok NSTERROR
  else if negb (validhour hour) then Ok NSTERROR
  else if negb (validmin min) then Ok NSTERROR
  else if negb (validsec sec) then Ok NSTERROR
  else if negb (validnanosec nsec) then Ok NSTERROR
  else time2nstime_int mode year yday hour min sec nsec.

(** The classification loop of ms_timestr2nstime, genutils.c:1303-1348. *)
Record tscan : Type := mk_tscan {
  ts_first : option Z;   (* first delimiter character *)
  ts_delims : Z;         (* delimiters before the separator *)
  ts_numlike : Z;
  ts_sep : bool;
  ts_error : bool;
  ts_length : Z
}.

Definition is_delim (c : Z) : bool := existsb (Z.eqb c) (zs "-/,:.").

Fixpoint classify (s : list Z) (start : bool) (a : tscan) : tscan :=
  match s with
  | [] => a
  | c :: s' =>
    let len := ts_length a + 1 in
    if is_delim c then
      classify s' false
        (mk_tscan (match ts_first a with Some d => Some d | None => Some c end)
                  (if ts_sep a then ts_delims a else ts_delims a + 1)
                  (if ((c =? 45) && start) || (c =? 46) then ts_numlike a + 1 else ts_numlike a)
                  (ts_sep a) (ts_error a) len)
    else if (c =? 43) && start then
      classify s' false (mk_tscan (ts_first a) (ts_delims a) (ts_numlike a + 1) (ts_sep a) (ts_error a) len)
    else if negb (ts_sep a) && ((c =? 84) || (c =? 32)) then
      classify s' false (mk_tscan (ts_first a) (ts_delims a) (ts_numlike a) true (ts_error a) len)
    else if is_digit c then
      classify s' false (mk_tscan (ts_first a) (ts_delims a) (ts_numlike a + 1) (ts_sep a) (ts_error a) len)
    else if ((c =? 90) || (c =? 122)) && match s' with [] => true | _ => false end then
      mk_tscan (ts_first a) (ts_delims a) (ts_numlike a) (ts_sep a) (ts_error a) len
    else mk_tscan (ts_first a) (ts_delims a) (ts_numlike a) (ts_sep a) true len
  end.

Definition tscan0 : tscan := mk_tscan None 0 0 false false 0.

(** The epoch branch, genutils.c:1355-1376. *)
Definition epochstr2nstime (mode : ovmode) (s : list Z) : res Z :=
  let! (ints, fsec) := sscanf [Dint 64; Dlf] s [] in
  match ints with
  | [] => Ok NSTERROR
  | sec :: _ =>
    let! nst := sarith mode 64 (sec * NSTMODULUS) in
    match fsec with
    | None => Ok nst
    | Some q =>
      if Qeq_bool q 0 then Ok nst
      else
        let! z := fsec_scaled q in
        let! k := to_int32 z in
        if 0 <=? nst then sarith mode 64 (nst + k) else sarith mode 64 (nst - k)
    end
  end.

(** ms_timestr2nstime, genutils.c:1278-1406 *)
Definition timestr2nstime (mode : ovmode) (s : list Z) : res Z :=
  let a := classify s true tscan0 in
  let signed := match s with c :: _ => (c =? 45) || (c =? 43) | [] => false end in
  if negb (ts_error a) && (ts_length a =? ts_numlike a) && (negb (ts_length a =? 4) || signed) then
    epochstr2nstime mode s
  else if negb (ts_error a) && (4 <=? ts_length a) && (ts_length a <=? 32) then
    match ts_first a with
    | Some d =>
      if ((d =? 45) || (d =? 47)) && (ts_delims a =? 2) then mdtimestr2nstime mode s
      else if (d =? 45) && (ts_delims a =? 1) then seedtimestr2nstime mode s
      else if d =? 44 then seedtimestr2nstime mode s
      else Ok NSTERROR
    | None =>
      if (ts_length a =? 4) && negb (ts_sep a) then seedtimestr2nstime mode s else Ok NSTERROR
    end
  else Ok NSTERROR.
