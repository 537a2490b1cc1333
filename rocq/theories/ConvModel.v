(** * Conversion of sample types (libmseed/tracelist.c, mstl3_convertsamples).

    Samples are bit patterns in a memory of 32-bit words; a double is two words, the low
    one first (little-endian host).  Arithmetic is that of IEEE 754, nearest-even, without
    excess precision.  A finite value is a sign and a magnitude in units of 2^-1074, the
    smallest positive double, so that every float, double and their sums are integers. *)

From Verif Require Export Base FloatOps.
Open Scope Z_scope.

Inductive fnum := FFin (neg : bool) (mag : Z) | FInf (neg : bool) | FNan (neg : bool) (frac : Z).

(** A binary format: [fb] fraction bits, [eb] exponent bits; its smallest positive value
    is [2^sh] units. *)
Record format := mk_format { fb : Z; eb : Z; sh : Z }.
Definition binary32 := mk_format 23 8 925.
Definition binary64 := mk_format 52 11 0.

Definition decode_fmt (F : format) (bits : Z) : fnum :=
  let neg := 2 ^ (fb F + eb F) <=? bits in
  let e := bits / 2 ^ fb F mod 2 ^ eb F in
  let f := bits mod 2 ^ fb F in
  if e =? 2 ^ eb F - 1 then (if f =? 0 then FInf neg else FNan neg f)
  else FFin neg ((if e =? 0 then f else (f + 2 ^ fb F) * 2 ^ (e - 1)) * 2 ^ sh F).

(** Rounding a magnitude to a format; the pattern without sign.  Beyond the largest
    finite value the result is infinity. *)
Definition round_mag (F : format) (mag : Z) : Z :=
  let e := Z.max 0 (Z.log2 mag - sh F - fb F) in
  Z.min (e * 2 ^ fb F + rne_div mag (2 ^ (e + sh F))) ((2 ^ eb F - 1) * 2 ^ fb F).
Definition with_sign (F : format) (neg : bool) (b : Z) : Z := if neg then 2 ^ (fb F + eb F) + b else b.
Definition encode_fmt (F : format) (v : Z) : Z := with_sign F (v <? 0) (round_mag F (Z.abs v)).

Definition signed_mag (neg : bool) (mag : Z) : Z := if neg then - mag else mag.
Definition unit1 : Z := 2 ^ 1074.

(** Conversion to int32_t: towards zero, undefined when out of range. *)
Definition to_int32 (x : fnum) : res Z :=
  match x with
  | FFin neg mag => let v := signed_mag neg (mag / unit1) in if in_sb 32 v then Ok v else UB SignedOverflow
  | _ => UB SignedOverflow
  end.

(** The sum of a value and [d] units, rounded to a format. *)
Definition add_units (F : format) (x : fnum) (d : Z) : fnum :=
  match x with
  | FFin neg mag => decode_fmt F (encode_fmt F (signed_mag neg mag + d))
  | _ => x
  end.

(** [x > 0.000001], the constant being the double 0x3EB0C6F7A0B5ED8D. *)
Definition above_limit (x : fnum) : bool :=
  match x, decode_fmt binary64 0x3EB0C6F7A0B5ED8D with
  | FFin neg mag, FFin _ lim => lim <? signed_mag neg mag
  | FInf neg, _ => negb neg
  | _, _ => false
  end.

(** The double constant 0.5. *)
Definition half_units : Z := match decode_fmt binary64 0x3FE0000000000000 with FFin _ m => m | _ => 0 end.

(** Conversions between the formats.  A NaN becomes quiet and keeps its leading
    fraction bits, as on x86 and ARM (the language leaves this open). *)
Definition float_to_double (w : Z) : Z :=
  match decode_fmt binary32 w with
  | FFin neg mag => with_sign binary64 neg (round_mag binary64 mag)
  | FInf neg => with_sign binary64 neg (2047 * 2 ^ 52)
  | FNan neg f => with_sign binary64 neg (2047 * 2 ^ 52 + Z.lor f (2 ^ 22) * 2 ^ 29)
  end.
Definition double_to_float (w : Z) : Z :=
  match decode_fmt binary64 w with
  | FFin neg mag => with_sign binary32 neg (round_mag binary32 mag)
  | FInf neg => with_sign binary32 neg (255 * 2 ^ 23)
  | FNan neg f => with_sign binary32 neg (255 * 2 ^ 23 + Z.lor (f / 2 ^ 29) (2 ^ 22))
  end.
Definition int_to_fmt (F : format) (v : Z) : Z := encode_fmt F (v * unit1).

(** ** Memory *)

Definition get_word (i : Z) (mem : list Z) : res Z :=
  if i <? 0 then UB OOBRead else match nth_error mem (Z.to_nat i) with Some w => Ok w | None => UB OOBRead end.
Fixpoint put_nat (i : nat) (w : Z) (mem : list Z) : option (list Z) :=
  match mem, i with
  | [], _ => None
  | _ :: r, O => Some (w :: r)
  | x :: r, S j => match put_nat j w r with Some r' => Some (x :: r') | None => None end
  end.
Definition put_word (i w : Z) (mem : list Z) : res (list Z) :=
  if i <? 0 then UB OOBWrite else match put_nat (Z.to_nat i) w mem with Some m => Ok m | None => UB OOBWrite end.
Definition get_double (i : Z) (mem : list Z) : res Z :=
  let! lo := get_word (2 * i) mem in
  let! hi := get_word (2 * i + 1) mem in
  Ok (hi * 2 ^ 32 + lo).

(** ** The loops *)

(** One float or double to integer, tracelist.c:1407-1415 and 1422-1430: [None] is loss of
    precision.  The difference is rounded to the type of the sample [F]; the sum is a sum
    of doubles in both cases. *)
Definition sample_to_int (F : format) (truncate : bool) (x : fnum) : res (option Z) :=
  let! lost :=
    (if truncate then Ok false
     else let! t := to_int32 x in
          Ok (above_limit (match decode_fmt F (int_to_fmt F t) with
                           | FFin neg mag => add_units F x (- signed_mag neg mag)
                           | y => y
                           end))) in
  if lost then Ok None
  else let! z := to_int32 (add_units binary64 x half_units) in Ok (Some z).

(** tracelist.c:1405-1416 and 1420-1431: the memory after the loop and whether it ended
    without loss. *)
Fixpoint to_ints (n : nat) (i : Z) (dbl truncate : bool) (mem : list Z) : res (list Z * bool) :=
  match n with
  | O => Ok (mem, true)
  | S n' =>
    let! w := (if dbl then get_double i mem else get_word i mem) in
    let F := if dbl then binary64 else binary32 in
    let! r := sample_to_int F truncate (decode_fmt F w) in
    match r with
    | None => Ok (mem, false)
    | Some z => let! mem := put_word i (uwrap 32 z) mem in to_ints n' (i + 1) dbl truncate mem
    end
  end.

(** tracelist.c:1454-1455 and 1459-1460. *)
Fixpoint to_floats (n : nat) (i : Z) (dbl : bool) (mem : list Z) : res (list Z) :=
  match n with
  | O => Ok mem
  | S n' =>
    let! f := (if dbl then let! w := get_double i mem in Ok (double_to_float w)
               else let! w := get_word i mem in Ok (int_to_fmt binary32 (swrap 32 w))) in
    let! mem := put_word i f mem in
    to_floats n' (i + 1) dbl mem
  end.

(** tracelist.c:1489-1490 and 1496-1497: the new memory. *)
Fixpoint to_doubles (n : nat) (i : Z) (flt : bool) (mem : list Z) : res (list Z) :=
  match n with
  | O => Ok []
  | S n' =>
    let! w := get_word i mem in
    let d := if flt then float_to_double w else int_to_fmt binary64 (swrap 32 w) in
    let! r := to_doubles n' (i + 1) flt mem in
    Ok (d mod 2 ^ 32 :: d / 2 ^ 32 :: r)
  end.

(** ** The segment *)

(** The fields of MS3TraceSeg used: sampletype, numsamples, datasize, datasamples. *)
Record cseg := mk_cseg { c_type : Z; c_num : Z; c_size : Z; c_mem : list Z }.

(** Reallocation to [4 * n] bytes, when not pre-allocating. *)
Definition shrink (prealloc : bool) (n : Z) (size : Z) (mem : list Z) : Z * list Z :=
  if prealloc then (size, mem) else (4 * n, firstn (Z.to_nat n) mem).

(** mstl3_convertsamples, tracelist.c:1372-1508; allocation succeeds.  [prealloc] is
    libmseed_prealloc_block_size <> 0.  A source type that is neither integer, float nor
    double is only relabelled, to doubles with memory that is not initialised (-1). *)
Definition convertsamples (prealloc : bool) (s : cseg) (type : Z) (truncate : bool) : res (cseg * Z) :=
  let n := Z.to_nat (c_num s) in
  if c_type s =? type then Ok (s, 0)
  else if (c_type s =? 116) || (type =? 116) || (c_type s =? 97) || (type =? 97) then Ok (s, -1)
  else if type =? 105 then
    if (c_type s =? 102) || (c_type s =? 100) then
      let! r := to_ints n 0 (c_type s =? 100) truncate (c_mem s) in
      let (mem, done) := r in
      if negb done then Ok (mk_cseg (c_type s) (c_num s) (c_size s) mem, -1)
      else if c_type s =? 100 then
        let (size, mem) := shrink prealloc (c_num s) (c_size s) mem in
        Ok (mk_cseg 105 (c_num s) size mem, 0)
      else Ok (mk_cseg 105 (c_num s) (c_size s) mem, 0)
    else Ok (mk_cseg 105 (c_num s) (c_size s) (c_mem s), 0)
  else if type =? 102 then
    if (c_type s =? 105) || (c_type s =? 100) then
      let! mem := to_floats n 0 (c_type s =? 100) (c_mem s) in
      if c_type s =? 100 then
        let (size, mem) := shrink prealloc (c_num s) (c_size s) mem in
        Ok (mk_cseg 102 (c_num s) size mem, 0)
      else Ok (mk_cseg 102 (c_num s) (c_size s) mem, 0)
    else Ok (mk_cseg 102 (c_num s) (c_size s) (c_mem s), 0)
  else if type =? 100 then
    let! mem := (if (c_type s =? 105) || (c_type s =? 102) then to_doubles n 0 (c_type s =? 102) (c_mem s)
                 else Ok (repeat (-1) (2 * n))) in
    Ok (mk_cseg 100 (c_num s) (8 * c_num s) mem, 0)
  else Ok (s, 0).
