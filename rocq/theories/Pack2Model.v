(** * Model of packing version 2 records.

    libmseed/pack.c:590-839 (msr3_pack_mseed2), 857-1158 and the end of
    msr3_pack_header2 for a record without extra headers (extralength 0, so that the
    yyjson queries find nothing), 1812-2071 (factor and multiplier of a rate).

    Simplified: allocation succeeds; bit fields set by successive |= are computed and
    written once, the links and the number of blockettes likewise.  Double expressions
    are evaluated without excess precision and without contraction. *)

From Verif Require Export Base RecModel PackModel SampleModel StrModel V2Model TlModel.
Open Scope Z_scope.

(** ** Factor and multiplier *)

(** Conversion of a double to int or int32_t. *)
Definition to_int (x : dbl) : res Z :=
  match x with
  | DFin q => let v := qtrunc q in if in_sb 32 v then Ok v else UB SignedOverflow
  | _ => UB SignedOverflow
  end.
Definition dge (x y : dbl) : bool :=
  match x, y with DNaN, _ | _, DNaN => false | _, _ => negb (dlt x y) end.

(** 1e-8, 0.0000001, 0.0001: the nearest doubles. *)
Definition d_1em8 : dbl := drnd (1 # 100000000).
Definition d_1em7 : dbl := drnd (1 # 10000000).
Definition d_1em4 : dbl := drnd (1 # 10000).
Definition done_ : dbl := DFin 1%Q.

(** The loop of ms_ratapprox, pack.c:1848-1867, with its variables; the result is
    (pnum, pden) and (num, den).  The sign is handled by the caller. *)
Fixpoint rat_loop (fuel : nat) (mode : ovmode) (preal realj : dbl) (aj aj1 bj bj1 pnum pden num den : Z)
  : res (Z * Z * Z * Z) :=
  match fuel with
  | O => Fuel
  | S fuel' =>
    if dlt d_1em8 (dabs (dsub preal (ddiv (dofz aj) (dofz bj)))) && (aj <? 32767) && (bj <? 32767) then
      let! b := to_int (dadd realj d_1em8) in
      let realj' := ddiv done_ (dsub realj (dofz b)) in
      let! pa := sarith mode 32 (b * aj) in
      let! a' := sarith mode 32 (pa + aj1) in
      let! pb := sarith mode 32 (b * bj) in
      let! b' := sarith mode 32 (pb + bj1) in
      rat_loop fuel' mode preal realj' a' aj b' bj a' b' pnum pden
    else Ok (pnum, pden, num, den)
  end.

(** ms_ratapprox, pack.c:1812-1878, with maxval 32767 and precision 1e-8 as called.  The
    only call is with a positive number, the branches for negative ones are left out. *)
Definition ratapprox (mode : ovmode) (real : dbl) : res (Z * Z) :=
  let! b := to_int (dadd real d_1em8) in
  let realj := ddiv done_ (dsub real (dofz b)) in
  let! (pnum, pden, num, den) := rat_loop 100 mode real realj b 1 1 0 b 1 b 1 in
  if (pnum <? 32767) && (pden <? 32767) then Ok (pnum, pden) else Ok (num, den).

(** ms_rsqrt64, pack.c:1897-1914. *)
Definition rsqrt64 (v : dbl) : dbl :=
  let x2 := dmul v dhalf in
  let y := dval (uwrap 64 (0x5fe6eb50c7b537a9 - Z.shiftr (dbits v) 1)) in
  let step y := dmul y (dsub (DFin (3 # 2)) (dmul (dmul x2 y) y)) in
  step (step (step y)).

(** Division and remainder of int: undefined for a zero divisor. *)
Definition idiv (a b : Z) : res Z := if b =? 0 then UB SignedOverflow else Ok (Z.quot a b).
Definition irem (a b : Z) : res Z := if b =? 0 then UB SignedOverflow else Ok (Z.rem a b).

(** The search of pack.c:1967-1987. *)
Fixpoint factor_loop (fuel : nat) (n s closest diff : Z) : res Z :=
  match fuel with
  | O => Fuel
  | S fuel' =>
    let! r := irem n s in
    if r =? 0 then Ok s
    else
      let s := s - 1 in
      let! s2 := idiv n s in
      let d := n - s * s2 in
      let (closest, diff) := if d <? diff then (s, d) else (closest, diff) in
      let! q := idiv n (s - 1) in
      if 32767 <? q then Ok closest else factor_loop fuel' n s closest diff
  end.

(** ms_reduce_rate, pack.c:1935-2012; [Err (-1)] for -1. *)
Definition reduce_rate (mode : ovmode) (rate : dbl) : res (Z * Z) :=
  let! n := to_int (dadd rate dhalf) in
  if dlt (dabs (dsub rate (dofz n))) d_1em7 then
    if n <=? 32767 then Ok (swrap 16 n, 1)
    else if n <=? 32767 * 32767 then
      let! s := to_int (ddiv done_ (rsqrt64 rate)) in
      let! s := factor_loop (S (Z.to_nat s)) n s s s in
      let! s2 := idiv n s in
      if (s <=? 32767) && (s2 <=? 32767) then Ok (swrap 16 s, swrap 16 s2) else Err (-1)
    else Err (-1)
  else if dge (DFin 32767%Q) rate then
    let! (num, den) := ratapprox mode rate in Ok (swrap 16 num, swrap 16 (- den))
  else Err (-1).

(** ms_genfactmult, pack.c:2028-2071. *)
Definition genfactmult (mode : ovmode) (rate : dbl) : res (Z * Z) :=
  let rate := if dlt rate dzero then ddiv (DFin (-1 # 1)) rate else rate in
  if (match rate with DFin q => qzero q | _ => false end) then Ok (0, 0)
  else if dge rate done_ then reduce_rate mode rate
  else let! (f1, f2) := reduce_rate mode (ddiv done_ rate) in Ok (swrap 16 (- f1), swrap 16 (- f2)).

(** ** The header *)

(** Store a big-endian number, HO2u and the like with the swap flag of a big-endian
    format, mseedformat.h:599, pack.c:654 and 950. *)
Definition be (hb : bool) (n : nat) (v : Z) : list Z := st hb (negb hb) n v.

(** ms_strncpopen into the record, genutils.c:690-725. *)
Definition put_open (off : Z) (s : list Z) (n : Z) (buf : list Z) : res (list Z) :=
  let! d := sliceZ off n buf in
  let! (d, _) := strncpopen d (Some s) n in
  put off d buf.

(** The exponent of the record length, pack.c:926-932. *)
Fixpoint exp_loop (fuel : nat) (find e reclen : Z) : res Z :=
  match fuel with
  | O => Fuel
  | S fuel' =>
    if MAXRECLEN <? find then Ok e
    else if 2 * find =? reclen then Ok e else exp_loop fuel' (2 * find) (e + 1) reclen
  end.

(** pack.c:1000-1014 *)
Definition quality_of (pub : Z) : Z := if pub =? 1 then 82 else if pub =? 3 then 81 else if pub =? 4 then 77 else 68.

(** The time fields, pack.c:1023-1029 and 822-827. *)
Definition put_time2 (hb : bool) (t : Z * Z * Z * Z * Z * Z) (buf : list Z) : res (list Z) :=
  let '(year, day, hour, min, sec, nsec) := t in
  let! b := put 20 (be hb 2 year) buf in
  let! b := put 22 (be hb 2 day) b in
  let! b := put 24 [hour] b in
  let! b := put 25 [min] b in
  let! b := put 26 [sec] b in
  put 28 (be hb 2 (nsec / 100000)) b.

(** The 12 bytes of a blockette 100 with the rate as a float, pack.c:1144-1158. *)
Definition b100_bytes (hb : bool) (rate : Z) : list Z :=
  be hb 2 100 ++ [0; 0] ++ be hb 4 (double_to_float rate) ++ [0; 0; 0; 0].

(** msr3_pack_header2, pack.c:857-1602: the buffer and the header size.  [stack] is the
    initial content of the four local arrays of 64 bytes. *)
Definition pack_header2 (hb : bool) (mode : ovmode) (stack : list Z) (m : msr) (buf : list Z) : res (list Z * Z) :=
  let reclen := if m_reclen m <? 0 then 4096 else m_reclen m in
  let encoding := uwrap 8 (if m_enc m <? 0 then 11 else m_enc m) in
  if (reclen <? 128) || (MAXRECLEN <? reclen) then Err (-1)
  else if negb (Z.land reclen (reclen - 1) =? 0) then Err (-1)
  else
    let! e := exp_loop 64 1 1 reclen in
    let! codes := sid2nslc (m_sid m) (mk_nslc (Some stack) (Some stack) (Some stack) (Some stack)) in
    let arr o := match o with Some b => text_of b | None => UB NullDeref end in
    let! net := arr (o_net codes) in
    let! sta := arr (o_sta codes) in
    let! loc := arr (o_loc codes) in
    let! chan := arr (o_chan codes) in
    let len (l : list Z) := Z.of_nat (length l) in
    if (2 <? len net) || (5 <? len sta) || (2 <? len loc) || negb (len chan =? 3) then Err (-1)
    else
      match nstime2time (m_start m) with
      | UB u => UB u
      | Fuel => Fuel
      | Err _ => Err (-1)
      | Ok t =>
        let '(year, day, hour, min, sec, nsec) := t in
        let fsec := nsec / 100000 in
        let us := swrap 8 (nsec / 1000 - fsec * 100) in
        let! (factor, multiplier) := genfactmult mode (sampratehz (m_rate m)) in
        let with1001 := negb (us =? 0) in
        let with100 := dlt d_1em4 (dabs (dsub (sampratehz (m_rate m)) (nomsamprate factor multiplier))) in
        let nblk := 1 + (if with1001 then 1 else 0) + (if with100 then 1 else 0) in
        let end1001 := if with1001 then 64 else 56 in
        let! b := put 0 [48; 48; 48; 48; 48; 48] buf in
        let! b := put 6 [quality_of (m_pub m); 32] b in
        let! b := put_open 8 (sta ++ [0]) 5 b in
        let! b := put_open 13 (loc ++ [0]) 2 b in
        let! b := put_open 15 (chan ++ [0]) 3 b in
        let! b := put_open 18 (net ++ [0]) 2 b in
        let! b := put_time2 hb t b in
        let! b := put 27 [0] b in
        let! b := put 30 [0; 0] b in
        let! b := put 32 (be hb 2 factor) b in
        let! b := put 34 (be hb 2 multiplier) b in
        let! b := put 36 [if Z.testbit (m_flags m) 0 then 1 else 0; if Z.testbit (m_flags m) 2 then 32 else 0;
                          if Z.testbit (m_flags m) 1 then 128 else 0; nblk] b in
        let! b := put 40 [0; 0; 0; 0; 0; 0] b in
        let! b := put 46 (be hb 2 48) b in
        let! b := put 48 (be hb 2 1000 ++ be hb 2 (if with1001 || with100 then 56 else 0) ++ [encoding; 1; uwrap 8 e; 0]) b in
        let! b := (if with1001 then put 56 (be hb 2 1001 ++ be hb 2 (if with100 then 64 else 0) ++ [0; uwrap 8 us; 0; 0]) b
                   else Ok b) in
        let! b := (if with100 then put end1001 (b100_bytes hb (m_rate m)) b else Ok b) in
        Ok (b, end1001 + (if with100 then 12 else 0))
      end.

(** ** The records *)

(** The record loop, pack.c:757-828; as in [pack_loop] of PackModel. *)
Fixpoint pack_loop2 (fuel : nat) (hb : bool) (mode : ovmode) (nexttime : Z -> Z) (enc type : Z)
         (src : list Z) (dataoffset maxdata maxsamples reclen : Z) (flush : bool)
         (buf : list Z) (total : Z) : res (list (list Z) * Z * bool) :=
  match fuel with
  | O => Fuel
  | S fuel' =>
    let num := Z.of_nat (length src) in
    if (maxsamples <? num - total) || flush then
      let cnt := uwrap 64 (swrap 32 (num - total)) in
      match pack_data hb (negb hb) mode enc type (firstn (Z.to_nat cnt) (skipn (Z.to_nat total) src)) maxdata with
      | UB u => UB u
      | Fuel => Fuel
      | Err _ => Ok ([], total, false)
      | Ok (n, bytes) =>
        if 65535 <? n then Ok ([], total, false)
        else
          let datalen := Z.of_nat (length bytes) in
          let! b := put dataoffset bytes buf in
          let! b := put 30 (be hb 2 n) b in
          let content := dataoffset + datalen in
          let! b := (if content <? reclen then put content (repeat 0 (Z.to_nat (reclen - content))) b else Ok b) in
          let total' := total + n in
          if num <=? total' then Ok ([b], total', true)
          else
            match nstime2time (nexttime total') with
            | UB u => UB u
            | Fuel => Fuel
            | Err _ => Ok ([b], total', false)
            | Ok t =>
              let! b' := put_time2 hb t b in
              let! (recs, tot, ok) := pack_loop2 fuel' hb mode nexttime enc type src dataoffset maxdata
                                                 maxsamples reclen flush b' total' in
              Ok (b :: recs, tot, ok)
            end
      end
    else Ok ([], total, true)
  end.

Definition MAXRECLENv2 : Z := 131172.

(** pack.c:705-713 *)
Fixpoint round64 (fuel : nat) (off headerlen : Z) : Z :=
  match fuel with
  | O => off
  | S fuel' => if off <? headerlen then round64 fuel' (off + 64) headerlen else off
  end.

(** msr3_pack_mseed2, pack.c:590-839.  [alloc] is the content of the allocated record. *)
Definition pack2 (fuel : nat) (nexttime : Z -> Z) (hb : bool) (mode : ovmode) (stack alloc : list Z)
           (m : msr) (type : Z) (src : list Z) (flags : Z) : res (list (list Z) * Z * bool) :=
  let reclen := if m_reclen m <? 0 then 4096 else m_reclen m in
  let encoding := uwrap 8 (if m_enc m <? 0 then 11 else m_enc m) in
  if (reclen <? 128) || (MAXRECLENv2 <? reclen) then Ok ([], 0, false)
  else if negb (Z.land reclen (reclen - 1) =? 0) then Ok ([], 0, false)
  else
    let buf := repeat 0 48 ++ skipn 48 (firstn (Z.to_nat reclen) alloc) in
    match pack_header2 hb mode stack m buf with
    | UB u => UB u
    | Fuel => Fuel
    | Err _ => Ok ([], 0, false)
    | Ok (buf, headerlen) =>
      match src with
      | [] =>
        let! b := put 52 [0] buf in
        let! b := put headerlen (repeat 0 (Z.to_nat (reclen - headerlen))) b in
        Ok ([b], 0, true)
      | _ =>
        let size := samplesize type in
        if size =? 0 then Ok ([], 0, false)
        else
          let steim := (encoding =? 10) || (encoding =? 11) in
          let dataoffset := if steim then round64 200 64 headerlen else headerlen in
          let! buf := (if steim then put headerlen (repeat 0 (Z.to_nat (dataoffset - headerlen))) buf else Ok buf) in
          let! buf := put 44 (be hb 2 dataoffset) buf in
          let maxdata := reclen - dataoffset in
          let maxsamples :=
            if encoding =? 10 then maxdata / 64 * 60
            else if encoding =? 11 then maxdata / 64 * 105
            else maxdata / size in
          pack_loop2 fuel hb mode nexttime encoding type src dataoffset maxdata maxsamples reclen
                     (has_flag flags MSF_FLUSHDATA) buf 0
      end
    end.
