(** * Model of the raw record dumps: ms_parse_raw3, ms_parse_raw2 and mseh_print.

    libmseed/parseutils.c:315-493, 526-1346, libmseed/extraheaders.c:1155-1227, field
    offsets in libmseed/mseedformat.h:60-585; called by msi.c:230-235.

    [rec] is the memory at the record pointer; its length is the size of the object and may
    exceed the [maxreclen] given to the functions.  Of the output only the values of the
    fields printed are kept, in the order of the ms_log calls; the labels, the lines that
    explain single bits or codes (functions of a field printed before), 2^e for the record
    length of a blockette 1000 and the text of error messages are left out.  Floating point
    fields are kept as bit patterns.  The counters retval and blkt_count and the indentation
    are not bounded to int: they stay below the record length.  isdigit of a negative char
    (undefined by ISO C) is taken as false, as in glibc.  The alignment of the fields read is
    not modelled. *)

From Verif Require Export Base RecModel StrModel V2Model.
Open Scope Z_scope.

(** One value printed. *)
Inductive item := INum (v : Z) | IText (t : list Z).

(** The value returned, the fields printed, and the characters printed by mseh_print. *)
Record raw := mk_raw { r_count : Z; r_items : list item; r_extra : list Z }.

(** retval++ under a condition. *)
Definition err (b : bool) : Z := if b then 1 else 0.

(** ** printf *)

(** "%.[n]s": at most [n] bytes, up to a NUL. *)
Fixpoint text_upto (n : nat) (l : list Z) : res (list Z) :=
  match n with
  | O => Ok []
  | S n' => match l with
            | [] => UB OOBRead
            | b :: l' => if b =? 0 then Ok [] else let! t := text_upto n' l' in Ok (b :: t)
            end
  end.
(** "%.*s": a negative precision counts as none. *)
Definition text_prec (p off : Z) (rec : list Z) : res (list Z) :=
  let m := skipn (Z.to_nat off) rec in
  if p <? 0 then text_of m else text_upto (Z.to_nat p) m.

(** "%*s" with an empty string: a negative width counts as its absolute value. *)
Definition spaces (n : Z) : list Z := repeat 32 (Z.to_nat (Z.abs n)).
(** ms_log (0, ...): rlog_int (logging.c:341-427) formats into 200 bytes. *)
Definition logged (t : list Z) : list Z := firstn 199 t.
(** "%c" through the buffer of ms_log, which ends at a NUL. *)
Definition one_char (b : Z) : list Z := if b =? 0 then [] else [b].

(** ** mseh_print *)

(** extraheaders.c:1178-1223, on the bytes the loop visits. *)
Fixpoint pretty (instring : bool) (indent : Z) (l : list Z) : list Z :=
  match l with
  | [] => []
  | c :: l' =>
    let instring := if c =? 34 then negb instring else instring in
    if negb instring then
      if c =? 58 then [58; 32] ++ pretty instring indent l'
      else if c =? 44 then logged ([44; 10] ++ spaces indent) ++ pretty instring indent l'
      else if c =? 123 then logged ([123; 10] ++ spaces (indent + 2)) ++ pretty instring (indent + 2) l'
      else if c =? 91 then logged ([91; 10] ++ spaces (indent + 2)) ++ pretty instring (indent + 2) l'
      else if c =? 125 then logged ([10] ++ spaces (indent - 2) ++ [125]) ++ pretty instring (indent - 2) l'
      else if c =? 93 then logged ([10] ++ spaces (indent - 2) ++ [93]) ++ pretty instring (indent - 2) l'
      else one_char c ++ pretty instring indent l'
    else one_char c ++ pretty instring indent l'
  end.

(** extraheaders.c:1155-1227; [extra] is the memory at msr->extra.  All of the [len] bytes
    are read. *)
Definition eh_print (extra : list Z) (len indent : Z) : res (list Z) :=
  if len =? 0 then Ok []
  else
    let! e := sliceZ 0 len extra in
    Ok (logged (spaces indent) ++ pretty false indent (firstn (Z.to_nat (len - 2)) (skipn 1 e)) ++ [10]).

(** ** ms_parse_raw3, parseutils.c:315-493 *)

Definition parse_raw3 (hb : bool) (record : option (list Z)) (maxreclen details : Z) : res raw :=
  match record with
  | None => Ok (mk_raw 1 [] [])
  | Some rec =>
    if maxreclen <? MINRECLEN then Ok (mk_raw 1 [] [])
    else
      let sw := hb in
      let! sidlen := getZ 33 rec in
      if sidlen <? 4 then Ok (mk_raw 1 [] [])
      else if maxreclen <? 40 + sidlen then Ok (mk_raw 1 [] [])
      else
        let! sid := text_prec sidlen 40 rec in
        let! c0 := getZ 0 rec in
        let! c1 := getZ 1 rec in
        let! ver := getZ 2 rec in
        let! year := rd hb sw 2 8 rec in
        let! day := rd hb sw 2 10 rec in
        let! hour := getZ 12 rec in
        let! min := getZ 13 rec in
        let! sec := getZ 14 rec in
        let! nsec := rd hb sw 4 4 rec in
        let retval := err (negb (c0 =? 77) || negb (c1 =? 83)) + err (negb (ver =? 3))
                      + err ((year <? 1900) || (2100 <? year)) + err ((day <? 1) || (366 <? day))
                      + err (23 <? hour) + err (59 <? min) + err (60 <? sec) + err (999999999 <? nsec) in
        let! items :=
          (if details <? 1 then Ok []
           else
             let! flags := getZ 3 rec in
             let! rate := rd hb sw 8 16 rec in
             let! enc := getZ 15 rec in
             let! pub := getZ 32 rec in
             let! nsamp := rd hb sw 4 24 rec in
             let! crc := rd hb sw 4 28 rec in
             let! elen := rd hb sw 2 34 rec in
             let! dlen := rd hb sw 4 36 rec in
             (* "RECORD -- %.*s" in 199 characters *)
             Ok (IText (firstn 189 sid) :: map INum [c0; c1; flags; year; day; hour; min; sec; nsec; rate; enc; pub;
                                        nsamp; crc; sidlen; elen; dlen])) in
        let! elen := rd hb sw 2 34 rec in
        let! text :=
          (if (1 <? details) && (0 <? elen) && (40 + sidlen + elen <=? maxreclen)
           then eh_print (skipn (Z.to_nat (40 + sidlen)) rec) elen 10 else Ok []) in
        Ok (mk_raw retval items text)
  end.

(** ** ms_parse_raw2 *)

(** One field printed from level [min] on: an unsigned number, a signed number or a text
    ("%.ns") of [n] bytes at [rel] bytes into the blockette. *)
Inductive fkind := Uns | Sgn | Txt.
Record fld := mk_fld { f_kind : fkind; f_min : Z; f_n : Z; f_rel : Z }.
Definition un (n rel : Z) : fld := mk_fld Uns 1 n rel.
Definition un2 (n rel : Z) : fld := mk_fld Uns 2 n rel.
Definition sg (n rel : Z) : fld := mk_fld Sgn 1 n rel.
Definition tx (n rel : Z) : fld := mk_fld Txt 1 n rel.

(** "%d,%d,%d:%d:%d.%04d (unused: %d)" *)
Definition tm (rel : Z) : list fld :=
  [un 2 rel; un 2 (rel + 2); un 1 (rel + 4); un 1 (rel + 5); un 1 (rel + 6); un 2 (rel + 8); un 1 (rel + 7)].

(** The fields of the fixed header section, parseutils.c:689-787. *)
Definition fixed_fields : list fld :=
  map (un 1) [0; 1; 2; 3; 4; 5; 6; 7; 8; 9; 10; 11; 12; 13; 14; 15; 16; 17; 18; 19]
  ++ tm 20 ++ [un 2 30; sg 2 32; sg 2 34; un2 1 36; un2 1 37; un2 1 38; un 1 39; sg 4 40; un 2 44; un 2 46].

(** The fields printed for a blockette of each type, parseutils.c:848-1275; without the
    text after the fixed part of an opaque blockette. *)
Definition blkt_fields (type : Z) : list fld :=
  if type =? 100 then [un 4 4; un2 1 8; un2 1 9; un2 1 10; un2 1 11]
  else if type =? 200 then [un 4 4; un 4 8; un 4 12; un2 1 16; un2 1 17] ++ tm 18 ++ [tx 24 28]
  else if type =? 201 then
    [un 4 4; un 4 8; un 4 12; un 1 16; un2 1 17] ++ tm 18 ++ map (un 1) [28; 29; 30; 31; 32; 33; 34; 35] ++ [tx 24 36]
  else if type =? 300 then
    tm 4 ++ [un 1 14; un 1 15; un 4 16; un 4 20; un 4 24; tx 3 28; un2 1 31; un 4 32; tx 12 36; tx 12 48]
  else if type =? 310 then
    tm 4 ++ [un2 1 14; un 1 15; un 4 16; un 4 20; un 4 24; tx 3 28; un2 1 31; un 4 32; tx 12 36; tx 12 48]
  else if type =? 320 then
    tm 4 ++ [un2 1 14; un 1 15; un 4 16; un 4 20; tx 3 24; un2 1 27; un 4 28; tx 12 32; tx 12 44; tx 8 56]
  else if type =? 390 then tm 4 ++ [un2 1 14; un 1 15; un 4 16; un 4 20; tx 3 24; un2 1 27]
  else if type =? 395 then tm 4 ++ [un2 1 14; un2 1 15]
  else if type =? 400 then [un 4 4; un 4 8; un 2 12; un2 1 14; un2 1 15]
  else if type =? 405 then [un 2 4]
  else if type =? 500 then [un 4 4] ++ tm 8 ++ [sg 1 18; un 1 19; un 4 20; tx 16 24; tx 32 40; tx 128 72]
  else if type =? 1000 then [un 1 4; un 1 5; un 1 6; un2 1 7]
  else if type =? 1001 then [un 1 4; sg 1 5; un2 1 6; un 1 7]
  else if type =? 2000 then [un 2 4; un 2 6; un 4 8; un 1 12; un 1 13; un 1 14]
  else [].

(** One ms_log argument. *)
Definition show (hb sw : bool) (rec : list Z) (o : Z) (f : fld) : res item :=
  match f_kind f with
  | Uns => let! v := rd hb sw (f_n f) (o + f_rel f) rec in Ok (INum v)
  | Sgn => let! v := rd hb sw (f_n f) (o + f_rel f) rec in Ok (INum (swrap (8 * f_n f) v))
  | Txt => let! t := text_prec (f_n f) (o + f_rel f) rec in Ok (IText t)
  end.
(** The ms_log calls for the fields [fs], each under its test of [details]. *)
Fixpoint show_all (hb sw : bool) (rec : list Z) (o details : Z) (fs : list fld) : res (list item) :=
  match fs with
  | [] => Ok []
  | f :: fs' =>
    if details <? f_min f then show_all hb sw rec o details fs'
    else let! i := show hb sw rec o f in
         let! l := show_all hb sw rec o details fs' in Ok (i :: l)
  end.

(** The variables of the loop at parseutils.c:804-1303: retval, blkt_count, b1000reclen,
    endofblockettes, blkt_offset, and what was printed. *)
Record rawst := mk_rawst {
  w_ret : Z; w_cnt : Z; w_len : Z; w_end : Z; w_off : Z; w_items : list item }.

(** parseutils.c:1152-1206: errors of a blockette 1000, and b1000reclen. *)
Definition raw1000 (rec : list Z) (o : Z) : res (Z * Z) :=
  let! e := getZ (o + 6) rec in
  if 32 <=? e then UB BadShift
  else
    let! order := getZ (o + 5) rec in
    let! enc := getZ (o + 4) rec in
    Ok (err (negb ((0 <=? enc) && (enc <=? 5)) && negb ((10 <=? enc) && (enc <=? 19))
             && negb ((30 <=? enc) && (enc <=? 33)))
        + err (negb (order =? 0) && negb (order =? 1)),
        swrap 32 (uwrap 32 (Z.shiftl 1 e))).

(** parseutils.c:1223-1281: the text of an opaque blockette, after a label of 30 characters. *)
Definition raw2000 (hb sw : bool) (rec : list Z) (o details : Z) : res (list item) :=
  if details <? 2 then Ok []
  else
    let! doff := rd hb sw 2 (o + 6) rec in
    let! t := text_prec (doff - 15) (o + 15) rec in Ok [IText (firstn 169 t)].

(** The types with a branch of their own, parseutils.c:848-1287. *)
Definition recognized (type : Z) : bool :=
  existsb (Z.eqb type) [100; 200; 201; 300; 310; 320; 390; 395; 400; 405; 500; 1000; 1001; 2000].

(** parseutils.c:848-1287: the errors counted for the blockette at [o], b1000reclen after it
    (given the value [len] before) and what is printed. *)
Definition raw_blkt (hb sw : bool) (rec : list Z) (type o details len : Z) : res (Z * Z * list item) :=
  let! (e, len) := (if type =? 1000 then raw1000 rec o
                    else if type =? 2000 then let! _ := getZ (o + 12) rec in Ok (0, len)
                    else Ok (err (negb (recognized type)), len)) in
  let! l := show_all hb sw rec o details (blkt_fields type) in
  let! t := (if type =? 2000 then raw2000 hb sw rec o details else Ok []) in
  Ok (e, len, l ++ t).

(** parseutils.c:804-1303.  The type and the link are printed from level 1 on. *)
Fixpoint raw_chain (fuel : nat) (hb sw : bool) (rec : list Z) (maxreclen details off : Z) (st : rawst) : res rawst :=
  match fuel with
  | O => Fuel
  | S fuel' =>
    if negb (off =? 0) && (off <? maxreclen) then
      let! type := rd hb sw 2 off rec in
      let! next := rd hb sw 2 (off + 2) rec in
      let head := if details <? 1 then [] else [INum type; INum next] in
      let! len := blktlen hb sw type off rec in
      let ret := w_ret st + err (len =? 0) in
      let eob := off + len - 1 in
      if maxreclen <? eob then
        Ok (mk_rawst (ret + 1) (w_cnt st) (w_len st) eob off (w_items st ++ head))
      else
        let! (e, blen, l) := raw_blkt hb sw rec type off details (w_len st) in
        let next' := if negb (next =? 0) && (next <=? eob) then 0 else next in
        raw_chain fuel' hb sw rec maxreclen details next'
                  (mk_rawst (ret + e) (w_cnt st + 1) blen eob next' (w_items st ++ head ++ l))
    else Ok (mk_rawst (w_ret st) (w_cnt st) (w_len st) (w_end st) off (w_items st))
  end.

(** MS_ISVALIDYEARDAY, libmseed/mseedformat.h:655 *)
Definition valid_yearday (year day : Z) : bool :=
  (1900 <=? year) && (year <=? 2100) && (1 <=? day) && (day <=? 366).

Definition digit (b : Z) : bool := (48 <=? b) && (b <=? 57).
(** isalnum in the C locale, or a space. *)
Definition code_char (b : Z) : bool :=
  ((48 <=? b) && (b <=? 57)) || ((65 <=? b) && (b <=? 90)) || ((97 <=? b) && (b <=? 122)) || (b =? 32).

(** A test on bytes [off] .. [off + n - 1]; all are read (the error message prints them). *)
Definition bytes_fail (t : Z -> bool) (off n : Z) (rec : list Z) : res Z :=
  let! w := sliceZ off n rec in Ok (err (negb (forallb t w))).

(** ms_parse_raw2, parseutils.c:526-1346.  [fuel] bounds the number of blockettes. *)
Definition parse_raw2 (fuel : nat) (hb : bool) (record : option (list Z)) (maxreclen details swapflag : Z) : res raw :=
  match record with
  | None => Ok (mk_raw 1 [] [])
  | Some rec =>
    if maxreclen <? 48 then Ok (mk_raw 1 [] [])
    else
      let! _ := recordsid rec (repeat 0 64) 64 in
      let! sw := (if swapflag =? -1
                  then let! y := rd hb false 2 20 rec in
                       let! d := rd hb false 2 22 rec in Ok (negb (valid_yearday y d))
                  else Ok false) in
      let! e1 := bytes_fail digit 0 6 rec in
      let! e2 := bytes_fail (fun b => (b =? 68) || (b =? 82) || (b =? 81) || (b =? 77)) 6 1 rec in
      let! e3 := bytes_fail (fun b => (b =? 32) || (b =? 0)) 7 1 rec in
      let! e4 := bytes_fail code_char 8 5 rec in
      let! e5 := bytes_fail code_char 13 2 rec in
      let! e6 := bytes_fail code_char 15 3 rec in
      let! e7 := bytes_fail code_char 18 2 rec in
      let! year := rd hb sw 2 20 rec in
      let! day := rd hb sw 2 22 rec in
      let! hour := getZ 24 rec in
      let! min := getZ 25 rec in
      let! sec := getZ 26 rec in
      let! fsec := rd hb sw 2 28 rec in
      let! nsamp := rd hb sw 2 30 rec in
      let! nblk := getZ 39 rec in
      let! doff := rd hb sw 2 44 rec in
      let! boff := rd hb sw 2 46 rec in
      let retval := e1 + e2 + e3 + e4 + e5 + e6 + e7
                    + err ((year <? 1900) || (2100 <? year)) + err ((day <? 1) || (366 <? day))
                    + err (23 <? hour) + err (59 <? min) + err (60 <? sec) + err (9999 <? fsec)
                    + err (20000 <? nsamp)
                    + err ((0 <? nsamp) && (0 <? nblk) && (doff <=? boff)) in
      let! items := show_all hb sw rec 0 details fixed_fields in
      if (46 <? boff) && (boff <? maxreclen) then
        let! st := raw_chain fuel hb sw rec maxreclen details boff (mk_rawst retval 0 (-1) (-1) boff items) in
        Ok (mk_raw (w_ret st + err (maxreclen <? w_off st)
                    + err (negb (w_len st =? 0) && (w_len st <? doff))
                    + err (negb (w_len st =? 0) && (w_len st <? boff))
                    + err (negb (nsamp =? 0) && (doff <=? w_end st))
                    + err (negb (nblk =? w_cnt st)))
                   (w_items st) [])
      else Ok (mk_raw retval items [])
  end.
