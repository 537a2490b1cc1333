(** * Specification notions for the raw record dumps. *)

From Verif Require Export Base RecModel RecSpec V2Spec RawModel.
Open Scope Z_scope.

(** ** Fields *)

(** The value of some bytes, in big-endian order or not. *)
Definition num (big : bool) (w : list Z) : Z := if big then be_val w else le_val w.

(** Consecutive fields of the given widths. *)
Fixpoint values (big : bool) (ws : list nat) (l : list Z) : list Z :=
  match ws with
  | [] => []
  | w :: ws' => num big (firstn w l) :: values big ws' (skipn w l)
  end.

(** How many of the rules are broken. *)
Definition broken (rules : list bool) : Z := lenZ (filter negb rules).
Definition within (lo hi v : Z) : bool := (lo <=? v) && (v <=? hi).

(** The text shown of a text field: up to the first NUL, if any. *)
Fixpoint shown (l : list Z) : list Z :=
  match l with
  | [] => []
  | c :: l' => if c =? 0 then [] else c :: shown l'
  end.

(** ** Version 3 *)

(** The fixed section of the header: indicator, version, flags, nanosecond, year, day,
    hour, minute, second, encoding, rate, number of samples, CRC, publication version,
    lengths of identifier, extra headers and data. *)
Definition widths3 : list nat := [1; 1; 1; 1; 4; 2; 2; 1; 1; 1; 1; 8; 4; 4; 1; 1; 2; 4]%nat.

Definition rules3 (v : list Z) : list bool :=
  match v with
  | [m; s; ver; _; ns; y; d; h; mi; se; _; _; _; _; _; _; _; _] =>
    [(m =? 77) && (s =? 83); ver =? 3; within 1900 2100 y; within 1 366 d; within 0 23 h; within 0 59 mi;
     within 0 60 se; within 0 999999999 ns]
  | _ => []
  end.
Definition printed3 (v : list Z) (sid : list Z) : list item :=
  match v with
  | [m; s; _; fl; ns; y; d; h; mi; se; enc; rate; n; crc; pub; sl; el; dl] =>
    IText (firstn 189 (shown sid)) :: map INum [m; s; fl; y; d; h; mi; se; ns; rate; enc; pub; n; crc; sl; el; dl]
  | _ => []
  end.

(** The parts of a record. *)
Definition sid_length (rec : list Z) : Z := nth 33 rec 0.
Definition sid_part (rec : list Z) : list Z := firstn (Z.to_nat (sid_length rec)) (skipn 40 rec).
Definition extra_length (rec : list Z) : Z := le_val (firstn 2 (skipn 34 rec)).
Definition extra_part (rec : list Z) : list Z :=
  firstn (Z.to_nat (extra_length rec)) (skipn (Z.to_nat (40 + sid_length rec)) rec).

(** ** Printed extra headers *)

(** A JSON text without the space between tokens: NUL never is shown; [ins] says that the
    text starts inside a string.  A quote begins or ends a string. *)
Fixpoint squeeze (ins : bool) (l : list Z) : list Z :=
  match l with
  | [] => []
  | c :: l' =>
    if c =? 0 then squeeze ins l'
    else if c =? 34 then c :: squeeze (negb ins) l'
    else if negb ins && ((c =? 32) || (c =? 10)) then squeeze ins l'
    else c :: squeeze ins l'
  end.

(** The same with the escapes of JSON: the character after a backslash in a string does not
    end the string. *)
Fixpoint squeeze_json (ins esc : bool) (l : list Z) : list Z :=
  match l with
  | [] => []
  | c :: l' =>
    if ins then c :: (if esc then squeeze_json true false l'
                      else if c =? 92 then squeeze_json true true l'
                      else squeeze_json (negb (c =? 34)) false l')
    else if (c =? 32) || (c =? 10) then squeeze_json false false l'
    else c :: squeeze_json (c =? 34) false l'
  end.

(** The object without its braces. *)
Definition interior (l : list Z) : list Z := removelast (tl l).

(** The characters outside of strings. *)
Fixpoint marks (ins : bool) (l : list Z) : list Z :=
  match l with
  | [] => []
  | c :: l' => if c =? 34 then marks (negb ins) l' else if ins then marks ins l' else c :: marks ins l'
  end.
(** How deep the lines are that are begun after the first one, from depth [d] on: a comma begins a line of the
    same depth, a bracket that opens one a step deeper, and one that closes begins a line with
    the bracket itself, a step back. *)
Fixpoint levels (d : Z) (m : list Z) : list Z :=
  match m with
  | [] => []
  | c :: m' =>
    if c =? 44 then d :: levels d m'
    else if (c =? 123) || (c =? 91) then (d + 1) :: levels (d + 1) m'
    else if (c =? 125) || (c =? 93) then (d - 1) :: levels (d - 1) m'
    else levels d m'
  end.
(** No line is so deep that its indentation (10 and 2 for each step) and a bracket do not fit into a message of
    199 characters. *)
Definition shallow (l : list Z) : Prop := Forall (fun d => -103 <= d <= 93) (levels 0 (marks false l)).

(** The numbers of blanks at the beginnings of the lines of a text. *)
Fixpoint blanks (l : list Z) : Z := match l with c :: l' => if c =? 32 then 1 + blanks l' else 0 | [] => 0 end.
Fixpoint after_newlines (l : list Z) : list Z :=
  match l with
  | [] => []
  | c :: l' => if c =? 10 then blanks l' :: after_newlines l' else after_newlines l'
  end.
Definition indentations (l : list Z) : list Z := blanks l :: after_newlines l.
(** No newlines, and blanks only in strings. *)
Definition compact (l : list Z) : Prop := ~ In 10 l /\ ~ In 32 (marks false l).

(** [body] is the extra headers [l] as they are printed: the same but for space between tokens, with
    lines indented by their depth. *)
Definition pretty_print (l body : list Z) : Prop :=
  shallow l -> squeeze false body = squeeze false l /\
    (compact l -> indentations body = map (fun d => Z.abs (10 + 2 * d)) (0 :: levels 0 (marks false l))).

(** ** Version 2 *)

(** A field of the SEED manual: printed from a level on; a time is printed with the unused
    byte last. *)
Inductive sfield := SUns (level : Z) (n : nat) | SSgn (n : nat) | STxt (n : nat) | STime.

Fixpoint seed_items (big : bool) (details : Z) (fs : list sfield) (l : list Z) : list item :=
  match fs with
  | [] => []
  | SUns level n :: fs' =>
    (if level <=? details then [INum (num big (firstn n l))] else []) ++ seed_items big details fs' (skipn n l)
  | SSgn n :: fs' =>
    (if 1 <=? details then [INum (swrap (8 * Z.of_nat n) (num big (firstn n l)))] else [])
    ++ seed_items big details fs' (skipn n l)
  | STxt n :: fs' =>
    (if 1 <=? details then [IText (shown (firstn n l))] else []) ++ seed_items big details fs' (skipn n l)
  | STime :: fs' =>
    (if 1 <=? details
     then match values big [2; 2; 1; 1; 1; 1; 2]%nat l with
          | [y; d; h; m; s; unused; f] => map INum [y; d; h; m; s; f; unused]
          | _ => []
          end
     else []) ++ seed_items big details fs' (skipn 10 l)
  end.

Definition chars_ (n : nat) : list sfield := repeat (SUns 1 1) n.
(** SEED manual chapter 8: sequence number, quality, reserved byte, station, location,
    channel, network, time, number of samples, rate factor and multiplier, flags, number of
    blockettes, correction, offsets. *)
Definition seed_fixed : list sfield :=
  chars_ 6 ++ chars_ 2 ++ chars_ 5 ++ chars_ 2 ++ chars_ 3 ++ chars_ 2 ++ [STime; SUns 1 2; SSgn 2; SSgn 2]
  ++ repeat (SUns 2 1) 3 ++ [SUns 1 1; SSgn 4; SUns 1 2; SUns 1 2].

(** The fields of each blockette after its type and link, with the sizes of the manual; only
    the first delay of a 405 and the fixed part of a 2000. *)
Definition seed_blockette (type : Z) : list sfield :=
  match type with
  | 100 => [SUns 1 4; SUns 2 1] ++ repeat (SUns 2 1) 3
  | 200 => [SUns 1 4; SUns 1 4; SUns 1 4; SUns 2 1; SUns 2 1; STime; STxt 24]
  | 201 => [SUns 1 4; SUns 1 4; SUns 1 4; SUns 1 1; SUns 2 1; STime] ++ repeat (SUns 1 1) 6 ++ [SUns 1 1; SUns 1 1; STxt 24]
  | 300 => [STime; SUns 1 1; SUns 1 1; SUns 1 4; SUns 1 4; SUns 1 4; STxt 3; SUns 2 1; SUns 1 4; STxt 12; STxt 12]
  | 310 => [STime; SUns 2 1; SUns 1 1; SUns 1 4; SUns 1 4; SUns 1 4; STxt 3; SUns 2 1; SUns 1 4; STxt 12; STxt 12]
  | 320 => [STime; SUns 2 1; SUns 1 1; SUns 1 4; SUns 1 4; STxt 3; SUns 2 1; SUns 1 4; STxt 12; STxt 12; STxt 8]
  | 390 => [STime; SUns 2 1; SUns 1 1; SUns 1 4; SUns 1 4; STxt 3; SUns 2 1]
  | 395 => [STime; SUns 2 1; SUns 2 1]
  | 400 => [SUns 1 4; SUns 1 4; SUns 1 2; SUns 2 1; SUns 2 1]
  | 405 => [SUns 1 2]
  | 500 => [SUns 1 4; STime; SSgn 1; SUns 1 1; SUns 1 4; STxt 16; STxt 32; STxt 128]
  | 1000 => [SUns 1 1; SUns 1 1; SUns 1 1; SUns 2 1]
  | 1001 => [SUns 1 1; SSgn 1; SUns 2 1; SUns 1 1]
  | 2000 => [SUns 1 2; SUns 1 2; SUns 1 4; SUns 1 1; SUns 1 1; SUns 1 1]
  | _ => []
  end.

(** How many bytes of a blockette are needed, and how many the chain is assumed to take: the
    latter are the sizes in unpack.c:1567-1622, which for 200, 201, 300, 310, 320 and 500
    are not those of the manual. *)
Definition bytes_at (big : bool) (rec : list Z) (off : Z) (n : nat) : Z := num big (firstn n (skipn (Z.to_nat off) rec)).
Definition needed (big : bool) (rec : list Z) (type off : Z) : Z :=
  match type with
  | 405 => 6
  | 2000 => Z.max 15 (bytes_at big rec (off + 6) 2)
  | _ => match blockette_size type with Some n => n | None => 4 end
  end.
Definition assumed (big : bool) (rec : list Z) (type off : Z) : Z :=
  match type with
  | 100 => 12 | 200 => 28 | 201 => 36 | 300 => 32 | 310 => 32 | 320 => 28 | 390 => 28 | 395 => 16 | 400 => 16
  | 500 => 8 | 1000 => 8 | 1001 => 8
  | 2000 => bytes_at big rec (off + 4) 2
  | _ => 0
  end.

(** A blockette of type [type] at [off] can be printed: all of it is in the [limit] bytes,
    the length in a 1000 is representable and the data of an opaque one do not start before
    its header ends. *)
Definition printable (big : bool) (rec : list Z) (limit type off : Z) : Prop :=
  off + needed big rec type off <= limit
  /\ (type = 1000 -> nth (Z.to_nat (off + 6)) rec 0 < 32)
  /\ (type = 2000 -> 15 <= bytes_at big rec (off + 6) 2).

(** The blockettes met from [off] on.  It ends at the end of the chain, or with a blockette
    that is not in the record ([cut]). *)
Inductive visits (big : bool) (rec : list Z) (limit : Z) : Z -> list (Z * Z) -> option Z -> Prop :=
| visits_end off : off = 0 \/ limit <= off -> visits big rec limit off [] None
| visits_cut off type :
    off <> 0 -> off < limit -> off + (if type =? 2000 then 6 else 4) <= limit ->
    type = bytes_at big rec off 2 -> limit < off + assumed big rec type off - 1 ->
    visits big rec limit off [] (Some off)
| visits_one off type next l cut :
    off <> 0 -> off < limit -> off + 4 <= limit ->
    type = bytes_at big rec off 2 -> next = bytes_at big rec (off + 2) 2 ->
    printable big rec limit type off -> off + assumed big rec type off - 1 <= limit ->
    visits big rec limit (if next <? off + assumed big rec type off then 0 else next) l cut ->
    visits big rec limit off ((off, type) :: l) cut.

(** The last link followed: where the loop stood at the end. *)
Fixpoint final (big : bool) (rec : list Z) (off : Z) (l : list (Z * Z)) : Z :=
  match l with
  | [] => off
  | (o, type) :: l' =>
    let next := bytes_at big rec (o + 2) 2 in
    final big rec (if next <? o + assumed big rec type o then 0 else next) l'
  end.

(** What is printed of a blockette. *)
Definition blockette_items (big : bool) (details : Z) (rec : list Z) (b : Z * Z) : list item :=
  let (o, type) := b in
  seed_items big details ([SUns 1 2; SUns 1 2] ++ seed_blockette type) (skipn (Z.to_nat o) rec)
  ++ (if (type =? 2000) && (2 <=? details)
      then [IText (firstn 169 (shown (firstn (Z.to_nat (bytes_at big rec (o + 6) 2 - 15)) (skipn (Z.to_nat (o + 15)) rec))))]
      else []).

(** The rules for the fixed header. *)
Definition widths2 : list nat := (repeat 1 20 ++ [2; 2; 1; 1; 1; 1; 2; 2; 2; 2; 1; 1; 1; 1; 4; 2; 2])%nat.
Definition alnum_or_space (c : Z) : bool :=
  within 48 57 c || within 65 90 c || within 97 122 c || (c =? 32).
Definition rules2 (v : list Z) : list bool :=
  match v with
  | [s0; s1; s2; s3; s4; s5; q; r; a0; a1; a2; a3; a4; l0; l1; c0; c1; c2; n0; n1;
     y; d; h; m; se; _; f; ns; _; _; _; _; _; nb; _; doff; boff] =>
    [forallb (within 48 57) [s0; s1; s2; s3; s4; s5];
     existsb (Z.eqb q) [68; 82; 81; 77]; existsb (Z.eqb r) [32; 0];
     forallb alnum_or_space [a0; a1; a2; a3; a4]; forallb alnum_or_space [l0; l1];
     forallb alnum_or_space [c0; c1; c2]; forallb alnum_or_space [n0; n1];
     within 1900 2100 y; within 1 366 d; within 0 23 h; within 0 59 m; within 0 60 se; within 0 9999 f;
     within 0 20000 ns; negb ((0 <? ns) && (0 <? nb)) || (boff <? doff)]
  | _ => []
  end.

(** The rules for one blockette. *)
Definition blockette_rules (big : bool) (rec : list Z) (b : Z * Z) : list bool :=
  let (o, type) := b in
  [negb (assumed big rec type o =? 0);
   match blockette_size type with Some _ => true | None => type =? 405 end;
   negb (type =? 1000) || (let e := nth (Z.to_nat (o + 4)) rec 0 in within 0 5 e || within 10 19 e || within 30 33 e);
   negb (type =? 1000) || within 0 1 (nth (Z.to_nat (o + 5)) rec 0)].

(** The record length stated by the last blockette 1000 (as an int), -1 without one. *)
Definition stated_length (rec : list Z) (l : list (Z * Z)) : Z :=
  fold_left (fun n b => if snd b =? 1000 then swrap 32 (2 ^ nth (Z.to_nat (fst b + 6)) rec 0) else n) l (-1).
(** The last byte of the last blockette, as assumed. *)
Definition last_byte (big : bool) (rec : list Z) (l : list (Z * Z)) (cut : option Z) : Z :=
  match cut with
  | Some o => o + assumed big rec (bytes_at big rec o 2) o - 1
  | None => match rev l with (o, type) :: _ => o + assumed big rec type o - 1 | [] => -1 end
  end.

(** The rules for the chain as a whole. *)
Definition chain_rules (big : bool) (rec : list Z) (limit off : Z) (l : list (Z * Z)) (cut : option Z) : list bool :=
  let doff := bytes_at big rec 44 2 in
  let ns := bytes_at big rec 30 2 in
  let len := stated_length rec l in
  [match cut with None => true | Some _ => false end;
   match cut with Some _ => true | None => final big rec off l <=? limit end;
   (len =? 0) || (doff <=? len); (len =? 0) || (off <=? len);
   (ns =? 0) || (last_byte big rec l cut <? doff);
   nth 39 rec 0 =? lenZ l].

(** The order of the bytes: the order of the host unless asked to find out and the year and
    the day then are not plausible. *)
Definition record_order (hb : bool) (swapflag : Z) (rec : list Z) : bool :=
  if (swapflag =? -1)
     && negb (within 1900 2100 (bytes_at hb rec 20 2) && within 1 366 (bytes_at hb rec 22 2))
  then negb hb else hb.

(** The link followed from the blockette at [off]. *)
Definition follow (big : bool) (rec : list Z) (off : Z) : Z :=
  let next := bytes_at big rec (off + 2) 2 in
  if next <? off + assumed big rec (bytes_at big rec off 2) off then 0 else next.

(** The offsets the links lead to from [off]. *)
Inductive reached (big : bool) (rec : list Z) (limit : Z) : Z -> Z -> Prop :=
| reached_here off : reached big rec limit off off
| reached_step off o :
    off <> 0 -> off < limit -> off + assumed big rec (bytes_at big rec off 2) off - 1 <= limit ->
    reached big rec limit (follow big rec off) o -> reached big rec limit off o.

(** A blockette of unknown size that names itself as the next one. *)
Definition stuck (big : bool) (rec : list Z) (limit off : Z) : Prop :=
  off <> 0 /\ off < limit /\ assumed big rec (bytes_at big rec off 2) off = 0 /\ bytes_at big rec (off + 2) 2 = off.

(** A blockette that is safe to visit: its head is in the record, and so is the rest unless
    its assumed size already does not fit. *)
Definition safe_at (big : bool) (rec : list Z) (limit off : Z) : Prop :=
  let type := bytes_at big rec off 2 in
  off + (if type =? 2000 then 6 else 4) <= limit
  /\ (off + assumed big rec type off - 1 <= limit -> printable big rec limit type off).

(** ** Printing *)

(** An ordinary end or undefined behaviour, but no endless loop. *)
Definition terminates {A} (r : res A) : Prop := r <> Fuel.
(** No ordinary end. *)
Definition never_ends {A} (r : res A) : Prop := r = Fuel \/ is_ub r.
