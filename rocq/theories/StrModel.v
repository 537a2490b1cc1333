(** * Model of the string helpers (libmseed/genutils.c:183-725, unpack.c:1477-1502).

    Memory objects are lists of bytes; every access is checked.  A C string [s] given
    to a function lies in memory as [cstr s].  The destination and source of a call are
    distinct objects, except where a function has an in-place variant below. *)

From Verif Require Import Base.
Open Scope Z_scope.

Definition cstr (s : list Z) : list Z := s ++ [0].

(** Checked element write. *)
Fixpoint set_nth {A} (n : nat) (v : A) (l : list A) : list A :=
  match l, n with
  | [], _ => []
  | _ :: l', O => v :: l'
  | a :: l', S n' => a :: set_nth n' v l'
  end.
Definition setZ {A} (i : Z) (v : A) (l : list A) : res (list A) :=
  if (0 <=? i) && (i <? Z.of_nat (length l)) then Ok (set_nth (Z.to_nat i) v l) else UB OOBWrite.

(** ** Channel codes *)

(** ms_seedchan2xchan, genutils.c:435-456: the six bytes stored, or [Err (-1)].  Reads
    stop at the first zero byte, as && does. *)
Definition seedchan2xchan (seedchan xchan : list Z) : res (list Z) :=
  let! c0 := getZ 0 seedchan in
  if c0 =? 0 then Err (-1) else
  let! c1 := getZ 1 seedchan in
  if c1 =? 0 then Err (-1) else
  let! c2 := getZ 2 seedchan in
  if c2 =? 0 then Err (-1) else
  let! c3 := getZ 3 seedchan in
  if negb (c3 =? 0) then Err (-1) else
  let! x := setZ 0 c0 xchan in
  let! x := setZ 1 95 x in
  let! x := setZ 2 c1 x in
  let! x := setZ 3 95 x in
  let! x := setZ 4 c2 x in
  setZ 5 0 x.

(** The test of ms_xchan2seedchan, genutils.c:485-490 *)
Definition xchan_shape (xchan : list Z) : res bool :=
  let! c0 := getZ 0 xchan in
  if c0 =? 0 then Ok false else
  let! c1 := getZ 1 xchan in
  if negb (c1 =? 95) then Ok false else
  let! c2 := getZ 2 xchan in
  if c2 =? 0 then Ok false else
  let! c3 := getZ 3 xchan in
  if negb (c3 =? 95) then Ok false else
  let! c4 := getZ 4 xchan in
  if c4 =? 0 then Ok false else
  let! c5 := getZ 5 xchan in
  Ok (c5 =? 0).

(** ms_xchan2seedchan, genutils.c:480-504, distinct buffers *)
Definition xchan2seedchan (xchan seedchan : list Z) : res (list Z) :=
  let! ok := xchan_shape xchan in
  if negb ok then Err (-1) else
  let! c := getZ 0 xchan in let! s := setZ 0 c seedchan in
  let! c := getZ 2 xchan in let! s := setZ 1 c s in
  let! c := getZ 4 xchan in let! s := setZ 2 c s in
  setZ 3 0 s.

(** the same with seedchan == xchan *)
Definition xchan2seedchan_inplace (buf : list Z) : res (list Z) :=
  let! ok := xchan_shape buf in
  if negb ok then Err (-1) else
  let! c := getZ 0 buf in let! s := setZ 0 c buf in
  let! c := getZ 2 s in let! s := setZ 1 c s in
  let! c := getZ 4 s in let! s := setZ 2 c s in
  setZ 3 0 s.

(** ** Source identifiers *)

(** One store of ms_nslc2sid: [if ((sptr - sid) < sidlen) *sptr++ = c]; the state is
    the buffer, the position of sptr and [needed] (a C int; the model ignores its
    overflow, which takes codes of 2 GiB). *)
Definition sidstate : Type := (list Z * Z * Z)%type.
Definition sid_put (sidlen c : Z) (st : sidstate) : res sidstate :=
  let '(buf, pos, needed) := st in
  if pos <? sidlen then let! buf := setZ pos c buf in Ok (buf, pos + 1, needed + 1)
  else Ok (buf, pos, needed + 1).
Fixpoint sid_puts (sidlen : Z) (s : list Z) (st : sidstate) : res sidstate :=
  match s with
  | [] => Ok st
  | c :: s' => let! st := sid_put sidlen c st in sid_puts sidlen s' st
  end.

(** The unconditional stores of "FDSN:", genutils.c:333-338 *)
Fixpoint sid_prefix (s : list Z) (pos : Z) (buf : list Z) : res (list Z) :=
  match s with
  | [] => Ok buf
  | c :: s' => let! buf := setZ pos c buf in sid_prefix s' (pos + 1) buf
  end.

Definition fdsn : list Z := [70; 68; 83; 78; 58].

(** ms_nslc2sid, genutils.c:314-416: final buffer and return value (-1: error).  [loc]
    is [None] for NULL.  Channel mapping at 385-388. *)
Definition nslc2sid (sid : list Z) (sidlen : Z) (net sta : list Z) (loc : option (list Z)) (chan : list Z)
  : res (list Z * Z) :=
  if sidlen <? 16 then Ok (sid, -1) else
  let! buf := sid_prefix fdsn 0 sid in
  let! st := sid_puts sidlen net (buf, 5, 5) in
  let! st := sid_put sidlen 95 st in
  let! st := sid_puts sidlen sta st in
  let! st := sid_put sidlen 95 st in
  let! st := sid_puts sidlen (match loc with Some l => l | None => [] end) st in
  let! st := sid_put sidlen 95 st in
  let! ch := match seedchan2xchan (cstr chan) (repeat 0 6) with
             | Ok x => Ok (firstn 5 x)
             | Err _ => Ok chan
             | UB u => UB u
             | Fuel => Fuel
             end in
  let! (buf, pos, needed) := sid_puts sidlen ch st in
  let pos := if pos <? sidlen then pos else pos - 1 in
  let! buf := setZ pos 0 buf in
  if sidlen <? needed + 1 then Ok (buf, -1) else Ok (buf, pos).

(** strchr (s, c): the text before the first [c] and the text after it. *)
Fixpoint split_at (c : Z) (s : list Z) : option (list Z * list Z) :=
  match s with
  | [] => None
  | x :: s' =>
    if x =? c then Some ([], s')
    else match split_at c s' with
         | Some (a, b) => Some (x :: a, b)
         | None => None
         end
  end.

(** strrchr (s, c) + 1, for a string that contains [c]: the text after the last [c]. *)
Fixpoint after_last (c : Z) (s : list Z) : list Z :=
  match s with
  | [] => []
  | x :: s' => if existsb (Z.eqb c) s' then after_last c s' else if x =? c then s' else s
  end.

Fixpoint count_char (c : Z) (s : list Z) : Z :=
  match s with
  | [] => 0
  | x :: s' => (if x =? c then 1 else 0) + count_char c s'
  end.

(** strcpy into a buffer *)
Definition strcpy (dst s : list Z) : res (list Z) :=
  if (length s <? length dst)%nat then Ok (s ++ 0 :: skipn (S (length s)) dst) else UB OOBWrite.
Definition strcpy_opt (dst : option (list Z)) (s : list Z) : res (option (list Z)) :=
  match dst with
  | None => Ok None
  | Some d => let! d := strcpy d s in Ok (Some d)
  end.

Record nslc : Type := mk_nslc {
  o_net : option (list Z); o_sta : option (list Z); o_loc : option (list Z); o_chan : option (list Z)
}.

Definition starts_with_fdsn (s : list Z) : bool :=
  match s with
  | a :: b :: c :: d :: e :: _ => (a =? 70) && (b =? 68) && (c =? 83) && (d =? 78) && (e =? 58)
  | _ => false
  end.

(** ms_sid2nslc, genutils.c:183-279: the four destination buffers ([None] for NULL);
    [Err (-1)] when refused.  Allocation succeeds. *)
Definition sid2nslc (sid : list Z) (o : nslc) : res nslc :=
  if negb (starts_with_fdsn sid) then Err (-1) else
  let id := after_last 58 sid in
  if negb (count_char 95 id =? 5) then Err (-1) else
  let! (net, top) := match split_at 95 id with
                     | Some (a, b) => let! d := strcpy_opt (o_net o) a in Ok (d, b)
                     | None => Ok (o_net o, id)
                     end in
  let! (sta, top) := match split_at 95 top with
                     | Some (a, b) => let! d := strcpy_opt (o_sta o) a in Ok (d, b)
                     | None => Ok (o_sta o, top)
                     end in
  let! (loc, top) := match split_at 95 top with
                     | Some (a, b) => let! d := strcpy_opt (o_loc o) a in Ok (d, b)
                     | None => Ok (o_loc o, top)
                     end in
  match top, o_chan o with
  | [], c => Ok (mk_nslc net sta loc c)
  | _, None => Ok (mk_nslc net sta loc None)
  | _, Some c =>
    match xchan2seedchan (cstr top) c with
    | Ok c => Ok (mk_nslc net sta loc (Some c))
    | Err _ => let! c := strcpy c top in Ok (mk_nslc net sta loc (Some c))
    | UB u => UB u
    | Fuel => Fuel
    end
  end.

(** ** UTF-8 length *)

(** utf8d, genutils.c:510-525 *)
Definition utf8d : list Z :=
  repeat 0 128 ++
  repeat 1 16 ++ repeat 9 16 ++ repeat 7 32 ++
  [8;8] ++ repeat 2 30 ++
  [0xa;0x3;0x3;0x3;0x3;0x3;0x3;0x3;0x3;0x3;0x3;0x3;0x3;0x4;0x3;0x3] ++
  [0xb;0x6;0x6;0x6;0x5;0x8;0x8;0x8;0x8;0x8;0x8;0x8;0x8;0x8;0x8;0x8] ++
  [0x0;0x1;0x2;0x3;0x5;0x8;0x7;0x1;0x1;0x1;0x4;0x6;0x1;0x1;0x1;0x1] ++
  [1;1;1;1;1;1;1;1;1;1;1;1;1;1;1;1;1;0;1;1;1;1;1;0;1;0;1;1;1;1;1;1] ++
  [1;2;1;1;1;1;1;2;1;2;1;1;1;1;1;1;1;1;1;1;1;1;1;2;1;1;1;1;1;1;1;1] ++
  [1;2;1;1;1;1;1;1;1;2;1;1;1;1;1;1;1;1;1;1;1;1;1;3;1;3;1;1;1;1;1;1] ++
  [1;3;1;1;1;1;1;3;1;3;1;1;1;1;1;1;1;3;1;1;1;1;1;1;1;1;1;1;1;1;1;1].

(** One step, genutils.c:554-555 *)
Definition utf8_step (state b : Z) : res Z :=
  let! type := getZ b utf8d in
  getZ (256 + state * 16 + type) utf8d.

(** The loop, genutils.c:552-560: the condition reads [str[offset]] before comparing
    [offset] with [maxlength].  [str] is what is left of the object. *)
Fixpoint utf8_loop (str : list Z) (offset maxlength state length : Z) : res Z :=
  match str with
  | [] => UB OOBRead
  | b :: str' =>
    if (b =? 0) || negb (offset <? maxlength) then Ok length
    else
      let! state := utf8_step state b in
      utf8_loop str' (offset + 1) maxlength state (if state =? 0 then offset + 1 else length)
  end.

(** utf8length_int, genutils.c:545-563 *)
Definition utf8length_int (str : list Z) (maxlength : Z) : res Z := utf8_loop str 0 maxlength 0 0.

(** ** String copies *)

(** The loop of ms_strncpclean, genutils.c:600-612 *)
Fixpoint clean_loop (n : nat) (source dest : list Z) (sidx didx : Z) : res (list Z * Z) :=
  match n with
  | O => Ok (dest, didx)
  | S n' =>
    let! c := getZ sidx source in
    if c =? 0 then Ok (dest, didx)
    else if negb (c =? 32) then
      let! dest := setZ didx c dest in clean_loop n' source dest (sidx + 1) (didx + 1)
    else clean_loop n' source dest (sidx + 1) didx
  end.

(** ms_strncpclean, genutils.c:584-617.  [source = None] for NULL; [dest] is not NULL. *)
Definition strncpclean (dest : list Z) (source : option (list Z)) (length : Z) : res (list Z * Z) :=
  match source with
  | None => let! d := setZ 0 0 dest in Ok (d, 0)
  | Some src =>
    let! len := utf8length_int src length in
    let! (d, didx) := clean_loop (Z.to_nat len) src dest 0 0 in
    let! d := setZ didx 0 d in
    Ok (d, didx)
  end.

(** The loop of ms_strncpcleantail, genutils.c:657-668, from idx = n - 1 down to 0 *)
Fixpoint tail_loop (n : nat) (source dest : list Z) (pretail : Z) : res (list Z * Z) :=
  match n with
  | O => Ok (dest, pretail)
  | S n' =>
    let idx := Z.of_nat n' in
    let! space := if pretail =? 0 then let! c := getZ idx source in Ok (c =? 32) else Ok false in
    if (space : bool) then let! dest := setZ idx 0 dest in tail_loop n' source dest pretail
    else
      let! c := getZ idx source in
      let! dest := setZ idx c dest in tail_loop n' source dest (pretail + 1)
  end.

(** ms_strncpcleantail, genutils.c:638-671 *)
Definition strncpcleantail (dest : list Z) (source : option (list Z)) (length : Z) : res (list Z * Z) :=
  match source with
  | None => let! d := setZ 0 0 dest in Ok (d, 0)
  | Some src =>
    let! len := utf8length_int src length in
    let! d := setZ len 0 dest in
    tail_loop (Z.to_nat len) src d 0
  end.

(** The loops of ms_strncpopen, genutils.c:701-704 and 711-722; [utf8max = 0] for a
    NULL source *)
Fixpoint open_loop (n : nat) (source dest : list Z) (didx utf8max dcnt : Z) : res (list Z * Z) :=
  match n with
  | O => Ok (dest, dcnt)
  | S n' =>
    if didx <? utf8max then
      let! c := getZ didx source in
      let! dest := setZ didx c dest in open_loop n' source dest (didx + 1) utf8max (dcnt + 1)
    else
      let! dest := setZ didx 32 dest in open_loop n' source dest (didx + 1) utf8max dcnt
  end.

(** ms_strncpopen, genutils.c:690-725 *)
Definition strncpopen (dest : list Z) (source : option (list Z)) (length : Z) : res (list Z * Z) :=
  match source with
  | None => open_loop (Z.to_nat length) [] dest 0 0 0
  | Some src =>
    let! utf8max := utf8length_int src length in
    open_loop (Z.to_nat length) src dest 0 utf8max 0
  end.

(** ** Identifier of a version 2 record *)

(** Text of a buffer up to its terminator. *)
Fixpoint text_of (m : list Z) : res (list Z) :=
  match m with
  | [] => UB OOBRead
  | c :: m' => if c =? 0 then Ok [] else let! t := text_of m' in Ok (c :: t)
  end.

(** ms2_recordsid, unpack.c:1477-1502: station at 8, location at 13, channel at 15,
    network at 18 (libmseed/mseedformat.h).  The channel is stored in [chan[6] = {0}]. *)
Definition recordsid (record sid : list Z) (sidlen : Z) : res (list Z * Z) :=
  let! (net, _) := strncpclean (repeat 0 3) (Some (skipn 18 record)) 2 in
  let! (sta, _) := strncpclean (repeat 0 6) (Some (skipn 8 record)) 5 in
  let! (loc, _) := strncpclean (repeat 0 3) (Some (skipn 13 record)) 2 in
  let! c0 := getZ 15 record in
  let! c1 := getZ 16 record in
  let! c2 := getZ 17 record in
  let! net := text_of net in
  let! sta := text_of sta in
  let! loc := text_of loc in
  let! chan := text_of [c0; 95; c1; 95; c2; 0] in
  nslc2sid sid sidlen net sta (Some loc) chan.
