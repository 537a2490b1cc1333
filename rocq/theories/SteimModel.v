(** * Model of the Steim-1 and Steim-2 encoders and decoders.

    libmseed/packdata.c:188-724 and libmseed/unpackdata.c:182-600.

    Representation.  A buffer of 32-bit words is its memory image, a list of
    bytes.  [hb] is the byte order of the host, [sw] the C [swapflag].  The
    encoder's input array is walked through [e_prev] (the sample at [inputidx])
    and [e_rest] (the samples after it); [e_ds] holds the [diffcount] valid
    entries of the C arrays [diffs]/[bitwidth] (the shift to the beginning of
    the arrays, packdata.c:305-310, is dropping the packed ones). *)

From Verif Require Export Base.

(** packdata.c:188-208, macro BITWIDTH. *)
Definition bitwidth (v : Z) : Z :=
  if (-8 <=? v) && (v <=? 7) then 4
  else if (-16 <=? v) && (v <=? 15) then 5
  else if (-32 <=? v) && (v <=? 31) then 6
  else if (-128 <=? v) && (v <=? 127) then 8
  else if (-512 <=? v) && (v <=? 511) then 10
  else if (-16384 <=? v) && (v <=? 16383) then 15
  else if (-32768 <=? v) && (v <=? 32767) then 16
  else if (-536870912 <=? v) && (v <=? 536870911) then 30
  else 32.

(** A value of [n] bytes stored by the host and swapped if [sw]. *)
Definition st (hb sw : bool) (n : nat) (v : Z) : list Z := gswap_if sw (host_bytes hb n v).

(** A value of [n] bytes loaded, swapped first if [sw]; unsigned. *)
Definition ld (hb sw : bool) (l : list Z) : Z := host_val hb (gswap_if sw l).

(** The 2-bit code in the control word: packdata.c:344, 366, 382
    ([frameptr[0] |= code << (30 - 2 * widx)]). *)
Definition set_nibble (ctl code widx : Z) : Z := Z.lor ctl (Z.shiftl code (30 - 2 * widx)).

(** unpackdata.c:31, macro EXTRACTBITRANGE. *)
Definition extract (v start len : Z) : Z := Z.land (Z.shiftr v start) (2 ^ len - 1).

Record est := mk_est {
  e_prev : Z;         (* input[inputidx] *)
  e_rest : list Z;    (* input[inputidx+1 ..] *)
  e_ds   : list Z;    (* diffs[0 .. diffcount-1] *)
  e_out  : Z          (* outputsamples *)
}.

(** packdata.c:312-318 (and 513-519): append differences until there are [max] or
    the input is exhausted.  The subtraction is signed 32-bit. *)
Fixpoint refill (m : ovmode) (room : nat) (prev : Z) (rest ds : list Z)
  : res (Z * list Z * list Z) :=
  match room with
  | O => Ok (prev, rest, ds)
  | S room' =>
    match rest with
    | [] => Ok (prev, rest, ds)
    | x :: rest' =>
      let! d := sarith m 32 (x - prev) in
      refill m room' x rest' (ds ++ [d])
    end
  end.

Definition refill_to (m : ovmode) (max : nat) (s : est) : res est :=
  if (length (e_ds s) <? max)%nat then
    let! (p, r, d) := refill m (max - length (e_ds s)) (e_prev s) (e_rest s) (e_ds s) in
    Ok (mk_est p r d (e_out s))
  else Ok s.

Definition w_le (n : Z) (d : Z) : bool := bitwidth d <=? n.

(** One word of Steim-1: code, memory image, number of packed samples.
    packdata.c:321-385.  With an empty difference buffer the code would read a
    stale [diffs[0]]; that is [UB Uninit] here and proved unreachable. *)
Definition s1_word (hb sw : bool) (ds : list Z) : res (Z * list Z * nat) :=
  match ds with
  | [] => UB Uninit
  | d0 :: t =>
    match t with
    | [d1; d2; d3] =>
      if forallb (w_le 8) [d0; d1; d2; d3] then
        Ok (1, map (uwrap 8) [d0; d1; d2; d3], 4%nat)
      else if forallb (w_le 16) [d0; d1] then
        Ok (2, st hb sw 2 d0 ++ st hb sw 2 d1, 2%nat)
      else Ok (3, st hb sw 4 d0, 1%nat)
    | d1 :: _ =>
      if forallb (w_le 16) [d0; d1] then
        Ok (2, st hb sw 2 d0 ++ st hb sw 2 d1, 2%nat)
      else Ok (3, st hb sw 4 d0, 1%nat)
    | [] => Ok (3, st hb sw 4 d0, 1%nat)
    end
  end.

(** packdata.c:543-554 and siblings: masked values shifted into place and or-ed,
    first difference in the most significant position. *)
Fixpoint pack_fields (bits : Z) (ds : list Z) : Z :=
  match ds with
  | [] => 0
  | d :: t => Z.lor (Z.shiftl (Z.land (uwrap 32 d) (2 ^ bits - 1)) (bits * Z.of_nat (length t)))
                    (pack_fields bits t)
  end.

Definition s2_try (bits : Z) (n : nat) (ds : list Z) : bool :=
  (n <=? length ds)%nat && forallb (w_le bits) (firstn n ds).

Definition s2_img (hb sw : bool) (bits dnib : Z) (n : nat) (ds : list Z) : list Z :=
  st hb sw 4 (Z.lor (pack_fields bits (firstn n ds)) (Z.shiftl dnib 30)).

(** One word of Steim-2, packdata.c:522-703.  The 4 x 8-bit word is stored as
    bytes and not swapped (701-703).  [Err (-1)] is packdata.c:695-699. *)
Definition s2_word (hb sw : bool) (ds : list Z) : res (Z * list Z * nat) :=
  if (length ds =? 7)%nat && forallb (w_le 4) ds then Ok (3, s2_img hb sw 4 2 7 ds, 7%nat)
  else if s2_try 5 6 ds then Ok (3, s2_img hb sw 5 1 6 ds, 6%nat)
  else if s2_try 6 5 ds then Ok (3, s2_img hb sw 6 0 5 ds, 5%nat)
  else if s2_try 8 4 ds then Ok (1, map (uwrap 8) (firstn 4 ds), 4%nat)
  else if s2_try 10 3 ds then Ok (2, s2_img hb sw 10 3 3 ds, 3%nat)
  else if s2_try 15 2 ds then Ok (2, s2_img hb sw 15 2 2 ds, 2%nat)
  else if s2_try 30 1 ds then Ok (2, s2_img hb sw 30 1 1 ds, 1%nat)
  else Err (-1).

(** The word loop of one frame, packdata.c:301-389 / 502-707, for the remaining
    [k] words starting at index [widx].  Unused words stay zero (memset, 274/474).
    Returns the control word, the memory image of the words, and the new state. *)
Fixpoint enc_words (wordf : list Z -> res (Z * list Z * nat)) (m : ovmode) (max : nat)
         (cnt : Z) (k : nat) (widx ctl : Z) (s : est) : res (Z * list Z * est) :=
  match k with
  | O => Ok (ctl, [], s)
  | S k' =>
    if e_out s <? cnt then
      let! s1 := refill_to m max s in
      let! (code, img, n) := wordf (e_ds s1) in
      let s2 := mk_est (e_prev s1) (e_rest s1) (skipn n (e_ds s1)) (e_out s1 + Z.of_nat n) in
      let! (ctl', imgs, s3) := enc_words wordf m max cnt k' (widx + 1) (set_nibble ctl code widx) s2 in
      Ok (ctl', img ++ imgs, s3)
    else Ok (ctl, repeat 0 (4 * k), s)
  end.

(** Frames after the first, packdata.c:269-394 / 469-712: startnibble is 1. *)
Fixpoint enc_frames (wordf : list Z -> res (Z * list Z * nat)) (hb sw : bool) (m : ovmode)
         (max : nat) (cnt : Z) (frames : nat) (s : est) : res (list Z * est) :=
  match frames with
  | O => Ok ([], s)
  | S f' =>
    if e_out s <? cnt then
      let! (ctl, imgs, s1) := enc_words wordf m max cnt 15 1 0 s in
      let! (out, s2) := enc_frames wordf hb sw m max cnt f' s1 in
      Ok (st hb sw 4 ctl ++ imgs ++ out, s2)
    else Ok ([], s)
  end.

(** The common frame of both encoders, packdata.c:225-408 and 425-724.
    [wordf] and [max] (size of the difference buffer) select the variant.
    Result: number of samples packed and the bytes written from the start of the
    output buffer (their number is stored in byteswritten).  [cap] is [outputlength]. *)
Definition steim_encode (wordf : bool -> bool -> list Z -> res (Z * list Z * nat)) (max : nat)
           (hb sw : bool) (m : ovmode) (input : list Z) (cap : Z) (diff0 : Z)
  : res (Z * list Z) :=
  match input with
  | [] => Ok (0, [])
  | x0 :: rest =>
    if cap =? 0 then Err (-1)
    else
      let cnt := Z.of_nat (length input) in
      match Z.to_nat (cap / 64) with
      | O => if sw then UB NullDeref       (* ms_gswap4 (Xnp) with Xnp == NULL, :401-402 *)
             else Ok (0, [])
      | S f' =>
        (* frame 0: nibbles, X0, Xn, then 13 data words *)
        let s0 := mk_est x0 rest [diff0] 0 in
        let! (ctl, imgs, s1) := enc_words (wordf hb sw) m max cnt 13 3 0 s0 in
        let! (out, s2) := enc_frames (wordf hb sw) hb sw m max cnt f' s1 in
        let! xn := getZ (e_out s2 - 1) input in
        Ok (e_out s2, st hb sw 4 ctl ++ st hb sw 4 x0 ++ st hb sw 4 xn ++ imgs ++ out)
      end
  end.

Definition encode_steim1 := steim_encode s1_word 4.
Definition encode_steim2 := steim_encode s2_word 7.

(** ** Decoders *)

(** Sign extension of a bit-field of width [w] (struct {signed int x:w;},
    unpackdata.c:384-389, and the int8_t/int16_t union members). *)
Definition sx (w v : Z) : Z := swrap w v.

(** unpackdata.c:280-328: differences in one Steim-1 word. *)
Definition s1_diffs (hb sw : bool) (code : Z) (w : list Z) : res (list Z) :=
  if code =? 0 then Ok []
  else if code =? 1 then Ok (map (sx 8) w)
  else if code =? 2 then
    Ok [ sx 16 (ld hb sw (firstn 2 w)); sx 16 (ld hb sw (skipn 2 w)) ]
  else Ok [ sx 32 (ld hb sw w) ].

(** [n] consecutive bit fields, high order first: field [idx] starts at
    [(n-1-idx)*bits]. *)
Fixpoint fields (bits : Z) (n : nat) (v : Z) : list Z :=
  match n with
  | O => []
  | S n' => sx bits (extract v (bits * Z.of_nat n') bits) :: fields bits n' v
  end.

(** unpackdata.c:457-579: differences in one Steim-2 word. *)
Definition s2_diffs (hb sw : bool) (code : Z) (w : list Z) : res (list Z) :=
  if code =? 0 then Ok []
  else if code =? 1 then Ok (map (sx 8) w)
  else
    let v := ld hb sw w in
    let dnib := extract v 30 2 in
    if code =? 2 then
      if dnib =? 0 then Err (-1)
      else if dnib =? 1 then Ok (fields 30 1 v)
      else if dnib =? 2 then Ok (fields 15 2 v)
      else Ok (fields 10 3 v)
    else
      if dnib =? 0 then Ok (fields 6 5 v)
      else if dnib =? 1 then Ok (fields 5 6 v)
      else if dnib =? 2 then Ok (fields 4 7 v)
      else Err (-1).

(** unpackdata.c:274-329 / 452-580: all words from index [widx] on.  [acc] is
    the number of entries of the local array [diff] already used and [dmax] its
    size (60 or 105): writing beyond it is undefined behaviour. *)
Fixpoint dec_words (diffsf : Z -> list Z -> res (list Z)) (dmax : Z) (ctl widx acc : Z)
         (ws : list (list Z)) : res (list Z) :=
  match ws with
  | [] => Ok []
  | w :: ws' =>
    let! ds := diffsf (extract ctl (30 - 2 * widx) 2) w in
    let acc' := acc + Z.of_nat (length ds) in
    if dmax <? acc' then UB OOBWrite
    else
      let! r := dec_words diffsf dmax ctl (widx + 1) acc' ws' in
      Ok (ds ++ r)
  end.

(** unpackdata.c:331-339 / 582-589: apply differences until the wanted number of
    samples is reached.  [need] is [samplecount - outputidx].  [ocap] is the
    number of int32 elements the output buffer can hold from here on. *)
Fixpoint apply_diffs (m : ovmode) (need ocap : Z) (last : Z) (ds : list Z) : res (list Z) :=
  match ds with
  | [] => Ok []
  | d :: ds' =>
    if need <=? 0 then Ok []
    else if ocap <=? 0 then UB OOBWrite
    else
      let! v := sarith m 32 (last + d) in
      let! r := apply_diffs m (need - 1) (ocap - 1) v ds' in
      Ok (v :: r)
  end.

(** One frame's 16 words as memory images. *)
Definition frame_words (fr : list Z) : list (list Z) := chunks 4 16 fr.

(** Frames after the first. unpackdata.c:235-340 / 413-590. *)
Fixpoint dec_frames (diffsf : bool -> bool -> Z -> list Z -> res (list Z)) (dmax : Z)
         (hb sw : bool) (m : ovmode) (frames : nat) (input : list Z) (need ocap last : Z)
  : res (list Z) :=
  match frames with
  | O => Ok []
  | S f' =>
    if need <=? 0 then Ok []
    else
      let! fr := slice 0 64 input in
      match frame_words fr with
      | w0 :: ws =>
        let! ds := dec_words (diffsf hb sw) dmax (ld hb sw w0) 1 0 ws in
        let! outs := apply_diffs m need ocap last ds in
        let n := Z.of_nat (length outs) in
        let! r := dec_frames diffsf dmax hb sw m f' (skipn 64 input) (need - n) (ocap - n)
                             (List.last outs last) in
        Ok (outs ++ r)
      | [] => UB OOBRead
      end
  end.

(** msr_decode_steim1 / msr_decode_steim2, unpackdata.c:191-350 and 361-600.
    [input] is the buffer, [inlen] the declared length (reads are checked against
    the real buffer), [cnt] is [samplecount], [ocap] the output buffer size in
    bytes.  Result: the samples written and whether the reverse integration
    constant disagreed (the warning).  [cnt = 0] skips the loop and then reads output[-1] (:343). *)
Definition steim_decode (diffsf : bool -> bool -> Z -> list Z -> res (list Z)) (dmax : Z)
           (hb sw : bool) (m : ovmode) (input : list Z) (inlen : Z) (cnt ocap : Z)
  : res (list Z * bool) :=
  match Z.to_nat (inlen / 64) with
  | O => Ok ([], false)
  | S f' =>
    if ocap =? 0 then Err (-1)
    else if ocap <? uwrap 64 (cnt * 4) then Err (-1)
    else if cnt <=? 0 then UB OOBRead     (* output[outputidx - 1] with outputidx == 0, :343 *)
    else
      let! fr := slice 0 64 input in
      match frame_words fr with
      | w0 :: w1 :: w2 :: ws =>
        if ocap / 4 <=? 0 then UB OOBWrite else
        let x0 := sx 32 (ld hb sw w1) in
        let xn := sx 32 (ld hb sw w2) in
        let! ds := dec_words (diffsf hb sw) dmax (ld hb sw w0) 3 0 ws in
        let! outs := apply_diffs m (cnt - 1) (ocap / 4 - 1) x0 (tl ds) in
        let n := Z.of_nat (length outs) in
        let! r := dec_frames diffsf dmax hb sw m f' (skipn 64 input) (cnt - 1 - n)
                             (ocap / 4 - 1 - n) (List.last outs x0) in
        let all := x0 :: outs ++ r in
        Ok (all, (Z.of_nat (length all) =? cnt) && negb (List.last all x0 =? xn))
      | _ => UB OOBRead
      end
  end.

Definition decode_steim1 := steim_decode s1_diffs 60.
Definition decode_steim2 := steim_decode s2_diffs 105.
