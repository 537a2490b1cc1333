(** * Model of the fixed-width encoders/decoders and of the legacy gain-ranged
    decoders.

    libmseed/packdata.c:29-186, libmseed/unpackdata.c:38-180 and 602-960,
    libmseed/unpack.c:1309-1322 (text).

    A sample is the mathematical integer it holds; a float or double sample is
    its 32- or 64-bit pattern because the code only copies it (an assignment of a
    float is assumed to preserve its bits).  Buffers are byte lists; the input and
    output pointers are never NULL here. *)

From Coq Require Export SpecFloat.
From Verif Require Export Base SteimModel.

(** ** Encoders *)

(** msr_encode_text, packdata.c:37-54. *)
Definition encode_text (samples : list Z) (cap : Z) : res (Z * list Z) :=
  match samples with
  | [] => Ok (0, [])
  | _ =>
    if cap =? 0 then Err (-1)
    else
      let cnt := Z.of_nat (length samples) in
      let len := if cnt <? cap then cnt else cap in
      Ok (len, firstn (Z.to_nat len) samples)
  end.

(** The loop common to packdata.c:76-84, 109-117, 142-150, 175-183: [w] is the
    size of a stored sample, [f] stores one. *)
Fixpoint enc_loop (w : Z) (f : Z -> list Z) (cap : Z) (samples : list Z) : Z * list Z :=
  match samples with
  | [] => (0, [])
  | x :: t =>
    if w <=? cap then
      let '(n, out) := enc_loop w f (cap - w) t in (n + 1, f x ++ out)
    else (0, [])
  end.

Definition encode_fixed (w : Z) (f : Z -> list Z) (samples : list Z) (cap : Z) : res (Z * list Z) :=
  match samples with
  | [] => Ok (0, [])
  | _ => if cap =? 0 then Err (-1) else Ok (enc_loop w f cap samples)
  end.

(** msr_encode_int16, packdata.c:65-87: the conversion (int16_t)input[idx] keeps
    the low 16 bits. *)
Definition encode_int16 (hb sw : bool) := encode_fixed 2 (fun x => st hb sw 2 (swrap 16 x)).
(** msr_encode_int32, packdata.c:98-120. *)
Definition encode_int32 (hb sw : bool) := encode_fixed 4 (st hb sw 4).
(** msr_encode_float32, packdata.c:131-153. *)
Definition encode_float32 (hb sw : bool) := encode_fixed 4 (st hb sw 4).
(** msr_encode_float64, packdata.c:164-186. *)
Definition encode_float64 (hb sw : bool) := encode_fixed 8 (st hb sw 8).

(** ** Decoders *)

(** Loop common to all sample-by-sample decoders (unpackdata.c:58-69 and its
    siblings): [wi] input bytes and [wo] output bytes per sample, [f] decodes one
    word.  [k] counts the iterations left of [idx < samplecount]; the loop counter
    of the code is a uint32_t, see [decode_fixed]. *)
Fixpoint dec_loop {A} (wi : nat) (wo : Z) (f : list Z -> res A) (k : nat) (ocap : Z) (input : list Z)
  : res (list A) :=
  match k with
  | O => Ok []
  | S k' =>
    if wo <=? ocap then
      let! w := slice 0 wi input in
      let! v := f w in
      let! r := dec_loop wi wo f k' (ocap - wo) (skipn wi input) in
      Ok (v :: r)
    else Ok []
  end.

(** Frame common to the decoders.  [minout] is the smallest accepted output size.
    The 32-bit loop counter would wrap for 2^32 samples or more; that range is not
    modelled (outcome [Fuel]).  A record holds fewer (uint32_t, libmseed.h:1053). *)
Definition decode_fixed {A} (wi : nat) (wo minout : Z) (f : list Z -> res A)
           (input : list Z) (cnt ocap : Z) : res (list A) :=
  if cnt =? 0 then Ok []
  else if ocap <? minout then Err (-1)
  else if 2 ^ 32 <=? cnt then Fuel
  else dec_loop wi wo f (Z.to_nat cnt) ocap input.

(** ms_decode_data, case DE_TEXT, unpack.c:1309-1322: memcpy of [cnt] bytes (the
    output size was checked before, unpack.c:1299). *)
Definition decode_text (input : list Z) (cnt ocap : Z) : res (list Z) :=
  if cnt =? 0 then Ok []
  else if ocap <? cnt then Err (-1)
  else sliceZ 0 cnt input.

(** msr_decode_int16, unpackdata.c:47-72. *)
Definition decode_int16 (hb sw : bool) :=
  decode_fixed 2 4 4 (fun w => Ok (swrap 16 (ld hb sw w))).
(** msr_decode_int32, unpackdata.c:83-108. *)
Definition decode_int32 (hb sw : bool) :=
  decode_fixed 4 4 4 (fun w => Ok (swrap 32 (ld hb sw w))).
(** msr_decode_float32, unpackdata.c:119-144. *)
Definition decode_float32 (hb sw : bool) := decode_fixed 4 4 4 (fun w => Ok (ld hb sw w)).
(** msr_decode_float64, unpackdata.c:155-180. *)
Definition decode_float64 (hb sw : bool) := decode_fixed 8 8 8 (fun w => Ok (ld hb sw w)).

(** ** Legacy decoders *)

(** (double)i for an integer and (float)d for a double, IEEE round to nearest even. *)
Definition to_double (i : Z) : spec_float := binary_normalize 53 1024 i 0 false.
Definition to_float (d : spec_float) : spec_float :=
  match d with
  | S754_finite s mx ex => binary_normalize 24 128 (if s then Z.neg mx else Z.pos mx) ex s
  | other => other
  end.

(** [mantissa -= 2 * (MAXn + 1)] guarded by [(unsigned long)mantissa > MAXn]
    (unpackdata.c:669-670, 898-899, 951-952); the comparison is on the 64-bit
    unsigned conversion, the result is converted back to int32_t. *)
Definition sub_complement (max mantissa : Z) : Z :=
  if max <? uwrap 64 mantissa then swrap 32 (mantissa - 2 * (max + 1)) else mantissa.

(** msr_decode_geoscope, 24-bit case, unpackdata.c:657-675.  [sample32] is a
    4-byte union: with [sw] byte k of the input goes to position 2-k, otherwise to
    1+k; [mantissa = sample32.i] converts to int32_t. *)
Definition geoscope24_word (hb sw : bool) (w : list Z) : res spec_float :=
  match w with
  | [b0; b1; b2] =>
    let img := if sw then [b2; b1; b0; 0] else [0; b0; b1; b2] in
    let mantissa := swrap 32 (host_val hb img) in
    Ok (to_float (to_double (sub_complement 0x7FFFFF mantissa)))
  | _ => UB OOBRead
  end.

(** unpackdata.c:676-709: 16-bit with 3-bit ([mask] = 0x7000) or 4-bit (0xf000)
    gain.  [sint] is an int16_t, promoted to a 64-bit operand before masking. *)
Definition geoscope16_word (mask : Z) (hb sw : bool) (w : list Z) : res spec_float :=
  let sint := swrap 16 (ld hb sw w) in
  let mantissa := Z.land sint 0x0FFF in
  let gainrange := Z.shiftr (Z.land (uwrap 64 sint) mask) 12 in
  let exp2val := uwrap 64 (Z.shiftl 1 gainrange) in
  Ok (to_float (SFdiv 53 1024 (to_double (mantissa - 2048)) (to_double exp2val))).

(** msr_decode_geoscope, unpackdata.c:619-730.  [enc] is the encoding code. *)
Definition decode_geoscope (enc : Z) (hb sw : bool) (input : list Z) (cnt ocap : Z)
  : res (list spec_float) :=
  if cnt =? 0 then Ok []
  else if ocap =? 0 then Err (-1)
  else if enc =? 12 then decode_fixed 3 4 1 (geoscope24_word hb sw) input cnt ocap
  else if enc =? 13 then decode_fixed 2 4 1 (geoscope16_word 0x7000 hb sw) input cnt ocap
  else if enc =? 14 then decode_fixed 2 4 1 (geoscope16_word 0xf000 hb sw) input cnt ocap
  else Err (-1).

(** msr_decode_cdsn, unpackdata.c:775-825. *)
Definition cdsn_word (hb sw : bool) (w : list Z) : res Z :=
  let sint := ld hb sw w in
  let mantissa := Z.land sint 0x3FFF in
  let gainrange := Z.shiftr (Z.land sint 0xC000) 14 in
  let mult := if gainrange =? 0 then 0 else if gainrange =? 1 then 2
              else if gainrange =? 2 then 4 else 7 in
  let mantissa' := swrap 32 (mantissa - 0x1FFF) in
  Ok (swrap 32 (uwrap 32 (Z.shiftl (uwrap 32 mantissa') mult))).
Definition decode_cdsn (hb sw : bool) := decode_fixed 2 4 1 (cdsn_word hb sw).

(** msr_decode_sro, unpackdata.c:864-919. *)
Definition sro_word (hb sw : bool) (w : list Z) : res Z :=
  let sint := ld hb sw w in
  let mantissa := sub_complement 0x7FF (Z.land sint 0x0FFF) in
  let gainrange := Z.shiftr (Z.land sint 0xF000) 12 in
  let exponent := (-1) * (gainrange + 0) + 10 in
  if (exponent <? 0) || (10 <? exponent) then Err (-1)
  else Ok (swrap 32 (uwrap 64 (mantissa * uwrap 64 (Z.shiftl 1 exponent)))).
Definition decode_sro (hb sw : bool) := decode_fixed 2 4 1 (sro_word hb sw).

(** msr_decode_dwwssn, unpackdata.c:930-960. *)
Definition dwwssn_word (hb sw : bool) (w : list Z) : res Z :=
  Ok (sub_complement 0x7FFF (ld hb sw w)).
Definition decode_dwwssn (hb sw : bool) := decode_fixed 2 4 1 (dwwssn_word hb sw).
