(** * Model of packing version 3 records.

    libmseed/pack.c:105-143, 154-371, 489-579, 1612-1798, libmseed/lookup.c:38-58.

    The record under construction is a byte list of the allocated size; every write
    is checked against it.  Memory that malloc leaves uninitialised is the argument
    [alloc], about whose content nothing is assumed.  Floating point operations and
    the time of the next record are arguments: [recip] is -1.0/x on bit patterns and
    [nexttime n] is ms_sampletime (starttime, n, samprate). *)

From Verif Require Export Base RecModel.
Open Scope Z_scope.

(** Write [bs] at [off]. *)
Definition put (off : Z) (bs buf : list Z) : res (list Z) :=
  if (0 <=? off) && (off + Z.of_nat (length bs) <=? Z.of_nat (length buf))
  then Ok (firstn (Z.to_nat off) buf ++ bs ++ skipn (Z.to_nat off + length bs) buf)
  else UB OOBWrite.

Definition MSF_FLUSHDATA : Z := 64.
Definition MSF_PACKVER2 : Z := 128.

(** [msr->samprate != 0.0 && msr->samprate > 0 && msr->samprate < 1.0] (pack.c:565)
    on the bit pattern: positive doubles are ordered like their patterns, 1.0 is
    0x3FF0000000000000, NaN and infinity are above. *)
Definition rate_below_one (bits : Z) : bool := (0 <? bits) && (bits <? 0x3FF0000000000000).

(** The time fields, pack.c:552-557 and 348-353. *)
Definition put_time (hb : bool) (t : Z * Z * Z * Z * Z * Z) (buf : list Z) : res (list Z) :=
  let '(year, day, hour, min, sec, nsec) := t in
  let! b := put 4 (st hb hb 4 nsec) buf in
  let! b := put 8 (st hb hb 2 year) b in
  let! b := put 10 (st hb hb 2 day) b in
  let! b := put 12 [hour] b in
  let! b := put 13 [min] b in
  put 14 [sec] b.

(** msr3_pack_header3, pack.c:489-579: the buffer and the header size. *)
Definition pack_header3 (recip : Z -> Z) (hb : bool) (m : msr) (buf : list Z) : res (list Z * Z) :=
  let maxreclen := if m_reclen m <? 0 then 4096 else m_reclen m in
  let encoding := uwrap 8 (if m_enc m <? 0 then 11 else m_enc m) in
  let sidlen := Z.of_nat (length (m_sid m)) in
  let extralen := Z.of_nat (length (m_extra m)) in
  if (maxreclen <? MINRECLEN) || (MAXRECLEN <? maxreclen) then Err (-1)
  else if Z.of_nat (length buf) <? 40 + sidlen + extralen then Err (-1)
  else
    match nstime2time (m_start m) with
    | UB u => UB u
    | Fuel => Fuel
    | Err _ => Err (-1)
    | Ok t =>
      if 255 <? sidlen then Err (-1)
      else
        let! b := put 0 [77; 83; 3; m_flags m] buf in
        let! b := put_time hb t b in
        let! b := put 15 [encoding] b in
        let! b := put 16 (st hb hb 8 (if rate_below_one (m_rate m) then recip (m_rate m) else m_rate m)) b in
        let! b := put 32 [m_pub m; uwrap 8 sidlen] b in
        let! b := put 34 (st hb hb 2 extralen) b in
        let! b := put 40 (m_sid m) b in
        let! b := (if 0 <? extralen then put (40 + sidlen) (m_extra m) b else Ok b) in
        Ok (b, 40 + sidlen + extralen)
    end.

(** ms_samplesize, lookup.c:38-58. *)
Definition samplesize (type : Z) : Z :=
  if (type =? 116) || (type =? 97) then 1
  else if (type =? 105) || (type =? 102) then 4
  else if type =? 100 then 8 else 0.

(** msr_pack_data, pack.c:1612-1798: samples packed and the bytes written.  [hb] and
    [sw] are the host byte order and the swap flag of the caller; the error returns
    are all -1. *)
Definition pack_data (hb sw : bool) (mode : ovmode) (enc type : Z) (src : list Z) (cap : Z)
  : res (Z * list Z) :=
  if enc =? 0 then
    if negb (type =? 116) && negb (type =? 97) then Err (-1) else encode_text src cap
  else if enc =? 1 then
    if negb (type =? 105) || (cap <? 2) then Err (-1) else encode_int16 hb sw src cap
  else if enc =? 3 then
    if negb (type =? 105) || (cap <? 4) then Err (-1) else encode_int32 hb sw src cap
  else if enc =? 4 then
    if negb (type =? 102) || (cap <? 4) then Err (-1) else encode_float32 hb sw src cap
  else if enc =? 5 then
    if negb (type =? 100) || (cap <? 8) then Err (-1) else encode_float64 hb sw src cap
  else if enc =? 10 then
    if negb (type =? 105) || (cap <? 64) then Err (-1) else encode_steim1 hb (negb hb) mode src cap 0
  else if enc =? 11 then
    if negb (type =? 105) || (cap <? 64) then Err (-1) else encode_steim2 hb (negb hb) mode src cap 0
  else Err (-1).

(** The length, count and checksum fields of a finished record, pack.c:316-324: the
    CRC is computed with its field zero; [addr] is the address of the record modulo 4. *)
Definition seal (hb : bool) (addr cnt datalen reclen : Z) (buf : list Z) : res (list Z) :=
  let! b := put 24 (st hb hb 4 (uwrap 32 cnt)) buf in
  let! b := put 36 (st hb hb 4 datalen) b in
  let! b := put 28 [0; 0; 0; 0] b in
  let! crc := ms_crc32c hb (addr, b) reclen 0 in
  put 28 (st hb hb 4 crc) b.

(** The record loop, pack.c:288-355.  [src] holds the numsamples samples, [total]
    have been packed.  Result: the records given to the handler, the number of
    samples packed, and whether the function succeeds.  The count given to the
    encoder is converted to int and then to uint64_t; when the result exceeds the
    samples left (2^31 to 2^32 of them) the model gives the encoder the samples left,
    which fill the output buffer of at most 10 MB before their end either way. *)
Fixpoint pack_loop (fuel : nat) (hb : bool) (mode : ovmode) (nexttime : Z -> Z) (enc type : Z)
         (src : list Z) (dataoffset maxdata maxsamples : Z) (flush : bool)
         (buf : list Z) (total : Z) : res (list (list Z) * Z * bool) :=
  match fuel with
  | O => Fuel
  | S fuel' =>
    let num := Z.of_nat (length src) in
    if (maxsamples <? num - total) || flush then
      let cnt := uwrap 64 (swrap 32 (num - total)) in
      match pack_data hb hb mode enc type (firstn (Z.to_nat cnt) (skipn (Z.to_nat total) src)) maxdata with
      | UB u => UB u
      | Fuel => Fuel
      | Err _ => Ok ([], total, false)
      | Ok (n, bytes) =>
        let datalen := Z.of_nat (length bytes) in
        let reclen := dataoffset + datalen in
        let! b := put dataoffset bytes buf in
        let! b := seal hb 0 n datalen reclen b in
        let rec := firstn (Z.to_nat reclen) b in
        let total' := total + n in
        if num <=? total' then Ok ([rec], total', true)
        else
          match nstime2time (nexttime total') with
          | UB u => UB u
          | Fuel => Fuel
          | Err _ => Ok ([rec], total', false)
          | Ok t =>
            let! b := put_time hb t b in
            let! (recs, tot, ok) := pack_loop fuel' hb mode nexttime enc type src dataoffset maxdata
                                              maxsamples flush b total' in
            Ok (rec :: recs, tot, ok)
          end
      end
    else Ok ([], total, true)
  end.

(** msr3_pack_mseed3, pack.c:154-371 (memory allocation succeeds).  [type] is
    sampletype, [src] the samples at datasamples, numsamples of them. *)
Definition pack3 (fuel : nat) (recip nexttime : Z -> Z) (hb : bool) (mode : ovmode) (alloc : list Z)
           (m : msr) (type : Z) (src : list Z) (flags : Z) : res (list (list Z) * Z * bool) :=
  let maxreclen := if m_reclen m <? 0 then 4096 else m_reclen m in
  let encoding := uwrap 8 (if m_enc m <? 0 then 11 else m_enc m) in
  let hdrlen := 40 + Z.of_nat (length (m_sid m)) + Z.of_nat (length (m_extra m)) in
  if maxreclen <? hdrlen then Ok ([], 0, false)
  else
    let buf := repeat 0 40 ++ skipn 40 (firstn (Z.to_nat maxreclen) alloc) in
    match pack_header3 recip hb m buf with
    | UB u => UB u
    | Fuel => Fuel
    | Err _ => Ok ([], 0, false)
    | Ok (buf, dataoffset) =>
      match src with
      | [] =>
        let! b := put 15 [0] buf in
        let! b := put 28 [0; 0; 0; 0] b in
        let! crc := ms_crc32c hb (0, b) dataoffset 0 in
        let! b := put 28 (st hb hb 4 crc) b in
        Ok ([firstn (Z.to_nat dataoffset) b], 0, true)
      | _ =>
        let size := samplesize type in
        if size =? 0 then Ok ([], 0, false)
        else
          let maxdata := maxreclen - dataoffset in
          let maxsamples :=
            if encoding =? 10 then uwrap 32 (maxdata / 64 * 60)
            else if encoding =? 11 then uwrap 32 (maxdata / 64 * 105)
            else maxdata / size in
          pack_loop fuel hb mode nexttime encoding type src dataoffset maxdata maxsamples
                    (has_flag flags MSF_FLUSHDATA) buf 0
      end
    end.

(** msr3_pack, pack.c:105-143, for a record that is not packed as version 2. *)
Definition msr3_pack (fuel : nat) (recip nexttime : Z -> Z) (hb : bool) (mode : ovmode) (alloc : list Z)
           (m : msr) (type : Z) (src : list Z) (flags : Z) : res (list (list Z) * Z * bool) :=
  if negb (m_reclen m =? -1) && ((m_reclen m <? MINRECLEN) || (MAXRECLEN <? m_reclen m))
  then Ok ([], 0, false)
  else pack3 fuel recip nexttime hb mode alloc m type src flags.

(** ** msr3_repack_mseed3, pack.c:393-465

    [rec] is what msr->record points to, [buf] the destination, [addr] its address
    modulo 4.  The two buffers do not overlap.  The first check (the header fits) is
    made in size_t, the second (the record fits) in uint32_t and without the length of
    the identifier, as in the code. *)
Definition repack3 (recip : Z -> Z) (hb : bool) (addr : Z) (rec : list Z) (m : msr) (buf : list Z)
  : res (list Z * Z) :=
  let recbuflen := Z.of_nat (length buf) in
  let sidlen := Z.of_nat (length (m_sid m)) in
  let extralen := Z.of_nat (length (m_extra m)) in
  if recbuflen <? 40 + sidlen + extralen then Err (-1)
  else if 2 ^ 32 - 1 <? m_cnt m then Err (-1)
  else
    match pack_header3 recip hb m buf with
    | UB u => UB u
    | Fuel => Fuel
    | Err _ => Err (-1)
    | Ok (b, dataoffset) =>
      match data_bounds hb rec m with
      | UB u => UB u
      | Fuel => Fuel
      | Err _ => Err (-1)
      | Ok (off, size) =>
        if recbuflen <? uwrap 32 (40 + extralen + size) then Err (-1)
        else
          let reclen := uwrap 32 (dataoffset + size) in
          let! payload := sliceZ off size rec in
          let! b := put dataoffset payload b in
          let! b := seal hb addr (m_cnt m) size reclen b in
          Ok (b, swrap 32 reclen)
      end
    end.
