(** * Trace lists read from a buffer and samples unpacked from a record list
    (libmseed/tracelist.c:816-978 and 1614-1874).

    A record is parsed by [parse] and unpacked by [unpack_data] (RecModel), added by
    [add_msr] (TlModel) and selected by [matchselect] (SelModel).  Memory allocation
    succeeds; log messages, private pointers and the file list of
    mstl3_unpack_recordlist (opening each file name once, closing) are not modelled. *)

From Verif Require Export Base RecModel TlModel SelModel.
Open Scope Z_scope.

(** ** From a parsed record to the trace list *)

(** The 32-bit pattern of a float. *)
Definition float_bits (x : spec_float) : Z :=
  let sign (s : bool) := if s then 2 ^ 31 else 0 in
  match x with
  | S754_zero s => sign s
  | S754_infinity s => sign s + 255 * 2 ^ 23
  | S754_nan => 255 * 2 ^ 23 + 2 ^ 22
  | S754_finite s m e =>
    sign s + (if Zpos m <? 2 ^ 23 then Zpos m else (e + 150) * 2 ^ 23 + (Zpos m - 2 ^ 23))
  end.
Definition sample_words (d : samples) : list Z :=
  match d with SInt l => l | SFlt l => map float_bits l end.

(** The encoding used when samples are unpacked, unpack.c:1173-1179. *)
Definition used_encoding (m : msr) : Z := uwrap 8 (if m_enc m <? 0 then 10 else m_enc m).

(** What mstl3_addmsr_recordptr sees of the record: numsamples is 0 and sampletype is 0
    before samples are unpacked (msr3_init, msrutils.c:40-76); msr3_unpack_data sets both,
    unpack.c:1237-1246. *)
Definition trec_of (m : msr) : trec :=
  match m_data m with
  | None => mk_trec (m_sid m) (m_pub m) (m_start m) (m_rate m) (m_cnt m) 0 []
  | Some d => mk_trec (m_sid m) (m_pub m) (m_start m) (m_rate m) (m_cnt m)
                (match encoding_sizetype (used_encoding m) with Some (_, t) => t | None => 0 end) (sample_words d)
  end.

(** ** The record list entry *)

(** Where the record is: in memory (the bytes from bufferptr to the end of the object,
    its address modulo 8), in a file (its bytes from fileoffset on), or nowhere. *)
Inductive source := SBuf (mem : list Z) (addr : Z) | SFile (data : list Z) | SNone.

(** MS3RecordPtr, libmseed.h:518-530: the record without its samples (msr3_duplicate),
    its place, dataoffset. *)
Record rptr := mk_rptr { p_msr : msr; p_src : source; p_off : Z }.

(** ** mstl3_readbuffer_selection, tracelist.c:866-978 *)

(** The settings of a call.  [b_unpack2] stands for msr3_unpack_mseed2 (given the address
    modulo 8 and the flags). *)
Record bconf := mk_bconf {
  b_hb : bool; b_mode : ovmode; b_addr : Z; b_leaps : list Z;
  b_ttol : option (trec -> dbl); b_rtol : option (trec -> dbl); b_split : bool;
  b_flags : Z; b_select : option (list sel);
  b_unpack2 : Z -> Z -> list Z -> Z -> res msr }.

Definition MSF_RECORDLIST : Z := 256.

(** autoheal is 1, tracelist.c:938-939. *)
Definition b_conf (b : bconf) : conf :=
  mk_conf (b_mode b) (b_leaps b) (b_ttol b) (b_rtol b) (b_split b) true (has_flag (b_flags b) MSF_RECORDLIST).

(** tracelist.c:893-895 *)
Definition b_pflags (b : bconf) : Z :=
  match b_select b with
  | Some _ => if has_flag (b_flags b) MSF_UNPACKDATA then Z.ldiff (b_flags b) MSF_UNPACKDATA else b_flags b
  | None => b_flags b
  end.

(** tracelist.c:912-922 *)
Definition b_selected (b : bconf) (m : msr) : res bool :=
  match b_select b with
  | None => Ok true
  | Some sels =>
    let! e := endtime (b_mode b) (b_leaps b) (m_start m) (m_cnt m) (m_rate m) in
    let! x := matchselect sels (m_sid m) (m_start m) e (m_pub m) in
    Ok (match x with Some _ => true | None => false end)
  end.

Definition set_data (m : msr) (d : samples) : msr :=
  mk_msr (m_reclen m) (m_swaph m) (m_swapp m) (m_fver m) (m_flags m) (m_sid m) (m_start m) (m_rate m)
         (if m_enc m <? 0 then 10 else m_enc m) (m_pub m) (m_cnt m) (m_crc m) (m_extra m) (m_datalen m) (Some d).

(** tracelist.c:924-934: unpacking that was left for later; an error of any kind, or a
    number of samples other than samplecnt, ends the reading. *)
Definition b_later (b : bconf) (addr : Z) (rec : list Z) (m : msr) : res msr :=
  match b_select b with
  | None => Ok m
  | Some _ =>
    if has_flag (b_flags b) MSF_UNPACKDATA && (0 <? m_cnt m) then
      match unpack_data (b_hb b) (b_mode b) addr rec m with
      | Err _ => Err MS_GENERROR
      | Ok d => if samples_len d =? m_cnt m then Ok (set_data m d) else Err MS_GENERROR
      | UB u => UB u
      | Fuel => Fuel
      end
    else Ok m
  end.

(** The copy kept in the record list, msr3_duplicate (msr, 0). *)
Definition no_data (m : msr) : msr :=
  mk_msr (m_reclen m) (m_swaph m) (m_swapp m) (m_fver m) (m_flags m) (m_sid m) (m_start m) (m_rate m) (m_enc m)
         (m_pub m) (m_cnt m) (m_crc m) (m_extra m) (m_datalen m) None.

(** The return value, the trace list after it ([None] after a failed addition, which may
    leave it changed), and the record list entries in the order they were made.
    [heights] are the skip list heights drawn if the identifiers are new. *)
Definition rb_out : Type := Z * option tlist * list rptr.

(** The loop of tracelist.c:897-972; [rest] is the buffer from [offset] on. *)
Fixpoint rb_loop (fuel : nat) (b : bconf) (k : tlist) (rest : list Z) (offset count : Z) (heights : list nat)
         (ptrs : list rptr) : res rb_out :=
  match fuel with
  | O => Fuel
  | S fuel' =>
    if MINRECLEN <? Z.of_nat (length rest) then
      let addr := (b_addr b + offset) mod 8 in
      match parse (b_unpack2 b addr (b_pflags b)) (b_hb b) (b_mode b) addr (b_pflags b) rest with
      | Err c => Ok (c, Some k, ptrs)
      | UB u => UB u
      | Fuel => Fuel
      | Ok (PHint _) => Ok (count, Some k, ptrs)
      | Ok (PRec m) =>
        let next := skipn (Z.to_nat (m_reclen m)) rest in
        let rec := firstn (Z.to_nat (m_reclen m)) rest in
        let! s := b_selected b m in
        if negb s then rb_loop fuel' b k next (offset + m_reclen m) count heights ptrs
        else
          match b_later b addr rec m with
          | Err c => Ok (c, Some k, ptrs)
          | UB u => UB u
          | Fuel => Fuel
          | Ok m =>
            match add_msr (b_conf b) k (trec_of m) (hd 1%nat heights) with
            | Err _ => Ok (MS_GENERROR, None, ptrs)
            | UB u => UB u
            | Fuel => Fuel
            | Ok k =>
              if has_flag (b_flags b) MSF_RECORDLIST then
                match data_bounds (b_hb b) rec m with
                | Err _ => Ok (MS_GENERROR, Some k, ptrs)
                | UB u => UB u
                | Fuel => Fuel
                | Ok (off, _) =>
                  rb_loop fuel' b k next (offset + m_reclen m) (count + 1) (tl heights)
                          (ptrs ++ [mk_rptr (no_data m) (SBuf rest addr) off])
                end
              else rb_loop fuel' b k next (offset + m_reclen m) (count + 1) (tl heights) ptrs
            end
          end
      end
    else Ok (count, Some k, ptrs)
  end.

(** Every record read is at least 40 bytes long. *)
Definition readbuffer (b : bconf) (k : tlist) (buffer : list Z) (heights : list nat) : res rb_out :=
  rb_loop (S (length buffer)) b k buffer 0 0 heights [].

(** ** mstl3_unpack_recordlist, tracelist.c:1614-1874 *)

(** The alignment of the objects the decoders read through their input pointer: the
    16-bit and 32-bit integer decoders index it (unpackdata.c:61, 97), the others copy. *)
Definition alignment (enc : Z) : Z := if enc =? 1 then 2 else if enc =? 3 then 4 else 1.

(** The input of the decoder, tracelist.c:1714-1802: the memory from the start of the
    data on and its address.  The buffer a record is read into is taken to be as long as
    the record (what is in it after that is left from earlier records); it is aligned. *)
Definition rp_input (p : rptr) : res (list Z * Z) :=
  match p_src p with
  | SBuf mem addr => let! i := sliceZ (p_off p) (Z.of_nat (length mem) - p_off p) mem in Ok (i, addr + p_off p)
  | SFile data =>
    if Z.of_nat (length data) <? m_reclen (p_msr p) then Err (-1)
    else let! i := sliceZ (p_off p) (m_reclen (p_msr p) - p_off p) data in Ok (i, p_off p)
  | SNone => Err (-1)
  end.

(** tracelist.c:1687-1827.  [size] and [type] are those of the first record, [room] is
    decodedsize - outputoffset; [al] says whether the host traps on misaligned access.
    The length given to the decoder is a uint64_t. *)
Fixpoint url_loop (hb : bool) (mode : ovmode) (al : bool) (size type room : Z) (ps : list rptr) : res (list Z) :=
  match ps with
  | [] => Ok []
  | p :: ps' =>
    let m := p_msr p in
    if m_cnt m =? 0 then url_loop hb mode al size type room ps'
    else
      match encoding_sizetype (uwrap 8 (m_enc m)) with
      | None => Err (-1)
      | Some (_, t) =>
        if negb (t =? type) then Err (-1)
        else
          let! (input, addr) := rp_input p in
          if al && negb (addr mod alignment (uwrap 8 (m_enc m)) =? 0) then UB BadAlign
          else
            match decode_data hb (m_swaph m || m_swapp m) mode input (uwrap 64 (m_reclen m - p_off p))
                              (uwrap 8 (m_enc m)) (m_cnt m) room with
            | Err _ => Err (-1)
            | UB u => UB u
            | Fuel => Fuel
            | Ok d =>
              let! l := url_loop hb mode al size type (uwrap 64 (room - samples_len d * size)) ps' in
              Ok (sample_words d ++ l)
            end
      end
  end.

(** The segment with other samples. *)
Definition seg_samples (s : seg) (type : Z) (l : list Z) : seg :=
  mk_seg (s_start s) (s_end s) (s_hz s) (s_cnt s) type l (s_recs s).

(** The return value, the samples in the output buffer and the segment after the call.
    [ps] is the record list ([None]: seg->recordlist is NULL), [out] the size of the
    caller's buffer ([None]: NULL), which is not the one of the segment; [null0] says
    that malloc (0) is NULL. *)
Definition unpack_recordlist (hb : bool) (mode : ovmode) (al null0 : bool) (s : seg) (out : option Z)
           (ps : option (list rptr)) : res (Z * list Z * seg) :=
  match ps with
  | None => Ok (-1, [], s)
  | Some [] => UB NullDeref
  | Some (p :: ps') =>
    match encoding_sizetype (uwrap 8 (m_enc (p_msr p))) with
    | None => Ok (-1, [], s)
    | Some (size, type) =>
      let! need := sarith mode 64 (s_cnt s * size) in
      let need := uwrap 64 need in
      if (match out with
          | Some cap => cap <? need
          | None => match s_data s with [] => (need =? 0) && null0 | _ => true end
          end)
      then Ok (-1, [], s)
      else
        match url_loop hb mode al size type need (p :: ps') with
        | Err _ => Ok (-1, [], s)
        | UB u => UB u
        | Fuel => Fuel
        | Ok l =>
          let n := Z.of_nat (length l) in
          let type := if 0 <? n then type else s_type s in
          Ok (n, l, match out with Some _ => seg_samples s type (s_data s) | None => seg_samples s type l end)
        end
    end
  end.
