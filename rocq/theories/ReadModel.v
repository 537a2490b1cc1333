(** * Reading records from a stream (libmseed/fileutils.c).

    The bytes of the input arrive in pieces whose sizes are those of a schedule, an
    argument.  The record buffer is the list of the bytes in it (readlength is its
    length); the parser may only read those.  The positions in the buffer and in the
    stream are not wrapped: they are at most the buffer size (10 MB) and the size of the
    input.  Log messages are not modelled. *)

From Verif Require Export Base RecModel.
Open Scope Z_scope.

Definition MS_NOERROR : Z := 0.
Definition MS_ENDOFFILE : Z := 1.
Definition MSF_SKIPNOTDATA : Z := 2.
Definition MSF_PNAMERANGE : Z := 8.
Definition SKIPLEN : Z := 1.

(** MS3FileParam, libmseed.h:719-732 ([q_buf] and [q_off] are readbuffer and
    readoffset), with the input not yet delivered, the end-of-stream state and the
    number of reads made. *)
Record stream := mk_stream {
  q_buf : list Z; q_off : Z; q_pos : Z; q_count : Z; q_end : Z;
  q_rest : list Z; q_eof : bool; q_reads : nat }.

(** The outcome of a read: from the number of the read, the size asked for and the
    number of bytes left, the number of bytes delivered and whether the stream is at
    its end afterwards (msio_fread and msio_feof, msio.c:479-622). *)
Definition schedule := nat -> Z -> Z -> Z * bool.

(** The settings: msr3_unpack_mseed2, byte order of the host, overflow behaviour,
    address of readbuffer, flags, selections as a test of records. *)
Record rconf := mk_rconf {
  g_unpack2 : list Z -> Z -> res msr; g_hb : bool; g_mode : ovmode; g_base : Z; g_flags : Z;
  g_select : option (msr -> bool) }.

(** MSFPBUFLEN, fileutils.c:192. *)
Definition buflen (q : stream) : Z := Z.of_nat (length (q_buf q)) - q_off q.

(** ms3_shift_msfp, fileutils.c:160-189. *)
Definition shift_msfp (q : stream) (shift : Z) : res stream :=
  if (shift <=? 0) && (Z.of_nat (length (q_buf q)) <? shift) then Ok q
  else
    let! b := sliceZ shift (Z.of_nat (length (q_buf q)) - shift) (q_buf q) in
    Ok (if shift <? q_off q
        then mk_stream b (q_off q - shift) (q_pos q) (q_count q) (q_end q) (q_rest q) (q_eof q) (q_reads q)
        else mk_stream b 0 (q_pos q + (shift - q_off q)) (q_count q) (q_end q) (q_rest q) (q_eof q) (q_reads q)).

(** fileutils.c:391-417: the stream after the read, and whether it failed. *)
Definition fill (sch : schedule) (q : stream) : res (stream * bool) :=
  let! q :=
    (if buflen q <=? 0
     then Ok (mk_stream [] 0 (q_pos q) (q_count q) (q_end q) (q_rest q) (q_eof q) (q_reads q))
     else if 0 <? q_off q then shift_msfp q (q_off q) else Ok q) in
  let size := MAXRECLEN - Z.of_nat (length (q_buf q)) in
  let (n, e) := sch (q_reads q) size (Z.of_nat (length (q_rest q))) in
  let q := mk_stream (q_buf q ++ firstn (Z.to_nat n) (q_rest q)) (q_off q) (q_pos q) (q_count q) (q_end q)
                     (skipn (Z.to_nat n) (q_rest q)) e (S (q_reads q)) in
  Ok (q, (n <=? 0) && negb e).

(** Bytes passed over. *)
Definition advance (q : stream) (n : Z) : stream :=
  mk_stream (q_buf q) (q_off q + n) (q_pos q + n) (q_count q) (q_end q) (q_rest q) (q_eof q) (q_reads q).

(** fileutils.c:545-559: the end of a turn of the loop; [again] is the rest of the loop,
    from the stream and parseval. *)
Definition turn_end (again : stream -> Z -> res (Z * option msr * stream)) (q : stream) (pv : Z) :=
  if q_eof q && (buflen q <? MINRECLEN)
  then Ok (if q_count q =? 0 then MS_NOTSEED else MS_ENDOFFILE, None, q)
  else again q pv.

(** fileutils.c:420-559: a turn of the loop after reading. *)
Definition read_turn (again : stream -> Z -> res (Z * option msr * stream)) (g : rconf) (q : stream) (pv : Z)
  : res (Z * option msr * stream) :=
  if buflen q <? MINRECLEN then turn_end again q pv
  else
    let deferred := has_flag (g_flags g) MSF_UNPACKDATA && (match g_select g with Some _ => true | None => false end) in
    let pflags := Z.lor (if deferred then Z.ldiff (g_flags g) MSF_UNPACKDATA else g_flags g)
                        (if q_eof q then MSF_ATENDOFFILE else 0) in
    let here := skipn (Z.to_nat (q_off q)) (q_buf q) in
    match parse (g_unpack2 g) (g_hb g) (g_mode g) (g_base g + q_off q) pflags here with
    | Ok (PRec m) =>
      if (match g_select g with Some s => negb (s m) | None => false end)
      then turn_end again (advance q (m_reclen m)) 0
      else
        let! m :=
          (if deferred && (0 <? m_cnt m) then
             match unpack_data (g_hb g) (g_mode g) (g_base g + q_off q) (firstn (Z.to_nat (m_reclen m)) here) m with
             | Ok d => Ok (Some (mk_msr (m_reclen m) (m_swaph m) (m_swapp m) (m_fver m) (m_flags m) (m_sid m) (m_start m)
                                        (m_rate m) (m_enc m) (m_pub m) (m_cnt m) (m_crc m) (m_extra m) (m_datalen m) (Some d)))
             | Err _ => Ok None
             | UB u => UB u
             | Fuel => Fuel
             end
           else Ok (Some m)) in
        match m with
        | Some m =>
          let q' := advance q (m_reclen m) in
          Ok (MS_NOERROR, Some m,
              mk_stream (q_buf q') (q_off q') (q_pos q') (q_count q' + 1) (q_end q') (q_rest q') (q_eof q') (q_reads q'))
        | None => Ok (MS_GENERROR, None, q)
        end
    | Err c =>
      if has_flag (g_flags g) MSF_SKIPNOTDATA then turn_end again (advance q SKIPLEN) c
      else Ok (c, None, q)
    | Ok (PHint n) =>
      if MAXRECLEN <? buflen q + n then
        if has_flag (g_flags g) MSF_SKIPNOTDATA then turn_end again (advance q SKIPLEN) n
        else Ok (MS_OUTOFRANGE, None, q)
      else if q_eof q then Ok (MS_ENDOFFILE, None, q)
      else turn_end again q n
    | UB u => UB u
    | Fuel => Fuel
    end.

(** The loop of ms3_readmsr_selection, fileutils.c:373-560: the return code, the record
    and the stream.  [pv] is parseval. *)
Fixpoint read_loop (fuel : nat) (g : rconf) (sch : schedule) (q : stream) (pv : Z) : res (Z * option msr * stream) :=
  match fuel with
  | O => Fuel
  | S fuel' =>
    (* fileutils.c:380-385 *)
    let! togo := (if q_end q =? 0 then Ok 0
                  else let! x := sarith (g_mode g) 64 (q_end q + 1) in sarith (g_mode g) 64 (x - q_pos q)) in
    if negb (q_end q =? 0) && (togo <? MINRECLEN) then Ok (MS_ENDOFFILE, None, q)
    else
      (* fileutils.c:387-418 *)
      let! (q, failed) :=
        (if negb (q_eof q) && ((buflen q <? MINRECLEN) || (0 <? pv)) then fill sch q else Ok (q, false)) in
      if (failed : bool) then Ok (MS_GENERROR, None, q)
      else read_turn (read_loop fuel' g sch) g q pv
  end.

(** Enough for any valid schedule: every second turn passes over or delivers a byte, or
    reaches the end of the stream. *)
Definition read_fuel (q : stream) : nat := 4 * (length (q_rest q) + length (q_buf q)) + 8.

(** ms3_readmsr_selection, fileutils.c:256-569, on an open stream. *)
Definition read_msr (g : rconf) (sch : schedule) (q : stream) : res (Z * option msr * stream) :=
  read_loop (read_fuel q) g sch q 0.

(** Calls until one does not return a record: the records with the stream positions
    they were read at, and the last return code (as in the loop of msi.c). *)
Fixpoint read_all (calls : nat) (g : rconf) (sch : schedule) (q : stream) : res (list (Z * msr) * Z) :=
  match calls with
  | O => Fuel
  | S calls' =>
    let! (rc, om, q') := read_msr g sch q in
    match om with
    | Some m => let! (l, rc') := read_all calls' g sch q' in Ok ((q_pos q' - m_reclen m, m) :: l, rc')
    | None => Ok ([], rc)
    end
  end.

(** ** Opening *)

(** strtoull of digits, as int64_t: saturating, then the conversion. *)
Definition digits_value (l : list Z) : Z := fold_left (fun a c => 10 * a + (c - 48)) l 0.
Definition strtoull64 (l : list Z) : Z := swrap 64 (Z.min (digits_value l) (2 ^ 64 - 1)).
Definition isdigit (c : Z) : bool := (48 <=? c) && (c <=? 57).

(** The characters after the last '@' (strrchr), and the position of it. *)
Fixpoint last_at (s : list Z) (i : Z) : option (Z * list Z) :=
  match s with
  | [] => None
  | c :: s' => match last_at s' (i + 1) with
               | Some x => Some x
               | None => if c =? 64 then Some (i, s') else None
               end
  end.

(** The walk of parse_pathname_range, fileutils.c:1029-1053: the digits of both numbers,
    or None for a pattern that does not conform. *)
Fixpoint walk_range (s start endd : list Z) (dash : bool) : option (list Z * list Z) :=
  match s with
  | [] => Some (start, endd)
  | c :: s' =>
    match (if isdigit c then (if dash then Some (start, endd ++ [c], dash) else Some (start ++ [c], endd, dash))
           else if c =? 45 then (if dash then None else Some (start, endd, true))
           else None) with
    | None => None
    | Some (start, endd, dash) =>
      if (21 <=? Z.of_nat (length start)) || (21 <=? Z.of_nat (length endd)) then None else walk_range s' start endd dash
    end
  end.

(** parse_pathname_range, fileutils.c:1013-1064: the position of the '@' and the offsets
    (0 when not given, the initial value). *)
Definition pathname_range (s : list Z) : option (Z * Z * Z) :=
  match last_at s 0 with
  | None => None
  | Some (i, s') =>
    match walk_range s' [] [] false with
    | None => None
    | Some (a, b) => Some (i, match a with [] => 0 | _ => strtoull64 a end, match b with [] => 0 | _ => strtoull64 b end)
    end
  end.

(** The path stored and the offsets, fileutils.c:333-350 (a path field of 512 bytes). *)
Definition stored_path (flags : Z) (mspath : list Z) : res (list Z * Z * Z) :=
  match (if has_flag flags MSF_PNAMERANGE then pathname_range mspath else None) with
  | Some (i, a, b) =>
    if 512 <=? i then UB OOBWrite else Ok (firstn (Z.to_nat i) mspath, a, b)
  | None => Ok (firstn 511 mspath, 0, 0)
  end.

(** Opening, fileutils.c:352-370 and msio.c:386-408: standard input for "-", else the
    file is positioned at the start offset.  [file] are the contents. *)
Definition open_stream (flags : Z) (mspath file : list Z) : res (list Z * stream) :=
  let! (path, start, endd) := stored_path flags mspath in
  if (match mspath with [45] => true | _ => false end)
  then Ok (path, mk_stream [] 0 0 0 endd file false O)
  else if 0 <? start then Ok (path, mk_stream [] 0 start 0 endd (skipn (Z.to_nat start) file) false O)
  else Ok (path, mk_stream [] 0 0 0 endd file false O).
