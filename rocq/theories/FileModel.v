(** * Trace lists read from a file and written to a file
    (libmseed/fileutils.c:612-771 and 865-1004, libmseed/msio.c:181-407).

    Records are read by [read_msr] (ReadModel), added by [add_msr] (TlModel) and packed by
    [tl_pack] (TlPackModel).  The file system maps names to contents.  The trace list is
    allocated; memory allocation succeeds; log messages and URLs (the library is built
    without LIBMSEED_URL) are not modelled. *)

From Verif Require Export Base RecModel TlModel ReadModel BufModel TlPackModel.
Open Scope Z_scope.

(** ** Names *)

(** strncasecmp (path, "file://", 7), msio.c:195. *)
Definition lower (c : Z) : Z := if (65 <=? c) && (c <=? 90) then c + 32 else c.
Fixpoint starts_as (prefix s : list Z) : bool :=
  match prefix, s with
  | [], _ => true
  | a :: prefix', b :: s' => (a =? lower b) && starts_as prefix' s'
  | _, [] => false
  end.
(** strstr (path, "://"), msio.c:202. *)
Fixpoint has_scheme (s : list Z) : bool :=
  match s with
  | [] => false
  | _ :: s' => starts_as [58; 47; 47] s || has_scheme s'
  end.

(** The name given to fopen by msio_fopen, msio.c:194-207, 381: [None] for a URL. *)
Definition local_name (path : list Z) : option (list Z) :=
  if starts_as [102; 105; 108; 101; 58; 47; 47] path then Some (skipn 7 path)
  else if has_scheme path then None
  else Some path.

Definition files := list Z -> option (list Z).

(** ** ms3_readtracelist_selection, fileutils.c:676-771 *)

(** The settings: those of reading, those of the trace list (autoheal is 1,
    fileutils.c:730-731). *)
Record tconf := mk_tconf {
  t_read : rconf; t_leaps : list Z;
  t_ttol : option (trec -> dbl); t_rtol : option (trec -> dbl); t_split : bool }.
Definition t_conf (x : tconf) : conf :=
  mk_conf (g_mode (t_read x)) (t_leaps x) (t_ttol x) (t_rtol x) (t_split x) true (has_flag (g_flags (t_read x)) MSF_RECORDLIST).

(** Where a record list entry with this name and fileoffset is found when it is unpacked
    (fopen and lmp_fseek64, tracelist.c:1755, 1793): nowhere if the name cannot be opened. *)
Definition place (named : option (list Z)) (offset : Z) : source :=
  match named with Some data => SFile (skipn (Z.to_nat offset) data) | None => SNone end.

(** The record just read: msr->record is the place in the buffer it was parsed at,
    fileutils.c:427. *)
Definition last_record (q : stream) (m : msr) : list Z :=
  firstn (Z.to_nat (m_reclen m)) (skipn (Z.to_nat (q_off q - m_reclen m)) (q_buf q)).

(** The loop of fileutils.c:726-760: as [rb_loop]. *)
Fixpoint rt_loop (calls : nat) (x : tconf) (sch : schedule) (named : option (list Z)) (q : stream) (k : tlist)
         (heights : list nat) (ptrs : list rptr) : res rb_out :=
  match calls with
  | O => Fuel
  | S calls' =>
    let! (rc, om, q) := read_msr (t_read x) sch q in
    match om with
    | None => Ok (if rc =? MS_ENDOFFILE then MS_NOERROR else rc, Some k, ptrs)
    | Some m =>
      match add_msr (t_conf x) k (trec_of m) (hd 1%nat heights) with
      | Err _ => Ok (MS_GENERROR, None, ptrs)
      | UB u => UB u
      | Fuel => Fuel
      | Ok k =>
        if has_flag (g_flags (t_read x)) MSF_RECORDLIST then
          match data_bounds (g_hb (t_read x)) (last_record q m) m with
          | Err _ => Ok (MS_GENERROR, Some k, ptrs)
          | UB u => UB u
          | Fuel => Fuel
          | Ok (off, _) =>
            rt_loop calls' x sch named q k (tl heights) (ptrs ++ [mk_rptr (no_data m) (place named (q_pos q - m_reclen m)) off])
          end
        else rt_loop calls' x sch named q k (tl heights) ptrs
      end
    end
  end.

(** fileutils.c:676-771.  [stdin] is read for the path "-"; a name that cannot be opened
    is MS_GENERROR (fileutils.c:359-363).  The entries name the path as it was given
    (fileutils.c:756). *)
Definition read_tracelist (fs : files) (stdin : list Z) (x : tconf) (sch : schedule) (mspath : list Z) (k : tlist) (heights : list nat)
  : res rb_out :=
  let! (path, _, _) := stored_path (g_flags (t_read x)) mspath in
  let input := (match mspath with
                | [45] => Some stdin
                | _ => match local_name path with Some n => fs n | None => None end
                end) in
  match input with
  | None => Ok (MS_GENERROR, Some k, [])
  | Some file =>
    let! (_, q) := open_stream (g_flags (t_read x)) mspath file in
    rt_loop (S (length file)) x sch (fs mspath) q k heights []
  end.

(** ms3_readtracelist_timewin, fileutils.c:612-635: one selection, "*" with one window,
    any version. *)
Definition timewin_selection (starttime endtime : Z) : list sel :=
  [{| SelModel.s_pat := [42]; SelModel.s_win := [(starttime, endtime)]; SelModel.s_ver := 0 |}].

(** Selecting by a list of selections, fileutils.c:432-435 (the end of the record is that of
    msr3_endtime). *)
Definition select_by (mode : ovmode) (leaps : list Z) (sels : list sel) (m : msr) : bool :=
  match (let! e := endtime mode leaps (m_start m) (m_cnt m) (m_rate m) in SelModel.matchselect sels (m_sid m) (m_start m) e (m_pub m)) with
  | Ok (Some _) => true
  | _ => false
  end.
Definition with_window (x : tconf) (starttime endtime : Z) : tconf :=
  let g := t_read x in
  mk_tconf (mk_rconf (g_unpack2 g) (g_hb g) (g_mode g) (g_base g) (g_flags g)
              (Some (select_by (g_mode g) (t_leaps x) (timewin_selection starttime endtime))))
           (t_leaps x) (t_ttol x) (t_rtol x) (t_split x).
Definition read_timewin (fs : files) (stdin : list Z) (x : tconf) (sch : schedule) (mspath : list Z) (starttime endtime : Z) (k : tlist) (heights : list nat)
  : res rb_out :=
  read_tracelist fs stdin (with_window x starttime endtime) sch mspath k heights.

(** ** mstl3_writemseed and msr3_writemseed, fileutils.c:899-1004 *)

(** ms_record_handler_int, fileutils.c:865-872: [wrote i] is the number of bytes that the
    write of the record of number [i] accepts; a short count is only logged. *)
Fixpoint write_records (wrote : nat -> nat) (i : nat) (recs : list (list Z)) : list Z :=
  match recs with
  | [] => []
  | r :: recs' => firstn (wrote i) r ++ write_records wrote (S i) recs'
  end.

(** fopen (mspath, "wb") or "ab", fileutils.c:903, 918: what is in the file before. *)
Definition before (fs : files) (overwrite : bool) (mspath : list Z) : list Z :=
  if overwrite then [] else match fs mspath with Some old => old | None => [] end.
Definition name_eqb (a b : list Z) : bool := if list_eq_dec Z.eq_dec a b then true else false.
Definition store (fs : files) (mspath data : list Z) : files := fun n => if name_eqb n mspath then Some data else fs n.

(** The return value, the files, what is written to standard output and whether that is
    closed afterwards, and the result of mstl3_pack ([None] if it is not called).
    [opens] says whether the file can be opened for writing; a write to standard output
    after it was closed ([closed]) is undefined. *)
Record written := mk_written { w_ret : Z; w_files : files; w_stdout : list Z; w_closed : bool; w_packed : option packed }.

(** fileutils.c:986-987 *)
Definition write_opts (o : popt) : popt :=
  mk_popt (o_reclen o) (o_encoding o) (o_extra o) (Z.lor (Z.lor (o_flags o) MSF_MAINTAINMSTL) MSF_FLUSHDATA).

(** Opening and closing around a packer, fileutils.c:912-937 and 973-1003. *)
Definition write_with (fs : files) (opens closed : bool) (wrote : nat -> nat) (mspath : list Z) (overwrite : bool)
           (pack : res packed) : res written :=
  match mspath with
  | [45] =>
    if closed then UB BadFree
    else let! p := pack in Ok (mk_written (p_ret p) fs (write_records wrote 0 (p_recs p)) true (Some p))
  | _ =>
    if opens
    then let! p := pack in
         Ok (mk_written (p_ret p) (store fs mspath (before fs overwrite mspath ++ write_records wrote 0 (p_recs p))) [] closed (Some p))
    else Ok (mk_written (-1) fs [] closed None)
  end.

(** mstl3_writemseed, fileutils.c:960-1004; the extra headers are NULL. *)
Definition write_tracelist (fs : files) (opens closed : bool) (wrote : nat -> nat) (e : penv) (mspath : list Z) (overwrite : bool)
           (reclen encoding flags : Z) (k : tlist) : res written :=
  write_with fs opens closed wrote mspath overwrite (tl_pack e (write_opts (mk_popt reclen encoding None flags)) k).

(** msr3_writemseed, fileutils.c:899-938; a record of formatversion 2 is packed as such
    (pack.c:137). *)
Definition pack_record (e : penv) (m : msr) (type : Z) (src : list Z) (flags : Z) : res packed :=
  let flags := if m_fver m =? 2 then Z.lor flags MSF_PACKVER2 else flags in
  let! (recs, _, ok) := pack_any e m type src flags in
  Ok (mk_packed recs (if ok : bool then Z.of_nat (length recs) else -1) None false).
Definition write_record (fs : files) (opens closed : bool) (wrote : nat -> nat) (e : penv) (mspath : list Z) (overwrite : bool)
           (flags : Z) (m : msr) (type : Z) (src : list Z) : res written :=
  write_with fs opens closed wrote mspath overwrite (pack_record e m type src flags).
