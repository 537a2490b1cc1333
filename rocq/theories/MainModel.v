(** * The inspector from its paths to its output (src/msi.c:113-366).

    The loops of CliModel.v joined with the reader (ReadModel.v), the trace list (TlModel.v), the
    unpacking of samples (RecModel.v) and the printing (ShowModel.v).  Left out: -L and -r (ShowModel.v),
    messages on standard error, outputs to "-", the reports on the trace list (GapModel.v,
    ListModel.v: the result has the list they are made of).  The output files can be opened and every
    fwrite takes all of its bytes. *)

From Coq Require Import String.
From Verif Require Import Base TimeModel TimeStrModel RecModel SampleModel TlModel ReadModel BufModel FileModel CliModel ShowModel.
From Verif Require DblModel.
Open Scope Z_scope.
Open Scope list_scope.

(** The options (msi.c:33-72): limits and patterns, reccntdown, skipnotdata, printoffset,
    ppackets, printdata, whether there is a binary output, tracegaponly, whether a trace list is
    made (tracegapsum or tracegaponly), basicsum. *)
Record mset : Type := mk_mset {
  i_filter : settings; i_count : Z; i_skip : bool; i_offset : bool; i_details : Z; i_data : Z; i_bin : bool;
  i_only : bool; i_traces : bool; i_sum : bool }.

(** The rest: msr3_unpack_mseed2, host byte order, overflow behaviour, address of the buffer, leap
    seconds, texts of "%g", tolerances and splitversion. *)
Record menv : Type := mk_menv {
  n_unpack2 : list Z -> Z -> res msr; n_hb : bool; n_mode : ovmode; n_base : Z; n_leaps : list Z;
  n_hz : DblModel.dbl -> list Z; n_g8 : sample -> list Z; n_g10 : sample -> list Z;
  n_ttol : option (trec -> DblModel.dbl); n_rtol : option (trec -> DblModel.dbl); n_split : bool }.

(** msi.c:133-137: MSF_VALIDATECRC and MSF_PNAMERANGE, MSF_SKIPNOTDATA with -snd. *)
Definition main_flags (i : mset) : Z := if i_skip i then 14 else 12.
Definition main_read (n : menv) (i : mset) : rconf :=
  mk_rconf (n_unpack2 n) (n_hb n) (n_mode n) (n_base n) (main_flags i) None.

(** msi.c:241: the arguments stand for autoheal = flags (not zero) and flags = 1. *)
Definition main_traces (n : menv) : conf := mk_conf (n_mode n) (n_leaps n) (n_ttol n) (n_rtol n) (n_split n) true false.

(** What has been done: counters and -o output (CliModel.v), standard output, binary output, the trace
    list (None after a failed addition) and the heights for its new entries. *)
Record vstate : Type := mk_vstate {
  v_cli : mstate; v_text : list Z; v_bin : list Z; v_traces : option tlist; v_heights : list nat }.

(** What the filters see of a record: msr3_endtime is only called if there is a limit, msi.c:158-161. *)
Definition main_crec (n : menv) (i : mset) (rec : list Z) (m : msr) : res crec :=
  let o := i_filter i in
  let! e := (if negb (o_ts o =? NSTERROR) || negb (o_te o =? NSTERROR)
             then endtime (n_mode n) (n_leaps n) (m_start m) (m_cnt m) (m_rate m) else Ok 0) in
  Ok {| c_sid := m_sid m; c_start := m_start m; c_end := e; c_cnt := m_cnt m; c_bytes := rec |}.

(** The sample type after msr3_unpack_data. *)
Definition main_type (m : msr) : Z := match encoding_sizetype (used_encoding m) with Some (_, t) => t | None => 0 end.

(** The memory at msr->datasamples *)
Definition sample_memory (hb : bool) (size : nat) (d : samples) : list Z :=
  flat_map (fun w => if hb then rev (le_bytes size w) else le_bytes size w) (sample_words d).

(** msi.c:158-332 for a record with these bytes, at this address and this place in its file. *)
Definition main_record (n : menv) (i : mset) (addr pos : Z) (rec : list Z) (m : msr) (s : vstate) : res vstate :=
  let! r := main_crec n i rec m in
  let! k := keeps (i_filter i) r in
  if negb k then Ok s
  else
    let! c := process (v_cli s) r in
    let dataflag := negb (i_data i =? 0) || i_bin i in
    let unpacked := unpack_data (n_hb n) (n_mode n) addr rec m in
    let! _ := (if dataflag then match unpacked with UB u => UB u | Fuel => Fuel | _ => Ok tt end else Ok tt) in
    let! t :=
      (if i_only i then Ok []
       else show_record (n_mode n) (n_hz n) (n_g8 n) (n_g10 n) (if i_offset i then Some pos else None) None
              (i_details i) (i_data i) (main_type m) m (if dataflag then unpacked else Err MS_GENERROR)) in
    let! (traces, heights) :=
      (if i_traces i then
         match v_traces s with
         | None => Ok (None, v_heights s)
         | Some k =>
           match add_msr (main_traces n) k (trec_of m) (hd 1%nat (v_heights s)) with
           | Ok k => Ok (Some k, tl (v_heights s))
           | Err _ => Ok (None, v_heights s)
           | UB u => UB u
           | Fuel => Fuel
           end
         end
       else Ok (v_traces s, v_heights s)) in
    let! b :=
      (if i_bin i then
         match unpacked with
         | Ok d =>
           if 0 <? samples_len d
           then bin_samples (main_type m) (samples_len d) (sample_memory (n_hb n) (Z.to_nat (samplesize (main_type m))) d)
           else Ok []
         | _ => Ok []
         end
       else Ok []) in
    Ok (mk_vstate c (v_text s ++ t) (v_bin s ++ b) traces heights).

(** msi.c:153-333: the return code of the last call (0 if there was none) and the state. *)
Fixpoint main_file (calls : nat) (n : menv) (i : mset) (sch : schedule) (q : stream) (s : vstate) : res (Z * vstate) :=
  match calls with
  | O => Fuel
  | S calls =>
    if st_left (v_cli s) =? 0 then Ok (MS_NOERROR, s)
    else
      let! (rc, om, q) := read_msr (main_read n i) sch q in
      match om with
      | None => Ok (rc, s)
      | Some m =>
        let! s := main_record n i (n_base n + (q_off q - m_reclen m)) (q_pos q - m_reclen m) (last_record q m) m s in
        main_file calls n i sch q s
      end
  end.

(** Opening and reading a file, msi.c:153-156: a path that cannot be opened is MS_GENERROR. *)
Definition main_path (fs : files) (stdin : list Z) (n : menv) (i : mset) (sch : schedule) (path : list Z) (s : vstate) : res (Z * vstate) :=
  if st_left (v_cli s) =? 0 then Ok (MS_NOERROR, s)
  else
    let! (name, _, _) := stored_path (main_flags i) path in
    let input := (match path with
                  | [45] => Some stdin
                  | _ => match local_name name with Some f => fs f | None => None end
                  end) in
    match input with
    | None => Ok (MS_GENERROR, s)
    | Some file =>
      let! (_, q) := open_stream (main_flags i) path file in
      main_file (S (length file)) n i sch q s
    end.

(** msi.c:147-347: whether exit (1) is reached, and the state. *)
Fixpoint main_paths (fs : files) (stdin : list Z) (n : menv) (i : mset) (paths : list (list Z * schedule)) (s : vstate) : res (bool * vstate) :=
  match paths with
  | [] => Ok (false, s)
  | (path, sch) :: paths =>
    let! (rc, s) := main_path fs stdin n i sch path s in
    if negb (rc =? MS_ENDOFFILE) && negb (st_left (v_cli s) =? 0) then Ok (true, s)
    else
      let c := v_cli s in
      let! f := sarith (n_mode n) 64 (st_files c + 1) in
      main_paths fs stdin n i paths
        (mk_vstate {| st_done := st_done c; st_left := st_left c; st_recs := st_recs c; st_samps := st_samps c; st_files := f; st_out := st_out c |}
                   (v_text s) (v_bin s) (v_traces s) (v_heights s))
  end.

(** msi.c:142-352: exit status, and the state with all that is printed. *)
Definition main_run (fs : files) (stdin : list Z) (n : menv) (i : mset) (heights : list nat) (paths : list (list Z * schedule)) : res (Z * vstate) :=
  let! (stop, s) := main_paths fs stdin n i paths
    (mk_vstate {| st_done := []; st_left := i_count i; st_recs := 0; st_samps := 0; st_files := 0; st_out := [] |} [] [] (Some tl_init) heights) in
  if (stop : bool) then Ok (1, s)
  else
    let c := v_cli s in
    let line := (if i_sum i
                 then say (zs "Files: " ++ dec (st_files c) ++ zs ", Records: " ++ dec (st_recs c) ++ zs ", Samples: " ++ dec (st_samps c) ++ [10])
                 else []) in
    Ok (0, mk_vstate c (v_text s ++ line) (v_bin s) (v_traces s) (v_heights s)).
