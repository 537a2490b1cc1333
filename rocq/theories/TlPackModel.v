(** * Packing a trace list (mstl3_pack, libmseed/tracelist.c:1936-2101).

    The list and the handler are given.  The counters of 64 bits count records and samples
    in memory and are not wrapped.  Sample arrays are lists, so that realloc and the choice
    made by libmseed_prealloc_block_size leave no trace.  Freshly allocated memory holds the
    same bytes at every call of the packer ([e_alloc], any list). *)

From Verif Require Export Base TlModel PackModel PackTimes V2Model Pack2Model.
Open Scope Z_scope.

Definition MSF_MAINTAINMSTL : Z := 512.

(** What the packers are given: bound on the records of a call, reciprocal of a rate, leap
    seconds, host byte order, overflow behaviour, indeterminate memory. *)
Record penv := mk_penv {
  e_fuel : nat; e_recip : Z -> Z; e_leaps : list Z; e_hb : bool; e_mode : ovmode; e_stack : list Z; e_alloc : list Z }.

(** msr3_pack, pack.c:105-143, for a record whose formatversion is not 2. *)
Definition pack_any (e : penv) (m : msr) (type : Z) (src : list Z) (flags : Z) : res (list (list Z) * Z * bool) :=
  let next := next_start (e_mode e) (e_leaps e) m in
  if negb (m_reclen m =? -1) && ((m_reclen m <? MINRECLEN) || (MAXRECLEN <? m_reclen m))
  then Ok ([], 0, false)
  else if has_flag flags MSF_PACKVER2 then pack2 (e_fuel e) next (e_hb e) (e_mode e) (e_stack e) (e_alloc e) m type src flags
  else pack3 (e_fuel e) (e_recip e) next (e_hb e) (e_mode e) (e_alloc e) m type src flags.

(** The options of a call; [None] for extra is NULL. *)
Record popt := mk_popt { o_reclen : Z; o_encoding : Z; o_extra : option (list Z); o_flags : Z }.
Definition extra_text (o : popt) : list Z := match o_extra o with Some x => x | None => [] end.

(** tracelist.c:2012-2026 *)
Definition seg_encoding (o : popt) (type : Z) : Z :=
  if type =? 116 then 0 else if type =? 102 then 4 else if type =? 100 then 5 else o_encoding o.

(** The record handed to the packer, tracelist.c:1971-1990, 1996-2026: zeros but for the
    fields set. *)
Definition seg_msr (o : popt) (sid : list Z) (pub : Z) (s : seg) : msr :=
  mk_msr (o_reclen o) false false 0 0 sid (s_start s) (dbits (s_hz s)) (seg_encoding o (s_type s)) pub (s_cnt s) 0 (extra_text o) 0 None.

(** One segment, tracelist.c:2004-2083: the records; the value returned by msr3_pack, the
    samples packed and the segment afterwards ([None]: -1 is returned). *)
Definition pack_seg (e : penv) (o : popt) (sid : list Z) (pub : Z) (s : seg) : res (list (list Z) * option (Z * Z * seg)) :=
  let m := seg_msr o sid pub s in
  let! (recs, tot, ok) := pack_any e m (s_type s) (s_data s) (o_flags o) in
  let n := if ok : bool then Z.of_nat (length recs) else -1 in
  if negb (has_flag (o_flags o) MSF_MAINTAINMSTL) && (0 <? tot) then
    let! start := (if tot =? Z.of_nat (length (s_data s)) then Ok (s_end s)
                   else sampletime (e_mode e) (e_leaps e) (s_start s) tot (m_rate m)) in
    if samplesize (s_type s) =? 0 then Ok (recs, None)
    else
      let! cnt := sarith (e_mode e) 64 (s_cnt s - tot) in
      Ok (recs, Some (n, tot, mk_seg start (s_end s) (s_hz s) cnt (s_type s) (skipn (Z.to_nat tot) (s_data s)) (s_recs s)))
  else Ok (recs, Some (n, tot, s)).

(** The loop over the segments, tracelist.c:2001-2086. *)
Fixpoint pack_segs (fuel : nat) (e : penv) (o : popt) (sid : list Z) (pub : Z) (h : heap) (p : option nat)
  : res (list (list Z) * option (Z * Z * heap)) :=
  match fuel with
  | O => Fuel
  | S fuel' =>
    match p with
    | None => Ok ([], Some (0, 0, h))
    | Some _ =>
      let! n := deref h p in
      let! (recs, r) := pack_seg e o sid pub (n_seg n) in
      match r with
      | None => Ok (recs, None)
      | Some (cnt, tot, s) =>
        let! h := set_seg h p s in
        let! (recs', r) := pack_segs fuel' e o sid pub h (n_next n) in
        Ok (recs ++ recs', match r with None => None | Some (cnt', tot', h) => Some (cnt + cnt', tot + tot', h) end)
      end
    end
  end.

(** The loop over the identifiers, tracelist.c:1992-2089. *)
Definition with_heap (t : tid) (h : heap) : tid :=
  mk_tid (t_sid t) (t_pub t) (t_early t) (t_late t) (t_num t) (t_first t) (t_last t) h (t_fresh t).
Definition set_tid (k : tlist) (a : nat) (n : idnode) (t : tid) : tlist :=
  mk_tlist (k_num k) (k_head k) (fun b => if Nat.eqb b a then Some (mk_idnode t (i_next n)) else k_nodes k b) (k_fresh k).
Fixpoint pack_ids (fuel : nat) (e : penv) (o : popt) (k : tlist) (p : option nat) : res (list (list Z) * option (Z * Z * tlist)) :=
  match fuel with
  | O => Fuel
  | S fuel' =>
    match p with
    | None => Ok ([], Some (0, 0, k))
    | Some a =>
      match k_nodes k a with
      | None => UB OOBRead
      | Some n =>
        let t := i_tid n in
        let! (recs, r) := pack_segs (S (t_fresh t)) e o (t_sid t) (t_pub t) (t_heap t) (t_first t) in
        match r with
        | None => Ok (recs, None)
        | Some (cnt, tot, h) =>
          let k := set_tid k a n (with_heap t h) in
          let! nx := next_at k (PNode a) O in
          let! (recs', r) := pack_ids fuel' e o k nx in
          Ok (recs ++ recs', match r with None => None | Some (cnt', tot', k) => Some (cnt + cnt', tot + tot', k) end)
        end
      end
    end
  end.

(** The records given to the handler; the value returned; the samples packed and the list
    afterwards, unless -1 is returned early; whether the buffer of the caller's extra
    headers has been freed: msr3_free at tracelist.c:2094 frees msr->extra (msrutils.c:92). *)
Record packed := mk_packed { p_recs : list (list Z); p_ret : Z; p_done : option (Z * tlist); p_freed : bool }.

(** mstl3_pack, tracelist.c:1936-2101. *)
Definition tl_pack (e : penv) (o : popt) (k : tlist) : res packed :=
  if 65535 <? Z.of_nat (length (extra_text o)) then Ok (mk_packed [] (-1) None false)
  else
    let! p := next_at k PHead O in
    let! (recs, r) := pack_ids (S (k_fresh k)) e o k p in
    match r with
    | None => Ok (mk_packed recs (-1) None false)
    | Some (cnt, tot, k) => Ok (mk_packed recs cnt (Some (tot, k)) (match o_extra o with Some _ => true | None => false end))
    end.
