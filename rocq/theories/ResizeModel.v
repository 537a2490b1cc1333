(** * Resizing of sample buffers (libmseed/msrutils.c, libmseed/tracelist.c).

    The memory of a buffer is its bytes.  Whether the allocator can provide a smaller block is
    an argument: [alloc i] says whether the request number [i] is granted. *)

From Verif Require Import Base PackModel.
Open Scope Z_scope.
Open Scope list_scope.

(** The fields of MS3Record and MS3TraceSeg used, libmseed.h:358-382, 550-563: sampletype,
    numsamples, datasize, datasamples. *)
Record rbuf := mk_rbuf { r_type : Z; r_num : Z; r_size : Z; r_mem : option (list Z) }.

(** (size_t) numsamples * samplesize, msrutils.c:320, tracelist.c:1547. *)
Definition needed (b : rbuf) : Z := uwrap 64 (uwrap 64 (r_num b) * samplesize (r_type b)).

(** The conditions at msrutils.c:318-322, tracelist.c:1545-1549. *)
Definition oversize (b : rbuf) : bool :=
  negb (samplesize (r_type b) =? 0) && (match r_mem b with Some _ => true | None => false end) && (0 <? r_num b)
  && (needed b <? r_size b).

(** The reallocation at msrutils.c:324-332, tracelist.c:1551-1559: if it fails the pointer is
    overwritten with NULL before it is looked at. *)
Definition realloc (granted : bool) (b : rbuf) : rbuf :=
  match r_mem b with
  | Some mem =>
    if granted then mk_rbuf (r_type b) (r_num b) (needed b) (Some (firstn (Z.to_nat (needed b)) mem))
    else mk_rbuf (r_type b) (r_num b) (r_size b) None
  | None => b
  end.

(** msr3_resize_buffer, msrutils.c:304-337, for a record: it and the value returned. *)
Definition resize_record (granted : bool) (b : rbuf) : rbuf * Z :=
  if oversize b then (realloc granted b, if granted then 0 else -1) else (b, 0).

(** mstl3_resize_buffers, tracelist.c:1522-1570: the segments of one identifier, then the
    identifiers.  [i] counts the requests; [false] when one was not granted. *)
Fixpoint resize_segs (alloc : nat -> bool) (i : nat) (l : list rbuf) : list rbuf * nat * bool :=
  match l with
  | [] => ([], i, true)
  | b :: l' =>
    if oversize b then
      if alloc i then let '(r, n, ok) := resize_segs alloc (S i) l' in (realloc true b :: r, n, ok)
      else (realloc false b :: l', S i, false)
    else let '(r, n, ok) := resize_segs alloc i l' in (b :: r, n, ok)
  end.
Fixpoint resize_ids (alloc : nat -> bool) (i : nat) (ids : list (list rbuf)) : list (list rbuf) * bool :=
  match ids with
  | [] => ([], true)
  | l :: ids' =>
    let '(r, n, ok) := resize_segs alloc i l in
    if ok then let '(rs, ok') := resize_ids alloc n ids' in (r :: rs, ok') else (r :: ids', false)
  end.
Definition resize_list (alloc : nat -> bool) (ids : list (list rbuf)) : list (list rbuf) * Z :=
  let '(r, ok) := resize_ids alloc 0 ids in (r, if ok then 0 else -1).
