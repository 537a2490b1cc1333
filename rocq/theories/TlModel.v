(** * The trace list (libmseed/tracelist.c).

    Segments and trace identifiers are kept in heaps: an address is a natural number,
    a heap maps an address to its node, [None] is memory not allocated or freed.
    Simplifications: each trace identifier has a heap of its own for its segments;
    memory allocation succeeds; the record list of a segment (singly linked, only
    extended at its ends) is a list; the sample array of a segment and of a record is a
    list of sample values whose length is numsamples; private pointers are left out. *)

From Verif Require Export Base SampleModel.
Open Scope Z_scope.

(** ** Records and segments *)

(** What the trace list uses of an MS3Record; [r_data] are the unpacked samples (none
    when datasamples is NULL). *)
Record trec := mk_trec {
  r_sid : list Z; r_pub : Z; r_start : Z; r_rate : Z; r_cnt : Z; r_type : Z; r_data : list Z }.

(** MS3TraceSeg, libmseed.h:550-563; [s_recs] is the record list with end times. *)
Record seg := mk_seg {
  s_start : Z; s_end : Z; s_hz : dbl; s_cnt : Z; s_type : Z; s_data : list Z; s_recs : list (trec * Z) }.

Record node := mk_node { n_seg : seg; n_prev : option nat; n_next : option nat }.
Definition heap := nat -> option node.
Definition hupd (h : heap) (a : nat) (v : option node) : heap :=
  fun b => if Nat.eqb b a then v else h b.
Definition deref (h : heap) (p : option nat) : res node :=
  match p with
  | None => UB NullDeref
  | Some a => match h a with Some n => Ok n | None => UB OOBRead end
  end.
Definition set_prev (h : heap) (p v : option nat) : res heap :=
  let! n := deref h p in
  match p with
  | Some a => Ok (hupd h a (Some (mk_node (n_seg n) v (n_next n))))
  | None => UB NullDeref
  end.
Definition set_next (h : heap) (p v : option nat) : res heap :=
  let! n := deref h p in
  match p with
  | Some a => Ok (hupd h a (Some (mk_node (n_seg n) (n_prev n) v)))
  | None => UB NullDeref
  end.
Definition set_seg (h : heap) (p : option nat) (s : seg) : res heap :=
  let! n := deref h p in
  match p with
  | Some a => Ok (hupd h a (Some (mk_node s (n_prev n) (n_next n))))
  | None => UB NullDeref
  end.

(** MS3TraceID without its place in the skip list, libmseed.h:566-577. *)
Record tid := mk_tid {
  t_sid : list Z; t_pub : Z; t_early : Z; t_late : Z; t_num : Z;
  t_first : option nat; t_last : option nat; t_heap : heap; t_fresh : nat }.

(** ** Sample rates *)

Definition dsub (x y : dbl) : dbl := dadd x (dopp y).
Definition dabs (x : dbl) : dbl := if dlt x dzero then dopp x else x.
(** 0.0001 as a double *)
Definition d_1e4 : dbl := dval 0x3F1A36E2EB1C432D.

(** MS_ISRATETOLERABLE, libmseed.h:144. *)
Definition rate_tolerable (a b : dbl) : bool := dlt (dabs (dsub (DFin 1%Q) (ddiv a b))) d_1e4.

(** IS_SAMPRATE_SIMILAR, tracelist.c:38 (the comparison with a supplied tolerance is
    the one of the code). *)
Definition rate_similar (a b tol : dbl) : bool :=
  if dlt dzero tol then dlt tol (dabs (dsub a b)) else rate_tolerable a b.

(** ** Segments from records *)

(** What the function computes from the record before it looks at the segments:
    tracelist.c:396-401, 449-463.  [c_period], [c_tol], [c_ntol], [c_hz] and [c_rtol]
    are nsperiod, nstimetol, nnstimetol, sampratehz and sampratetol. *)
Record calc := mk_calc { c_end : Z; c_period : Z; c_tol : Z; c_ntol : Z; c_hz : dbl; c_rtol : dbl }.

(** The settings of a call: overflow behaviour, leap second list, tolerance functions
    (None when not given), splitversion, autoheal, whether a record list is
    kept. *)
Record conf := mk_conf {
  f_mode : ovmode; f_leaps : list Z; f_ttol : option (trec -> dbl); f_rtol : option (trec -> dbl);
  f_split : bool; f_heal : bool; f_keep : bool }.

(** tracelist.c:449-463; nsperiod first, then the tolerances. *)
Definition calc_of (f : conf) (r : trec) (endt : Z) : res calc :=
  let! period := nsperiod (r_rate r) in
  let! tol := (match f_ttol f with
               | Some x => to_int64 (dmul d1e9 (x r))
               | None => to_int64 (dmul dhalf (dofz period))
               end) in
  let! ntol := (if tol =? 0 then Ok 0 else sarith (f_mode f) 64 (- tol)) in
  let rtol := match f_rtol f with Some x => x r | None => DFin (-1 # 1) end in
  Ok (mk_calc endt period tol ntol (sampratehz (r_rate r)) rtol).

(** ms_samplesize, lookup.c:39-58, as a test. *)
Definition known_type (t : Z) : bool := (t =? 116) || (t =? 97) || (t =? 105) || (t =? 102) || (t =? 100).

(** mstl3_msr2seg, tracelist.c:988-1038. *)
Definition msr2seg (r : trec) (endt : Z) : res seg :=
  match r_data r with
  | [] => Ok (mk_seg (r_start r) endt (sampratehz (r_rate r)) (r_cnt r) (r_type r) [] [])
  | _ => if known_type (r_type r)
         then Ok (mk_seg (r_start r) endt (sampratehz (r_rate r)) (r_cnt r) (r_type r) (r_data r) [])
         else Err 0
  end.

(** mstl3_addmsrtoseg, tracelist.c:1053-1146; [whence] is 1 (end) or 2 (beginning). *)
Definition addmsrtoseg (mode : ovmode) (s : seg) (r : trec) (endt whence : Z) : res seg :=
  if (match r_data r with [] => false | _ => negb (r_type r =? s_type s) || negb (known_type (r_type r)) end)
  then Err 0
  else if whence =? 1 then
    let! cnt := sarith mode 64 (s_cnt s + r_cnt r) in
    Ok (mk_seg (s_start s) endt (s_hz s) cnt (s_type s) (s_data s ++ r_data r) (s_recs s))
  else if whence =? 2 then
    let! cnt := sarith mode 64 (s_cnt s + r_cnt r) in
    Ok (mk_seg (r_start r) (s_end s) (s_hz s) cnt (s_type s) (r_data r ++ s_data s) (s_recs s))
  else Err 0.

(** mstl3_addsegtoseg, tracelist.c:1156-1238. *)
Definition addsegtoseg (mode : ovmode) (s1 s2 : seg) : res seg :=
  if (match s_data s2 with [] => false | _ => negb (s_type s2 =? s_type s1) || negb (known_type (s_type s1)) end)
  then Err 0
  else
    let! cnt := sarith mode 64 (s_cnt s1 + s_cnt s2) in
    Ok (mk_seg (s_start s1) (s_end s2) (s_hz s1) cnt (s_type s1) (s_data s1 ++ s_data s2) (s_recs s1 ++ s_recs s2)).

(** mstl3_add_recordptr, tracelist.c:1266-1337, when a record list is kept ([keep]). *)
Definition add_recordptr (keep : bool) (s : seg) (r : trec) (endt whence : Z) : res seg :=
  if negb keep then Ok s
  else
    match s_recs s with
    | [] => Ok (mk_seg (s_start s) (s_end s) (s_hz s) (s_cnt s) (s_type s) (s_data s) [(r, endt)])
    | l => if negb (whence =? 1) && negb (whence =? 2) then Err 0
           else Ok (mk_seg (s_start s) (s_end s) (s_hz s) (s_cnt s) (s_type s) (s_data s)
                      (if whence =? 2 then (r, endt) :: l else l ++ [(r, endt)]))
    end.

(** Both steps on the segment at [p], as made at tracelist.c:487-497 and at the like
    places below. *)
Definition extend (f : conf) (h : heap) (p : option nat) (r : trec) (endt whence : Z) : res heap :=
  let! n := deref h p in
  let! s := addmsrtoseg (f_mode f) (n_seg n) r endt whence in
  let! h := set_seg h p s in
  let! s := add_recordptr (f_keep f) s r endt whence in
  set_seg h p s.

(** A new segment with its record pointer; [whence] is the one of the call. *)
Definition new_seg (f : conf) (r : trec) (endt whence : Z) : res seg :=
  let! s := msr2seg r endt in add_recordptr (f_keep f) s r endt whence.

(** ** The search through the segments, tracelist.c:556-605 *)

(** [x - y - nsperiod] *)
Definition gap (mode : ovmode) (x y period : Z) : res Z :=
  let! a := sarith mode 64 (x - y) in sarith mode 64 (a - period).
Definition fits (c : calc) (g : Z) (hz : dbl) : bool :=
  (g <=? c_tol c) && (c_ntol c <=? g) && rate_similar (c_hz c) hz (c_rtol c).

Fixpoint search (fuel : nat) (f : conf) (r : trec) (c : calc) (h : heap)
         (cur before after follow : option nat) : res (option nat * option nat * option nat) :=
  match fuel with
  | O => Fuel
  | S fuel' =>
    match cur with
    | None => Ok (before, after, follow)
    | Some _ =>
      let! n := deref h cur in
      let s := n_seg n in
      if f_heal f && (r_start r =? s_start s) && (c_end c =? s_end s) then Ok (before, after, cur)
      else
        let follow := if s_start s <? r_start r then cur else follow in
        let! before :=
          (match before with
           | Some _ => Ok before
           | None => let! g := gap (f_mode f) (r_start r) (s_end s) (c_period c) in
                     Ok (if fits c g (s_hz s) then cur else None)
           end) in
        let! after :=
          (match after with
           | Some _ => Ok after
           | None => let! g := gap (f_mode f) (s_start s) (c_end c) (c_period c) in
                     Ok (if fits c g (s_hz s) then cur else None)
           end) in
        match before, after with
        | Some _, Some _ => Ok (before, after, follow)
        | None, None => search fuel' f r c h (n_next n) before after follow
        | _, _ => if f_heal f then search fuel' f r c h (n_next n) before after follow
                  else Ok (before, after, follow)
        end
    end
  end.

(** ** The segment moved into place, tracelist.c:727-775.  [seg] is its address. *)

Definition sorts_after (a b : seg) : bool :=
  (s_start b <? s_start a) || ((s_start a =? s_start b) && (s_end a <? s_end b)).

Definition opt_eqb (p : option nat) (a : nat) : bool :=
  match p with Some b => Nat.eqb b a | None => false end.

(** tracelist.c:727-751 *)
Fixpoint move_down (fuel : nat) (h : heap) (first last : option nat) (a : nat)
  : res (heap * option nat * option nat) :=
  match fuel with
  | O => Fuel
  | S fuel' =>
    let! n := deref h (Some a) in
    match n_next n with
    | None => Ok (h, first, last)
    | Some b =>
      let! nb := deref h (Some b) in
      if sorts_after (n_seg n) (n_seg nb) then
        let! h := (match n_prev n with Some p => set_next h (Some p) (Some b) | None => Ok h end) in
        let! h := (match n_next nb with Some q => set_prev h (Some q) (Some a) | None => Ok h end) in
        let! h := set_prev h (Some b) (n_prev n) in
        let! h := set_prev h (Some a) (Some b) in
        let! h := set_next h (Some a) (n_next nb) in
        let! h := set_next h (Some b) (Some a) in
        let first := if opt_eqb first a then Some b else first in
        let last := if opt_eqb last b then Some a else last in
        move_down fuel' h first last a
      else Ok (h, first, last)
    end
  end.

(** tracelist.c:752-775 *)
Fixpoint move_up (fuel : nat) (h : heap) (first last : option nat) (a : nat)
  : res (heap * option nat * option nat) :=
  match fuel with
  | O => Fuel
  | S fuel' =>
    let! n := deref h (Some a) in
    match n_prev n with
    | None => Ok (h, first, last)
    | Some b =>
      let! nb := deref h (Some b) in
      if sorts_after (n_seg nb) (n_seg n) then
        let! h := (match n_next n with Some q => set_prev h (Some q) (Some b) | None => Ok h end) in
        let! h := (match n_prev nb with Some p => set_next h (Some p) (Some a) | None => Ok h end) in
        let! h := set_next h (Some b) (n_next n) in
        let! h := set_next h (Some a) (Some b) in
        let! h := set_prev h (Some a) (n_prev nb) in
        let! h := set_prev h (Some b) (Some a) in
        let first := if opt_eqb first b then Some a else first in
        let last := if opt_eqb last a then Some b else last in
        move_up fuel' h first last a
      else Ok (h, first, last)
    end
  end.

(** ** Adding to an existing trace identifier, tracelist.c:449-712: the identifier and
    the address of the segment changed *)

(** A trace identifier with other segments (heap, fresh address, first, last, count). *)
Definition with_segs (t : tid) (h : heap) (fresh : nat) (first last : option nat) (num : Z) : tid :=
  mk_tid (t_sid t) (t_pub t) (t_early t) (t_late t) num first last h fresh.

(** tracelist.c:556-712: the complete search and what follows from it. *)
Definition add_search (f : conf) (r : trec) (c : calc) (t : tid) : res (tid * nat) :=
  let h := t_heap t in
  let! (before, after, follow) := search (S (t_fresh t)) f r c h (t_first t) None None None in
  match before, after with
  | Some b, _ =>
    let! h := extend f h (Some b) r (c_end c) 1 in
    match after with
    | Some a =>
      if f_heal f && negb (Nat.eqb b a) then
        let! nb := deref h (Some b) in
        let! na := deref h (Some a) in
        let! s := addsegtoseg (f_mode f) (n_seg nb) (n_seg na) in
        let! h := set_seg h (Some b) s in
        let! last := (if opt_eqb (t_last t) a
                      then let! l := deref h (t_last t) in Ok (n_prev l) else Ok (t_last t)) in
        let! h := (match n_prev na with Some p => set_next h (Some p) (n_next na) | None => Ok h end) in
        let! h := (match n_next na with Some q => set_prev h (Some q) (n_prev na) | None => Ok h end) in
        Ok (with_segs t (hupd h a None) (t_fresh t) (t_first t) last (uwrap 32 (t_num t - 1)), b)
      else Ok (with_segs t h (t_fresh t) (t_first t) (t_last t) (t_num t), b)
    | None => Ok (with_segs t h (t_fresh t) (t_first t) (t_last t) (t_num t), b)
    end
  | None, Some a =>
    let! h := extend f h (Some a) r (c_end c) 2 in
    Ok (with_segs t h (t_fresh t) (t_first t) (t_last t) (t_num t), a)
  | None, None =>
    let! s := new_seg f r (c_end c) 0 in
    let a := t_fresh t in
    match follow with
    | None =>
      let h := hupd h a (Some (mk_node s None (t_first t))) in
      let! h := (match t_first t with Some _ => set_prev h (t_first t) (Some a) | None => Ok h end) in
      Ok (with_segs t h (S a) (Some a) (t_last t) (uwrap 32 (t_num t + 1)), a)
    | Some fo =>
      let! nf := deref h (Some fo) in
      let h := hupd h a (Some (mk_node s (Some fo) (n_next nf))) in
      let! h := (match n_next nf with Some q => set_prev h (Some q) (Some a) | None => Ok h end) in
      let! h := set_next h (Some fo) (Some a) in
      let last := if opt_eqb (t_last t) fo then Some a else t_last t in
      Ok (with_segs t h (S a) (t_first t) last (uwrap 32 (t_num t + 1)), a)
    end
  end.

Definition add_existing (f : conf) (r : trec) (c : calc) (t : tid) : res (tid * nat) :=
  let h := t_heap t in
  let! nl := deref h (t_last t) in
  let! lastgap := gap (f_mode f) (r_start r) (s_end (n_seg nl)) (c_period c) in
  let! nf := deref h (t_first t) in
  let! firstgap := gap (f_mode f) (s_start (n_seg nf)) (c_end c) (c_period c) in
  if fits c lastgap (s_hz (n_seg nl)) then
    (* tracelist.c:484-498 *)
    let! h := extend f h (t_last t) r (c_end c) 1 in
    match t_last t with
    | Some a => Ok (with_segs t h (t_fresh t) (t_first t) (t_last t) (t_num t), a)
    | None => UB NullDeref
    end
  else
    let! x := sarith (f_mode f) 64 (r_start r - c_period c) in
    let! x := sarith (f_mode f) 64 (x - c_tol c) in
    if t_late t <? x then
      (* tracelist.c:500-517 *)
      let! s := msr2seg r (c_end c) in
      let a := t_fresh t in
      let! h := set_next h (t_last t) (Some a) in
      let h := hupd h a (Some (mk_node s (t_last t) None)) in
      let! s := add_recordptr (f_keep f) s r (c_end c) 0 in
      let! h := set_seg h (Some a) s in
      Ok (with_segs t h (S a) (t_first t) (Some a) (uwrap 32 (t_num t + 1)), a)
    else
      let! y := sarith (f_mode f) 64 (c_end c + c_period c) in
      let! y := sarith (f_mode f) 64 (y + c_tol c) in
      if y <? t_early t then
        (* tracelist.c:519-536 *)
        let! s := msr2seg r (c_end c) in
        let a := t_fresh t in
        let! h := set_prev h (t_first t) (Some a) in
        let h := hupd h a (Some (mk_node s None (t_first t))) in
        let! s := add_recordptr (f_keep f) s r (c_end c) 0 in
        let! h := set_seg h (Some a) s in
        Ok (with_segs t h (S a) (Some a) (t_last t) (uwrap 32 (t_num t + 1)), a)
      else if fits c firstgap (s_hz (n_seg nf)) then
        (* tracelist.c:538-552 *)
        let! h := extend f h (t_first t) r (c_end c) 2 in
        match t_first t with
        | Some a => Ok (with_segs t h (t_fresh t) (t_first t) (t_last t) (t_num t), a)
        | None => UB NullDeref
        end
      else add_search f r c t.

(** The version, earliest and latest times, tracelist.c:714-723, and the sort. *)
Definition add_to_tid (f : conf) (r : trec) (c : calc) (t : tid) : res tid :=
  let! (t, a) := add_existing f r c t in
  let pub := if t_pub t <? r_pub r then r_pub r else t_pub t in
  let early := if r_start r <? t_early t then r_start r else t_early t in
  let late := if t_late t <? c_end c then c_end c else t_late t in
  let! (h, first, last) := move_down (S (t_fresh t)) (t_heap t) (t_first t) (t_last t) a in
  let! (h, first, last) := move_up (S (t_fresh t)) h first last a in
  Ok (mk_tid (t_sid t) pub early late (t_num t) first last h (t_fresh t)).

(** A new trace identifier, tracelist.c:410-444.  Its only segment needs no sorting. *)
Definition new_tid (f : conf) (r : trec) (endt : Z) : res tid :=
  let! s := new_seg f r endt 1 in
  Ok (mk_tid (r_sid r) (r_pub r) (r_start r) endt 1 (Some O) (Some O)
             (hupd (fun _ => None) O (Some (mk_node s None None))) 1).

(** ** The skip list of trace identifiers *)

Definition HEIGHT : nat := 8.

(** strcmp: negative, zero or positive. *)
Fixpoint strcmp (a b : list Z) : Z :=
  match a, b with
  | [], [] => 0
  | [], _ :: _ => -1
  | _ :: _, [] => 1
  | x :: a', y :: b' => if x =? y then strcmp a' b' else if x <? y then -1 else 1
  end.

(** A node of the skip list and the list; [k_head] are the next pointers of the
    sentinel. *)
Record idnode := mk_idnode { i_tid : tid; i_next : list (option nat) }.
Record tlist := mk_tlist {
  k_num : Z; k_head : list (option nat); k_nodes : nat -> option idnode; k_fresh : nat }.

(** mstl3_init, tracelist.c:54-76 (the generator state is not kept, see [height]
    below). *)
Definition tl_init : tlist := mk_tlist 0 (repeat None HEIGHT) (fun _ => None) O.

(** A pointer to the sentinel or to a node, and its next pointer at a level. *)
Inductive place := PHead | PNode (a : nat).
Definition next_at (k : tlist) (p : place) (level : nat) : res (option nat) :=
  match p with
  | PHead => match nth_error (k_head k) level with Some x => Ok x | None => UB OOBRead end
  | PNode a => match k_nodes k a with
               | None => UB OOBRead
               | Some n => match nth_error (i_next n) level with Some x => Ok x | None => UB OOBRead end
               end
  end.

(** The comparison of tracelist.c:209-215. *)
Definition id_cmp (t : tid) (sid : list Z) (pub : Z) : Z :=
  let cmp := strcmp (t_sid t) sid in
  if (cmp =? 0) && negb (pub =? 0) && negb (t_pub t =? pub)
  then (if t_pub t <? pub then -1 else 1) else cmp.

(** mstl3_findID, tracelist.c:180-233: the node found and the previous places, lowest
    level first.  [level] is level + 1. *)
Fixpoint find_id (fuel : nat) (k : tlist) (sid : list Z) (pub : Z) (p : place) (level : nat) (prevs : list place)
  : res (option nat * list place) :=
  match fuel with
  | O => Fuel
  | S fuel' =>
    match level with
    | O => Ok (None, prevs)
    | S l =>
      let! nx := next_at k p l in
      match nx with
      | None => find_id fuel' k sid pub p l (p :: prevs)
      | Some a =>
        match k_nodes k a with
        | None => UB OOBRead
        | Some n =>
          let cmp := id_cmp (i_tid n) sid pub in
          if cmp =? 0 then Ok (Some a, prevs)
          else if 0 <? cmp then find_id fuel' k sid pub p l (p :: prevs)
          else find_id fuel' k sid pub (PNode a) level prevs
        end
      end
    end
  end.

Definition kupd {A} (m : nat -> option A) (a : nat) (v : A) : nat -> option A :=
  fun b => if Nat.eqb b a then Some v else m b.
Fixpoint set_at {A} (l : list A) (i : nat) (v : A) : list A :=
  match l, i with
  | [], _ => []
  | _ :: l', O => v :: l'
  | x :: l', S i' => x :: set_at l' i' v
  end.

Definition set_next_at (k : tlist) (p : place) (level : nat) (v : option nat) : res tlist :=
  match p with
  | PHead => Ok (mk_tlist (k_num k) (set_at (k_head k) level v) (k_nodes k) (k_fresh k))
  | PNode a => match k_nodes k a with
               | None => UB OOBWrite
               | Some n => Ok (mk_tlist (k_num k) (k_head k)
                            (kupd (k_nodes k) a (mk_idnode (i_tid n) (set_at (i_next n) level v))) (k_fresh k))
               end
  end.

(** The pointers connected at the levels below [height], tracelist.c:281-295; the
    levels are independent of each other. *)
Fixpoint connect (k : tlist) (a : nat) (prevs : list place) (level height : nat) : res tlist :=
  match height with
  | O => Ok k
  | S h' =>
    match prevs with
    | [] => Err 0
    | p :: prevs' =>
      let! nx := next_at k p level in
      let! k := set_next_at k (PNode a) level nx in
      let! k := set_next_at k p level (Some a) in
      connect k a prevs' (S level) h'
    end
  end.

(** lm_lcg_r and lm_random_height, tracelist.c:2434-2458: the generator state after, and
    the height. *)
Fixpoint random_height (todo : nat) (state height : Z) : Z * Z :=
  match todo with
  | O => (state, height)
  | S todo' =>
    let state := uwrap 64 (6364136223846793005 * state + 1) in
    if state / 2 ^ 32 <? 4294967295 / 2 then random_height todo' state (height + 1) else (state, height)
  end.
Definition lm_random_height (state : Z) : Z * Z := random_height 7 state 1.

(** mstl3_addID, tracelist.c:252-300, with the height drawn. *)
Definition add_id (k : tlist) (t : tid) (prevs : list place) (height : nat) : res tlist :=
  let a := k_fresh k in
  let k := mk_tlist (k_num k) (k_head k) (kupd (k_nodes k) a (mk_idnode t (repeat None HEIGHT))) (S a) in
  let! k := connect k a prevs O height in
  Ok (mk_tlist (uwrap 32 (k_num k + 1)) (k_head k) (k_nodes k) (k_fresh k)).

(** mstl3_addmsr_recordptr, tracelist.c:363-778.  [height] is the skip list height
    drawn if the identifier is new.  [Err 0] is the return value NULL. *)
Definition add_msr (f : conf) (k : tlist) (r : trec) (height : nat) : res tlist :=
  let! endt := endtime (f_mode f) (f_leaps f) (r_start r) (r_cnt r) (r_rate r) in
  if endt =? -2145916800000000000 then Err 0
  else
    let! (found, prevs) := find_id (k_fresh k + HEIGHT + 1) k (r_sid r) (if f_split f then r_pub r else 0) PHead HEIGHT [] in
    match found with
    | None => let! t := new_tid f r endt in add_id k t prevs height
    | Some a =>
      match k_nodes k a with
      | None => UB OOBRead
      | Some n =>
        let! c := calc_of f r endt in
        let! t := add_to_tid f r c (i_tid n) in
        Ok (mk_tlist (k_num k) (k_head k) (kupd (k_nodes k) a (mk_idnode t (i_next n))) (k_fresh k))
      end
    end.

(** Records added one after the other (a failed addition stops). *)
Fixpoint add_all (f : conf) (k : tlist) (rs : list (trec * nat)) : res tlist :=
  match rs with
  | [] => Ok k
  | (r, height) :: rs' => let! k := add_msr f k r height in add_all f k rs'
  end.

(** The identifiers in the order of the lowest level, as every consumer walks them. *)
Fixpoint walk (fuel : nat) (k : tlist) (p : option nat) : res (list tid) :=
  match fuel with
  | O => Fuel
  | S fuel' =>
    match p with
    | None => Ok []
    | Some a => match k_nodes k a with
                | None => UB OOBRead
                | Some n => let! nx := next_at k (PNode a) O in
                            let! l := walk fuel' k nx in Ok (i_tid n :: l)
                end
    end
  end.
Definition tl_ids (k : tlist) : res (list tid) :=
  let! p := next_at k PHead O in walk (S (k_fresh k)) k p.

(** The segments of an identifier in order. *)
Fixpoint walk_segs (fuel : nat) (h : heap) (p : option nat) : res (list seg) :=
  match fuel with
  | O => Fuel
  | S fuel' =>
    match p with
    | None => Ok []
    | Some _ => let! n := deref h p in let! l := walk_segs fuel' h (n_next n) in Ok (n_seg n :: l)
    end
  end.
Definition tid_segs (t : tid) : res (list seg) := walk_segs (S (t_fresh t)) (t_heap t) (t_first t).

(** mstl3_findID as called from outside (prev NULL), tracelist.c:180-233. *)
Definition tl_find (k : tlist) (sid : list Z) (pub : Z) : res (option tid) :=
  let! (found, _) := find_id (k_fresh k + HEIGHT + 1) k sid pub PHead HEIGHT [] in
  match found with
  | None => Ok None
  | Some a => match k_nodes k a with Some n => Ok (Some (i_tid n)) | None => UB OOBRead end
  end.
