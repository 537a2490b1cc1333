(** * Base: outcomes, C integers and byte order.

    The C code is modelled with a distinct outcome for undefined behaviour; see
    DESIGN.md for the conventions.  Nothing in this file transcribes a function of
    the code base except the byte-swap helpers. *)

From Coq Require Export List Arith ZArith Bool Lia.
From Coq Require Export ZifyBool ZifyNat ZifyN.
Export ListNotations.
Open Scope Z_scope.

Ltac Zify.zify_post_hook ::= Z.div_mod_to_equations.

(** ** Outcomes *)

(** What can go wrong at the C level. *)
Inductive ub : Set :=
| OOBRead          (* read outside an object *)
| OOBWrite         (* write outside an object *)
| SignedOverflow   (* signed arithmetic overflow *)
| BadShift         (* shift by a negative or too large amount *)
| NullDeref        (* NULL pointer dereference *)
| Uninit           (* use of an indeterminate value *)
| BadFree          (* free of memory the callee does not own *)
| BadAlign.        (* access through a misaligned pointer *)

(** [Err c]: the function returned the error code [c].  [Fuel]: the model's
    explicit recursion bound was exhausted (never a legitimate result). *)
Inductive res (A : Type) : Type :=
| Ok (a : A)
| Err (code : Z)
| UB (u : ub)
| Fuel.
Arguments Ok {A} a.
Arguments Err {A} code.
Arguments UB {A} u.
Arguments Fuel {A}.

Definition bind {A B} (m : res A) (f : A -> res B) : res B :=
  match m with
  | Ok a => f a
  | Err c => Err c
  | UB u => UB u
  | Fuel => Fuel
  end.

Notation "'let!' x := m 'in' k" := (bind m (fun x => k))
  (at level 200, x pattern, m at level 100, k at level 200, right associativity).

Definition is_ub {A} (r : res A) : Prop := exists u, r = UB u.

(** ** C integers *)

(** Reduction to an unsigned [w]-bit value. *)
Definition uwrap (w : Z) (v : Z) : Z := v mod 2 ^ w.

(** Reduction to a signed (two's complement) [w]-bit value. *)
Definition swrap (w : Z) (v : Z) : Z :=
  let u := v mod 2 ^ w in
  if u <? 2 ^ (w - 1) then u else u - 2 ^ w.

Definition in_s (w v : Z) : Prop := - 2 ^ (w - 1) <= v < 2 ^ (w - 1).
Definition in_u (w v : Z) : Prop := 0 <= v < 2 ^ w.

Definition in_sb (w v : Z) : bool := (- 2 ^ (w - 1) <=? v) && (v <? 2 ^ (w - 1)).
Definition in_ub (w v : Z) : bool := (0 <=? v) && (v <? 2 ^ w).

Notation int32 := (in_s 32).

(** How signed overflow is treated: [Strict] is the C standard (undefined
    behaviour), [Wrap] is two's complement wrap-around (what compilers do with
    -fwrapv). *)
Inductive ovmode : Set := Strict | Wrap.

(** Result of a signed [w]-bit operation whose mathematical value is [v]. *)
Definition sarith (m : ovmode) (w v : Z) : res Z :=
  if in_sb w v then Ok v
  else match m with
       | Strict => UB SignedOverflow
       | Wrap => Ok (swrap w v)
       end.

(** ** Bytes and byte order *)

Definition byte_ok (b : Z) : Prop := 0 <= b < 256.
Definition bytes_ok (l : list Z) : Prop := Forall byte_ok l.

(** The [n] low-order bytes of [v], least significant first. *)
Fixpoint le_bytes (n : nat) (v : Z) : list Z :=
  match n with
  | O => []
  | S n' => v mod 256 :: le_bytes n' (v / 256)
  end.

(** The unsigned value of bytes, least significant first. *)
Fixpoint le_val (l : list Z) : Z :=
  match l with
  | [] => 0
  | b :: l' => b + 256 * le_val l'
  end.

Definition be_bytes (n : nat) (v : Z) : list Z := rev (le_bytes n v).
Definition be_val (l : list Z) : Z := le_val (rev l).

(** A value in host memory; [hb] says whether the host is big-endian. *)
Definition host_bytes (hb : bool) (n : nat) (v : Z) : list Z :=
  if hb then be_bytes n v else le_bytes n v.
Definition host_val (hb : bool) (l : list Z) : Z :=
  if hb then be_val l else le_val l.

(** ms_gswap2, ms_gswap4, ms_gswap8 (libmseed/libmseed.h:1272-1314) as an effect on
    memory: reverse the bytes of the value.  [gswap2v] .. [gswap8v] below are the
    mask-and-shift expressions of the code; GswapProof.v shows they agree. *)
Definition gswap (l : list Z) : list Z := rev l.
(** libmseed.h:1280 *)
Definition gswap2v (d : Z) : Z :=
  Z.lor (Z.shiftr (Z.land d 0xff00) 8) (uwrap 16 (Z.shiftl (Z.land d 0x00ff) 8)).
(** libmseed.h:1293-1294 *)
Definition gswap4v (d : Z) : Z :=
  Z.lor (Z.lor (Z.shiftr (Z.land d 0xff000000) 24)
               (uwrap 32 (Z.shiftl (Z.land d 0x000000ff) 24)))
        (Z.lor (Z.shiftr (Z.land d 0x00ff0000) 8)
               (uwrap 32 (Z.shiftl (Z.land d 0x0000ff00) 8))).
(** libmseed.h:1307-1310 *)
Definition gswap8v (d : Z) : Z :=
  fold_left Z.lor
    [ Z.shiftr (Z.land d 0xff00000000000000) 56;
      uwrap 64 (Z.shiftl (Z.land d 0x00000000000000ff) 56);
      Z.shiftr (Z.land d 0x00ff000000000000) 40;
      uwrap 64 (Z.shiftl (Z.land d 0x000000000000ff00) 40);
      Z.shiftr (Z.land d 0x0000ff0000000000) 24;
      uwrap 64 (Z.shiftl (Z.land d 0x0000000000ff0000) 24);
      Z.shiftr (Z.land d 0x000000ff00000000) 8;
      uwrap 64 (Z.shiftl (Z.land d 0x00000000ff000000) 8) ] 0.
Definition gswap_if (sw : bool) (l : list Z) : list Z := if sw then gswap l else l.

(** Split a list in consecutive pieces of [n] elements (last may be shorter);
    [k] is the number of pieces wanted. *)
Fixpoint chunks {A} (n k : nat) (l : list A) : list (list A) :=
  match k with
  | O => []
  | S k' => firstn n l :: chunks n k' (skipn n l)
  end.

(** Checked sub-list read: [len] elements at offset [off]. *)
Definition slice {A} (off len : nat) (l : list A) : res (list A) :=
  if (off + len <=? length l)%nat then Ok (firstn len (skipn off l)) else UB OOBRead.

(** Same with [Z] offsets. *)
Definition sliceZ {A} (off len : Z) (l : list A) : res (list A) :=
  if (0 <=? off) && (0 <=? len) && (off + len <=? Z.of_nat (length l))
  then Ok (firstn (Z.to_nat len) (skipn (Z.to_nat off) l))
  else UB OOBRead.

(** Checked element read. *)
Definition getZ {A} (i : Z) (l : list A) : res A :=
  if 0 <=? i then
    match nth_error l (Z.to_nat i) with
    | Some a => Ok a
    | None => UB OOBRead
    end
  else UB OOBRead.
