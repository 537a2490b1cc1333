(** * Double values and operations.

    A double is its rational value, an infinity or NaN; the sign of zero is not
    represented.  The operations are those of IEEE 754 with rounding to nearest, ties
    to even ([rnd64]), without excess precision (FLT_EVAL_METHOD 0).  No definition of
    the C code is here except the conversions and comparisons the language provides. *)

From Verif Require Export Base FloatOps.
Open Scope Z_scope.

Inductive dbl := DFin (q : Q) | DInf (neg : bool) | DNaN.

(** The double with a bit pattern. *)
Definition dval (bits : Z) : dbl :=
  let s := 2 ^ 63 <=? bits mod 2 ^ 64 in
  let e := bits / 2 ^ 52 mod 2048 in
  let f := bits mod 2 ^ 52 in
  if e =? 2047 then (if f =? 0 then DInf s else DNaN)
  else
    let v := if e =? 0 then dyadic f (-1074) else dyadic (f + 2 ^ 52) (e - 1075) in
    DFin (if s then Qopp v else v).

Definition qneg (q : Q) : bool := Qnum q <? 0.
Definition qzero (q : Q) : bool := Qnum q =? 0.

Definition drnd (q : Q) : dbl :=
  match rnd64 q with Some v => DFin v | None => DInf (qneg q) end.
Definition dofz (z : Z) : dbl := drnd (inject_Z z).

Definition dopp (x : dbl) : dbl :=
  match x with DFin q => DFin (Qopp q) | DInf s => DInf (negb s) | DNaN => DNaN end.
Definition dadd (x y : dbl) : dbl :=
  match x, y with
  | DFin a, DFin b => drnd (a + b)%Q
  | DInf s, DInf t => if Bool.eqb s t then DInf s else DNaN
  | DInf s, DFin _ => DInf s
  | DFin _, DInf t => DInf t
  | _, _ => DNaN
  end.
Definition dmul (x y : dbl) : dbl :=
  match x, y with
  | DFin a, DFin b => drnd (a * b)%Q
  | DInf s, DInf t => DInf (xorb s t)
  | DInf s, DFin b => if qzero b then DNaN else DInf (xorb s (qneg b))
  | DFin a, DInf t => if qzero a then DNaN else DInf (xorb (qneg a) t)
  | _, _ => DNaN
  end.
(** Division by zero gives an infinity whose sign depends on that of the zero; it is
    given the sign of the dividend here. *)
Definition ddiv (x y : dbl) : dbl :=
  match x, y with
  | DFin a, DFin b => if qzero b then (if qzero a then DNaN else DInf (qneg a)) else drnd (a / b)%Q
  | DInf s, DFin b => DInf (xorb s (qneg b))
  | DFin _, DInf _ => DFin 0%Q
  | _, _ => DNaN
  end.

(** [x < y]; comparisons with NaN are false. *)
Definition dlt (x y : dbl) : bool :=
  match x, y with
  | DFin a, DFin b => negb (Qle_bool b a)
  | DInf s, DInf t => s && negb t
  | DInf s, DFin _ => s
  | DFin _, DInf t => negb t
  | _, _ => false
  end.
Definition dzero : dbl := DFin 0%Q.

(** Conversion to int64_t: undefined when the truncated value does not fit. *)
Definition to_int64 (x : dbl) : res Z :=
  match x with
  | DFin q => let v := qtrunc q in if in_sb 64 v then Ok v else UB SignedOverflow
  | _ => UB SignedOverflow
  end.
