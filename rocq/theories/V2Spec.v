(** * Specification notions for version 2 records and their blockette chains. *)

From Verif Require Export Base RecModel RecSpec DataSpec V2Model.
Open Scope Z_scope.

(** An ordinary end, or undefined behaviour of one of the kinds in [U]. *)
Definition ends {A} (U : ub -> Prop) (r : res A) : Prop :=
  match r with Ok _ => True | Err c => c < 0 | UB u => U u | Fuel => False end.

(** Nothing but integer overflow (if overflow is undefined), and in addition the shifts
    and writes of the blockette parser, but no read outside an object. *)
Definition overflow_only (mode : ovmode) (u : ub) : Prop := u = SignedOverflow /\ mode = Strict.
Definition no_outside_read (mode : ovmode) (u : ub) : Prop :=
  overflow_only mode u \/ u = BadShift \/ u = OOBWrite.

(** The header is in the other byte order: year and day are not plausible as they stand. *)
Definition swapped (hb : bool) (rec : list Z) : bool :=
  match rd hb false 2 20 rec, rd hb false 2 22 rec with
  | Ok y, Ok d => negb ((1900 <=? y) && (y <=? 2100) && (1 <=? d) && (d <=? 366))
  | _, _ => false
  end.

(** The size of each blockette type with a fixed size, SEED 2.4 manual chapter 8; the
    fixed part of an opaque blockette up to its length field. *)
Definition blockette_size (type : Z) : option Z :=
  match type with
  | 100 => Some 12 | 200 => Some 52 | 201 => Some 60 | 300 => Some 60 | 310 => Some 60 | 320 => Some 64
  | 390 => Some 28 | 395 => Some 16 | 400 => Some 16 | 500 => Some 200 | 1000 => Some 8 | 1001 => Some 8
  | 2000 => Some 6
  | _ => None
  end.
(** The blockettes that end with a text. *)
Definition ends_with_text (type : Z) : bool :=
  match type with 200 | 201 | 300 | 310 | 320 | 500 => true | _ => false end.

(** A text field of [len] bytes at [off] that is shorter than the field. *)
Definition terminated (rec : list Z) (off len : Z) : Prop :=
  exists k, off <= k < off + len /\ getZ k rec = Ok 0.

(** A blockette of this type at [off] in a record of [reclen] bytes: all of it is in the
    record, with one byte after a final text; the length of a 1000 is representable; the
    two texts of a 500 leave room for a terminator. *)
Definition blockette_ok (rec : list Z) (reclen type off : Z) : Prop :=
  match blockette_size type with
  | None => off + 4 <= reclen
  | Some n => off + n + (if ends_with_text type then 1 else 0) <= reclen
  end
  /\ (type = 1000 -> exists e, getZ (off + 6) rec = Ok e /\ e < 32)
  /\ (type = 500 -> terminated rec (off + 24) 16 /\ terminated rec (off + 72) 128).

(** Following the links from [off] meets only blockettes that satisfy [P], up to a link
    that is zero, does not lead forward or is not below [limit], or a type in [stop]. *)
Inductive chain (stop : Z -> Prop) (P : Z -> Z -> Prop) (hb sw : bool) (rec : list Z) (limit : Z) : Z -> Prop :=
| chain_end off : off = 0 \/ limit <= off -> chain stop P hb sw rec limit off
| chain_link off type next :
    rd hb sw 2 off rec = Ok type -> rd hb sw 2 (off + 2) rec = Ok next -> P type off ->
    next <= off \/ stop type \/ chain stop P hb sw rec limit next ->
    chain stop P hb sw rec limit off.

(** The chain of a record, from the offset of the first blockette in the header. *)
Definition record_chain (stop : Z -> Prop) (P : Z -> Z -> Prop) (hb : bool) (rec : list Z) (limit : Z) : Prop :=
  forall off, rd hb (swapped hb rec) 2 46 rec = Ok off -> chain stop P hb (swapped hb rec) rec limit off.
Definition unknown_type (type : Z) : Prop := blockette_size type = None.
Definition nowhere (type : Z) : Prop := False.

(** The search for the length needs the four bytes of type and link, and all of the
    blockette 1000 it stops at, whose length is representable in 64 bits. *)
Definition search_ok (rec : list Z) (limit type off : Z) : Prop :=
  off + 4 <= limit
  /\ (type = 1000 -> off + 8 <= limit /\ exists e, getZ (off + 6) rec = Ok e /\ e < 64).

(** The samples a record of [reclen] bytes states in encoding [enc] are in the record, and
    the library does not truncate their size (it does for 64 KiB or more, when they are
    not the whole rest of the record and not aligned). *)
Definition samples_fit (hb : bool) (addr : Z) (rec : list Z) (reclen enc : Z) : Prop :=
  forall doff cnt, rd hb (swapped hb rec) 2 44 rec = Ok doff -> rd hb (swapped hb rec) 2 30 rec = Ok cnt ->
  doff <= reclen
  /\ forall w, sample_bytes enc = Some w ->
     doff + cnt * w <= reclen
     /\ (cnt * w < 65536 \/ doff + cnt * w = reclen \/ (addr + doff) mod decoded_bytes enc = 0).

(** A blockette 1000 whose length is inside the buffer and holds the samples. *)
Definition length_ok (hb : bool) (addr : Z) (rec : list Z) (type off : Z) : Prop :=
  type = 1000 -> exists e enc, getZ (off + 6) rec = Ok e /\ getZ (off + 4) rec = Ok enc
                   /\ 2 ^ e <= lenZ rec /\ samples_fit hb addr rec (2 ^ e) enc.
