(** * Reading what the inspector prints: a reader's view of the output.

    The output is cut into lines, fields and words and numbers are read in it; nothing here
    says how the output is made. *)

From Coq Require Import String.
From Verif Require Import Base TimeStrModel RecModel.
From Coq Require Import SpecFloat.
Open Scope Z_scope.
Open Scope list_scope.

(** The pieces of a text between the characters [c]; a text without [c] is one piece. *)
Fixpoint pieces (c : Z) (t : list Z) : list (list Z) :=
  match t with
  | [] => [[]]
  | x :: t' =>
    if x =? c then [] :: pieces c t'
    else match pieces c t' with
         | [] => [[x]]
         | p :: ps => (x :: p) :: ps
         end
  end.
(** Lines are ended by newlines: what follows the last newline is no line. *)
Definition lines (t : list Z) : list (list Z) := removelast (pieces 10 t).
(** Nothing is left after the last newline. *)
Definition ended (t : list Z) : Prop := last (pieces 10 t) [] = [].
(** Words are separated by blanks. *)
Definition is_nil {A} (l : list A) : bool := match l with [] => true | _ => false end.
Definition words (t : list Z) : list (list Z) := filter (fun p => negb (is_nil p)) (pieces 32 t).

(** The value of digits read after [acc], in a base. *)
Definition digit (c : Z) : option Z :=
  if (48 <=? c) && (c <=? 57) then Some (c - 48)
  else if (65 <=? c) && (c <=? 70) then Some (c - 55)
  else None.
Fixpoint digits (base acc : Z) (t : list Z) : option Z :=
  match t with
  | [] => Some acc
  | c :: t' => match digit c with
               | Some d => if d <? base then digits base (acc * base + d) t' else None
               | None => None
               end
  end.
Definition natural (base : Z) (t : list Z) : option Z :=
  match t with [] => None | _ => digits base 0 t end.
(** A decimal number, possibly with a minus sign. *)
Definition number (t : list Z) : option Z :=
  match t with
  | 45 :: t' => option_map Z.opp (natural 10 t')
  | _ => natural 10 t
  end.

(** What is before and what is after the first [sep] in a text. *)
Fixpoint starts (sep t : list Z) : option (list Z) :=
  match sep, t with
  | [], _ => Some t
  | a :: sep', b :: t' => if a =? b then starts sep' t' else None
  | _ :: _, [] => None
  end.
Fixpoint cut (sep t : list Z) : option (list Z * list Z) :=
  match starts sep t with
  | Some rest => Some ([], rest)
  | None =>
    match t with
    | [] => None
    | c :: t' => match cut sep t' with Some (a, b) => Some (c :: a, b) | None => None end
    end
  end.
(** The fields of a text that is separated [n] times. *)
Fixpoint fields (n : nat) (sep t : list Z) : option (list (list Z)) :=
  match n with
  | O => Some [t]
  | S n => match cut sep t with
           | Some (a, b) => match fields n sep b with Some fs => Some (a :: fs) | None => None end
           | None => None
           end
  end.

(** A text without the blanks in front. *)
Fixpoint flush (t : list Z) : list Z :=
  match t with
  | 32 :: t' => flush t'
  | _ => t
  end.
(** The value a line with a label has: the first line "label: value". *)
Fixpoint lookup (label : list Z) (ls : list (list Z)) : option (list Z) :=
  match ls with
  | [] => None
  | l :: ls' =>
    match cut (zs ": ") (flush l) with
    | Some (a, b) => if list_eq_dec Z.eq_dec a label then Some b else lookup label ls'
    | None => lookup label ls'
    end
  end.

(** The value of an optional text read with [f]. *)
Definition read {A} (f : list Z -> option A) (t : option (list Z)) : option A :=
  match t with Some t => f t | None => None end.
(** A text without line breaks. *)
Definition one_line (t : list Z) : Prop := ~ In 10 t.

(** A number as "%g" prints it: not empty, without blanks, commas and line breaks, at most [w]
    characters; the same with blanks in front. *)
Definition plain (w : nat) (t : list Z) : Prop :=
  (length t <= w)%nat /\ t <> [] /\ Forall (fun c => 32 < c /\ c <> 44) t.
Definition padded (w : nat) (t : list Z) : Prop :=
  (length t <= w)%nat /\ exists k b, t = repeat 32 k ++ b /\ b <> [] /\ Forall (fun c => 32 < c /\ c <> 44) b.

(** The ranges of the fields of MS3Record (libmseed.h:358-382), an identifier of one line without
    commas that fits its array, and a start time from 1678 on. *)
Definition header_fits (m : msr) : Prop :=
  ((length (m_sid m) <= 63)%nat /\ one_line (m_sid m) /\ ~ In 44 (m_sid m)) /\
  (in_u 8 (m_pub m) /\ in_s 32 (m_reclen m) /\ in_u 8 (m_fver m) /\ in_s 64 (m_cnt m) /\ in_u 32 (m_crc m)) /\
  (Z.of_nat (length (m_extra m)) < 2 ^ 16 /\ 0 <= m_datalen m < 2 ^ 31 /\ in_s 16 (m_enc m) /\ in_u 8 (m_flags m)) /\
  (in_s 64 (m_start m) /\ -9214560000000000000 <= m_start m).

(** A number before a unit. *)
Definition before (unit t : list Z) : option (list Z) :=
  match cut unit t with Some (a, []) => Some a | _ => None end.
(** A number after a label. *)
Definition after (mark t : list Z) : option (list Z) := starts mark t.

(** "[binary digits] 8 bits" *)
Definition read_bits (t : list Z) : option Z :=
  match starts (zs "[") t with Some t => read (natural 2) (before (zs "] 8 bits") t) | None => None end.
(** The first line of a detailed print: identifier, version, length and format. *)
Definition read_first (t : list Z) : option (list Z * option Z * option Z * option Z) :=
  match cut (zs ", version ") t with
  | Some (sid, t) =>
    match cut (zs ", ") t with
    | Some (pub, t) =>
      match cut (zs " bytes (format: ") t with
      | Some (len, t) => Some (sid, number pub, number len, read number (match cut (zs ")") t with Some (a, []) => Some a | _ => None end))
      | None => None
      end
    | None => None
    end
  | None => None
  end.
(** "name (val: number)" *)
Definition read_encoding (t : list Z) : option (list Z * option Z) :=
  match cut (zs " (val: ") t with
  | Some (name, t) => Some (name, read number (match cut (zs ")") t with Some (a, []) => Some a | _ => None end))
  | None => None
  end.
(** The number of the bit a line is about. *)
Definition bit_named (l : list Z) : list Z :=
  match starts (zs "[Bit ") (flush l) with Some (c :: _) => [c - 48] | _ => [] end.


(** Groups of [k]. *)
Fixpoint grouped {A} (fuel k : nat) (l : list A) : list (list A) :=
  match fuel, l with
  | S f, _ :: _ => firstn k l :: grouped f k (skipn k l)
  | _, _ => []
  end.

(** The encodings of libmseed.h:1416-1428 by the words that tell them apart. *)
Definition encoding_words : list (Z * list (list Z)) :=
  [(0, [zs "Text"]); (1, [zs "16-bit integer"]); (3, [zs "32-bit integer"]); (4, [zs "32-bit float"]); (5, [zs "64-bit float"]);
   (10, [zs "STEIM-1"]); (11, [zs "STEIM-2"]); (12, [zs "GEOSCOPE"; zs "24-bit"]); (13, [zs "GEOSCOPE"; zs "16/3-bit"]);
   (14, [zs "GEOSCOPE"; zs "16/4-bit"]); (16, [zs "CDSN"]); (30, [zs "SRO"]); (32, [zs "DWWSSN"])].
Definition mentions (t w : list Z) : Prop := cut w t <> None.

(** The samples of a record in order. *)
Definition sample_list (s : samples) : list (Z + spec_float) :=
  match s with SInt l => map inl l | SFlt l => map inr l end.
