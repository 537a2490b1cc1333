(** * What the string helpers should do. *)
From Verif Require Export Base StrModel.
Open Scope Z_scope.

(** Characters of a C string: bytes other than zero. *)
Definition text (s : list Z) : Prop := Forall (fun c => 1 <= c <= 255) s.

(** ** Well-formed UTF-8 (RFC 3629, section 4) *)
Definition tail_byte (b : Z) : Prop := 0x80 <= b <= 0xBF.
Inductive utf8_char : list Z -> Prop :=
| u1 : forall a, 0 <= a <= 0x7F -> utf8_char [a]
| u2 : forall a b, 0xC2 <= a <= 0xDF -> tail_byte b -> utf8_char [a; b]
| u3a : forall b c, 0xA0 <= b <= 0xBF -> tail_byte c -> utf8_char [0xE0; b; c]
| u3b : forall a b c, 0xE1 <= a <= 0xEC -> tail_byte b -> tail_byte c -> utf8_char [a; b; c]
| u3c : forall b c, 0x80 <= b <= 0x9F -> tail_byte c -> utf8_char [0xED; b; c]
| u3d : forall a b c, 0xEE <= a <= 0xEF -> tail_byte b -> tail_byte c -> utf8_char [a; b; c]
| u4a : forall b c d, 0x90 <= b <= 0xBF -> tail_byte c -> tail_byte d -> utf8_char [0xF0; b; c; d]
| u4b : forall a b c d, 0xF1 <= a <= 0xF3 -> tail_byte b -> tail_byte c -> tail_byte d -> utf8_char [a; b; c; d]
| u4c : forall b c d, 0x80 <= b <= 0x8F -> tail_byte c -> tail_byte d -> utf8_char [0xF4; b; c; d].
Inductive utf8_wf : list Z -> Prop :=
| wf_nil : utf8_wf []
| wf_cons : forall c s, utf8_char c -> utf8_wf s -> utf8_wf (c ++ s).

(** The bytes a copy of at most [len] bytes may look at: up to the terminator. *)
Fixpoint before_nul (s : list Z) : list Z :=
  match s with
  | [] => []
  | c :: s' => if c =? 0 then [] else c :: before_nul s'
  end.
Definition visible (src : list Z) (len : Z) : list Z := before_nul (firstn (Z.to_nat len) src).

(** [p] is the longest prefix of [s] that is well-formed UTF-8. *)
Definition longest_utf8 (s p : list Z) : Prop :=
  (exists r, s = p ++ r) /\ utf8_wf p /\
  forall p' r', s = p' ++ r' -> utf8_wf p' -> (length p' <= length p)%nat.

(** The source object has a byte after the requested ones, or a terminator. *)
Definition readable (src : list Z) (len : Z) : Prop := Z.max 0 len < Z.of_nat (length src) \/ In 0 src.

Definition no_spaces (s : list Z) : list Z := filter (fun c => negb (c =? 32)) s.

(** [t] is [s] without its trailing spaces. *)
Definition trimmed (s t : list Z) : Prop :=
  (exists k, s = t ++ repeat 32 k) /\ (forall t', t <> t' ++ [32]).

(** A buffer that starts with the terminated string [s] and is otherwise unchanged. *)
Definition holds_string (before after s : list Z) : Prop :=
  after = s ++ 0 :: skipn (S (length s)) before.

(** Codes with no separator characters. *)
Definition plain_code (s : list Z) : Prop := text s /\ ~ In 95 s /\ ~ In 58 s.

(** The extended form of a channel, and the SEED form of an extended channel. *)
Definition extended_form (chan : list Z) : list Z :=
  match chan with [a; b; c] => [a; 95; b; 95; c] | _ => chan end.
Inductive has_seed_form : list Z -> list Z -> Prop :=
| seed_form_of : forall a b c, has_seed_form [a; 95; b; 95; c] [a; b; c].

(** The identifier of four codes: FDSN:NET_STA_LOC_CHAN. *)
Definition sid_text (net sta loc xchan : list Z) : list Z :=
  [70; 68; 83; 78; 58] ++ net ++ [95] ++ sta ++ [95] ++ loc ++ [95] ++ xchan.
