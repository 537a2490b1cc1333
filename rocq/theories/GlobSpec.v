(** * The documented glob language (src/msi.c:817-838). *)
From Verif Require Export Base GlobModel.
Open Scope Z_scope.

Inductive item : Type := Chr (c : Z) | Rng (a b : Z).
Inductive tok : Type := Star | One | Lit (c : Z) | Esc (c : Z) | CSet (negated : bool) (l : list item).

(** Concrete syntax of a set: later characters are neither a bracket nor a hyphen. *)
Definition plain_char (c : Z) : Prop := c <> 0 /\ c <> 93 /\ c <> 45.
Inductive rest_text : list Z -> list item -> Prop :=
| rest_nil : rest_text [] []
| rest_chr : forall c r l, plain_char c -> rest_text r l -> rest_text (c :: r) (Chr c :: l)
| rest_rng : forall a b r l, plain_char a -> b <> 0 -> b <> 93 -> rest_text r l ->
    rest_text (a :: 45 :: b :: r) (Rng a b :: l).
(** The first character may be anything. *)
Inductive set_text : list Z -> list item -> Prop :=
| set_chr : forall c r l, c <> 0 -> rest_text r l -> set_text (c :: r) (Chr c :: l)
| set_rng : forall a b r l, a <> 0 -> b <> 0 -> b <> 93 -> rest_text r l ->
    set_text (a :: 45 :: b :: r) (Rng a b :: l).

(** Concrete syntax of a pattern. *)
Inductive pat_text : list Z -> list tok -> Prop :=
| pt_nil : pat_text [] []
| pt_star : forall p t, pat_text p t -> pat_text (42 :: p) (Star :: t)
| pt_one : forall p t, pat_text p t -> pat_text (63 :: p) (One :: t)
| pt_lit : forall c p t, c <> 0 -> c <> 42 -> c <> 63 -> c <> 91 -> c <> 92 -> pat_text p t ->
    pat_text (c :: p) (Lit c :: t)
| pt_esc : forall c p t, c <> 0 -> pat_text p t -> pat_text (92 :: c :: p) (Esc c :: t)
| pt_set : forall b l p t, set_text b l -> hd 0 b <> 94 -> pat_text p t ->
    pat_text (91 :: b ++ 93 :: p) (CSet false l :: t)
| pt_nset : forall b l p t, set_text b l -> pat_text p t ->
    pat_text (91 :: 94 :: b ++ 93 :: p) (CSet true l :: t).

Definition in_item (x : Z) (i : item) : Prop :=
  match i with Chr c => x = c | Rng a b => x = a \/ x = b \/ a <= x <= b end.
Definition in_set (x : Z) (l : list item) : Prop := exists i, In i l /\ in_item x i.

(** Meaning. *)
Inductive mat : list tok -> list Z -> Prop :=
| m_nil : mat [] []
| m_star : forall s1 t s2, mat t s2 -> mat (Star :: t) (s1 ++ s2)
| m_one : forall c t s, mat t s -> mat (One :: t) (c :: s)
| m_lit : forall c t s, mat t s -> mat (Lit c :: t) (c :: s)
| m_esc : forall c t s, mat t s -> mat (Esc c :: t) (c :: s)
| m_set : forall x l t s, in_set x l -> mat t s -> mat (CSet false l :: t) (x :: s)
| m_nset : forall x l t s, ~ in_set x l -> mat t s -> mat (CSet true l :: t) (x :: s).

(** What the library does instead with an escape: any character. *)
Fixpoint loose (t : list tok) : list tok :=
  match t with
  | [] => []
  | Esc _ :: t' => One :: loose t'
  | x :: t' => x :: loose t'
  end.
Definition no_escape (t : list tok) : Prop := forall c, ~ In (Esc c) t.
