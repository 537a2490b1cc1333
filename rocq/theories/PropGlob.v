(** * C15, C16: the glob matchers mean what is documented. *)
From Verif Require Import Base GlobModel GlobSpec GlobProof.
Open Scope Z_scope.

(** C15.  [pat_text p t]: [p] is a pattern of the documented language with tokens [t];
    [mat]: the documented meaning (GlobSpec.v). *)
Theorem C15_contains : forall p t s, pat_text p t ->
  exists b, my_globmatch s (contains_pattern p) = Ok b /\
    (b = true <-> exists x y z, s = x ++ y ++ z /\ mat t y).
Proof. exact contains_ok. Qed.
Print Assumptions C15_contains.

(** "BH[^EN]" wrapped by -m, against "XFDSN:BHZ" and "XFDSN:BHE". *)
Example C15_instance :
  pat_text [66; 72; 91; 94; 69; 78; 93] [Lit 66; Lit 72; CSet true [Chr 69; Chr 78]] /\
  my_globmatch [58; 66; 72; 90] (contains_pattern [66; 72; 91; 94; 69; 78; 93]) = Ok true /\
  my_globmatch [58; 66; 72; 69] (contains_pattern [66; 72; 91; 94; 69; 78; 93]) = Ok false.
Proof.
  split; [|split; reflexivity].
  do 2 (constructor; try lia). apply (pt_nset [69; 78] _ [] []); [|constructor].
  constructor; [lia|]. constructor; [repeat split; lia|constructor].
Qed.

Theorem C15_whole : forall p t s, pat_text p t ->
  exists b, my_globmatch s p = Ok b /\ (b = true <-> mat t s).
Proof. exact (fun p t s H => glob_ok false (S (length p)) p t s (le_n _) H). Qed.
Print Assumptions C15_whole.

(** Every pattern text at all, well formed or not: the matcher ends and reads nothing
    outside the two strings. *)
Theorem C15_safe : forall p s, exists b, my_globmatch s (contains_pattern p) = Ok b.
Proof. exact contains_safe. Qed.
Print Assumptions C15_safe.

(** An unclosed set selects nothing. *)
Example C15_unclosed_instance : my_globmatch [65] (contains_pattern [91; 94]) = Ok false.
Proof. reflexivity. Qed.

(** Texts outside the documented language: a set ending in a hyphen is an open range
    ("[a-]" contains z), and a range end starts another range ("[a-c-e]" contains d). *)
Example C15_trailing_hyphen : my_globmatch [122] [91; 97; 45; 93] = Ok true.
Proof. reflexivity. Qed.
Example C15_double_range : my_globmatch [100] [91; 97; 45; 99; 45; 101; 93] = Ok true.
Proof. reflexivity. Qed.

(** C16 *)
Theorem C16_whole : forall p t s, pat_text p t -> no_escape t ->
  exists b, ms_globmatch s p = Ok b /\ (b = true <-> mat t s).
Proof.
  exact (fun p t s H N => eq_ind (loose t) (fun u => exists b, ms_globmatch s p = Ok b /\ (b = true <-> mat u s))
    (glob_ok true (S (length p)) p t s (le_n _) H) t (loose_id t N)).
Qed.
Print Assumptions C16_whole.

Example C16_instance :
  pat_text [66; 42; 91; 48; 45; 57; 93] [Lit 66; Star; CSet false [Rng 48 57]] /\
  no_escape [Lit 66; Star; CSet false [Rng 48 57]] /\
  ms_globmatch [66; 72; 90; 55] [66; 42; 91; 48; 45; 57; 93] = Ok true /\
  ms_globmatch [66; 72; 90] [66; 42; 91; 48; 45; 57; 93] = Ok false.
Proof.
  split; [|split; [|split; reflexivity]].
  - constructor; try lia. constructor. apply (pt_set [48; 45; 57] _ [] []); [|cbn; lia|constructor].
    apply set_rng; try lia. constructor.
  - intros c [E|[E|[E|[]]]]; discriminate.
Qed.

(** With escapes the library accepts any character in the place of the escaped one... *)
Theorem C16_escape_any : forall p t s, pat_text p t ->
  exists b, ms_globmatch s p = Ok b /\ (b = true <-> mat (loose t) s).
Proof. exact (fun p t s H => glob_ok true (S (length p)) p t s (le_n _) H). Qed.
Print Assumptions C16_escape_any.

(** ...so the documented meaning of "\?" fails: it matches "X". *)
Theorem C16_escape_refuted :
  pat_text [92; 63] [Esc 63] /\ ~ mat [Esc 63] [88] /\ ms_globmatch [88] [92; 63] = Ok true.
Proof. split; [repeat constructor; lia|]. split; [intros H; inversion H|reflexivity]. Qed.
Print Assumptions C16_escape_refuted.

(** Any pattern not ending in "[^" is matched without leaving the strings... *)
Theorem C16_safe : forall p s, (forall q, p <> q ++ [91; 94]) -> exists b, ms_globmatch s p = Ok b.
Proof. exact (fun p s H => glob_total true (S (length p)) p s (le_n _) (fun '(ex_intro _ q E) => H q E)). Qed.
Print Assumptions C16_safe.

Example C16_safe_instance : forall q, [91; 94; 65] <> q ++ [91; 94].
Proof. intros [|a [|b [|c q]]] E; try discriminate. injection E as _ _ _ E. now destruct q. Qed.

(** ...and one that fills the 100-byte pattern field and ends in "[^" is read behind its
    terminator, outside the field. *)
Theorem C16_dangling_refuted :
  let p := repeat 42 97 ++ [91; 94] in length p = 99%nat /\ ms_globmatch [65] p = UB OOBRead.
Proof. split; reflexivity. Qed.
Print Assumptions C16_dangling_refuted.
