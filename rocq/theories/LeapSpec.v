(** * Leap second lists in NTP format. *)

From Verif Require Import Base.
Open Scope Z_scope.

(** Decimal digits and the number they write. *)
Definition digits (ds : list Z) : Prop := ds <> [] /\ Forall (fun c => 48 <= c <= 57) ds.
Definition number (ds : list Z) : Z := fold_left (fun a c => 10 * a + (c - 48)) ds 0.
Definition blanks (ws : list Z) : Prop := Forall (fun c => c = 32 \/ c = 9) ws.
Definition no_digit_first (l : list Z) : Prop := match l with c :: _ => ~ 48 <= c <= 57 | [] => True end.

(** What a line states: nothing, or that at the NTP time [x] the difference to TAI became
    [delta].  Whatever follows the two numbers is a comment. *)
Inductive states : list Z -> option (Z * Z) -> Prop :=
| states_empty : states [] None
| states_comment : forall l, (match l with c :: _ => c <> 64 | [] => True end) -> states (35 :: l) None
| states_expiry : forall ws ds rest, blanks ws -> digits ds -> no_digit_first rest -> number ds <= 11432360836 ->
    states ([35; 64] ++ ws ++ ds ++ rest) None
| states_entry : forall lead xs ws ds rest, blanks lead -> digits xs -> blanks ws -> ws <> [] -> digits ds -> no_digit_first rest ->
    number xs <= 11432360836 -> number ds < 2 ^ 31 ->
    states (lead ++ xs ++ ws ++ ds ++ rest) (Some (number xs, number ds)).

(** The entries of a file, in its order, with times in nanoseconds since 1970. *)
Fixpoint entries (l : list (option (Z * Z))) : list (Z * Z) :=
  match l with
  | [] => []
  | Some (x, delta) :: l' => ((x - 2208988800) * 1000000000, delta) :: entries l'
  | None :: l' => entries l'
  end.

(** Lines ended by newlines, the last one possibly not. *)
Definition file_of (ls : list (list Z)) (last : list Z) : list Z := concat (map (fun l => l ++ [10]) ls) ++ last.
Definition short_line (l : list Z) : Prop := ~ In 10 l /\ ~ In 0 l /\ (length l <= 198)%nat.
