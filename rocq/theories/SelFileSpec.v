(** * Selection files (the two line forms described at libmseed/selection.c:396-409). *)

From Verif Require Export Base SelSpec StrSpec DateSpec.
Open Scope Z_scope.

(** Words between runs of white space. *)
Definition white (c : Z) : Prop := c = 32 \/ 9 <= c <= 13.
Definition word (w : list Z) : Prop := w <> [] /\ Forall (fun c => ~ white c) w.
Definition begins_white (l : list Z) : Prop := match l with [] => True | c :: _ => white c end.
Inductive spaced : list (list Z) -> list Z -> Prop :=
| spaced_end : forall ws, Forall white ws -> spaced [] ws
| spaced_word : forall ws w fs rest, Forall white ws -> word w -> begins_white rest -> spaced fs rest ->
    spaced (w :: fs) (ws ++ w ++ rest).

(** A field that begins like a date: four digits, one of - / and comma, a digit. *)
Definition date_shaped (f : list Z) : Prop :=
  exists a b c d e g r, f = a :: b :: c :: d :: e :: g :: r /\
    Forall (fun x => 48 <= x <= 57) [a; b; c; d; g] /\ (e = 45 \/ e = 47 \/ e = 44).

(** The instant a field writes. *)
Definition writes (f : list Z) (t : Z) : Prop :=
  date_shaped f /\
  exists y r h mi s ns n, date_text f y r h mi s ns /\ (length f <= 32)%nat /\ names n y r /\ 1678 <= y <= 2262 /\
    good_clock h mi s /\ in_s 64 (epoch_ns n h mi s ns) /\ t = epoch_ns n h mi s ns /\ ~ open t.

(** A version number, and a field of the other form that is none. *)
Definition version (f : list Z) (v : Z) : Prop := digits f /\ v = number f /\ v <= 255.
Definition no_number (f : list Z) : Prop := exists c, In c f /\ ~ 48 <= c <= 57.

(** The pattern of source identifiers for four codes; "--" is the empty location, and a
    channel of three characters has its parts separated. *)
Definition codes_pattern (net sta loc chan p : list Z) : Prop :=
  Forall (fun f => (length f <= 19)%nat) [net; sta; loc; chan] /\ Forall text [net; sta; loc; chan] /\
  p = sid_text net sta (if list_eq_dec Z.eq_dec loc [45; 45] then [] else loc) (extended_form chan) /\ (length p <= 99)%nat.

(** What the fields of a line ask for: pattern, window and version. *)
Inductive asks : list (list Z) -> list Z -> Z * Z -> Z -> Prop :=
| asks_sid : forall p, asks [p] p (NSTUNSET, NSTUNSET) 0
| asks_from : forall p a st, writes a st -> asks [p; a] p (st, NSTUNSET) 0
| asks_window : forall p a b st en, writes a st -> writes b en -> asks [p; a; b] p (st, en) 0
| asks_version : forall p a b c st en v, writes a st -> writes b en -> version c v -> asks [p; a; b; c] p (st, en) v
| asks_codes : forall net sta loc chan p, codes_pattern net sta loc chan p -> ~ date_shaped sta -> ~ date_shaped loc ->
    asks [net; sta; loc; chan] p (NSTUNSET, NSTUNSET) 0
| asks_codes_version : forall net sta loc chan q p v, codes_pattern net sta loc chan p -> ~ date_shaped sta -> ~ date_shaped loc ->
    (version q v \/ no_number q /\ v = 0) -> asks [net; sta; loc; chan; q] p (NSTUNSET, NSTUNSET) v
| asks_codes_from : forall net sta loc chan q a p v st, codes_pattern net sta loc chan p -> ~ date_shaped sta -> ~ date_shaped loc ->
    (version q v \/ no_number q /\ v = 0) -> writes a st -> asks [net; sta; loc; chan; q; a] p (st, NSTUNSET) v
| asks_codes_window : forall net sta loc chan q a b p v st en, codes_pattern net sta loc chan p -> ~ date_shaped sta -> ~ date_shaped loc ->
    (version q v \/ no_number q /\ v = 0) -> writes a st -> writes b en -> asks [net; sta; loc; chan; q; a; b] p (st, en) v.

(** What a line states: nothing (blank or comment), or one selection. *)
Inductive states_sel : list Z -> option (list Z * (Z * Z) * Z) -> Prop :=
| states_blank : forall ws, Forall white ws -> states_sel ws None
| states_remark : forall ws l, Forall white ws -> states_sel (ws ++ 35 :: l) None
| states_asks : forall fs l p w v, spaced fs l -> (match fs with (c :: _) :: _ => c <> 35 | _ => False end) -> asks fs p w v ->
    states_sel l (Some (p, w, v)).

Fixpoint asked (l : list (option (list Z * (Z * Z) * Z))) : list (list Z * (Z * Z) * Z) :=
  match l with
  | [] => []
  | Some r :: l' => r :: asked l'
  | None :: l' => asked l'
  end.

(** The selections of a sequence added to a list, one after another. *)
Definition extended (l : list sel) (rs : list (list Z * (Z * Z) * Z)) : list sel :=
  fold_left (fun l r => let '(p, (a, b), v) := r in addselect l p a b v) rs l.

(** A line of either form whose version is over 255. *)
Definition big_version (l : list Z) : Prop := exists fs, spaced fs l /\
  (match fs with (c :: _) :: _ => c <> 35 | _ => False end) /\
  ((exists p a b v st en, fs = [p; a; b; v] /\ writes a st /\ writes b en /\ digits v /\ 255 < number v) \/
   (exists net sta loc chan q more, fs = [net; sta; loc; chan; q] ++ more /\ digits q /\ 255 < number q /\
      ~ date_shaped sta /\ ~ date_shaped loc /\
      (more = [] \/ (exists a st, more = [a] /\ writes a st) \/ (exists a b st en, more = [a; b] /\ writes a st /\ writes b en)))).

(** A selection that a match can be made with. *)
Definition good_request (r : list Z * (Z * Z) * Z) : Prop :=
  let '(p, w, v) := r in documented p /\ (length p <= 99)%nat /\ wellformed_window w /\ 0 <= v.

(** A line of neither form: not one, four or five fields, and a field in the place of a
    date that is none. *)
Definition date_or_not (a : list Z) : Prop := ~ date_shaped a \/ exists t, writes a t.
Definition neither (l : list Z) : Prop := exists fs, spaced fs l /\
  (match fs with (c :: _) :: _ => c <> 35 | _ => False end) /\
  ((exists p a, fs = [p; a] /\ ~ date_shaped a) \/
   (exists p a b, fs = [p; a; b] /\ date_or_not a /\ date_or_not b /\ (~ date_shaped a \/ ~ date_shaped b)) \/
   (exists net sta loc chan q a, fs = [net; sta; loc; chan; q; a] /\ ~ date_shaped sta /\ ~ date_shaped loc /\ ~ date_shaped a) \/
   (exists net sta loc chan q a b, fs = [net; sta; loc; chan; q; a; b] /\ ~ date_shaped sta /\ ~ date_shaped loc /\
      date_or_not a /\ date_or_not b /\ (~ date_shaped a \/ ~ date_shaped b))).
