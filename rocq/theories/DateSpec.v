(** * Dates as written by hand (the forms listed at libmseed/genutils.c:1249-1254).

    Every number is any run of decimal digits. *)

From Verif Require Export TimeSpec LeapSpec.
Open Scope Z_scope.

(** A mark between two numbers: dash, comma or colon. *)
Definition mark (c : Z) : Prop := c = 45 \/ c = 44 \/ c = 58.
Definition zone (z : list Z) : Prop := z = [] \/ z = [90] \/ z = [122].

(** A time of day: hour, minute, second, nanosecond; what is left out is zero. *)
Inductive clock : list Z -> Z -> Z -> Z -> Z -> Prop :=
| clock_h : forall hs, digits hs -> clock hs (number hs) 0 0 0
| clock_m : forall hs a ms, digits hs -> mark a -> digits ms -> clock (hs ++ a :: ms) (number hs) (number ms) 0 0
| clock_s : forall hs a ms b ss, digits hs -> mark a -> digits ms -> mark b -> digits ss ->
    clock (hs ++ a :: ms ++ b :: ss) (number hs) (number ms) (number ss) 0
| clock_f : forall hs a ms b ss fs, digits hs -> mark a -> digits ms -> mark b -> digits ss ->
    digits fs -> (length fs <= 9)%nat ->
    clock (hs ++ a :: ms ++ b :: ss ++ 46 :: fs) (number hs) (number ms) (number ss)
          (number fs * 10 ^ (9 - Z.of_nat (length fs))).

(** What may follow the date: nothing, or a separator and a time of day; then perhaps a Z. *)
Inductive later (sep : Z -> Prop) : list Z -> Z -> Z -> Z -> Z -> Prop :=
| later_none : forall z, zone z -> later sep z 0 0 0 0
| later_clock : forall c t z h mi s ns, sep c -> clock t h mi s ns -> zone z -> later sep (c :: t ++ z) h mi s ns.
Definition t_or_space (c : Z) : Prop := c = 84 \/ c = 32.
Definition dash_or_slash (c : Z) : Prop := c = 45 \/ c = 47.

(** A day of a year, by month and day or by number. *)
Inductive dayref : Type := Md (m d : Z) | Yd (k : Z).

(** [date_text f y r h mi s ns]: the text writes day [r] of year [y] at that time of day. *)
Inductive date_text : list Z -> Z -> dayref -> Z -> Z -> Z -> Z -> Prop :=
| date_year : forall ys, digits ys -> length ys = 4%nat -> date_text ys (number ys) (Yd 1) 0 0 0 0
| date_md : forall ys a ms b ds tail h mi s ns, digits ys -> digits ms -> digits ds -> dash_or_slash a -> dash_or_slash b ->
    later t_or_space tail h mi s ns ->
    date_text (ys ++ a :: ms ++ b :: ds ++ tail) (number ys) (Md (number ms) (number ds)) h mi s ns
| date_ordinal : forall ys ds tail h mi s ns, digits ys -> digits ds -> later t_or_space tail h mi s ns ->
    date_text (ys ++ 45 :: ds ++ tail) (number ys) (Yd (number ds)) h mi s ns
| date_seed : forall ys ds tail h mi s ns, digits ys -> digits ds ->
    later (fun c => mark c \/ t_or_space c) tail h mi s ns ->
    date_text (ys ++ 44 :: ds ++ tail) (number ys) (Yd (number ds)) h mi s ns.

(** Day number [n] since 1970-01-01 is that day. *)
Definition names (n y : Z) (r : dayref) : Prop :=
  d_year (day_at n) = y /\
  match r with Md m d => d_mon (day_at n) = m /\ d_mday (day_at n) = d | Yd k => d_yday (day_at n) = k end.
(** A time of day, a leap second included. *)
Definition good_clock (h mi s : Z) : Prop := 0 <= h <= 23 /\ 0 <= mi <= 59 /\ 0 <= s <= 60.

(** Seconds since 1970 with a fraction: the nanoseconds without the sign. *)
Inductive seconds_text : list Z -> Z -> Prop :=
| seconds_whole : forall ss, digits ss -> seconds_text ss (number ss * 1000000000)
| seconds_frac : forall ss fs, digits ss -> digits fs -> (length fs <= 9)%nat ->
    seconds_text (ss ++ 46 :: fs) (number ss * 1000000000 + number fs * 10 ^ (9 - Z.of_nat (length fs))).

(** Characters with a place in one of the forms. *)
Definition known_char (c : Z) : Prop :=
  48 <= c <= 57 \/ c = 45 \/ c = 47 \/ c = 44 \/ c = 58 \/ c = 46 \/ c = 43 \/ c = 84 \/ c = 32 \/ c = 90 \/ c = 122.
