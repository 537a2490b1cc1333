(** * Proofs about the calendar conversions. *)
From Verif Require Import BaseLemmas TimeModel TimeSpec.
Open Scope Z_scope.

Ltac qlia := Z.to_euclidean_division_equations; lia.

(** ** Day numbers *)

Definition leaps (k : Z) : Z := k / 4 - k / 100 + k / 400.
(** Day number of January 1st. *)
Definition dby (y : Z) : Z := 365 * (y - 1970) + leaps (y - 1) - 477.

Lemma gleap_leaps y : leaps y = leaps (y - 1) + (if gleap y then 1 else 0).
Proof.
  unfold leaps, gleap.
  destruct (Z.eqb_spec (y mod 400) 0); [lia|].
  destruct (Z.eqb_spec (y mod 100) 0); [lia|].
  destruct (Z.eqb_spec (y mod 4) 0); lia.
Qed.

Lemma dby_succ y : dby (y + 1) = dby y + year_len y.
Proof.
  unfold dby, year_len. replace (y + 1 - 1) with y by lia.
  rewrite (gleap_leaps y). destruct (gleap y); lia.
Qed.

Lemma dby_cycle y k : dby (y + 400 * k) = dby y + 146097 * k.
Proof. unfold dby, leaps. lia. Qed.

Lemma gleap_cycle y k : gleap (y + 400 * k) = gleap y.
Proof.
  unfold gleap.
  replace ((y + 400 * k) mod 400) with (y mod 400) by lia.
  replace ((y + 400 * k) mod 100) with (y mod 100) by lia.
  replace ((y + 400 * k) mod 4) with (y mod 4) by lia. reflexivity.
Qed.

Lemma year_len_range y : 365 <= year_len y <= 366.
Proof. unfold year_len. destruct (gleap y); lia. Qed.

Lemma dby_lower y k : 0 <= k -> dby y + 365 * k <= dby (y + k).
Proof. intros. unfold dby, leaps. lia. Qed.

Lemma dby_mono y z : y < z -> dby y + year_len y <= dby z.
Proof.
  intros. rewrite <- dby_succ. pose proof (dby_lower (y + 1) (z - y - 1) ltac:(lia)) as D.
  replace (y + 1 + (z - y - 1)) with z in D by lia. lia.
Qed.

(** Days before a month. *)
Definition cum (y m : Z) : Z :=
  let l := if gleap y then 1 else 0 in
  if m =? 1 then 0 else if m =? 2 then 31 else if m =? 3 then 59 + l
  else if m =? 4 then 90 + l else if m =? 5 then 120 + l else if m =? 6 then 151 + l
  else if m =? 7 then 181 + l else if m =? 8 then 212 + l else if m =? 9 then 243 + l
  else if m =? 10 then 273 + l else if m =? 11 then 304 + l else 334 + l.

Lemma months12 m : 1 <= m <= 12 ->
  m = 1 \/ m = 2 \/ m = 3 \/ m = 4 \/ m = 5 \/ m = 6 \/ m = 7 \/ m = 8 \/ m = 9 \/ m = 10 \/ m = 11 \/ m = 12.
Proof. lia. Qed.

Ltac month12 H := apply months12 in H;
  destruct H as [->|[->|[->|[->|[->|[->|[->|[->|[->|[->|[->| ->]]]]]]]]]]].

Definition day_ok (d : day) : Prop :=
  valid_md (d_year d) (d_mon d) (d_mday d) /\ d_yday d = cum (d_year d) (d_mon d) + d_mday d.

Definition dn (d : day) : Z := dby (d_year d) + d_yday d - 1.

Lemma cum_succ y m : 1 <= m < 12 -> cum y (m + 1) = cum y m + month_len y m.
Proof.
  intros H. assert (H' : 1 <= m <= 12) by lia. unfold cum, month_len.
  month12 H'; try lia; simpl; destruct (gleap y); reflexivity.
Qed.

Lemma cum_12 y : cum y 12 + month_len y 12 = year_len y.
Proof. unfold cum, month_len, year_len; simpl. destruct (gleap y); reflexivity. Qed.

Lemma cum_1 y : cum y 1 = 0.
Proof. reflexivity. Qed.

Lemma month_len_range y m : 28 <= month_len y m <= 31.
Proof. unfold month_len. destruct (m =? 2), (gleap y), ((m =? 4) || (m =? 6) || (m =? 9) || (m =? 11))%bool; lia. Qed.

Lemma cum_mono y m m' : 1 <= m <= 12 -> m < m' <= 12 -> cum y m + month_len y m <= cum y m'.
Proof.
  intros H H'. assert (E : exists k, m' = m + 1 + Z.of_nat k) by (exists (Z.to_nat (m' - m - 1)); lia).
  destruct E as [k ->]. induction k as [|k IH].
  - rewrite Z.add_0_r, cum_succ by lia. lia.
  - replace (m + 1 + Z.of_nat (S k)) with (m + 1 + Z.of_nat k + 1) by lia.
    rewrite cum_succ by lia. pose proof (month_len_range y (m + 1 + Z.of_nat k)).
    specialize (IH ltac:(lia)). lia.
Qed.

Lemma cum_bound y m d : valid_md y m d -> 1 <= cum y m + d <= year_len y.
Proof.
  intros [Hm Hd]. split.
  - destruct (Z.eq_dec m 1) as [->|]; [rewrite cum_1; lia|].
    pose proof (cum_mono y 1 m ltac:(lia) ltac:(lia)). rewrite cum_1 in *. pose proof (month_len_range y 1). lia.
  - destruct (Z.eq_dec m 12) as [->|]; [pose proof (cum_12 y); lia|].
    pose proof (cum_mono y m 12 ltac:(lia) ltac:(lia)). pose proof (cum_12 y).
    pose proof (month_len_range y 12). lia.
Qed.

Lemma md_unique y m d m' d' :
  valid_md y m d -> valid_md y m' d' -> cum y m + d = cum y m' + d' -> m = m' /\ d = d'.
Proof.
  intros [Hm Hd] [Hm' Hd'] E.
  destruct (Z.lt_trichotomy m m') as [L|[L|L]].
  - pose proof (cum_mono y m m' ltac:(lia) ltac:(lia)). lia.
  - subst m'. lia.
  - pose proof (cum_mono y m' m ltac:(lia) ltac:(lia)). lia.
Qed.

Lemma day_unique d1 d2 : day_ok d1 -> day_ok d2 -> dn d1 = dn d2 -> d1 = d2.
Proof.
  intros [V1 Y1] [V2 Y2] E.
  pose proof (cum_bound _ _ _ V1) as B1. pose proof (cum_bound _ _ _ V2) as B2.
  destruct d1 as [y1 m1 q1 p1], d2 as [y2 m2 q2 p2]. unfold dn in *. cbn [d_year d_mon d_mday d_yday] in *.
  assert (y1 = y2).
  { destruct (Z.lt_trichotomy y1 y2) as [L|[L|L]]; auto;
    [pose proof (dby_mono y1 y2 L)|pose proof (dby_mono y2 y1 L)]; lia. }
  subst y2. destruct (md_unique y1 m1 q1 m2 q2); auto; try lia. subst. f_equal; lia.
Qed.

Lemma next_day_ok d : day_ok d -> day_ok (next_day d) /\ dn (next_day d) = dn d + 1.
Proof.
  intros [[Hm Hd] Hy]. destruct d as [y m q p]. unfold next_day, day_ok, dn, valid_md in *; cbn [d_year d_mon d_mday d_yday] in *.
  destruct (Z.ltb_spec q (month_len y m)); cbn [d_year d_mon d_mday d_yday]; [lia|].
  destruct (Z.ltb_spec m 12); cbn [d_year d_mon d_mday d_yday].
  - rewrite cum_succ by lia. pose proof (month_len_range y (m + 1)). lia.
  - assert (m = 12) by lia. subst m. pose proof (cum_12 y). rewrite dby_succ, cum_1.
    pose proof (month_len_range (y + 1) 1). lia.
Qed.

Lemma prev_day_ok d : day_ok d -> day_ok (prev_day d) /\ dn (prev_day d) = dn d - 1.
Proof.
  intros [[Hm Hd] Hy]. destruct d as [y m q p]. unfold prev_day, day_ok, dn, valid_md in *; cbn [d_year d_mon d_mday d_yday] in *.
  destruct (Z.ltb_spec 1 q); cbn [d_year d_mon d_mday d_yday]; [lia|].
  destruct (Z.ltb_spec 1 m); cbn [d_year d_mon d_mday d_yday].
  - pose proof (cum_succ y (m - 1) ltac:(lia)) as C. replace (m - 1 + 1) with m in C by lia.
    pose proof (month_len_range y (m - 1)). lia.
  - assert (m = 1) by lia. subst m. pose proof (cum_12 (y - 1)). pose proof (dby_succ (y - 1)) as D.
    replace (y - 1 + 1) with y in D by lia. rewrite cum_1 in *.
    change (month_len (y - 1) 12) with 31 in *. lia.
Qed.

Lemma day_at_ok n : day_ok (day_at n) /\ dn (day_at n) = n.
Proof.
  assert (B : day_ok (mk_day 1970 1 1 1) /\ dn (mk_day 1970 1 1 1) = 0)
    by (repeat split; vm_compute; congruence).
  destruct n as [|p|p]; simpl; auto.
  - induction p as [|p IH] using Pos.peano_ind; simpl.
    + destruct (next_day_ok (mk_day 1970 1 1 1)); [tauto|]. split; [auto|]. destruct B as [_ B]. lia.
    + rewrite Pos.iter_succ. destruct IH as [I1 I2].
      destruct (next_day_ok _ I1) as [N1 N2]. split; auto. rewrite N2, I2. lia.
  - induction p as [|p IH] using Pos.peano_ind; simpl.
    + destruct (prev_day_ok (mk_day 1970 1 1 1)); [tauto|]. split; [auto|]. destruct B as [_ B]. lia.
    + rewrite Pos.iter_succ. destruct IH as [I1 I2].
      destruct (prev_day_ok _ I1) as [N1 N2]. split; auto. rewrite N2, I2. lia.
Qed.

Lemma day_at_eq n d : day_ok d -> dn d = n -> day_at n = d.
Proof. intros H E. destruct (day_at_ok n). apply day_unique; auto. lia. Qed.

(** ** The code's leap year rules *)

Lemma rem0 a b : 0 < b -> (Z.rem a b =? 0) = (a mod b =? 0).
Proof.
  intros. destruct (Z.eqb_spec (Z.rem a b) 0) as [E|E]; destruct (Z.eqb_spec (a mod b) 0) as [F|F]; auto; exfalso.
  - apply Z.rem_divide in E; [|lia]. apply Z.mod_divide in E; lia.
  - apply Z.mod_divide in F; [|lia]. apply Z.rem_divide in F; lia.
Qed.

Lemma leapyear_gleap y : leapyear y = gleap y.
Proof.
  unfold leapyear, gleap. rewrite !rem0 by lia.
  destruct (Z.eqb_spec (y mod 400) 0), (Z.eqb_spec (y mod 100) 0), (Z.eqb_spec (y mod 4) 0); simpl; auto; lia.
Qed.

Lemma is_leap64_gleap n : is_leap64 n = gleap (n + 1900).
Proof.
  unfold is_leap64, gleap. rewrite !rem0 by lia. set (y := n + 1900). clearbody y.
  destruct (Z.eqb_spec (y mod 400) 0), (Z.eqb_spec (y mod 100) 0), (Z.eqb_spec (y mod 4) 0); simpl; auto; lia.
Qed.

Lemma length_of_year_ok n : length_of_year (is_leap64 n) = year_len (n + 1900).
Proof. unfold length_of_year, year_len. now rewrite is_leap64_gleap. Qed.

(** ** ms_gmtime64_r *)

Lemma years_up_ok fuel : forall m y, 0 <= m < 365 * Z.of_nat (S fuel) ->
  exists m' y', years_up fuel m y = Ok (m', y') /\ 0 <= m' < year_len (y' + 1900) /\
    dby (y' + 1900) + m' = dby (y + 1900) + m.
Proof.
  induction fuel as [|f IH]; intros m y H; cbn [years_up]; rewrite length_of_year_ok;
    pose proof (year_len_range (y + 1900)).
  - destruct (Z.leb_spec (year_len (y + 1900)) m); [lia|]. exists m, y. split; [reflexivity|lia].
  - destruct (Z.leb_spec (year_len (y + 1900)) m); [|exists m, y; split; [reflexivity|lia]].
    destruct (IH (m - year_len (y + 1900)) (y + 1) ltac:(lia)) as (m' & y' & E & R & D).
    exists m', y'. split; [exact E|split; [exact R|]].
    replace (y + 1 + 1900) with (y + 1900 + 1) in D by lia. rewrite dby_succ in D. lia.
Qed.

Lemma years_down_ok fuel : forall m y, - 365 * Z.of_nat (S fuel) <= m < 0 ->
  exists m' y', years_down fuel m y = Ok (m', y') /\ - year_len (y' + 1900) <= m' < 0 /\
    dby (y' + 1900 + 1) + m' = dby (y + 1900 + 1) + m.
Proof.
  induction fuel as [|f IH]; intros m y H; cbn [years_down]; rewrite length_of_year_ok;
    pose proof (year_len_range (y + 1900)).
  - destruct (Z.ltb_spec m (- year_len (y + 1900))); [lia|]. exists m, y. split; [reflexivity|lia].
  - destruct (Z.ltb_spec m (- year_len (y + 1900))); [|exists m, y; split; [reflexivity|lia]].
    destruct (IH (m + year_len (y + 1900)) (y - 1) ltac:(lia)) as (m' & y' & E & R & D).
    exists m', y'. split; [exact E|split; [exact R|]].
    replace (y - 1 + 1900 + 1) with (y + 1900) in D by lia. rewrite (dby_succ (y + 1900)). lia.
Qed.

Ltac eqcomp :=
  repeat match goal with |- context [?a =? ?b] =>
    let v := eval compute in (a =? b) in
    lazymatch v with true => idtac | false => idtac end;
    change (a =? b) with v end;
  cbn [orb].

Lemma months_up_ok y m : 0 <= m < year_len y ->
  exists m' mon, months_up (monthdays (gleap y)) m 0 = Ok (m', mon) /\
    valid_md y (mon + 1) (m' + 1) /\ cum y (mon + 1) + m' = m.
Proof.
  unfold year_len, valid_md, cum, month_len. destruct (gleap y); intros H; unfold monthdays; cbn [months_up];
  repeat match goal with
  | |- exists a b, (if ?d <=? ?x then _ else _) = _ /\ _ =>
      destruct (Z.leb_spec d x);
      [|do 2 eexists; split; [reflexivity|eqcomp; lia]]
  end; lia.
Qed.

Lemma months_down_ok y m : - year_len y <= m < 0 ->
  exists m' mon, months_down (rev (monthdays (gleap y))) m 11 = Ok (m', mon) /\
    valid_md y (mon + 1) (m' + 1) /\ cum y (mon + 1) + m' = m + year_len y.
Proof.
  unfold year_len, valid_md, cum, month_len. destruct (gleap y); intros H; unfold monthdays; cbn [months_down rev app];
  repeat match goal with
  | |- exists a b, (if ?x <? ?d then _ else _) = _ /\ _ =>
      destruct (Z.ltb_spec x d);
      [|do 2 eexists; split; [reflexivity|eqcomp; lia]]
  end; lia.
Qed.

Lemma julian_ok y mon : 0 <= mon <= 11 -> getZ mon (julian_days (gleap y)) = Ok (cum y (mon + 1)).
Proof.
  intros H. unfold cum. assert (H' : 1 <= mon + 1 <= 12) by lia.
  remember (mon + 1) as k. assert (mon = k - 1) by lia. subst mon. clear Heqk H.
  month12 H'; destruct (gleap y); reflexivity.
Qed.

Lemma floor_fields t :
  let (sec, min) := wrap64 (Z.rem t 60) (Z.rem (Z.quot t 60) 60) 60 in
  let (min, hour) := wrap64 min (Z.rem (Z.quot (Z.quot t 60) 60) 24) 60 in
  let (hour, tday) := wrap64 hour (Z.quot (Z.quot (Z.quot t 60) 60) 24) 24 in
  sec = t mod 60 /\ min = t / 60 mod 60 /\ hour = t / 3600 mod 24 /\ tday = t / 86400.
Proof.
  unfold wrap64.
  assert (t = 86400 * Z.quot (Z.quot (Z.quot t 60) 60) 24 + 3600 * Z.rem (Z.quot (Z.quot t 60) 60) 24
            + 60 * Z.rem (Z.quot t 60) 60 + Z.rem t 60) as E.
  { pose proof (Z.quot_rem' t 60). pose proof (Z.quot_rem' (Z.quot t 60) 60).
    pose proof (Z.quot_rem' (Z.quot (Z.quot t 60) 60) 24). lia. }
  assert (B : forall a b, 0 < b -> - b < Z.rem a b < b) by (intros; qlia).
  pose proof (B t 60 ltac:(lia)). pose proof (B (Z.quot t 60) 60 ltac:(lia)).
  pose proof (B (Z.quot (Z.quot t 60) 60) 24 ltac:(lia)).
  set (a := Z.rem t 60) in *. set (b := Z.rem (Z.quot t 60) 60) in *.
  set (c := Z.rem (Z.quot (Z.quot t 60) 60) 24) in *. set (d := Z.quot (Z.quot (Z.quot t 60) 60) 24) in *.
  clearbody a b c d. clear B.
  destruct (Z.ltb_spec a 0).
  - destruct (Z.ltb_spec (b - 1) 0).
    + destruct (Z.ltb_spec (c - 1) 0); repeat split; lia.
    + destruct (Z.ltb_spec c 0); repeat split; lia.
  - destruct (Z.ltb_spec b 0).
    + destruct (Z.ltb_spec (c - 1) 0); repeat split; lia.
    + destruct (Z.ltb_spec c 0); repeat split; lia.
Qed.

Definition tm_of_day (d : day) (h mi s w : Z) : tm :=
  mk_tm (d_year d - 1900) (d_mon d - 1) (d_mday d) (d_yday d - 1) h mi s w.

(** The year part: from a day number to the date. *)
Definition gm_date (tday : Z) : res (Z * Z * Z) :=
  let (year, m) := if 13879 <=? tday then (108, tday - 13879) else (70, tday) in
  if 0 <=? m then
    let cycles := Z.quot m days_in_gregorian_cycle in
    let m := m - cycles * days_in_gregorian_cycle in
    let year := year + cycles * 400 in
    let! (m, year) := years_up 500 m year in
    let! (m, mon) := months_up (monthdays (is_leap64 year)) m 0 in
    Ok (m, mon, year)
  else
    let year := year - 1 in
    let cycles := Z.quot m days_in_gregorian_cycle + 1 in
    let m := m - cycles * days_in_gregorian_cycle in
    let year := year + cycles * 400 in
    let! (m, year) := years_down 900 m year in
    let! (m, mon) := months_down (rev (monthdays (is_leap64 year))) m 11 in
    Ok (m, mon, year).

Lemma gm_date_ok n : exists m mon year, gm_date n = Ok (m, mon, year) /\
  valid_md (year + 1900) (mon + 1) (m + 1) /\ dby (year + 1900) + cum (year + 1900) (mon + 1) + m = n.
Proof.
  unfold gm_date.
  assert (E : exists y0 m0, (if 13879 <=? n then (108, n - 13879) else (70, n)) = (y0, m0) /\
              dby (y0 + 1900) + m0 = n /\ (m0 < 0 -> y0 = 70)).
  { destruct (Z.leb_spec 13879 n).
    - exists 108, (n - 13879). split; [reflexivity|]. split; [change (dby (108 + 1900)) with 13879; lia|lia].
    - exists 70, n. split; [reflexivity|]. split; [change (dby (70 + 1900)) with 0; lia|lia]. }
  destruct E as (y0 & m0 & -> & Hn & _). unfold days_in_gregorian_cycle.
  destruct (Z.leb_spec 0 m0) as [Hm|Hm]; cbv zeta.
  - set (c := Z.quot m0 146097). assert (Hc : 0 <= m0 - c * 146097 < 146097) by (subst c; qlia).
    destruct (years_up_ok 500 (m0 - c * 146097) (y0 + c * 400)) as (m1 & y1 & -> & R & D); [lia|].
    cbn [bind]. rewrite is_leap64_gleap.
    destruct (months_up_ok (y1 + 1900) m1 R) as (m2 & mon & -> & V & C). cbn [bind].
    exists m2, mon, y1. split; [reflexivity|split; [exact V|]].
    replace (y0 + c * 400 + 1900) with (y0 + 1900 + 400 * c) in D by lia. rewrite dby_cycle in D. lia.
  - set (c := Z.quot m0 146097 + 1). assert (Hc : - 2 * 146097 < m0 - c * 146097 < 0) by (subst c; qlia).
    destruct (years_down_ok 900 (m0 - c * 146097) (y0 - 1 + c * 400)) as (m1 & y1 & -> & R & D); [lia|].
    cbn [bind]. rewrite is_leap64_gleap.
    destruct (months_down_ok (y1 + 1900) m1 R) as (m2 & mon & -> & V & C). cbn [bind].
    exists m2, mon, y1. split; [reflexivity|split; [exact V|]].
    replace (y0 - 1 + c * 400 + 1900 + 1) with (y0 + 1900 + 400 * c) in D by lia. rewrite dby_cycle in D.
    rewrite dby_succ in D. lia.
Qed.

Lemma gmtime64_eq t : gmtime64 t =
  (let wday := Z.rem (t / 86400 + 4) 7 in
   let wday := if wday <? 0 then wday + 7 else wday in
   let! (m, mon, year) := gm_date (t / 86400) in
   if negb (swrap 32 year =? year) then Ok None
   else
     let! j := getZ mon (julian_days (is_leap64 year)) in
     Ok (Some (mk_tm year mon (m + 1) (j + m) (t / 3600 mod 24) (t / 60 mod 60) (t mod 60) wday))).
Proof.
  pose proof (floor_fields t) as F. unfold gmtime64. cbv zeta.
  destruct (wrap64 (Z.rem t 60) _ 60) as [s mi].
  destruct (wrap64 mi _ 60) as [mi' h].
  destruct (wrap64 h _ 24) as [h' td]. destruct F as (-> & -> & -> & ->).
  unfold gm_date. destruct (if 13879 <=? t / 86400 then _ else _) as [y0 m0]. reflexivity.
Qed.

(** Years of interest: |t| < 10^16 seconds keeps the year a 32-bit int. *)
Lemma gmtime64_ok t : - 10 ^ 16 < t < 10 ^ 16 ->
  gmtime64 t = Ok (Some (tm_of_day (day_at (t / 86400)) (t / 3600 mod 24) (t / 60 mod 60) (t mod 60)
                           ((t / 86400 + 4) mod 7))).
Proof.
  intros H. rewrite gmtime64_eq.
  destruct (gm_date_ok (t / 86400)) as (m & mon & year & -> & V & D). cbv zeta. cbn [bind].
  pose proof (cum_bound _ _ _ V) as B.
  assert (Y : in_s 32 year).
  { unfold in_s. unfold dby, leaps in D. pose proof (year_len_range (year + 1900)).
    clear V. change (2 ^ (32 - 1)) with 2147483648. lia. }
  rewrite swrap_id, Z.eqb_refl by (auto; lia). cbn [negb].
  rewrite is_leap64_gleap. destruct V as [V1 V2]. rewrite julian_ok by lia. cbn [bind].
  rewrite (day_at_eq _ (mk_day (year + 1900) (mon + 1) (m + 1) (cum (year + 1900) (mon + 1) + (m + 1)))).
  - unfold tm_of_day; simpl. do 3 f_equal; try lia.
    assert (forall a, (if Z.rem a 7 <? 0 then Z.rem a 7 + 7 else Z.rem a 7) = a mod 7) as W.
    { intros a. destruct (Z.ltb_spec (Z.rem a 7) 0); qlia. }
    apply W.
  - split; simpl; [split; lia|lia].
  - unfold dn; simpl. lia.
Qed.

(** ** Nanoseconds *)

Lemma nssplit_ok t : nssplit t = (t / NSTMODULUS, t mod NSTMODULUS).
Proof.
  unfold nssplit, NSTMODULUS.
  rewrite swrap_id; [|lia|unfold in_s; change (2 ^ (32 - 1)) with 2147483648; qlia].
  destruct (Z.ltb_spec t 0); [|cbn [andb]; f_equal; qlia].
  destruct (Z.eqb_spec (t - Z.quot t 1000000000 * 1000000000) 0); cbn [andb negb]; f_equal; qlia.
Qed.

Lemma in_s64 t : in_s 64 t <-> -9223372036854775808 <= t <= 9223372036854775807.
Proof. unfold in_s. change (2 ^ (64 - 1)) with 9223372036854775808. lia. Qed.

Definition fields_of (t : Z) : Z * Z * Z * Z * Z * Z :=
  let n := t / 86400000000000 in
  (d_year (day_at n), d_yday (day_at n), t / 3600000000000 mod 24, t / 60000000000 mod 60,
   t / 1000000000 mod 60, t mod 1000000000).

Lemma day_year_range n lo hi : dby lo <= n < dby hi -> lo <= d_year (day_at n) < hi.
Proof.
  intros H. destruct (day_at_ok n) as [[V Y] D]. pose proof (cum_bound _ _ _ V) as B.
  set (y := d_year (day_at n)) in *. unfold dn in D. fold y in D.
  destruct (Z.lt_ge_cases y lo) as [L|L]; [pose proof (dby_mono y lo L); lia|].
  split; [lia|]. destruct (Z.lt_ge_cases y hi) as [K|K]; [lia|].
  pose proof (dby_lower hi (y - hi) ltac:(lia)) as M. replace (hi + (y - hi)) with y in M by lia. lia.
Qed.

Lemma div_div2 t a b : 0 < a -> 0 < b -> t / a / b = t / (a * b).
Proof. intros. apply Z.div_div; lia. Qed.

Lemma nstime2time_ok t : in_s 64 t -> nstime2time t = Ok (fields_of t).
Proof.
  intros H. apply in_s64 in H. unfold nstime2time. rewrite nssplit_ok. unfold NSTMODULUS.
  rewrite gmtime64_ok by lia. cbn [bind]. unfold tm_of_day, fields_of; cbn [tm_year tm_yday tm_hour tm_min tm_sec].
  rewrite !div_div2 by lia. change (1000000000 * 86400) with 86400000000000.
  change (1000000000 * 3600) with 3600000000000. change (1000000000 * 60) with 60000000000.
  set (n := t / 86400000000000).
  assert (1677 <= d_year (day_at n) < 2263) as Y.
  { apply day_year_range. subst n.
    replace (dby 1677) with (-107015) by reflexivity. replace (dby 2263) with 107016 by reflexivity.
    lia. }
  destruct (day_at_ok n) as [[V YD] D]. pose proof (cum_bound _ _ _ V) as B. pose proof (year_len_range (d_year (day_at n))).
  set (yy := d_year (day_at n)) in *. set (yd := d_yday (day_at n)) in *. clearbody yy yd.
  rewrite !uwrap_id; [repeat f_equal; lia|..]; unfold in_u; lia.
Qed.

Lemma ild_ok y :
  (let shortyear := y - 1900 in
   let a4 := Z.shiftr shortyear 2 + 475 - (if Z.land shortyear 3 =? 0 then 1 else 0) in
   let a100 := Z.quot a4 25 - (if Z.rem a4 25 <? 0 then 1 else 0) in
   let a400 := Z.shiftr a100 2 in
   (a4 - 492) - (a100 - 19) + (a400 - 4)) = leaps (y - 1) - 477.
Proof.
  cbv zeta. rewrite !Z.shiftr_div_pow2 by lia. change (2 ^ 2) with 4.
  change 3 with (Z.ones 2). rewrite Z.land_ones by lia. change (2 ^ 2) with 4.
  assert (A : (y - 1900) / 4 + 475 - (if (y - 1900) mod 4 =? 0 then 1 else 0) = (y - 1) / 4).
  { destruct (Z.eqb_spec ((y - 1900) mod 4) 0); lia. }
  rewrite A. set (a4 := (y - 1) / 4).
  assert (B : Z.quot a4 25 - (if Z.rem a4 25 <? 0 then 1 else 0) = a4 / 25).
  { destruct (Z.ltb_spec (Z.rem a4 25) 0); qlia. }
  rewrite B. subst a4. unfold leaps. rewrite !div_div2 by lia. change (4 * 25 * 4) with 400. change (4 * 25) with 100. lia.
Qed.

Lemma time2nstime_int_ok mode y d h mi s ns :
  time2nstime_int mode y d h mi s ns =
  (let! p := sarith mode 64 (epoch_ns (dby y + d - 1) h mi s 0) in sarith mode 64 (p + ns)).
Proof.
  unfold time2nstime_int. pose proof (ild_ok y) as I. cbv zeta in *. rewrite I.
  f_equal. f_equal. unfold epoch_ns, dby, NSTMODULUS. lia.
Qed.

Lemma time2nstime_range mode y d h mi s ns :
  1678 <= y <= 2262 -> 1 <= d <= year_len y -> 0 <= h <= 23 -> 0 <= mi <= 59 -> 0 <= s <= 60 -> 0 <= ns <= 999999999 ->
  time2nstime mode y d h mi s ns = time2nstime_int mode y d h mi s ns.
Proof.
  intros. unfold time2nstime, validyear, validyearday, validhour, validmin, validsec, validnanosec.
  rewrite leapyear_gleap. unfold year_len in *.
  repeat match goal with |- context [if negb ?b then _ else _] =>
    replace b with true by (destruct (gleap y); lia); cbn [negb] end.
  reflexivity.
Qed.

Lemma year_of_day y d : 1 <= d <= year_len y -> d_year (day_at (dby y + d - 1)) = y /\ d_yday (day_at (dby y + d - 1)) = d.
Proof.
  intros H. destruct (day_at_ok (dby y + d - 1)) as [[V Y] D]. pose proof (cum_bound _ _ _ V) as B.
  rewrite <- Y in B. unfold dn in D.
  set (q := day_at (dby y + d - 1)) in *. assert (d_year q = y).
  { destruct (Z.lt_trichotomy (d_year q) y) as [L|[L|L]]; auto; exfalso; pose proof (dby_mono _ _ L); lia. }
  split; auto. rewrite H0 in *. lia.
Qed.

(** The value of a calendar time. *)
Definition cal_ns (y d h mi s ns : Z) : Z := epoch_ns (dby y + d - 1) h mi s ns.

Lemma time2nstime_ok mode y d h mi s ns :
  1678 <= y <= 2262 -> cal_ok y d h mi s ns -> in_s 64 (cal_ns y d h mi s ns) ->
  time2nstime mode y d h mi s ns = Ok (cal_ns y d h mi s ns).
Proof.
  intros Hy (Hd & Hh & Hm & Hs & Hn) R. rewrite time2nstime_range by lia. rewrite time2nstime_int_ok.
  unfold cal_ns in *. apply in_s64 in R.
  assert (epoch_ns (dby y + d - 1) h mi s ns = epoch_ns (dby y + d - 1) h mi s 0 + ns) as E by (unfold epoch_ns; lia).
  rewrite sarith_ok.
  - cbn [bind]. rewrite <- E. apply sarith_ok. now apply in_s64.
  - apply in_s64. split; [|lia].
    assert (dby 1678 <= dby y).
    { destruct (Z.eq_dec y 1678) as [->|]; [lia|]. pose proof (dby_mono 1678 y ltac:(lia)). pose proof (year_len_range 1678). lia. }
    change (dby 1678) with (-106650) in *. unfold epoch_ns in *. lia.
Qed.

Lemma fields_of_cal y d h mi s ns : cal_ok y d h mi s ns -> fields_of (cal_ns y d h mi s ns) = (y, d, h, mi, s, ns).
Proof.
  intros (Hd & Hh & Hm & Hs & Hn). unfold fields_of, cal_ns. set (N := dby y + d - 1).
  replace (epoch_ns N h mi s ns / 86400000000000) with N by (unfold epoch_ns; lia).
  destruct (year_of_day y d Hd) as [E1 E2]. fold N in E1, E2. rewrite E1, E2. clear E1 E2.
  unfold epoch_ns. clearbody N. clear Hd. repeat f_equal; lia.
Qed.

Lemma fields_of_ok t : exists y d h mi s ns, fields_of t = (y, d, h, mi, s, ns) /\
  cal_ok y d h mi s ns /\ cal_ns y d h mi s ns = t.
Proof.
  unfold fields_of. set (n := t / 86400000000000).
  do 6 eexists. split; [reflexivity|].
  destruct (day_at_ok n) as [[V Y] D]. pose proof (cum_bound _ _ _ V) as B. rewrite <- Y in B. unfold dn in D.
  split; [unfold cal_ok; repeat split; lia|]. unfold cal_ns, epoch_ns. rewrite D. subst n. clear. lia.
Qed.

Lemma dby_le a b : a <= b -> dby a <= dby b.
Proof. intros. unfold dby, leaps. lia. Qed.

(** Theorem lemmas. *)
Lemma epoch_cal_epoch mode t : in_s 64 t -> -9214560000000000000 <= t ->
  exists y d h mi s ns, nstime2time t = Ok (y, d, h, mi, s, ns) /\ 1678 <= y <= 2262 /\ cal_ok y d h mi s ns /\
    time2nstime mode y d h mi s ns = Ok t.
Proof.
  intros H L. rewrite nstime2time_ok by auto. 
  destruct (fields_of_ok t) as (y & d & h & mi & s & ns & E & C & N). exists y, d, h, mi, s, ns.
  rewrite E. split; [reflexivity|].
  assert (Y : 1678 <= y < 2263).
  { unfold fields_of in E. injection E as <- _ _ _ _ _. apply in_s64 in H. apply day_year_range.
    replace (dby 1678) with (-106650) by reflexivity. replace (dby 2263) with 107016 by reflexivity. lia. }
  split; [lia|split; [exact C|]]. rewrite time2nstime_ok; [now rewrite N|lia|exact C|now rewrite N].
Qed.

Lemma cal_epoch_cal mode y d h mi s ns : 1678 <= y <= 2262 -> cal_ok y d h mi s ns ->
  in_s 64 (cal_ns y d h mi s ns) ->
  exists t, time2nstime mode y d h mi s ns = Ok t /\ nstime2time t = Ok (y, d, h, mi, s, ns).
Proof.
  intros Hy C R. exists (cal_ns y d h mi s ns). split; [now apply time2nstime_ok|].
  rewrite nstime2time_ok by auto. now rewrite fields_of_cal.
Qed.

Lemma fields_range t : in_s 64 t -> exists y d h mi s ns,
  nstime2time t = Ok (y, d, h, mi, s, ns) /\ 1677 <= y <= 2262 /\ cal_ok y d h mi s ns.
Proof.
  intros H. rewrite nstime2time_ok by auto.
  destruct (fields_of_ok t) as (y & d & h & mi & s & ns & E & C & N). exists y, d, h, mi, s, ns.
  rewrite E. split; [reflexivity|]. split; [|exact C].
  unfold fields_of in E. injection E as <- _ _ _ _ _. apply in_s64 in H.
  enough (1677 <= d_year (day_at (t / 86400000000000)) < 2263) by lia. apply day_year_range.
  replace (dby 1677) with (-107015) by reflexivity. replace (dby 2263) with 107016 by reflexivity. lia.
Qed.

(** Day number of (year, day of year) as counted from 1970-01-01. *)
Lemma counted_day n y d : 1 <= d <= year_len y ->
  d_year (day_at n) = y -> d_yday (day_at n) = d -> n = dby y + d - 1.
Proof.
  intros H <- <-. destruct (day_at_ok n) as [_ D]. unfold dn in D. lia.
Qed.

Lemma counting_lemma mode n h mi s ns : 1678 <= d_year (day_at n) <= 2262 ->
  0 <= h <= 23 -> 0 <= mi <= 59 -> 0 <= s <= 60 -> 0 <= ns <= 999999999 -> in_s 64 (epoch_ns n h mi s ns) ->
  time2nstime mode (d_year (day_at n)) (d_yday (day_at n)) h mi s ns = Ok (epoch_ns n h mi s ns).
Proof.
  intros Hy Hh Hm Hs Hn R. destruct (day_at_ok n) as [[V Y] D]. pose proof (cum_bound _ _ _ V) as B.
  rewrite <- Y in B. rewrite time2nstime_range by lia. rewrite time2nstime_int_ok.
  unfold dn in D. rewrite D. apply in_s64 in R.
  assert (epoch_ns n h mi s ns = epoch_ns n h mi s 0 + ns) as E by (unfold epoch_ns; lia).
  rewrite sarith_ok.
  - cbn [bind]. rewrite <- E. apply sarith_ok. now apply in_s64.
  - apply in_s64. split; [|lia].
    pose proof (dby_le 1678 (d_year (day_at n)) ltac:(lia)).
    change (dby 1678) with (-106650) in *. unfold epoch_ns in *. lia.
Qed.

Lemma day_exists y d : 1 <= d <= year_len y -> exists n, d_year (day_at n) = y /\ d_yday (day_at n) = d.
Proof. intros H. exists (dby y + d - 1). now apply year_of_day. Qed.

Lemma cal_ns_mono y d h mi s ns y' d' h' mi' s' ns' :
  cal_ok y d h mi s ns -> cal_ok y' d' h' mi' s' ns' ->
  lex_lt [y; d; h; mi; s; ns] [y'; d'; h'; mi'; s'; ns'] ->
  cal_ns y d h mi s ns < cal_ns y' d' h' mi' s' ns'.
Proof.
  intros (Hd & Hh & Hm & Hs & Hn) (Hd' & Hh' & Hm' & Hs' & Hn') L. unfold cal_ns, epoch_ns. cbn [lex_lt] in L.
  destruct L as [L|[<- L]].
  - pose proof (dby_mono y y' L). lia.
  - lia.
Qed.

Lemma mono_lemma mode y d h mi s ns y' d' h' mi' s' ns' t t' :
  1678 <= y <= 2262 -> 1678 <= y' <= 2262 ->
  cal_ok y d h mi s ns -> cal_ok y' d' h' mi' s' ns' ->
  in_s 64 (cal_ns y d h mi s ns) -> in_s 64 (cal_ns y' d' h' mi' s' ns') ->
  time2nstime mode y d h mi s ns = Ok t -> time2nstime mode y' d' h' mi' s' ns' = Ok t' ->
  lex_lt [y; d; h; mi; s; ns] [y'; d'; h'; mi'; s'; ns'] -> t < t'.
Proof.
  intros Y Y' C C' R R' E E' L. rewrite time2nstime_ok in E, E' by auto.
  injection E as <-. injection E' as <-. now apply cal_ns_mono.
Qed.

(** ** Months *)

Lemma doy2md_loop_ok y yd : 1 <= yd <= year_len y ->
  exists m d, doy2md_loop 0 (monthdays (gleap y)) yd = Some (m, d) /\ valid_md y m d /\ cum y m + d = yd.
Proof.
  unfold year_len, valid_md, cum, month_len. destruct (gleap y); intros H; unfold monthdays; cbn [doy2md_loop];
  repeat match goal with
  | |- exists a b, (if ?x <=? 0 then _ else _) = _ /\ _ =>
      destruct (Z.leb_spec x 0);
      [do 2 eexists; split; [reflexivity|eqcomp; lia]|]
  end; lia.
Qed.

Lemma md2doy_loop_ok y m d : 1 <= m <= 12 -> md2doy_loop 0 (m - 1) (monthdays (gleap y)) d 0 = cum y m + d.
Proof. intros H. unfold cum. month12 H; destruct (gleap y); reflexivity. Qed.

Lemma monthdays_get y m : 1 <= m <= 12 -> getZ (m - 1) (monthdays (gleap y)) = Ok (month_len y m).
Proof. intros H. unfold month_len. month12 H; destruct (gleap y); reflexivity. Qed.

Lemma doy2md_ok y yd : 1678 <= y <= 2262 -> 1 <= yd <= year_len y ->
  exists m d, doy2md y yd = Ok (m, d) /\ valid_md y m d /\ cum y m + d = yd.
Proof.
  intros Hy Hd. unfold doy2md, validyear, validyearday. rewrite leapyear_gleap.
  replace ((1678 <=? y) && (y <=? 2262)) with true by lia.
  replace ((1 <=? yd) && (yd <=? 365 + (if gleap y then 1 else 0))) with true
    by (unfold year_len in Hd; destruct (gleap y); lia). cbn [negb].
  destruct (doy2md_loop_ok y yd Hd) as (m & d & -> & V). exists m, d. auto.
Qed.

Lemma md2doy_eq y m d : 1678 <= y <= 2262 -> 1 <= m <= 12 ->
  md2doy y m d = if (0 <=? d) && (d <=? month_len y m) then Ok (cum y m + d) else Err (-1).
Proof.
  intros Hy Hm. unfold md2doy, validyear, validmonth, validmonthday. rewrite leapyear_gleap.
  replace ((1678 <=? y) && (y <=? 2262)) with true by lia.
  replace ((1 <=? m) && (m <=? 12)) with true by lia. cbn [negb].
  destruct (0 <=? d); cbn [andb bind]; [|reflexivity]. rewrite monthdays_get by auto. cbn [bind].
  destruct (d <=? month_len y m); cbn [negb]; [|reflexivity]. now rewrite md2doy_loop_ok.
Qed.

Lemma md_doy_md y m d : 1678 <= y <= 2262 -> valid_md y m d ->
  exists yd, md2doy y m d = Ok yd /\ 1 <= yd <= year_len y /\ doy2md y yd = Ok (m, d).
Proof.
  intros Hy V. pose proof (cum_bound _ _ _ V) as B. exists (cum y m + d).
  split.
  - destruct V. rewrite md2doy_eq by auto. replace ((0 <=? d) && (d <=? month_len y m)) with true by lia. reflexivity.
  - split; [auto|]. destruct (doy2md_ok y _ Hy B) as (m' & d' & -> & V' & E).
    destruct (md_unique y m' d' m d); auto. now subst.
Qed.

Lemma doy_md_doy y yd : 1678 <= y <= 2262 -> 1 <= yd <= year_len y ->
  exists m d, doy2md y yd = Ok (m, d) /\ valid_md y m d /\ md2doy y m d = Ok yd.
Proof.
  intros Hy H. destruct (doy2md_ok y yd Hy H) as (m & d & E & V & C). exists m, d. repeat split; auto; try apply V.
  destruct V. rewrite md2doy_eq by auto. replace ((0 <=? d) && (d <=? month_len y m)) with true by lia. now rewrite C.
Qed.

Lemma doy2md_rejects y yd : ~ (1678 <= y <= 2262 /\ 1 <= yd <= year_len y) -> doy2md y yd = Err (-1).
Proof.
  intros H. unfold doy2md, validyear, validyearday. rewrite leapyear_gleap.
  destruct ((1678 <=? y) && (y <=? 2262)) eqn:E1; cbn [negb]; [|reflexivity].
  replace ((1 <=? yd) && (yd <=? 365 + (if gleap y then 1 else 0))) with false
    by (unfold year_len in H; destruct (gleap y); lia). reflexivity.
Qed.

Lemma md2doy_rejects y m d : ~ (1678 <= y <= 2262 /\ valid_md y m d) -> d <> 0 -> md2doy y m d = Err (-1).
Proof.
  intros H D. destruct ((1678 <=? y) && (y <=? 2262)) eqn:E1.
  - destruct ((1 <=? m) && (m <=? 12)) eqn:E2.
    + rewrite md2doy_eq by lia. unfold valid_md in H. replace ((0 <=? d) && (d <=? month_len y m)) with false by lia. reflexivity.
    + unfold md2doy, validyear, validmonth. rewrite E1, E2. reflexivity.
  - unfold md2doy, validyear. rewrite E1. reflexivity.
Qed.

(** The (month, day) found is the one on which the counted calendar has that day
    of year. *)
Lemma doy2md_calendar n : 1678 <= d_year (day_at n) <= 2262 ->
  doy2md (d_year (day_at n)) (d_yday (day_at n)) = Ok (d_mon (day_at n), d_mday (day_at n)).
Proof.
  intros Hy. destruct (day_at_ok n) as [[V Y] D]. pose proof (cum_bound _ _ _ V) as B. rewrite <- Y in B.
  destruct (doy2md_ok _ _ Hy B) as (m & d & -> & V' & C). 
  destruct (md_unique _ m d (d_mon (day_at n)) (d_mday (day_at n)) V' V); [lia|]. now subst.
Qed.

Lemma sarith_strict w v t : sarith Strict w v = Ok t -> t = v /\ in_s w v.
Proof.
  unfold sarith. destruct (in_sb w v) eqn:E; [|discriminate]. intros [= <-].
  split; auto. now apply in_sb_spec.
Qed.

Lemma time2nstime_strict y d h mi s ns t :
  1678 <= y <= 2262 -> cal_ok y d h mi s ns -> time2nstime Strict y d h mi s ns = Ok t ->
  t = cal_ns y d h mi s ns /\ in_s 64 t.
Proof.
  intros Hy (Hd & Hh & Hm & Hs & Hn). rewrite time2nstime_range by lia. rewrite time2nstime_int_ok.
  intros E. apply bind_ok in E. destruct E as (p & E1 & E2).
  apply sarith_strict in E1. destruct E1 as [-> _]. apply sarith_strict in E2. destruct E2 as [-> R].
  split; [unfold cal_ns, epoch_ns; lia|exact R].
Qed.

Lemma cal_epoch_cal_strict y d h mi s ns t : 1678 <= y <= 2262 -> cal_ok y d h mi s ns ->
  time2nstime Strict y d h mi s ns = Ok t -> in_s 64 t /\ nstime2time t = Ok (y, d, h, mi, s, ns).
Proof.
  intros Hy C E. destruct (time2nstime_strict _ _ _ _ _ _ _ Hy C E) as [-> R]. split; [auto|].
  rewrite nstime2time_ok by auto. now rewrite fields_of_cal.
Qed.

Lemma no_overflow mode y d h mi s ns : 1678 <= y -> cal_ok y d h mi s ns ->
  lex_lt [y; d; h; mi; s; ns] [2262; 101; 23; 47; 16; 854775808] ->
  exists t, time2nstime mode y d h mi s ns = Ok t.
Proof.
  intros Hy C L. exists (cal_ns y d h mi s ns).
  assert (y <= 2262) by (cbn [lex_lt] in L; lia).
  apply time2nstime_ok; auto.
  assert (cal_ns y d h mi s ns < cal_ns 2262 101 23 47 16 854775808).
  { apply cal_ns_mono; auto. unfold cal_ok. change (year_len 2262) with 365. lia. }
  change (cal_ns 2262 101 23 47 16 854775808) with 9223372036854775808 in *.
  apply in_s64. destruct C as (Hd & Hh & Hm & Hs & Hn).
  pose proof (dby_le 1678 y Hy). change (dby 1678) with (-106650) in *.
  unfold cal_ns, epoch_ns in *. lia.
Qed.

Lemma mono_strict y d h mi s ns y' d' h' mi' s' ns' t t' :
  1678 <= y <= 2262 -> 1678 <= y' <= 2262 ->
  cal_ok y d h mi s ns -> cal_ok y' d' h' mi' s' ns' ->
  time2nstime Strict y d h mi s ns = Ok t -> time2nstime Strict y' d' h' mi' s' ns' = Ok t' ->
  (lex_lt [y; d; h; mi; s; ns] [y'; d'; h'; mi'; s'; ns'] <-> t < t').
Proof.
  intros Y Y' C C' E E'.
  destruct (time2nstime_strict _ _ _ _ _ _ _ Y C E) as [-> _].
  destruct (time2nstime_strict _ _ _ _ _ _ _ Y' C' E') as [-> _].
  split; [now apply cal_ns_mono|]. intros L.
  assert (T : lex_lt [y; d; h; mi; s; ns] [y'; d'; h'; mi'; s'; ns'] \/
          (y, d, h, mi, s, ns) = (y', d', h', mi', s', ns') \/
          lex_lt [y'; d'; h'; mi'; s'; ns'] [y; d; h; mi; s; ns]).
  { cbn [lex_lt]. clear.
    destruct (Z.lt_trichotomy y y') as [|[->|]]; try tauto.
    destruct (Z.lt_trichotomy d d') as [|[->|]]; try tauto.
    destruct (Z.lt_trichotomy h h') as [|[->|]]; try tauto.
    destruct (Z.lt_trichotomy mi mi') as [|[->|]]; try tauto.
    destruct (Z.lt_trichotomy s s') as [|[->|]]; try tauto.
    destruct (Z.lt_trichotomy ns ns') as [|[->|]]; tauto. }
  destruct T as [T|[T|T]]; auto.
  - injection T as <- <- <- <- <- <-. lia.
  - pose proof (cal_ns_mono _ _ _ _ _ _ _ _ _ _ _ _ C' C T). lia.
Qed.

Lemma counting_strict n h mi s ns t : 1678 <= d_year (day_at n) <= 2262 ->
  0 <= h <= 23 -> 0 <= mi <= 59 -> 0 <= s <= 60 -> 0 <= ns <= 999999999 ->
  time2nstime Strict (d_year (day_at n)) (d_yday (day_at n)) h mi s ns = Ok t -> t = epoch_ns n h mi s ns.
Proof.
  intros Hy Hh Hm Hs Hn. destruct (day_at_ok n) as [[V Y] D]. pose proof (cum_bound _ _ _ V) as B.
  rewrite <- Y in B. rewrite time2nstime_range by lia. rewrite time2nstime_int_ok.
  unfold dn in D. rewrite D. intros E. apply bind_ok in E. destruct E as (p & E1 & E2).
  apply sarith_strict in E1. destruct E1 as [-> _]. apply sarith_strict in E2. destruct E2 as [-> R].
  unfold epoch_ns. lia.
Qed.

Lemma gmtime_fields t : - 10 ^ 16 < t < 10 ^ 16 ->
  exists r, gmtime64 t = Ok (Some r) /\
    tm_year r + 1900 = d_year (day_at (t / 86400)) /\ tm_mon r + 1 = d_mon (day_at (t / 86400)) /\
    tm_mday r = d_mday (day_at (t / 86400)) /\ tm_yday r + 1 = d_yday (day_at (t / 86400)) /\
    t = ((t / 86400 * 24 + tm_hour r) * 60 + tm_min r) * 60 + tm_sec r /\
    0 <= tm_hour r <= 23 /\ 0 <= tm_min r <= 59 /\ 0 <= tm_sec r <= 59 /\
    tm_wday r = (t / 86400 + 4) mod 7.
Proof.
  intros H. eexists. split; [apply gmtime64_ok, H|].
  cbn [tm_of_day tm_year tm_mon tm_mday tm_yday tm_hour tm_min tm_sec tm_wday]. clear H.
  repeat split; lia.
Qed.
