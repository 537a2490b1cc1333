(** * Reading dates as written by hand. *)

From Verif Require Import BaseLemmas FloatOps TimeModel TimeSpec TimeProof TimeStrModel TimeStrSpec TimeStrProof LeapProof DateSpec.
Open Scope Z_scope.

(** ** Digits *)

Lemma digits_is ds : digits ds -> Forall (fun c => is_digit c = true) ds.
Proof. intros [_ F]. eapply Forall_impl; [|exact F]. intros c C. unfold is_digit. cbn beta in C. lia. Qed.

Lemma digits_pad ds : Forall (fun c => 48 <= c <= 57) ds ->
  ds = pad (length ds) (number ds) /\ 0 <= number ds < 10 ^ Z.of_nat (length ds).
Proof.
  induction ds as [|c ds IH] using rev_ind; intros F.
  - split; [reflexivity|]. cbn. lia.
  - apply Forall_app in F as [F C]. inversion C as [|? ? C1 _]; subst. destruct (IH F) as [E R].
    assert (N : number (ds ++ [c]) = 10 * number ds + (c - 48)) by (unfold number; rewrite fold_left_app; reflexivity).
    rewrite app_length. cbn [length]. rewrite Nat.add_1_r. rewrite N, pow10_S. split; [|lia].
    cbn [pad]. replace ((10 * number ds + (c - 48)) / 10) with (number ds) by lia. rewrite <- E. f_equal. f_equal. lia.
Qed.

Lemma digits_nonneg ds : digits ds -> 0 <= number ds.
Proof. intros [_ F]. now apply number_nonneg. Qed.

Lemma int_digits ds rest : digits ds -> no_digit_first rest -> number ds < 2147483648 ->
  scan_int 32 (ds ++ rest) = Ok (Some (number ds, rest)).
Proof. intros D R L. apply (scan_number 32 [] ds rest); [constructor|exact D|exact R|lia|exact L]. Qed.

Lemma set_digits set c ds rest : existsb (Z.eqb c) set = true -> digitless set -> digits ds ->
  scan_set set (c :: ds ++ rest) = Some (ds ++ rest).
Proof.
  intros C D [N F]. unfold scan_set. rewrite C. cbn [drop_set]. rewrite C. destruct ds as [|d ds]; [congruence|].
  inversion F; subst. cbn [app drop_set]. rewrite (D d) by (unfold is_digit; lia). reflexivity.
Qed.

Lemma lf_digits fs rest : digits fs -> (length fs <= 9)%nat -> plain_end rest ->
  exists q, scan_lf (46 :: fs ++ rest) = Ok (Some (q, rest)) /\
    fsec_nanos (Some q) = Ok (number fs * 10 ^ (9 - Z.of_nat (length fs))) /\
    (Qeq_bool q 0 = true -> number fs * 10 ^ (9 - Z.of_nat (length fs)) = 0) /\
    exists z, fsec_scaled q = Ok z /\ to_int32 z = Ok (number fs * 10 ^ (9 - Z.of_nat (length fs))).
Proof.
  intros [N F] L P. destruct (digits_pad fs F) as [E R]. 
  destruct (scan_lf_frac (length fs) (number fs) rest) as (q & Q); auto.
  - destruct fs; [congruence|cbn [length]; lia].
  - exists q. rewrite <- E in Q. exact Q.
Qed.

Lemma frac_range fs : digits fs -> (length fs <= 9)%nat -> 0 <= number fs * 10 ^ (9 - Z.of_nat (length fs)) <= 999999999.
Proof.
  intros [N F] L. destruct (digits_pad fs F) as [E R].
  assert (10 ^ Z.of_nat (length fs) * 10 ^ (9 - Z.of_nat (length fs)) = 1000000000)
    by (rewrite <- Z.pow_add_r by lia; replace (Z.of_nat (length fs) + (9 - Z.of_nat (length fs))) with 9 by lia; reflexivity).
  assert (0 < 10 ^ (9 - Z.of_nat (length fs))) by (apply Z.pow_pos_nonneg; lia). nia.
Qed.

Lemma clock_ns t h mi s ns : clock t h mi s ns -> 0 <= h /\ 0 <= mi /\ 0 <= s /\ 0 <= ns <= 999999999.
Proof.
  intros C. destruct C; repeat match goal with H : digits ?l |- _ => lazymatch goal with K : 0 <= number l |- _ => fail | _ => pose proof (digits_nonneg l H) end end; try lia.
  pose proof (frac_range fs ltac:(assumption) ltac:(assumption)). lia.
Qed.

Lemma later_ns sep t h mi s ns : later sep t h mi s ns -> 0 <= h /\ 0 <= mi /\ 0 <= s /\ 0 <= ns <= 999999999.
Proof. intros [z Z|c t0 z h' mi' s' ns' S C Z]; [lia|]. now apply clock_ns in C. Qed.

(** ** Scanning what follows the date *)

Lemma zone_facts z : zone z -> no_digit_first z /\ plain_end z /\ scan_lf z = Ok None /\
  (forall set, existsb (Z.eqb 90) set = false -> existsb (Z.eqb 122) set = false -> scan_set set z = None).
Proof.
  intros [->|[->| ->]].
  - repeat split; auto; exact I.
  - split; [cbn; lia|]. split; [split; reflexivity|]. split; [reflexivity|]. intros set A B. unfold scan_set. now rewrite A.
  - split; [cbn; lia|]. split; [split; reflexivity|]. split; [reflexivity|]. intros set A B. unfold scan_set. now rewrite B.
Qed.

Definition tail_dirs (s1 s2 : list Z) : list directive := [Dset s2; Dint 32; Dset s1; Dint 32; Dset s1; Dint 32; Dlf].

Definition mark_set (set : list Z) : Prop :=
  digitless set /\ existsb (Z.eqb 90) set = false /\ existsb (Z.eqb 122) set = false /\
  forall c, mark c -> existsb (Z.eqb c) set = true.

Lemma mark_no_digit c rest : mark c -> no_digit_first (c :: rest).
Proof. unfold mark. cbn. lia. Qed.

Lemma tail_scan s1 s2 (sep : Z -> Prop) tail h mi s ns acc : mark_set s1 -> mark_set s2 -> (forall c, sep c -> existsb (Z.eqb c) s2 = true) ->
  later sep tail h mi s ns -> h < 2147483648 -> mi < 2147483648 -> s < 2147483648 ->
  exists vs fs, sscanf (tail_dirs s1 s2) tail acc = Ok (acc ++ vs, fs) /\
    nth 0 vs 0 = h /\ nth 1 vs 0 = mi /\ nth 2 vs 0 = s /\ fsec_nanos fs = Ok ns.
Proof.
  intros (D1 & Z1 & Y1 & M1) (D2 & Z2 & Y2 & M2) SP L LH LM LS. unfold tail_dirs.
  destruct L as [z Z|c t z h mi s ns SC C Z]; destruct (zone_facts z Z) as (N & P & F & NS).
  - exists [], None. cbn [sscanf]. rewrite NS by assumption. rewrite app_nil_r. auto.
  - destruct C as [hs H|hs a ms H A M|hs a ms b ss H A M B S|hs a ms b ss fs H A M B S Fr FL];
      rewrite <- ?app_assoc, <- ?app_comm_cons, <- ?app_assoc, <- ?app_comm_cons, <- ?app_assoc, <- ?app_comm_cons; cbn [sscanf];
      rewrite (set_digits s2 c hs) by (try assumption; now apply SP).
    + rewrite (int_digits hs z) by assumption. cbn [bind]. rewrite NS by assumption.
      exists [number hs], None. auto.
    + rewrite (int_digits hs) by (try assumption; now apply mark_no_digit). cbn [bind].
      rewrite (set_digits s1 a ms) by (try assumption; now apply M1).
      rewrite (int_digits ms z) by assumption. cbn [bind]. rewrite NS by assumption.
      exists [number hs; number ms], None. rewrite <- app_assoc. auto.
    + rewrite (int_digits hs) by (try assumption; now apply mark_no_digit). cbn [bind].
      rewrite (set_digits s1 a ms) by (try assumption; now apply M1).
      rewrite (int_digits ms) by (try assumption; now apply mark_no_digit). cbn [bind].
      rewrite (set_digits s1 b ss) by (try assumption; now apply M1).
      rewrite (int_digits ss z) by assumption. cbn [bind]. rewrite F. cbn [bind].
      exists [number hs; number ms; number ss], None. rewrite <- !app_assoc. auto.
    + rewrite (int_digits hs) by (try assumption; now apply mark_no_digit). cbn [bind].
      rewrite (set_digits s1 a ms) by (try assumption; now apply M1).
      rewrite (int_digits ms) by (try assumption; now apply mark_no_digit). cbn [bind].
      rewrite (set_digits s1 b ss) by (try assumption; now apply M1).
      rewrite (int_digits ss) by (try assumption; cbn; lia). cbn [bind].
      destruct (lf_digits fs z Fr FL P) as (q & E & Q & _). rewrite E. cbn [bind].
      exists [number hs; number ms; number ss], (Some q). rewrite <- !app_assoc. auto.
Qed.

Lemma mark_sets : mark_set set_md1 /\ mark_set set_md2 /\ mark_set set_seed1 /\ mark_set set_seed2.
Proof.
  destruct sets_digitless as (A & B & C & D).
  repeat split; auto; intros c [->|[->| ->]]; reflexivity.
Qed.

(** ** The two parsers *)

Lemma later_first (sep : Z -> Prop) tail h mi s ns : (forall c, sep c -> ~ 48 <= c <= 57) -> later sep tail h mi s ns -> no_digit_first tail.
Proof. intros S [z Z|c t z h' mi' s' ns' C K Z]; [now apply zone_facts|]. exact (S c C). Qed.

Definition md_checks (y m d h mi s : Z) : bool :=
  validyear y && validmonth m && ((0 <=? d) && (d <=? month_len y m)) && validhour h && validmin mi && validsec s.

Lemma md_reads mode ys a ms b ds tail h mi s ns :
  digits ys -> digits ms -> digits ds -> dash_or_slash a -> dash_or_slash b -> later t_or_space tail h mi s ns ->
  number ys < 2147483648 -> number ms < 2147483648 -> number ds < 2147483648 -> h < 2147483648 -> mi < 2147483648 -> s < 2147483648 ->
  mdtimestr2nstime mode (ys ++ a :: ms ++ b :: ds ++ tail) =
  if md_checks (number ys) (number ms) (number ds) h mi s
  then time2nstime_int mode (number ys) (cum (number ys) (number ms) + number ds) h mi s ns else Ok NSTERROR.
Proof.
  intros DY DM DD A B L LY LM LD LH LMi LS. destruct mark_sets as (S1 & S2 & _).
  destruct (tail_scan set_md1 set_md2 t_or_space tail h mi s ns [number ys; number ms; number ds] S1 S2) as (vs & fs & E & V0 & V1 & V2 & F); auto.
  { intros c [->| ->]; reflexivity. }
  pose proof (later_ns _ _ _ _ _ _ L) as (_ & _ & _ & NS).
  assert (AS : existsb (Z.eqb a) set_md1 = true) by (destruct A as [->| ->]; reflexivity).
  assert (BS : existsb (Z.eqb b) set_md1 = true) by (destruct B as [->| ->]; reflexivity).
  assert (X : sscanf md_dirs (ys ++ a :: ms ++ b :: ds ++ tail) [] = Ok ([number ys; number ms; number ds] ++ vs, fs)).
  { unfold md_dirs. cbn [sscanf]. rewrite (int_digits ys) by (try assumption; destruct A as [->| ->]; cbn; lia). cbn [bind].
    rewrite (set_digits set_md1 a ms) by (try assumption; apply S1).
    rewrite (int_digits ms) by (try assumption; destruct B as [->| ->]; cbn; lia). cbn [bind].
    rewrite (set_digits set_md1 b ds) by (try assumption; apply S1).
    rewrite (int_digits ds) by (try assumption; apply (later_first t_or_space tail h mi s ns ltac:(unfold t_or_space; intros; lia) L)). cbn [bind app]. exact E. }
  unfold mdtimestr2nstime. fold md_dirs. rewrite X. cbn [bind app nth length Nat.eqb]. rewrite V0, V1, V2, F. cbn [bind].
  unfold md_checks. pose proof (digits_nonneg ys DY). pose proof (digits_nonneg ms DM). pose proof (digits_nonneg ds DD).
  destruct (validyear (number ys)) eqn:VY; cbn [negb andb]; [|reflexivity].
  destruct (validmonth (number ms)) eqn:VM; cbn [negb andb]; [|reflexivity].
  unfold validmonth in VM. unfold validyear in VY.
  unfold validmonthday. rewrite leapyear_gleap, monthdays_get by lia. replace (0 <=? number ds) with true by lia. cbn [bind andb].
  destruct (number ds <=? month_len (number ys) (number ms)) eqn:VD; cbn [negb andb]; [|reflexivity].
  destruct (validhour h); cbn [negb andb]; [|reflexivity]. destruct (validmin mi); cbn [negb andb]; [|reflexivity].
  destruct (validsec s); cbn [negb andb]; [|reflexivity]. unfold validnanosec. replace (ns <=? 999999999) with true by lia. cbn [negb].
  rewrite md2doy_eq by lia. replace (0 <=? number ds) with true by lia. rewrite VD. reflexivity.
Qed.

Definition yd_checks (y k h mi s : Z) : bool :=
  validyear y && ((1 <=? k) && (k <=? year_len y)) && validhour h && validmin mi && validsec s.

Lemma yd_reads mode ys a ds (sep : Z -> Prop) tail h mi s ns :
  digits ys -> digits ds -> a = 45 \/ a = 44 -> (forall c, sep c -> mark c \/ t_or_space c) -> later sep tail h mi s ns ->
  number ys < 2147483648 -> number ds < 2147483648 -> h < 2147483648 -> mi < 2147483648 -> s < 2147483648 ->
  seedtimestr2nstime mode (ys ++ a :: ds ++ tail) =
  if yd_checks (number ys) (number ds) h mi s then time2nstime_int mode (number ys) (number ds) h mi s ns else Ok NSTERROR.
Proof.
  intros DY DD A SP L LY LD LH LMi LS. destruct mark_sets as (_ & _ & S1 & S2).
  destruct (tail_scan set_seed1 set_seed2 sep tail h mi s ns [number ys; number ds] S1 S2) as (vs & fs & E & V0 & V1 & V2 & F); auto.
  { intros c C. destruct (SP c C) as [M|[->| ->]]; [now apply S2|reflexivity|reflexivity]. }
  pose proof (later_ns _ _ _ _ _ _ L) as (_ & _ & _ & NS).
  assert (AS : existsb (Z.eqb a) set_seed1 = true) by (destruct A as [->| ->]; reflexivity).
  assert (X : sscanf seed_dirs (ys ++ a :: ds ++ tail) [] = Ok ([number ys; number ds] ++ vs, fs)).
  { unfold seed_dirs. cbn [sscanf]. rewrite (int_digits ys) by (try assumption; destruct A as [->| ->]; cbn; lia). cbn [bind].
    rewrite (set_digits set_seed1 a ds) by (try assumption; apply S1).
    rewrite (int_digits ds); [cbn [bind app]; exact E|assumption| |assumption].
    apply (later_first sep tail h mi s ns); [|exact L]. intros c C. destruct (SP c C) as [M|M]; unfold mark, t_or_space in M; lia. }
  unfold seedtimestr2nstime. fold seed_dirs. rewrite X. cbn [bind app nth length Nat.eqb]. rewrite V0, V1, V2, F. cbn [bind].
  unfold yd_checks.
  destruct (validyear (number ys)) eqn:VY; cbn [negb andb]; [|reflexivity].
  unfold validyearday. rewrite leapyear_gleap.
  replace (365 + (if gleap (number ys) then 1 else 0)) with (year_len (number ys)) by (unfold year_len; destruct (gleap (number ys)); reflexivity).
  destruct ((1 <=? number ds) && (number ds <=? year_len (number ys))); cbn [negb andb]; [|reflexivity].
  destruct (validhour h); cbn [negb andb]; [|reflexivity]. destruct (validmin mi); cbn [negb andb]; [|reflexivity].
  destruct (validsec s); cbn [negb andb]; [|reflexivity]. unfold validnanosec. replace (ns <=? 999999999) with true by lia. reflexivity.
Qed.

Lemma year_reads mode ys : digits ys -> number ys < 2147483648 ->
  seedtimestr2nstime mode ys = if validyear (number ys) then time2nstime_int mode (number ys) 1 0 0 0 0 else Ok NSTERROR.
Proof.
  intros D L.
  assert (X : sscanf seed_dirs ys [] = Ok ([number ys], None)).
  { unfold seed_dirs. cbn [sscanf]. rewrite <- (app_nil_r ys) at 1. rewrite (int_digits ys []) by (auto; exact I). reflexivity. }
  unfold seedtimestr2nstime. fold seed_dirs. rewrite X. cbn [bind nth length Nat.eqb fsec_nanos].
  destruct (validyear (number ys)); cbn [negb]; [|reflexivity]. unfold validyearday.
  destruct (leapyear (number ys)); reflexivity.
Qed.

(** ** Classification *)

Definition plain (c : Z) : bool := is_digit c || is_delim c.

Lemma cl_zone z b a : zone z -> ts_error a = false ->
  let r := classify z b a in
  ts_first r = ts_first a /\ ts_delims r = ts_delims a /\ ts_sep r = ts_sep a /\ ts_error r = false /\
  ts_length r = ts_length a + Z.of_nat (length z) /\ ts_numlike r = ts_numlike a.
Proof.
  intros Z E. destruct a as [f dl nl sp er len]. cbn [ts_error] in E. subst er.
  destruct Z as [->|[->| ->]]; cbv zeta; [cbn; repeat split; lia| |]; cbn [classify]; change (is_delim 90) with false; change (is_delim 122) with false;
  cbn [Z.eqb Pos.eqb andb orb ts_sep]; rewrite ?andb_false_r; cbn; repeat split; lia.
Qed.

Lemma cl_plain l : forall z a d, Forall (fun c => plain c = true) l -> zone z -> ts_first a = Some d -> ts_error a = false ->
  let r := classify (l ++ z) false a in
  ts_first r = Some d /\ (ts_sep a = true -> ts_delims r = ts_delims a) /\ ts_error r = false /\
  ts_length r = ts_length a + Z.of_nat (length (l ++ z)) /\ ts_numlike r <= ts_numlike a + Z.of_nat (length (l ++ z)).
Proof.
  induction l as [|c l IH]; intros z a d F Z A E; cbv zeta.
  - cbn [app]. destruct (cl_zone z false a Z E) as (Q1 & Q2 & Q3 & Q4 & Q5 & Q6). rewrite Q1, Q2, Q4, Q5, Q6. repeat split; auto; lia.
  - inversion F as [|? ? P F']; subst. cbn [app classify length]. destruct (is_delim c) eqn:D.
    + match goal with |- context [classify (l ++ z) false ?b] => destruct (IH z b d F' Z) as (R1 & R2 & R3 & R4 & R5) end;
        [cbn [ts_first]; now rewrite A|exact E|]. rewrite R1, R3, R4. cbn [ts_sep ts_delims ts_length ts_numlike] in *. repeat split; auto.
      * intros S. rewrite R2 by exact S. now rewrite S.
      * lia.
      * eapply Z.le_trans; [exact R5|]. rewrite andb_false_r. cbn [orb]. destruct (c =? 46); lia.
    + unfold plain in P. rewrite D, orb_false_r in P. destruct (digit_facts c P) as (_ & _ & N1 & _ & N2 & N3).
      destruct (Z.eqb_spec c 43); [lia|]. destruct (Z.eqb_spec c 84); [lia|]. destruct (Z.eqb_spec c 32); [lia|]. cbn [andb orb]. rewrite andb_false_r.
      rewrite P. match goal with |- context [classify (l ++ z) false ?b] => destruct (IH z b d F' Z) as (R1 & R2 & R3 & R4 & R5) end;
        [exact A|exact E|]. rewrite R1, R3, R4. cbn [ts_sep ts_delims ts_length ts_numlike] in *. repeat split; auto; lia.
Qed.

Lemma plain_digits ds : digits ds -> Forall (fun c => plain c = true) ds.
Proof. intros D. eapply Forall_impl; [|apply digits_is, D]. intros c C. cbn beta in C. unfold plain. now rewrite C. Qed.
Lemma plain_mark c : mark c -> plain c = true.
Proof. intros [->|[->| ->]]; reflexivity. Qed.

Lemma clock_plain t h mi s ns : clock t h mi s ns -> Forall (fun c => plain c = true) t.
Proof.
  intros C. destruct C; repeat (first [apply Forall_app; split | apply Forall_cons]); auto using plain_digits, plain_mark.
Qed.

Lemma cl_later (sep : Z -> Prop) tail h mi s ns f dl nl len : later sep tail h mi s ns -> (forall c, sep c -> mark c \/ t_or_space c) ->
  let r := classify tail false (mk_tscan (Some f) dl nl false false len) in
  ts_first r = Some f /\ ((forall c, sep c -> t_or_space c) -> ts_delims r = dl) /\ ts_error r = false /\
  ts_length r = len + Z.of_nat (length tail) /\ ts_numlike r <= nl + Z.of_nat (length tail).
Proof.
  intros L SP. destruct L as [z Z|c t z h mi s ns SC C Z]; cbv zeta.
  - destruct (cl_zone z false (mk_tscan (Some f) dl nl false false len) Z eq_refl) as (Q1 & Q2 & Q3 & Q4 & Q5 & Q6).
    rewrite Q1, Q2, Q4, Q5, Q6. cbn. repeat split; auto; lia.
  - apply clock_plain in C. assert (D : t_or_space c \/ ~ t_or_space c) by (unfold t_or_space; lia).
    destruct D as [T|T].
    + rewrite classify_sep by exact T.
      destruct (cl_plain t z (mk_tscan (Some f) dl nl true false (len + 1)) f C Z eq_refl eq_refl) as (R1 & R2 & R3 & R4 & R5).
      rewrite R1, R3, R4, (R2 eq_refl). cbn [ts_delims ts_length ts_numlike length] in *. repeat split; auto; lia.
    + destruct (SP c SC) as [M|M]; [|contradiction].
      rewrite classify_delim by (destruct M as [->|[->| ->]]; (reflexivity || lia)).
      destruct (cl_plain t z (mk_tscan (Some f) (dl + 1) nl false false (len + 1)) f C Z eq_refl eq_refl) as (R1 & R2 & R3 & R4 & R5).
      rewrite R1, R3, R4. cbn [ts_delims ts_length ts_numlike length] in *. repeat split; auto; try lia.
      intros X. destruct (T (X c SC)).
Qed.

Lemma cl_digits ds rest b f dl nl sp er len : digits ds ->
  classify (ds ++ rest) b (mk_tscan f dl nl sp er len) =
  classify rest false (mk_tscan f dl (nl + Z.of_nat (length ds)) sp er (len + Z.of_nat (length ds))).
Proof.
  intros D. rewrite classify_digits by now apply digits_is. destruct ds; [destruct D; congruence|reflexivity].
Qed.

(** Which parser a written date goes to. *)
Lemma goes_md mode ys a ms b ds tail h mi s ns : digits ys -> digits ms -> digits ds -> dash_or_slash a -> dash_or_slash b ->
  later t_or_space tail h mi s ns ->
  let f := ys ++ a :: ms ++ b :: ds ++ tail in
  timestr2nstime mode f = if (length f <=? 32)%nat then mdtimestr2nstime mode f else Ok NSTERROR.
Proof.
  intros DY DM DD A B L f. unfold timestr2nstime.
  assert (AD : is_delim a = true /\ a <> 46) by (destruct A as [->| ->]; split; (reflexivity || lia)).
  assert (BD : is_delim b = true /\ b <> 46) by (destruct B as [->| ->]; split; (reflexivity || lia)).
  assert (C : exists r, classify f true tscan0 = r /\ ts_first r = Some a /\ ts_delims r = 2 /\ ts_error r = false /\
     ts_length r = Z.of_nat (length f) /\ ts_numlike r < Z.of_nat (length f) /\ 4 <= Z.of_nat (length f)).
  { eexists; split; [reflexivity|]. unfold f, tscan0. rewrite cl_digits by exact DY. rewrite classify_delim by apply AD.
    rewrite cl_digits by exact DM. rewrite classify_delim by apply BD. rewrite cl_digits by exact DD.
    match goal with |- context [classify tail false (mk_tscan (Some ?x) ?dl ?nl false false ?len)] =>
      destruct (cl_later _ _ _ _ _ _ x dl nl len L ltac:(auto)) as (R1 & R2 & R3 & R4 & R5) end.
    rewrite R1, R3, R4, R2 by auto. repeat (rewrite app_length; cbn [length]).
    destruct DY as [DY _], DM as [DM _], DD as [DD _]. destruct ys; [congruence|]. destruct ms; [congruence|]. destruct ds; [congruence|].
    cbn [length] in *. repeat split; auto; lia. }
  destruct C as (r & -> & F & D & E & LN & NL & L4). rewrite F, D, E, LN. cbn [negb andb].
  destruct (Z.eqb_spec (Z.of_nat (length f)) (ts_numlike r)); [lia|]. cbn [andb].
  replace (4 <=? Z.of_nat (length f)) with true by lia. cbn [andb].
  replace ((a =? 45) || (a =? 47)) with true by (destruct A as [->| ->]; reflexivity).
  destruct (Nat.leb_spec (length f) 32) as [LE|GT].
  - replace (Z.of_nat (length f) <=? 32) with true by lia. reflexivity.
  - replace (Z.of_nat (length f) <=? 32) with false by lia. reflexivity.
Qed.

Lemma goes_yd mode ys a ds (sep : Z -> Prop) tail h mi s ns : digits ys -> digits ds ->
  (a = 45 /\ (forall c, sep c -> t_or_space c) \/ a = 44 /\ (forall c, sep c -> mark c \/ t_or_space c)) ->
  later sep tail h mi s ns ->
  let f := ys ++ a :: ds ++ tail in
  timestr2nstime mode f = if (4 <=? length f)%nat && (length f <=? 32)%nat then seedtimestr2nstime mode f else Ok NSTERROR.
Proof.
  intros DY DD A L f. unfold timestr2nstime.
  assert (AD : is_delim a = true /\ a <> 46) by (destruct A as [(-> & _)|(-> & _)]; split; (reflexivity || lia)).
  assert (SP : forall c, sep c -> mark c \/ t_or_space c) by (destruct A as [(_ & A)|(_ & A)]; auto).
  assert (C : exists r, classify f true tscan0 = r /\ ts_first r = Some a /\ (a = 45 -> ts_delims r = 1) /\ ts_error r = false /\
     ts_length r = Z.of_nat (length f) /\ ts_numlike r < Z.of_nat (length f)).
  { eexists; split; [reflexivity|]. unfold f, tscan0. rewrite cl_digits by exact DY. rewrite classify_delim by apply AD.
    rewrite cl_digits by exact DD.
    match goal with |- context [classify tail false (mk_tscan (Some ?x) ?dl ?nl false false ?len)] =>
      destruct (cl_later _ _ _ _ _ _ x dl nl len L SP) as (R1 & R2 & R3 & R4 & R5) end.
    rewrite R1, R3, R4. repeat (rewrite app_length; cbn [length]).
    destruct DY as [DY _], DD as [DD _]. destruct ys; [congruence|]. destruct ds; [congruence|].
    cbn [length] in *. repeat split; auto; try lia. intros A0. apply R2. destruct A as [(_ & A)|(A & _)]; [exact A|lia]. }
  destruct C as (r & -> & F & D & E & LN & NL). rewrite F, E, LN. cbn [negb andb].
  destruct (Z.eqb_spec (Z.of_nat (length f)) (ts_numlike r)); [lia|]. cbn [andb].
  assert (X : (if ((a =? 45) || (a =? 47)) && (ts_delims r =? 2) then mdtimestr2nstime mode f
     else if (a =? 45) && (ts_delims r =? 1) then seedtimestr2nstime mode f
     else if a =? 44 then seedtimestr2nstime mode f else Ok NSTERROR) = seedtimestr2nstime mode f).
  { destruct A as [(-> & _)|(-> & _)]; [rewrite D by reflexivity; reflexivity|reflexivity]. }
  rewrite X.
  replace ((4 <=? Z.of_nat (length f)) && (Z.of_nat (length f) <=? 32)) with ((4 <=? length f)%nat && (length f <=? 32)%nat); [reflexivity|].
  destruct (Nat.leb_spec 4 (length f)), (Nat.leb_spec (length f) 32), (Z.leb_spec 4 (Z.of_nat (length f))), (Z.leb_spec (Z.of_nat (length f)) 32); lia || reflexivity.
Qed.

Lemma goes_year mode ys : digits ys -> length ys = 4%nat -> timestr2nstime mode ys = seedtimestr2nstime mode ys.
Proof.
  intros D L. unfold timestr2nstime.
  assert (C : classify ys true tscan0 = mk_tscan None 0 4 false false 4).
  { unfold tscan0. rewrite <- (app_nil_r ys) at 1. rewrite cl_digits by exact D. rewrite L. reflexivity. }
  rewrite C. cbn [ts_error ts_length ts_numlike ts_first ts_sep negb Z.eqb Pos.eqb andb].
  destruct D as [N F]. destruct ys as [|c ys]; [congruence|]. inversion F; subst. replace ((c =? 45) || (c =? 43)) with false by lia. reflexivity.
Qed.

(** ** Values *)

Definition small_ref (r : dayref) : Prop := match r with Md m d => m < 2147483648 /\ d < 2147483648 | Yd k => k < 2147483648 end.
Definition checks (y : Z) (r : dayref) (h mi s : Z) : bool :=
  match r with Md m d => md_checks y m d h mi s | Yd k => yd_checks y k h mi s end.
Definition ordinal (y : Z) (r : dayref) : Z := match r with Md m d => cum y m + d | Yd k => k end.

Lemma date_reads mode f y r h mi s ns : date_text f y r h mi s ns -> y < 2147483648 -> small_ref r ->
  h < 2147483648 -> mi < 2147483648 -> s < 2147483648 ->
  timestr2nstime mode f = if (4 <=? length f)%nat && (length f <=? 32)%nat && checks y r h mi s
    then time2nstime_int mode y (ordinal y r) h mi s ns else Ok NSTERROR.
Proof.
  intros D LY LR LH LM LS. destruct D as [ys D L|ys a ms b ds tail h mi s ns DY DM DD A B L|ys ds tail h mi s ns DY DD L|ys ds tail h mi s ns DY DD L];
    cbn [small_ref checks ordinal] in *.
  - rewrite goes_year, year_reads by assumption. rewrite L. cbn [Nat.leb andb]. unfold yd_checks, validhour, validmin, validsec.
    destruct (validyear (number ys)); [|reflexivity]. pose proof (year_len_range (number ys)). replace (1 <=? year_len (number ys)) with true by lia. reflexivity.
  - rewrite (goes_md mode ys a ms b ds tail h mi s ns) by assumption.
    assert (L4 : (4 <=? length (ys ++ a :: ms ++ b :: ds ++ tail))%nat = true).
    { repeat (rewrite app_length; cbn [length]). destruct DY as [DY _], DM as [DM _], DD as [DD _]. destruct ys; [congruence|]. destruct ms; [congruence|].
      apply Nat.leb_le. cbn [length]. lia. }
    rewrite L4. cbn [andb]. destruct (_ <=? 32)%nat; cbn [andb]; [|reflexivity]. now apply md_reads.
  - rewrite (goes_yd mode ys 45 ds t_or_space tail h mi s ns) by auto.
    destruct (_ && _); cbn [andb]; [|reflexivity]. apply (yd_reads mode ys 45 ds t_or_space tail); auto.
  - rewrite (goes_yd mode ys 44 ds (fun c => mark c \/ t_or_space c) tail h mi s ns) by auto.
    destruct (_ && _); cbn [andb]; [|reflexivity]. apply (yd_reads mode ys 44 ds (fun c => mark c \/ t_or_space c) tail); auto.
Qed.

Lemma date_signs f y r h mi s ns : date_text f y r h mi s ns ->
  0 <= y /\ 0 <= h /\ 0 <= mi /\ 0 <= s /\ 0 <= ns <= 999999999 /\ match r with Md m d => 0 <= m /\ 0 <= d | Yd k => 0 <= k end.
Proof.
  intros D. destruct D; repeat match goal with H : digits ?l |- _ => lazymatch goal with K : 0 <= number l |- _ => fail | _ => pose proof (digits_nonneg l H) end end;
  repeat match goal with H : later _ _ _ _ _ _ |- _ => apply later_ns in H end; lia.
Qed.

Lemma names_ordinal n y r : names n y r -> n = dby y + ordinal y r - 1 /\ 1 <= ordinal y r <= year_len y /\
  match r with Md m d => valid_md y m d | Yd _ => True end.
Proof.
  intros [Y R]. destruct (day_at_ok n) as [[V YD] D]. pose proof (cum_bound _ _ _ V) as B. rewrite Y in *. unfold dn in D. rewrite Y in D.
  destruct r as [m d|k]; cbn [ordinal].
  - destruct R as [R1 R2]. rewrite R1, R2 in *. repeat split; try lia; apply V.
  - rewrite R in *. rewrite <- YD in B. repeat split; lia.
Qed.

Lemma year_digits ys : digits ys -> 1678 <= number ys -> (4 <= length ys)%nat.
Proof.
  intros [N F] Y. destruct (digits_pad ys F) as [_ R]. destruct (Nat.le_gt_cases 4 (length ys)) as [L|L]; [exact L|].
  exfalso. assert (10 ^ Z.of_nat (length ys) <= 10 ^ 3) by (apply Z.pow_le_mono_r; lia). change (10 ^ 3) with 1000 in *. lia.
Qed.

Lemma date_length f y r h mi s ns : date_text f y r h mi s ns -> 1678 <= y -> (4 <= length f)%nat.
Proof.
  intros D Y. destruct D; match goal with H : digits ?ys |- context [?ys] => pose proof (year_digits ys H Y) end; rewrite ?app_length; lia.
Qed.

Lemma dates_ok mode f y r h mi s ns n : date_text f y r h mi s ns -> (length f <= 32)%nat -> names n y r -> 1678 <= y <= 2262 ->
  good_clock h mi s -> in_s 64 (epoch_ns n h mi s ns) -> timestr2nstime mode f = Ok (epoch_ns n h mi s ns).
Proof.
  intros D L N Y (H & M & S) R. pose proof (date_signs _ _ _ _ _ _ _ D) as (_ & _ & _ & _ & NS & _).
  destruct (names_ordinal n y r N) as (EN & OB & V). pose proof (year_len_range y) as YL.
  assert (SR : small_ref r).
  { destruct r as [m d|k]; cbn [small_ref ordinal] in *; [|lia]. destruct V as [V1 V2]. pose proof (month_len_range y m). lia. }
  rewrite (date_reads mode f y r h mi s ns) by (assumption || lia).
  pose proof (date_length _ _ _ _ _ _ _ D ltac:(lia)) as L4.
  replace ((4 <=? length f)%nat && (length f <=? 32)%nat && checks y r h mi s) with true.
  - pose proof (counting_lemma mode n h mi s ns) as C. destruct N as [NY _]. rewrite NY in C.
    destruct (day_at_ok n) as [[V0 YD] DN]. unfold dn in DN. rewrite NY in *.
    replace (d_yday (day_at n)) with (ordinal y r) in C by lia.
    rewrite time2nstime_range in C by lia. apply C; auto; lia.
  - symmetry. apply andb_true_iff; split; [apply andb_true_iff; split; apply Nat.leb_le; lia|].
    destruct r as [m d|k]; cbn [checks ordinal] in *; unfold md_checks, yd_checks, validyear, validmonth, validhour, validmin, validsec;
      [destruct V|]; lia.
Qed.

Lemma dates_reject mode f y r h mi s ns : date_text f y r h mi s ns -> y < 2 ^ 31 -> h < 2 ^ 31 -> mi < 2 ^ 31 -> s < 2 ^ 31 ->
  match r with Md m d => m < 2 ^ 31 /\ d < 2 ^ 31 /\ d <> 0 | Yd k => k < 2 ^ 31 end ->
  (32 < length f)%nat \/ ~ (exists n, names n y r) \/ ~ 1678 <= y <= 2262 \/ ~ good_clock h mi s ->
  timestr2nstime mode f = Ok NSTERROR.
Proof.
  change (2 ^ 31) with 2147483648. intros D LY LH LM LS LR B. pose proof (date_signs _ _ _ _ _ _ _ D) as (Y0 & H0 & M0 & S0 & NS & R0).
  rewrite (date_reads mode f y r h mi s ns); auto; [|destruct r; cbn [small_ref]; tauto].
  replace ((4 <=? length f)%nat && (length f <=? 32)%nat && checks y r h mi s) with false; [reflexivity|]. symmetry. apply not_true_iff_false. intros T.
  apply andb_true_iff in T as [T1 T2]. apply andb_true_iff in T1 as [_ T1]. apply Nat.leb_le in T1.
  destruct B as [B|[B|[B|B]]]; [lia| | |].
  - apply B. destruct r as [m d|k]; cbn [checks] in T2; unfold md_checks, yd_checks, validyear, validmonth, validhour, validmin, validsec in T2.
    + exists (dby y + (cum y m + d) - 1). assert (V : valid_md y m d) by (unfold valid_md; lia).
      unfold names. rewrite (day_at_eq _ (mk_day y m d (cum y m + d))); [cbn; auto|split; [exact V|reflexivity]|unfold dn; cbn; lia].
    + exists (dby y + k - 1). destruct (year_of_day y k) as [E1 E2]; [lia|]. split; auto.
  - apply B. destruct r as [m d|k]; cbn [checks] in T2; unfold md_checks, yd_checks, validyear in T2; lia.
  - apply B. unfold good_clock. destruct r as [m d|k]; cbn [checks] in T2; unfold md_checks, yd_checks, validhour, validmin, validsec in T2; lia.
Qed.

(** ** Epochs *)

Lemma epoch_reads mode sg ss fr (ns : Z) : sg = [] \/ sg = [43] \/ sg = [45] -> digits ss ->
  (fr = [] /\ ns = 0 \/ exists fs, fr = 46 :: fs /\ digits fs /\ (length fs <= 9)%nat /\ ns = number fs * 10 ^ (9 - Z.of_nat (length fs))) ->
  (sg = [] -> length (ss ++ fr) <> 4%nat) -> (sg = [45] -> number ss <> 0) -> in_s 64 (number ss * 1000000000 + ns) ->
  timestr2nstime mode (sg ++ ss ++ fr) =
    Ok (if match sg with [45] => true | _ => false end then - (number ss * 1000000000 + ns) else number ss * 1000000000 + ns).
Proof.
  intros SG D FR N4 N0 R. pose proof (digits_nonneg ss D) as P.
  assert (NSB : 0 <= ns <= 999999999) by (destruct FR as [[_ ->]|(fs & _ & F & L & ->)]; [lia|now apply frac_range]).
  assert (NF : no_digit_first fr) by (destruct FR as [[-> _]|(fs & -> & _)]; cbn; lia).
  assert (R64 : number ss * 1000000000 + ns <= 9223372036854775807) by (apply in_s64 in R; lia).
  assert (C : let r := classify (sg ++ ss ++ fr) true tscan0 in ts_error r = false /\ ts_length r = Z.of_nat (length (sg ++ ss ++ fr)) /\ ts_numlike r = ts_length r).
  { cbv zeta. assert (G : forall f dl nl len b, nl = len -> let r := classify (ss ++ fr) b (mk_tscan f dl nl false false len) in
       ts_error r = false /\ ts_length r = len + Z.of_nat (length (ss ++ fr)) /\ ts_numlike r = ts_length r).
    { intros f dl nl len b ->. cbv zeta. rewrite cl_digits by exact D. destruct FR as [[-> _]|(fs & -> & F & _)].
      - cbn [classify ts_error ts_length ts_numlike]. rewrite app_nil_r. repeat split; lia.
      - rewrite classify_dot.
        match goal with |- context [classify fs false (mk_tscan ?a ?b ?c ?d ?e ?g)] => pose proof (cl_digits fs [] false a b c d e g F) as Q end.
        rewrite app_nil_r in Q. rewrite Q. cbn [classify ts_error ts_length ts_numlike].
        rewrite app_length. cbn [length]. repeat split; lia. }
    destruct SG as [->|[->| ->]]; unfold tscan0.
    - cbn [app]. destruct (G None 0 0 0 true eq_refl) as (G1 & G2 & G3). auto.
    - change ([43] ++ ss ++ fr) with (43 :: (ss ++ fr)). cbn [classify]. change (is_delim 43) with false. cbn [Z.eqb Pos.eqb andb ts_first ts_delims ts_numlike ts_sep ts_error ts_length].
      match goal with |- context [classify (ss ++ fr) ?b (mk_tscan ?f ?dl ?nl false false ?len)] => destruct (G f dl nl len b eq_refl) as (G1 & G2 & G3) end.
      rewrite G1, G3, G2. cbn [length]. repeat split; lia.
    - change ([45] ++ ss ++ fr) with (45 :: (ss ++ fr)). rewrite classify_minus.
      match goal with |- context [classify (ss ++ fr) ?b (mk_tscan ?f ?dl ?nl false false ?len)] => destruct (G f dl nl len b eq_refl) as (G1 & G2 & G3) end.
      rewrite G1, G3, G2. cbn [length]. repeat split; lia. }
  cbv zeta in C. destruct C as (C1 & C2 & C3).
  set (v := if match sg with [45] => true | _ => false end then - number ss else number ss).
  assert (SC : scan_int 64 (sg ++ ss ++ fr) = Ok (Some (v, fr))).
  { destruct (digits_pad ss (proj2 D)) as [EP RP].
    assert (X : exists w, length ss = Datatypes.S w) by (destruct D as [D0 _]; destruct ss; [congruence|cbn; eauto]). destruct X as (w & X).
    assert (ND : no_digit fr) by (destruct FR as [[-> _]|(fs & -> & _)]; [exact I|reflexivity]).
    assert (E2 : ss = pad (Datatypes.S w) (number ss)) by (rewrite <- X; exact EP).
    assert (E3 : sg ++ ss ++ fr = sg ++ pad (Datatypes.S w) (number ss) ++ fr) by (rewrite <- E2; reflexivity).
    rewrite E3. unfold v. clear v. rewrite X in RP. set (u := number ss) in *. clearbody u.
    destruct SG as [->|[->| ->]].
    - cbn [app]. apply scan_int_pad; auto. apply in_s64. lia.
    - assert (Y : forall l, scan_int 64 ([43] ++ l) = match scan_digits l 0 0 with (_, O, _) => Ok None | (v, _, rest) => if in_sb 64 v then Ok (Some (v, rest)) else UB SignedOverflow end) by reflexivity.
      rewrite Y. rewrite scan_digits_pad by exact RP. rewrite scan_digits_stop by exact ND. cbn [Nat.add]. rewrite Z.mul_0_l, Z.add_0_l.
      replace (in_sb 64 u) with true; [reflexivity|]. symmetry. apply in_sb_spec, in_s64. lia.
    - change ([45] ++ ?l) with (45 :: l). apply scan_int_neg; auto. apply in_s64. lia. }
  unfold timestr2nstime. rewrite C1, C3, Z.eqb_refl. cbn [negb andb].
  replace (negb (ts_length (classify (sg ++ ss ++ fr) true tscan0) =? 4) || match sg ++ ss ++ fr with c :: _ => (c =? 45) || (c =? 43) | [] => false end) with true.
  2:{ rewrite C2. destruct SG as [->|[->| ->]]; [|cbn [app]; now rewrite orb_true_r..]. cbn [app]. specialize (N4 eq_refl).
      destruct (Z.eqb_spec (Z.of_nat (length (ss ++ fr))) 4); [lia|reflexivity]. }
  unfold epochstr2nstime.
  assert (SS : exists fs, sscanf [Dint 64; Dlf] (sg ++ ss ++ fr) [] = Ok ([v], fs) /\
    match fs with None => ns = 0 | Some q => (Qeq_bool q 0 = true -> ns = 0) /\ exists z, fsec_scaled q = Ok z /\ to_int32 z = Ok ns end).
  { cbn [sscanf]. rewrite SC. cbn [bind]. destruct FR as [[-> ->]|(fs & -> & F & L & ->)].
    - exists None. split; [reflexivity|reflexivity].
    - destruct (lf_digits fs [] F L ltac:(split; exact I)) as (q & E & _ & Q). rewrite app_nil_r in E. rewrite E. exists (Some q). split; [reflexivity|exact Q]. }
  destruct SS as (fs & -> & F). cbn [bind]. change NSTMODULUS with 1000000000.
  assert (BV : in_s 64 (v * 1000000000)) by (apply in_s64; unfold v; destruct SG as [->|[->| ->]]; lia).
  rewrite sarith_ok by exact BV. cbn [bind].
  assert (E : (if 0 <=? v * 1000000000 then v * 1000000000 + ns else v * 1000000000 - ns) =
    (if match sg with [45] => true | _ => false end then - (number ss * 1000000000 + ns) else number ss * 1000000000 + ns)).
  { unfold v. destruct SG as [->|[->| ->]]; [destruct (Z.leb_spec 0 (number ss * 1000000000)); lia..|].
    specialize (N0 eq_refl). destruct (Z.leb_spec 0 (- number ss * 1000000000)); lia. }
  rewrite <- E. assert (RR : in_s 64 (if 0 <=? v * 1000000000 then v * 1000000000 + ns else v * 1000000000 - ns)).
  { rewrite E. apply in_s64. destruct SG as [->|[->| ->]]; lia. }
  destruct fs as [q|].
  - destruct F as [F0 (z & F1 & F2)]. destruct (Qeq_bool q 0) eqn:Q.
    + rewrite (F0 eq_refl). destruct (0 <=? v * 1000000000); f_equal; lia.
    + rewrite F1. cbn [bind]. rewrite F2. cbn [bind]. destruct (0 <=? v * 1000000000); apply sarith_ok; exact RR.
  - rewrite F. destruct (0 <=? v * 1000000000); f_equal; lia.
Qed.

Lemma seconds_ok mode t ns : seconds_text t ns -> in_s 64 ns ->
  (length t <> 4%nat -> timestr2nstime mode t = Ok ns) /\ timestr2nstime mode (43 :: t) = Ok ns /\
  (1000000000 <= ns -> timestr2nstime mode (45 :: t) = Ok (- ns)).
Proof.
  intros T R. 
  assert (X : exists ss fr n, t = ss ++ fr /\ ns = number ss * 1000000000 + n /\ digits ss /\ 
    (fr = [] /\ n = 0 \/ exists fs, fr = 46 :: fs /\ digits fs /\ (length fs <= 9)%nat /\ n = number fs * 10 ^ (9 - Z.of_nat (length fs)))).
  { destruct T as [ss D|ss fs D F L].
    - exists ss, [], 0. rewrite app_nil_r, Z.add_0_r. split; [reflexivity|]. split; [reflexivity|]. split; [exact D|]. left. auto.
    - exists ss, (46 :: fs), (number fs * 10 ^ (9 - Z.of_nat (length fs))). split; [reflexivity|]. split; [reflexivity|]. split; [exact D|].
      right. exists fs. auto. }
  destruct X as (ss & fr & n & -> & -> & D & FR).
  assert (NSB : 0 <= n <= 999999999) by (destruct FR as [[_ ->]|(fs & _ & F & L & ->)]; [lia|now apply frac_range]).
  split; [|split].
  - intros L. apply (epoch_reads mode [] ss fr n); auto. discriminate.
  - apply (epoch_reads mode [43] ss fr n); auto; discriminate.
  - intros B. apply (epoch_reads mode [45] ss fr n); auto; [discriminate|]. intros _. lia.
Qed.

(** ** Anything else *)

Lemma foreign_error c l : forall b a, In c l -> ~ known_char c -> ts_error (classify l b a) = true.
Proof.
  induction l as [|x l IH]; intros b a I K; [destruct I|]. destruct I as [->|I].
  - cbn [classify]. unfold known_char in K. assert (D : is_delim c = false) by (unfold is_delim; cbn; lia). rewrite D.
    replace (c =? 43) with false by lia. replace (c =? 84) with false by lia. replace (c =? 32) with false by lia. replace (is_digit c) with false by (unfold is_digit; lia).
    replace (c =? 90) with false by lia. replace (c =? 122) with false by lia. cbn [andb orb]. rewrite andb_false_r. reflexivity.
  - cbn [classify]. repeat match goal with |- context [if ?q then _ else _] => destruct q eqn:? end; auto.
    destruct l; [destruct I|]. rewrite andb_false_r in *. discriminate.
Qed.

Lemma foreign_ok mode c f : In c f -> ~ known_char c -> timestr2nstime mode f = Ok NSTERROR.
Proof. intros I K. unfold timestr2nstime. rewrite (foreign_error c f true tscan0 I K). reflexivity. Qed.
