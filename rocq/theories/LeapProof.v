(** * Reading leap second lists. *)

From Verif Require Import Base BaseLemmas TimeStrModel TimeStrProof CliModel CliProof LeapModel LeapSpec.
Open Scope Z_scope.

(** ** Numbers *)

Lemma fold_digits ds : forall a, fold_left (fun a c => 10 * a + (c - 48)) ds a = a * 10 ^ Z.of_nat (length ds) + number ds.
Proof.
  unfold number. induction ds as [|c ds IH]; intros a; cbn [fold_left length].
  - change (10 ^ Z.of_nat 0) with 1. lia.
  - rewrite IH, (IH (10 * 0 + (c - 48))). rewrite Nat2Z.inj_succ, Z.pow_succ_r by lia. ring.
Qed.

Lemma number_nonneg ds : Forall (fun c => 48 <= c <= 57) ds -> 0 <= number ds.
Proof.
  assert (X : forall ds a, 0 <= a -> Forall (fun c => 48 <= c <= 57) ds -> 0 <= fold_left (fun a c => 10 * a + (c - 48)) ds a).
  { clear. induction ds as [|c ds IH]; intros a A F; cbn [fold_left]; [exact A|]. inversion F; subst. apply IH; [lia|assumption]. }
  intros F. now apply X.
Qed.

Lemma scan_digits_text ds : forall rest a n, Forall (fun c => 48 <= c <= 57) ds ->
  scan_digits (ds ++ rest) a n = scan_digits rest (fold_left (fun a c => 10 * a + (c - 48)) ds a) (length ds + n).
Proof.
  induction ds as [|c ds IH]; intros rest a n F; [reflexivity|]. inversion F; subst. cbn [app scan_digits fold_left length].
  replace (is_digit c) with true by (unfold is_digit; lia). rewrite IH by assumption. f_equal; [f_equal; lia|lia].
Qed.

Lemma skip_blanks ws : forall rest, blanks ws -> skip_ws (ws ++ rest) = skip_ws rest.
Proof.
  induction ws as [|c ws IH]; intros rest B; [reflexivity|]. inversion B; subst. cbn [app skip_ws].
  replace (is_space_char c) with true by (unfold is_space_char; lia). now apply IH.
Qed.

Lemma scan_number w ws ds rest : blanks ws -> digits ds -> no_digit_first rest -> 0 < w -> number ds < 2 ^ (w - 1) ->
  scan_int w (ws ++ ds ++ rest) = Ok (Some (number ds, rest)).
Proof.
  intros B [N F] R W L. unfold scan_int. rewrite (skip_blanks ws) by exact B. pose proof (number_nonneg ds F) as NN.
  destruct ds as [|c ds]; [congruence|]. inversion F as [|? ? C F']; subst.
  assert (D : is_digit c = true) by (unfold is_digit; lia). destruct (digit_facts c D) as (S1 & _).
  cbn [app skip_ws]. rewrite S1. rewrite scan_sign_digit by exact D.
  change (c :: ds ++ rest) with ((c :: ds) ++ rest). rewrite scan_digits_text by assumption.
  rewrite scan_digits_stop.
  - fold (number (c :: ds)). cbn [length Nat.add]. replace (in_sb w (number (c :: ds))) with true; [reflexivity|]. unfold in_sb.
    assert (0 < 2 ^ (w - 1)) by (apply Z.pow_pos_nonneg; lia). lia.
  - destruct rest as [|x rest]; [exact I|]. cbn in *. unfold is_digit. lia.
Qed.

(** ** Lines *)

Definition out (e : option (Z * Z)) : option (Z * Z) := match e with Some (x, d) => Some ((x - 2208988800) * 1000000000, d) | None => None end.

Lemma entry_line mode now line : (match line with c :: _ => c <> 35 | [] => False end) ->
  leap_line mode now line =
    let! (fields, _) := sscanf [Dint 64; Dint 32] line [] in
    match fields with
    | [x; delta] => let! t := ntp2nstime mode x in Ok (Some (t, delta))
    | _ => Ok None
    end.
Proof.
  destruct line as [|c l]; intros H; [easy|]. unfold leap_line. 
  destruct c as [|p|p]; try reflexivity. do 6 (destruct p as [p|p|]; try reflexivity). congruence.
Qed.

Lemma line_ok mode now line e : states line e -> leap_line mode now line = Ok (out e).
Proof.
  intros S. destruct S as [|l C|ws ds rest B D R L|lead xs ws ds rest B0 X B WN D R L L2].
  - reflexivity.
  - destruct l as [|c l]; [reflexivity|]. unfold leap_line. 
    destruct c as [|p|p]; try reflexivity. do 7 (destruct p as [p|p|]; try reflexivity). congruence.
  - cbn [app leap_line]. rewrite (scan_number 64 ws ds rest B D R ltac:(lia)) by (change (2 ^ (64 - 1)) with 9223372036854775808; lia). cbn [bind].
    pose proof (number_nonneg ds (proj2 D)) as NN. unfold NTPDELTA. rewrite sarith_ok by (unfold in_s; lia). cbn [bind].
    destruct (_ <? now); [|reflexivity]. rewrite sarith_ok by (unfold in_s; lia). cbn [bind].
    destruct (print_calendar ((number ds - 2208988800) * 1000000000) ISOMONTHDAY NONE) as (dg & _ & _ & _ & E); [unfold in_s; lia|reflexivity|].
    rewrite E. reflexivity.
  - pose proof (number_nonneg xs (proj2 X)) as NX. pose proof (number_nonneg ds (proj2 D)) as ND.
    rewrite entry_line.
    + cbn [sscanf]. rewrite (scan_number 64 lead xs (ws ++ ds ++ rest) B0 X).
      * cbn [bind]. rewrite (scan_number 32 ws ds rest B D R) by (try lia; exact L2). cbn [bind sscanf app].
        unfold ntp2nstime, NTPDELTA. rewrite sarith_ok by (unfold in_s; lia). cbn [bind]. rewrite sarith_ok by (unfold in_s; lia). reflexivity.
      * destruct ws as [|c ws]; [congruence|]. inversion B; subst. cbn. lia.
      * lia.
      * change (2 ^ (64 - 1)) with 9223372036854775808; lia.
    + destruct lead as [|c lead]; cbn [app].
      * destruct X as [XN XF]. destruct xs as [|c xs]; [congruence|]. inversion XF; subst. cbn [app]. lia.
      * inversion B0; subst. lia.
Qed.

(** ** Files *)

Lemma leap_step fuel mode now (buf rest : list Z) c more line e : fgets 198 (c :: more) = (buf, rest) -> until 10 (until 0 buf) = line ->
  leap_line mode now line = Ok e ->
  leap_loop (S fuel) mode now (c :: more) = let! m := leap_loop fuel mode now rest in Ok (match e with Some x => x :: m | None => m end).
Proof. intros E1 E2 E3. cbn [leap_loop]. rewrite E1, E2, E3. reflexivity. Qed.

Lemma entries_cons e es : entries (e :: es) = match out e with Some x => x :: entries es | None => entries es end.
Proof. destruct e as [[x d]|]; reflexivity. Qed.

Lemma leap_ok mode now ls : forall es last e fuel, Forall2 states ls es -> Forall short_line ls -> states last e -> short_line last ->
  (length (file_of ls last) <= fuel)%nat -> leap_loop fuel mode now (file_of ls last) = Ok (entries (es ++ [e])).
Proof.
  assert (LAST : forall last e fuel, states last e -> short_line last -> (length last <= fuel)%nat ->
    leap_loop fuel mode now last = Ok (entries [e])).
  { intros last e fuel S (N & Z0 & L) F. destruct last as [|c last].
    - assert (E : e = None). { pose proof (line_ok mode now [] e S) as X. cbn in X. destruct e as [[]|]; [discriminate|reflexivity]. } subst e. destruct fuel; reflexivity.
    - destruct fuel; [cbn [length] in F; lia|].
      rewrite (leap_step fuel mode now (c :: last) [] c last (c :: last) (out e)).
      + assert (EN : leap_loop fuel mode now [] = Ok []) by (destruct fuel; reflexivity). rewrite EN. cbn [bind]. now rewrite entries_cons.
      + apply fgets_end; auto.
      + rewrite (until_none 0) by auto. now apply until_none.
      + now apply line_ok. }
  unfold file_of. induction ls as [|l ls IH]; intros es last e fuel ST G SL GL F; inversion ST as [|? e0 ? es' S0 S1]; subst; cbn [map concat app].
  - now apply LAST.
  - inversion G as [|? ? (N & Z0 & L) G']; subst. cbn [map concat] in F. rewrite <- !app_assoc in *. cbn [app] in *.
    set (tail := concat (map (fun l => l ++ [10]) ls) ++ last) in *.
    rewrite app_length in F. cbn [length] in F.
    assert (IHt : forall fu, (length tail <= fu)%nat -> leap_loop fu mode now tail = Ok (entries (es' ++ [e]))) by (intros; now apply IH).
    clearbody tail. rewrite entries_cons. set (E := entries (es' ++ [e])) in *. clearbody E.
    pose proof (line_ok mode now l e0 S0) as LO.
    assert (X : exists c more, l ++ 10 :: tail = c :: more) by (destruct l; cbn [app]; eauto).
    destruct X as (c & more & X).
    destruct (Nat.lt_ge_cases (length l) 198) as [LT|GE].
    + assert (FG : fgets 198 (l ++ 10 :: tail) = (l ++ [10], tail)) by now apply fgets_line.
      destruct fuel; [lia|]. rewrite X in *.
      rewrite (leap_step fuel mode now (l ++ [10]) tail c more l (out e0) FG); [|  |exact LO].
      * rewrite IHt by lia. reflexivity.
      * rewrite (until_none 0); [now apply until_app|]. rewrite in_app_iff. intros [Y|[Y|[]]]; [auto|discriminate].
    + assert (LE : length l = 198%nat) by lia.
      assert (FG : fgets 198 (l ++ 10 :: tail) = (l, 10 :: tail)) by now apply fgets_full.
      destruct fuel; [lia|]. destruct fuel; [lia|]. rewrite X in *.
      rewrite (leap_step (S fuel) mode now l (10 :: tail) c more l (out e0) FG); [| |exact LO].
      * rewrite (leap_step fuel mode now [10] tail 10 tail [] None); [| |reflexivity|reflexivity].
        -- rewrite IHt by lia. reflexivity.
        -- apply (fgets_line 198 [] tail); [intros []|cbn [length]; lia].
      * rewrite (until_none 0) by auto. now apply until_none.
Qed.

Lemma file_ok mode now old ls es last e : Forall2 states ls es -> Forall short_line ls -> states last e -> short_line last ->
  Z.of_nat (length ls) < 2 ^ 31 - 1 ->
  readleapsecondfile mode now old (Some (file_of ls last, false)) = Ok (entries (es ++ [e]), Z.of_nat (length (entries (es ++ [e])))).
Proof.
  intros ST G SL GL C. unfold readleapsecondfile. rewrite (leap_ok mode now ls es last e) by (assumption || lia). cbn [bind].
  assert (L : forall es, (length (entries es) <= length es)%nat). { clear. induction es as [|[[]|] es IH]; cbn [entries length]; lia. }
  specialize (L (es ++ [e])). rewrite app_length in L. cbn [length] in L. assert (FL : length ls = length es) by (clear - ST; induction ST; cbn [length]; congruence).
  rewrite sarith_ok by (unfold in_s; change (2 ^ (32 - 1)) with 2147483648; lia). reflexivity.
Qed.

Lemma leap_ends mode now : forall fuel content, (length content <= fuel)%nat -> leap_loop fuel mode now content <> Fuel.
Proof.
  assert (NI : forall w s, scan_int w s <> Fuel).
  { intros w s. unfold scan_int. destruct (scan_sign _) as [neg s1]. destruct (scan_digits s1 0 0) as [[v [|n]] rest]; [discriminate|].
    cbv zeta. destruct (in_sb _ _); discriminate. }
  assert (NS : forall m w v, sarith m w v <> Fuel). { intros m w v. unfold sarith. destruct (in_sb w v); [discriminate|]. destruct m; discriminate. }
  assert (BF : forall (A B : Type) (m : res A) (k : A -> res B), m <> Fuel -> (forall a, m = Ok a -> k a <> Fuel) -> bind m k <> Fuel).
  { intros A B m k H K. destruct m; cbn [bind]; try discriminate; [now apply K|congruence]. }
  assert (LL : forall line, leap_line mode now line <> Fuel).
  { intros line. assert (D : (exists s, line = 35 :: 64 :: s) \/ (exists s, line = 35 :: s /\ match s with c :: _ => c <> 64 | [] => True end) \/ line = [] \/ (match line with c :: _ => c <> 35 | [] => False end)).
    { destruct line as [|c l]; [auto|]. destruct (Z.eq_dec c 35) as [->|]; [|auto]. destruct l as [|d l]; [right; left; exists []; split; [reflexivity|exact I]|].
      destruct (Z.eq_dec d 64) as [->|]; [left; exists l; reflexivity|right; left; exists (d :: l); split; [reflexivity|assumption]]. }
    destruct D as [(s & ->)|[(s & -> & C)|[->|C]]].
    - cbn [leap_line]. apply BF; [apply NI|]. intros [[x r]|] _; [|discriminate]. apply BF; [apply NS|]. intros e E.
      destruct (e <? now); [|discriminate]. apply BF; [apply NS|]. intros t T. apply BF; [|discriminate].
      destruct (print_calendar t ISOMONTHDAY NONE) as (dg & _ & _ & _ & P); [|reflexivity|rewrite P; discriminate].
      revert T. unfold sarith. destruct (in_sb 64 _) eqn:I; [intros T; injection T as <-; now apply in_sb_spec|]. destruct mode; [discriminate|].
      intros T. injection T as <-. apply swrap_range; lia.
    - rewrite (line_ok mode now (35 :: s) None) by now constructor. discriminate.
    - discriminate.
    - rewrite entry_line by exact C. apply BF.
      + cbn [sscanf]. apply BF; [apply NI|]. intros [[v s]|] _; [|discriminate]. apply BF; [apply NI|]. intros [[v2 s2]|] _; discriminate.
      + intros [fs q] _. destruct fs as [|x [|d [|]]]; try discriminate. apply BF; [|discriminate]. unfold ntp2nstime. apply BF; [apply NS|]. intros; apply NS. }
  induction fuel as [|fuel IH]; intros content L.
  - destruct content; [discriminate|cbn [length] in L; lia].
  - destruct content as [|c content]; [discriminate|]. cbn [leap_loop]. pose proof (fgets_shorter 198 c content ltac:(lia)) as SH.
    destruct (fgets 198 (c :: content)) as [buf rest]. cbn [snd] in SH. cbn [length] in L. apply BF; [apply LL|]. intros e _.
    apply BF; [apply IH; lia|discriminate].
Qed.

Lemma file_ends mode now old file : readleapsecondfile mode now old file <> Fuel.
Proof.
  unfold readleapsecondfile. destruct file as [[content failed]|]; [|discriminate].
  pose proof (leap_ends mode now (length content) content (le_n _)) as H. destruct (leap_loop _ mode now content); cbn [bind]; try discriminate; [|congruence].
  unfold sarith. destruct (in_sb 32 _); [discriminate|]. destruct mode; discriminate.
Qed.
