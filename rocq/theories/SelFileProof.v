(** * Reading selection files. *)

From Coq Require Import String.
From Verif Require Import Base BaseLemmas GlobModel GlobSpec GlobProof StrModel StrSpec StrProof TimeModel TimeStrModel TimeStrProof CliModel CliProof SelModel SelProof
  LeapSpec LeapProof DateSpec DateProof SelFileModel SelFileSpec.
Open Scope Z_scope.
Open Scope list_scope.

(** ** Patterns *)

Definition digit_set : tok := CSet false [Rng 48 57].
Definition date_toks : list tok := [digit_set; digit_set; digit_set; digit_set; CSet false [Chr 45; Chr 47; Chr 44]; digit_set; Star].
Definition code_set : tok := CSet false [Chr 63; Chr 42; Rng 97 122; Rng 65 90; Rng 48 57].

Lemma digit_set_text p t : pat_text p t -> pat_text (91 :: [48; 45; 57] ++ 93 :: p) (digit_set :: t).
Proof. intros H. apply pt_set; [|cbn; lia|exact H]. apply set_rng; try lia. constructor. Qed.

Lemma date_toks_text : pat_text date_glob date_toks.
Proof.
  unfold date_glob, date_toks. do 4 apply digit_set_text.
  apply (pt_set [45; 47; 44] [Chr 45; Chr 47; Chr 44]); [|cbn; lia|].
  - apply set_chr; [lia|]. repeat (apply rest_chr; [unfold plain_char; lia|]). constructor.
  - apply digit_set_text. apply pt_star. constructor.
Qed.

Lemma chan_toks_text : pat_text selchan_glob [code_set; code_set; code_set].
Proof.
  assert (X : forall p t, pat_text p t -> pat_text (91 :: [63; 42; 97; 45; 122; 65; 45; 90; 48; 45; 57] ++ 93 :: p) (code_set :: t)).
  { intros p t H. apply pt_set; [|cbn; lia|exact H]. apply set_chr; [lia|]. apply rest_chr; [unfold plain_char; lia|].
    repeat (apply rest_rng; [unfold plain_char; lia|lia|lia|]). constructor. }
  unfold selchan_glob. do 3 apply X. constructor.
Qed.

Lemma sets_no_escape ts : Forall (fun t => match t with Esc _ => False | _ => True end) ts -> no_escape ts.
Proof. intros F c I. rewrite Forall_forall in F. exact (F _ I). Qed.

Lemma glob_is p t s : pat_text p t -> no_escape t -> exists b, ms_globmatch s p = Ok b /\ (b = true <-> mat t s).
Proof.
  intros P N. destruct (glob_ok true (Datatypes.S (length p)) p t s (le_n _) P) as (b & E & B). exists b. split; [exact E|].
  cbn [view] in B. rewrite (loose_id t N) in B. exact B.
Qed.

Lemma in_digit x : in_set x [Rng 48 57] <-> 48 <= x <= 57.
Proof.
  split.
  - intros (i & [<-|[]] & I). cbn in I. lia.
  - intros H. exists (Rng 48 57). split; [left; reflexivity|cbn; lia].
Qed.

Lemma date_mat s : mat date_toks s <-> date_shaped s.
Proof.
  split.
  - intros M. unfold date_toks, digit_set in M.
    repeat match goal with M : mat (CSet false _ :: _) _ |- _ => inversion M; clear M; subst end.
    repeat match goal with H : in_set _ [Rng 48 57] |- _ => apply in_digit in H end.
    match goal with H : in_set _ [Chr 45; Chr 47; Chr 44] |- _ => destruct H as (i & I & J) end.
    unfold date_shaped. do 7 eexists. split; [reflexivity|]. split; [repeat constructor; lia|].
    destruct I as [<-|[<-|[<-|[]]]]; cbn in J; lia.
  - intros (a & b & c & d & e & g & r & -> & F & E).
    repeat match goal with H : Forall _ (_ :: _) |- _ => inversion H; clear H; subst end.
    unfold date_toks, digit_set. repeat (apply m_set; [first [apply in_digit; assumption|idtac]|]).
    + unfold in_set. destruct E as [->|[->| ->]]; [exists (Chr 45)|exists (Chr 47)|exists (Chr 44)]; (split; [cbn; tauto|reflexivity]).
    + rewrite <- (app_nil_r r). apply m_star. constructor.
Qed.

Lemma is_date_ok s : exists b, is_date (Some s) = Ok b /\ (b = true <-> date_shaped s).
Proof.
  destruct (glob_is date_glob date_toks s date_toks_text) as (b & E & B); [apply sets_no_escape; repeat constructor|].
  exists b. split; [exact E|]. rewrite B. apply date_mat.
Qed.

Lemma is_date_yes s : date_shaped s -> is_date (Some s) = Ok true.
Proof. intros D. destruct (is_date_ok s) as ([|] & E & B); [exact E|]. apply B in D. discriminate. Qed.
Lemma is_date_no s : ~ date_shaped s -> is_date (Some s) = Ok false.
Proof. intros D. destruct (is_date_ok s) as ([|] & E & B); [|exact E]. destruct D. now apply B. Qed.

(** ** Codes *)

Lemma until_end (l r : list Z) : ~ In 0 l -> until 0 (l ++ 0 :: r) = l.
Proof.
  induction l as [|c l IH]; intros N; [reflexivity|]. cbn [app until]. destruct (Z.eqb_spec c 0) as [E|E]; [destruct N; left; exact E|].
  f_equal. apply IH. intros I. apply N. right. exact I.
Qed.

Lemma text_no0 l : text l -> ~ In 0 l.
Proof. unfold text. rewrite Forall_forall. intros F I. specialize (F 0 I). lia. Qed.

Lemma comp_ok sels net sta loc chan p st en v : codes_pattern net sta loc chan p ->
  addselect_comp sels net sta loc chan st en v = Ok (Some (addselect sels p st en v)).
Proof.
  intros (L & T & P & PL). inversion L as [|? ? L1 L']; subst. inversion L' as [|? ? L2 L'']; subst. inversion L'' as [|? ? L3 L''']; subst.
  inversion L''' as [|? ? L4 _]; subst. clear L L' L'' L'''.
  inversion T as [|? ? T1 T']; subst. inversion T' as [|? ? T2 T'']; subst. inversion T'' as [|? ? T3 T''']; subst. inversion T''' as [|? ? T4 _]; subst. clear T T' T'' T'''.
  unfold addselect_comp. rewrite !firstn_all2 by lia.
  assert (EL : (if text_eqb loc (zs "--") then [] else loc) = (if list_eq_dec Z.eq_dec loc [45; 45] then [] else loc)).
  { unfold text_eqb. change (zs "--") with [45; 45]. destruct (list_eq_dec Z.eq_dec loc [45; 45]); reflexivity. }
  rewrite EL. clear EL. set (lc := if list_eq_dec Z.eq_dec loc [45; 45] then [] else loc) in *.
  assert (TL : text lc) by (unfold lc; destruct (list_eq_dec _ _ _); [constructor|exact T3]). clearbody lc.
  destruct (glob_is selchan_glob [code_set; code_set; code_set] chan chan_toks_text) as (b & E & B); [apply sets_no_escape; repeat constructor|].
  rewrite E. cbn [bind].
  assert (CH : exists ch, (if b then let! x := seedchan2xchan (cstr chan) (repeat 0 20) in Ok (until 0 x) else Ok chan) = Ok ch /\
     text ch /\ extended_form ch = extended_form chan).
  { destruct b.
    - assert (M : mat [code_set; code_set; code_set] chan) by now apply B. unfold code_set in M.
      repeat match goal with M : mat (CSet false _ :: _) _ |- _ => inversion M; clear M; subst end.
      match goal with M : mat [] _ |- _ => inversion M; clear M; subst end.
      rewrite seedchan2xchan_ok by (auto; cbn [repeat length]; lia). cbn [bind].
      match goal with T : text [?x; ?y; ?z] |- _ => rename x into c1; rename y into c2; rename z into c3;
        assert (TX : text [c1; 95; c2; 95; c3]) by (unfold text in *; repeat match goal with H : Forall _ (_ :: _) |- _ => inversion H; clear H; subst end; repeat constructor; lia) end.
      exists [c1; 95; c2; 95; c3]. split; [|split; [exact TX|reflexivity]].
      f_equal. change ([c1; 95; c2; 95; c3; 0] ++ skipn 6 (repeat 0 20)) with ([c1; 95; c2; 95; c3] ++ 0 :: skipn 6 (repeat 0 20)).
      apply until_end. now apply text_no0.
    - exists chan. auto. }
  destruct CH as (ch & -> & TC & EX). cbn [bind].
  rewrite nslc2sid_ok by (try exact TC; rewrite repeat_length; lia). rewrite EX.
  set (w := sid_text net sta lc (extended_form chan)) in *.
  replace (Z.of_nat (length w) <? 100) with true by lia. cbn [bind]. replace (Z.of_nat (length w) <? 0) with false by lia.
  rewrite until_end; [reflexivity|]. apply text_no0. unfold w, sid_text.
  assert (TE : text (extended_form chan)).
  { unfold extended_form. destruct chan as [|c1 [|c2 [|c3 [|c4 r]]]]; try exact T4. unfold text in *.
    repeat match goal with H : Forall _ (_ :: _) |- _ => inversion H; clear H; subst end. repeat constructor; lia. }
  unfold text in *. repeat (apply Forall_app; split || apply Forall_cons); auto; try lia; try (repeat constructor; lia).
Qed.

(** ** Words *)

Lemma white_is c : white c <-> is_space_char c = true.
Proof. unfold white, is_space_char. lia. Qed.
Lemma nonwhite_is c : ~ white c <-> is_space_char c = false.
Proof. unfold white, is_space_char. lia. Qed.

Lemma trim_white ws : Forall white ws -> trim_end ws = [].
Proof.
  induction ws as [|c ws IH]; intros F; [reflexivity|]. inversion F; subst. cbn [trim_end]. rewrite IH by assumption.
  apply white_is in H1. now rewrite H1.
Qed.
Lemma trim_app a b : trim_end (a ++ b) = match trim_end b with [] => trim_end a | t => a ++ t end.
Proof.
  induction a as [|c a IH]; cbn [app trim_end].
  - destruct (trim_end b); reflexivity.
  - rewrite IH. destruct (trim_end b) as [|x t]; [reflexivity|]. destruct a; reflexivity.
Qed.
Lemma trim_word w : Forall (fun c => ~ white c) w -> trim_end w = w.
Proof.
  induction w as [|c w IH]; intros F; [reflexivity|]. inversion F; subst. cbn [trim_end]. rewrite IH by assumption.
  apply nonwhite_is in H1. rewrite H1. destruct w; reflexivity.
Qed.
Lemma skip_white ws : forall l, Forall white ws -> skip_ws (ws ++ l) = skip_ws l.
Proof.
  induction ws as [|c ws IH]; intros l F; [reflexivity|]. inversion F; subst. cbn [app skip_ws]. apply white_is in H1. rewrite H1. now apply IH.
Qed.

Lemma spaced_trim fs l : spaced fs l -> spaced fs (trim_end l).
Proof.
  induction 1 as [ws W|ws w fs rest W [N F] B S IH].
  - rewrite trim_white by exact W. constructor. constructor.
  - rewrite !trim_app. assert (TW : trim_end w = w) by now apply trim_word.
    destruct (trim_end rest) as [|c t] eqn:T.
    + rewrite TW. destruct w as [|c w]; [congruence|].
      replace (ws ++ c :: w) with (ws ++ (c :: w) ++ []) by now rewrite app_nil_r. apply spaced_word; [exact W|split; assumption|exact I|exact IH].
    + destruct (w ++ c :: t) as [|x y] eqn:E; [destruct w; discriminate|]. rewrite <- E. apply spaced_word; [exact W|split; assumption| |exact IH].
      destruct rest as [|r rest]; [discriminate|]. cbn [trim_end] in T. cbn [begins_white] in *.
      destruct (trim_end rest); [destruct (is_space_char r); [discriminate|]|]; injection T as <- _; exact B.
Qed.

Lemma spaced_skip c w fs l : spaced ((c :: w) :: fs) l -> exists rest, skip_ws l = (c :: w) ++ rest /\ spaced ((c :: w) :: fs) ((c :: w) ++ rest).
Proof.
  intros S. inversion S as [|ws w0 fs0 rest W [N F] B S']; subst. exists rest. split; [|apply (spaced_word [] (c :: w) fs rest); [constructor|split; assumption|exact B|exact S']].
  rewrite skip_white by exact W. inversion F; subst. cbn [app skip_ws]. apply nonwhite_is in H1. now rewrite H1.
Qed.

Lemma split_word w : forall rest w0 acc, Forall (fun c => ~ white c) w -> split_fields (w ++ rest) (Some w0) acc = split_fields rest (Some (w0 ++ w)) acc.
Proof.
  induction w as [|c w IH]; intros rest w0 acc F; [now rewrite app_nil_r|]. inversion F; subst. cbn [app split_fields].
  apply nonwhite_is in H1. rewrite H1, IH by assumption. now rewrite <- app_assoc.
Qed.
Lemma split_white ws : forall rest acc, Forall white ws -> split_fields (ws ++ rest) None acc = split_fields rest None acc.
Proof.
  induction ws as [|c ws IH]; intros rest acc F; [reflexivity|]. inversion F; subst. cbn [app split_fields]. apply white_is in H1. rewrite H1. now apply IH.
Qed.
Lemma split_ok fs l : spaced fs l -> forall acc, (length acc + length fs <= 7)%nat -> split_fields l None acc = acc ++ fs.
Proof.
  induction 1 as [ws W|ws w fs rest W [N F] B S IH]; intros acc L.
  - rewrite <- (app_nil_r ws), split_white by exact W. cbn [split_fields]. now rewrite app_nil_r.
  - rewrite split_white by exact W. destruct w as [|c w]; [congruence|]. inversion F as [|? ? C F']; subst. cbn [app split_fields length] in *.
    apply nonwhite_is in C. rewrite C. destruct (Nat.eqb_spec (length acc) 7); [lia|].
    rewrite split_word by exact F'. change ([c] ++ w) with (c :: w).
    assert (X : split_fields rest (Some (c :: w)) acc = split_fields rest None (acc ++ [c :: w])).
    { destruct rest as [|r rest]; [reflexivity|]. cbn [begins_white] in B. apply white_is in B. cbn [split_fields]. now rewrite B. }
    rewrite X, IH by (rewrite app_length; cbn [length]; lia). now rewrite <- app_assoc.
Qed.

(** ** Lines *)

Lemma writes_ok mode f t : writes f t -> is_date (Some f) = Ok true /\ line_time mode (Some f) = Ok (Some t).
Proof.
  intros (D & y & r & h & mi & s & ns & n & DT & L & N & Y & G & R & -> & O). split; [now apply is_date_yes|].
  unfold line_time. rewrite (dates_ok mode f y r h mi s ns n) by assumption. cbn [bind].
  destruct (Z.eqb_spec (epoch_ns n h mi s ns) NSTUNSET) as [E|E]; [destruct O; right; exact E|reflexivity].
Qed.

Lemma version_ok f v : version f v -> isinteger f = true /\ line_version (Some f) = Some v.
Proof.
  intros (D & -> & L). pose proof (digits_nonneg f D) as P. destruct D as [N F]. split.
  - unfold isinteger. apply forallb_forall. intros c I. rewrite Forall_forall in F. specialize (F c I). unfold isdigit. lia.
  - unfold line_version, strtol_digits. fold (number f). rewrite Z.min_l by lia. replace ((number f <? 0) || (255 <? number f)) with false by lia. reflexivity.
Qed.

Lemma no_number_ok f : no_number f -> isinteger f = false.
Proof.
  intros (c & I & N). unfold isinteger. destruct (forallb isdigit f) eqn:E; [|reflexivity]. rewrite forallb_forall in E. specialize (E c I). unfold isdigit in E. lia.
Qed.

Lemma quality_ok q v : version q v \/ no_number q /\ v = 0 ->
  line_version (if isinteger q then Some q else None) = Some v.
Proof.
  intros [V|[N ->]]; [destruct (version_ok q v V) as [-> E]; exact E|]. now rewrite no_number_ok.
Qed.

Lemma asks_line mode sels fs l p w v : spaced fs l -> (match fs with (c :: _) :: _ => c <> 35 | _ => False end) -> asks fs p w v ->
  sel_line mode sels l = Ok (Counted (addselect sels p (fst w) (snd w) v)).
Proof.
  intros S H A. unfold sel_line. apply spaced_trim in S. destruct fs as [|[|c w0] fs]; try easy.
  destruct (spaced_skip c w0 fs _ S) as (rest & E & SR). rewrite E. cbn [app]. destruct (Z.eqb_spec c 35) as [X|_]; [destruct (H X)|]. clear E S.
  assert (L7 : (length ((c :: w0) :: fs) <= 7)%nat) by (inversion A; subst; cbn [length]; lia).
  apply (split_ok _ _) with (acc := []) in SR; [|exact L7]. cbn [app] in SR. rewrite SR. cbv zeta. clear SR L7 H.
  set (first := c :: w0) in *. clearbody first. clear c w0 rest.
  assert (D1 : forall sta loc, ~ date_shaped sta -> ~ date_shaped loc -> is_date (Some sta) = Ok false /\ is_date (Some loc) = Ok false)
    by (intros; split; now apply is_date_no).
  inversion A; subst; cbn [nth_error nth length Nat.eqb Nat.ltb Nat.leb andb orb is_date fst snd];
  repeat match goal with
  | W : writes ?a ?st |- _ => destruct (writes_ok mode a st W); clear W
  | V : version ?c ?v |- _ => destruct (version_ok c v V); clear V
  | D : ~ date_shaped ?x |- _ => apply is_date_no in D
  | Q : version ?q ?v \/ _ |- _ => apply quality_ok in Q
  | C : codes_pattern _ _ _ _ _ |- _ => pose proof (fun st en v => comp_ok sels _ _ _ _ _ st en v C); clear C
  end; cbn [is_date] in *; fold is_date in *.
  all: assert (LN : line_time mode None = Ok (Some NSTUNSET)) by reflexivity.
  all: assert (VN : line_version None = Some 0) by reflexivity.
  all: repeat (match goal with
       | H : ms_globmatch ?x date_glob = Ok _ |- context [ms_globmatch ?x date_glob] => rewrite H
       | H : isinteger ?x = _ |- context [isinteger ?x] => rewrite H
       | H : line_time _ ?x = Ok _ |- context [line_time _ ?x] => rewrite H
       | H : line_version ?x = _ |- context [line_version ?x] => rewrite H
       | H : forall st en v, addselect_comp _ _ _ _ _ st en v = _ |- context [addselect_comp] => rewrite H
       end; cbn [bind andb orb]).
  all: reflexivity.
Qed.

Lemma blank_line mode sels ws : Forall white ws -> sel_line mode sels ws = Ok Passed.
Proof. intros W. unfold sel_line. rewrite trim_white by exact W. reflexivity. Qed.

Lemma remark_line mode sels ws l : Forall white ws -> sel_line mode sels (ws ++ 35 :: l) = Ok Passed.
Proof.
  intros W. unfold sel_line. rewrite trim_app.
  assert (T : exists t, trim_end (35 :: l) = 35 :: t) by (cbn [trim_end]; destruct (trim_end l); [exists []; reflexivity|eauto]).
  destruct T as (t & ->). rewrite skip_white by exact W. reflexivity.
Qed.

Definition step (sels : list sel) (e : option (list Z * (Z * Z) * Z)) : line_result :=
  match e with None => Passed | Some (p, (a, b), v) => Counted (addselect sels p a b v) end.

Lemma states_line mode sels l e : states_sel l e -> sel_line mode sels l = Ok (step sels e).
Proof.
  intros [ws W|ws l0 W|fs l0 p [a b] v S H A].
  - now apply blank_line.
  - now apply remark_line.
  - exact (asks_line mode sels fs l0 p (a, b) v S H A).
Qed.

Lemma spaced_more fs l c : spaced fs l -> white c -> spaced fs (l ++ [c]).
Proof.
  intros S W. induction S as [ws F|ws w fs rest F N B S IH].
  - constructor. apply Forall_app; auto.
  - rewrite <- !app_assoc. apply spaced_word; auto. destruct rest; [exact W|exact B].
Qed.

Lemma states_newline l e : states_sel l e -> states_sel (l ++ [10]) e.
Proof.
  intros [ws W|ws l0 W|fs l0 p w v S H A].
  - constructor. apply Forall_app; split; [exact W|]. constructor; [unfold white; lia|constructor].
  - rewrite <- app_assoc. cbn [app]. now constructor.
  - apply (states_asks fs _ p w v); auto. apply spaced_more; [exact S|unfold white; lia].
Qed.

(** ** Files *)

Lemma sel_step fuel mode sels count (buf rest : list Z) c more e : fgets 198 (c :: more) = (buf, rest) -> ~ In 0 buf -> states_sel buf e ->
  -2147483648 <= count + 1 <= 2147483647 ->
  sel_loop (Datatypes.S fuel) mode sels count (c :: more) =
    sel_loop fuel mode (extended sels (asked [e])) (count + Z.of_nat (length (asked [e]))) rest.
Proof.
  intros E1 N E3 C. cbn [sel_loop]. rewrite E1, until_none by exact N. rewrite (states_line mode sels buf e E3). cbn [bind].
  destruct e as [[[p [a b]] v]|]; cbn [step asked extended fold_left length].
  - rewrite sarith_ok by (unfold in_s; change (2 ^ (32 - 1)) with 2147483648; lia). reflexivity.
  - now rewrite Z.add_0_r.
Qed.

Lemma asked_cons e es : asked (e :: es) = asked [e] ++ asked es.
Proof. destruct e; reflexivity. Qed.
Lemma asked_short e : (length (asked [e]) <= 1)%nat.
Proof. destruct e; cbn; lia. Qed.
Lemma extended_app l a b : extended l (a ++ b) = extended (extended l a) b.
Proof. apply fold_left_app. Qed.

Lemma lines_ok mode ls : forall es rest fuel sels count, Forall2 states_sel ls es -> Forall short_line ls ->
  (length (file_of ls rest) <= fuel)%nat -> 0 <= count -> count + Z.of_nat (length ls) < 2147483648 ->
  exists fuel', (length rest <= fuel')%nat /\
    sel_loop fuel mode sels count (file_of ls rest) =
    sel_loop fuel' mode (extended sels (asked es)) (count + Z.of_nat (length (asked es))) rest.
Proof.
  unfold file_of. induction ls as [|l ls IH]; intros es rest fuel sels count ST G F C0 C; inversion ST as [|? e0 ? es' S0 S1]; subst; cbn [map concat app].
  - exists fuel. split; [exact F|]. cbn [asked extended fold_left length]. now rewrite Z.add_0_r.
  - inversion G as [|? ? (N & Z0 & L) G']; subst. cbn [map concat length] in F, C. rewrite <- !app_assoc in *. cbn [app] in *.
    set (tail := concat (map (fun l => l ++ [10]) ls) ++ rest) in *.
    rewrite app_length in F. cbn [length] in F.
    assert (IHt : forall fu se co, (length tail <= fu)%nat -> 0 <= co -> co + Z.of_nat (length ls) < 2147483648 ->
      exists fuel', (length rest <= fuel')%nat /\ sel_loop fu mode se co tail = sel_loop fuel' mode (extended se (asked es')) (co + Z.of_nat (length (asked es'))) rest) by (intros; now apply IH).
    clearbody tail. rewrite (asked_cons e0), extended_app, app_length. pose proof (asked_short e0) as A1.
    assert (X : exists c more, l ++ 10 :: tail = c :: more) by (destruct l; cbn [app]; eauto).
    destruct X as (c & more & X).
    destruct (Nat.lt_ge_cases (length l) 198) as [LT|GE].
    + assert (FG : fgets 198 (l ++ 10 :: tail) = (l ++ [10], tail)) by now apply fgets_line.
      destruct fuel; [lia|]. rewrite X in *.
      rewrite (sel_step fuel mode sels count (l ++ [10]) tail c more e0 FG); [| |now apply states_newline|lia].
      * destruct (IHt fuel (extended sels (asked [e0])) (count + Z.of_nat (length (asked [e0])))) as (f' & F' & E); [lia..|].
        exists f'. split; [exact F'|]. rewrite E. f_equal. lia.
      * rewrite in_app_iff. intros [Y|[Y|[]]]; [auto|discriminate].
    + assert (LE : length l = 198%nat) by lia.
      assert (FG : fgets 198 (l ++ 10 :: tail) = (l, 10 :: tail)) by now apply fgets_full.
      destruct fuel; [lia|]. destruct fuel; [lia|]. rewrite X in *.
      rewrite (sel_step (Datatypes.S fuel) mode sels count l (10 :: tail) c more e0 FG); [|auto|auto|lia].
      assert (B : sel_line mode (extended sels (asked [e0])) (until 0 [10]) = Ok Passed) by reflexivity.
      assert (FT : fgets 198 (10 :: tail) = ([10], tail)) by (apply (fgets_line 198 [] tail); [intros []|cbn [length]; lia]).
      cbn [sel_loop]. rewrite FT.
      rewrite B. cbn [bind].
      destruct (IHt fuel (extended sels (asked [e0])) (count + Z.of_nat (length (asked [e0])))) as (f' & F' & E); [lia..|].
      exists f'. split; [exact F'|]. rewrite E. f_equal. lia.
Qed.

Lemma file_ok mode sels ls es last e : Forall2 states_sel ls es -> Forall short_line ls -> states_sel last e -> short_line last ->
  Z.of_nat (length ls) < 2 ^ 31 - 1 ->
  readselectionsfile mode sels (Some (file_of ls last)) = Ok (extended sels (asked (es ++ [e])), Z.of_nat (length (asked (es ++ [e])))).
Proof.
  intros ST G SL (N & Z0 & L) C. unfold readselectionsfile. change (2 ^ 31 - 1) with 2147483647 in C.
  destruct (lines_ok mode ls es last (length (file_of ls last)) sels 0) as (f & F & ->); [assumption|assumption|lia|lia|lia|].
  assert (LE : (length (asked es) <= length ls)%nat).
  { clear - ST. induction ST as [|? e0 ? es]; [cbn; lia|]. rewrite asked_cons, app_length. pose proof (asked_short e0). cbn [length]. lia. }
  assert (AA : asked (es ++ [e]) = asked es ++ asked [e]).
  { clear. induction es as [|x es IH]; [reflexivity|]. cbn [app]. rewrite asked_cons, IH, (asked_cons x es), app_assoc. reflexivity. }
  rewrite AA, extended_app, app_length. set (S0 := extended sels (asked es)). destruct last as [|c last].
  - assert (E : e = None).
    { pose proof (states_line mode sels [] e SL) as X. cbn in X. destruct e as [[[p [a b]] v]|]; [discriminate X|reflexivity]. }
    subst e. cbn [asked extended fold_left length]. rewrite Nat.add_0_r. destruct f; reflexivity.
  - destruct f; [cbn [length] in F; lia|].
    rewrite (sel_step f mode S0 _ (c :: last) [] c last e); [|apply fgets_end; auto|auto|auto|lia].
    destruct f; cbn [sel_loop]; f_equal; f_equal; lia.
Qed.

(** ** Versions over 255 *)

Lemma big_ok f : digits f -> 255 < number f -> isinteger f = true /\ line_version (Some f) = None.
Proof.
  intros (N & F) V. split.
  - unfold isinteger. apply forallb_forall. intros c I. rewrite Forall_forall in F. specialize (F c I). unfold isdigit. lia.
  - unfold line_version, strtol_digits. fold (number f). destruct (255 <? Z.min (number f) 9223372036854775807) eqn:E; [now rewrite orb_true_r|lia].
Qed.

Lemma big_line mode sels l : big_version l -> sel_line mode sels l = Ok GivenUp.
Proof.
  intros (fs & S & H & B).
  unfold sel_line. destruct fs as [|[|c w] fs]; [contradiction..|].
  assert (S1 := spaced_trim _ _ S). destruct (spaced_skip _ _ _ _ S1) as (rest & -> & S2).
  cbn [app]. replace (c =? 35) with false by lia.
  assert (L : (length ((c :: w) :: fs) <= 7)%nat).
  { destruct B as [(p & a & b & v & st & en & E & _)|(net & sta & loc & chan & q & more & E & _ & _ & _ & _ & M)]; rewrite E; cbn [length]; [lia|].
    destruct M as [->|[(a & st & -> & _)|(a & b & st & en & -> & _)]]; cbn; lia. }
  pose proof (split_ok _ _ S2 [] L) as SP. cbn [app] in SP. rewrite SP. clear SP L S S1 S2 H.
  set (F := (c :: w) :: fs) in *. clearbody F. clear c w fs rest.
  assert (LN : line_time mode None = Ok (Some NSTUNSET)) by reflexivity.
  destruct B as [(p & a & b & v & st & en & E & Wa & Wb & D & V)|(net & sta & loc & chan & q & more & E & D & V & N1 & N2 & M)].
  - subst F. destruct (writes_ok mode a st Wa) as [A1 A2], (writes_ok mode b en Wb) as [B1 B2], (big_ok v D V) as [V1 V2].
    cbn [nth_error nth length]. rewrite A1, B1. cbn [bind is_date]. rewrite A2. cbn [bind]. rewrite B2. cbn [bind Nat.eqb andb orb]. rewrite V1, V2. reflexivity.
  - destruct (big_ok q D V) as [V1 V2]. pose proof (is_date_no sta N1) as D1. pose proof (is_date_no loc N2) as D2.
    assert (DN : is_date None = Ok false) by reflexivity.
    destruct M as [->|[(a & st & -> & Wa)|(a & b & st & en & -> & Wa & Wb)]]; subst F; cbn [nth_error nth length app];
      rewrite D1, D2; cbn [bind]; rewrite ?DN; cbn [bind].
    + rewrite LN. cbn [bind Nat.eqb andb orb Nat.ltb Nat.leb]. rewrite V1, V2. reflexivity.
    + destruct (writes_ok mode a st Wa) as [A1 A2]. rewrite A1. cbn [bind]. rewrite A2. cbn [bind]. rewrite ?LN. cbn [bind Nat.eqb andb orb Nat.ltb Nat.leb]. rewrite V1, V2. reflexivity.
    + destruct (writes_ok mode a st Wa) as [A1 A2], (writes_ok mode b en Wb) as [B1 B2]. rewrite A1. cbn [bind]. rewrite B1. cbn [bind]. rewrite A2. cbn [bind]. rewrite B2. cbn [bind Nat.eqb andb orb Nat.ltb Nat.leb]. rewrite V1, V2. reflexivity.
Qed.

Lemma big_newline l : big_version l -> big_version (l ++ [10]).
Proof. intros (fs & S & H & B). exists fs. split; [apply spaced_more; [exact S|unfold white; lia]|auto]. Qed.

Lemma stops_ok mode sels ls es l rest : Forall2 states_sel ls es -> Forall short_line ls -> big_version l -> short_line l ->
  Z.of_nat (length ls) < 2 ^ 31 ->
  readselectionsfile mode sels (Some (file_of ls (l ++ 10 :: rest))) = Ok (extended sels (asked es), -1).
Proof.
  intros ST G B (N & Z0 & L) C. unfold readselectionsfile. change (2 ^ 31) with 2147483648 in C.
  destruct (lines_ok mode ls es (l ++ 10 :: rest) (length (file_of ls (l ++ 10 :: rest))) sels 0) as (f & F & ->); [assumption|assumption|lia|lia|lia|].
  rewrite app_length in F. cbn [length] in F. destruct f; [lia|].
  assert (X : exists c more, l ++ 10 :: rest = c :: more) by (destruct l; cbn [app]; eauto).
  destruct X as (c & more & X). rewrite X. cbn [sel_loop]. rewrite <- X.
  destruct (Nat.lt_ge_cases (length l) 198) as [LT|GE].
  - rewrite (fgets_line 198 l rest) by assumption. rewrite until_none, big_line; [reflexivity|now apply big_newline|].
    rewrite in_app_iff. intros [Y|[Y|[]]]; [auto|discriminate].
  - assert (LE : length l = 198%nat) by lia. rewrite (fgets_full 198 l (10 :: rest)) by assumption. rewrite until_none, big_line by assumption. reflexivity.
Qed.

(** ** Lines of neither form *)

Lemma date_or_not_ok mode a : date_or_not a -> exists d, is_date (Some a) = Ok d /\ (d = true <-> date_shaped a) /\
  exists t, line_time mode (if d then Some a else None) = Ok (Some t).
Proof.
  intros [N|(t & W)].
  - exists false. split; [now apply is_date_no|]. split; [split; [discriminate|tauto]|]. exists NSTUNSET. reflexivity.
  - destruct (writes_ok mode a t W) as [A B]. exists true. split; [exact A|]. split; [destruct W; tauto|]. exists t. exact B.
Qed.

Lemma neither_line mode sels l : neither l -> sel_line mode sels l = Ok (Counted sels).
Proof.
  intros (fs & S & H & B).
  unfold sel_line. destruct fs as [|[|c w] fs]; [contradiction..|].
  assert (S1 := spaced_trim _ _ S). destruct (spaced_skip _ _ _ _ S1) as (rest & -> & S2).
  cbn [app]. replace (c =? 35) with false by lia.
  assert (L : (length ((c :: w) :: fs) <= 7)%nat).
  { destruct B as [(p & a & E & _)|[(p & a & b & E & _)|[(net & sta & loc & chan & q & a & E & _)|(net & sta & loc & chan & q & a & b & E & _)]]]; rewrite E; cbn [length]; lia. }
  pose proof (split_ok _ _ S2 [] L) as SP. cbn [app] in SP. rewrite SP. clear SP L S S1 S2 H.
  set (F := (c :: w) :: fs) in *. clearbody F. clear c w fs rest.
  assert (LN : line_time mode None = Ok (Some NSTUNSET)) by reflexivity. assert (DN : is_date None = Ok false) by reflexivity.
  destruct B as [(p & a & E & Na)|[(p & a & b & E & Da & Db & N)|[(net & sta & loc & chan & q & a & E & N1 & N2 & Na)|(net & sta & loc & chan & q & a & b & E & N1 & N2 & Da & Db & N)]]];
    subst F; cbn [nth_error nth length].
  - rewrite (is_date_no a Na), !DN. cbn [bind]. rewrite LN. cbn [bind Nat.eqb andb orb]. reflexivity.
  - destruct (date_or_not_ok mode a Da) as (da & A1 & A2 & ta & A3), (date_or_not_ok mode b Db) as (db & B1 & B2 & tb & B3).
    rewrite A1, B1, !DN. cbn [bind]. rewrite A3. cbn [bind]. rewrite B3. cbn [bind Nat.eqb andb orb].
    replace (da && db) with false; [reflexivity|]. destruct da, db; try reflexivity. exfalso. destruct N as [N|N]; apply N; [apply A2|apply B2]; reflexivity.
  - rewrite (is_date_no _ N1), (is_date_no _ N2), (is_date_no _ Na), DN. cbn [bind]. rewrite LN. cbn [bind Nat.eqb andb orb]. reflexivity.
  - destruct (date_or_not_ok mode a Da) as (da & A1 & A2 & ta & A3), (date_or_not_ok mode b Db) as (db & B1 & B2 & tb & B3).
    rewrite (is_date_no _ N1), (is_date_no _ N2), A1, B1. cbn [bind]. rewrite A3. cbn [bind]. rewrite B3. cbn [bind Nat.eqb andb orb].
    replace (da && db) with false; [reflexivity|]. destruct da, db; try reflexivity. exfalso. destruct N as [N|N]; apply N; [apply A2|apply B2]; reflexivity.
Qed.

Lemma neither_newline l : neither l -> neither (l ++ [10]).
Proof. intros (fs & S & H & B). exists fs. split; [apply spaced_more; [exact S|unfold white; lia]|auto]. Qed.

Lemma neither_ok mode sels ls es l : Forall2 states_sel ls es -> Forall short_line ls -> neither l -> short_line l ->
  Z.of_nat (length ls) < 2 ^ 31 - 1 ->
  readselectionsfile mode sels (Some (file_of ls l)) = Ok (extended sels (asked es), Z.of_nat (length (asked es)) + 1).
Proof.
  intros ST G B (N & Z0 & L) C. unfold readselectionsfile. change (2 ^ 31 - 1) with 2147483647 in C.
  assert (LA : forall ls es, Forall2 states_sel ls es -> (length (asked es) <= length ls)%nat).
  { clear. induction 1 as [|l e ls es _ _ IH]; cbn [length]; [cbn; lia|]. rewrite asked_cons, app_length. pose proof (asked_short e). lia. }
  specialize (LA _ _ ST).
  destruct (lines_ok mode ls es l (length (file_of ls l)) sels 0) as (f & F & ->); [assumption|assumption|lia|lia|lia|].
  assert (NE : l <> []).
  { intros ->. destruct B as ([|[|c w] fs] & S & H & _); [contradiction..|]. inversion S as [|ws w' fs' rest _ _ _ _ E1 E2]. apply app_eq_nil in E2. destruct E2 as [_ E2]. discriminate E2. }
  destruct l as [|c more]; [congruence|]. destruct f; [cbn in F; lia|]. cbn [sel_loop].
  assert (FG : fgets 198 (c :: more) = (c :: more, [])).
  { apply fgets_end; assumption. }
  rewrite FG, until_none, neither_line by assumption. cbn [bind]. rewrite sarith_ok by (unfold in_s; lia). cbn [bind].
  destruct f; cbn [sel_loop]; reflexivity.
Qed.

(** ** What is selected *)

Lemma addselect_wellformed l p a b v : wellformed l -> good_request (p, (a, b), v) -> wellformed (addselect l p a b v).
Proof.
  intros W (D & L & WW & V). unfold addselect. destruct (add_window l p a b v) as [l'|] eqn:A.
  - apply add_window_some in A. destruct A as (x & e & y & -> & P & Q & ->). unfold wellformed in *. apply Forall_app in W. destruct W as [W1 W2].
    inversion W2 as [|? ? (D0 & F0 & V0) W3]; subst. apply Forall_app. split; [exact W1|]. constructor; [|exact W3].
    cbn [s_pat s_win s_ver]. split; [exact D0|split; [constructor; assumption|exact V0]].
  - rewrite firstn_all2 by exact L. constructor; [|exact W]. cbn [s_pat s_win s_ver]. auto.
Qed.

Lemma extended_wellformed rs : forall l, wellformed l -> Forall good_request rs -> wellformed (extended l rs).
Proof.
  induction rs as [|[[p [a b]] v] rs IH]; intros l W F; [exact W|]. inversion F; subst. cbn [extended fold_left]. apply IH; [now apply addselect_wellformed|assumption].
Qed.

Lemma selects_ok mode ls es last e sid st en qv : Forall2 states_sel ls es -> Forall short_line ls -> states_sel last e -> short_line last ->
  Z.of_nat (length ls) < 2 ^ 31 - 1 ->
  Forall good_request (asked (es ++ [e])) ->
  ~ open st -> ~ open en -> st <= en ->
  exists l n r, readselectionsfile mode [] (Some (file_of ls last)) = Ok (l, n) /\ matchselect l sid st en qv = Ok r /\
    (r <> None <-> exists p w v, In (p, w, v) (asked (es ++ [e])) /\ matches p sid /\ (v = 0 \/ v = qv) /\ overlaps st en w).
Proof.
  intros ST G SL GL C P O1 O2 O. rewrite (file_ok mode [] ls es last e) by assumption.
  assert (W : wellformed (extended [] (asked (es ++ [e])))) by (apply extended_wellformed; [constructor|exact P]).
  destruct (matchselect_ok _ sid st en qv W O1 O2 O) as (r & R & M). do 3 eexists. split; [reflexivity|]. split; [exact R|].
  assert (B := build_selected (asked (es ++ [e])) sid st en qv). rewrite <- B.
  - fold (extended [] (asked (es ++ [e]))) in *. change (build (asked (es ++ [e]))) with (extended [] (asked (es ++ [e]))). destruct r as [[x w]|].
    + destruct M as (I & E & _). split; [intros _; exists x; auto|discriminate].
    + split; [intros X; now contradiction X|intros X; contradiction].
  - apply Forall_forall. intros [[p w] v] I. rewrite Forall_forall in P. destruct (P _ I) as (_ & L & _). exact L.
Qed.
