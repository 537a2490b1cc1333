(** * Proofs about time strings. *)
From Coq Require Import Lqa.
From Verif Require Import BaseLemmas FloatOps FloatOpsProof TimeModel TimeSpec TimeProof TimeStrModel TimeStrSpec.
Open Scope Z_scope.
Open Scope list_scope.

(** ** Digits *)

Lemma pad_length w v : length (pad w v) = w.
Proof. revert v; induction w; intros v; simpl; auto. rewrite app_length, IHw. simpl. lia. Qed.

Lemma pow10_pos w : 0 < 10 ^ Z.of_nat w.
Proof. apply Z.pow_pos_nonneg; lia. Qed.

Lemma pow10_S w : 10 ^ Z.of_nat (S w) = 10 * 10 ^ Z.of_nat w.
Proof. rewrite Nat2Z.inj_succ, Z.pow_succ_r by lia. reflexivity. Qed.

Lemma div10_range w v : 0 <= v < 10 ^ Z.of_nat (S w) -> 0 <= v / 10 < 10 ^ Z.of_nat w.
Proof. rewrite pow10_S. pose proof (pow10_pos w). intros. lia. Qed.

Lemma pad_digits w : forall v, 0 <= v -> Forall (fun c => is_digit c = true) (pad w v).
Proof.
  induction w; intros v H; simpl; [constructor|].
  apply Forall_app. split; [apply IHw; lia|]. constructor; [|constructor]. unfold is_digit. lia.
Qed.

Lemma scan_digits_pad w : forall v rest acc n, 0 <= v < 10 ^ Z.of_nat w ->
  scan_digits (pad w v ++ rest) acc n = scan_digits rest (acc * 10 ^ Z.of_nat w + v) (n + w).
Proof.
  induction w as [|w IH]; intros v rest acc n H.
  - cbn [pad app]. change (10 ^ Z.of_nat 0) with 1 in *. rewrite Nat.add_0_r. f_equal. lia.
  - cbn [pad]. rewrite <- app_assoc. rewrite IH by (apply div10_range; auto).
    cbn [app scan_digits]. replace (is_digit (v mod 10 + 48)) with true by (unfold is_digit; lia).
    f_equal; [|lia]. rewrite pow10_S. lia.
Qed.

Lemma pad_cons w v : exists c ds, 0 <= v -> pad (S w) v = c :: ds /\ is_digit c = true.
Proof.
  destruct (pad (S w) v) as [|c ds] eqn:E.
  - pose proof (pad_length (S w) v). rewrite E in H. discriminate.
  - exists c, ds. intros H. split; auto. pose proof (pad_digits (S w) v H) as F. rewrite E in F. now inversion F.
Qed.

Lemma pad_lead k : forall j v, 0 <= v < 10 ^ Z.of_nat k -> pad (j + k) v = repeat 48 j ++ pad k v.
Proof.
  induction k as [|k IH]; intros j v H.
  - rewrite Nat.add_0_r. assert (v = 0) by (simpl in H; lia). subst v. simpl. rewrite app_nil_r.
    clear. induction j; [reflexivity|]. cbn [pad]. change (0 / 10) with 0. rewrite IHj.
    change (0 mod 10 + 48) with 48. now rewrite <- repeat_cons.
  - rewrite Nat.add_succ_r. cbn [pad]. rewrite IH by (apply div10_range; auto). now rewrite app_assoc.
Qed.

Lemma ndig_ok fuel : forall v, 0 <= v < 10 ^ Z.of_nat (S fuel) ->
  (1 <= ndig fuel v)%nat /\ v < 10 ^ Z.of_nat (ndig fuel v) /\ (v = 0 \/ 10 ^ (Z.of_nat (ndig fuel v) - 1) <= v).
Proof.
  induction fuel as [|f IH]; intros v H.
  - simpl. simpl in H. lia.
  - cbn [ndig]. destruct (Z.ltb_spec v 10).
    + simpl. lia.
    + destruct (IH (v / 10) (div10_range _ _ H)) as (A & B & C).
      split; [lia|]. rewrite pow10_S. split; [lia|]. right.
      replace (Z.of_nat (S (ndig f (v / 10))) - 1) with (Z.succ (Z.of_nat (ndig f (v / 10)) - 1)) by lia.
      rewrite Z.pow_succ_r by lia. destruct C; lia.
Qed.

Lemma dec_length v w : 0 <= v < 10 ^ Z.of_nat w -> (1 <= w <= 20)%nat ->
  exists k, (1 <= k <= w)%nat /\ dec v = pad k v /\ v < 10 ^ Z.of_nat k.
Proof.
  intros H W. exists (ndig 20 v). 
  assert (B : 0 <= v < 10 ^ Z.of_nat 21).
  { assert (10 ^ Z.of_nat w <= 10 ^ Z.of_nat 21) by (apply Z.pow_le_mono_r; lia). lia. }
  destruct (ndig_ok 20 v B) as (A & C & D).
  split; [|split; [|exact C]].
  - split; [exact A|]. destruct D as [->|D]; [simpl; lia|].
    destruct (Nat.le_gt_cases (ndig 20 v) w) as [L|L]; auto.
    assert (10 ^ Z.of_nat w <= 10 ^ (Z.of_nat (ndig 20 v) - 1)) by (apply Z.pow_le_mono_r; lia). lia.
  - unfold dec. destruct (Z.ltb_spec v 0); [lia|]. reflexivity.
Qed.

Lemma dec0_pad w v : 0 <= v < 10 ^ Z.of_nat w -> (1 <= w <= 20)%nat -> dec0 w v = pad w v.
Proof.
  intros H W. destruct (dec_length v w H W) as (k & K & E & B). unfold dec0. rewrite E, pad_length.
  rewrite <- (pad_lead k) by lia. f_equal. lia.
Qed.

Lemma decs4 v : 1000 <= v <= 9999 -> decs 4 v = pad 4 v.
Proof.
  intros H. unfold decs, dec. destruct (Z.ltb_spec v 0); [lia|].
  assert (E : ndig 20 v = 4%nat).
  { cbn [ndig]. destruct (Z.ltb_spec v 10); [lia|]. destruct (Z.ltb_spec (v / 10) 10); [lia|].
    destruct (Z.ltb_spec (v / 10 / 10) 10); [lia|]. destruct (Z.ltb_spec (v / 10 / 10 / 10) 10); [|lia]. reflexivity. }
  rewrite E, pad_length. reflexivity.
Qed.

(** ** Scanning *)

Definition no_digit (s : list Z) : Prop := match s with c :: _ => is_digit c = false | [] => True end.

Lemma scan_digits_stop s acc n : no_digit s -> scan_digits s acc n = (acc, n, s).
Proof. destruct s as [|c s]; simpl; auto. intros ->. reflexivity. Qed.

Lemma digit_facts c : is_digit c = true ->
  is_space_char c = false /\ is_delim c = false /\ c <> 43 /\ c <> 45 /\ c <> 84 /\ c <> 32.
Proof. unfold is_digit, is_space_char, is_delim. cbn. intros. repeat split; lia. Qed.

Lemma scan_sign_digit c s : is_digit c = true -> scan_sign (c :: s) = (false, c :: s).
Proof.
  intros H. unfold is_digit in H. unfold scan_sign. destruct c as [|p|p]; auto.
  do 6 (destruct p as [p|p|]; auto); try (simpl in H; lia).
Qed.

Lemma scan_int_pad w v wd rest : 0 <= v < 10 ^ Z.of_nat (S wd) -> in_s w v -> no_digit rest ->
  scan_int w (pad (S wd) v ++ rest) = Ok (Some (v, rest)).
Proof.
  intros H R N. unfold scan_int. destruct (pad_cons wd v) as (c & ds & P). destruct (P ltac:(lia)) as [P1 P2].
  destruct (digit_facts c P2) as (S1 & _).
  assert (skip_ws (pad (S wd) v ++ rest) = pad (S wd) v ++ rest) as -> by (rewrite P1; simpl; now rewrite S1).
  assert (scan_sign (pad (S wd) v ++ rest) = (false, pad (S wd) v ++ rest)) as ->
    by (rewrite P1; cbn [app]; now apply scan_sign_digit).
  rewrite scan_digits_pad by auto. rewrite scan_digits_stop by auto. cbn [Nat.add].
  rewrite Z.mul_0_l, Z.add_0_l. apply in_sb_spec in R. now rewrite R.
Qed.

Lemma scan_int_neg w v wd rest : 0 <= v < 10 ^ Z.of_nat (S wd) -> in_s w (- v) -> no_digit rest ->
  scan_int w (45 :: pad (S wd) v ++ rest) = Ok (Some (- v, rest)).
Proof.
  intros H R N. unfold scan_int.
  assert (X : forall s, scan_sign (skip_ws (45 :: s)) = (true, s)) by reflexivity. rewrite X.
  rewrite scan_digits_pad by auto. rewrite scan_digits_stop by auto. cbn [Nat.add].
  rewrite Z.mul_0_l, Z.add_0_l. apply in_sb_spec in R. now rewrite R.
Qed.

Definition digitless (set : list Z) : Prop := forall c, is_digit c = true -> existsb (Z.eqb c) set = false.

Lemma scan_set_pad set c wd v rest : existsb (Z.eqb c) set = true -> digitless set -> 0 <= v ->
  scan_set set (c :: pad (S wd) v ++ rest) = Some (pad (S wd) v ++ rest).
Proof.
  intros C D H. unfold scan_set. rewrite C. cbn [drop_set]. rewrite C.
  destruct (pad_cons wd v) as (d & ds & P). destruct (P H) as [-> P2]. cbn [app drop_set]. now rewrite (D d P2).
Qed.

Lemma sets_digitless : digitless set_md1 /\ digitless set_md2 /\ digitless set_seed1 /\ digitless set_seed2.
Proof.
  repeat split; intros c H; unfold is_digit in H; cbn;
  repeat match goal with |- context [?a =? ?b] => destruct (Z.eqb_spec a b); [lia|] end; reflexivity.
Qed.

(** ** Fractions *)

Lemma qtrunc_ok z N : 0 <= N -> (inject_Z N <= z)%Q -> (z < inject_Z (N + 1))%Q -> qtrunc z = N.
Proof.
  intros HN H1 H2. destruct z as [n d]. unfold qtrunc. cbn [Qnum Qden].
  unfold Qle, Qlt, inject_Z in *; cbn [Qnum Qden] in *.
  rewrite Z.quot_div_nonneg by nia. symmetry. apply (Z.div_unique n (Zpos d) N (n - Zpos d * N)); lia.
Qed.

Lemma scale_err (N n k : Z) : 0 <= k <= 9 -> 0 <= n < 10 ^ k -> N = n * 10 ^ (9 - k) ->
  exists q, rnd64 (Qmake n (Z.to_pos (10 ^ k))) = Some q /\ (Qeq_bool q 0 = true -> N = 0) /\
    exists z, fsec_scaled q = Ok z /\ qtrunc z = N.
Proof.
  intros Hk Hn HN.
  assert (Pk : 0 < 10 ^ k) by (apply Z.pow_pos_nonneg; lia).
  assert (Pj : 0 < 10 ^ (9 - k)) by (apply Z.pow_pos_nonneg; lia).
  assert (PP : 10 ^ k * 10 ^ (9 - k) = 1000000000) by (rewrite <- Z.pow_add_r by lia; replace (k + (9 - k)) with 9 by lia; reflexivity).
  assert (BN : 0 <= N <= 999999999) by nia.
  set (x := Qmake n (Z.to_pos (10 ^ k))).
  assert (Ex : (x * inject_Z 1000000000 == inject_Z N)%Q).
  { unfold x, Qeq, inject_Z, Qmult; cbn [Qnum Qden]. rewrite Pos.mul_1_r, Z2Pos.id by lia. rewrite HN, <- PP. ring. }
  assert (BX : (0 <= x /\ x <= 999999999 # 1000000000)%Q).
  { rewrite zq_le in BN. destruct BN as [B1 B2]. rewrite zq_le in B2. rewrite <- Ex in B1, B2.
    change (inject_Z 0) with 0%Q in *. change (inject_Z 1000000000) with 1000000000%Q in *.
    change (inject_Z 999999999) with 999999999%Q in *. lra. }
  destruct (rnd64_err x 0) as (q & Eq & Q0 & Q1); [lia|tauto|change (P2 0) with 1%Q; lra|].
  exists q. split; [exact Eq|]. change (P2 (0 - 54)) with (1 # 18014398509481984)%Q in Q1.
  change (inject_Z 1000000000) with 1000000000%Q in *.
  split.
  - intros Z0. apply Qeq_bool_eq in Z0. 
    assert (inject_Z N < inject_Z 1)%Q by (rewrite <- Ex; change (inject_Z 1) with 1%Q; lra).
    rewrite <- zq_lt in H. lia.
  - unfold fsec_scaled. change (inject_Z 1000000000) with 1000000000%Q.
    destruct (rnd64_err (q * 1000000000) 30) as (y & Ey & Y0 & Y1);
      [lia|lra|change (P2 30) with 1073741824%Q; lra|].
    rewrite Ey. change (P2 (30 - 54)) with (1 # 16777216)%Q in Y1.
    destruct (rnd64_err (y + (1 # 2)) 31) as (z & Ez & Z0 & Z1);
      [lia|lra|change (P2 31) with 2147483648%Q; lra|].
    rewrite Ez. change (P2 (31 - 54)) with (1 # 8388608)%Q in Z1.
    exists z. split; [reflexivity|]. apply qtrunc_ok; [lia| |].
    + lra.
    + rewrite inject_Z_plus. change (inject_Z 1) with 1%Q. lra.
Qed.

Lemma fsec_nanos_ok (N n k : Z) : 0 <= k <= 9 -> 0 <= n < 10 ^ k -> N = n * 10 ^ (9 - k) ->
  exists q, rnd64 (Qmake n (Z.to_pos (10 ^ k))) = Some q /\ fsec_nanos (Some q) = Ok N /\
    (Qeq_bool q 0 = true -> N = 0) /\ exists z, fsec_scaled q = Ok z /\ to_int32 z = Ok N.
Proof.
  intros Hk Hn HN. destruct (scale_err N n k Hk Hn HN) as (q & E & Z0 & z & S & T).
  assert (BN : 0 <= N <= 999999999).
  { assert (10 ^ k * 10 ^ (9 - k) = 1000000000) by (rewrite <- Z.pow_add_r by lia; replace (k + (9 - k)) with 9 by lia; reflexivity).
    assert (0 < 10 ^ (9 - k)) by (apply Z.pow_pos_nonneg; lia). nia. }
  exists q. split; [exact E|]. split; [|split; [exact Z0|exists z; split; [exact S|]]].
  - unfold fsec_nanos. destruct (Qeq_bool q 0) eqn:Q; [now rewrite Z0|]. rewrite S. cbn [bind]. unfold to_uint32. rewrite T.
    replace (in_ub 32 N) with true; [reflexivity|]. unfold in_ub. change (2 ^ 32) with 4294967296. lia.
  - unfold to_int32. rewrite T. replace (in_sb 32 N) with true; [reflexivity|].
    unfold in_sb. change (2 ^ (32 - 1)) with 2147483648. lia.
Qed.

(** The rest of the text after the seconds, and what "%lf" makes of it: [frac_ok s N]
    means N nanoseconds. *)
Definition plain_end (s : list Z) : Prop :=
  no_digit s /\ match s with c :: _ => lf_foreign c = false | [] => True end.

Lemma scan_lf_frac k n rest : (k <= 9)%nat -> (1 <= k)%nat -> 0 <= n < 10 ^ Z.of_nat k -> plain_end rest ->
  exists q, scan_lf (46 :: pad k n ++ rest) = Ok (Some (q, rest)) /\
    fsec_nanos (Some q) = Ok (n * 10 ^ (9 - Z.of_nat k)) /\
    (Qeq_bool q 0 = true -> n * 10 ^ (9 - Z.of_nat k) = 0) /\
    exists z, fsec_scaled q = Ok z /\ to_int32 z = Ok (n * 10 ^ (9 - Z.of_nat k)).
Proof.
  intros K1 K2 H [N F]. destruct (fsec_nanos_ok _ n (Z.of_nat k) ltac:(lia) H eq_refl) as (q & E & R).
  exists q. split; [|exact R]. unfold scan_lf.
  assert (X : forall s, scan_sign (skip_ws (46 :: s)) = (false, 46 :: s)) by reflexivity. rewrite X.
  rewrite (scan_digits_stop (46 :: _)) by reflexivity. cbn iota beta.
  rewrite scan_digits_pad by auto. rewrite scan_digits_stop by auto.
  rewrite Z.mul_0_l, Z.add_0_l, !Nat.add_0_l.
  destruct rest as [|c rest]; [|rewrite F]; (destruct (Nat.eqb_spec k 0); [lia|]); rewrite E; reflexivity.
Qed.

(** ** Classification *)

Lemma classify_digits ds : Forall (fun c => is_digit c = true) ds -> forall rest st a,
  classify (ds ++ rest) st a =
  classify rest (match ds with [] => st | _ => false end)
    (mk_tscan (ts_first a) (ts_delims a) (ts_numlike a + Z.of_nat (length ds)) (ts_sep a) (ts_error a)
              (ts_length a + Z.of_nat (length ds))).
Proof.
  induction ds as [|c ds IH]; intros F rest st a.
  - cbn [app length]. rewrite !Z.add_0_r. destruct a; reflexivity.
  - inversion F; subst. cbn [app classify]. destruct (digit_facts c H1) as (A & B & C & D & E & G).
    rewrite B. destruct (Z.eqb_spec c 43); [lia|]. cbn [andb].
    destruct (Z.eqb_spec c 84); [lia|]. destruct (Z.eqb_spec c 32); [lia|]. rewrite andb_false_r, H1.
    rewrite IH by auto. cbn [ts_first ts_delims ts_numlike ts_sep ts_error ts_length length].
    replace (match ds with [] => false | _ :: _ => false end) with false by (destruct ds; reflexivity).
    f_equal. f_equal; lia.
Qed.

Lemma classify_pad w v rest st a : 0 <= v ->
  classify (pad (S w) v ++ rest) st a =
  classify rest false
    (mk_tscan (ts_first a) (ts_delims a) (ts_numlike a + Z.of_nat (S w)) (ts_sep a) (ts_error a)
              (ts_length a + Z.of_nat (S w))).
Proof.
  intros H. rewrite classify_digits by (apply pad_digits; auto). rewrite pad_length.
  destruct (pad_cons w v) as (c & ds & P). destruct (P H) as [-> _]. reflexivity.
Qed.

(** ** Calendar formats *)

Definition good_dg (dg : nat) : Prop := dg = 0%nat \/ dg = 6%nat \/ dg = 9%nat.

(** Nanoseconds kept by a number of digits. *)
Definition kept (dg : nat) (nano : Z) : Z :=
  match dg with O => 0 | 6%nat => nano / 1000 * 1000 | _ => nano end.

Lemma sub_text_pad dg nano : good_dg dg -> 0 <= nano < 1000000000 ->
  sub_text dg nano = match dg with O => [] | 6%nat => 46 :: pad 6 (nano / 1000) | _ => 46 :: pad 9 nano end.
Proof.
  intros [->|[->| ->]] H; unfold sub_text; [reflexivity| |].
  - rewrite Z.quot_div_nonneg by lia. rewrite dec0_pad; [reflexivity| |lia]. change (10 ^ Z.of_nat 6) with 1000000. lia.
  - rewrite dec0_pad; [reflexivity| |lia]. change (10 ^ Z.of_nat 9) with 1000000000. lia.
Qed.

Lemma sub_text_length dg nano : good_dg dg -> 0 <= nano < 1000000000 ->
  length (sub_text dg nano) = match dg with O => 0%nat | _ => S dg end.
Proof.
  intros G H. rewrite sub_text_pad by auto.
  destruct G as [->|[->| ->]]; [reflexivity|cbn [length]; rewrite pad_length; reflexivity..].
Qed.

Lemma sub_no_digit dg nano rest : good_dg dg -> 0 <= nano < 1000000000 -> no_digit rest ->
  no_digit (sub_text dg nano ++ rest).
Proof. intros G H N. rewrite sub_text_pad by auto. destruct G as [->|[->| ->]]; [exact N|reflexivity..]. Qed.

Lemma frac_scan dg nano rest acc : good_dg dg -> 0 <= nano < 1000000000 -> plain_end rest -> scan_lf rest = Ok None ->
  exists fs, sscanf [Dlf] (sub_text dg nano ++ rest) acc = Ok (acc, fs) /\ fsec_nanos fs = Ok (kept dg nano) /\
    match fs with
    | None => kept dg nano = 0
    | Some q => (Qeq_bool q 0 = true -> kept dg nano = 0) /\ exists z, fsec_scaled q = Ok z /\ to_int32 z = Ok (kept dg nano)
    end.
Proof.
  intros G H PE L. rewrite sub_text_pad by auto. cbn [sscanf]. destruct G as [->|[->| ->]].
  - cbn [app]. rewrite L. exists None. auto.
  - destruct (scan_lf_frac 6 (nano / 1000) rest) as (q & E & F & Z0 & z & S & T); auto; try lia.
    cbn [app]. rewrite E. cbn [bind]. exists (Some q). split; [reflexivity|].
    change (10 ^ (9 - Z.of_nat 6)) with 1000 in *. split; [exact F|]. split; [exact Z0|]. eauto.
  - destruct (scan_lf_frac 9 nano rest) as (q & E & F & Z0 & z & S & T); auto; try lia.
    cbn [app]. rewrite E. cbn [bind]. exists (Some q). split; [reflexivity|].
    change (10 ^ (9 - Z.of_nat 9)) with 1 in *. rewrite Z.mul_1_r in *. split; [exact F|]. split; [exact Z0|]. eauto.
Qed.

Lemma in_s32_small v : 0 <= v <= 9999 -> in_s 32 v.
Proof. intros. unfold in_s. change (2 ^ (32 - 1)) with 2147483648. lia. Qed.

Ltac p10 := match goal with |- _ <= _ < ?b => let v := eval compute in b in change b with v; lia end.

Ltac sint := rewrite scan_int_pad; [|p10|apply in_s32_small; lia|try reflexivity]; cbn [bind sscanf app].
Ltac sset := rewrite scan_set_pad; [|reflexivity|apply sets_digitless|lia].

Definition md_dirs : list directive :=
  [Dint 32; Dset set_md1; Dint 32; Dset set_md1; Dint 32; Dset set_md2;
   Dint 32; Dset set_md1; Dint 32; Dset set_md1; Dint 32; Dlf].
Definition seed_dirs : list directive :=
  [Dint 32; Dset set_seed1; Dint 32; Dset set_seed2;
   Dint 32; Dset set_seed1; Dint 32; Dset set_seed1; Dint 32; Dlf].

Lemma md_scan y mo d c h mi s dg nano rest :
  0 <= y <= 9999 -> 0 <= mo <= 99 -> 0 <= d <= 99 -> c = 84 \/ c = 32 -> 0 <= h <= 99 -> 0 <= mi <= 99 -> 0 <= s <= 99 ->
  good_dg dg -> 0 <= nano < 1000000000 -> plain_end rest -> scan_lf rest = Ok None ->
  exists fs, fsec_nanos fs = Ok (kept dg nano) /\
  sscanf md_dirs (pad 4 y ++ 45 :: pad 2 mo ++ 45 :: pad 2 d ++ c :: pad 2 h ++ 58 :: pad 2 mi ++ 58 :: pad 2 s ++ sub_text dg nano ++ rest) []
  = Ok ([y; mo; d; h; mi; s], fs).
Proof.
  intros. destruct (frac_scan dg nano rest [y; mo; d; h; mi; s]) as (fs & E & F & _); auto.
  exists fs. split; [exact F|]. unfold md_dirs. cbn [sscanf].
  sint. sset. sint. sset. sint; [|destruct H2 as [->| ->]; reflexivity].
  rewrite scan_set_pad; [|destruct H2 as [->| ->]; reflexivity|apply sets_digitless|lia].
  sint. sset. sint. sset. sint; [|apply sub_no_digit; auto; apply H8].
  exact E.
Qed.

Lemma seed_scan y yd c h mi s dg nano rest :
  0 <= y <= 9999 -> 0 <= yd <= 999 -> c = 84 \/ c = 44 -> 0 <= h <= 99 -> 0 <= mi <= 99 -> 0 <= s <= 99 ->
  good_dg dg -> 0 <= nano < 1000000000 -> plain_end rest -> scan_lf rest = Ok None ->
  exists fs, fsec_nanos fs = Ok (kept dg nano) /\
  sscanf seed_dirs (pad 4 y ++ 44 :: pad 3 yd ++ c :: pad 2 h ++ 58 :: pad 2 mi ++ 58 :: pad 2 s ++ sub_text dg nano ++ rest) []
  = Ok ([y; yd; h; mi; s], fs).
Proof.
  intros. destruct (frac_scan dg nano rest [y; yd; h; mi; s]) as (fs & E & F & _); auto.
  exists fs. split; [exact F|]. unfold seed_dirs. cbn [sscanf].
  sint. sset. sint; [|destruct H1 as [->| ->]; reflexivity].
  rewrite scan_set_pad; [|destruct H1 as [->| ->]; reflexivity|apply sets_digitless|lia].
  sint. sset. sint. sset. sint; [|apply sub_no_digit; auto; apply H7].
  exact E.
Qed.

(** A counted day and a time of day, as parsed. *)
Definition printable (n h mi s : Z) : Prop :=
  1678 <= d_year (day_at n) <= 2262 /\ 0 <= h <= 23 /\ 0 <= mi <= 59 /\ 0 <= s <= 59.

Lemma kept_range dg nano : good_dg dg -> 0 <= nano < 1000000000 -> 0 <= kept dg nano <= nano.
Proof. intros [->|[->| ->]] H; simpl; lia. Qed.

Lemma int_value mode n h mi s ns : printable n h mi s -> 0 <= ns < 1000000000 -> in_s 64 (epoch_ns n h mi s ns) ->
  time2nstime_int mode (d_year (day_at n)) (d_yday (day_at n)) h mi s ns = Ok (epoch_ns n h mi s ns).
Proof.
  intros (Hy & Hh & Hm & Hs) Hn R. rewrite <- (counting_lemma mode n h mi s ns) by (auto; lia).
  destruct (day_at_ok n) as [[V Y] D]. pose proof (cum_bound _ _ _ V) as B. rewrite <- Y in B.
  symmetry. apply time2nstime_range; lia.
Qed.

Lemma md_parse mode n h mi s c dg nano rest :
  printable n h mi s -> c = 84 \/ c = 32 -> good_dg dg -> 0 <= nano < 1000000000 ->
  plain_end rest -> scan_lf rest = Ok None -> in_s 64 (epoch_ns n h mi s (kept dg nano)) ->
  mdtimestr2nstime mode (pad 4 (d_year (day_at n)) ++ 45 :: pad 2 (d_mon (day_at n)) ++ 45 :: pad 2 (d_mday (day_at n))
     ++ c :: pad 2 h ++ 58 :: pad 2 mi ++ 58 :: pad 2 s ++ sub_text dg nano ++ rest)
  = Ok (epoch_ns n h mi s (kept dg nano)).
Proof.
  intros P C G N PE L R. pose proof P as (Hy & Hh & Hm & Hs).
  destruct (day_at_ok n) as [[[V1 V2] Y] D]. pose proof (month_len_range (d_year (day_at n)) (d_mon (day_at n))) as ML.
  destruct (md_scan (d_year (day_at n)) (d_mon (day_at n)) (d_mday (day_at n)) c h mi s dg nano rest)
    as (fs & F & E); auto; try lia.
  unfold mdtimestr2nstime. fold md_dirs. rewrite E. cbn [bind nth length Nat.eqb]. rewrite F. cbn [bind].
  pose proof (kept_range dg nano G N) as KR.
  unfold validyear, validmonth, validmonthday, validhour, validmin, validsec, validnanosec.
  rewrite leapyear_gleap, monthdays_get by auto.
  rewrite md2doy_eq by (auto; lia).
  set (yy := d_year (day_at n)) in *. set (mm := d_mon (day_at n)) in *. set (dd := d_mday (day_at n)) in *.
  replace ((1678 <=? yy) && (yy <=? 2262)) with true by lia. cbn [negb].
  replace ((1 <=? mm) && (mm <=? 12)) with true by lia. cbn [negb].
  replace (0 <=? dd) with true by lia. cbn [bind].
  replace (dd <=? month_len yy mm) with true by lia. cbn [negb andb].
  replace ((0 <=? h) && (h <=? 23)) with true by lia. cbn [negb].
  replace ((0 <=? mi) && (mi <=? 59)) with true by lia. cbn [negb].
  replace ((0 <=? s) && (s <=? 60)) with true by lia. cbn [negb].
  replace (kept dg nano <=? 999999999) with true by lia. cbn [negb].
  rewrite <- Y. subst yy. apply int_value; auto; lia.
Qed.

Lemma seed_parse mode n h mi s c dg nano rest :
  printable n h mi s -> c = 84 \/ c = 44 -> good_dg dg -> 0 <= nano < 1000000000 ->
  plain_end rest -> scan_lf rest = Ok None -> in_s 64 (epoch_ns n h mi s (kept dg nano)) ->
  seedtimestr2nstime mode (pad 4 (d_year (day_at n)) ++ 44 :: pad 3 (d_yday (day_at n))
     ++ c :: pad 2 h ++ 58 :: pad 2 mi ++ 58 :: pad 2 s ++ sub_text dg nano ++ rest)
  = Ok (epoch_ns n h mi s (kept dg nano)).
Proof.
  intros P C G N PE L R. pose proof P as (Hy & Hh & Hm & Hs).
  destruct (day_at_ok n) as [[V Y] D]. pose proof (cum_bound _ _ _ V) as B. rewrite <- Y in B.
  pose proof (year_len_range (d_year (day_at n))) as YL.
  destruct (seed_scan (d_year (day_at n)) (d_yday (day_at n)) c h mi s dg nano rest)
    as (fs & F & E); auto; try lia.
  unfold seedtimestr2nstime. fold seed_dirs. rewrite E. cbn [bind nth length Nat.eqb]. rewrite F. cbn [bind].
  pose proof (kept_range dg nano G N) as KR.
  unfold validyear, validyearday, validhour, validmin, validsec, validnanosec.
  rewrite leapyear_gleap.
  rewrite (int_value mode n h mi s (kept dg nano)) by (auto; lia).
  unfold year_len in B.
  set (yy := d_year (day_at n)) in *. set (dd := d_yday (day_at n)) in *.
  replace ((1678 <=? yy) && (yy <=? 2262)) with true by lia. cbn [negb].
  replace ((1 <=? dd) && (dd <=? 365 + (if gleap yy then 1 else 0))) with true by (destruct (gleap yy); lia). cbn [negb].
  replace ((0 <=? h) && (h <=? 23)) with true by lia. cbn [negb].
  replace ((0 <=? mi) && (mi <=? 59)) with true by lia. cbn [negb].
  replace ((0 <=? s) && (s <=? 60)) with true by lia. cbn [negb].
  replace (kept dg nano <=? 999999999) with true by lia. reflexivity.
Qed.

(** The classification of a printed calendar time: dashes or a comma first, and an
    allowed length. *)
Lemma classify_tail dg nano z b a : good_dg dg -> 0 <= nano < 1000000000 -> (z = [] \/ z = [90]) ->
  let r := classify (sub_text dg nano ++ z) b a in
  ts_first r = match ts_first a with Some d => Some d | None => ts_first r end /\
  (ts_sep a = true -> ts_delims r = ts_delims a) /\ ts_sep r = ts_sep a /\ ts_error r = ts_error a /\
  ts_length r = ts_length a + Z.of_nat (length (sub_text dg nano ++ z)) /\
  ts_numlike a <= ts_numlike r <= ts_numlike a + Z.of_nat (length (sub_text dg nano)).
Proof.
  intros G H Hz. rewrite sub_text_pad by auto.
  assert (X : forall a b, classify z b a = if (length z =? 0)%nat then a else
     mk_tscan (ts_first a) (ts_delims a) (ts_numlike a) (ts_sep a) (ts_error a) (ts_length a + 1)).
  { intros a0 b0. destruct Hz as [-> | ->]; [reflexivity|]. cbn [classify is_delim existsb length Nat.eqb].
    change (is_delim 90) with false. cbn [Z.eqb Pos.eqb andb orb negb]. rewrite andb_false_r. reflexivity. }
  assert (Y : forall w v, 0 <= v -> 
    let r := classify ((46 :: pad (S w) v) ++ z) b a in
    ts_first r = match ts_first a with Some d => Some d | None => ts_first r end /\
    (ts_sep a = true -> ts_delims r = ts_delims a) /\ ts_sep r = ts_sep a /\ ts_error r = ts_error a /\
    ts_length r = ts_length a + Z.of_nat (length ((46 :: pad (S w) v) ++ z)) /\
    ts_numlike a <= ts_numlike r <= ts_numlike a + Z.of_nat (length (46 :: pad (S w) v))).
  { intros w v Hv. cbn [app]. cbn [classify]. change (is_delim 46) with true. cbn [Z.eqb Pos.eqb andb orb].
    rewrite classify_pad by auto. rewrite X. cbn [length]. rewrite app_length, pad_length.
    cbn [ts_first ts_delims ts_numlike ts_sep ts_error ts_length].
    destruct Hz as [-> | ->]; cbn [length Nat.eqb ts_first ts_delims ts_numlike ts_sep ts_error ts_length];
    (repeat split; [destruct (ts_first a); reflexivity|intros ->; reflexivity|lia..]). }
  destruct G as [->|[->| ->]].
  - cbn [app]. rewrite X. destruct Hz as [-> | ->]; cbn [length Nat.eqb ts_first ts_delims ts_numlike ts_sep ts_error ts_length];
    (repeat split; [destruct (ts_first a); reflexivity|lia..]).
  - apply Y. lia.
  - apply Y. lia.
Qed.

Lemma classify_delim c rest f dl nl sp er len : is_delim c = true -> c <> 46 ->
  classify (c :: rest) false (mk_tscan f dl nl sp er len) =
  classify rest false (mk_tscan (match f with Some d => Some d | None => Some c end)
                                (if sp then dl else dl + 1) nl sp er (len + 1)).
Proof.
  intros H N. cbn [classify ts_first ts_delims ts_numlike ts_sep ts_error ts_length]. rewrite H.
  rewrite andb_false_r. destruct (Z.eqb_spec c 46); [lia|]. reflexivity.
Qed.

Lemma classify_sep c rest f dl nl er len : c = 84 \/ c = 32 ->
  classify (c :: rest) false (mk_tscan f dl nl false er len) =
  classify rest false (mk_tscan f dl nl true er (len + 1)).
Proof. intros [->| ->]; reflexivity. Qed.

Lemma classify_pad' w v rest st f dl nl sp er len : 0 <= v ->
  classify (pad (S w) v ++ rest) st (mk_tscan f dl nl sp er len) =
  classify rest false (mk_tscan f dl (nl + Z.of_nat (S w)) sp er (len + Z.of_nat (S w))).
Proof. intros H. now rewrite classify_pad. Qed.

Lemma classify_iso y mo d c h mi s rest :
  0 <= y -> 0 <= mo -> 0 <= d -> c = 84 \/ c = 32 -> 0 <= h -> 0 <= mi -> 0 <= s ->
  classify (pad 4 y ++ 45 :: pad 2 mo ++ 45 :: pad 2 d ++ c :: pad 2 h ++ 58 :: pad 2 mi ++ 58 :: pad 2 s ++ rest) true tscan0
  = classify rest false (mk_tscan (Some 45) 2 14 true false 19).
Proof.
  intros. unfold tscan0. rewrite classify_pad' by auto. rewrite classify_delim by (auto; lia).
  rewrite classify_pad' by auto. rewrite classify_delim by (auto; lia). rewrite classify_pad' by auto.
  rewrite classify_sep by auto. rewrite classify_pad' by auto. rewrite classify_delim by (auto; lia).
  rewrite classify_pad' by auto. rewrite classify_delim by (auto; lia). rewrite classify_pad' by auto.
  f_equal.
Qed.

Lemma classify_seed y yd h mi s rest :
  0 <= y -> 0 <= yd -> 0 <= h -> 0 <= mi -> 0 <= s ->
  classify (pad 4 y ++ 44 :: pad 3 yd ++ 44 :: pad 2 h ++ 58 :: pad 2 mi ++ 58 :: pad 2 s ++ rest) true tscan0
  = classify rest false (mk_tscan (Some 44) 4 13 false false 17).
Proof.
  intros. unfold tscan0. rewrite classify_pad' by auto. rewrite classify_delim by (auto; lia).
  rewrite classify_pad' by auto. rewrite classify_delim by (auto; lia). rewrite classify_pad' by auto.
  rewrite classify_delim by (auto; lia).
  rewrite classify_pad' by auto. rewrite classify_delim by (auto; lia). rewrite classify_pad' by auto.
  f_equal.
Qed.

Lemma tail_length dg nano z : good_dg dg -> 0 <= nano < 1000000000 -> (z = [] \/ z = [90]) ->
  0 <= Z.of_nat (length (sub_text dg nano)) <= Z.of_nat (length (sub_text dg nano ++ z)) /\
  0 <= Z.of_nat (length (sub_text dg nano ++ z)) <= 11.
Proof.
  intros G H Hz. rewrite app_length. rewrite sub_text_length by auto.
  destruct G as [->|[->| ->]], Hz as [-> | ->]; simpl; lia.
Qed.

Lemma timestr_iso mode y mo d c h mi s dg nano z :
  0 <= y -> 0 <= mo -> 0 <= d -> c = 84 \/ c = 32 -> 0 <= h -> 0 <= mi -> 0 <= s -> good_dg dg ->
  0 <= nano < 1000000000 -> (z = [] \/ z = [90]) ->
  let str := pad 4 y ++ 45 :: pad 2 mo ++ 45 :: pad 2 d ++ c :: pad 2 h ++ 58 :: pad 2 mi ++ 58 :: pad 2 s ++ sub_text dg nano ++ z in
  timestr2nstime mode str = mdtimestr2nstime mode str.
Proof.
  intros Hy Hmo Hd Hc Hh Hmi Hs G N Hz str. unfold timestr2nstime.
  destruct (tail_length dg nano z G N Hz) as [T1 T2].
  assert (C : classify str true tscan0 = classify (sub_text dg nano ++ z) false (mk_tscan (Some 45) 2 14 true false 19))
    by (apply classify_iso; auto).
  rewrite C. clear C.
  destruct (classify_tail dg nano z false (mk_tscan (Some 45) 2 14 true false 19) G N Hz) as (A1 & A2 & _ & A3 & A4 & A5).
  cbn [ts_first ts_delims ts_numlike ts_sep ts_error ts_length] in *.
  set (a := classify _ _ _) in *. clearbody a. specialize (A2 eq_refl).
  rewrite A3, A1, A2. cbn [negb andb].
  destruct (Z.eqb_spec (ts_length a) (ts_numlike a)); [lia|]. cbn [andb].
  replace ((4 <=? ts_length a) && (ts_length a <=? 32)) with true by lia. reflexivity.
Qed.

Lemma timestr_seed mode y yd h mi s dg nano z :
  0 <= y -> 0 <= yd -> 0 <= h -> 0 <= mi -> 0 <= s -> good_dg dg ->
  0 <= nano < 1000000000 -> (z = [] \/ z = [90]) ->
  let str := pad 4 y ++ 44 :: pad 3 yd ++ 44 :: pad 2 h ++ 58 :: pad 2 mi ++ 58 :: pad 2 s ++ sub_text dg nano ++ z in
  timestr2nstime mode str = seedtimestr2nstime mode str.
Proof.
  intros Hy Hyd Hh Hmi Hs G N Hz str. unfold timestr2nstime.
  destruct (tail_length dg nano z G N Hz) as [T1 T2].
  assert (C : classify str true tscan0 = classify (sub_text dg nano ++ z) false (mk_tscan (Some 44) 4 13 false false 17))
    by (apply classify_seed; auto).
  rewrite C. clear C.
  destruct (classify_tail dg nano z false (mk_tscan (Some 44) 4 13 false false 17) G N Hz) as (A1 & _ & _ & A3 & A4 & A5).
  cbn [ts_first ts_delims ts_numlike ts_sep ts_error ts_length] in *.
  set (a := classify _ _ _) in *. clearbody a.
  rewrite A3, A1. cbn [negb andb].
  destruct (Z.eqb_spec (ts_length a) (ts_numlike a)); [lia|]. cbn [andb].
  replace ((4 <=? ts_length a) && (ts_length a <=? 32)) with true by lia. reflexivity.
Qed.

(** ** Printing *)

Lemma sub_digits_ok sub nano : 0 <= nano < 1000000000 ->
  exists dg, sub_digits sub nano = Some dg /\ good_dg dg /\ kept dg nano = nano - nano mod resolution sub.
Proof.
  intros H. unfold sub_digits, good_dg. rewrite Z.quot_div_nonneg by lia.
  destruct sub; cbn [resolution].
  - exists 0%nat. split; [reflexivity|]. split; [auto|]. simpl. lia.
  - exists 6%nat. split; [reflexivity|]. split; [auto|]. simpl. lia.
  - exists 9%nat. split; [reflexivity|]. split; [auto|]. simpl. lia.
  - destruct (Z.eqb_spec (nano / 1000) 0); [exists 0%nat|exists 6%nat]; (split; [reflexivity|]); (split; [auto|]); simpl; lia.
  - destruct (Z.eqb_spec nano 0); [exists 0%nat|exists 9%nat]; (split; [reflexivity|]); (split; [auto|]); simpl; lia.
  - destruct (Z.eqb_spec (nano - nano / 1000 * 1000) 0); [exists 6%nat|exists 9%nat]; (split; [reflexivity|]); (split; [auto|]); simpl; lia.
  - destruct (Z.eqb_spec nano 0).
    + exists 0%nat. split; [reflexivity|]. split; [auto|]. simpl. lia.
    + destruct (Z.eqb_spec (nano - nano / 1000 * 1000) 0); [exists 6%nat|exists 9%nat]; (split; [reflexivity|]); (split; [auto|]); simpl; lia.
Qed.

Lemma resolution_mod sub t : t mod 1000000000 mod resolution sub = t mod resolution sub.
Proof. destruct sub; cbn [resolution]; lia. Qed.

Lemma split_values t :
  let rawisec := Z.quot t NSTMODULUS in
  let raw0 := swrap 32 (t - rawisec * NSTMODULUS) in
  let adj := (t <? 0) && negb (raw0 =? 0) in
  (if adj then rawisec - 1 else rawisec) = t / 1000000000 /\
  (if adj then NSTMODULUS - (- raw0) else raw0) = t mod 1000000000.
Proof.
  pose proof (nssplit_ok t) as E. unfold nssplit in E. cbv zeta in *.
  change (t / 1000000000) with (t / NSTMODULUS). change (t mod 1000000000) with (t mod NSTMODULUS).
  destruct ((t <? 0) && negb _); apply pair_equal_spec in E; exact E.
Qed.

Definition fits (text : list Z) (ex : nat) : Prop := length text = ex.

Lemma snprintf_fits ex text : length text = ex -> snprintf (S ex) text = (text, Z.of_nat ex).
Proof. intros <-. unfold snprintf. cbn [Nat.sub]. now rewrite Nat.sub_0_r, firstn_all. Qed.

Definition iso_text (d : day) (c h mi s : Z) (dg : nat) (nano : Z) (rest : list Z) : list Z :=
  pad 4 (d_year d) ++ 45 :: pad 2 (d_mon d) ++ 45 :: pad 2 (d_mday d) ++ c :: pad 2 h ++ 58 :: pad 2 mi ++ 58 :: pad 2 s
  ++ sub_text dg nano ++ rest.
Definition seed_text (d : day) (h mi s : Z) (dg : nat) (nano : Z) : list Z :=
  pad 4 (d_year d) ++ 44 :: pad 3 (d_yday d) ++ 44 :: pad 2 h ++ 58 :: pad 2 mi ++ 58 :: pad 2 s ++ sub_text dg nano ++ [].
Definition doy_text (d : day) : list Z := 32 :: 40 :: pad 3 (d_yday d) ++ [41].

Definition print_text (f : timeformat) (d : day) (h mi s : Z) (dg : nat) (nano : Z) : list Z :=
  let z := if is_z f then [90] else [] in
  match f with
  | SEEDORDINAL => seed_text d h mi s dg nano
  | ISOMONTHDAY_DOY | ISOMONTHDAY_DOY_Z => iso_text d 84 h mi s dg nano (z ++ doy_text d)
  | _ => iso_text d (if is_space f then 32 else 84) h mi s dg nano z
  end.

Lemma iso_text_length d c h mi s dg nano rest : good_dg dg -> 0 <= nano < 1000000000 ->
  length (iso_text d c h mi s dg nano rest) = (19 + (match dg with O => 0%nat | _ => S dg end) + length rest)%nat.
Proof.
  intros. unfold iso_text. repeat (rewrite app_length || cbn [length]). rewrite !pad_length, sub_text_length by auto. lia.
Qed.

Lemma print_calendar t f sub : in_s 64 t -> needs_calendar f = true ->
  let n := t / 86400000000000 in
  exists dg, sub_digits sub (t mod 1000000000) = Some dg /\ good_dg dg /\
    kept dg (t mod 1000000000) = t mod 1000000000 - (t mod 1000000000) mod resolution sub /\
    nstime2timestr t f sub = Ok (Some (print_text f (day_at n) (t / 3600000000000 mod 24)
      (t / 60000000000 mod 60) (t / 1000000000 mod 60) dg (t mod 1000000000))).
Proof.
  intros R F n. pose proof (split_values t) as S. cbv zeta in S. destruct S as [S1 S2].
  destruct (sub_digits_ok sub (t mod 1000000000) ltac:(lia)) as (dg & D & G & K).
  exists dg. split; [exact D|]. split; [exact G|]. split; [exact K|].
  unfold nstime2timestr. cbv zeta. rewrite S1, S2, F.
  assert (T : - 10 ^ 16 < t / 1000000000 < 10 ^ 16) by (apply in_s64 in R; lia).
  rewrite gmtime64_ok by exact T. cbn [bind]. rewrite D.
  unfold tm_of_day. cbn [tm_year tm_mon tm_mday tm_yday tm_hour tm_min tm_sec].
  rewrite !div_div2 by lia. change (1000000000 * 86400) with 86400000000000.
  change (1000000000 * 3600) with 3600000000000. change (1000000000 * 60) with 60000000000. fold n.
  assert (1677 <= d_year (day_at n) < 2263) as Y.
  { apply day_year_range. subst n. apply in_s64 in R.
    replace (dby 1677) with (-107015) by reflexivity. replace (dby 2263) with 107016 by reflexivity. lia. }
  destruct (day_at_ok n) as [[V YD] DN]. pose proof (cum_bound _ _ _ V) as B. rewrite <- YD in B.
  destruct V as [V1 V2].
  pose proof (year_len_range (d_year (day_at n))) as YL.
  pose proof (month_len_range (d_year (day_at n)) (d_mon (day_at n))) as ML.
  assert (NN : 0 <= t mod 1000000000 < 1000000000) by lia.
  set (d := day_at n) in *.
  replace (d_year d - 1900 + 1900) with (d_year d) by lia. replace (d_mon d - 1 + 1) with (d_mon d) by lia.
  replace (d_yday d - 1 + 1) with (d_yday d) by lia.
  rewrite decs4 by lia.
  rewrite !(dec0_pad 2), !(dec0_pad 3); try lia; try p10.
  set (nano := t mod 1000000000) in *. set (h := t / 3600000000000 mod 24) in *.
  set (mi := t / 60000000000 mod 60) in *. set (s := t / 1000000000 mod 60) in *.
  clearbody nano h mi s d. clear S1 S2.
  assert (L0 : length (pad 3 (d_yday d)) = 3%nat) by apply pad_length.
  destruct f; try discriminate F; cbn [is_z is_space print_text zs app].
  all: repeat (rewrite <- app_assoc || cbn [app]).
  all: repeat match goal with |- context [Z.of_N ?n] => let v := eval compute in (Z.of_N n) in change (Z.of_N n) with v end.
  all: match goal with |- context [snprintf (S ?ex) ?text] =>
         rewrite (snprintf_fits ex text) end.
  all: match goal with
       | |- length _ = _ => repeat (rewrite app_length || cbn [length]); rewrite !pad_length, ?sub_text_length by auto;
                            destruct G as [->|[->| ->]]; reflexivity
       | |- _ => idtac
       end.
  all: rewrite Z.eqb_refl, andb_false_r, orb_false_r;
       match goal with |- context [Z.of_nat ?x =? 0] => destruct (Z.eqb_spec (Z.of_nat x) 0); [lia|] end.
  all: unfold iso_text, seed_text, doy_text; repeat (rewrite <- app_assoc || cbn [app]); rewrite ?app_nil_r; reflexivity.
Qed.

(** ** Round trips *)

Lemma printed_value t sub dg : in_s 64 t -> -9214560000000000000 <= t ->
  kept dg (t mod 1000000000) = t mod 1000000000 - (t mod 1000000000) mod resolution sub ->
  printable (t / 86400000000000) (t / 3600000000000 mod 24) (t / 60000000000 mod 60) (t / 1000000000 mod 60) /\
  epoch_ns (t / 86400000000000) (t / 3600000000000 mod 24) (t / 60000000000 mod 60) (t / 1000000000 mod 60)
    (kept dg (t mod 1000000000)) = floor_to (resolution sub) t /\
  in_s 64 (epoch_ns (t / 86400000000000) (t / 3600000000000 mod 24) (t / 60000000000 mod 60) (t / 1000000000 mod 60)
    (kept dg (t mod 1000000000))).
Proof.
  intros R L K. apply in_s64 in R. rewrite K, resolution_mod.
  assert (E : epoch_ns (t / 86400000000000) (t / 3600000000000 mod 24) (t / 60000000000 mod 60) (t / 1000000000 mod 60)
              (t mod 1000000000 - t mod resolution sub) = floor_to (resolution sub) t).
  { unfold floor_to. set (r := t mod resolution sub). clearbody r. unfold epoch_ns. lia. }
  split; [|split; [exact E|]].
  - unfold printable.
    assert (1678 <= d_year (day_at (t / 86400000000000)) < 2263).
    { apply day_year_range.
      replace (dby 1678) with (-106650) by reflexivity. replace (dby 2263) with 107016 by reflexivity. lia. }
    lia.
  - rewrite E. apply in_s64. unfold floor_to.
    assert (0 <= t mod resolution sub < 1000000000) by (destruct sub; cbn [resolution]; lia).
    lia.
Qed.

Lemma z_ends (b : bool) : plain_end (if b then [90] else []) /\ scan_lf (if b then [90] else []) = Ok None /\
  ((if b then [90] else []) = [] \/ (if b then [90] else []) = [90]).
Proof. destruct b; repeat split; auto. Qed.

Lemma date_nonneg n : 0 <= d_yday (day_at n) /\ 0 <= d_mon (day_at n) /\ 0 <= d_mday (day_at n).
Proof.
  destruct (day_at_ok n) as [[V YD] DN]. pose proof (cum_bound _ _ _ V) as B. rewrite <- YD in B. destruct V. lia.
Qed.

Lemma calendar_roundtrip mode t f sub : in_s 64 t -> -9214560000000000000 <= t ->
  In f [ISOMONTHDAY; ISOMONTHDAY_Z; ISOMONTHDAY_SPACE; ISOMONTHDAY_SPACE_Z; SEEDORDINAL] ->
  exists s, nstime2timestr t f sub = Ok (Some s) /\ timestr2nstime mode s = Ok (floor_to (resolution sub) t).
Proof.
  intros R L F.
  destruct (print_calendar t f sub R) as (dg & D & G & K & E).
  { repeat (destruct F as [<-|F]; [reflexivity|]). destruct F. }
  cbv zeta in E. eexists. split; [exact E|].
  destruct (printed_value t sub dg R L K) as (P & V & I). rewrite <- V.
  set (n := t / 86400000000000) in *. set (nano := t mod 1000000000) in *.
  set (h := t / 3600000000000 mod 24) in *.
  set (mi := t / 60000000000 mod 60) in *. set (s := t / 1000000000 mod 60) in *.
  assert (N : 0 <= nano < 1000000000) by (subst nano; lia). clearbody nano h mi s.
  pose proof P as (Py & Ph & Pm & Ps). pose proof (date_nonneg n) as (D1 & D2 & D3).
  unfold print_text. destruct (z_ends (is_z f)) as (Z1 & Z2 & Z3).
  destruct F as [<-|[<-|[<-|[<-|[<-|[]]]]]]; cbn [is_z is_space] in *.
  1-4: unfold iso_text; rewrite timestr_iso by (auto; lia); apply md_parse; auto.
  unfold seed_text; rewrite timestr_seed by (auto; lia). apply seed_parse; auto.
Qed.

(** The year-month-day parser also reads the formats with a trailing day of year. *)
Lemma md_roundtrip mode t f sub : in_s 64 t -> -9214560000000000000 <= t ->
  In f [ISOMONTHDAY; ISOMONTHDAY_Z; ISOMONTHDAY_DOY; ISOMONTHDAY_DOY_Z; ISOMONTHDAY_SPACE; ISOMONTHDAY_SPACE_Z] ->
  exists s, nstime2timestr t f sub = Ok (Some s) /\ mdtimestr2nstime mode s = Ok (floor_to (resolution sub) t).
Proof.
  intros R L F.
  destruct (print_calendar t f sub R) as (dg & D & G & K & E).
  { repeat (destruct F as [<-|F]; [reflexivity|]). destruct F. }
  cbv zeta in E. eexists. split; [exact E|].
  destruct (printed_value t sub dg R L K) as (P & V & I). rewrite <- V.
  set (n := t / 86400000000000) in *. set (nano := t mod 1000000000) in *.
  set (h := t / 3600000000000 mod 24) in *.
  set (mi := t / 60000000000 mod 60) in *. set (s := t / 1000000000 mod 60) in *.
  assert (N : 0 <= nano < 1000000000) by (subst nano; lia). clearbody nano h mi s.
  unfold print_text. destruct (z_ends (is_z f)) as (Z1 & Z2 & Z3).
  assert (W : forall b : bool, plain_end ((if b then [90] else []) ++ doy_text (day_at n)) /\
              scan_lf ((if b then [90] else []) ++ doy_text (day_at n)) = Ok None).
  { intros b. unfold doy_text. destruct b; repeat split; reflexivity. }
  destruct F as [<-|[<-|[<-|[<-|[<-|[<-|[]]]]]]]; cbn [is_z is_space] in *.
  all: unfold iso_text; apply md_parse; auto; try apply (W false); try apply (W true).
Qed.

Lemma seed_roundtrip mode t sub : in_s 64 t -> -9214560000000000000 <= t ->
  exists s, nstime2timestr t SEEDORDINAL sub = Ok (Some s) /\ seedtimestr2nstime mode s = Ok (floor_to (resolution sub) t).
Proof.
  intros R L.
  destruct (print_calendar t SEEDORDINAL sub R eq_refl) as (dg & D & G & K & E).
  cbv zeta in E. eexists. split; [exact E|].
  destruct (printed_value t sub dg R L K) as (P & V & I). rewrite <- V.
  cbn [print_text]. unfold seed_text. apply seed_parse; auto; first [lia|split; exact Logic.I|reflexivity].
Qed.

(** ** Epoch seconds *)

Lemma classify_dot rest f dl nl er len :
  classify (46 :: rest) false (mk_tscan f dl nl false er len) =
  classify rest false (mk_tscan (match f with Some d => Some d | None => Some 46 end) (dl + 1) (nl + 1) false er (len + 1)).
Proof. reflexivity. Qed.

Lemma classify_minus rest f dl nl er len :
  classify (45 :: rest) true (mk_tscan f dl nl false er len) =
  classify rest false (mk_tscan (match f with Some d => Some d | None => Some 45 end) (dl + 1) (nl + 1) false er (len + 1)).
Proof. reflexivity. Qed.

Lemma classify_nil f dl nl sp er len st : classify [] st (mk_tscan f dl nl sp er len) = mk_tscan f dl nl sp er len.
Proof. reflexivity. Qed.

Lemma classify_epoch_tail dg nano f dl nl er len : good_dg dg -> 0 <= nano < 1000000000 ->
  let r := classify (sub_text dg nano ++ []) false (mk_tscan f dl nl false er len) in
  ts_error r = er /\ ts_length r = len + Z.of_nat (length (sub_text dg nano)) /\
  ts_numlike r = nl + Z.of_nat (length (sub_text dg nano)).
Proof.
  intros G H. cbv zeta. rewrite sub_text_length by auto. rewrite sub_text_pad by auto.
  destruct G as [->|[->| ->]].
  - cbn [app]. rewrite classify_nil. cbn [ts_error ts_length ts_numlike]. repeat split; lia.
  - rewrite <- app_comm_cons, classify_dot, classify_pad' by lia. rewrite classify_nil.
    cbn [ts_error ts_length ts_numlike]. repeat split; lia.
  - rewrite <- app_comm_cons, classify_dot, classify_pad' by lia. rewrite classify_nil.
    cbn [ts_error ts_length ts_numlike]. repeat split; lia.
Qed.

Lemma epoch_value mode S dg nano rest0 : good_dg dg -> 0 <= nano < 1000000000 ->
  scan_int 64 (rest0 ++ sub_text dg nano ++ []) = Ok (Some (S, sub_text dg nano ++ [])) ->
  - 9223372036 <= S <= 9223372036 ->
  in_s 64 (if 0 <=? S then S * 1000000000 + kept dg nano else S * 1000000000 - kept dg nano) ->
  epochstr2nstime mode (rest0 ++ sub_text dg nano ++ []) =
    Ok (if 0 <=? S then S * 1000000000 + kept dg nano else S * 1000000000 - kept dg nano).
Proof.
  intros G H E B R. unfold epochstr2nstime.
  assert (SS : exists fs, sscanf [Dint 64; Dlf] (rest0 ++ sub_text dg nano ++ []) [] = Ok ([S], fs) /\
    match fs with
    | None => kept dg nano = 0
    | Some q => (Qeq_bool q 0 = true -> kept dg nano = 0) /\ exists z, fsec_scaled q = Ok z /\ to_int32 z = Ok (kept dg nano)
    end).
  { destruct (frac_scan dg nano [] [S]) as (fs & F1 & _ & F2); auto; [split; exact I|].
    exists fs. split; [|exact F2]. change (sscanf [Dint 64; Dlf] ?x []) with
      (let! r := scan_int 64 x in match r with None => Ok ([], None) | Some (v, s') => sscanf [Dlf] s' ([] ++ [v]) end).
    rewrite E. cbn [bind app]. exact F1. }
  destruct SS as (fs & -> & F). cbn [bind]. change NSTMODULUS with 1000000000.
  rewrite sarith_ok by (apply in_s64; lia). cbn [bind].
  assert (SG : (0 <=? S * 1000000000) = (0 <=? S)) by lia.
  destruct fs as [q|].
  - destruct F as [F0 (z & F1 & F2)]. destruct (Qeq_bool q 0) eqn:Q.
    + rewrite (F0 eq_refl). destruct (0 <=? S); f_equal; lia.
    + rewrite F1. cbn [bind]. rewrite F2. cbn [bind]. rewrite SG.
      destruct (0 <=? S); apply sarith_ok; exact R.
  - rewrite F. destruct (0 <=? S); f_equal; lia.
Qed.

Lemma unix_sub sub t dg : (0 <= t \/ sub <> MICRO_NONE) ->
  sub_digits sub (t mod 1000000000) = Some dg -> 
  kept dg (Z.abs (Z.rem t 1000000000)) = Z.abs (Z.rem t 1000000000) - Z.abs (Z.rem t 1000000000) mod resolution sub.
Proof.
  intros H. unfold sub_digits. rewrite Z.quot_div_nonneg by lia.
  assert (A : Z.abs (Z.rem t 1000000000) = if 0 <=? t then t mod 1000000000 else if t mod 1000000000 =? 0 then 0 else 1000000000 - t mod 1000000000).
  { destruct (Z.leb_spec 0 t); [qlia|]. destruct (Z.eqb_spec (t mod 1000000000) 0); qlia. }
  rewrite A. set (u := t mod 1000000000). assert (U : 0 <= u < 1000000000) by (subst u; lia). clearbody u. clear A.
  destruct (Z.leb_spec 0 t) as [T|T].
  - destruct sub; cbn [resolution]; intros E;
    repeat match goal with E : context [if ?x =? 0 then _ else _] |- _ => destruct (Z.eqb_spec x 0) end;
    injection E as <-; simpl; lia.
  - assert (HM : sub <> MICRO_NONE) by (destruct H; [lia|auto]).
    destruct sub; cbn [resolution]; intros E; try congruence;
    repeat match goal with E : context [if ?x =? 0 then _ else _] |- _ => destruct (Z.eqb_spec x 0) end;
    injection E as <-; cbn [kept]; try (destruct (Z.eqb_spec u 0); lia); lia.
Qed.

Lemma dec_neg v : v < 0 -> dec v = 45 :: dec (- v).
Proof.
  intros H. unfold dec. destruct (Z.ltb_spec v 0); [|lia]. destruct (Z.ltb_spec (- v) 0); [lia|]. reflexivity.
Qed.

Lemma epoch_text_parse mode S dg nano : good_dg dg -> 0 <= nano < 1000000000 ->
  - 9223372036 <= S <= 9223372036 ->
  in_s 64 (if 0 <=? S then S * 1000000000 + kept dg nano else S * 1000000000 - kept dg nano) ->
  (length (dec S ++ sub_text dg nano) <= 21)%nat /\
  (length (dec S ++ sub_text dg nano) <> 4%nat \/ S < 0 ->
   timestr2nstime mode (dec S ++ sub_text dg nano) =
    Ok (if 0 <=? S then S * 1000000000 + kept dg nano else S * 1000000000 - kept dg nano)).
Proof.
  intros G BN BS VR.
  assert (DL : exists w, dec (Z.abs S) = pad (Datatypes.S w) (Z.abs S) /\ Z.abs S < 10 ^ Z.of_nat (Datatypes.S w) /\ (w <= 9)%nat).
  { destruct (dec_length (Z.abs S) 10) as (k & Hk & E & B); [change (10 ^ Z.of_nat 10) with 10000000000; lia|lia|].
    destruct k as [|w]; [lia|]. exists w. repeat split; auto. clear - Hk. lia. }
  destruct DL as (w & DW & DB & W9).
  assert (DS : dec S = (if S <? 0 then [45] else []) ++ pad (Datatypes.S w) (Z.abs S)).
  { destruct (Z.ltb_spec S 0) as [L|L].
    - rewrite dec_neg by lia. replace (- S) with (Z.abs S) by lia. now rewrite DW.
    - replace (Z.abs S) with S in DW at 1 by lia. exact DW. }
  assert (SL : (length (sub_text dg nano) <= 10)%nat).
  { rewrite sub_text_length by auto. destruct G as [->|[->| ->]]; clear; lia. }
  assert (AB : 0 <= Z.abs S) by lia.
  split.
  - rewrite DS, !app_length, pad_length. clear - SL W9. destruct (S <? 0); cbn [length]; lia.
  - intros HL. unfold timestr2nstime.
    assert (C : let r := classify (dec S ++ sub_text dg nano) true tscan0 in
        ts_error r = false /\ ts_length r = Z.of_nat (length (dec S ++ sub_text dg nano)) /\ ts_numlike r = ts_length r).
    { rewrite DS. rewrite <- (app_nil_r (sub_text dg nano)). rewrite <- app_assoc. cbv zeta.
      destruct (S <? 0).
      - unfold tscan0. change ([45] ++ pad (Datatypes.S w) (Z.abs S) ++ sub_text dg nano ++ [])
          with (45 :: (pad (Datatypes.S w) (Z.abs S) ++ sub_text dg nano ++ [])).
        rewrite classify_minus. rewrite classify_pad' by exact AB.
        match goal with |- context [classify (sub_text dg nano ++ []) false (mk_tscan ?f ?dl ?nl false ?er ?len)] =>
          destruct (classify_epoch_tail dg nano f dl nl er len G BN) as (C1 & C2 & C3) end.
        rewrite C1, C2, C3. cbn [length]. rewrite app_nil_r, app_length, pad_length. clear. repeat split; lia.
      - unfold tscan0. change ([] ++ ?l) with l. rewrite classify_pad' by exact AB.
        match goal with |- context [classify (sub_text dg nano ++ []) false (mk_tscan ?f ?dl ?nl false ?er ?len)] =>
          destruct (classify_epoch_tail dg nano f dl nl er len G BN) as (C1 & C2 & C3) end.
        rewrite C1, C2, C3. rewrite app_nil_r, app_length, pad_length. clear. repeat split; lia. }
    cbv zeta in C. destruct C as (C1 & C2 & C3). rewrite C1, C3, Z.eqb_refl. cbn [negb andb].
    replace (negb (ts_length (classify (dec S ++ sub_text dg nano) true tscan0) =? 4)
       || match dec S ++ sub_text dg nano with [] => false | c :: _ => (c =? 45) || (c =? 43) end) with true.
    2:{ destruct HL as [HL|HL].
        - rewrite C2. clear - HL. destruct (Z.eqb_spec (Z.of_nat (length (dec S ++ sub_text dg nano))) 4); [lia|reflexivity].
        - rewrite DS. apply Z.ltb_lt in HL. rewrite HL. change ([45] ++ ?l) with (45 :: l).
          rewrite <- !app_comm_cons. now rewrite orb_true_r. }
    rewrite <- (app_nil_r (sub_text dg nano)).
    apply epoch_value; auto. rewrite DS.
    destruct (Z.ltb_spec S 0).
    + change ([45] ++ ?l) with (45 :: l). rewrite <- app_comm_cons.
      rewrite scan_int_neg; [do 3 f_equal; clear - H; lia|split; assumption|apply in_s64; clear - BS H; lia|apply sub_no_digit; auto; exact I].
    + change ([] ++ ?l) with l.
      rewrite scan_int_pad; [do 3 f_equal; clear - H; lia|split; assumption|apply in_s64; clear - BS H; lia|apply sub_no_digit; auto; exact I].
Qed.

Lemma unix_nums t : in_s 64 t ->
  0 <= Z.abs (Z.rem t 1000000000) < 1000000000 /\ - 9223372036 <= Z.quot t 1000000000 <= 9223372036.
Proof. intros R. apply in_s64 in R. split; qlia. Qed.

Lemma unix_chop t sub nano : 0 <= t \/ t <= -1000000000 -> nano = Z.abs (Z.rem t 1000000000) ->
  chop_to (resolution sub) t =
  if 0 <=? Z.quot t 1000000000 then Z.quot t 1000000000 * 1000000000 + (nano - nano mod resolution sub)
  else Z.quot t 1000000000 * 1000000000 - (nano - nano mod resolution sub).
Proof.
  intros H ->. unfold chop_to. destruct H as [H|H].
  - replace (0 <=? Z.quot t 1000000000) with true by qlia. destruct sub; cbn [resolution]; qlia.
  - replace (0 <=? Z.quot t 1000000000) with false by qlia. destruct sub; cbn [resolution]; qlia.
Qed.

Lemma chop_range t sub : in_s 64 t -> in_s 64 (chop_to (resolution sub) t).
Proof. intros R. apply in_s64 in R. apply in_s64. unfold chop_to. destruct sub; cbn [resolution]; qlia. Qed.

Lemma unix_raw t : 
  (if (t <? 0) && negb (swrap 32 (t - Z.quot t NSTMODULUS * NSTMODULUS) =? 0)
          then swrap 32 (t - Z.quot t NSTMODULUS * NSTMODULUS) * -1
          else swrap 32 (t - Z.quot t NSTMODULUS * NSTMODULUS)) = Z.abs (Z.rem t 1000000000).
Proof.
  change NSTMODULUS with 1000000000.
  replace (t - Z.quot t 1000000000 * 1000000000) with (Z.rem t 1000000000) by qlia.
  rewrite swrap_id; [|lia|unfold in_s; change (2 ^ (32 - 1)) with 2147483648; qlia].
  destruct (Z.ltb_spec t 0); [|cbn [andb]; qlia].
  destruct (Z.eqb_spec (Z.rem t 1000000000) 0) as [E|E]; cbn [andb negb]; [rewrite E; reflexivity|qlia].
Qed.

Lemma unix_roundtrip mode t sub : in_s 64 t -> (0 <= t \/ t <= -1000000000 /\ sub <> MICRO_NONE) ->
  exists s, nstime2timestr t UNIXEPOCH sub = Ok (Some s) /\
    (length s <> 4%nat \/ t < 0 -> timestr2nstime mode s = Ok (chop_to (resolution sub) t)).
Proof.
  intros R H. pose proof (split_values t) as S. cbv zeta in S. destruct S as [S1 S2].
  destruct (sub_digits_ok sub (t mod 1000000000) ltac:(clear; lia)) as (dg & D & G & _).
  assert (HH : 0 <= t \/ sub <> MICRO_NONE) by tauto.
  assert (HT : 0 <= t \/ t <= -1000000000) by tauto.
  pose proof (unix_sub sub t dg HH D) as K. destruct (unix_nums t R) as [BN BS].
  pose proof (unix_chop t sub _ HT eq_refl) as V. pose proof (chop_range t sub R) as VR. rewrite V in VR |- *. rewrite <- K in VR |- *.
  pose proof (unix_raw t) as U.
  assert (ST : t < 0 -> Z.quot t 1000000000 < 0) by (clear - HT; qlia).
  exists (dec (Z.quot t 1000000000) ++ sub_text dg (Z.abs (Z.rem t 1000000000))).
  destruct (epoch_text_parse mode _ dg _ G BN BS VR) as [L P].
  split; [|intros [?|?]; apply P; auto].
  unfold nstime2timestr. cbv zeta. rewrite S2, U. cbn [needs_calendar bind].
  rewrite D. change NSTMODULUS with 1000000000. unfold snprintf.
  rewrite firstn_all2 by (clear - L; lia). reflexivity.
Qed.

Lemma snprintf_22 v : in_s 64 v -> snprintf 22 (dec v) = (dec v, Z.of_nat (length (dec v))).
Proof.
  intros R. apply in_s64 in R. unfold snprintf. rewrite firstn_all2; [reflexivity|].
  destruct (dec_length (Z.abs v) 19) as (k & Hk & E & B); [change (10 ^ Z.of_nat 19) with 10000000000000000000; lia|lia|].
  destruct (Z.ltb_spec v 0).
  - rewrite dec_neg by lia. replace (- v) with (Z.abs v) by lia. rewrite E. cbn [length]. rewrite pad_length. lia.
  - replace v with (Z.abs v) by lia. rewrite E, pad_length. lia.
Qed.

Lemma nano_print t sub : in_s 64 t -> nstime2timestr t NANOSECONDEPOCH sub = Ok (Some (dec t)).
Proof.
  intros R. pose proof (split_values t) as S. cbv zeta in S. destruct S as [S1 S2].
  destruct (sub_digits_ok sub (t mod 1000000000) ltac:(lia)) as (dg & D & G & _).
  unfold nstime2timestr. cbv zeta. rewrite S2. cbn [needs_calendar bind]. rewrite D, snprintf_22 by auto. reflexivity.
Qed.
