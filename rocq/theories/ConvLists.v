(** * The conversion loops. *)

From Verif Require Import Base BaseLemmas FloatOps ConvModel ConvSpec ConvProof.
Open Scope Z_scope.

(** A negative integer, exactly held, becomes its successor. *)
Lemma sample_negative F b n truncate : good F -> 0 <= b < inf_pat F -> mag F b = n * one -> 1 <= n <= 2147483648 ->
  sample_to_int F truncate (FFin true (mag F b)) = Ok (Some (- (n - 1))).
Proof.
  intros G Hb M Hn. pose proof one_pos as OP. pose proof one_two as O2. pose proof (pw_pos 1073 ltac:(clear; lia)) as HP.
  assert (PN : 0 < n * one) by (apply Z.mul_pos_pos; lia).
  assert (ENC : encode_fmt F (- n * one) = with_sign F true b).
  { rewrite encode_split. replace (- n * one) with (- (n * one)) by ring. rewrite Z.abs_opp, Z.abs_eq by lia.
    destruct (Z.ltb_spec (- (n * one)) 0); [|lia]. rewrite <- M.
    destruct (exact_value F b G ltac:(lia) ltac:(apply mag_lt; [exact G|lia])) as [-> _]. reflexivity. }
  assert (TI : to_int32 (FFin true (n * one)) = Ok (- n)).
  { unfold to_int32. change unit1 with one. rewrite Z.div_mul by lia. unfold signed_mag. replace (in_sb 32 (- n)) with true; [reflexivity|]. unfold in_sb. lia. }
  assert (SUM : add_units binary64 (FFin true (mag F b)) half_units = FFin true ((2 * n - 1) * pw 1073)).
  { unfold add_units. rewrite M, half_is, encode_split. unfold signed_mag.
    replace (- (n * one) + pw 1073) with (- ((2 * n - 1) * pw 1073)) by (rewrite O2; ring).
    destruct (grid64 (2 * n - 1) 1073 ltac:(lia) ltac:(clear; lia)) as (a & A0 & AM).
    assert (0 < (2 * n - 1) * pw 1073) by (apply Z.mul_pos_pos; lia). rewrite Z.abs_opp, Z.abs_eq by lia.
    destruct (Z.ltb_spec (- ((2 * n - 1) * pw 1073)) 0); [|lia]. rewrite <- AM.
    assert (L : mag binary64 a < mag binary64 (inf_pat binary64)).
    { rewrite AM, inf64. change (2 ^ 2098) with (pw 2098). pose proof (pw_le (33 + 1073) 2098 ltac:(clear; lia) ltac:(clear; lia)) as PL.
      rewrite pw_add in PL by (clear; lia). change (pw 33) with 8589934592 in PL. pose proof (mul_lt_pos (2 * n - 1) 8589934592 (pw 1073) HP ltac:(lia)). lia. }
    destruct (exact_value binary64 a good64 A0 L) as [-> AI]. apply decode_exact; auto using good64. }
  unfold sample_to_int. rewrite SUM.
  assert (LAST : to_int32 (FFin true ((2 * n - 1) * pw 1073)) = Ok (- (n - 1))).
  { assert (D : (2 * n - 1) * pw 1073 / one = n - 1) by (symmetry; apply Z.div_unique with (r := pw 1073); lia).
    rewrite to_int32_ok; [rewrite D; reflexivity|apply Z.mul_nonneg_nonneg; lia|rewrite D; lia]. }
  rewrite LAST. destruct truncate; [reflexivity|]. rewrite M, TI. cbn [bind]. unfold int_to_fmt. change unit1 with one.
  rewrite ENC, decode_exact, M by (auto; lia). unfold add_units. cbn [signed_mag]. replace (- (n * one) + - - (n * one)) with 0 by lia.
  rewrite (rep_decode F 0 G ltac:(lia)); [|exists 0; split; [lia|apply mag_0; exact G]|rewrite <- (mag_0 F G); apply mag_lt; [exact G|pose proof (inf_in F G); lia]].
  unfold above_limit. rewrite limit_is. cbn [signed_mag]. destruct (Z.ltb_spec millionth 0) as [X|X]; [|reflexivity].
  exfalso. unfold millionth in X. change (2 ^ 1002) with (pw 1002) in X. pose proof (pw_pos 1002 ltac:(clear; lia)). lia.
Qed.

(** ** Memory *)

Lemma put_nat_eq w : forall i mem, (i < length mem)%nat -> put_nat i w mem = Some (firstn i mem ++ w :: skipn (S i) mem).
Proof.
  induction i as [|i IH]; intros [|x mem] H; cbn [length] in H; try lia; [reflexivity|].
  cbn [put_nat]. rewrite IH by lia. reflexivity.
Qed.
Lemma put_word_eq i w mem : 0 <= i < Z.of_nat (length mem) -> put_word i w mem = Ok (firstn (Z.to_nat i) mem ++ w :: skipn (S (Z.to_nat i)) mem).
Proof. intros H. unfold put_word. destruct (Z.ltb_spec i 0); [lia|]. rewrite put_nat_eq by lia. reflexivity. Qed.
Lemma get_word_skip i mem w r : skipn i mem = w :: r -> get_word (Z.of_nat i) mem = Ok w.
Proof.
  intros H. unfold get_word. destruct (Z.ltb_spec (Z.of_nat i) 0); [lia|]. rewrite Nat2Z.id.
  replace (nth_error mem i) with (Some w); [reflexivity|]. symmetry. rewrite <- (firstn_skipn i mem).
  assert (i <= length mem)%nat. { destruct (le_lt_dec i (length mem)) as [L|L]; [exact L|]. rewrite skipn_all2 in H by lia. discriminate. }
  rewrite nth_error_app2; rewrite firstn_length_le by assumption; [|lia]. rewrite Nat.sub_diag, H. reflexivity.
Qed.
Lemma skipn_next : forall i (mem : list Z) w r, skipn i mem = w :: r -> skipn (S i) mem = r.
Proof. induction i as [|i IH]; intros [|x mem] w r H; cbn [skipn] in *; try discriminate; [congruence|]. exact (IH mem w r H). Qed.
Lemma get_double_skip i mem lo hi r : skipn (2 * i) mem = lo :: hi :: r -> get_double (Z.of_nat i) mem = Ok (hi * 2 ^ 32 + lo).
Proof.
  intros H. unfold get_double. replace (2 * Z.of_nat i) with (Z.of_nat (2 * i)) by lia. rewrite (get_word_skip _ _ _ _ H). cbn [bind].
  assert (H2 : skipn (S (2 * i)) mem = hi :: r).
  { exact (skipn_next _ _ _ _ H). }
  replace (Z.of_nat (2 * i) + 1) with (Z.of_nat (S (2 * i))) by lia. rewrite (get_word_skip _ _ _ _ H2). reflexivity.
Qed.

Lemma skipn_len i (mem r : list Z) : skipn i mem = r -> r <> [] -> (i + length r = length mem)%nat.
Proof. intros <- H. rewrite skipn_length. destruct (le_lt_dec (length mem) i); [exfalso; apply H; apply skipn_all2; lia|lia]. Qed.

Lemma skipn_add k : forall n (mem : list Z), skipn k (skipn n mem) = skipn (k + n) mem.
Proof.
  induction n as [|n IH]; intros mem; [rewrite Nat.add_0_r; reflexivity|].
  destruct mem as [|x mem]; [rewrite !skipn_nil; reflexivity|]. replace (k + S n)%nat with (S (k + n)) by lia. rewrite !skipn_cons. apply IH.
Qed.

(** Writing word [i] keeps what is after it. *)
Lemma put_after i (w : Z) mem : (i < length mem)%nat -> let mem' := firstn i mem ++ w :: skipn (S i) mem in
  length mem' = length mem /\ firstn (S i) mem' = firstn i mem ++ [w] /\ forall j, (i < j)%nat -> skipn j mem' = skipn j mem.
Proof.
  intros H mem'. assert (L : length (firstn i mem) = i) by (apply firstn_length_le; lia).
  split; [unfold mem'; rewrite app_length; cbn [length]; rewrite skipn_length, L; lia|].
  split; [unfold mem'; rewrite firstn_app, L, firstn_all2 by lia; replace (S i - i)%nat with 1%nat by lia; reflexivity|].
  intros j Hj. unfold mem'. rewrite skipn_app, L. rewrite skipn_all2 by lia. cbn [app].
  replace (j - i)%nat with (S (j - S i)) by lia. rewrite skipn_cons, skipn_add. f_equal. lia.
Qed.

Definition stride (dbl : bool) : nat := if dbl then 2 else 1.
Definition fmt (dbl : bool) : format := if dbl then binary64 else binary32.

Lemma get_sample dbl i mem b l tail : skipn (stride dbl * i) mem = stored dbl (b :: l) ++ tail ->
  (if dbl then get_double (Z.of_nat i) mem else get_word (Z.of_nat i) mem) = Ok b /\ (i < length mem)%nat /\
  skipn (stride dbl * S i) mem = stored dbl l ++ tail.
Proof.
  intros H. destruct dbl; cbn [stride stored dwords flat_map app] in *.
  - fold (dwords l) in H. split; [rewrite (get_double_skip _ _ _ _ _ H); f_equal; pose proof (Z.div_mod b (2 ^ 32) ltac:(lia)); lia|].
    split; [apply skipn_len in H; [cbn [length] in H; lia|discriminate]|].
    apply skipn_next in H. apply skipn_next in H. replace (2 * S i)%nat with (S (S (2 * i))) by lia. exact H.
  - rewrite Nat.mul_1_l in *. split; [exact (get_word_skip _ _ _ _ H)|].
    split; [apply skipn_len in H; [cbn [length] in H; lia|discriminate]|]. exact (skipn_next _ _ _ _ H).
Qed.

Lemma to_ints_run dbl truncate : forall l rs i mem tail, skipn (stride dbl * i) mem = stored dbl l ++ tail ->
  Forall2 (fun b r => sample_to_int (fmt dbl) truncate (decode_fmt (fmt dbl) b) = Ok r) l rs ->
  exists mem', length mem' = length mem /\
    to_ints (length l) (Z.of_nat i) dbl truncate mem = Ok (mem', forallb (fun r => match r with Some _ => true | None => false end) rs) /\
    (forall zs, rs = map Some zs -> firstn (i + length l) mem' = firstn i mem ++ map (uwrap 32) zs /\ skipn (stride dbl * (i + length l)) mem' = tail).
Proof.
  induction l as [|b l IH]; intros rs i mem tail H HF; inversion HF; subst.
  - exists mem. split; [reflexivity|]. split; [reflexivity|]. intros [|z zs] E; [|discriminate]. cbn [length map]. rewrite Nat.add_0_r, app_nil_r.
    split; [reflexivity|]. rewrite H. destruct dbl; reflexivity.
  - destruct (get_sample _ _ _ _ _ _ H) as (G1 & G2 & G3). cbn [length to_ints]. rewrite G1. cbn [bind]. fold (fmt dbl).
    match goal with X : sample_to_int _ _ _ = Ok _ |- _ => rewrite X end. cbn [bind]. destruct y as [z|].
    + rewrite put_word_eq by lia. cbn [bind]. rewrite Nat2Z.id. destruct (put_after i (uwrap 32 z) mem G2) as (P1 & P2 & P3).
      set (mem1 := firstn i mem ++ uwrap 32 z :: skipn (S i) mem) in *.
      destruct (IH l' (S i) mem1 tail) as (mem' & L & R & K).
      * rewrite P3; [exact G3|]. unfold stride. destruct dbl; lia.
      * assumption.
      * exists mem'. split; [lia|]. split; [replace (Z.of_nat i + 1) with (Z.of_nat (S i)) by lia; exact R|].
        intros [|z' zs] E; [discriminate|]. injection E as -> E. destruct (K zs E) as [K1 K2].
        replace (i + S (length l))%nat with (S i + length l)%nat by lia. split; [|exact K2]. rewrite K1, P2, <- app_assoc. reflexivity.
    + exists mem. split; [reflexivity|]. split; [reflexivity|]. intros [|z' zs] E; discriminate.
Qed.

Lemma to_floats_run dbl : forall l i mem tail, skipn (stride dbl * i) mem = stored dbl l ++ tail ->
  exists mem', length mem' = length mem /\ to_floats (length l) (Z.of_nat i) dbl mem = Ok mem' /\
    firstn (i + length l) mem' = firstn i mem ++ map (fun b => if dbl then double_to_float b else int_to_fmt binary32 (swrap 32 b)) l /\
    skipn (stride dbl * (i + length l)) mem' = tail.
Proof.
  induction l as [|b l IH]; intros i mem tail H.
  - exists mem. cbn [length map]. rewrite Nat.add_0_r, app_nil_r. repeat split. rewrite H. destruct dbl; reflexivity.
  - destruct (get_sample _ _ _ _ _ _ H) as (G1 & G2 & G3). cbn [length to_floats].
    set (w := if dbl then double_to_float b else int_to_fmt binary32 (swrap 32 b)).
    assert (W : (if dbl then let! w := get_double (Z.of_nat i) mem in Ok (double_to_float w)
               else let! w := get_word (Z.of_nat i) mem in Ok (int_to_fmt binary32 (swrap 32 w))) = Ok w).
    { unfold w. destruct dbl; rewrite G1; reflexivity. }
    rewrite W. cbn [bind]. rewrite put_word_eq by lia. cbn [bind]. rewrite Nat2Z.id. destruct (put_after i w mem G2) as (P1 & P2 & P3).
    set (mem1 := firstn i mem ++ w :: skipn (S i) mem) in *.
    destruct (IH (S i) mem1 tail) as (mem' & L & R & K1 & K2).
    { rewrite P3; [exact G3|]. unfold stride. destruct dbl; lia. }
    exists mem'. split; [lia|]. split; [replace (Z.of_nat i + 1) with (Z.of_nat (S i)) by lia; exact R|].
    replace (i + S (length l))%nat with (S i + length l)%nat by lia. split; [|exact K2]. rewrite K1, P2, <- app_assoc. reflexivity.
Qed.

Lemma to_doubles_run flt : forall l i mem tail, skipn i mem = l ++ tail ->
  to_doubles (length l) (Z.of_nat i) flt mem = Ok (dwords (map (fun w => if flt then float_to_double w else int_to_fmt binary64 (swrap 32 w)) l)).
Proof.
  induction l as [|b l IH]; intros i mem tail H; [reflexivity|]. cbn [length to_doubles]. rewrite (get_word_skip _ _ _ _ H). cbn [bind].
  replace (Z.of_nat i + 1) with (Z.of_nat (S i)) by lia. rewrite (IH (S i) mem tail) by exact (skipn_next _ _ _ _ H). reflexivity.
Qed.

(** ** Segments *)

Lemma swrap_of_word z : in_s 32 z -> swrap 32 (uwrap 32 z) = z.
Proof. intros H. unfold uwrap. rewrite swrap_mod by lia. apply swrap_id; [lia|exact H]. Qed.

Lemma text_conv pre s type truncate : c_type s <> type -> c_type s = 116 \/ c_type s = 97 \/ type = 116 \/ type = 97 ->
  convertsamples pre s type truncate = Ok (s, -1).
Proof.
  intros N H. unfold convertsamples. destruct (Z.eqb_spec (c_type s) type); [contradiction|].
  replace ((c_type s =? 116) || (type =? 116) || (c_type s =? 97) || (type =? 97)) with true; [reflexivity|]. lia.
Qed.

Lemma ints_doubles pre truncate zs tail size : Forall (in_s 32) zs -> let n := Z.of_nat (length zs) in exists r,
  convertsamples pre (mk_cseg 105 n size (map (uwrap 32) zs ++ tail)) 100 truncate = Ok (mk_cseg 100 n (8 * n) (dwords r), 0) /\
  Forall2 (fun z b => 0 <= b < 2 ^ 64 /\ units64 b = Some (z * one)) zs r.
Proof.
  intros H n. exists (map (fun w => int_to_fmt binary64 (swrap 32 w)) (map (uwrap 32) zs)). split.
  - unfold convertsamples. cbn [c_type c_num c_size c_mem]. cbn [Z.eqb Pos.eqb orb]. unfold n. rewrite Nat2Z.id.
    rewrite <- (map_length (uwrap 32) zs) at 1. change 0 with (Z.of_nat 0) at 1. rewrite (to_doubles_run false _ _ _ tail) by reflexivity. reflexivity.
  - clear n. induction H as [|z zs Hz H IH]; cbn [map]; [constructor|]. constructor; [|exact IH].
    rewrite swrap_of_word by exact Hz. exact (int_double z Hz).
Qed.

Lemma floats_doubles pre truncate l tail size : Forall (fun w => 0 <= w < 2 ^ 32) l -> let n := Z.of_nat (length l) in exists r,
  convertsamples pre (mk_cseg 102 n size (l ++ tail)) 100 truncate = Ok (mk_cseg 100 n (8 * n) (dwords r), 0) /\ Forall2 same_value l r.
Proof.
  intros H n. exists (map float_to_double l). split.
  - unfold convertsamples. cbn [c_type c_num c_size c_mem]. cbn [Z.eqb Pos.eqb orb]. unfold n. rewrite Nat2Z.id.
    change 0 with (Z.of_nat 0) at 1. rewrite (to_doubles_run true _ _ _ tail) by reflexivity. reflexivity.
  - clear n. induction H as [|z zs Hz H IH]; cbn [map]; [constructor|]. constructor; [exact (float_double z Hz)|exact IH].
Qed.

Lemma ints_floats pre truncate zs tail size : Forall (in_s 32) zs -> let n := Z.of_nat (length zs) in exists r,
  convertsamples pre (mk_cseg 105 n size (map (uwrap 32) zs ++ tail)) 102 truncate = Ok (mk_cseg 102 n size (r ++ tail), 0) /\
  Forall2 (fun z b => nearest_pattern units32 32 (z * one) b) zs r.
Proof.
  intros H n. exists (map (fun w => int_to_fmt binary32 (swrap 32 w)) (map (uwrap 32) zs)). split.
  - unfold convertsamples. cbn [c_type c_num c_size c_mem]. cbn [Z.eqb Pos.eqb orb]. unfold n. rewrite Nat2Z.id.
    destruct (to_floats_run false (map (uwrap 32) zs) 0 (map (uwrap 32) zs ++ tail) tail eq_refl) as (mem' & L & R & K1 & K2).
    change (Z.of_nat 0) with 0 in R. rewrite map_length in *. rewrite R. cbn [bind]. do 3 f_equal.
    cbn [stride firstn app Nat.add] in K1, K2. rewrite Nat.mul_1_l in K2. rewrite <- (firstn_skipn (length zs) mem'), K1, K2. reflexivity.
  - clear n. induction H as [|z zs Hz H IH]; cbn [map]; [constructor|]. constructor; [|exact IH].
    rewrite swrap_of_word by exact Hz. exact (int_float z Hz).
Qed.

Lemma doubles_floats pre truncate l tail size : Forall (fun b => 0 <= b < 2 ^ 64) l -> let n := Z.of_nat (length l) in
  exists size' mem' r,
  convertsamples pre (mk_cseg 100 n size (dwords l ++ tail)) 102 truncate = Ok (mk_cseg 102 n size' mem', 0) /\
  firstn (length l) mem' = r /\ Forall2 nearest_float l r /\
  (if pre then size' = size /\ length mem' = length (dwords l ++ tail) else size' = 4 * n /\ mem' = r).
Proof.
  intros H n. destruct (to_floats_run true l 0 (dwords l ++ tail) tail eq_refl) as (mem' & L & R & K1 & K2).
  change (Z.of_nat 0) with 0 in R. cbn [firstn app Nat.add] in K1.
  exists (if pre then size else 4 * n), (if pre then mem' else firstn (length l) mem'), (map double_to_float l). split; [|split; [|split]].
  - unfold convertsamples. cbn [c_type c_num c_size c_mem]. cbn [Z.eqb Pos.eqb orb]. unfold n. rewrite Nat2Z.id, R. cbn [bind].
    unfold shrink. rewrite Nat2Z.id. destruct pre; reflexivity.
  - destruct pre; [exact K1|]. rewrite firstn_firstn, Nat.min_id. exact K1.
  - clear -H. induction H as [|z zs Hz H IH]; cbn [map]; [constructor|]. constructor; [exact (double_float z Hz)|exact IH].
  - destruct pre; [split; [reflexivity|exact L]|split; [reflexivity|exact K1]].
Qed.

Lemma good_fmt dbl : good (fmt dbl). Proof. destruct dbl; [exact good64|exact good32]. Qed.
Lemma val_fmt dbl b : 0 <= b < 2 ^ bits_of dbl -> val (fmt dbl) b = units_of dbl b.
Proof. destruct dbl; [exact (val64 b)|exact (val32 b)]. Qed.

(** A finite sample. *)
Lemma finite_sample dbl b x : 0 <= b < 2 ^ bits_of dbl -> units_of dbl b = Some x ->
  exists neg a, decode_fmt (fmt dbl) b = FFin neg (mag (fmt dbl) a) /\ 0 <= a < inf_pat (fmt dbl) /\ x = signed_mag neg (mag (fmt dbl) a) /\
    exists b', 0 <= b' < inf_pat binary64 /\ mag binary64 b' = mag (fmt dbl) a.
Proof.
  intros Hb Hx. rewrite <- val_fmt in Hx by exact Hb. pose proof (good_fmt dbl) as G.
  destruct (sign_cover (fmt dbl) b G) as (neg & a & E & Ha); [destruct dbl; exact Hb|]. exists neg, a.
  unfold val in Hx. rewrite E in *. rewrite decode_pat in * by assumption. destruct (Z.ltb_spec a (inf_pat (fmt dbl))) as [L|L].
  - injection Hx as <-. split; [reflexivity|]. split; [lia|]. split; [reflexivity|]. destruct dbl; [exists a; split; [exact (conj (proj1 Ha) L)|reflexivity]|].
    apply float_in_double. exact (conj (proj1 Ha) L).
  - destruct (a =? inf_pat (fmt dbl)); discriminate.
Qed.

Lemma float_not_below a : 0 <= a < inf_pat binary32 -> mag binary32 a <> below_half.
Proof.
  intros Ha E. destruct (mag_form binary32 a good32 ltac:(lia)) as (e & q & He & Hq & Hq1 & EB).
  assert (M : mag binary32 a = q * pw (e + 925)) by (rewrite EB; apply mag_grid; [exact good32|exact He| |exact Hq1]; lia).
  rewrite M in E. unfold below_half in E. change (2 ^ 1020) with (pw 1020) in E. change (2 ^ (fb binary32 + 1)) with 16777216 in Hq.
  destruct (Z.le_gt_cases (e + 925) 1020) as [C|C].
  - assert (P : pw 1020 = pw (1020 - (e + 925)) * pw (e + 925)) by (rewrite <- pw_add by lia; f_equal; lia).
    pose proof (pw_pos (1020 - (e + 925)) ltac:(lia)). pose proof (pw_pos (e + 925) ltac:(lia)).
    rewrite P, Z.mul_assoc in E. apply Z.mul_reg_r in E; [|lia]. lia.
  - assert (P : pw (e + 925) = pw (e + 925 - 1021) * 2 * pw 1020).
    { change 2 with (pw 1). rewrite <- !pw_add by lia. f_equal. lia. }
    pose proof (pw_pos 1020 ltac:(clear; lia)). rewrite P, !Z.mul_assoc in E. apply Z.mul_reg_r in E; [|lia].
    generalize dependent (q * pw (e + 925 - 1021)). intros. lia.
Qed.

Lemma sample_result dbl truncate b x : 0 <= b < 2 ^ bits_of dbl -> units_of dbl b = Some x -> fits_int x ->
  exists z, sample_to_int (fmt dbl) truncate (decode_fmt (fmt dbl) b) = Ok (if negb truncate && lossy x then None else Some z) /\
    in_s 32 z /\ nearest_or_one dbl x z.
Proof.
  intros Hb Hx Hf. destruct (finite_sample dbl b x Hb Hx) as (neg & a & D & A & E & B). rewrite D.
  destruct (sample_int (fmt dbl) a neg truncate (good_fmt dbl) A B) as (z & R & Z0 & N); [rewrite <- E; exact Hf|].
  rewrite <- E in R, N. exists z. split; [exact R|]. split; [unfold in_s; lia|].
  destruct N as [N|[N1 N2]]; [left; exact N|]. destruct dbl; [right; repeat split; assumption|]. exfalso.
  apply (float_not_below a A). cbn [fmt] in E. unfold signed_mag in E. destruct neg; [|congruence].
  destruct Hf as [F0 _]. pose proof (mag_nonneg binary32 a good32 ltac:(lia)). assert (mag binary32 a = 0) by lia.
  rewrite H0 in E. cbn in E. rewrite E in N1. discriminate.
Qed.

Lemma samples_results dbl truncate l xs : Forall2 (fun b x => 0 <= b < 2 ^ bits_of dbl /\ units_of dbl b = Some x /\ fits_int x) l xs ->
  exists zs, Forall2 (fun b r => sample_to_int (fmt dbl) truncate (decode_fmt (fmt dbl) b) = Ok r) l
      (map (fun p => if negb truncate && lossy (fst p) then None else Some (snd p)) (combine xs zs)) /\
    Forall2 (fun x z => in_s 32 z /\ nearest_or_one dbl x z) xs zs.
Proof.
  induction 1 as [|b x l xs (Hb & Hx & Hf) H (zs & A & B)]; [exists []; split; constructor|].
  destruct (sample_result dbl truncate b x Hb Hx Hf) as (z & R & Z0). exists (z :: zs). cbn [combine map fst snd]. split; constructor; auto.
Qed.

Lemma Forall2_len {A B} (P : A -> B -> Prop) l l' : Forall2 P l l' -> length l = length l'.
Proof. induction 1; cbn; congruence. Qed.

Lemma to_integers pre truncate dbl l xs tail size : Forall2 (fun b x => 0 <= b < 2 ^ bits_of dbl /\ units_of dbl b = Some x /\ fits_int x) l xs ->
  let n := Z.of_nat (length l) in let s := mk_cseg (if dbl then 100 else 102) n size (stored dbl l ++ tail) in
  if negb truncate && existsb lossy xs then
    exists mem', convertsamples pre s 105 truncate = Ok (mk_cseg (c_type s) n size mem', -1) /\ length mem' = length (c_mem s)
  else exists zs size' mem', convertsamples pre s 105 truncate = Ok (mk_cseg 105 n size' mem', 0) /\
    firstn (length l) mem' = map (uwrap 32) zs /\ Forall2 (fun x z => in_s 32 z /\ nearest_or_one dbl x z) xs zs /\
    (if dbl && negb pre then size' = 4 * n /\ length mem' = length l else size' = size /\ length mem' = length (c_mem s)).
Proof.
  intros H n s. destruct (samples_results dbl truncate l xs H) as (zs & R & N).
  destruct (to_ints_run dbl truncate l _ 0 (stored dbl l ++ tail) tail ltac:(rewrite Nat.mul_0_r; reflexivity) R) as (mem' & L & T & K).
  change (Z.of_nat 0) with 0 in T. set (rs := map _ (combine xs zs)) in *.
  assert (LX : length xs = length zs) by (eapply Forall2_len; exact N).
  assert (AL : forallb (fun r : option Z => match r with Some _ => true | None => false end) rs = negb (negb truncate && existsb lossy xs)).
  { unfold rs. clear -LX. revert zs LX. induction xs as [|x xs IH]; intros [|z zs] LX; try discriminate; [cbn; destruct truncate; reflexivity|].
    cbn [combine map fst snd forallb existsb]. rewrite IH by (cbn in LX; lia). destruct truncate, (lossy x), (existsb lossy xs); reflexivity. }
  rewrite AL in T. unfold convertsamples. cbn [c_type c_num c_size c_mem s]. unfold n. rewrite Nat2Z.id.
  destruct (negb truncate && existsb lossy xs) eqn:Q; cbn [negb] in T.
  - exists mem'. split; [|exact L]. destruct dbl; cbn [Z.eqb Pos.eqb orb]; rewrite T; reflexivity.
  - assert (RS : rs = map Some zs).
    { unfold rs. clear -LX Q. revert zs LX Q. induction xs as [|x xs IH]; intros [|z zs] LX Q; try discriminate; [reflexivity|].
      cbn [combine map fst snd existsb] in *. rewrite (IH zs) by (try (cbn in LX; lia); destruct truncate, (lossy x); cbn in *; congruence).
      destruct truncate, (lossy x); cbn in *; congruence. }
    destruct (K zs RS) as [K1 K2]. cbn [firstn app Nat.add] in K1.
    exists zs, (if dbl && negb pre then 4 * n else size), (if dbl && negb pre then firstn (length l) mem' else mem').
    split; [|split; [|split; [exact N|]]].
    + destruct dbl; cbn [Z.eqb Pos.eqb orb]; rewrite T; cbn [bind negb]; [|reflexivity]. unfold shrink. rewrite Nat2Z.id. destruct pre; reflexivity.
    + destruct (dbl && negb pre); [rewrite firstn_firstn, Nat.min_id|]; exact K1.
    + destruct (dbl && negb pre); split; try reflexivity; [|exact L].
      rewrite K1, map_length, <- LX. symmetry. eapply Forall2_len; exact H.
Qed.

(** Every negative integer comes back from doubles as its successor. *)
Lemma negative_back pre truncate z tail size : - 2 ^ 31 <= z < 0 ->
  exists b, convertsamples pre (mk_cseg 105 1 size (uwrap 32 z :: tail)) 100 truncate = Ok (mk_cseg 100 1 8 (dwords [b]), 0) /\
    units64 b = Some (z * one) /\ forall pre' truncate', exists size' mem',
    convertsamples pre' (mk_cseg 100 1 8 (dwords [b])) 105 truncate' = Ok (mk_cseg 105 1 size' mem', 0) /\
    firstn 1 mem' = [uwrap 32 (z + 1)].
Proof.
  intros Hz. assert (Z0 : in_s 32 z) by (unfold in_s; lia).
  destruct (ints_doubles pre truncate [z] tail size ltac:(constructor; [exact Z0|constructor])) as (r & C & F).
  inversion F as [|? b ? r' [Hb Hu] F']; subst. inversion F'; subst. exists b. split; [exact C|]. split; [exact Hu|].
  intros pre' truncate'. destruct (finite_sample true b (z * one) Hb Hu) as (neg & a & D & A & E & _). cbn [fmt] in *.
  pose proof one_pos as OP. pose proof (mag_nonneg binary64 a good64 ltac:(lia)) as MN.
  assert (ZN : z * one < 0) by (apply Z.mul_neg_pos; lia). assert (neg = true) by (destruct neg; [reflexivity|unfold signed_mag in E; lia]). subst neg.
  assert (M : mag binary64 a = - z * one) by (unfold signed_mag in E; lia).
  destruct (to_ints_run true truncate' [b] [Some (z + 1)] 0 (dwords [b]) [] ltac:(reflexivity)) as (mem' & L & T & K).
  { constructor; [|constructor]. cbn [fmt]. rewrite D, (sample_negative binary64 a (- z) truncate' good64 A M) by lia. do 2 f_equal. lia. }
  destruct (K [z + 1] eq_refl) as [K1 _]. cbn [length firstn app Nat.add map] in K1.
  exists (if pre' then 8 else 4), (if pre' then mem' else firstn 1 mem').
  unfold convertsamples. cbn [c_type c_num c_size c_mem]. cbn [Z.eqb Pos.eqb orb]. change (Z.to_nat 1) with (length [b]).
  change (Z.of_nat 0) with 0 in T. rewrite T. cbn [bind forallb andb negb]. unfold shrink. split; [destruct pre'; reflexivity|].
  destruct pre'; [exact K1|]. rewrite firstn_firstn. exact K1.
Qed.
