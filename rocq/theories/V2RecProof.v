(** * Parsing a laid out version 2 record. *)

From Coq Require Import String QArith.
From Verif Require Import Base BaseLemmas TimeModel TimeSpec TimeProof StrModel StrSpec StrProof RecModel RecSpec RecProof
  ConvModel ConvSpec ConvProof V2Model V2Spec V2Proof V2RecSpec.
Open Scope Z_scope.

(** ** Reads in concatenations *)

Definition other (hb big : bool) : bool := negb (Bool.eqb hb big).

Lemma lenZ_ord big n v : lenZ (ord big n v) = Z.of_nat n.
Proof. unfold lenZ, ord. destruct big; [rewrite be_bytes_length|rewrite le_bytes_length]; reflexivity. Qed.

Lemma lenZ_cons {A} (x : A) l : lenZ (x :: l) = 1 + lenZ l.
Proof. unfold lenZ. cbn [length]. lia. Qed.

Lemma lenZ_nil {A} : lenZ (@nil A) = 0.
Proof. reflexivity. Qed.

Lemma lenZ_repeat (x : Z) k : 0 <= k -> lenZ (repeat x (Z.to_nat k)) = k.
Proof. intros. unfold lenZ. rewrite repeat_length. lia. Qed.

Lemma lenZ_label n l : label_ok n l -> forall n', n <= n' -> lenZ (label_bytes n' l) = n'.
Proof.
  intros (_ & _ & _ & L) n' Hn. unfold label_bytes. rewrite lenZ_app. rewrite lenZ_repeat; lia.
Qed.

Lemma ld_ord hb big n v : ld hb (other hb big) (ord big n v) = v mod 2 ^ (8 * Z.of_nat n).
Proof.
  unfold ld, other, ord, host_val, gswap_if, gswap.
  destruct hb, big; cbn [Bool.eqb negb]; unfold be_val, be_bytes; rewrite ?rev_involutive; apply le_val_le_bytes.
Qed.

Lemma slice_hit {A} k n (b c : list A) : k = 0 -> n = lenZ b -> sliceZ k n (b ++ c) = Ok b.
Proof. intros -> ->. apply (sliceZ_mid 0 (lenZ b) [] b c); reflexivity. Qed.

Lemma slice_skip {A} k n (a l : list A) : lenZ a <= k -> sliceZ k n (a ++ l) = sliceZ (k - lenZ a) n l.
Proof.
  intros H. unfold sliceZ. rewrite app_length. unfold lenZ in *.
  replace (k + n <=? Z.of_nat (length a + length l)) with (k - Z.of_nat (length a) + n <=? Z.of_nat (length l)) by lia.
  replace (0 <=? k) with true by lia. replace (0 <=? k - Z.of_nat (length a)) with true by lia.
  destruct (true && (0 <=? n) && _); [|reflexivity]. do 2 f_equal.
  rewrite skipn_app, (skipn_all2 a) by lia. cbn [app]. f_equal. lia.
Qed.

Lemma slice_skip1 {A} k n (x : A) l : 1 <= k -> sliceZ k n (x :: l) = sliceZ (k - 1) n l.
Proof. intros H. apply (slice_skip k n [x] l). cbn. lia. Qed.

Lemma rd_hit hb big m n k v c : k = 0 -> m = Z.of_nat n -> rd hb (other hb big) m k (ord big n v ++ c) = Ok (v mod 2 ^ (8 * m)).
Proof.
  intros -> ->. unfold rd. rewrite slice_hit by (try reflexivity; now rewrite lenZ_ord). cbn [bind]. now rewrite ld_ord.
Qed.

Lemma rd_skip hb sw n k (a l : list Z) : lenZ a <= k -> rd hb sw n k (a ++ l) = rd hb sw n (k - lenZ a) l.
Proof. intros H. unfold rd. now rewrite slice_skip. Qed.

Lemma rd_skip1 hb sw n k x (l : list Z) : 1 <= k -> rd hb sw n k (x :: l) = rd hb sw n (k - 1) l.
Proof. intros H. apply (rd_skip hb sw n k [x] l). cbn. lia. Qed.

Lemma get_hit {A} k (x : A) l : k = 0 -> getZ k (x :: l) = Ok x.
Proof. intros ->. reflexivity. Qed.

Lemma get_skip {A} k (a l : list A) : lenZ a <= k -> getZ k (a ++ l) = getZ (k - lenZ a) l.
Proof.
  intros H. unfold getZ, lenZ in *. replace (0 <=? k) with true by lia.
  replace (0 <=? k - Z.of_nat (length a)) with true by lia. rewrite nth_error_app2 by lia.
  replace (Z.to_nat k - length a)%nat with (Z.to_nat (k - Z.of_nat (length a))) by lia. reflexivity.
Qed.

Lemma get_skip1 {A} k (x : A) l : 1 <= k -> getZ k (x :: l) = getZ (k - 1) l.
Proof. intros H. apply (get_skip k [x] l). cbn. lia. Qed.

Lemma skipn_skip {A} k (a l : list A) : lenZ a <= k -> skipn (Z.to_nat k) (a ++ l) = skipn (Z.to_nat (k - lenZ a)) l.
Proof. intros H. unfold lenZ in *. rewrite skipn_app, skipn_all2 by lia. cbn [app]. f_equal. lia. Qed.

Lemma text_skip cap k n (a l : list Z) : lenZ a <= k -> text_field cap k n (a ++ l) = text_field cap (k - lenZ a) n l.
Proof. intros H. unfold text_field. now rewrite skipn_skip. Qed.

Lemma text_skip1 cap k n x (l : list Z) : 1 <= k -> text_field cap k n (x :: l) = text_field cap (k - 1) n l.
Proof. intros H. apply (text_skip cap k n [x] l). cbn. lia. Qed.

Lemma btime_skip hb sw mode k (a l : list Z) : lenZ a <= k ->
  btime_or_fail hb sw mode k (a ++ l) = btime_or_fail hb sw mode (k - lenZ a) l.
Proof.
  intros H. unfold btime_or_fail, btime2nstime.
  rewrite !rd_skip by lia. rewrite !get_skip by lia.
  replace (k + 2 - lenZ a) with (k - lenZ a + 2) by lia. replace (k + 4 - lenZ a) with (k - lenZ a + 4) by lia.
  replace (k + 5 - lenZ a) with (k - lenZ a + 5) by lia. replace (k + 6 - lenZ a) with (k - lenZ a + 6) by lia.
  replace (k + 8 - lenZ a) with (k - lenZ a + 8) by lia. reflexivity.
Qed.

Lemma btime_skip1 hb sw mode k x (l : list Z) : 1 <= k -> btime_or_fail hb sw mode k (x :: l) = btime_or_fail hb sw mode (k - 1) l.
Proof. intros H. apply (btime_skip hb sw mode k [x] l). cbn. lia. Qed.

(** ** Times *)

Lemma day_bounds n : 1678 <= d_year (day_at n) <= 2261 ->
  1 <= d_yday (day_at n) <= year_len (d_year (day_at n)) /\ dby (d_year (day_at n)) + d_yday (day_at n) - 1 = n
  /\ -106650 <= n <= 106650.
Proof.
  intros H. destruct (day_at_ok n) as [[V Y] D]. pose proof (cum_bound _ _ _ V) as B. rewrite <- Y in B. unfold dn in D.
  split; [exact B|]. split; [exact D|].
  assert (L : year_len (d_year (day_at n)) <= 366) by (unfold year_len; destruct (gleap _); lia).
  assert (L1 : dby 1678 <= dby (d_year (day_at n))).
  { destruct (Z.eq_dec 1678 (d_year (day_at n))) as [<-|E]; [lia|]. pose proof (dby_mono 1678 (d_year (day_at n)) ltac:(lia)).
    change (year_len 1678) with 365 in *. lia. }
  assert (L2 : dby (d_year (day_at n)) + year_len (d_year (day_at n)) <= dby 2262) by (apply dby_mono; lia).
  change (dby 1678) with (-106650) in L1. change (dby 2262) with 106651 in L2. lia.
Qed.

Lemma btime_range b : btime_ok b -> -9214560000000000000 <= btime_ns b <= 9214700000000000000.
Proof.
  intros (Y & H & M & S & U & F & _). destruct (day_bounds _ Y) as (_ & _ & N). unfold btime_ns, epoch_ns. lia.
Qed.

Lemma time_value mode n h mi s ns : 1678 <= d_year (day_at n) <= 2261 -> 0 <= h <= 23 -> 0 <= mi <= 59 -> 0 <= s <= 60 ->
  0 <= ns <= 999999999 ->
  time2nstime mode (d_year (day_at n)) (d_yday (day_at n)) h mi s ns = Ok (epoch_ns n h mi s ns).
Proof.
  intros Y H M S N. destruct (day_bounds _ Y) as (B & D & R). rewrite time2nstime_range by lia.
  rewrite time2nstime_int_ok, D. rewrite sarith_ok by (apply in_s64; unfold epoch_ns; lia). cbn [bind].
  rewrite sarith_ok by (apply in_s64; unfold epoch_ns; lia). f_equal. unfold epoch_ns. lia.
Qed.

Lemma btime_hit hb big mode k b c : k = 0 -> btime_ok b ->
  btime_or_fail hb (other hb big) mode k (btime_bytes big b ++ c) = Ok (btime_ns b).
Proof.
  intros -> B. pose proof B as (Y & H & M & S & U & F & NE). destruct (day_bounds _ Y) as (D & _ & _).
  assert (L : year_len (d_year (day_at (b_day b))) <= 366) by (unfold year_len; destruct (gleap _); lia).
  unfold btime_or_fail, btime2nstime, btime_bytes. rewrite <- !app_assoc.
  rewrite rd_hit by reflexivity. cbn [bind]. rewrite Z.mod_small by lia.
  destruct (Z.eqb_spec (d_year (day_at (b_day b))) 0); [lia|].
  rewrite rd_skip, lenZ_ord by (rewrite lenZ_ord; lia). rewrite rd_hit by reflexivity. cbn [bind]. rewrite Z.mod_small by lia.
  rewrite !(get_skip _ (ord _ _ _)) by (rewrite ?lenZ_ord; lia). rewrite !lenZ_ord.
  cbn [app]. cbn [Z.add Z.sub Z.opp Z.of_nat Pos.of_succ_nat Pos.succ Pos.add Z.pos_sub Pos.pred_double Z.pred_double Z.succ_double Z.double].
  change (getZ 0 (b_hour b :: b_min b :: b_sec b :: b_unused b :: ord big 2 (b_fract b) ++ c)) with (Ok (b_hour b)).
  change (getZ 1 (b_hour b :: b_min b :: b_sec b :: b_unused b :: ord big 2 (b_fract b) ++ c)) with (Ok (b_min b)).
  change (getZ 2 (b_hour b :: b_min b :: b_sec b :: b_unused b :: ord big 2 (b_fract b) ++ c)) with (Ok (b_sec b)).
  cbn [bind]. rewrite !(rd_skip _ _ _ _ (ord _ _ _)) by (rewrite ?lenZ_ord; lia). rewrite !lenZ_ord.
  rewrite !rd_skip1 by lia. rewrite rd_hit by reflexivity. cbn [bind]. rewrite Z.mod_small by lia.
  unfold uwrap. rewrite (Z.mod_small (b_fract b * 100000)) by lia.
  rewrite time_value by lia. cbn [bind]. fold (btime_ns b). destruct (Z.eqb_spec (btime_ns b) NSTERROR); [contradiction|reflexivity].
Qed.

(** ** Texts *)

Lemma until0_stop t r : Forall (fun c => 1 <= c <= 127) t -> until0 (t ++ 0 :: r) = t.
Proof.
  induction 1 as [|c t H T IH]; cbn [app until0]; [reflexivity|]. destruct (Z.eqb_spec c 0); [lia|]. now rewrite IH.
Qed.

Lemma before_nul_app t r : Forall (fun c => 1 <= c <= 127) t -> before_nul (t ++ r) = t ++ before_nul r.
Proof.
  induction 1 as [|c t H T IH]; cbn [app before_nul]; [reflexivity|]. destruct (Z.eqb_spec c 0); [lia|]. now rewrite IH.
Qed.

Lemma before_nul_zeros k : before_nul (repeat 0 k) = [].
Proof. destruct k; reflexivity. Qed.

Lemma trimmed_unique t t' k k' : t ++ repeat 32 k = t' ++ repeat 32 k' -> (forall u, t <> u ++ [32]) ->
  (forall u, t' <> u ++ [32]) -> t = t'.
Proof.
  revert k'. induction k as [|k IH]; intros k' E N N'.
  - destruct k'; cbn [repeat] in E; rewrite ?app_nil_r in E; [exact E|].
    exfalso. apply (N (t' ++ repeat 32 k')). rewrite E. cbn [repeat]. rewrite repeat_cons, app_assoc. reflexivity.
  - destruct k'.
    + exfalso. cbn [repeat] in E. rewrite app_nil_r in E. apply (N' (t ++ repeat 32 k)). rewrite <- E. cbn [repeat].
      rewrite repeat_cons, app_assoc. reflexivity.
    + cbn [repeat] in E. rewrite !repeat_cons, !app_assoc in E. apply app_inj_tail in E. destruct E as [E _]. eauto.
Qed.

Lemma text_hit cap k n n' l c : k = 0 -> label_ok n' l -> n' <= n -> bytes_ok c -> 0 < lenZ c \/ (l_fill l = 0 /\ lenZ (l_text l) < n) ->
  lenZ (l_text l) < cap -> (l_fill l = 32 -> n < cap) ->
  text_field cap k n (label_bytes n l ++ c) = Ok (l_text l).
Proof.
  intros -> K Hn C R Hc Hc'. pose proof K as (T & N & F & L). pose proof (lenZ_label _ _ K n Hn) as LL. unfold text_field. cbn [Z.to_nat skipn].
  set (j := Z.to_nat (n - lenZ (l_text l))). set (src := label_bytes n l ++ c).
  assert (V : visible src n = l_text l ++ (if l_fill l =? 32 then repeat 32 j else [])).
  { unfold visible, src. replace (Z.to_nat n) with (length (label_bytes n l) + 0)%nat by (unfold lenZ in LL; lia).
    rewrite firstn_app_2, firstn_O, app_nil_r. unfold label_bytes. rewrite before_nul_app by exact T. f_equal. fold j.
    destruct F as [-> | ->]; cbn [Z.eqb Pos.eqb]; [|apply before_nul_zeros].
    rewrite <- (app_nil_r (repeat 32 j)) at 1. rewrite before_nul_app by (apply Forall_forall; intros x Hx; apply repeat_spec in Hx; lia).
    cbn [before_nul]. apply app_nil_r. }
  assert (VT : Forall (fun c => 1 <= c <= 127) (visible src n)).
  { rewrite V. apply Forall_app. split; [exact T|]. destruct (l_fill l =? 32); [|constructor].
    apply Forall_forall; intros x Hx; apply repeat_spec in Hx; lia. }
  assert (VL : (length (visible src n) < length (repeat 0%Z (Z.to_nat cap)))%nat).
  { rewrite repeat_length, V, app_length. unfold lenZ in *. destruct (Z.eqb_spec (l_fill l) 32) as [E|E].
    - specialize (Hc' E). rewrite repeat_length. unfold j. lia.
    - cbn [length]. lia. }
  destruct (strncpcleantail_ok (repeat 0 (Z.to_nat cap)) src n (visible src n)) as (t & i & Ep & [_ Nt] & E).
  - unfold src. apply Forall_app. split; [|exact C]. unfold label_bytes. apply Forall_app. split.
    + eapply Forall_impl; [|exact T]. unfold byte_ok. cbn. lia.
    + apply Forall_forall; intros x Hx; apply repeat_spec in Hx. unfold byte_ok. lia.
  - unfold readable. destruct R as [R|[F0 R]].
    + left. unfold src. unfold lenZ in *. rewrite app_length. lia.
    + right. unfold src, label_bytes. apply in_or_app. left. apply in_or_app. right. rewrite F0.
      replace (Z.to_nat (n - lenZ (l_text l))) with (S (Z.to_nat (n - lenZ (l_text l) - 1))) by lia. left. reflexivity.
  - apply longest_self, ascii_wf, VT.
  - exact VL.
  - rewrite E. cbn [bind]. rewrite V in Ep.
    assert (t = l_text l) as ->.
    { destruct (l_fill l =? 32).
      - symmetry. eapply trimmed_unique; [exact Ep|exact N|exact Nt].
      - symmetry. eapply (trimmed_unique _ _ 0); [cbn [repeat]; exact Ep|exact N|exact Nt]. }
    cbn [repeat app]. now rewrite until0_stop.
Qed.

(** ** One blockette *)

Lemma bit_testbit fl i : 0 <= i -> bit fl i = Z.testbit fl i.
Proof. intros H. unfold bit. now rewrite Z.testbit_odd, Z.shiftr_div_pow2. Qed.

Lemma lenZ_btime big b : lenZ (btime_bytes big b) = 10.
Proof. unfold btime_bytes. rewrite !lenZ_app, !lenZ_ord. reflexivity. Qed.

Lemma ord_ok big n v : bytes_ok (ord big n v).
Proof. unfold ord. destruct big; [apply be_bytes_ok|apply le_bytes_ok]. Qed.

Lemma btime_bytes_ok big b : btime_ok b -> bytes_ok (btime_bytes big b).
Proof.
  intros (Y & H & M & S & U & F & _). unfold btime_bytes. repeat (apply Forall_app; split); try apply ord_ok.
  repeat constructor; unfold byte_ok; lia.
Qed.

Lemma label_bytes_ok n n' l : label_ok n l -> bytes_ok (label_bytes n' l).
Proof.
  intros (T & _ & F & _). unfold label_bytes. apply Forall_app. split.
  - eapply Forall_impl; [|exact T]. unfold byte_ok. cbn. lia.
  - apply Forall_forall; intros x Hx; apply repeat_spec in Hx. unfold byte_ok. lia.
Qed.

Ltac lens := repeat first [rewrite lenZ_app | rewrite lenZ_cons | rewrite (@lenZ_nil Z) | rewrite lenZ_ord | rewrite lenZ_btime];
  cbn [Z.of_nat Pos.of_succ_nat Pos.succ].
Ltac sides := lens; lia.
Ltac bok := unfold bytes_ok in *;
  repeat first [assumption | apply ord_ok | apply btime_bytes_ok; assumption | eapply label_bytes_ok; eassumption
               | apply Forall_cons; [assumption|] | apply Forall_nil | apply Forall_app; split].
Ltac get := repeat first [ rewrite get_hit by sides; reflexivity | rewrite get_skip1 by sides | rewrite get_skip by sides].
Ltac rdr := repeat first [ apply rd_hit; [sides|reflexivity] | rewrite rd_skip1 by sides | rewrite rd_skip by sides].
Ltac txt := repeat first [ eapply text_hit; [sides|eassumption|lia|bok|sides|unfold label_ok in *; lia|lia]
                         | rewrite text_skip1 by sides | rewrite text_skip by sides].
Ltac btm := repeat first [ apply btime_hit; [sides|assumption] | rewrite btime_skip1 by sides | rewrite btime_skip by sides].
Ltac slc := repeat first [ apply slice_hit; [sides|sides] | rewrite slice_skip1 by sides | rewrite slice_skip by sides].
Ltac one :=
  cbn [app];
  lazymatch goal with
  | |- bind (rd ?hb ?sw ?n ?k ?l) _ = _ => let E := fresh in eassert (E : rd hb sw n k l = Ok _); [rdr|rewrite E; clear E; cbn [bind]]
  | |- bind (getZ ?k ?l) _ = _ => let E := fresh in eassert (E : getZ k l = Ok _); [get|rewrite E; clear E; cbn [bind]]
  | |- bind (sliceZ ?k ?n ?l) _ = _ => let E := fresh in eassert (E : sliceZ k n l = Ok _); [slc|rewrite E; clear E; cbn [bind]]
  | |- bind (text_field ?c ?k ?n ?l) _ = _ => let E := fresh in eassert (E : text_field c k n l = Ok _); [txt|rewrite E; clear E; cbn [bind]]
  | |- bind (btime_or_fail ?hb ?sw ?m ?k ?l) _ = _ =>
    let E := fresh in eassert (E : btime_or_fail hb sw m k l = Ok _); [btm|rewrite E; clear E; cbn [bind]]
  end.

Lemma quality_same q : quality_text q = quality_doc q.
Proof.
  unfold quality_text, quality_doc, byte_text, byte_decimal. destruct (q <? 10) eqn:A; [reflexivity|].
  destruct (q <? 100) eqn:B; cbn [skipn]; [|reflexivity]. rewrite (Z.mod_small (q / 10)); [reflexivity|]. lia.
Qed.

Definition after (b : blk) (o : Z) (st : v2st) : v2st :=
  match b with
  | B100 w _ => mk_v2st (float_to_double w) (s_reclen st) (s_enc st) (s_b1000 st) (s_b1001 st) (s_end st) (s_count st)
                        (s_extra st) (s_ops st)
  | B1000 enc bo e res => mk_v2st (s_rate st) (2 ^ e) enc o (s_b1001 st) (s_end st) (s_count st) (s_extra st) (s_ops st)
  | B1001 q us res fc =>
    let '(x, p) := chain_ops (s_extra st) (s_ops st) [(b, [])] in
    mk_v2st (s_rate st) (s_reclen st) (s_enc st) (s_b1000 st) o (s_end st) (s_count st) x p
  | _ => mk_v2st (s_rate st) (s_reclen st) (s_enc st) (s_b1000 st) (s_b1001 st) (s_end st) (s_count st) (s_extra st)
                 (s_ops st ++ blk_ops b)
  end.

Lemma add_op_ok J o st : headers_accepted J -> add_op J o st = Ok (with_op o st).
Proof. intros H. unfold add_op. now rewrite H. Qed.

Ltac ready :=
  let B := fresh "B" in intros B; destruct B as (BB & B); cbn [blk_body] in BB; unfold bytes_ok in BB;
  repeat match goal with
  | H : Forall _ (_ ++ _) |- _ => apply Forall_app in H; destruct H
  | H : Forall _ (_ :: _) |- _ => apply Forall_cons_iff in H; destruct H
  end; repeat match goal with H : _ /\ _ |- _ => destruct H end;
  repeat match goal with
  | H : label_ok ?n ?l |- _ => pose proof (lenZ_label n l H n (Z.le_refl n)); revert H
  end; intros.

Ltac finish := rewrite ?add_op_ok by assumption; unfold in_u in *; rewrite ?Z.mod_small by (cbn; lia);
    cbn [bind blk_ops]; unfold with_op, bit_or, trigger, how_triggered, yes_or_unset; rewrite ?bit_testbit by lia; reflexivity.

Lemma step_ok J hb big mode pre ty nx b post st : headers_accepted J -> blk_ok b -> bytes_ok post -> 0 < lenZ post ->
  blockette J hb (other hb big) mode (pre ++ ord big 2 ty ++ ord big 2 nx ++ blk_body big b ++ post) (blk_type b) (lenZ pre) st
  = Ok (after b (lenZ pre) st).
Proof.
  intros J0 B P L. revert B. pose proof (lenZ_nonneg pre). unfold blockette.
  destruct b; ready; cbn [blk_type Z.eqb Pos.eqb blk_body after]; rewrite <- ?app_assoc.
  - one. finish.
  - unfold blk200. repeat one. finish.
  - unfold blk201. repeat one. finish.
  - unfold blk300. repeat one. finish.
  - unfold blk310. repeat one. finish.
  - unfold blk320. repeat one. finish.
  - unfold blk390. repeat one. finish.
  - unfold blk395. repeat one. finish.
  - cbn [blk_ops]. rewrite app_nil_r. destruct st; reflexivity.
  - pose proof (lenZ_label 15 type ltac:(assumption) 16 ltac:(lia)). pose proof (lenZ_label 127 status ltac:(assumption) 128 ltac:(lia)).
    unfold blk500. do 3 one. 
    match goal with |- bind ?x _ = _ => replace x with (@Ok Z (btime_ns t + us * 1000)) end.
    2:{ assert (U : swrap 8 (us mod 256) = us) by (unfold swrap, in_s in *; change (2 ^ 8) with 256; change (2 ^ (8 - 1)) with 128 in *; 
          destruct (us mod 256 mod 256 <? 128) eqn:E; lia). rewrite U.
        pose proof (btime_range t ltac:(assumption)). unfold in_s in *. change (2 ^ (8 - 1)) with 128 in *.
        destruct (Z.eqb_spec (us mod 256) 0) as [E|E]; [f_equal; lia|]. symmetry. apply sarith_ok, in_s64. lia. }
    cbn [bind]. repeat one. rewrite add_op_ok by assumption. cbn [bind]. repeat one.
    unfold in_u in *. rewrite !Z.mod_small by (cbn; lia). unfold with_op. cbn [blk_ops s_rate s_reclen s_enc s_b1000 s_b1001 s_end s_count s_extra s_ops].
    rewrite <- app_assoc. reflexivity.
  - unfold blk1000. repeat one. match goal with |- (if ?c then _ else _) = _ => replace c with false by lia end.
    one. rewrite Z.shiftl_mul_pow2, Z.mul_1_l by lia. unfold uwrap, swrap.
    assert (1 <= 2 ^ exp <= 2 ^ 30) by (split; [apply (Z.pow_le_mono_r 2 0); lia|apply Z.pow_le_mono_r; lia]).
    rewrite !Z.mod_small by lia. replace (2 ^ exp <? 2 ^ (32 - 1)) with true by lia. reflexivity.
  - unfold blk1001. repeat one. cbn [chain_ops s_ops]. destruct st as [r1 r2 r3 r4 r5 r6 r7 x p]. cbn [s_ops s_extra]. rewrite ?quality_same. destruct p; reflexivity.
  - cbn [blk_ops]. rewrite app_nil_r. destruct st; reflexivity.
Qed.

Lemma body_len big b : lenZ (blk_body big b) = lenZ (blk_body true b).
Proof. destruct b; cbn [blk_body]; rewrite ?lenZ_app, ?lenZ_ord, ?lenZ_btime; reflexivity. Qed.

Lemma body_ok big b : blk_ok b -> bytes_ok (blk_body big b).
Proof.
  intros [H _]. destruct b; cbn [blk_body] in *; unfold bytes_ok in *;
  repeat match goal with H : Forall _ (_ ++ _) |- _ => apply Forall_app in H; destruct H end;
  repeat (apply Forall_app; split); try assumption; try apply ord_ok;
  unfold btime_bytes, label_bytes in *; repeat match goal with H : Forall _ (_ ++ _) |- _ => apply Forall_app in H; destruct H end;
  repeat (apply Forall_app; split); try assumption; try apply ord_ok.
Qed.

Definition liblen (b : blk) : Z :=
  match b with
  | B100 _ _ => 12 | B200 _ _ _ _ _ _ _ => 28 | B201 _ _ _ _ _ _ _ _ _ _ => 36 | B300 _ _ _ _ _ _ _ _ _ _ _ => 32
  | B310 _ _ _ _ _ _ _ _ _ _ _ => 32 | B320 _ _ _ _ _ _ _ _ _ _ _ => 28 | B390 _ _ _ _ _ _ _ => 28
  | B395 _ _ => 16 | B400 _ => 16 | B500 _ _ _ _ _ _ _ _ => 8 | B1000 _ _ _ _ => 8 | B1001 _ _ _ _ => 8
  | B2000 body => 6 + lenZ body
  end.

Lemma blktlen_ok hb big pre ty nx b post : blk_ok b ->
  blktlen hb (other hb big) (blk_type b) (lenZ pre) (pre ++ ord big 2 ty ++ ord big 2 nx ++ blk_body big b ++ post) = Ok (liblen b)
    /\ 0 < liblen b <= blk_size b /\ 6 <= blk_size b.
Proof.
  intros B. pose proof (lenZ_nonneg pre). unfold blktlen, blk_size.
  destruct b; revert B; ready; cbn [blk_type Z.eqb Pos.eqb blk_body liblen] in *;
  try (split; [reflexivity|lens; lia]).
  - pose proof (lenZ_label 15 type ltac:(assumption) 16 ltac:(lia)). pose proof (lenZ_label 127 status ltac:(assumption) 128 ltac:(lia)).
    split; [reflexivity|lens; lia].
  - rewrite <- ?app_assoc. pose proof (lenZ_nonneg body). split; [|lens; lia].
    replace (Ok (6 + lenZ body)) with (Ok ((6 + lenZ body) mod 2 ^ (8 * 2))) by (rewrite Z.mod_small by lia; reflexivity). rdr.
Qed.

Fixpoint run (at_ : Z) (bs : list (blk * list Z)) (st : v2st) : v2st :=
  match bs with
  | [] => st
  | (b, gap) :: bs' => run (at_ + blk_size b + lenZ gap) bs' (after b at_ (visited (at_ + liblen b) st))
  end.

(** ** The chain *)

Lemma chain_bytes_ok big bs : forall k, chain_ok bs -> bytes_ok (chain_bytes big k bs).
Proof.
  induction bs as [|[b g] bs IH]; intros k C; cbn [chain_bytes]; [constructor|].
  apply Forall_cons_iff in C. destruct C as [[B G] C]. cbn [fst snd] in *.
  repeat (apply Forall_app; split); try apply ord_ok; [now apply body_ok|exact G|now apply IH].
Qed.

Lemma chain_len big bs : forall k k', lenZ (chain_bytes big k bs) = lenZ (chain_bytes true k' bs).
Proof.
  induction bs as [|[b g] bs IH]; intros k k'; cbn [chain_bytes]; [reflexivity|].
  rewrite !lenZ_app, !lenZ_ord, body_len. rewrite (IH _ (k' + blk_size b + lenZ g)). reflexivity.
Qed.

Lemma blk_type_range b : 0 <= blk_type b < 65536.
Proof. destruct b; cbn; lia. Qed.

Lemma chain_run J hb big mode reclen bs : headers_accepted J -> forall fuel pre post st,
  chain_ok bs -> bytes_ok post -> 0 < lenZ post -> 0 < lenZ pre -> (length bs < fuel)%nat ->
  lenZ pre + lenZ (chain_bytes big (lenZ pre) bs) <= reclen -> lenZ pre + lenZ (chain_bytes big (lenZ pre) bs) < 65536 ->
  blockettes fuel J hb (other hb big) mode (pre ++ chain_bytes big (lenZ pre) bs ++ post) reclen
             (match bs with [] => 0 | _ => lenZ pre end) st = Ok (run (lenZ pre) bs st).
Proof.
  intros J0. induction bs as [|[b g] bs IH]; intros fuel pre post st C P L0 L1 F R S.
  - destruct fuel; [lia|]. reflexivity.
  - destruct fuel as [|fuel]; [cbn [length] in F; lia|]. apply Forall_cons_iff in C. destruct C as [[B G] C]. cbn [fst snd] in *.
    pose proof (chain_bytes_ok big bs (lenZ pre + blk_size b + lenZ g) C) as CO.
    cbn [chain_bytes] in R, S |- *. set (next := lenZ pre + blk_size b + lenZ g) in *.
    rewrite !lenZ_app, !lenZ_ord, body_len in R, S. cbn [Z.of_nat Pos.of_succ_nat Pos.succ] in R, S.
    pose proof (lenZ_nonneg g). pose proof (lenZ_nonneg (chain_bytes big next bs)).
    rewrite <- !app_assoc. set (link := match bs with [] => 0 | _ => next end) in *.
    destruct (blktlen_ok hb big pre (blk_type b) link b (g ++ chain_bytes big next bs ++ post) B) as (E & L & L6).
    unfold blk_size in next, L, L6. fold (blk_size b) in next.
    cbn [blockettes]. match goal with |- (if ?c then _ else _) = _ => replace c with true by (unfold MAXRECLEN; lia) end.
    assert (LK : 0 <= link < 65536) by (unfold link; destruct bs; unfold next, blk_size; lia).
    one. rewrite Z.mod_small by (pose proof (blk_type_range b); lia).
    one. rewrite Z.mod_small by lia.
    rewrite E. cbn [bind]. replace (liblen b =? 0) with false by lia.
    replace (reclen <? lenZ pre + liblen b) with false by lia.
    rewrite step_ok; [|exact J0|exact B| |].
    2:{ bok. } 2:{ rewrite !lenZ_app. lia. }
    cbn [bind run].
    match goal with |- blockettes _ _ _ _ _ _ _ ?x _ = _ => replace x with link end.
    2:{ unfold link. destruct bs; [reflexivity|]. unfold next, blk_size.
        match goal with |- _ = if ?c then _ else _ => replace c with false by lia end.
        match goal with |- _ = if ?c then _ else _ => replace c with false by lia end. reflexivity. }
    specialize (IH fuel (pre ++ ord big 2 (blk_type b) ++ ord big 2 link ++ blk_body big b ++ g) post (after b (lenZ pre) (visited (lenZ pre + liblen b) st))).
    assert (N : lenZ (pre ++ ord big 2 (blk_type b) ++ ord big 2 link ++ blk_body big b ++ g) = next).
    { rewrite !lenZ_app, !lenZ_ord, body_len. unfold next, blk_size. lia. }
    rewrite N in IH. rewrite <- !app_assoc in IH. fold next.
    assert (NE : next = lenZ pre + (4 + lenZ (blk_body true b)) + lenZ g) by reflexivity. apply IH; try assumption; try lia.
    + cbn [length] in F. lia.
Qed.
