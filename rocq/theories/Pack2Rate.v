(** * The rate in packed version 2 records. *)

From Coq Require Import Lqa Qabs.
From Verif Require Import Base BaseLemmas FloatOps FloatLemmas FloatOpsProof SampleProof RateProof DblModel ConvModel ConvSpec ConvProof V2Model V2RecSpec V2Rate
  Pack2Model Pack2Spec Pack2Hdr.
Open Scope Z_scope.

(** ** Rounding *)

Ltac qlra := change (2 ^ 48)%positive with 281474976710656%positive in *; change (2 ^ 50)%positive with 1125899906842624%positive in *; change (2 ^ 51)%positive with 2251799813685248%positive in *; change (2 ^ 53)%positive with 9007199254740992%positive in *; change (2 ^ 60)%positive with 1152921504606846976%positive in *; lra.

Lemma rnd64_near x v : rnd64 x = Some v -> (Qabs (v - x) <= Qabs x * (1 # 2 ^ 53) + (1 # 2 ^ 60))%Q.
Proof.
  assert (P : forall n d v, rnd64 (Zpos n # d) = Some v -> (Qabs (v - (Zpos n # d)) <= (Zpos n # d) * (1 # 2 ^ 53) + (1 # 2 ^ 60))%Q).
  { intros n d v'. unfold rnd64. cbn [Qnum Qden].
    pose proof (rnd_pos_err (Zpos n) (Zpos d) ltac:(lia) ltac:(lia)) as R.
    destruct (rnd_pos (Z.pos n) (Z.pos d)) as [m e]. destruct R as (Hm & He & R).
    pose proof (flog2_ok (Zpos n) (Zpos d) ltac:(lia) ltac:(lia)) as [F1 F2].
    destruct (Qle_bool _ _); [discriminate|]. intros H. injection H as <-. rewrite (Qmake_div (Z.pos n) d).
    set (y := (inject_Z (Z.pos n) / inject_Z (Z.pos d))%Q) in *. rewrite dyadic_P2.
    pose proof (P2_pos (flog2 (Z.pos n) (Z.pos d))) as Y0.
    assert (B : (P2 (e - 1) <= y * (1 # 2 ^ 53) + (1 # 2 ^ 60))%Q).
    { assert (C : e - 1 = -1075 \/ e - 1 = flog2 (Z.pos n) (Z.pos d) + -53) by lia. destruct C as [-> | ->].
      - pose proof (P2_le (-1075) (-60) ltac:(lia)). change (P2 (-60)) with (1 # 2 ^ 60) in *. qlra.
      - rewrite P2_add. change (P2 (-53)) with (1 # 2 ^ 53). qlra. }
    apply Qabs_Qle_condition. qlra. }
  destruct x as [[|n|n] d]; intros H.
  - injection H as <-. assert (Z0 : (0 # d == 0)%Q) by reflexivity. rewrite Z0. cbn. qlra.
  - specialize (P n d v H). assert (0 < Z.pos n # d)%Q by (unfold Qlt; cbn; lia). rewrite (Qabs_pos (Z.pos n # d)) by qlra. exact P.
  - change (Z.neg n # d) with (- (Z.pos n # d))%Q in *. rewrite rnd64_opp in H. destruct (rnd64 (Z.pos n # d)) as [u|] eqn:E; [|discriminate].
    injection H as <-. specialize (P n d u E). rewrite Qabs_opp. assert (0 < Z.pos n # d)%Q by (unfold Qlt; cbn; lia). rewrite (Qabs_pos (Z.pos n # d)) by qlra.
    setoid_replace (- u - - (Z.pos n # d))%Q with (- (u - (Z.pos n # d)))%Q by ring. rewrite Qabs_opp. exact P.
Qed.

Lemma dlt_fin a b : dlt (DFin a) (DFin b) = true <-> (a < b)%Q.
Proof.
  cbn [dlt]. rewrite negb_true_iff. split.
  - intros H. destruct (Qlt_le_dec a b) as [L|L]; [exact L|]. apply Qle_bool_iff in L. congruence.
  - intros H. destruct (Qle_bool b a) eqn:E; [|reflexivity]. apply Qle_bool_iff in E. qlra.
Qed.

Lemma dlt_fin_false a b : dlt (DFin a) (DFin b) = false -> (b <= a)%Q.
Proof. intros H. destruct (Qlt_le_dec a b) as [L|L]; [|exact L]. apply dlt_fin in L. congruence. Qed.

(** ** The rate in hertz *)

Lemma hertz_near r x : dval r = DFin x -> (exists h, sampratehz r = DFin h /\ (Qabs (h - hertz x) <= hertz x * (1 # 2 ^ 53) + (1 # 2 ^ 60))%Q)
  \/ exists s, sampratehz r = DInf s.
Proof.
  intros E. unfold sampratehz. rewrite E. unfold hertz. destruct (Qlt_le_dec x 0) as [L|L].
  - assert (D : dlt (DFin x) dzero = true) by now apply dlt_fin. rewrite D. cbn [ddiv].
    assert (NZ : qzero x = false). { unfold qzero. unfold Qlt in L. cbn in L. lia. } rewrite NZ. unfold drnd.
    destruct (rnd64 _) as [v|] eqn:R; [left; exists v; split; [reflexivity|] | right; eexists; reflexivity].
    apply rnd64_near in R. assert (I : ((-1 # 1) / x == - / x)%Q) by (field; qlra). rewrite I in R.
    assert (H : (0 <= - / x)%Q). { assert (J : (/ - x == - / x)%Q) by (field; qlra). rewrite <- J. apply Qinv_le_0_compat. qlra. }
    rewrite (Qabs_pos (- / x)) in R by exact H. exact R.
  - assert (D : dlt (DFin x) dzero = false). { destruct (dlt (DFin x) dzero) eqn:D; [|reflexivity]. apply dlt_fin in D. qlra. }
    rewrite D. left. exists x. split; [reflexivity|]. assert (Z0 : (x - x == 0)%Q) by ring. rewrite Z0. cbn [Qabs Z.abs]. change (Qabs 0) with 0%Q. qlra.
Qed.

Lemma hertz_pos x : (0 <= hertz x)%Q.
Proof.
  unfold hertz. destruct (Qlt_le_dec x 0) as [L|L]; [|exact L].
  assert (H : (/ - x == - / x)%Q) by (field; qlra). rewrite <- H. apply Qinv_le_0_compat. qlra.
Qed.

(** What is read for a record packed without blockette 100, or with it. *)
Lemma rate_returns m f mu h bs b x : 0 <= m_rate m < 2 ^ 64 -> dval (m_rate m) = DFin x ->
  in_s 16 f -> in_s 16 mu -> f_fact h = f -> f_mult h = mu ->
  last_of (fun b => match b with B100 w _ => Some w | _ => None end) bs = rate_blk m f mu ->
  rate_ok h bs b -> rate_back (m_rate m) b.
Proof.
  intros Hr Ex Hf Hm Ef Em L R. unfold rate_ok in R. rewrite L, Ef, Em in R. unfold rate_back.
  unfold rate_blk in R. destruct (dlt d_1em4 _) eqn:D in R.
  { left. exists (double_to_float (m_rate m)). split; [now apply double_float|exact R]. }
  right. destruct R as (v & Ev & Av & _). exists x, v. split; [exact Ex|]. split; [exact Ev|].
  destruct (nominal_ok f mu Hf Hm) as (y & nv & En & _ & An & _). rewrite En in D.
  assert (T : exists t, d_1em4 = DFin t /\ (t <= (1 # 10000) + (1 # 2 ^ 60))%Q).
  { unfold d_1em4, drnd. destruct (rnd64 (1 # 10000)) as [t|] eqn:E; [|vm_compute in E; discriminate]. exists t. split; [reflexivity|].
    vm_compute in E. injection E as <-. unfold Qle. cbn. lia. }
  destruct T as (t & Et & Bt).
  destruct (hertz_near _ _ Ex) as [(hv & Eh & Ah)|(s & Eh)]; rewrite Eh in D.
  2:{ unfold dsub in D. cbn [dopp dadd] in D. rewrite Et in D. destruct s; discriminate D. }
  unfold dsub in D. cbn [dopp dadd] in D.
  rewrite Et in D. unfold drnd in D.
  destruct (rnd64 (hv + - nv)%Q) as [dv|] eqn:Ed; [|destruct (qneg (hv + - nv)); discriminate D].
  pose proof (rnd64_near _ _ Ed) as Nd. unfold dabs in D.
  assert (Db : (Qabs dv <= t)%Q).
  { destruct (dlt (DFin dv) dzero) eqn:S; cbn [dopp] in D; apply dlt_fin_false in D.
    - apply dlt_fin in S. rewrite Qabs_neg by qlra. exact D.
    - apply dlt_fin_false in S. rewrite Qabs_pos by exact S. exact D. }
  clear D Ed.
  pose proof (hertz_pos x) as Hp. set (z := hertz x) in *. clearbody z.
  set (nn := nominal f mu) in *. clearbody nn.
  apply Qabs_Qle_condition in Av, An, Ah, Nd, Db. apply Qabs_Qle_condition.
  assert (Dd : (Qabs (hv + - nv) <= (1 # 10000) + (1 # 2 ^ 50))%Q).
  { revert Nd. apply (Qabs_case (hv + - nv)%Q); intros; qlra. }
  apply Qabs_Qle_condition in Dd. qlra.
Qed.

Lemma factors_range mode r f mu : genfactmult mode r = Ok (f, mu) -> in_s 16 f /\ in_s 16 mu.
Proof.
  assert (S : forall x, in_s 16 (swrap 16 x)) by (intros; apply swrap_range; lia).
  assert (RR : forall y a b, reduce_rate mode y = Ok (a, b) -> in_s 16 a /\ in_s 16 b).
  { intros y a b. unfold reduce_rate. destruct (to_int _) as [n|c|u|]; cbn [bind]; try discriminate.
    destruct (dlt _ _).
    - destruct (n <=? 32767). { intros H. injection H as <- <-. split; [apply S|unfold in_s; lia]. }
      destruct (n <=? 32767 * 32767); [|discriminate].
      destruct (to_int _) as [s|c|u|]; cbn [bind]; try discriminate.
      destruct (factor_loop _ _ _ _ _) as [s'|c|u|]; cbn [bind]; try discriminate.
      destruct (idiv _ _) as [s2|c|u|]; cbn [bind]; try discriminate.
      destruct (_ && _); [|discriminate]. intros H. injection H as <- <-. split; apply S.
    - destruct (dge _ _); [|discriminate]. destruct (ratapprox mode y) as [[p q]|c|u|]; cbn [bind]; try discriminate.
      intros H. injection H as <- <-. split; apply S. }
  unfold genfactmult. destruct (match (if dlt r dzero then _ else _) with DFin q => _ | _ => _ end).
  { intros H. injection H as <- <-. unfold in_s. lia. }
  destruct (dge _ _); [apply RR|].
  destruct (reduce_rate _ _) as [[p q]|c|u|]; cbn [bind]; try discriminate. intros H. injection H as <- <-. split; apply S.
Qed.
