(** * The first byte of every frame a Steim encoder writes big-endian is not zero. *)

From Verif Require Import Base BaseLemmas SteimModel SteimProof.
Open Scope Z_scope.

(** What is needed of a word encoder. *)
Definition word_shape (wordf : list Z -> res (Z * list Z * nat)) : Prop :=
  forall ds code img n, wordf ds = Ok (code, img, n) -> In code [1; 2; 3] /\ length img = 4%nat.

Lemma s1_word_shape hb sw : word_shape (s1_word hb sw).
Proof.
  intros ds code img n. unfold s1_word. destruct ds as [|d0 t]; [discriminate|].
  destruct t as [|d1 [|d2 [|d3 [|]]]];
    repeat match goal with |- context [if ?c then _ else _] => destruct c end; intros [= <- <- <-];
    cbn [map length In]; rewrite ?app_length, ?st_length; auto.
Qed.

Lemma s2_word_shape hb sw : word_shape (s2_word hb sw).
Proof.
  intros ds code img n. unfold s2_word. unfold s2_img.
  destruct ((length ds =? 7)%nat && _); [intros [= <- <- <-]; rewrite st_length; cbn [In]; auto|].
  destruct (s2_try 5 6 ds); [intros [= <- <- <-]; rewrite st_length; cbn [In]; auto|].
  destruct (s2_try 6 5 ds); [intros [= <- <- <-]; rewrite st_length; cbn [In]; auto|].
  destruct (s2_try 8 4 ds) eqn:E.
  { unfold s2_try in E. apply andb_true_iff in E. destruct E as [E _].
    intros [= <- <- <-]. cbn [In]. split; [auto|]. rewrite map_length. 
    change (length (firstn 4 ds) = 4%nat). rewrite firstn_length. lia. }
  destruct (s2_try 10 3 ds); [intros [= <- <- <-]; rewrite st_length; cbn [In]; auto|].
  destruct (s2_try 15 2 ds); [intros [= <- <- <-]; rewrite st_length; cbn [In]; auto|].
  destruct (s2_try 30 1 ds); [intros [= <- <- <-]; rewrite st_length; cbn [In]; auto|].
  discriminate.
Qed.

Lemma lor_ge a b : 0 <= a -> 0 <= b -> a <= Z.lor a b.
Proof.
  intros Ha Hb.
  assert (L : Z.land a (Z.ldiff b a) = 0).
  { apply Z.bits_inj'. intros n Hn. rewrite Z.land_spec, Z.ldiff_spec, Z.bits_0. destruct (Z.testbit a n), (Z.testbit b n); reflexivity. }
  assert (E : Z.lor a b = Z.lor a (Z.ldiff b a)).
  { apply Z.bits_inj'. intros n Hn. rewrite !Z.lor_spec, Z.ldiff_spec. destruct (Z.testbit a n), (Z.testbit b n); reflexivity. }
  rewrite E, <- Z.lxor_lor, <- Z.add_nocarry_lxor by exact L.
  pose proof (proj2 (Z.ldiff_nonneg b a) (or_introl Hb)). lia.
Qed.

Section Encoder.
  Variable wordf : list Z -> res (Z * list Z * nat).
  Variable WS : word_shape wordf.

  Lemma enc_words_ctl m max cnt k : forall widx ctl s ctl' imgs s',
    1 <= widx -> widx + Z.of_nat k <= 16 -> 0 <= ctl < 2 ^ 30 ->
    enc_words wordf m max cnt k widx ctl s = Ok (ctl', imgs, s') ->
    ctl <= ctl' < 2 ^ 30 /\ length imgs = (4 * k)%nat /\
    (k <> 0%nat -> e_out s < cnt -> 2 ^ (30 - 2 * widx) <= ctl').
  Proof.
    induction k as [|k IH]; intros widx ctl s ctl' imgs s' Hw1 Hw Hc; cbn [enc_words].
    { intros [= <- <- <-]. split; [lia|]. split; [reflexivity|]. congruence. }
    destruct (e_out s <? cnt) eqn:E.
    - destruct (refill_to m max s) as [s1| | |]; cbn [bind]; try discriminate.
      destruct (wordf (e_ds s1)) as [[[code img] n]| | |] eqn:W; cbn [bind]; try discriminate.
      destruct (WS _ _ _ _ W) as [Wc Wl].
      assert (R : 0 <= set_nibble ctl code widx < 2 ^ 30) by (apply set_nibble_range; [simpl in *; tauto|lia|lia]).
      assert (G : ctl <= set_nibble ctl code widx /\ 2 ^ (30 - 2 * widx) <= set_nibble ctl code widx).
      { unfold set_nibble. rewrite Z.shiftl_mul_pow2 by lia. pose proof (pow2_pos (30 - 2 * widx) ltac:(lia)) as P.
        assert (1 <= code) by (simpl in Wc; lia).
        split; [apply lor_ge; nia|]. rewrite Z.lor_comm.
        pose proof (lor_ge (code * 2 ^ (30 - 2 * widx)) ctl ltac:(nia) ltac:(lia)). nia. }
      destruct (enc_words wordf m max cnt k (widx + 1) (set_nibble ctl code widx)
                 (mk_est (e_prev s1) (e_rest s1) (skipn n (e_ds s1)) (e_out s1 + Z.of_nat n)))
        as [[[c3 i3] s3]| | |] eqn:Q; cbn [bind]; try discriminate.
      intros [= <- <- <-]. apply IH in Q; [|lia|lia|exact R]. destruct Q as (Q1 & Q2 & _).
      split; [lia|]. split; [rewrite app_length; lia|]. intros; lia.
    - intros [= <- <- <-]. split; [lia|]. split; [change (length (repeat 0 (4 * S k)) = (4 * S k)%nat); apply repeat_length|]. intros; lia.
  Qed.

  Lemma lead_byte hb sw ctl : xorb hb sw = true -> 2 ^ 24 <= ctl < 2 ^ 30 ->
    exists b, b <> 0 /\ exists t, st hb sw 4 ctl = b :: t.
  Proof.
    intros X H. exists (ctl / 2 ^ 24). split; [lia|].
    exists (skipn 1 (be_bytes 4 ctl)).
    assert (E : st hb sw 4 ctl = be_bytes 4 ctl) by (destruct hb, sw; try discriminate; reflexivity).
    rewrite E. unfold be_bytes. cbn [le_bytes rev app skipn]. f_equal.
    rewrite !Z.div_div by lia. rewrite Z.mod_small; [reflexivity|]. lia.
  Qed.

  Definition leads (bytes : list Z) : Prop :=
    exists g, length bytes = (64 * g)%nat /\ forall k, (k < g)%nat -> nth (64 * k) bytes 0 <> 0.

  Lemma leads_cons fr out : length fr = 64%nat -> nth 0 fr 0 <> 0 -> leads out -> leads (fr ++ out).
  Proof.
    intros L N (g & Lg & G). exists (S g). split; [rewrite app_length; lia|].
    intros [|k] Hk.
    - rewrite app_nth1 by lia. exact N.
    - rewrite app_nth2 by lia. replace (64 * S k - length fr)%nat with (64 * k)%nat by lia. apply G. lia.
  Qed.

  Lemma enc_frames_leads hb sw m max cnt f : xorb hb sw = true -> forall s out s',
    enc_frames wordf hb sw m max cnt f s = Ok (out, s') -> leads out.
  Proof.
    intros X. induction f as [|f IH]; intros s out s'; cbn [enc_frames].
    { intros [= <- <-]. exists 0%nat. split; [reflexivity|lia]. }
    destruct (e_out s <? cnt) eqn:E; [|intros [= <- <-]; exists 0%nat; split; [reflexivity|lia]].
    destruct (enc_words wordf m max cnt 15 1 0 s) as [[[ctl imgs] s1]| | |] eqn:W; cbn [bind]; try discriminate.
    destruct (enc_frames wordf hb sw m max cnt f s1) as [[o2 s2]| | |] eqn:F; cbn [bind]; try discriminate.
    intros [= <- <-]. apply enc_words_ctl in W; try lia. destruct W as (W1 & W2 & W3).
    specialize (W3 ltac:(lia) ltac:(lia)). change (2 ^ (30 - 2 * 1)) with (2 ^ 28) in W3.
    destruct (lead_byte hb sw ctl X ltac:(lia)) as (b & Hb & t & Hs).
    rewrite app_assoc. apply leads_cons; [rewrite app_length, st_length; lia|rewrite Hs; exact Hb|].
    eapply IH. exact F.
  Qed.
End Encoder.

Lemma steim_encode_leads wordf max hb sw m input cap diff0 n bytes :
  word_shape (wordf hb sw) -> xorb hb sw = true ->
  steim_encode wordf max hb sw m input cap diff0 = Ok (n, bytes) -> leads bytes.
Proof.
  intros WS X. unfold steim_encode. destruct input as [|x0 rest]; [intros [= <- <-]; exists 0%nat; split; [reflexivity|lia]|].
  destruct (cap =? 0); [discriminate|].
  destruct (Z.to_nat (cap / 64)) as [|f]; [destruct sw; [discriminate|intros [= <- <-]; exists 0%nat; split; [reflexivity|lia]]|].
  set (cnt := Z.of_nat (length (x0 :: rest))).
  destruct (enc_words (wordf hb sw) m max cnt 13 3 0 (mk_est x0 rest [diff0] 0)) as [[[ctl imgs] s1]| | |] eqn:W; cbn [bind]; try discriminate.
  destruct (enc_frames (wordf hb sw) hb sw m max cnt f s1) as [[out s2]| | |] eqn:F; cbn [bind]; try discriminate.
  destruct (getZ (e_out s2 - 1) (x0 :: rest)) as [xn| | |]; cbn [bind]; try discriminate.
  intros [= <- <-]. apply enc_words_ctl in W; try lia; [|exact WS]. destruct W as (W1 & W2 & W3).
  specialize (W3 ltac:(lia) ltac:(cbn [e_out]; subst cnt; cbn [length]; lia)). change (2 ^ (30 - 2 * 3)) with (2 ^ 24) in W3.
  destruct (lead_byte hb sw ctl X ltac:(lia)) as (b & Hb & t & Hs).
  replace (st hb sw 4 ctl ++ st hb sw 4 x0 ++ st hb sw 4 xn ++ imgs ++ out)
    with ((st hb sw 4 ctl ++ st hb sw 4 x0 ++ st hb sw 4 xn ++ imgs) ++ out) by (now rewrite <- !app_assoc).
  apply leads_cons; [rewrite !app_length, !st_length; lia|rewrite Hs; exact Hb|].
  eapply enc_frames_leads; eauto.
Qed.

Lemma steim1_leads hb sw m input cap diff0 n bytes : xorb hb sw = true ->
  encode_steim1 hb sw m input cap diff0 = Ok (n, bytes) -> leads bytes.
Proof. intros X. apply steim_encode_leads; auto using s1_word_shape. Qed.
Lemma steim2_leads hb sw m input cap diff0 n bytes : xorb hb sw = true ->
  encode_steim2 hb sw m input cap diff0 = Ok (n, bytes) -> leads bytes.
Proof. intros X. apply steim_encode_leads; auto using s2_word_shape. Qed.
