(** * The Steim decoders on arbitrary input. *)
From Verif Require Import BaseLemmas SteimModel SteimSpec SteimProof.

(** A result that is neither an internal bound exhaustion nor an access outside an
    object; signed overflow only in [Strict] mode. *)
Definition only_overflow {A} (m : ovmode) (r : res A) : Prop :=
  match r with
  | Ok _ => True
  | Err c => c = -1
  | UB SignedOverflow => m = Strict
  | _ => False
  end.

Section Safe.
  Variable diffsf : bool -> bool -> Z -> list Z -> res (list Z).
  Variable dmax : Z.
  Variables hb sw : bool.
  Variable m : ovmode.
  Variable per : Z.
  Hypothesis per0 : 0 <= per.
  Hypothesis dmax15 : 15 * per <= dmax.
  (** every word yields at most [per] differences or the error -1 *)
  Hypothesis word_bound : forall code w, length w = 4%nat ->
    match diffsf hb sw code w with
    | Ok ds => Z.of_nat (length ds) <= per
    | Err c => c = -1
    | _ => False
    end.

  Lemma dec_words_safe ws : forall ctl widx acc,
    Forall (fun w => length w = 4%nat) ws ->
    acc + per * Z.of_nat (length ws) <= dmax ->
    match dec_words (diffsf hb sw) dmax ctl widx acc ws with
    | Ok _ => True | Err c => c = -1 | _ => False
    end.
  Proof.
    induction ws as [|w ws IH]; intros ctl widx acc HF Hacc; cbn [dec_words]; [exact I|].
    inversion HF; subst. pose proof (word_bound (extract ctl (30 - 2 * widx) 2) w H1) as W.
    destruct (diffsf hb sw (extract ctl (30 - 2 * widx) 2) w) as [ds|c|u|]; cbn [bind]; auto.
    cbn [length] in Hacc. rewrite Nat2Z.inj_succ in Hacc.
    destruct (Z.ltb_spec dmax (acc + Z.of_nat (length ds))); [nia|].
    specialize (IH ctl (widx + 1) (acc + Z.of_nat (length ds)) H2 ltac:(nia)).
    destruct (dec_words (diffsf hb sw) dmax ctl (widx + 1) (acc + Z.of_nat (length ds)) ws); cbn [bind]; auto.
  Qed.

  Lemma sarith_cases v : (exists r, sarith m 32 v = Ok r /\ int32 r) \/
    (sarith m 32 v = UB SignedOverflow /\ m = Strict).
  Proof.
    unfold sarith. destruct (in_sb 32 v) eqn:E.
    - left. exists v. split; auto. now apply in_sb_spec.
    - destruct m; [right; auto|left]. eexists; split; [reflexivity|]. apply swrap_range; lia.
  Qed.

  Lemma apply_diffs_safe ds : forall need ocap last,
    0 <= need -> need <= ocap ->
    match apply_diffs m need ocap last ds with
    | Ok outs => Z.of_nat (length outs) <= need /\ Forall int32 outs
    | UB SignedOverflow => m = Strict
    | _ => False
    end.
  Proof.
    induction ds as [|d ds IH]; intros need ocap last Hn Ho; cbn [apply_diffs].
    { split; [simpl; lia|constructor]. }
    destruct (Z.leb_spec need 0); [split; [simpl; lia|constructor]|].
    destruct (Z.leb_spec ocap 0); [lia|].
    destruct (sarith_cases (last + d)) as [(r & -> & Hr)|[-> E]]; cbn [bind]; auto.
    specialize (IH (need - 1) (ocap - 1) r ltac:(lia) ltac:(lia)).
    destruct (apply_diffs m (need - 1) (ocap - 1) r ds) as [outs|c|u|]; cbn [bind]; auto.
    destruct IH as [L F]. split; [cbn [length]; lia|constructor; auto].
  Qed.

  Lemma frame_words_ok fr : length fr = 64%nat ->
    exists w0 w1 w2 ws, frame_words fr = w0 :: w1 :: w2 :: ws /\ length ws = 13%nat /\
      Forall (fun w => length w = 4%nat) (w0 :: w1 :: w2 :: ws).
  Proof.
    intros H. pose proof (chunks_length 4 16 fr) as L.
    pose proof (chunks_Forall_len 4 16 fr ltac:(lia)) as F.
    unfold frame_words. destruct (chunks 4 16 fr) as [|w0 [|w1 [|w2 ws]]]; try (simpl in L; lia).
    exists w0, w1, w2, ws. repeat split; auto. simpl in L. lia.
  Qed.

  Lemma dec_frames_safe frames : forall input need ocap last,
    (64 * frames <= length input)%nat -> 0 <= need <= ocap ->
    match dec_frames diffsf dmax hb sw m frames input need ocap last with
    | Ok outs => Z.of_nat (length outs) <= need /\ Forall int32 outs
    | Err c => c = -1
    | UB SignedOverflow => m = Strict
    | _ => False
    end.
  Proof.
    induction frames as [|f IH]; intros input need ocap last Hin Hno; cbn [dec_frames].
    { split; [simpl; lia|constructor]. }
    destruct (Z.leb_spec need 0); [split; [simpl; lia|constructor]|].
    unfold slice. destruct (Nat.leb_spec (0 + 64) (length input)); [|lia].
    rewrite skipn_O. cbn [bind].
    destruct (frame_words_ok (firstn 64 input) ltac:(rewrite firstn_length; lia))
      as (w0 & w1 & w2 & ws & E & L & F).
    rewrite E. inversion F as [|? ? F0 F1]; subst.
    pose proof (dec_words_safe (w1 :: w2 :: ws) (ld hb sw w0) 1 0 F1 ltac:(cbn [length]; rewrite L; lia)) as W.
    destruct (dec_words (diffsf hb sw) dmax (ld hb sw w0) 1 0 (w1 :: w2 :: ws)) as [ds|c|u|]; cbn [bind]; auto;
      try (destruct W; fail).
    pose proof (apply_diffs_safe ds need ocap last ltac:(lia) ltac:(lia)) as A.
    destruct (apply_diffs m need ocap last ds) as [outs|c|u|]; cbn [bind]; auto; try (destruct A; fail).
    destruct A as [A1 A2].
    specialize (IH (skipn 64 input) (need - Z.of_nat (length outs)) (ocap - Z.of_nat (length outs))
                   (List.last outs last) ltac:(rewrite skipn_length; lia) ltac:(lia)).
    destruct (dec_frames diffsf dmax hb sw m f (skipn 64 input) (need - Z.of_nat (length outs))
                (ocap - Z.of_nat (length outs)) (List.last outs last)) as [r|c|u|]; cbn [bind]; auto.
    destruct IH as [B1 B2]. rewrite app_length. split; [lia|]. apply Forall_app; auto.
  Qed.

  Lemma steim_decode_safe input inlen cnt ocap :
    0 <= inlen <= Z.of_nat (length input) -> 1 <= cnt < 2 ^ 62 -> 0 <= ocap ->
    match steim_decode diffsf dmax hb sw m input inlen cnt ocap with
    | Ok (outs, _) => Z.of_nat (length outs) <= cnt /\ Forall int32 outs /\
                      Z.of_nat (length outs) * 4 <= ocap
    | Err c => c = -1
    | UB SignedOverflow => m = Strict
    | _ => False
    end.
  Proof.
    intros Hin Hc Ho. unfold steim_decode.
    destruct (Z.to_nat (inlen / 64)) as [|f] eqn:Ef; [cbn; repeat split; auto; lia|].
    destruct (Z.eqb_spec ocap 0); [reflexivity|].
    unfold uwrap. rewrite Z.mod_small by lia.
    destruct (Z.ltb_spec ocap (cnt * 4)); [reflexivity|].
    destruct (Z.leb_spec cnt 0); [lia|].
    unfold slice. destruct (Nat.leb_spec (0 + 64) (length input)); [|lia].
    rewrite skipn_O. cbn [bind].
    destruct (frame_words_ok (firstn 64 input) ltac:(rewrite firstn_length; lia))
      as (w0 & w1 & w2 & ws & E & L & F).
    rewrite E. destruct (Z.leb_spec (ocap / 4) 0); [lia|].
    inversion F as [|? ? F0 F1]; subst. inversion F1 as [|? ? _ F2]; subst. inversion F2 as [|? ? _ F3]; subst.
    pose proof (dec_words_safe ws (ld hb sw w0) 3 0 F3 ltac:(rewrite L; lia)) as W.
    destruct (dec_words (diffsf hb sw) dmax (ld hb sw w0) 3 0 ws) as [ds|c|u|]; cbn [bind]; auto;
      try (destruct W; fail).
    set (x0 := sx 32 (ld hb sw w1)).
    assert (Hx0 : int32 x0) by (apply swrap_range; lia).
    pose proof (apply_diffs_safe (tl ds) (cnt - 1) (ocap / 4 - 1) x0 ltac:(lia) ltac:(lia)) as A.
    destruct (apply_diffs m (cnt - 1) (ocap / 4 - 1) x0 (tl ds)) as [outs|c|u|]; cbn [bind]; auto; try (destruct A; fail).
    destruct A as [A1 A2].
    pose proof (dec_frames_safe f (skipn 64 input) (cnt - 1 - Z.of_nat (length outs))
                  (ocap / 4 - 1 - Z.of_nat (length outs)) (List.last outs x0)
                  ltac:(rewrite skipn_length; lia) ltac:(lia)) as B.
    destruct (dec_frames diffsf dmax hb sw m f (skipn 64 input) (cnt - 1 - Z.of_nat (length outs))
                (ocap / 4 - 1 - Z.of_nat (length outs)) (List.last outs x0)) as [r|c|u|]; cbn [bind]; auto.
    destruct B as [B1 B2]. cbn [length]. rewrite app_length. split; [lia|]. split; [|lia].
    constructor; auto. apply Forall_app; auto.
  Qed.

  (** Bytes after the declared length are never looked at. *)
  Lemma dec_frames_tail f : forall a t need ocap last, (64 * f <= length a)%nat ->
    dec_frames diffsf dmax hb sw m f (a ++ t) need ocap last =
    dec_frames diffsf dmax hb sw m f a need ocap last.
  Proof.
    induction f as [|f IH]; intros a t need ocap last Hl; [reflexivity|]. cbn [dec_frames].
    destruct (need <=? 0); [reflexivity|].
    unfold slice. rewrite !skipn_O, app_length.
    destruct (Nat.leb_spec (0 + 64) (length a)); [|lia].
    destruct (Nat.leb_spec (0 + 64) (length a + length t)); [|lia].
    rewrite firstn_app. replace (64 - length a)%nat with 0%nat by lia. rewrite firstn_O, app_nil_r.
    cbn [bind]. destruct (frame_words (firstn 64 a)) as [|w0 ws]; [reflexivity|].
    rewrite skipn_app. replace (64 - length a)%nat with 0%nat by lia. rewrite skipn_O.
    destruct (dec_words _ _ _ _ _ _) as [ds| | |]; cbn [bind]; auto.
    destruct (apply_diffs _ _ _ _ _) as [outs| | |]; cbn [bind]; auto.
    rewrite IH; auto. rewrite skipn_length. lia.
  Qed.

  Lemma steim_decode_tail a t inlen cnt ocap : inlen <= Z.of_nat (length a) ->
    steim_decode diffsf dmax hb sw m (a ++ t) inlen cnt ocap =
    steim_decode diffsf dmax hb sw m a inlen cnt ocap.
  Proof.
    intros Hl. unfold steim_decode.
    destruct (Z.to_nat (inlen / 64)) as [|f] eqn:Ef; [reflexivity|].
    destruct (ocap =? 0); [reflexivity|]. destruct (_ <? _); [reflexivity|].
    destruct (cnt <=? 0); [reflexivity|].
    assert (64 * S f <= length a)%nat by lia.
    unfold slice. rewrite !skipn_O, app_length.
    destruct (Nat.leb_spec (0 + 64) (length a)); [|lia].
    destruct (Nat.leb_spec (0 + 64) (length a + length t)); [|lia].
    rewrite firstn_app. replace (64 - length a)%nat with 0%nat by lia. rewrite firstn_O, app_nil_r.
    cbn [bind]. destruct (frame_words (firstn 64 a)) as [|w0 [|w1 [|w2 ws]]]; try reflexivity.
    destruct (ocap / 4 <=? 0); [reflexivity|].
    rewrite skipn_app. replace (64 - length a)%nat with 0%nat by lia. rewrite skipn_O.
    destruct (dec_words _ _ _ _ _ _) as [ds| | |]; cbn [bind]; auto.
    destruct (apply_diffs _ _ _ _ _) as [outs| | |]; cbn [bind]; auto.
    rewrite dec_frames_tail; auto. rewrite skipn_length. lia.
  Qed.
End Safe.

Lemma s1_word_bound hb sw code w : length w = 4%nat ->
  match s1_diffs hb sw code w with
  | Ok ds => Z.of_nat (length ds) <= 4 | Err c => c = -1 | _ => False end.
Proof.
  intros H. unfold s1_diffs.
  destruct (code =? 0); [simpl; lia|]. destruct (code =? 1); [rewrite map_length; lia|].
  destruct (code =? 2); simpl; lia.
Qed.

Lemma fields_length bits n v : length (fields bits n v) = n.
Proof. induction n; simpl; auto. Qed.

Lemma s2_word_bound hb sw code w : length w = 4%nat ->
  match s2_diffs hb sw code w with
  | Ok ds => Z.of_nat (length ds) <= 7 | Err c => c = -1 | _ => False end.
Proof.
  intros H. unfold s2_diffs.
  destruct (code =? 0); [simpl; lia|]. destruct (code =? 1); [rewrite map_length; lia|].
  cbv zeta. destruct (code =? 2); destruct (_ =? 0); rewrite ?fields_length; try lia;
    destruct (_ =? 1); rewrite ?fields_length; try lia;
    destruct (_ =? 2); rewrite ?fields_length; lia.
Qed.

Lemma steim1_safe_lemma hb sw m input inlen cnt ocap :
  0 <= inlen <= Z.of_nat (length input) -> 1 <= cnt < 2 ^ 62 -> 0 <= ocap ->
  match decode_steim1 hb sw m input inlen cnt ocap with
  | Ok (outs, _) => Z.of_nat (length outs) <= cnt /\ Forall int32 outs /\
                    Z.of_nat (length outs) * 4 <= ocap
  | Err c => c = -1
  | UB SignedOverflow => m = Strict
  | _ => False
  end.
Proof. apply (steim_decode_safe s1_diffs 60 hb sw m 4); try lia. apply s1_word_bound. Qed.

Lemma steim2_safe_lemma hb sw m input inlen cnt ocap :
  0 <= inlen <= Z.of_nat (length input) -> 1 <= cnt < 2 ^ 62 -> 0 <= ocap ->
  match decode_steim2 hb sw m input inlen cnt ocap with
  | Ok (outs, _) => Z.of_nat (length outs) <= cnt /\ Forall int32 outs /\
                    Z.of_nat (length outs) * 4 <= ocap
  | Err c => c = -1
  | UB SignedOverflow => m = Strict
  | _ => False
  end.
Proof. apply (steim_decode_safe s2_diffs 105 hb sw m 7); try lia. apply s2_word_bound. Qed.

Lemma steim_tail_lemma hb sw m input tail inlen cnt ocap :
  inlen <= Z.of_nat (length input) ->
  decode_steim1 hb sw m (input ++ tail) inlen cnt ocap = decode_steim1 hb sw m input inlen cnt ocap /\
  decode_steim2 hb sw m (input ++ tail) inlen cnt ocap = decode_steim2 hb sw m input inlen cnt ocap.
Proof. intros H. split; [apply (steim_decode_tail s1_diffs 60 hb sw m 4)|apply (steim_decode_tail s2_diffs 105 hb sw m 7)]; auto; try lia;
  [apply s1_word_bound|apply s2_word_bound]. Qed.
