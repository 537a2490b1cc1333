(** * One record: packing a payload and unpacking it. *)

From Verif Require Import Base BaseLemmas SteimModel SteimSpec SteimProof SteimFrames CodecModel CodecProof CrcModel
  CrcSpec CrcProof TimeModel RecModel RecSpec RecProof PackModel PackSpec.
Open Scope Z_scope.

Lemma compressible_skipn m k src : compressible m src -> (k < length src)%nat -> compressible m (skipn k src).
Proof.
  intros [F A] Hk. split; [now apply Forall_skipn|]. destruct src as [|x0 rest]; [destruct A|].
  destruct k as [|k]; [exact A|]. cbn [skipn]. cbn [length] in Hk.
  pose proof (arith_ok_skipn m k x0 rest ltac:(lia) A) as B.
  destruct (skipn k rest) as [|y r] eqn:E.
  - apply (f_equal (@length Z)) in E. rewrite skipn_length in E. cbn [length] in E. lia.
  - eapply arith_ok_tl. exact B.
Qed.

Lemma packable_skipn m enc type k src : packable m enc type src -> (k < length src)%nat ->
  packable m enc type (skipn k src).
Proof.
  intros P Hk. unfold packable in *.
  destruct P as [(A & B & C)|[(A & B & C)|[(A & B & C)|[(A & B & C)|[(A & B & C)|(A & B & C)]]]]].
  - left. repeat split; auto. now apply Forall_skipn.
  - right; left. repeat split; auto. now apply Forall_skipn.
  - do 2 right; left. repeat split; auto. now apply Forall_skipn.
  - do 3 right; left. repeat split; auto. now apply Forall_skipn.
  - do 4 right; left. repeat split; auto. now apply Forall_skipn.
  - do 5 right. split; [auto|]. split; [auto|]. now apply compressible_skipn.
Qed.

Lemma storable_skipn enc k src : storable enc src -> storable enc (skipn k src).
Proof.
  intros S E. specialize (S E). destruct src as [|x0 rest]; [rewrite skipn_nil; constructor|].
  destruct k as [|k]; [exact S|]. cbn [skipn stored_diffs] in *. inversion S as [|? ? S0 S1]; subst.
  clear S. revert x0 S1. induction k as [|k IH] in rest |- *; intros x0 S1.
  - cbn [skipn]. destruct rest as [|y r]; [constructor|]. cbn [wdiffs] in S1. inversion S1; subst.
    cbn [stored_diffs]. constructor; auto.
  - destruct rest as [|y r]; [rewrite skipn_nil; constructor|]. cbn [wdiffs] in S1. inversion S1; subst.
    cbn [skipn]. eapply IH. eassumption.
Qed.

(** What a packed payload is. *)
Definition payload_of (m2 : ovmode) (enc : Z) (src : list Z) (cap n : Z) (bytes : list Z) : Prop :=
  1 <= n <= lenZ src /\ 1 <= lenZ bytes <= cap /\ bytes_ok bytes /\
  (is_steim enc = true -> leads bytes) /\
  (forall w, fixed_bytes enc = Some w -> lenZ bytes = w * n) /\
  (forall hb2, n < 2 ^ 31 -> decode_data hb2 (if is_steim enc then negb hb2 else hb2) m2 bytes (lenZ bytes) enc n
     (n * match encoding_sizetype enc with Some (s, _) => s | None => 0 end) = Ok (SInt (firstn (Z.to_nat n) src))).

Lemma decoded_ok n src : 1 <= n <= lenZ src ->
  (if samples_len (SInt (firstn (Z.to_nat n) src)) =? n then Ok (SInt (firstn (Z.to_nat n) src)) else Err MS_GENERROR)
  = Ok (SInt (firstn (Z.to_nat n) src)).
Proof.
  intros H. unfold samples_len. rewrite firstn_length. unfold lenZ in H.
  replace (Z.of_nat (Nat.min (Z.to_nat n) (length src)) =? n) with true by lia. reflexivity.
Qed.

Ltac fixed_case w rt C Hne src :=
  cbn [Z.eqb Pos.eqb negb orb];
  match goal with |- context [?cap <? _] =>
    destruct (cap <? w) eqn:Hc; [left; split; [reflexivity|intros [Hm _]; unfold min_payload in Hm; cbn [Z.eqb Pos.eqb orb] in Hm; lia]|];
    right;
    let n := fresh "n" in let bytes := fresh "bytes" in let E := fresh "E" in let En := fresh "En" in
    let Lb := fresh "Lb" in let Lc := fresh "Lc" in let Bk := fresh "Bk" in
    destruct (rt false false _ cap ltac:(match goal with |- xorb ?h ?h = _ => destruct h; reflexivity end) Hne C ltac:(lia))
      as (n & bytes & E & En & Lb & Lc & Bk & _);
    exists n, bytes;
    fold (lenZ src) in *; fold (lenZ bytes) in *;
    assert (1 <= cap / w) by (apply Z.div_le_lower_bound; lia);
    split; [exact E|]; split; [lia|]; split; [lia|]; split; [assumption|]; split; [discriminate|];
    split; [intros w' [= <-]; lia|];
    intros hb2 Hn;
    let n' := fresh "n'" in let bytes' := fresh "bytes'" in let E' := fresh "E'" in let D := fresh "D" in
    destruct (rt hb2 hb2 _ cap ltac:(match goal with |- xorb ?h ?h = xorb ?h2 ?h2 => destruct h, h2; reflexivity end) Hne C ltac:(lia))
      as (n' & bytes' & E' & _ & _ & _ & _ & D);
    rewrite E in E'; injection E' as <- <-;
    unfold decode_data; replace (n =? 0) with false by lia; 
    cbn [encoding_sizetype Z.eqb Pos.eqb orb is_steim];
    match goal with |- context [uwrap 64 ?x] => change (uwrap 64 x) with (x mod 2 ^ 64); rewrite (Z.mod_small x) by lia;
      replace (x <? x) with false by lia; specialize (D [] n x ltac:(lia) ltac:(lia) ltac:(lia)) end;
    rewrite app_nil_r in D; rewrite D; cbn [bind]; apply decoded_ok; lia
  end.

Lemma pack_data_ok hb m1 m2 enc type src cap : packable m1 enc type src -> packable m2 enc type src -> src <> [] -> 0 <= cap ->
  (pack_data hb hb m1 enc type src cap = Err (-1) /\ ~ (min_payload enc <= cap /\ storable enc src)) \/
  exists n bytes, pack_data hb hb m1 enc type src cap = Ok (n, bytes) /\ payload_of m2 enc src cap n bytes.
Proof.
  intros P P2 Hne Hcap. assert (L : 1 <= lenZ src) by (destruct src; [congruence|unfold lenZ; cbn [length]; lia]).
  unfold packable in P, P2. unfold pack_data.
  destruct P as [(-> & B & C)|[(-> & -> & C)|[(-> & -> & C)|[(-> & -> & C)|[(-> & -> & C)|(A & -> & C)]]]]].
  - cbn [Z.eqb]. replace (negb (type =? 116) && negb (type =? 97)) with false by (destruct B as [->| ->]; reflexivity).
    destruct (Z.eq_dec cap 0) as [->|Hc].
    + left. split; [destruct src; [congruence|reflexivity]|]. unfold min_payload. cbn. lia.
    + right. destruct (text_roundtrip src cap Hne C ltac:(lia)) as (n & bytes & E & En & Lb & D). exists n, bytes.
      split; [exact E|]. fold (lenZ src) in *. fold (lenZ bytes) in *.
      assert (bytes_ok bytes).
      { destruct src; [congruence|]. unfold encode_text in E. destruct (cap =? 0); [discriminate|]. injection E as _ <-. now apply Forall_firstn. }
      split; [lia|]. split; [lia|]. split; [assumption|]. split; [discriminate|]. split; [intros w [= <-]; lia|].
      intros hb2 Hn. unfold decode_data. replace (n =? 0) with false by lia. cbn [encoding_sizetype Z.eqb].
      change (uwrap 64 (n * 1)) with ((n * 1) mod 2 ^ 64). rewrite Z.mod_small by lia.
      replace (n * 1 <? n * 1) with false by lia.
      specialize (D [] n n ltac:(lia) ltac:(lia)). rewrite app_nil_r in D. unfold decode_text in D.
      replace (n =? 0) with false in D by lia. replace (n <? n) with false in D by lia. rewrite D. cbn [bind].
      apply decoded_ok. lia.
  - fixed_case 2 (int16_roundtrip hb hb) C Hne src.
  - fixed_case 4 (int32_roundtrip hb hb) C Hne src.
  - fixed_case 4 (float32_roundtrip hb hb) C Hne src.
  - fixed_case 8 (float64_roundtrip hb hb) C Hne src.
  - assert (C2 : compressible m2 src) by (destruct P2 as [(? & _)|[(? & _)|[(? & _)|[(? & _)|[(? & _)|?]]]]]; [lia|lia|lia|lia|lia|tauto]).
    destruct A as [-> | ->]; cbn [Z.eqb Pos.eqb negb orb].
    + destruct (cap <? 64) eqn:Hc; [left; split; [reflexivity|intros [Hm _]; unfold min_payload in Hm; cbn [Z.eqb Pos.eqb orb] in Hm; lia]|].
      right.
      destruct (steim1_lossless_lemma hb (negb hb) false true m1 m2 src cap 0 ltac:(destruct hb; reflexivity) C C2 ltac:(unfold in_s; lia) ltac:(lia))
        as (n & bytes & E & En & (g & Hg & Lg & Lc & _) & Bk & _). fold (lenZ src) in *. fold (lenZ bytes) in *.
      exists n, bytes. split; [exact E|].
      split; [lia|]. split; [unfold lenZ in *; lia|]. split; [assumption|].
      split; [intros _; eapply steim1_leads; [|exact E]; destruct hb; reflexivity|].
      split; [discriminate|]. intros hb2 Hn.
      destruct (steim1_lossless_lemma hb (negb hb) hb2 (negb hb2) m1 m2 src cap 0 ltac:(destruct hb, hb2; reflexivity) C C2 ltac:(unfold in_s; lia) ltac:(lia))
        as (n' & bytes' & E' & _ & _ & _ & D). rewrite E in E'. injection E' as <- <-.
      specialize (D [] (lenZ bytes) (n * 4)). rewrite app_nil_r in D.
      unfold decode_data. replace (n =? 0) with false by lia. cbn [encoding_sizetype Z.eqb Pos.eqb orb is_steim].
      change (uwrap 64 (n * 4)) with ((n * 4) mod 2 ^ 64). rewrite Z.mod_small by lia.
      replace (n * 4 <? n * 4) with false by lia.
      rewrite D by (unfold lenZ; lia). cbn [bind]. apply decoded_ok. lia.
    + destruct (cap <? 64) eqn:Hc; [left; split; [reflexivity|intros [Hm _]; unfold min_payload in Hm; cbn [Z.eqb Pos.eqb orb] in Hm; lia]|].
      destruct (steim2_lossless_lemma hb (negb hb) false true m1 m2 src cap 0 ltac:(destruct hb; reflexivity) C C2 ltac:(unfold in_s; lia) ltac:(lia))
        as [(E & j & d & J1 & J2)|(n & bytes & E & En & (g & Hg & Lg & Lc & _) & Bk & _)].
      * left. split; [exact E|]. intros [_ S]. specialize (S eq_refl). apply nth_error_In in J1.
        rewrite Forall_forall in S. exact (J2 (S d J1)).
      * right. fold (lenZ src) in *. fold (lenZ bytes) in *.
        exists n, bytes. split; [exact E|].
        split; [lia|]. split; [unfold lenZ in *; lia|]. split; [assumption|].
        split; [intros _; eapply steim2_leads; [|exact E]; destruct hb; reflexivity|].
        split; [discriminate|]. intros hb2 Hn.
        destruct (steim2_lossless_lemma hb (negb hb) hb2 (negb hb2) m1 m2 src cap 0 ltac:(destruct hb, hb2; reflexivity) C C2 ltac:(unfold in_s; lia) ltac:(lia))
          as [(E' & _)|(n' & bytes' & E' & _ & _ & _ & _ & D)]; rewrite E in E'; [discriminate|]. injection E' as <- <-.
        specialize (D [] (lenZ bytes) (n * 4)). rewrite app_nil_r in D.
        unfold decode_data. replace (n =? 0) with false by lia. cbn [encoding_sizetype Z.eqb Pos.eqb orb is_steim].
        change (uwrap 64 (n * 4)) with ((n * 4) mod 2 ^ 64). rewrite Z.mod_small by lia.
        replace (n * 4 <? n * 4) with false by lia.
        rewrite D by (unfold lenZ; lia). cbn [bind]. apply decoded_ok. lia.
Qed.

(** ** Unpacking the payload of a record *)

Lemma until0_id l : Forall (fun b => b <> 0) l -> until0 l = l.
Proof. induction 1 as [|b l Hb _ IH]; cbn [until0]; [reflexivity|]. replace (b =? 0) with false by lia. now rewrite IH. Qed.

Lemma forallb_nth_false (l : list Z) i : (i < length l)%nat -> nth i l 0 <> 0 -> forallb (Z.eqb 0) l = false.
Proof.
  intros Hi N. destruct (forallb (Z.eqb 0) l) eqn:E; [|reflexivity]. exfalso. apply N.
  rewrite forallb_forall in E. specialize (E (nth i l 0) (nth_In _ _ Hi)). lia.
Qed.

Lemma nth_firstn_lt (l : list Z) i n : (i < n)%nat -> nth i (firstn n l) 0 = nth i l 0.
Proof.
  revert i n. induction l as [|a l IH]; intros i n H; [now rewrite firstn_nil|].
  destruct n; [lia|]. destruct i; [reflexivity|]. cbn [firstn nth]. apply IH. lia.
Qed.

Lemma nth_skipn_add (l : list Z) i n : nth i (skipn n l) 0 = nth (n + i) l 0.
Proof.
  revert l. induction n as [|n IH]; intros l; [reflexivity|]. destruct l as [|a l]; [rewrite skipn_nil; destruct i; reflexivity|].
  cbn [skipn Nat.add nth]. apply IH.
Qed.

Lemma trim_none rec off (pay : list Z) hd g : rec = hd ++ pay -> off = lenZ hd -> 40 <= off -> nth 0 hd 0 <> 0 ->
  Forall (fun b => b <> 0) (skipn 40 hd) -> (1 <= g)%nat ->
  length pay = (64 * g)%nat -> (forall k, (k < g)%nat -> nth (64 * k) pay 0 <> 0) ->
  trim_frames (S (length rec)) rec (64 * Z.of_nat g) = Ok (64 * Z.of_nat g).
Proof.
  intros -> -> H40 H0 Hnz Hg Lp N. cbn [trim_frames]. replace (0 <? 64 * Z.of_nat g) with true by lia.
  rewrite sliceZ_ok by (rewrite ?lenZ_app; unfold lenZ in *; lia). cbn [bind].
  set (fr := firstn (Z.to_nat 64) (skipn (Z.to_nat (64 * Z.of_nat g - 64)) (hd ++ pay))).
  assert (Lfr : length fr = 64%nat).
  { subst fr. rewrite firstn_length, skipn_length, app_length. unfold lenZ in *. lia. }
  assert (Nfr : forall i, (i < 64)%nat -> nth i fr 0 = nth (64 * g - 64 + i) (hd ++ pay) 0).
  { intros i Hi. subst fr. rewrite nth_firstn_lt by lia. rewrite nth_skipn_add. f_equal. lia. }
  assert (X : exists i, (i < 64)%nat /\ nth i fr 0 <> 0).
  { unfold lenZ in H40. destruct (le_lt_dec g 1) as [G1|G1].
    - exists 0%nat. split; [lia|]. rewrite Nfr by lia. replace (64 * g - 64 + 0)%nat with 0%nat by lia.
      rewrite app_nth1 by lia. exact H0.
    - destruct (le_lt_dec (64 * g) (length hd)) as [G2|G2].
      + exists 0%nat. split; [lia|]. rewrite Nfr by lia. rewrite app_nth1 by lia.
        replace (64 * g - 64 + 0)%nat with (40 + (64 * g - 64 - 40))%nat by lia. rewrite <- nth_skipn_add.
        rewrite Forall_forall in Hnz. apply Hnz. apply nth_In. rewrite skipn_length. lia.
      + pose (k := ((64 * g - 64 - length hd + 63) / 64)%nat).
        assert (K : (64 * g - 64 <= length hd + 64 * k /\ length hd + 64 * k < 64 * g /\ k < g)%nat).
        { subst k. pose proof (Nat.div_mod (64 * g - 64 - length hd + 63) 64 ltac:(lia)).
          pose proof (Nat.mod_upper_bound (64 * g - 64 - length hd + 63) 64 ltac:(lia)). lia. }
        clearbody k. exists (length hd + 64 * k - (64 * g - 64))%nat. split; [lia|]. rewrite Nfr by lia.
        rewrite app_nth2 by lia.
        replace (64 * g - 64 + (length hd + 64 * k - (64 * g - 64)) - length hd)%nat with (64 * k)%nat by lia.
        apply N. lia. }
  destruct X as (i & Hi & Ni). rewrite (forallb_nth_false fr i) by (try lia; exact Ni). reflexivity.
Qed.

(** A record whose payload was packed from [src] gives back those samples. *)
Lemma unpack_data_layout hb2 m2 addr h t src cap : hdr_ok h -> lenZ (h_sid h) < 64 ->
  Forall (fun b => b <> 0) (h_sid h) -> Forall (fun b => b <> 0) (h_extra h) ->
  payload_of m2 (h_enc h) src cap (h_cnt h) (h_payload h) -> h_cnt h < 2 ^ 31 ->
  encoding_sizetype (h_enc h) <> None -> (is_steim (h_enc h) = true -> fixed_bytes (h_enc h) = None) ->
  unpack_data hb2 m2 addr (layout3 h) (rec_of hb2 t h None) = Ok (SInt (firstn (Z.to_nat (h_cnt h)) src)).
Proof.
  intros H Hs Ns Ne (Pn & Pb & Pk & Pl & Pf & Pd) Hn He Hsf.
  pose proof (layout3_len h) as L. pose proof (lenZ_nonneg (h_sid h)). pose proof (lenZ_nonneg (h_extra h)).
  assert (lenZ (layout3 h) <= 10485760) by (unfold hdr_ok in H; tauto).
  assert (lenZ (h_extra h) < 65536) by (unfold hdr_ok in H; tauto).
  assert (in_u 8 (h_enc h)) by (unfold hdr_ok in H; tauto).
  unfold unpack_data. cbn [m_cnt m_reclen m_enc m_swapp rec_of].
  replace (h_cnt h <=? 0) with false by lia. replace (lenZ (layout3 h) <? 0) with false by lia.
  unfold MINRECLEN, MAXRECLEN.
  replace ((lenZ (layout3 h) <? 40) || (10485760 <? lenZ (layout3 h))) with false by lia.
  replace (2 ^ 31 - 1 <? h_cnt h) with false by lia.
  set (off := 40 + lenZ (h_sid h) + lenZ (h_extra h)).
  assert (Db : data_bounds hb2 (layout3 h) (rec_of hb2 t h None) = Ok (off, lenZ (h_payload h))).
  { unfold data_bounds. cbn [m_fver m_sid m_extra m_datalen m_enc m_cnt rec_of]. change (3 =? 3) with true. cbn [bind].
    rewrite until0_id by exact Ns. fold (lenZ (h_sid h)). fold (lenZ (h_extra h)). fold off.
    rewrite (uwrap_id 32 off) by (unfold in_u; lia). cbn [bind].
    assert (S1 : match fixed_bytes (h_enc h) with
                 | Some w => if uwrap 64 (h_cnt h * w) <? lenZ (h_payload h) then uwrap 16 (uwrap 64 (h_cnt h * w)) else lenZ (h_payload h)
                 | None => lenZ (h_payload h) end = lenZ (h_payload h)).
    { destruct (fixed_bytes (h_enc h)) as [w|]; [|reflexivity]. specialize (Pf w eq_refl).
      rewrite (uwrap_id 64) by (unfold in_u; lia). replace (h_cnt h * w <? lenZ (h_payload h)) with false by lia. reflexivity. }
    rewrite S1. destruct (is_steim (h_enc h)) eqn:St; [|now rewrite andb_false_r].
    destruct (Pl eq_refl) as (g & Lg & G).
    assert (E : lenZ (h_payload h) = 64 * Z.of_nat g) by (unfold lenZ; lia). rewrite E.
    replace (64 * Z.of_nat g mod 64 =? 0) with true by lia. cbn [andb].
    rewrite (trim_none (layout3 h) off (h_payload h) (fixed3 h ++ h_sid h ++ h_extra h) g); [reflexivity|..].
    - unfold layout3. now rewrite <- !app_assoc.
    - rewrite !lenZ_app. replace (lenZ (fixed3 h)) with 40 by (unfold lenZ; now rewrite fixed3_len). subst off. lia.
    - lia.
    - cbn. lia.
    - rewrite (skipn_app_exact (fixed3 h)) by (now rewrite fixed3_len). apply Forall_app. split; assumption.
    - lia.
    - exact Lg.
    - exact G. }
  rewrite Db. cbn [bind]. replace ((off <? 40) || (lenZ (layout3 h) <=? off)) with false by lia.
  replace (h_enc h <? 0) with false by (unfold in_u in *; lia).
  rewrite (uwrap_id 8 (h_enc h)) by assumption.
  destruct (encoding_sizetype (h_enc h)) as [[ss ty]|] eqn:Es; [|congruence].
  assert (P : sliceZ off (lenZ (h_payload h)) (layout3 h) = Ok (h_payload h)).
  { unfold layout3. rewrite !app_assoc. rewrite <- (app_nil_r (h_payload h)) at 2. apply sliceZ_mid; [|reflexivity].
    rewrite !lenZ_app. replace (lenZ (fixed3 h)) with 40 by (unfold lenZ; now rewrite fixed3_len). reflexivity. }
  fold (lenZ (layout3 h)). replace (lenZ (layout3 h) - off) with (lenZ (h_payload h)) by lia. rewrite P.
  specialize (Pd hb2 Hn). unfold is_steim in Pd at 1.
  destruct ((addr + off) mod ss =? 0); cbn [bind]; exact Pd.
Qed.
