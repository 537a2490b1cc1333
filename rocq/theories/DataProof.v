(** * Proofs about unpacking the samples of a record. *)

From Verif Require Import Base BaseLemmas SteimModel SteimSpec SteimSafe CodecModel RecModel RecSpec RecProof DataSpec.
Open Scope Z_scope.

(** ** The decoders *)

Lemma dec_loop_inside {A} mode wi wo (f : list Z -> res A) k :
  (forall w, length w = wi -> inside mode (f w)) ->
  forall ocap input, (k * wi <= length input)%nat -> inside mode (dec_loop wi wo f k ocap input).
Proof.
  intros Hf. induction k as [|k IH]; intros ocap input Hl; cbn [dec_loop]; [exact I|].
  destruct (wo <=? ocap); [|exact I]. unfold slice. destruct (Nat.leb_spec (0 + wi) (length input)); [|lia].
  rewrite skipn_O. cbn [bind]. specialize (Hf (firstn wi input)). rewrite firstn_length in Hf. specialize (Hf ltac:(lia)).
  destruct (f (firstn wi input)) as [v|c|u|]; cbn [bind]; try exact Hf.
  specialize (IH (ocap - wo) (skipn wi input)). rewrite skipn_length in IH. specialize (IH ltac:(lia)).
  destruct (dec_loop _ _ _ _ _ _); cbn [bind]; try exact IH.
Qed.
Lemma dec_loop_outside {A} wi wo (f : list Z -> res A) k :
  0 < wo -> (forall w, length w = wi -> exists v, f w = Ok v) ->
  forall ocap input, (length input < k * wi)%nat -> Z.of_nat k * wo <= ocap -> dec_loop wi wo f k ocap input = UB OOBRead.
Proof.
  intros Hw Hf. induction k as [|k IH]; intros ocap input Hl Ho; [lia|]. cbn [dec_loop].
  destruct (Z.leb_spec wo ocap); [|nia]. unfold slice. destruct (Nat.leb_spec (0 + wi) (length input)); [|reflexivity].
  rewrite skipn_O. cbn [bind]. destruct (Hf (firstn wi input)) as (v & ->); [rewrite firstn_length; lia|]. cbn [bind].
  rewrite IH; [reflexivity|rewrite skipn_length; lia|lia].
Qed.

(** The word decoders never leave the word; only SRO reports errors. *)
Lemma sro_inside mode hb sw w : inside mode (sro_word hb sw w).
Proof. unfold sro_word. destruct (_ || _); cbn; lia. Qed.

Lemma sized_bytes enc : fixed_bytes enc = if sized enc then sample_bytes enc else None.
Proof.
  unfold fixed_bytes, sized, sample_bytes.
  destruct (Z.eqb_spec enc 0) as [->|]; [reflexivity|]. destruct (Z.eqb_spec enc 1) as [->|]; [reflexivity|].
  destruct (Z.eqb_spec enc 3) as [->|]; [reflexivity|]. destruct (Z.eqb_spec enc 4) as [->|]; [reflexivity|].
  destruct (Z.eqb_spec enc 5) as [->|]; [reflexivity|]. cbn [orb].
  repeat match goal with |- context [match ?x with _ => _ end] => is_var x; destruct x; try reflexivity; try lia end.
Qed.

Definition known (enc : Z) : Prop := In enc [0; 1; 3; 4; 5; 10; 11; 12; 13; 14; 16; 30; 32].
Lemma sizetype_known enc : match encoding_sizetype enc with Some (s, _) => known enc /\ s = decoded_bytes enc | None => ~ known enc end.
Proof.
  unfold encoding_sizetype, known. cbn [In].
  destruct (Z.eqb_spec enc 0) as [->|]; [split; [auto|reflexivity]|].
  match goal with |- context [if ?c then Some (4, 105) else _] => destruct c eqn:E1 end.
  { assert (enc = 1 \/ enc = 3 \/ enc = 10 \/ enc = 11 \/ enc = 16 \/ enc = 30 \/ enc = 32) as H by lia.
    split; [lia|]. destruct H as [->|[->|[->|[->|[->|[->| ->]]]]]]; reflexivity. }
  match goal with |- context [if ?c then Some (4, 102) else _] => destruct c eqn:E2 end.
  { assert (enc = 4 \/ enc = 12 \/ enc = 13 \/ enc = 14) as H by lia. split; [lia|]. destruct H as [->|[->|[->| ->]]]; reflexivity. }
  destruct (Z.eqb_spec enc 5) as [->|]; [split; [auto 10|reflexivity]|]. lia.
Qed.

Lemma decode_inside hb sw mode input inlen enc cnt : known enc -> 1 <= cnt < 2 ^ 31 -> 0 <= inlen <= lenZ input ->
  (forall w, sample_bytes enc = Some w -> cnt * w <= lenZ input) ->
  inside mode (decode_data hb sw mode input inlen enc cnt (cnt * decoded_bytes enc)).
Proof.
  intros Hk Hc Hi Hw. unfold decode_data. destruct (Z.eqb_spec cnt 0); [lia|].
  pose proof (sizetype_known enc) as Hs. destruct (encoding_sizetype enc) as [[s t]|]; [|contradiction]. destruct Hs as (_ & ->).
  assert (Hd : 1 <= decoded_bytes enc <= 8) by (unfold decoded_bytes; repeat match goal with |- context [match ?x with _ => _ end] => destruct x end; lia).
  unfold uwrap. rewrite Z.mod_small by nia. rewrite Z.ltb_irrefl.
  assert (Fin : forall r : res samples, inside mode r -> inside mode (let! s := r in if samples_len s =? cnt then Ok s else Err MS_GENERROR)).
  { intros [s| | |] H; cbn [bind]; try exact H. destruct (_ =? _); [exact I|cbn; unfold MS_GENERROR; lia]. }
  apply Fin. clear Fin.
  assert (Fix : forall {A} wi wo mi (f : list Z -> res A) (g : list A -> samples), 1 <= wo <= decoded_bytes enc -> (forall w, length w = wi -> inside mode (f w)) ->
            sample_bytes enc = Some (Z.of_nat wi) ->
            inside mode (let! l := decode_fixed wi wo mi f input cnt (cnt * decoded_bytes enc) in Ok (g l))).
  { intros A wi wo mi f g Hwo Hf Hb. specialize (Hw _ Hb). unfold lenZ in *.
    assert (X : inside mode (decode_fixed wi wo mi f input cnt (cnt * decoded_bytes enc))).
    { unfold decode_fixed. destruct (Z.eqb_spec cnt 0); [lia|]. destruct (_ <? mi); [cbn; lia|]. destruct (Z.leb_spec (2 ^ 32) cnt); [lia|].
      apply dec_loop_inside; [assumption|]. nia. }
    destruct (decode_fixed _ _ _ _ _ _ _); cbn [bind]; exact X. }
  unfold known in Hk. cbn [In] in Hk.
  destruct Hk as [<-|[<-|[<-|[<-|[<-|[<-|[<-|[<-|[<-|[<-|[<-|[<-|[<-|[]]]]]]]]]]]]]]; cbn [Z.eqb Pos.eqb orb].
  - specialize (Hw 1 eq_refl). rewrite sliceZ_ok by lia. exact I.
  - apply (Fix _ 2%nat); [cbn; lia|intros; exact I|reflexivity].
  - apply (Fix _ 4%nat); [cbn; lia|intros; exact I|reflexivity].
  - apply (Fix _ 4%nat); [cbn; lia|intros; exact I|reflexivity].
  - apply (Fix _ 8%nat); [cbn; lia|intros; exact I|reflexivity].
  - pose proof (steim1_safe_lemma hb sw mode input inlen cnt (cnt * decoded_bytes 10) Hi ltac:(lia) ltac:(nia)) as S.
    destruct (decode_steim1 _ _ _ _ _ _ _) as [[l b]|c|u|]; cbn [bind]; [exact I|cbn; lia|exact S|exact S].
  - pose proof (steim2_safe_lemma hb sw mode input inlen cnt (cnt * decoded_bytes 11) Hi ltac:(lia) ltac:(nia)) as S.
    destruct (decode_steim2 _ _ _ _ _ _ _) as [[l b]|c|u|]; cbn [bind]; [exact I|cbn; lia|exact S|exact S].
  - unfold decode_geoscope. destruct (Z.eqb_spec cnt 0); [lia|]. destruct (_ =? 0); [cbn; lia|]. cbn [Z.eqb Pos.eqb].
    apply (Fix _ 3%nat); [cbn; lia| |reflexivity]. intros w L. destruct w as [|a [|b [|c [|d w]]]]; try discriminate. exact I.
  - unfold decode_geoscope. destruct (Z.eqb_spec cnt 0); [lia|]. destruct (_ =? 0); [cbn; lia|]. cbn [Z.eqb Pos.eqb].
    apply (Fix _ 2%nat); [cbn; lia|intros; exact I|reflexivity].
  - unfold decode_geoscope. destruct (Z.eqb_spec cnt 0); [lia|]. destruct (_ =? 0); [cbn; lia|]. cbn [Z.eqb Pos.eqb].
    apply (Fix _ 2%nat); [cbn; lia|intros; exact I|reflexivity].
  - apply (Fix _ 2%nat); [cbn; lia|intros; exact I|reflexivity].
  - apply (Fix _ 2%nat); [cbn; lia|intros; apply sro_inside|reflexivity].
  - apply (Fix _ 2%nat); [cbn; lia|intros; exact I|reflexivity].
Qed.

Lemma decode_outside hb sw mode input inlen enc cnt w : known enc -> 1 <= cnt < 2 ^ 31 ->
  sample_bytes enc = Some w -> enc <> 30 -> lenZ input < cnt * w ->
  decode_data hb sw mode input inlen enc cnt (cnt * decoded_bytes enc) = UB OOBRead.
Proof.
  intros Hk Hc Hw H30 Hl. unfold decode_data. destruct (Z.eqb_spec cnt 0); [lia|].
  pose proof (sizetype_known enc) as Hs. destruct (encoding_sizetype enc) as [[s t]|]; [|contradiction]. destruct Hs as (_ & ->).
  assert (Hd : 1 <= decoded_bytes enc <= 8) by (unfold decoded_bytes; repeat match goal with |- context [match ?x with _ => _ end] => destruct x end; lia).
  unfold uwrap. rewrite Z.mod_small by nia. rewrite Z.ltb_irrefl.
  assert (Fix : forall {A} wi wo mi (f : list Z -> res A) (g : list A -> samples), 1 <= wo <= decoded_bytes enc -> mi <= decoded_bytes enc -> (forall w, length w = wi -> exists v, f w = Ok v) ->
            w = Z.of_nat wi ->
            (let! l := decode_fixed wi wo mi f input cnt (cnt * decoded_bytes enc) in Ok (g l)) = UB OOBRead).
  { intros A wi wo mi f g Hwo Hmi Hf Hb. unfold lenZ in *.
    replace (decode_fixed wi wo mi f input cnt (cnt * decoded_bytes enc)) with (@UB (list A) OOBRead); [reflexivity|].
    symmetry. unfold decode_fixed. destruct (Z.eqb_spec cnt 0); [lia|]. destruct (Z.ltb_spec (cnt * decoded_bytes enc) mi); [nia|]. destruct (Z.leb_spec (2 ^ 32) cnt); [lia|].
    apply dec_loop_outside; [lia|assumption|nia|nia]. }
  assert (Fin : forall r : res samples, r = UB OOBRead -> (let! s := r in if samples_len s =? cnt then Ok s else Err MS_GENERROR) = UB OOBRead) by (intros r ->; reflexivity).
  apply Fin. clear Fin.
  unfold known in Hk. cbn [In] in Hk.
  destruct Hk as [<-|[<-|[<-|[<-|[<-|[<-|[<-|[<-|[<-|[<-|[<-|[<-|[<-|[]]]]]]]]]]]]]]; cbn [sample_bytes] in Hw; try discriminate; try contradiction; injection Hw as <-; cbn [Z.eqb Pos.eqb orb].
  - unfold sliceZ. unfold lenZ in Hl. destruct (_ && _) eqn:E; [lia|reflexivity].
  - apply (Fix _ 2%nat); [cbn; lia|cbn; lia|intros; eexists; reflexivity|reflexivity].
  - apply (Fix _ 4%nat); [cbn; lia|cbn; lia|intros; eexists; reflexivity|reflexivity].
  - apply (Fix _ 4%nat); [cbn; lia|cbn; lia|intros; eexists; reflexivity|reflexivity].
  - apply (Fix _ 8%nat); [cbn; lia|cbn; lia|intros; eexists; reflexivity|reflexivity].
  - unfold decode_geoscope. destruct (Z.eqb_spec cnt 0); [lia|]. destruct (Z.eqb_spec (cnt * decoded_bytes 12) 0); [nia|]. cbn [Z.eqb Pos.eqb].
    apply (Fix _ 3%nat); [cbn; lia|cbn; lia| |reflexivity]. intros w L. destruct w as [|a [|b [|c [|d w]]]]; try discriminate. eexists; reflexivity.
  - unfold decode_geoscope. destruct (Z.eqb_spec cnt 0); [lia|]. destruct (Z.eqb_spec (cnt * decoded_bytes 13) 0); [nia|]. cbn [Z.eqb Pos.eqb].
    apply (Fix _ 2%nat); [cbn; lia|cbn; lia|intros; eexists; reflexivity|reflexivity].
  - unfold decode_geoscope. destruct (Z.eqb_spec cnt 0); [lia|]. destruct (Z.eqb_spec (cnt * decoded_bytes 14) 0); [nia|]. cbn [Z.eqb Pos.eqb].
    apply (Fix _ 2%nat); [cbn; lia|cbn; lia|intros; eexists; reflexivity|reflexivity].
  - apply (Fix _ 2%nat); [cbn; lia|cbn; lia|intros; eexists; reflexivity|reflexivity].
  - apply (Fix _ 2%nat); [cbn; lia|cbn; lia|intros; eexists; reflexivity|reflexivity].
Qed.

(** ** The payload bounds *)

Lemma trim_ok rec n : forall size, 0 <= size <= lenZ rec -> size mod 64 = 0 -> (Z.to_nat (size / 64) < n)%nat ->
  exists s, trim_frames n rec size = Ok s /\ 0 <= s <= size.
Proof.
  induction n as [|n IH]; intros size H M Hn; [lia|]. cbn [trim_frames]. destruct (Z.ltb_spec 0 size); [|exists size; split; [reflexivity|lia]].
  rewrite sliceZ_ok by lia. cbn [bind]. destruct (forallb _ _); [|exists size; split; [reflexivity|lia]].
  destruct (IH (size - 64)) as (s & E & Hs); [lia..|]. exists s. split; [assumption|lia].
Qed.

Lemma bounds_ok hb rec m off ext : m_reclen m <= lenZ rec -> m_reclen m <= 10485760 -> payload_at hb rec m off ext -> 0 <= off -> 0 <= ext -> off + ext <= m_reclen m -> 0 <= m_cnt m < 2 ^ 31 ->
  exists size, data_bounds hb rec m = Ok (off, size) /\ 0 <= size <= ext
    /\ (forall w, sample_bytes (m_enc m) = Some w -> size = if sized (m_enc m) && (m_cnt m * w <? ext) then m_cnt m * w mod 65536 else ext).
Proof.
  intros Hr Hmax Hp Ho He Hf Hc. unfold data_bounds.
  assert (E : (if m_fver m =? 3 then
       Ok (uwrap 32 (40 + Z.of_nat (length (m_sid m)) + Z.of_nat (length (m_extra m))), m_datalen m)
     else if m_fver m =? 2 then
       let! o := rd hb (m_swaph m) 2 44 rec in Ok (o, uwrap 32 (m_reclen m - o))
     else Err MS_GENERROR) = Ok (off, ext)).
  { destruct Hp as [(-> & Eo & ->)|(-> & Eo & ->)]; cbn [Z.eqb Pos.eqb].
    - unfold lenZ in Eo. rewrite <- Eo. unfold uwrap. rewrite Z.mod_small by lia. reflexivity.
    - rewrite Eo. cbn [bind]. unfold uwrap. rewrite Z.mod_small by lia. reflexivity. }
  rewrite E. cbn [bind]. rewrite sized_bytes.
  destruct (sized (m_enc m)) eqn:Es.
  - destruct (sample_bytes (m_enc m)) as [w|] eqn:Ew.
    + assert (Hw : 1 <= w <= 8) by (clear - Ew; unfold sample_bytes in Ew; repeat match type of Ew with context [match ?x with _ => _ end] => destruct x end; try discriminate; injection Ew as <-; lia).
      rewrite (uwrap_id 64) by (unfold in_u; nia). unfold uwrap. change (2 ^ 16) with 65536.
      replace (is_steim (m_enc m)) with false by (clear - Es; unfold sized, is_steim in *; repeat match type of Es with context [match ?x with _ => _ end] => destruct x end; try discriminate; reflexivity).
      rewrite andb_false_r. eexists. split; [reflexivity|]. split.
      * destruct (Z.ltb_spec (m_cnt m * w) ext); [|lia]. pose proof (Z.mod_pos_bound (m_cnt m * w) 65536 ltac:(lia)). pose proof (Z.mod_le (m_cnt m * w) 65536 ltac:(nia) ltac:(lia)). lia.
      * intros w' [= <-]. cbn [andb]. reflexivity.
    + exfalso. clear - Es Ew. unfold sized, sample_bytes in *. repeat match type of Es with context [match ?x with _ => _ end] => destruct x end; discriminate.
  - destruct ((ext mod 64 =? 0) && is_steim (m_enc m)) eqn:Et.
    + destruct (trim_ok rec (S (length rec)) ext) as (s & -> & Hs); [lia|lia|unfold lenZ in *; lia|]. cbn [bind]. exists s. split; [reflexivity|]. split; [lia|].
      intros w Ew. exfalso. unfold is_steim in Et. assert (m_enc m = 10 \/ m_enc m = 11) as [H|H] by lia; rewrite H in Ew; discriminate.
    + exists ext. split; [reflexivity|]. split; [lia|]. intros w Ew. reflexivity.
Qed.

Lemma get_input (b : bool) (rec : list Z) off size : 0 <= off <= lenZ rec -> 0 <= size -> off + size <= lenZ rec ->
  exists input, (if b then sliceZ off (Z.of_nat (length rec) - off) rec else sliceZ off size rec) = Ok input
    /\ lenZ input = if b then lenZ rec - off else size.
Proof.
  intros Ho Hs Hf. change (Z.of_nat (length rec)) with (lenZ rec).
  destruct b; rewrite sliceZ_ok by lia; eexists; (split; [reflexivity|]); unfold lenZ in *; rewrite firstn_length, skipn_length; lia.
Qed.

Lemma known_or enc : known enc \/ ~ known enc.
Proof. pose proof (sizetype_known enc) as H. destruct (encoding_sizetype enc) as [[s t]|]; tauto. Qed.

Lemma inside_longer hb mode addr rec m off ext : m_reclen m <= lenZ rec -> payload_at hb rec m off ext -> 0 <= off -> 0 <= ext -> off + ext <= m_reclen m ->
  -1 <= m_enc m < 256 ->
  (forall w, sample_bytes (m_enc m) = Some w -> m_cnt m * w <= available addr m off ext (m_cnt m * w)) ->
  inside mode (unpack_data hb mode addr rec m).
Proof.
  intros Hr Hp Ho He Hf Henc Hw. unfold unpack_data, MINRECLEN, MAXRECLEN, MS_GENERROR, MS_NOTSEED, MS_OUTOFRANGE.
  destruct (Z.leb_spec (m_cnt m) 0); [exact I|]. destruct (Z.ltb_spec (m_reclen m) 0); [cbn; lia|].
  destruct ((m_reclen m <? 40) || (10485760 <? m_reclen m)) eqn:E1; [cbn; lia|]. destruct (Z.ltb_spec (2 ^ 31 - 1) (m_cnt m)); [cbn; lia|].
  destruct (bounds_ok hb rec m off ext) as (size & Eb & Hs & Hsz); try assumption; try lia. rewrite Eb. cbn [bind].
  destruct ((off <? 40) || (m_reclen m <=? off)) eqn:E2; [cbn; lia|].
  set (enc := if m_enc m <? 0 then 10 else m_enc m).
  assert (Eenc : uwrap 8 enc = enc) by (apply uwrap_id; unfold in_u, enc; destruct (Z.ltb_spec (m_enc m) 0); lia). rewrite Eenc.
  pose proof (sizetype_known enc) as Hk. destruct (encoding_sizetype enc) as [[ssize t]|]; [|cbn; lia]. destruct Hk as (Hk & ->).
  destruct (get_input ((addr + off) mod decoded_bytes enc =? 0) rec off size) as (input & Ei & Li); [lia..|]. rewrite Ei. cbn [bind].
  apply decode_inside; [assumption|lia|destruct (_ =? 0); lia|].
  intros w Ew.
  assert (Em : enc = m_enc m) by (unfold enc in *; destruct (Z.ltb_spec (m_enc m) 0); [discriminate|reflexivity]). rewrite Em in *.
  specialize (Hw w Ew). unfold available in Hw. rewrite Li. destruct (_ =? 0); [lia|]. rewrite (Hsz w Ew). exact Hw.
Qed.

Lemma inside_lemma hb mode addr rec m off ext : lenZ rec = m_reclen m -> payload_at hb rec m off ext -> 0 <= off -> 0 <= ext -> off + ext <= m_reclen m ->
  -1 <= m_enc m < 256 ->
  (forall w, sample_bytes (m_enc m) = Some w -> m_cnt m * w <= available addr m off ext (m_cnt m * w)) ->
  inside mode (unpack_data hb mode addr rec m).
Proof. intros Hr. apply inside_longer. lia. Qed.

Lemma outside_lemma hb mode addr rec m off ext w : lenZ rec = m_reclen m -> payload_at hb rec m off ext -> 0 <= ext -> off + ext <= m_reclen m ->
  unpackable m off -> sample_bytes (m_enc m) = Some w -> m_enc m <> 30 ->
  available addr m off ext (m_cnt m * w) < m_cnt m * w ->
  unpack_data hb mode addr rec m = UB OOBRead.
Proof.
  intros Hr Hp He Hf (Hc & Hl & Ho) Ew H30 Hw. unfold unpack_data, MINRECLEN, MAXRECLEN.
  destruct (Z.leb_spec (m_cnt m) 0); [lia|]. destruct (Z.ltb_spec (m_reclen m) 0); [lia|].
  destruct ((m_reclen m <? 40) || (10485760 <? m_reclen m)) eqn:E1; [lia|]. destruct (Z.ltb_spec (2 ^ 31 - 1) (m_cnt m)); [lia|].
  destruct (bounds_ok hb rec m off ext) as (size & Eb & Hs & Hsz); try assumption; try lia. rewrite Eb. cbn [bind].
  destruct ((off <? 40) || (m_reclen m <=? off)) eqn:E2; [lia|].
  assert (Henc : known (m_enc m)).
  { clear - Ew. unfold known, sample_bytes in *. cbn [In]. repeat match type of Ew with context [match ?x with _ => _ end] => destruct x end; try discriminate; tauto. }
  assert (0 <= m_enc m < 256) by (clear - Henc; unfold known in Henc; cbn [In] in Henc; lia).
  destruct (Z.ltb_spec (m_enc m) 0); [lia|]. rewrite (uwrap_id 8 (m_enc m)) by (unfold in_u; lia).
  pose proof (sizetype_known (m_enc m)) as Hk. destruct (encoding_sizetype (m_enc m)) as [[ssize t]|]; [|contradiction]. destruct Hk as (Hk & ->).
  destruct (get_input ((addr + off) mod decoded_bytes (m_enc m) =? 0) rec off size) as (input & Ei & Li); [lia..|]. rewrite Ei. cbn [bind].
  eapply decode_outside; try eassumption; try lia.
  unfold available in Hw. rewrite Li. destruct (_ =? 0); [lia|]. rewrite (Hsz w Ew). exact Hw.
Qed.

(** ** Version 3 *)

Lemma until0_le l : lenZ (until0 l) <= lenZ l.
Proof. unfold lenZ. induction l as [|c l IH]; cbn [until0 length]; [lia|]. destruct (c =? 0); cbn [length]; lia. Qed.

Lemma inside3 hb mode addr h start : hdr_ok h -> consistent h -> not_truncated addr h ->
  inside mode (unpack_data hb mode addr (layout3 h) (rec_of hb start h None)).
Proof.
  intros H Hc Ht. pose proof (layout3_len h) as L. pose proof (until0_le (h_sid h)) as Hu.
  pose proof (lenZ_nonneg (until0 (h_sid h))). pose proof (lenZ_nonneg (h_extra h)). pose proof (lenZ_nonneg (h_payload h)).
  assert (He : in_u 8 (h_enc h)) by (unfold hdr_ok in H; tauto). unfold in_u in He.
  eapply inside_lemma with (off := 40 + lenZ (until0 (h_sid h)) + lenZ (h_extra h)) (ext := lenZ (h_payload h)); cbn [rec_of m_reclen m_enc m_cnt]; try lia.
  - left. cbn. auto.
  - intros w Ew. unfold consistent, not_truncated in *. rewrite Ew in *. unfold available. cbn [rec_of m_enc m_reclen].
    destruct (Z.eqb_spec ((addr + (40 + lenZ (until0 (h_sid h)) + lenZ (h_extra h))) mod decoded_bytes (h_enc h)) 0); [lia|].
    destruct (sized (h_enc h)) eqn:Es; cbn [andb]; [|assumption].
    destruct (Z.ltb_spec (h_cnt h * w) (lenZ (h_payload h))); [|assumption].
    destruct Ht as [Ht|[Ht|[Ht|Ht]]]; [lia| |discriminate|exfalso; replace (addr + (40 + lenZ (until0 (h_sid h)) + lenZ (h_extra h))) with (addr + 40 + lenZ (until0 (h_sid h)) + lenZ (h_extra h)) in * by lia; contradiction].
    assert (0 <= h_cnt h * w).
    { assert (0 <= h_cnt h) by (unfold hdr_ok, in_u in H; tauto).
      assert (1 <= w) by (clear - Ew; unfold sample_bytes in Ew; repeat match type of Ew with context [match ?x with _ => _ end] => destruct x end; try discriminate; injection Ew as <-; lia). nia. }
    rewrite Z.mod_small by lia. lia.
Qed.

(** ** From the bytes of the record *)

Lemma sarith_inside mode w v : inside mode (sarith mode w v).
Proof. unfold sarith. destruct (in_sb w v); [exact I|]. destruct mode; [reflexivity|exact I]. Qed.

Lemma inside_bind {A B} mode (r : res A) (k : A -> res B) :
  inside mode r -> (forall x, r = Ok x -> inside mode (k x)) -> inside mode (bind r k).
Proof. intros H K. destruct r; cbn [bind]; auto. Qed.

Lemma time2nstime_inside mode y d h m s n : inside mode (time2nstime mode y d h m s n).
Proof.
  unfold time2nstime. repeat match goal with |- inside _ (if ?c then _ else _) => destruct c; [exact I|] end.
  unfold time2nstime_int. apply inside_bind; [apply sarith_inside|]. intros x _. apply sarith_inside.
Qed.

Lemma parse_inside u mode addr flags h tail : hdr_ok h -> bytes_ok tail ->
  consistent h -> not_truncated addr h ->
  inside mode (parse u false mode addr flags (layout3 h ++ tail)).
Proof.
  intros H Ht C N. rewrite parse_complete by auto. apply inside_bind; [|intros; exact I].
  rewrite unpack3_eq by auto. destruct (64 <=? lenZ (h_sid h)); [cbn; lia|].
  destruct (has_flag flags 4 && negb (h_crc h =? crc3 h)); [cbn; lia|].
  apply inside_bind; [apply time2nstime_inside|]. intros t _. unfold finish3.
  destruct (t =? NSTERROR); [cbn; lia|]. destruct (has_flag flags 1 && (0 <? h_cnt h)); [|exact I].
  apply inside_bind; [|intros; exact I]. now apply inside3.
Qed.
