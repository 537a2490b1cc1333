(** * Proofs about repacking. *)

From Verif Require Import Base BaseLemmas CrcSpec SteimModel SteimSpec CodecModel TimeModel TimeSpec TimeProof RecModel RecSpec RecProof
  PackModel PackSpec PackData PackProof DataSpec DataProof RepackSpec.
Open Scope Z_scope.

(** ** The payload taken over *)

Lemma trim_mod rec n : forall size s, size mod 64 = 0 -> trim_frames n rec size = Ok s -> (size - s) mod 64 = 0.
Proof.
  induction n as [|n IH]; intros size s M E; cbn [trim_frames] in E; [discriminate|].
  destruct (0 <? size); [|injection E as <-; now rewrite Z.sub_diag].
  destruct (sliceZ (size - 64) 64 rec) as [fr| | |]; cbn [bind] in E; try discriminate.
  destruct (forallb _ fr); [|injection E as <-; now rewrite Z.sub_diag].
  apply IH in E; [|lia]. lia.
Qed.

Lemma bounds_kept hb rec m off ext : lenZ rec = m_reclen m -> m_reclen m <= 10485760 -> payload_at hb rec m off ext -> 0 <= off -> 0 <= ext ->
  off + ext <= m_reclen m -> 0 <= m_cnt m < 2 ^ 31 ->
  exists size, data_bounds hb rec m = Ok (off, size) /\ 0 <= size <= ext /\ kept (m_enc m) (m_cnt m) ext size.
Proof.
  intros Hr Hm Hp Ho He Hf Hc. destruct (bounds_ok hb rec m off ext (Z.eq_le_incl _ _ (eq_sym Hr)) Hm Hp Ho He Hf Hc) as (size & E & Hs & Hw).
  exists size. split; [exact E|]. split; [exact Hs|]. unfold kept.
  destruct (sample_bytes (m_enc m)) as [w|] eqn:Ew; [now apply Hw|].
  unfold data_bounds in E. rewrite sized_bytes, Ew in E.
  replace (if sized (m_enc m) then None else None) with (@None Z) in E by now destruct (sized (m_enc m)).
  assert (E1 : (if m_fver m =? 3 then
       Ok (uwrap 32 (40 + Z.of_nat (length (m_sid m)) + Z.of_nat (length (m_extra m))), m_datalen m)
     else if m_fver m =? 2 then
       let! o := rd hb (m_swaph m) 2 44 rec in Ok (o, uwrap 32 (m_reclen m - o))
     else Err MS_GENERROR) = Ok (off, ext)).
  { destruct Hp as [(-> & Eo & ->)|(-> & Eo & ->)]; cbn [Z.eqb Pos.eqb].
    - unfold lenZ in Eo. rewrite <- Eo. unfold uwrap. rewrite Z.mod_small by lia. reflexivity.
    - rewrite Eo. cbn [bind]. unfold uwrap. rewrite Z.mod_small by lia. reflexivity. }
  rewrite E1 in E. cbn [bind] in E. destruct (is_steim (m_enc m)).
  - split; [lia|]. destruct (Z.eqb_spec (ext mod 64) 0) as [M|M]; cbn [andb] in E.
    + destruct (trim_frames (S (length rec)) rec ext) as [s| | |] eqn:T; cbn [bind] in E; try discriminate.
      injection E as ->. now apply (trim_mod rec (S (length rec))).
    + injection E as ->. now rewrite Z.sub_diag.
  - rewrite andb_false_r in E. now injection E as ->.
Qed.

(** ** The record written *)

Lemma repack3_eq recip hb addr rec m buf off size : msr_ok recip m -> 40 <= maxlen m <= 10485760 -> in_s 64 (m_start m) ->
  0 <= m_cnt m < 2 ^ 32 -> bytes_ok rec -> bytes_ok buf -> 0 <= addr < 4 ->
  data_bounds hb rec m = Ok (off, size) -> 0 <= off -> 0 <= size -> off + size <= lenZ rec ->
  hdrlen m + size <= 10485760 -> hdrlen m + size <= lenZ buf ->
  repack3 recip hb addr rec m buf =
  Ok (layout3 (out_rec recip m (encoding_of m) (fields_at (m_start m)) (m_cnt m) (firstn (Z.to_nat size) (skipn (Z.to_nat off) rec)))
        ++ skipn (Z.to_nat (hdrlen m + size)) buf, hdrlen m + size).
Proof.
  intros M Hml Ht Hc Br Bb Ha Eb Ho Hs Hin Hmax Hbuf. unfold hdrlen in *.
  pose proof (lenZ_nonneg (m_sid m)). pose proof (lenZ_nonneg (m_extra m)).
  assert (Hsid : lenZ (m_sid m) < 256) by (unfold msr_ok in M; tauto).
  unfold repack3. fold (lenZ buf) (lenZ (m_sid m)) (lenZ (m_extra m)).
  destruct (Z.ltb_spec (lenZ buf) (40 + lenZ (m_sid m) + lenZ (m_extra m))); [lia|].
  destruct (Z.ltb_spec (2 ^ 32 - 1) (m_cnt m)); [lia|].
  set (p := firstn (Z.to_nat size) (skipn (Z.to_nat off) rec)).
  assert (Lp : lenZ p = size) by (unfold p, lenZ in *; rewrite firstn_length, skipn_length; lia).
  assert (Bp : bytes_ok p) by (unfold p; apply Forall_firstn, Forall_skipn; exact Br).
  set (B := firstn 40 buf). set (J := skipn 40 buf).
  assert (LB : length B = 40%nat) by (unfold B; rewrite firstn_length; unfold lenZ in *; lia).
  assert (LJ : lenZ J = lenZ buf - 40) by (unfold J, lenZ in *; rewrite skipn_length; lia).
  pose proof (header3_ok recip hb m B J (fields_at (m_start m)) LB Hml ltac:(lia) ltac:(lia) (fields_at_ok _ Ht)) as H3.
  replace (B ++ J) with buf in H3 by (symmetry; apply firstn_skipn).
  rewrite H3, Eb. clear H3. destruct (Z.ltb_spec (lenZ buf) (uwrap 32 (40 + lenZ (m_extra m) + size))) as [X|_].
  { unfold uwrap in X. rewrite Z.mod_small in X by lia. lia. }
  rewrite (uwrap_id 32 (40 + lenZ (m_sid m) + lenZ (m_extra m) + size)) by (unfold in_u; lia). rewrite sliceZ_ok by lia. fold p. cbn [bind].
  set (F := raw3 _ _ _ _ _ _ _ _ _ _).
  set (K := skipn (length (m_sid m) + length (m_extra m)) J).
  assert (LK : lenZ K = lenZ buf - (40 + lenZ (m_sid m) + lenZ (m_extra m))) by (unfold K, lenZ in *; rewrite skipn_length; lia).
  assert (L4 : forall a b, (a + b <= 40)%nat -> length (firstn b (skipn a B)) = b) by (intros; rewrite firstn_length, skipn_length; lia).
  assert (LF : length F = 40%nat) by (apply raw3_len; apply L4; lia).
  assert (P : put (40 + lenZ (m_sid m) + lenZ (m_extra m)) p (F ++ m_sid m ++ m_extra m ++ K) = Ok (F ++ m_sid m ++ m_extra m ++ p ++ skipn (length p) K)).
  { rewrite <- (firstn_skipn (length p) K) at 1.
    replace (F ++ m_sid m ++ m_extra m ++ firstn (length p) K ++ skipn (length p) K) with
      ((F ++ m_sid m ++ m_extra m) ++ firstn (length p) K ++ skipn (length p) K) by (rewrite <- !app_assoc; reflexivity).
    rewrite put_mid; [now rewrite <- !app_assoc| |].
    - rewrite !lenZ_app. unfold lenZ at 3. rewrite LF. lia.
    - rewrite firstn_length. unfold lenZ in *. lia. }
  rewrite P. cbn [bind]. rewrite <- Lp.
  unfold F. rewrite (seal_ok hb addr recip m (encoding_of m) (fields_at (m_start m)) (m_cnt m)); [|exact Ha|apply L4; lia|apply L4; lia|apply L4; lia|unfold in_u; lia| |].
  - cbn [bind]. rewrite (swrap_id 32) by (unfold in_s; lia). f_equal. f_equal. f_equal.
    unfold K, J. rewrite !skipn_skipn. f_equal. unfold lenZ. lia.
  - apply out_hdr_ok; auto; try (unfold in_u; lia). unfold encoding_of. apply uwrap_range. lia.
  - unfold K, J. apply Forall_skipn, Forall_skipn, Forall_skipn. exact Bb.
Qed.

(** ** Decoders see a prefix of their input *)

Lemma dec_loop_agree {A} wi wo (f : list Z -> res A) k : forall ocap i1 i2, firstn (k * wi) i1 = firstn (k * wi) i2 ->
  dec_loop wi wo f k ocap i1 = dec_loop wi wo f k ocap i2.
Proof.
  induction k as [|k IH]; intros ocap i1 i2 E; cbn [dec_loop]; [reflexivity|]. destruct (wo <=? ocap); [|reflexivity].
  assert (L : Nat.min (S k * wi) (length i1) = Nat.min (S k * wi) (length i2)) by (rewrite <- !firstn_length; now rewrite E).
  assert (E1 : firstn wi i1 = firstn wi i2).
  { apply (f_equal (firstn wi)) in E. rewrite !firstn_firstn in E. replace (Nat.min wi (S k * wi)) with wi in E by lia. exact E. }
  assert (E2 : firstn (k * wi) (skipn wi i1) = firstn (k * wi) (skipn wi i2)).
  { apply (f_equal (skipn wi)) in E. rewrite !skipn_firstn_comm in E. replace (S k * wi - wi)%nat with (k * wi)%nat in E by lia. exact E. }
  unfold slice. cbn [Nat.add skipn]. rewrite E1, (IH _ _ _ E2).
  destruct (Nat.leb_spec wi (length i1)), (Nat.leb_spec wi (length i2)); try reflexivity; exfalso; nia.
Qed.

Lemma dec_frames_agree df dmax hb sw m f : forall need ocap last i1 i2, firstn (64 * f) i1 = firstn (64 * f) i2 ->
  dec_frames df dmax hb sw m f i1 need ocap last = dec_frames df dmax hb sw m f i2 need ocap last.
Proof.
  induction f as [|f IH]; intros need ocap last i1 i2 E; cbn [dec_frames]; [reflexivity|]. destruct (need <=? 0); [reflexivity|].
  assert (L : Nat.min (64 * S f) (length i1) = Nat.min (64 * S f) (length i2)) by (rewrite <- !firstn_length; now rewrite E).
  assert (E1 : firstn 64 i1 = firstn 64 i2).
  { apply (f_equal (firstn 64)) in E. rewrite !firstn_firstn in E. replace (Nat.min 64 (64 * S f)) with 64%nat in E by lia. exact E. }
  assert (E2 : firstn (64 * f) (skipn 64 i1) = firstn (64 * f) (skipn 64 i2)).
  { apply (f_equal (skipn 64)) in E. rewrite !skipn_firstn_comm in E. replace (64 * S f - 64)%nat with (64 * f)%nat in E by lia. exact E. }
  unfold slice. replace (0 + 64)%nat with 64%nat by reflexivity. rewrite !skipn_O, E1.
  destruct (Nat.leb_spec 64 (length i1)), (Nat.leb_spec 64 (length i2)); try reflexivity; try (exfalso; lia).
  cbn [bind]. destruct (frame_words (firstn 64 i2)); [reflexivity|].
  destruct (dec_words _ _ _ _ _ _); cbn [bind]; try reflexivity. destruct (apply_diffs _ _ _ _ _); cbn [bind]; try reflexivity.
  rewrite (IH _ _ _ _ _ E2). reflexivity.
Qed.

Lemma dec_words_zero d dmax ws : (forall w, d 0 w = Ok []) -> 0 <= dmax -> forall i, dec_words d dmax 0 i 0 ws = Ok [].
Proof.
  intros D0 Dm. assert (X : forall i, extract 0 (30 - 2 * i) 2 = 0) by (intros i; unfold extract; now rewrite Z.shiftr_0_l).
  induction ws as [|w ws IH]; intros i; cbn [dec_words]; [reflexivity|]. rewrite X, D0. cbn [bind length].
  replace (dmax <? 0 + Z.of_nat 0) with false by lia. change (0 + Z.of_nat 0) with 0. rewrite IH. reflexivity.
Qed.

(** Frames whose code word is zero hold no differences. *)
Lemma dec_frames_padding df dmax hb sw m : (forall w, df hb sw 0 w = Ok []) -> 0 <= dmax ->
  forall f i need ocap last, (64 * f <= length i)%nat -> (forall k j, (k < f)%nat -> (j < 4)%nat -> nth (64 * k + j) i 0 = 0) ->
  dec_frames df dmax hb sw m f i need ocap last = Ok [].
Proof.
  intros D0 Dm. induction f as [|f IH]; intros i need ocap last L Z0; cbn [dec_frames]; [reflexivity|].
  destruct (need <=? 0); [reflexivity|]. unfold slice. destruct (Nat.leb_spec (0 + 64) (length i)); [|lia]. rewrite skipn_O. cbn [bind].
  unfold frame_words. cbn [chunks]. rewrite firstn_firstn. change (Nat.min 4 64) with 4%nat.
  replace (firstn 4 i) with [0; 0; 0; 0].
  2:{ pose proof (Z0 0%nat 0%nat ltac:(lia) ltac:(lia)). pose proof (Z0 0%nat 1%nat ltac:(lia) ltac:(lia)).
      pose proof (Z0 0%nat 2%nat ltac:(lia) ltac:(lia)). pose proof (Z0 0%nat 3%nat ltac:(lia) ltac:(lia)).
      destruct i as [|a [|b [|c [|d i]]]]; cbn [length] in *; try lia. cbn in *. congruence. }
  replace (ld hb sw [0; 0; 0; 0]) with 0 by now destruct hb, sw.
  rewrite (dec_words_zero (df hb sw)) by assumption. cbn [bind apply_diffs length app]. change (Z.of_nat 0) with 0. cbn [List.last].
  rewrite IH; [reflexivity|rewrite skipn_length; lia|].
  intros k j Hk Hj. rewrite nth_skipn_add. replace (64 + (64 * k + j))%nat with (64 * S k + j)%nat by lia. apply Z0; lia.
Qed.

Lemma dec_frames_more df dmax hb sw m : (forall w, df hb sw 0 w = Ok []) -> 0 <= dmax ->
  forall f e i need ocap last, (64 * (f + e) <= length i)%nat ->
  (forall k j, (f <= k < f + e)%nat -> (j < 4)%nat -> nth (64 * k + j) i 0 = 0) ->
  dec_frames df dmax hb sw m (f + e) i need ocap last = dec_frames df dmax hb sw m f i need ocap last.
Proof.
  intros D0 Dm. induction f as [|f IH]; intros e i need ocap last L Z0.
  - cbn [Nat.add]. rewrite dec_frames_padding; auto. intros k j Hk Hj. apply Z0; lia.
  - cbn [Nat.add dec_frames]. destruct (need <=? 0); [reflexivity|].
    destruct (slice 0 64 i) as [fr| | |]; cbn [bind]; try reflexivity. destruct (frame_words fr); [reflexivity|].
    destruct (dec_words _ _ _ _ _ _); cbn [bind]; try reflexivity. destruct (apply_diffs _ _ _ _ _); cbn [bind]; try reflexivity.
    rewrite IH; [reflexivity|rewrite skipn_length; lia|].
    intros k j Hk Hj. rewrite nth_skipn_add. replace (64 + (64 * k + j))%nat with (64 * S k + j)%nat by lia. apply Z0; lia.
Qed.

(** Two inputs with the same frames, of which the second has more without data. *)
Lemma steim_agree df dmax hb sw m cnt ocap f e i1 i2 n1 n2 : (forall w, df hb sw 0 w = Ok []) -> 0 <= dmax -> (1 <= f)%nat ->
  n1 / 64 = Z.of_nat f -> n2 / 64 = Z.of_nat (f + e) -> firstn (64 * f) i1 = firstn (64 * f) i2 ->
  (64 * (f + e) <= length i2)%nat -> (forall k j, (f <= k < f + e)%nat -> (j < 4)%nat -> nth (64 * k + j) i2 0 = 0) ->
  steim_decode df dmax hb sw m i1 n1 cnt ocap = steim_decode df dmax hb sw m i2 n2 cnt ocap.
Proof.
  intros D0 Dm Hf E1 E2 P L Z0. unfold steim_decode. rewrite E1, E2, !Nat2Z.id. destruct f as [|f]; [lia|]. cbn [Nat.add].
  destruct (ocap =? 0); [reflexivity|]. destruct (ocap <? _); [reflexivity|]. destruct (cnt <=? 0); [reflexivity|].
  assert (Lm : Nat.min (64 * S f) (length i1) = Nat.min (64 * S f) (length i2)) by (rewrite <- !firstn_length; now rewrite P).
  assert (P1 : firstn 64 i1 = firstn 64 i2).
  { apply (f_equal (firstn 64)) in P. rewrite !firstn_firstn in P. replace (Nat.min 64 (64 * S f)) with 64%nat in P by lia. exact P. }
  assert (P2 : firstn (64 * f) (skipn 64 i1) = firstn (64 * f) (skipn 64 i2)).
  { apply (f_equal (skipn 64)) in P. rewrite !skipn_firstn_comm in P. replace (64 * S f - 64)%nat with (64 * f)%nat in P by lia. exact P. }
  unfold slice. replace (0 + 64)%nat with 64%nat by reflexivity. rewrite !skipn_O, P1.
  destruct (Nat.leb_spec 64 (length i1)), (Nat.leb_spec 64 (length i2)); try lia. cbn [bind].
  destruct (frame_words (firstn 64 i2)) as [|w0 [|w1 [|w2 ws]]]; try reflexivity.
  destruct (ocap / 4 <=? 0); [reflexivity|]. destruct (dec_words _ _ _ _ _ _); cbn [bind]; try reflexivity.
  destruct (apply_diffs _ _ _ _ _); cbn [bind]; try reflexivity.
  rewrite (dec_frames_agree _ _ _ _ _ _ _ _ _ _ _ P2).
  rewrite (dec_frames_more df dmax hb sw m D0 Dm f e); [reflexivity|rewrite skipn_length; lia|].
  intros k j Hk Hj. rewrite nth_skipn_add. replace (64 + (64 * k + j))%nat with (64 * S k + j)%nat by lia. apply Z0; lia.
Qed.

Lemma decode_agree hb sw1 sw2 mode i1 i2 n1 n2 enc cnt out w : sample_bytes enc = Some w -> 1 <= cnt < 2 ^ 31 ->
  enc = 0 \/ sw1 = sw2 -> firstn (Z.to_nat (cnt * w)) i1 = firstn (Z.to_nat (cnt * w)) i2 ->
  (cnt * w <= lenZ i1) -> (cnt * w <= lenZ i2) ->
  decode_data hb sw1 mode i1 n1 enc cnt out = decode_data hb sw2 mode i2 n2 enc cnt out.
Proof.
  intros Ew Hc Hsw P L1 L2. unfold decode_data. destruct (cnt =? 0); [reflexivity|].
  match goal with |- (if ?c then _ else _) = _ => destruct c; [reflexivity|] end.
  assert (Fix : forall (A : Type) (wi : nat) wo mo (f : list Z -> res A) oc, w = Z.of_nat wi ->
    decode_fixed wi wo mo f i1 cnt oc = decode_fixed wi wo mo f i2 cnt oc).
  { intros A wi wo mo f oc ->. unfold decode_fixed. destruct (cnt =? 0); [reflexivity|]. destruct (oc <? mo); [reflexivity|].
    destruct (2 ^ 32 <=? cnt); [reflexivity|]. apply dec_loop_agree.
    replace (Z.to_nat cnt * wi)%nat with (Z.to_nat (cnt * Z.of_nat wi)) by (rewrite Z2Nat.inj_mul, Nat2Z.id by lia; reflexivity). exact P. }
  assert (Hk : enc = 0 \/ enc = 1 \/ enc = 3 \/ enc = 4 \/ enc = 5 \/ enc = 12 \/ enc = 13 \/ enc = 14 \/ enc = 16 \/ enc = 30 \/ enc = 32).
  { clear - Ew. unfold sample_bytes in Ew. repeat match type of Ew with context [match ?x with _ => _ end] => destruct x end; try discriminate; tauto. }
  destruct Hk as [-> |Hk].
  { cbn [Z.eqb]. injection Ew as <-. rewrite Z.mul_1_r in *. rewrite !sliceZ_ok by lia. cbn [Z.to_nat skipn]. rewrite P. reflexivity. }
  destruct Hsw as [-> | ->]; [exfalso; lia|].
  destruct Hk as [->|[->|[->|[->|[->|[->|[->|[->|[->| ->]]]]]]]]]; cbn [Z.eqb Pos.eqb orb]; injection Ew as <-.
  - unfold decode_int16. now rewrite (Fix _ 2%nat).
  - unfold decode_int32. now rewrite (Fix _ 4%nat).
  - unfold decode_float32. now rewrite (Fix _ 4%nat).
  - unfold decode_float64. now rewrite (Fix _ 8%nat).
  - unfold decode_geoscope. cbn [Z.eqb Pos.eqb]. now rewrite (Fix _ 3%nat).
  - unfold decode_geoscope. cbn [Z.eqb Pos.eqb]. now rewrite (Fix _ 2%nat).
  - unfold decode_geoscope. cbn [Z.eqb Pos.eqb]. now rewrite (Fix _ 2%nat).
  - unfold decode_cdsn. now rewrite (Fix _ 2%nat).
  - unfold decode_sro. now rewrite (Fix _ 2%nat).
  - unfold decode_dwwssn. now rewrite (Fix _ 2%nat).
Qed.

Lemma decode_agree_steim hb sw mode i1 i2 n1 n2 enc cnt out f e : is_steim enc = true -> (1 <= f)%nat ->
  n1 / 64 = Z.of_nat f -> n2 / 64 = Z.of_nat (f + e) -> firstn (64 * f) i1 = firstn (64 * f) i2 ->
  (64 * (f + e) <= length i2)%nat -> (forall k j, (f <= k < f + e)%nat -> (j < 4)%nat -> nth (64 * k + j) i2 0 = 0) ->
  decode_data hb sw mode i1 n1 enc cnt out = decode_data hb sw mode i2 n2 enc cnt out.
Proof.
  intros St Hf E1 E2 P L Z0. unfold decode_data. destruct (cnt =? 0); [reflexivity|].
  match goal with |- (if ?c then _ else _) = _ => destruct c; [reflexivity|] end.
  unfold is_steim in St. assert (enc = 10 \/ enc = 11) as [-> | ->] by lia; cbn [Z.eqb Pos.eqb].
  - unfold decode_steim1. rewrite (steim_agree s1_diffs 60 hb sw mode cnt _ f e i1 i2 n1 n2); auto. lia.
  - unfold decode_steim2. rewrite (steim_agree s2_diffs 105 hb sw mode cnt _ f e i1 i2 n1 n2); auto. lia.
Qed.

(** ** Trailing frames of the new record *)

Lemma trim_stay n rec size : 64 <= size <= lenZ rec -> (exists i, size - 64 <= Z.of_nat i < size /\ nth i rec 0 <> 0) ->
  trim_frames (S n) rec size = Ok size.
Proof.
  intros Hs (i & Hi & Ni). cbn [trim_frames]. replace (0 <? size) with true by lia. rewrite sliceZ_ok by lia. cbn [bind].
  rewrite (forallb_nth_false _ (i - Z.to_nat (size - 64))); [reflexivity| |].
  - rewrite firstn_length, skipn_length. unfold lenZ in *. lia.
  - rewrite nth_firstn_lt by lia. rewrite nth_skipn_add. replace (Z.to_nat (size - 64) + (i - Z.to_nat (size - 64)))%nat with i by lia. exact Ni.
Qed.

Lemma trim_stopped n rec : forall size s, 0 <= size <= lenZ rec -> size mod 64 = 0 -> trim_frames n rec size = Ok s ->
  s = 0 \/ (64 <= s <= size /\ exists i, s - 64 <= Z.of_nat i < s /\ nth i rec 0 <> 0).
Proof.
  induction n as [|n IH]; intros size s Hs M E; cbn [trim_frames] in E; [discriminate|].
  destruct (Z.ltb_spec 0 size); [|injection E as <-; left; lia]. rewrite sliceZ_ok in E by lia. cbn [bind] in E.
  destruct (forallb (Z.eqb 0) _) eqn:F.
  - apply IH in E; [|lia|lia]. destruct E as [E|(E & X)]; [left; exact E|right; split; [lia|exact X]].
  - injection E as <-. right. split; [lia|].
    assert (X : exists x, In x (firstn (Z.to_nat 64) (skipn (Z.to_nat (size - 64)) rec)) /\ x <> 0).
    { clear - F. induction (firstn _ _) as [|x l IHl]; cbn [forallb] in F; [discriminate|].
      destruct (Z.eqb_spec 0 x) as [<-|Nx]; [|exists x; split; [now left|lia]]. cbn [andb] in F. destruct (IHl F) as (y & Iy & Ny). exists y. split; [now right|exact Ny]. }
    destruct X as (x & Ix & Nx). apply (In_nth _ _ 0) in Ix. destruct Ix as (j & Lj & Ej). rewrite firstn_length, skipn_length in Lj.
    exists (Z.to_nat (size - 64) + j)%nat. split; [unfold lenZ in *; lia|]. rewrite <- nth_skipn_add, <- (nth_firstn_lt _ _ (Z.to_nat 64)) by lia. now rewrite Ej.
Qed.

Lemma trim_down rec g : (1 <= g)%nat -> (exists i, 64 * Z.of_nat g - 64 <= Z.of_nat i < 64 * Z.of_nat g /\ nth i rec 0 <> 0) ->
  forall e n, 64 * Z.of_nat (g + e) <= lenZ rec -> (e < n)%nat ->
  exists s, trim_frames n rec (64 * Z.of_nat (g + e)) = Ok s /\ 64 * Z.of_nat g <= s <= 64 * Z.of_nat (g + e).
Proof.
  intros Hg X. induction e as [|e IH]; intros n L Hn; (destruct n as [|n]; [lia|]).
  - rewrite Nat.add_0_r in *. rewrite trim_stay by (try exact X; lia). eexists. split; [reflexivity|]. lia.
  - cbn [trim_frames]. replace (0 <? 64 * Z.of_nat (g + S e)) with true by lia. rewrite sliceZ_ok by lia. cbn [bind].
    destruct (forallb _ _); [|eexists; split; [reflexivity|lia]].
    replace (64 * Z.of_nat (g + S e) - 64) with (64 * Z.of_nat (g + e)) by lia.
    destruct (IH n) as (s & E & B); [lia|lia|]. exists s. split; [exact E|lia].
Qed.

Lemma window_used (hd pay : list Z) g : (40 <= length hd)%nat -> nth 0 hd 0 <> 0 -> Forall (fun b => b <> 0) (skipn 40 hd) -> (1 <= g)%nat ->
  (forall k, (k < g)%nat -> nth (64 * k) pay 0 <> 0) ->
  exists i, 64 * Z.of_nat g - 64 <= Z.of_nat i < 64 * Z.of_nat g /\ nth i (hd ++ pay) 0 <> 0.
Proof.
  intros H40 H0 Hnz Hg N. destruct (le_lt_dec g 1) as [G1|G1].
  - exists 0%nat. split; [lia|]. rewrite app_nth1 by lia. exact H0.
  - destruct (le_lt_dec (64 * g) (length hd)) as [G2|G2].
    + exists (64 * g - 64)%nat. split; [lia|]. rewrite app_nth1 by lia.
      replace (64 * g - 64)%nat with (40 + (64 * g - 64 - 40))%nat by lia. rewrite <- nth_skipn_add.
      rewrite Forall_forall in Hnz. apply Hnz. apply nth_In. rewrite skipn_length. lia.
    + pose (k := ((64 * g - 64 - length hd + 63) / 64)%nat).
      assert (K : (64 * g - 64 <= length hd + 64 * k /\ length hd + 64 * k < 64 * g /\ k < g)%nat).
      { subst k. pose proof (Nat.div_mod (64 * g - 64 - length hd + 63) 64 ltac:(lia)).
        pose proof (Nat.mod_upper_bound (64 * g - 64 - length hd + 63) 64 ltac:(lia)). lia. }
      clearbody k. exists (length hd + 64 * k)%nat. split; [lia|]. rewrite app_nth2 by lia.
      replace (length hd + 64 * k - length hd)%nat with (64 * k)%nat by lia. apply N. lia.
Qed.

(** ** The samples of the new record *)

Definition trimmed_to (p : list Z) (size size' : Z) : Prop :=
  size' = size \/ (64 <= size' <= size /\ size' mod 64 = 0 /\ size mod 64 = 0 /\
    forall k j, size' <= 64 * Z.of_nat k -> (j < 4)%nat -> nth (64 * k + j) p 0 = 0).

Lemma unpack_new recip mode addr addr' rec m off ext size hd c s : repackable recip m -> lenZ rec = m_reclen m ->
  payload_at false rec m off ext -> 0 <= off -> 0 <= ext -> off + ext <= m_reclen m -> 0 <= m_enc m < 256 -> 1 <= m_cnt m ->
  data_bounds false rec m = Ok (off, size) -> 0 <= size <= ext -> kept (m_enc m) (m_cnt m) ext size ->
  holds_samples m ext -> version3_order m ->
  let p := firstn (Z.to_nat size) (skipn (Z.to_nat off) rec) in
  lenZ hd = hdrlen m -> hdrlen m + size <= 10485760 ->
  (is_steim (m_enc m) = true -> exists size', data_bounds false (hd ++ p) (repacked recip m size c None) = Ok (hdrlen m, size') /\ trimmed_to p size size') ->
  unpack_data false mode addr rec m = Ok s ->
  unpack_data false mode addr' (hd ++ p) (repacked recip m size c None) = Ok s.
Proof.
  intros (M & Hsl & Hnz & Hrt & Hc31 & Hrl) Hr Hp Ho He Hf Henc Hc1 Eb Hs Hkept Hh Hord p Lhd Hmax T U.
  assert (Lp : lenZ p = size) by (unfold p, lenZ in *; rewrite firstn_length, skipn_length; lia).
  pose proof (lenZ_nonneg (m_sid m)). pose proof (lenZ_nonneg (m_extra m)).
  assert (Henc' : encoding_of m = m_enc m) by (unfold encoding_of; destruct (Z.ltb_spec (m_enc m) 0); [lia|apply uwrap_id; unfold in_u; lia]).
  (* the original *)
  unfold unpack_data in U. unfold MINRECLEN, MAXRECLEN in U.
  replace (m_cnt m <=? 0) with false in U by lia. replace (m_reclen m <? 0) with false in U by lia.
  destruct ((m_reclen m <? 40) || (10485760 <? m_reclen m)) eqn:Er; [discriminate|].
  replace (2 ^ 31 - 1 <? m_cnt m) with false in U by lia. rewrite Eb in U. cbn [bind] in U.
  destruct ((off <? 40) || (m_reclen m <=? off)) eqn:Eo; [discriminate|].
  replace (m_enc m <? 0) with false in U by lia. rewrite (uwrap_id 8 (m_enc m)) in U by (unfold in_u; lia).
  pose proof (sizetype_known (m_enc m)) as Hk. destruct (encoding_sizetype (m_enc m)) as [[ss ty]|] eqn:Es; [|discriminate]. destruct Hk as (Hk & Ess).
  destruct (get_input ((addr + off) mod ss =? 0) rec off size) as (i2 & Ei & Li); [lia..|]. rewrite Ei in U. cbn [bind] in U.
  assert (I2 : firstn (Z.to_nat size) i2 = p).
  { unfold p. destruct ((addr + off) mod ss =? 0).
    - rewrite sliceZ_ok in Ei by (fold (lenZ rec); lia). injection Ei as <-. rewrite firstn_firstn. f_equal. fold (lenZ rec). lia.
    - rewrite sliceZ_ok in Ei by lia. injection Ei as <-. rewrite firstn_firstn. f_equal. lia. }
  assert (Li2 : size <= lenZ i2) by (destruct ((addr + off) mod ss =? 0); lia).
  (* the new record *)
  assert (N : exists size', data_bounds false (hd ++ p) (repacked recip m size c None) = Ok (hdrlen m, size') /\ 0 <= size' <= size /\
     (forall w, sample_bytes (m_enc m) = Some w -> m_cnt m * w <= size') /\ (is_steim (m_enc m) = true -> trimmed_to p size size')).
  { destruct (is_steim (m_enc m)) eqn:St.
    - destruct (T eq_refl) as (size' & E' & T'). exists size'. split; [exact E'|]. split; [unfold trimmed_to in T'; lia|]. split; [|auto].
      intros w Ew. exfalso. unfold is_steim in St. assert (m_enc m = 10 \/ m_enc m = 11) as [X|X] by lia; rewrite X in Ew; discriminate.
    - destruct (bounds_kept false (hd ++ p) (repacked recip m size c None) (hdrlen m) size) as (size' & E' & B' & K').
      + rewrite lenZ_app. unfold repacked. cbn [m_reclen]. lia.
      + unfold repacked. cbn [m_reclen]. lia.
      + left. unfold repacked, hdrlen. cbn. auto.
      + unfold hdrlen. lia.
      + lia.
      + unfold repacked. cbn [m_reclen]. lia.
      + unfold repacked. cbn [m_cnt]. lia.
      + exists size'. split; [exact E'|]. split; [exact B'|]. split; [|discriminate].
        intros w Ew. unfold kept, holds_samples in *. unfold repacked in K'. cbn [m_enc m_cnt] in K'. rewrite Henc', Ew in K'. rewrite Ew in Hkept, Hh.
        assert (Hw : 1 <= w <= 8) by (clear - Ew; unfold sample_bytes in Ew; repeat match type of Ew with context [match ?x with _ => _ end] => destruct x end; try discriminate; injection Ew as <-; lia).
        assert (0 <= m_cnt m * w) by nia.
        destruct (sized (m_enc m)); cbn [andb] in *; [|lia]. destruct Hh as (Hh1 & Hh2). specialize (Hh2 eq_refl).
        destruct (Z.ltb_spec (m_cnt m * w) ext).
        * rewrite Z.mod_small in Hkept by lia. destruct (Z.ltb_spec (m_cnt m * w) size); lia.
        * destruct (Z.ltb_spec (m_cnt m * w) size); [|lia]. lia. }
  destruct N as (size' & Eb' & Hs' & Hw' & Ht').
  (* unpacking it *)
  assert (Hposs : 1 <= m_cnt m) by lia.
  assert (Hsize : 0 < size).
  { destruct (is_steim (m_enc m)) eqn:St.
    - destruct (Z.le_gt_cases size 0); [|lia]. exfalso. assert (Z0 : size = 0) by lia. rewrite Z0 in U.
      clear - U St Hposs. unfold decode_data in U. cbv zeta in U. replace (m_cnt m =? 0) with false in U by lia.
      match type of U with (if ?c then _ else _) = _ => destruct c; [discriminate U|] end.
      unfold is_steim in St. assert (m_enc m = 10 \/ m_enc m = 11) as [X|X] by lia; rewrite X in U; cbn [Z.eqb Pos.eqb] in U;
      unfold decode_steim1, decode_steim2, steim_decode in U; change (Z.to_nat (0 / 64)) with O in U; cbn [bind samples_len length] in U;
      replace (Z.of_nat 0 =? m_cnt m) with false in U by lia; discriminate U.
    - assert (Hsb : exists w, sample_bytes (m_enc m) = Some w /\ 1 <= w).
      { clear - Hk St. unfold known in Hk. unfold is_steim in St. cbn [In] in Hk. 
        repeat (destruct Hk as [Hk|Hk]; [first [rewrite <- Hk in St; discriminate St|rewrite <- Hk; eexists; split; [reflexivity|lia]]|]). destruct Hk. }
      destruct Hsb as (w & Ew & Hw1). specialize (Hw' w Ew). nia. }
  unfold unpack_data, MINRECLEN, MAXRECLEN. rewrite Eb'. unfold repacked. cbn [m_cnt m_reclen m_enc m_swapp].
  replace (m_cnt m <=? 0) with false by lia. replace (hdrlen m + size <? 0) with false by (unfold hdrlen; lia).
  replace ((hdrlen m + size <? 40) || (10485760 <? hdrlen m + size)) with false by (unfold hdrlen in *; lia).
  replace (2 ^ 31 - 1 <? m_cnt m) with false by lia. cbn [bind].
  replace ((hdrlen m <? 40) || (hdrlen m + size <=? hdrlen m)) with false by (unfold hdrlen in *; lia).
  rewrite Henc'. replace (m_enc m <? 0) with false by lia. rewrite (uwrap_id 8 (m_enc m)) by (unfold in_u; lia). rewrite Es.
  destruct (get_input ((addr' + hdrlen m) mod ss =? 0) (hd ++ p) (hdrlen m) size') as (i1 & Ei1 & Li1); [rewrite lenZ_app; unfold hdrlen in *; lia|lia|rewrite lenZ_app; lia|].
  rewrite Ei1. cbn [bind].
  assert (Sk : skipn (Z.to_nat (hdrlen m)) (hd ++ p) = p) by (apply skipn_app_exact; unfold lenZ in *; lia).
  assert (I1 : firstn (Z.to_nat size') i1 = firstn (Z.to_nat size') p).
  { destruct ((addr' + hdrlen m) mod ss =? 0).
    - rewrite sliceZ_ok in Ei1 by (fold (lenZ (hd ++ p)); rewrite ?lenZ_app; unfold hdrlen in *; lia). injection Ei1 as <-. rewrite Sk, firstn_firstn. f_equal.
      fold (lenZ (hd ++ p)). rewrite lenZ_app. lia.
    - rewrite sliceZ_ok in Ei1 by (rewrite ?lenZ_app; unfold hdrlen in *; lia). injection Ei1 as <-. rewrite Sk, firstn_firstn. f_equal. lia. }
  assert (Li1' : size' <= lenZ i1) by (destruct ((addr' + hdrlen m) mod ss =? 0); rewrite ?lenZ_app in Li1; lia).
  assert (I12 : firstn (Z.to_nat size') i1 = firstn (Z.to_nat size') i2).
  { rewrite I1, <- I2, firstn_firstn. f_equal. lia. }
  rewrite <- U. symmetry. destruct (is_steim (m_enc m)) eqn:St.
  - assert (Esw : m_swapp m = true) by (destruct Hord as [X|X]; [rewrite X in St; discriminate|congruence]). rewrite Esw.
    specialize (Ht' eq_refl). destruct (Z.le_gt_cases 64 size') as [H64|H64].
    + symmetry. apply (decode_agree_steim false true mode i1 i2 size' size (m_enc m) (m_cnt m) (m_cnt m * ss) (Z.to_nat (size' / 64)) (Z.to_nat (size / 64 - size' / 64)) St).
      * lia.
      * lia.
      * lia.
      * apply (f_equal (firstn (64 * Z.to_nat (size' / 64)))) in I12. rewrite !firstn_firstn in I12.
        replace (Nat.min (64 * Z.to_nat (size' / 64)) (Z.to_nat size')) with (64 * Z.to_nat (size' / 64))%nat in I12 by lia. exact I12.
      * unfold lenZ in *. lia.
      * intros k j Hk1 Hj. destruct Ht' as [Ht'|(_ & Mm & Ms & Z0)]; [lia|].
        replace (nth (64 * k + j) i2 0) with (nth (64 * k + j) p 0); [apply Z0; lia|]. rewrite <- I2. apply nth_firstn_lt. lia.
    + destruct Ht' as [-> |Ht']; [|lia].
      unfold decode_data. destruct (m_cnt m =? 0); [reflexivity|].
      match goal with |- (if ?c then _ else _) = _ => destruct c; [reflexivity|] end.
      unfold is_steim in St. assert (m_enc m = 10 \/ m_enc m = 11) as [X|X] by lia; rewrite X; cbn [Z.eqb Pos.eqb]; unfold decode_steim1, decode_steim2, steim_decode;
      replace (size / 64) with 0 by lia; reflexivity.
  - assert (Hsb : exists w, sample_bytes (m_enc m) = Some w).
    { clear - Hk St. unfold known in Hk. unfold is_steim in St. cbn [In] in Hk. 
      repeat (destruct Hk as [Hk|Hk]; [first [rewrite <- Hk in St; discriminate St|rewrite <- Hk; eexists; reflexivity]|]). destruct Hk. }
    destruct Hsb as (w & Ew). specialize (Hw' w Ew).
    symmetry. apply (decode_agree false false (m_swapp m) mode i1 i2 size' size (m_enc m) (m_cnt m) (m_cnt m * ss) w Ew).
    + lia.
    + destruct Hord as [X|X]; [now left|right; congruence].
    + apply (f_equal (firstn (Z.to_nat (m_cnt m * w)))) in I12. rewrite !firstn_firstn in I12.
      replace (Nat.min (Z.to_nat (m_cnt m * w)) (Z.to_nat size')) with (Z.to_nat (m_cnt m * w)) in I12 by lia. exact I12.
    + lia.
    + lia.
Qed.

(** ** Parsing the new record *)

Definition new_crc (recip : Z -> Z) (m : msr) (p : list Z) : Z :=
  crc3 (out_hdr recip m (encoding_of m) (fields_at (m_start m)) (m_cnt m) 0 p).

Lemma new_parse u mode addr recip m p flags tail : repackable recip m -> bytes_ok p -> hdrlen m + lenZ p <= 10485760 -> bytes_ok tail ->
  let c := new_crc recip m p in
  exists hd, lenZ hd = hdrlen m /\ nth 0 hd 0 = 77 /\ skipn 40 hd = m_sid m ++ m_extra m /\
  layout3 (out_rec recip m (encoding_of m) (fields_at (m_start m)) (m_cnt m) p) = hd ++ p /\
  parse u false mode addr flags (layout3 (out_rec recip m (encoding_of m) (fields_at (m_start m)) (m_cnt m) p) ++ tail) =
  (if has_flag flags 1 && (0 <? m_cnt m) then
     let! d := unpack_data false mode addr (hd ++ p) (repacked recip m (lenZ p) c None) in
     Ok (PRec (repacked recip m (lenZ p) c (Some d)))
   else Ok (PRec (repacked recip m (lenZ p) c None))).
Proof.
  intros (M & Hs & Ns & (T1 & T2 & T3) & Hc & Hrl) Bp Hcap Bt c. unfold hdrlen in *. set (t := m_start m) in *.
  set (enc := encoding_of m). assert (Henc : in_u 8 enc) by (unfold enc, encoding_of; apply uwrap_range; lia).
  assert (H0 : hdr_ok (out_hdr recip m enc (fields_at t) (m_cnt m) 0 p)) by (apply out_hdr_ok; auto; try (unfold in_u; lia); lia).
  pose proof (crc3_range _ H0) as Cr.
  unfold new_crc in c. fold enc in c. change (crc3 (out_hdr recip m enc (fields_at t) (m_cnt m) 0 p)) with c in Cr.
  assert (H1 : hdr_ok (out_hdr recip m enc (fields_at t) (m_cnt m) c p)) by (rewrite <- (out_with_crc recip m enc (fields_at t) (m_cnt m) 0 c p); now apply with_crc_ok).
  assert (Ec : crc3 (out_hdr recip m enc (fields_at t) (m_cnt m) c p) = c).
  { unfold crc3. rewrite out_with_crc. subst c. unfold crc3. now rewrite out_with_crc. }
  unfold out_rec. rewrite out_with_crc. change (crc3 (out_hdr recip m enc (fields_at t) (m_cnt m) 0 p)) with c. clearbody c.
  pose proof (out_layout recip m enc (fields_at t) (m_cnt m) c p) as Lay.
  set (h := out_hdr recip m enc (fields_at t) (m_cnt m) c p) in *.
  destruct (epoch_cal_epoch mode t T1 T2) as (y & d & ho & mi & s & ns & Ef & _ & _ & Et).
  assert (F : h = mk_hdr (m_flags m) ns y d ho mi s enc (rate_of recip m) (m_cnt m) c (m_pub m) (m_sid m) (m_extra m) p)
    by (subst h; unfold fields_at; rewrite Ef; reflexivity).
  exists (fixed3 h ++ m_sid m ++ m_extra m).
  assert (L40 : lenZ (fixed3 h) = 40) by (unfold lenZ; now rewrite fixed3_len).
  split; [rewrite !lenZ_app; lia|]. split; [reflexivity|]. split; [apply skipn_app_exact; exact (fixed3_len h)|].
  assert (Lay' : layout3 h = (fixed3 h ++ m_sid m ++ m_extra m) ++ p) by (rewrite Lay, <- !app_assoc; reflexivity).
  split; [exact Lay'|]. rewrite parse_complete by auto. rewrite unpack3_eq by auto.
  assert (Rec : forall dd, rec_of false t h dd = repacked recip m (lenZ p) c dd).
  { intros dd. unfold rec_of, repacked. rewrite layout3_len, F. cbn [h_flags h_rate h_enc h_pub h_cnt h_crc h_extra h_payload h_sid].
    rewrite until0_id by exact Ns. fold t. unfold hdrlen, is_steim. fold enc.
    destruct ((enc =? 10) || (enc =? 11)); reflexivity. }
  replace (64 <=? lenZ (h_sid h)) with false by (rewrite F; cbn [h_sid]; lia).
  replace (h_crc h =? crc3 h) with true by (rewrite Ec, F; cbn [h_crc]; lia). cbn [negb]. rewrite andb_false_r.
  replace (time2nstime mode (h_year h) (h_day h) (h_hour h) (h_min h) (h_sec h) (h_nsec h)) with (Ok t : res Z) by (rewrite F; symmetry; exact Et).
  cbn [bind]. unfold finish3. replace (t =? NSTERROR) with false by lia. replace (h_cnt h) with (m_cnt m) by (rewrite F; reflexivity).
  rewrite !Rec, Lay'. destruct (has_flag flags 1 && (0 <? m_cnt m)); [|reflexivity].
  destruct (unpack_data false mode addr ((fixed3 h ++ m_sid m ++ m_extra m) ++ p) (repacked recip m (lenZ p) c None)); cbn [bind]; [|reflexivity..].
  rewrite Rec. reflexivity.
Qed.

(** ** The statements *)

Lemma repack_record recip hb addr rec m buf off ext : repackable recip m -> bytes_ok rec -> bytes_ok buf -> 0 <= addr < 4 ->
  lenZ rec = m_reclen m -> payload_at hb rec m off ext -> 0 <= off -> 0 <= ext -> off + ext <= m_reclen m ->
  hdrlen m + ext <= 10485760 -> hdrlen m + ext <= lenZ buf ->
  exists size buf' c, repack3 recip hb addr rec m buf = Ok (buf', hdrlen m + size) /\
    0 <= size <= ext /\ kept (m_enc m) (m_cnt m) ext size /\ lenZ buf' = lenZ buf /\
    skipn (Z.to_nat (hdrlen m + size)) buf' = skipn (Z.to_nat (hdrlen m + size)) buf /\
    firstn (Z.to_nat size) (skipn (Z.to_nat (hdrlen m)) buf') = firstn (Z.to_nat size) (skipn (Z.to_nat off) rec) /\
    forall u mode a, parse u false mode a 4 buf' = Ok (PRec (repacked recip m size c None)).
Proof.
  intros R Br Bb Ha Hr Hp Ho He Hf Hmax Hbuf. pose proof R as (M & Hs & Ns & (T1 & T2 & T3) & Hc & Hrl).
  destruct (bounds_kept hb rec m off ext) as (size & Eb & Hsz & K); try assumption; try lia.
  set (p := firstn (Z.to_nat size) (skipn (Z.to_nat off) rec)).
  assert (Lp : lenZ p = size) by (unfold p, lenZ in *; rewrite firstn_length, skipn_length; lia).
  assert (Bp : bytes_ok p) by (unfold p; apply Forall_firstn, Forall_skipn; exact Br).
  pose proof (repack3_eq recip hb addr rec m buf off size) as E. unfold maxlen in E.
  replace (m_reclen m <? 0) with false in E by lia.
  specialize (E M Hrl T1 ltac:(lia) Br Bb Ha Eb Ho ltac:(lia) ltac:(lia) ltac:(lia) ltac:(lia)). fold p in E.
  set (tail := skipn (Z.to_nat (hdrlen m + size)) buf) in *.
  assert (Bt : bytes_ok tail) by (apply Forall_skipn; exact Bb).
  destruct (new_parse (fun _ _ => Err 0) Strict 0 recip m p 4 tail R Bp ltac:(lia) Bt) as (hd & Lhd & _ & _ & Lay & _).
  assert (0 <= hdrlen m) by (pose proof (lenZ_nonneg (m_sid m)); pose proof (lenZ_nonneg (m_extra m)); unfold hdrlen; lia).
  exists size. eexists. exists (new_crc recip m p). split; [exact E|]. split; [exact Hsz|]. split; [exact K|].
  assert (LL : lenZ (layout3 (out_rec recip m (encoding_of m) (fields_at (m_start m)) (m_cnt m) p)) = hdrlen m + size) by (rewrite Lay, lenZ_app; lia).
  split; [rewrite lenZ_app, LL; unfold tail, lenZ in *; rewrite skipn_length; lia|].
  split; [apply skipn_app_exact; unfold lenZ in LL; lia|].
  split. { fold p. clearbody p. rewrite Lay, <- app_assoc. rewrite skipn_app_exact by (unfold lenZ in *; lia). apply firstn_app_exact. unfold lenZ in Lp. lia. }
  intros u mode a. destruct (new_parse u mode a recip m p 4 tail R Bp ltac:(lia) Bt) as (hd2 & Lhd2 & _ & _ & Lay2 & P).
  rewrite P. change (has_flag 4 1) with false. cbn [andb]. now rewrite Lp.
Qed.




Lemma new_bounds recip m hd p c : repackable recip m -> 0 <= m_enc m < 256 -> is_steim (m_enc m) = true ->
  data_bounds false (hd ++ p) (repacked recip m (lenZ p) c None) =
  if lenZ p mod 64 =? 0 then let! s := trim_frames (S (length (hd ++ p))) (hd ++ p) (lenZ p) in Ok (hdrlen m, s)
  else Ok (hdrlen m, lenZ p).
Proof.
  intros (M & Hs & _) He St. unfold data_bounds, repacked. cbn [m_fver m_sid m_extra m_datalen m_enc m_cnt]. change (3 =? 3) with true. cbn [bind].
  assert (Henc' : encoding_of m = m_enc m) by (unfold encoding_of; destruct (Z.ltb_spec (m_enc m) 0); [lia|apply uwrap_id; unfold in_u; lia]).
  rewrite Henc', St, andb_true_r. fold (lenZ (m_sid m)) (lenZ (m_extra m)).
  pose proof (lenZ_nonneg (m_sid m)). pose proof (lenZ_nonneg (m_extra m)). assert (lenZ (m_extra m) < 65536) by (unfold msr_ok in M; tauto).
  rewrite (uwrap_id 32) by (unfold in_u; lia).
  replace (fixed_bytes (m_enc m)) with (@None Z); [reflexivity|].
  unfold is_steim in St. assert (m_enc m = 10 \/ m_enc m = 11) as [X|X] by lia; rewrite X; reflexivity.
Qed.

Lemma repack_samples recip mode addr ar rec m buf off ext s : repackable recip m -> bytes_ok rec -> bytes_ok buf -> 0 <= ar < 4 ->
  lenZ rec = m_reclen m -> payload_at false rec m off ext -> 0 <= off -> 0 <= ext -> off + ext <= m_reclen m ->
  hdrlen m + ext <= 10485760 -> hdrlen m + ext <= lenZ buf -> 1 <= m_cnt m -> 0 <= m_enc m < 256 ->
  holds_samples m ext -> version3_order m -> Forall (fun b => b <> 0) (m_extra m) ->
  (is_steim (m_enc m) = true -> frames_then_padding (firstn (Z.to_nat ext) (skipn (Z.to_nat off) rec))) ->
  unpack_data false mode addr rec m = Ok s ->
  exists size buf' c, repack3 recip false ar rec m buf = Ok (buf', hdrlen m + size) /\ 0 <= size <= ext /\
    forall u a, parse u false mode a 5 buf' = Ok (PRec (repacked recip m size c (Some s))).
Proof.
  intros R Br Bb Ha Hr Hp Ho He Hf Hmax Hbuf Hc1 Henc Hh Hord Nx Hfr U. pose proof R as (M & Hs & Ns & (T1 & T2 & T3) & Hc & Hrl).
  destruct (bounds_kept false rec m off ext) as (size & Eb & Hsz & K); try assumption; try lia.
  set (p := firstn (Z.to_nat size) (skipn (Z.to_nat off) rec)).
  assert (Lp : lenZ p = size) by (unfold p, lenZ in *; rewrite firstn_length, skipn_length; lia).
  assert (Bp : bytes_ok p) by (unfold p; apply Forall_firstn, Forall_skipn; exact Br).
  pose proof (repack3_eq recip false ar rec m buf off size) as E. unfold maxlen in E.
  replace (m_reclen m <? 0) with false in E by lia.
  specialize (E M Hrl T1 ltac:(lia) Br Bb Ha Eb Ho ltac:(lia) ltac:(lia) ltac:(lia) ltac:(lia)). fold p in E.
  set (tail := skipn (Z.to_nat (hdrlen m + size)) buf) in *.
  assert (Bt : bytes_ok tail) by (apply Forall_skipn; exact Bb).
  exists size. eexists. exists (new_crc recip m p). split; [exact E|]. split; [exact Hsz|]. intros u a.
  destruct (new_parse u mode a recip m p 5 tail R Bp ltac:(lia) Bt) as (hd & Lhd & H0 & Hsk & Lay & P).
  rewrite P. change (has_flag 5 1) with true. replace (0 <? m_cnt m) with true by lia. cbn [andb].
  rewrite Lp. assert (UN : unpack_data false mode a (hd ++ p) (repacked recip m size (new_crc recip m p) None) = Ok s); [|rewrite UN; reflexivity].
  apply (unpack_new recip mode addr a rec m off ext size hd (new_crc recip m p) s); try assumption; try lia.
  intros St. fold p. rewrite <- Lp. rewrite new_bounds by assumption. destruct (Z.eqb_spec (lenZ p mod 64) 0) as [M64|M64].
  2:{ eexists. split; [reflexivity|]. left. reflexivity. }
  destruct (Hfr St) as (g & Hg & Hu & Hz).
  assert (Np : forall i, (i < length p)%nat -> nth i p 0 = nth i (firstn (Z.to_nat ext) (skipn (Z.to_nat off) rec)) 0).
  { intros i Hi. unfold lenZ in Lp. unfold p. rewrite !nth_firstn_lt by lia. reflexivity. }
  destruct (Z.eq_dec (lenZ p) 0) as [Z0|Nz].
  { rewrite Z0. cbn [trim_frames]. change (0 <? 0) with false. cbn [bind]. eexists. split; [reflexivity|]. left. reflexivity. }
  assert (Hlp : (length p mod 64 = 0)%nat) by (unfold lenZ in M64; lia).
  pose (g' := Nat.min g (length p / 64)).
  assert (Hg' : (1 <= g' <= length p / 64)%nat) by (unfold g', lenZ in *; lia).
  assert (X : exists i, 64 * Z.of_nat g' - 64 <= Z.of_nat i < 64 * Z.of_nat g' /\ nth i (hd ++ p) 0 <> 0).
  { apply window_used.
    - unfold lenZ, hdrlen in Lhd. fold (lenZ (m_sid m)) (lenZ (m_extra m)) in Lhd. pose proof (lenZ_nonneg (m_sid m)). pose proof (lenZ_nonneg (m_extra m)). lia.
    - rewrite H0. discriminate.
    - rewrite Hsk. apply Forall_app. split; assumption.
    - lia.
    - intros k Hk. rewrite Np by lia. apply Hu. lia. }
  destruct (trim_down (hd ++ p) g' ltac:(lia) X (length p / 64 - g') (S (length (hd ++ p)))) as (s' & Es & Bs).
  { rewrite lenZ_app. pose proof (lenZ_nonneg hd). unfold lenZ in *. lia. }
  { rewrite app_length. lia. }
  replace (64 * Z.of_nat (g' + (length p / 64 - g'))) with (lenZ p) in * by (unfold lenZ; lia).
  rewrite Es. cbn [bind]. exists s'. split; [reflexivity|]. pose proof (trim_mod _ _ _ _ M64 Es).
  right. split; [lia|]. split; [lia|]. split; [lia|]. intros k j Hk Hj.
  destruct (le_lt_dec (length p) (64 * k + j)); [now apply nth_overflow|]. rewrite Np by lia. apply Hz; [|lia]. unfold g' in *. lia.
Qed.

Lemma repack_samples3 recip mode addr ar h start buf s : let m := rec_of false start h None in
  hdr_ok h -> repackable recip m -> Forall (fun b => b <> 0) (h_sid h) -> bytes_ok buf -> 0 <= ar < 4 ->
  lenZ (layout3 h) <= lenZ buf -> 1 <= h_cnt h -> holds_samples m (lenZ (h_payload h)) ->
  unpack_data false mode addr (layout3 h) m = Ok s ->
  exists size buf' c, repack3 recip false ar (layout3 h) m buf = Ok (buf', hdrlen m + size) /\ 0 <= size <= lenZ (h_payload h) /\
    forall u a, parse u false mode a 5 buf' = Ok (PRec (repacked recip m size c (Some s))).
Proof.
  intros m H R Nsid Bb Ha Hbuf Hc1 Hh U. pose proof R as (M & Hs & Ns & (T1 & T2 & T3) & Hc & Hrl).
  pose proof (layout3_len h) as L.
  assert (Esid : m_sid m = h_sid h) by (unfold m, rec_of; cbn [m_sid]; now apply until0_id).
  set (rec := layout3 h) in *. set (ext := lenZ (h_payload h)) in *. set (off := hdrlen m).
  assert (Eoff : off = 40 + lenZ (h_sid h) + lenZ (h_extra h)) by (unfold off, hdrlen; rewrite Esid; reflexivity).
  pose proof (lenZ_nonneg (h_sid h)). pose proof (lenZ_nonneg (h_extra h)). assert (Hext : 0 <= ext) by apply lenZ_nonneg.
  assert (Br : bytes_ok rec) by now apply layout3_ok.
  assert (Hlay : lenZ rec <= 10485760) by (unfold hdr_ok in H; tauto).
  assert (Hr : lenZ rec = m_reclen m) by reflexivity.
  assert (Hp : payload_at false rec m off ext) by (left; repeat split; reflexivity).
  assert (Henc : 0 <= m_enc m < 256) by (unfold m, rec_of; cbn [m_enc]; unfold hdr_ok, in_u in H; tauto).
  assert (Hord : version3_order m).
  { right. unfold m, rec_of, is_steim. cbn [m_swapp m_enc]. destruct ((h_enc h =? 10) || (h_enc h =? 11)); reflexivity. }
  change (h_cnt h) with (m_cnt m) in Hc1.
  destruct (bounds_kept false rec m off ext) as (size & Eb & Hsz & K); try assumption; try lia.
  set (p := firstn (Z.to_nat size) (skipn (Z.to_nat off) rec)).
  assert (Lp : lenZ p = size) by (unfold p, lenZ in *; rewrite firstn_length, skipn_length; lia).
  assert (Bp : bytes_ok p) by (unfold p; apply Forall_firstn, Forall_skipn; exact Br).
  pose proof (repack3_eq recip false ar rec m buf off size) as E. unfold maxlen in E.
  replace (m_reclen m <? 0) with false in E by lia. fold off in E.
  specialize (E M Hrl T1 ltac:(lia) Br Bb Ha Eb ltac:(lia) ltac:(lia) ltac:(lia) ltac:(lia) ltac:(lia)). fold p in E.
  set (tail := skipn (Z.to_nat (off + size)) buf) in *.
  assert (Bt : bytes_ok tail) by (apply Forall_skipn; exact Bb).
  exists size. eexists. exists (new_crc recip m p). split; [exact E|]. split; [exact Hsz|]. intros u a.
  destruct (new_parse u mode a recip m p 5 tail R Bp ltac:(fold off; lia) Bt) as (hd & Lhd & H77 & Hsk & Lay & P).
  rewrite P. change (has_flag 5 1) with true. replace (0 <? m_cnt m) with true by lia. cbn [andb].
  rewrite Lp. assert (UN : unpack_data false mode a (hd ++ p) (repacked recip m size (new_crc recip m p) None) = Ok s); [|rewrite UN; reflexivity].
  apply (unpack_new recip mode addr a rec m off ext size hd (new_crc recip m p) s); try assumption; try lia.
  intros St. fold p. rewrite <- Lp. rewrite new_bounds by assumption. destruct (Z.eqb_spec (lenZ p mod 64) 0) as [M64|M64].
  2:{ eexists. split; [reflexivity|]. left. reflexivity. }
  destruct (Z.eq_dec (lenZ p) 0) as [Z0|Nz].
  { rewrite Z0. cbn [trim_frames]. change (0 <? 0) with false. cbn [bind]. eexists. split; [reflexivity|]. left. reflexivity. }
  (* the original was trimmed to the same size, so the same bytes stop the trimming *)
  assert (W : exists i, size - 64 <= Z.of_nat i < size /\ nth i rec 0 <> 0).
  { unfold data_bounds in Eb. change (m_fver m =? 3) with true in Eb. cbn [bind] in Eb.
    replace (fixed_bytes (m_enc m)) with (@None Z) in Eb.
    2:{ unfold is_steim in St. assert (m_enc m = 10 \/ m_enc m = 11) as [X|X] by lia; rewrite X; reflexivity. }
    change (m_datalen m) with ext in Eb. rewrite St, andb_true_r in Eb.
    unfold kept in K. assert (Sb : sample_bytes (m_enc m) = None) by (unfold is_steim in St; assert (m_enc m = 10 \/ m_enc m = 11) as [X|X] by lia; rewrite X; reflexivity).
    rewrite Sb, St in K. replace (ext mod 64 =? 0) with true in Eb by lia.
    destruct (trim_frames (S (length rec)) rec ext) as [s'| | |] eqn:Et; cbn [bind] in Eb; try discriminate Eb. assert (s' = size) by congruence. subst s'.
    destruct (trim_stopped _ rec ext size ltac:(lia) ltac:(lia) Et) as [Q|(Q & W)]; [lia|exact W]. }
  destruct W as (i & Hi & Ni). rewrite trim_stay; [cbn [bind]; eexists; split; [reflexivity|left; reflexivity]| |].
  - rewrite lenZ_app. pose proof (lenZ_nonneg hd). lia.
  - rewrite Lp. destruct (Z.le_gt_cases size 64) as [S64|S64].
    + exists 0%nat. split; [lia|]. rewrite app_nth1 by (fold off in Lhd; unfold lenZ in Lhd, Eoff; lia). rewrite H77. discriminate.
    + exists i. split; [exact Hi|]. replace (nth i (hd ++ p) 0) with (nth i rec 0); [exact Ni|].
      assert (Hs40 : skipn 40 (hd ++ p) = m_sid m ++ m_extra m ++ p).
      { rewrite skipn_app. fold off in Lhd. replace (40 - length hd)%nat with 0%nat by (unfold lenZ in Lhd, Eoff; lia). rewrite Hsk, skipn_O, <- app_assoc. reflexivity. }
      assert (Hr40 : skipn 40 rec = h_sid h ++ h_extra h ++ h_payload h) by (unfold rec, layout3; apply skipn_app_exact; exact (fixed3_len h)).
      replace i with (40 + (i - 40))%nat by lia. rewrite <- !nth_skipn_add, Hs40, Hr40, Esid. change (m_extra m) with (h_extra h).
      assert (Pp : p = firstn (Z.to_nat size) (h_payload h)).
      { unfold p. f_equal. unfold rec, layout3. rewrite !app_assoc. apply skipn_app_exact. rewrite !app_length, fixed3_len. unfold lenZ in Eoff. lia. }
      rewrite Pp. rewrite !app_assoc. set (q := h_sid h ++ h_extra h).
      destruct (le_lt_dec (length q) (i - 40)) as [G|G].
      * rewrite !app_nth2 by assumption. symmetry. apply nth_firstn_lt. lia.
      * now rewrite !app_nth1 by assumption.
Qed.

Lemma repack_room recip hb addr rec m buf off ext : repackable recip m -> bytes_ok rec -> bytes_ok buf -> 0 <= addr < 4 ->
  lenZ rec = m_reclen m -> payload_at hb rec m off ext -> 0 <= off -> 0 <= ext -> off + ext <= m_reclen m ->
  exists size, 0 <= size <= ext /\ kept (m_enc m) (m_cnt m) ext size /\
    (lenZ buf < hdrlen m \/ lenZ buf < 40 + lenZ (m_extra m) + size -> repack3 recip hb addr rec m buf = Err (-1)) /\
    (hdrlen m <= lenZ buf -> 40 + lenZ (m_extra m) + size <= lenZ buf < hdrlen m + size -> repack3 recip hb addr rec m buf = UB OOBWrite).
Proof.
  intros R Br Bb Ha Hr Hp Ho He Hf. pose proof R as (M & Hs & Ns & (T1 & T2 & T3) & Hc & Hrl).
  destruct (bounds_kept hb rec m off ext) as (size & Eb & Hsz & K); try assumption; try lia.
  exists size. split; [exact Hsz|]. split; [exact K|].
  pose proof (lenZ_nonneg (m_sid m)). pose proof (lenZ_nonneg (m_extra m)). unfold hdrlen.
  assert (lenZ (m_extra m) < 65536) by (unfold msr_ok in M; tauto).
  set (p := firstn (Z.to_nat size) (skipn (Z.to_nat off) rec)).
  assert (Lp : lenZ p = size) by (unfold p, lenZ in *; rewrite firstn_length, skipn_length; lia).
  unfold repack3. fold (lenZ buf) (lenZ (m_sid m)) (lenZ (m_extra m)).
  destruct (Z.ltb_spec (lenZ buf) (40 + lenZ (m_sid m) + lenZ (m_extra m))); [split; [reflexivity|lia]|].
  replace (2 ^ 32 - 1 <? m_cnt m) with false by lia.
  set (B := firstn 40 buf). set (J := skipn 40 buf).
  assert (LB : length B = 40%nat) by (unfold B; rewrite firstn_length; unfold lenZ in *; lia).
  assert (LJ : lenZ J = lenZ buf - 40) by (unfold J, lenZ in *; rewrite skipn_length; lia).
  assert (Hml : 40 <= maxlen m <= 10485760) by (unfold maxlen; destruct (Z.ltb_spec (m_reclen m) 0); lia).
  pose proof (header3_ok recip hb m B J (fields_at (m_start m)) LB Hml ltac:(lia) ltac:(lia) (fields_at_ok _ T1)) as H3.
  replace (B ++ J) with buf in H3 by (symmetry; apply firstn_skipn). rewrite H3, Eb. clear H3.
  rewrite (uwrap_id 32 (40 + lenZ (m_extra m) + size)) by (unfold in_u; lia).
  destruct (Z.ltb_spec (lenZ buf) (40 + lenZ (m_extra m) + size)); [split; [reflexivity|lia]|]. split; [lia|]. intros _ Hb.
  rewrite sliceZ_ok by lia. fold p. cbn [bind].
  set (F := raw3 _ _ _ _ _ _ _ _ _ _).
  assert (L4 : forall a b, (a + b <= 40)%nat -> length (firstn b (skipn a B)) = b) by (intros; rewrite firstn_length, skipn_length; lia).
  assert (LF : length F = 40%nat) by (apply raw3_len; apply L4; lia).
  unfold put. fold (lenZ p). clearbody p.
  match goal with |- context [if ?c then _ else UB OOBWrite] => replace c with false; [reflexivity|] end.
  rewrite !app_length, LF, skipn_length. unfold lenZ in *. lia.
Qed.
