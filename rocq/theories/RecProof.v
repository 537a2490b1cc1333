(** * Proofs about version 3 records. *)

From Verif Require Import Base BaseLemmas SteimModel SteimProof CrcModel CrcSpec CrcProof TimeModel RecModel RecSpec.
Open Scope Z_scope.

Lemma sliceZ_ok {A} off n (l : list A) : 0 <= off -> 0 <= n -> off + n <= lenZ l ->
  sliceZ off n l = Ok (firstn (Z.to_nat n) (skipn (Z.to_nat off) l)).
Proof.
  intros H1 H2 H3. unfold sliceZ, lenZ in *.
  replace ((0 <=? off) && (0 <=? n) && (off + n <=? Z.of_nat (length l))) with true by lia. reflexivity.
Qed.

Lemma sliceZ_mid {A} off n (a b c : list A) : off = lenZ a -> n = lenZ b ->
  sliceZ off n (a ++ b ++ c) = Ok b.
Proof.
  intros -> ->. unfold lenZ in *. rewrite sliceZ_ok; unfold lenZ; rewrite ?app_length; try lia.
  rewrite !Nat2Z.id, skipn_app_exact by reflexivity. now rewrite firstn_app_exact.
Qed.

Lemma ld_le hb w : ld hb hb w = le_val w.
Proof. unfold ld, host_val, gswap_if, gswap, be_val. destruct hb; [now rewrite rev_involutive|reflexivity]. Qed.

Lemma st_le hb n v : st hb hb n v = le_bytes n v.
Proof. unfold st, host_bytes, gswap_if, gswap, be_bytes. destruct hb; [now rewrite rev_involutive|reflexivity]. Qed.

Lemma ld_byte hb b : ld hb false [b] = b.
Proof. unfold ld, host_val, be_val. destruct hb; cbn; lia. Qed.

Lemma rd_mid hb n off (a : list Z) v c : off = lenZ a -> 0 <= n ->
  rd hb hb n off (a ++ le_bytes (Z.to_nat n) v ++ c) = Ok (v mod 2 ^ (8 * n)).
Proof.
  intros H Hn. unfold rd. rewrite (sliceZ_mid off n) by (auto; unfold lenZ; rewrite le_bytes_length; lia).
  cbn [bind]. rewrite ld_le, le_val_le_bytes. do 3 f_equal. lia.
Qed.

Lemma lenZ_app {A} (a b : list A) : lenZ (a ++ b) = lenZ a + lenZ b.
Proof. unfold lenZ. rewrite app_length. lia. Qed.

Lemma lenZ_nonneg {A} (l : list A) : 0 <= lenZ l.
Proof. unfold lenZ. lia. Qed.

Lemma fixed3_len h : length (fixed3 h) = 40%nat.
Proof. reflexivity. Qed.

Lemma layout3_len h : lenZ (layout3 h) = 40 + lenZ (h_sid h) + lenZ (h_extra h) + lenZ (h_payload h).
Proof. unfold layout3. rewrite !lenZ_app. unfold lenZ at 1. rewrite fixed3_len. lia. Qed.

(** Every fixed field of a buffer that starts with the 40 bytes. *)
Section Fields.
  Variable hb : bool.
  Variable h : hdr.
  Variable R : list Z.
  Hypothesis Hok : hdr_ok h.
  Let buf := fixed3 h ++ R.

  Lemma f_valid3 : valid3 buf = Ok true.
  Proof.
    change (valid3 buf) with (if h_hour h <=? 23 then if h_min h <=? 59 then if h_sec h <=? 60
      then @Ok bool true else Ok false else Ok false else Ok false).
    replace (h_hour h <=? 23) with true by (unfold hdr_ok in Hok; lia).
    replace (h_min h <=? 59) with true by (unfold hdr_ok in Hok; lia).
    replace (h_sec h <=? 60) with true by (unfold hdr_ok in Hok; lia). reflexivity.
  Qed.

  Lemma buf_len : 40 <= lenZ buf.
  Proof. unfold buf. rewrite lenZ_app. unfold lenZ at 1. rewrite fixed3_len. pose proof (lenZ_nonneg R). lia. Qed.

  Lemma f_rd n off v : 0 <= off -> 0 <= n -> off + n <= 40 ->
    firstn (Z.to_nat n) (skipn (Z.to_nat off) (fixed3 h)) = le_bytes (Z.to_nat n) v ->
    0 <= v < 2 ^ (8 * n) -> rd hb hb n off buf = Ok v.
  Proof.
    intros H1 H2 H3 E Hv. unfold rd. pose proof buf_len.
    rewrite sliceZ_ok by lia. cbn [bind]. unfold buf.
    rewrite skipn_app, firstn_app, fixed3_len.
    replace (Z.to_nat n - length (skipn (Z.to_nat off) (fixed3 h)))%nat with 0%nat
      by (rewrite skipn_length, fixed3_len; lia).
    cbn [firstn]. rewrite app_nil_r, E, ld_le, le_val_le_bytes. f_equal. apply Z.mod_small.
    replace (8 * Z.of_nat (Z.to_nat n)) with (8 * n) by lia. exact Hv.
  Qed.

  Ltac fld := apply f_rd; [lia|lia|lia|reflexivity|unfold hdr_ok, in_u in Hok; try (cbn in Hok |- *); lia].
  Lemma f_nsec : rd hb hb 4 4 buf = Ok (h_nsec h). Proof. fld. Qed.
  Lemma f_year : rd hb hb 2 8 buf = Ok (h_year h). Proof. fld. Qed.
  Lemma f_day : rd hb hb 2 10 buf = Ok (h_day h). Proof. fld. Qed.
  Lemma f_rate : rd hb hb 8 16 buf = Ok (h_rate h). Proof. fld. Qed.
  Lemma f_cnt : rd hb hb 4 24 buf = Ok (h_cnt h). Proof. fld. Qed.
  Lemma f_crc : rd hb hb 4 28 buf = Ok (h_crc h). Proof. fld. Qed.
  Lemma f_extralen : rd hb hb 2 34 buf = Ok (lenZ (h_extra h)).
  Proof. apply f_rd; [lia|lia|lia|reflexivity|]. pose proof (lenZ_nonneg (h_extra h)). unfold hdr_ok in Hok. change (2 ^ (8 * 2)) with 65536. lia. Qed.
  Lemma payload_lt : lenZ (h_payload h) <= 10485720.
  Proof.
    unfold hdr_ok in Hok. rewrite layout3_len in Hok. pose proof (lenZ_nonneg (h_sid h)).
    pose proof (lenZ_nonneg (h_extra h)). lia.
  Qed.
  Lemma f_datalen : rd hb hb 4 36 buf = Ok (lenZ (h_payload h)).
  Proof.
    apply f_rd; [lia|lia|lia|reflexivity|]. pose proof (lenZ_nonneg (h_payload h)). pose proof payload_lt.
    change (2 ^ (8 * 4)) with 4294967296. lia.
  Qed.
  Lemma f_sidlen b : rd hb b 1 33 buf = Ok (lenZ (h_sid h)).
  Proof.
    unfold rd. pose proof buf_len. rewrite sliceZ_ok by lia. cbn [bind]. f_equal.
    change (firstn (Z.to_nat 1) (skipn (Z.to_nat 33) buf)) with [lenZ (h_sid h)].
    destruct hb, b; unfold ld, host_val, be_val; cbn; lia.
  Qed.
  Lemma f_get2 : getZ 2 buf = Ok 3. Proof. reflexivity. Qed.
  Lemma f_flags : getZ 3 buf = Ok (h_flags h). Proof. reflexivity. Qed.
  Lemma f_hour : getZ 12 buf = Ok (h_hour h). Proof. reflexivity. Qed.
  Lemma f_min : getZ 13 buf = Ok (h_min h). Proof. reflexivity. Qed.
  Lemma f_sec : getZ 14 buf = Ok (h_sec h). Proof. reflexivity. Qed.
  Lemma f_enc : getZ 15 buf = Ok (h_enc h). Proof. reflexivity. Qed.
  Lemma f_pub : getZ 32 buf = Ok (h_pub h). Proof. reflexivity. Qed.
  Lemma f_zero_crc : zero_crc buf = fixed3 (with_crc h 0) ++ R.
  Proof. reflexivity. Qed.
End Fields.

Lemma fixed3_ok h : hdr_ok h -> bytes_ok (fixed3 h).
Proof.
  intros H. unfold fixed3. unfold hdr_ok, in_u in H. cbn in H. unfold bytes_ok.
  repeat (apply Forall_app; split); try apply le_bytes_ok;
    repeat constructor; unfold lenZ in *; lia.
Qed.

Lemma layout3_ok h : hdr_ok h -> bytes_ok (layout3 h).
Proof.
  intros H. unfold layout3. pose proof (fixed3_ok h H). unfold hdr_ok in H. unfold bytes_ok in *.
  apply Forall_app; split; [assumption|]. apply Forall_app; split; [tauto|]. apply Forall_app; split; tauto.
Qed.

Lemma with_crc_ok h c : hdr_ok h -> in_u 32 c -> hdr_ok (with_crc h c).
Proof.
  unfold hdr_ok. intros H Hc. cbn [h_flags h_nsec h_year h_day h_hour h_min h_sec h_enc h_rate h_cnt h_crc h_pub h_sid h_extra h_payload with_crc].
  rewrite layout3_len in *. cbn [h_sid h_extra h_payload with_crc]. tauto.
Qed.

Lemma layout3_app h tail : layout3 h ++ tail = fixed3 h ++ (h_sid h ++ h_extra h ++ h_payload h ++ tail).
Proof. unfold layout3. now rewrite <- !app_assoc. Qed.

Lemma crc_of_layout hb addr h tail : hdr_ok h -> bytes_ok tail -> 0 <= addr < 4 ->
  ms_crc32c hb (addr, layout3 h ++ tail) (lenZ (layout3 h)) 0 = Ok (crc32c (layout3 h) 0).
Proof.
  intros H Ht Ha. pose proof (layout3_len h). pose proof (lenZ_nonneg (h_sid h)). pose proof (lenZ_nonneg (h_extra h)).
  pose proof (lenZ_nonneg (h_payload h)). assert (lenZ (layout3 h) <= 10485760) by (unfold hdr_ok in H; tauto).
  rewrite ms_crc32c_ok.
  - unfold lenZ. rewrite Nat2Z.id, firstn_app_exact by reflexivity. reflexivity.
  - exact Ha.
  - apply Forall_app. split; [now apply layout3_ok|exact Ht].
  - unfold in_u. lia.
  - change (Z.of_nat (length (layout3 h ++ tail))) with (lenZ (layout3 h ++ tail)). rewrite lenZ_app.
    pose proof (lenZ_nonneg tail). lia.
  - lia.
  - lia.
Qed.

Definition finish3 (hb : bool) (mode : ovmode) (addr flags : Z) (h : hdr) (start : Z) : res msr :=
  if start =? NSTERROR then Err (-1)
  else if has_flag flags 1 && (0 <? h_cnt h) then
    let! d := unpack_data hb mode addr (layout3 h) (rec_of hb start h None) in
    Ok (rec_of hb start h (Some d))
  else Ok (rec_of hb start h None).

Lemma unpack3_eq hb mode addr flags h tail : hdr_ok h -> bytes_ok tail ->
  unpack3 hb mode addr flags (layout3 h ++ tail) (lenZ (layout3 h)) =
  if 64 <=? lenZ (h_sid h) then Err (-1)
  else if has_flag flags 4 && negb (h_crc h =? crc3 h) then Err (-7)
  else let! start := time2nstime mode (h_year h) (h_day h) (h_hour h) (h_min h) (h_sec h) (h_nsec h) in
       finish3 hb mode addr flags h start.
Proof.
  intros H Ht. pose proof (layout3_len h) as L. pose proof (lenZ_nonneg (h_sid h)). pose proof (lenZ_nonneg (h_extra h)).
  pose proof (lenZ_nonneg (h_payload h)). assert (lenZ (layout3 h) <= 10485760) by (unfold hdr_ok in H; tauto).
  unfold unpack3. unfold MINRECLEN, MAXRECLEN.
  replace ((lenZ (layout3 h) <? 40) || (10485760 <? lenZ (layout3 h))) with false by lia.
  rewrite (layout3_app h tail). set (R := h_sid h ++ h_extra h ++ h_payload h ++ tail).
  rewrite f_valid3 by auto. cbn [bind negb]. rewrite f_sidlen. cbn [bind].
  destruct (64 <=? lenZ (h_sid h)); [reflexivity|].
  assert (C : (if has_flag flags MSF_VALIDATECRC then
      let! header_crc := rd hb hb 4 28 (fixed3 h ++ R) in
      let! c := ms_crc32c hb (addr mod 4, zero_crc (fixed3 h ++ R)) (lenZ (layout3 h)) 0 in
      Ok (header_crc =? c) else Ok true) =
      Ok (negb (has_flag flags 4 && negb (h_crc h =? crc3 h)))).
  { unfold MSF_VALIDATECRC. destruct (has_flag flags 4); [|reflexivity].
    rewrite f_crc by auto. cbn [bind]. rewrite f_zero_crc. unfold R.
    change (fixed3 (with_crc h 0) ++ h_sid h ++ h_extra h ++ h_payload h ++ tail) with
      (fixed3 (with_crc h 0) ++ h_sid (with_crc h 0) ++ h_extra (with_crc h 0) ++ h_payload (with_crc h 0) ++ tail).
    rewrite <- layout3_app. replace (lenZ (layout3 h)) with (lenZ (layout3 (with_crc h 0))) by (rewrite !layout3_len; reflexivity).
    rewrite crc_of_layout; [|apply with_crc_ok; auto; unfold in_u; lia|auto|lia].
    cbn [bind andb]. rewrite negb_involutive. reflexivity. }
  rewrite C. cbn [bind]. rewrite negb_involutive.
  destruct (has_flag flags 4 && negb (h_crc h =? crc3 h)); [reflexivity|]. clear C.
  rewrite f_get2, f_flags. cbn [bind].
  assert (S1 : sliceZ 40 (lenZ (h_sid h)) (fixed3 h ++ R) = Ok (h_sid h)).
  { unfold R. apply sliceZ_mid; reflexivity. }
  rewrite S1, f_year, f_day, f_hour, f_min, f_sec, f_nsec by auto. cbn [bind].
  assert (S2 : sliceZ (40 + lenZ (h_sid h)) (lenZ (h_extra h)) (fixed3 h ++ R) = Ok (h_extra h)).
  { unfold R. rewrite app_assoc. apply sliceZ_mid; [|reflexivity]. rewrite lenZ_app. reflexivity. }
  destruct (time2nstime mode (h_year h) (h_day h) (h_hour h) (h_min h) (h_sec h) (h_nsec h)) as [t|c|u|]; try reflexivity.
  cbn [bind]. unfold finish3. unfold MS_GENERROR. destruct (t =? NSTERROR); [reflexivity|].
  rewrite f_enc, f_rate, f_cnt, f_crc, f_pub, f_extralen by auto. cbn [bind]. rewrite S2, f_datalen by auto. cbn [bind].
  unfold MSF_UNPACKDATA, is_steim. 
  change (fixed3 h ++ R) with (fixed3 h ++ h_sid h ++ h_extra h ++ h_payload h ++ tail). rewrite <- layout3_app.
  replace (firstn (Z.to_nat (lenZ (layout3 h))) (layout3 h ++ tail)) with (layout3 h)
    by (unfold lenZ; rewrite Nat2Z.id; now rewrite firstn_app_exact).
  reflexivity.
Qed.

(** ** Detection *)

Lemma detect_fixed h R : hdr_ok h -> detect false (fixed3 h ++ R) = Ok (3, lenZ (layout3 h)).
Proof.
  intros H. pose proof (buf_len h R) as B. unfold detect. unfold MINRECLEN.
  unfold lenZ in B. replace (Z.of_nat (length (fixed3 h ++ R)) <? 40) with false by lia.
  rewrite f_valid3 by auto. cbn [bind]. unfold detect3.
  rewrite f_sidlen. cbn [bind]. rewrite (f_extralen false), (f_datalen false) by auto. cbn [bind].
  rewrite <- layout3_len. rewrite uwrap_id; [reflexivity|].
  unfold hdr_ok in H. pose proof (lenZ_nonneg (layout3 h)). unfold in_u. lia.
Qed.

Lemma parse_complete u mode addr flags h tail : hdr_ok h -> bytes_ok tail ->
  parse u false mode addr flags (layout3 h ++ tail) =
  let! m := unpack3 false mode addr flags (layout3 h ++ tail) (lenZ (layout3 h)) in Ok (PRec m).
Proof.
  intros H Ht. unfold parse. rewrite layout3_app, detect_fixed by auto. rewrite <- layout3_app. cbn [bind].
  change (3 =? 2) with false. cbn [andb].
  pose proof (layout3_len h) as L. pose proof (lenZ_nonneg (h_sid h)). pose proof (lenZ_nonneg (h_extra h)).
  pose proof (lenZ_nonneg (h_payload h)). assert (lenZ (layout3 h) <= 10485760) by (unfold hdr_ok in H; tauto).
  assert (E : Z.of_nat (length (layout3 h ++ tail)) = lenZ (layout3 h) + lenZ tail) by (rewrite <- lenZ_app; reflexivity).
  pose proof (lenZ_nonneg tail). rewrite E. unfold MINRECLEN, MAXRECLEN.
  replace (lenZ (layout3 h) <? 0) with false by lia. replace (lenZ (layout3 h) =? 0) with false by lia.
  replace ((lenZ (layout3 h) <? 40) || (10485760 <? lenZ (layout3 h))) with false by lia.
  replace (lenZ (layout3 h) + lenZ tail <? lenZ (layout3 h)) with false by lia. reflexivity.
Qed.

Lemma parse_tail u mode addr flags h tail : hdr_ok h -> bytes_ok tail ->
  parse u false mode addr flags (layout3 h ++ tail) = parse u false mode addr flags (layout3 h).
Proof.
  intros H Ht. rewrite parse_complete by auto. rewrite <- (app_nil_r (layout3 h)) at 3.
  rewrite parse_complete by (auto; constructor). rewrite !unpack3_eq by (auto; constructor). reflexivity.
Qed.

Lemma parse_hint u mode addr flags h k : hdr_ok h -> 40 <= k < lenZ (layout3 h) ->
  parse u false mode addr flags (firstn (Z.to_nat k) (layout3 h)) = Ok (PHint (lenZ (layout3 h) - k)).
Proof.
  intros H Hk. unfold parse.
  assert (E : Z.of_nat (length (firstn (Z.to_nat k) (layout3 h))) = k) by (rewrite firstn_length; unfold lenZ in Hk; lia).
  rewrite E. replace (firstn (Z.to_nat k) (layout3 h)) with
    (fixed3 h ++ firstn (Z.to_nat k - 40) (h_sid h ++ h_extra h ++ h_payload h)).
  2:{ symmetry. unfold layout3. rewrite (firstn_app (Z.to_nat k) (fixed3 h)), fixed3_len. rewrite (firstn_all2 (fixed3 h)); [reflexivity|rewrite fixed3_len; lia]. }
  rewrite detect_fixed by auto. cbn [bind]. change (3 =? 2) with false. cbn [andb].
  assert (lenZ (layout3 h) <= 10485760) by (unfold hdr_ok in H; tauto). unfold MINRECLEN, MAXRECLEN.
  replace (lenZ (layout3 h) <? 0) with false by lia. replace (lenZ (layout3 h) =? 0) with false by lia.
  replace ((lenZ (layout3 h) <? 40) || (10485760 <? lenZ (layout3 h))) with false by lia.
  replace (k <? lenZ (layout3 h)) with true by lia.
  replace (10485760 <? lenZ (layout3 h) - k) with false by lia. reflexivity.
Qed.

Lemma parse_short u hb mode addr flags buf : lenZ buf < 40 ->
  parse u hb mode addr flags buf = Err (-2).
Proof.
  intros H. unfold parse, detect. unfold MINRECLEN. unfold lenZ in H.
  replace (Z.of_nat (length buf) <? 40) with true by lia. cbn [bind]. reflexivity.
Qed.

(** Any buffer with the signature. *)
Lemma nth_get (l : list Z) i : (i < length l)%nat -> getZ (Z.of_nat i) l = Ok (nth i l 0).
Proof.
  intros H. unfold getZ. replace (0 <=? Z.of_nat i) with true by lia. rewrite Nat2Z.id.
  rewrite (nth_error_nth' l 0 H). reflexivity.
Qed.

Lemma valid3_sig buf : 40 <= lenZ buf -> (valid3 buf = Ok true <-> signature3 buf) /\ (valid3 buf = Ok true \/ valid3 buf = Ok false).
Proof.
  intros H. unfold valid3, signature3. cbn [all_at]. unfold lenZ in H.
  change (0 + 0) with (Z.of_nat 0). change (0 + 1) with (Z.of_nat 1). change (0 + 2) with (Z.of_nat 2).
  change (0 + 12) with (Z.of_nat 12). change (0 + 13) with (Z.of_nat 13). change (0 + 14) with (Z.of_nat 14).
  rewrite !nth_get by lia. cbn [bind].
  destruct (Z.eqb_spec (nth 0 buf 0) 77); [|split; [split; [discriminate|lia]|auto]].
  destruct (Z.eqb_spec (nth 1 buf 0) 83); [|split; [split; [discriminate|lia]|auto]].
  destruct (Z.eqb_spec (nth 2 buf 0) 3); [|split; [split; [discriminate|lia]|auto]].
  destruct (Z.leb_spec (nth 12 buf 0) 23); [|split; [split; [discriminate|lia]|auto]].
  destruct (Z.leb_spec (nth 13 buf 0) 59); [|split; [split; [discriminate|lia]|auto]].
  destruct (Z.leb_spec (nth 14 buf 0) 60); [|split; [split; [discriminate|lia]|auto]].
  split; [split; auto; lia|auto].
Qed.

Lemma rd_le n off buf : 0 <= off -> 0 <= n -> off + n <= lenZ buf ->
  rd false false n off buf = Ok (le_val (firstn (Z.to_nat n) (skipn (Z.to_nat off) buf))).
Proof. intros. unfold rd. rewrite sliceZ_ok by lia. cbn [bind]. now rewrite ld_le. Qed.

Lemma detect_any buf : 40 <= lenZ buf -> signature3 buf ->
  detect false buf = Ok (3, (40 + stated_lengths buf) mod 2 ^ 32).
Proof.
  intros H S. destruct (valid3_sig buf H) as [V _]. apply V in S. unfold detect. unfold MINRECLEN.
  pose proof H as H'. unfold lenZ in H'. replace (Z.of_nat (length buf) <? 40) with false by lia.
  rewrite S. cbn [bind]. unfold detect3. rewrite !rd_le by lia. cbn [bind]. unfold uwrap, stated_lengths.
  rewrite !Z.add_assoc. reflexivity.
Qed.

(** ** Damage *)

Lemma zero_crc_len (r : list Z) : 40 <= lenZ r -> length (zero_crc r) = length r.
Proof. unfold lenZ, zero_crc. intros H. rewrite !app_length, firstn_length, skipn_length. cbn [length]. lia. Qed.

Lemma zero_crc_bytes r : bytes_ok r -> bytes_ok (zero_crc r).
Proof.
  intros H. unfold zero_crc, bytes_ok. apply Forall_app. split; [now apply Forall_firstn|].
  apply Forall_app. split; [repeat constructor; lia|now apply Forall_skipn].
Qed.

Lemma crc_field_split (r : list Z) : 40 <= lenZ r ->
  r = firstn 28 r ++ firstn 4 (skipn 28 r) ++ skipn 32 r.
Proof.
  intros H. rewrite <- (firstn_skipn 28 r) at 1. f_equal.
  rewrite <- (firstn_skipn 4 (skipn 28 r)) at 1. f_equal. rewrite skipn_skipn. reflexivity.
Qed.

Lemma le_val_zero_crc r : 40 <= lenZ r -> bytes_ok r ->
  le_val r = Z.lxor (le_val (zero_crc r)) (le_val (firstn 4 (skipn 28 r)) * 2 ^ 224).
Proof.
  intros H B. rewrite (crc_field_split r H) at 1. unfold zero_crc. unfold lenZ in H.
  set (a := firstn 28 r). set (c := firstn 4 (skipn 28 r)). set (b := skipn 32 r).
  assert (La : length a = 28%nat) by (unfold a; rewrite firstn_length; lia).
  assert (Lc : length c = 4%nat) by (unfold c; rewrite firstn_length, skipn_length; lia).
  assert (Ba : 0 <= le_val a < 2 ^ 224).
  { replace 224 with (8 * Z.of_nat (length a)) by lia. apply le_val_range. now apply Forall_firstn. }
  assert (Bc : 0 <= le_val c < 2 ^ 32).
  { replace 32 with (8 * Z.of_nat (length c)) by lia. apply le_val_range. unfold c. now apply Forall_firstn, Forall_skipn. }
  rewrite !le_val_app. cbn [length le_val]. rewrite La, Lc.
  change (8 * Z.of_nat 28) with 224. change (8 * Z.of_nat 4) with 32.
  replace (0 + 256 * (0 + 256 * (0 + 256 * (0 + 256 * 0)))) with 0 by lia. rewrite Z.add_0_l.
  clearbody a b c.
  replace (le_val a + 2 ^ 224 * (2 ^ 32 * le_val b)) with (le_val a + (le_val b * 2 ^ 32) * 2 ^ 224) by ring.
  rewrite <- lxor_disjoint by lia.
  replace (le_val a + 2 ^ 224 * (le_val c + 2 ^ 32 * le_val b)) with (le_val a + (le_val c + le_val b * 2 ^ 32) * 2 ^ 224) by ring.
  rewrite <- lxor_disjoint by lia. rewrite <- (lxor_disjoint (le_val c)) by lia.
  rewrite Z.lxor_assoc. f_equal. rewrite <- !Z.shiftl_mul_pow2 by lia. rewrite <- Z.shiftl_lxor. f_equal. apply Z.lxor_comm.
Qed.

Lemma zero_crc_differ r r' pos e : 40 <= lenZ r -> bytes_ok r -> bytes_ok r' ->
  firstn 4 (skipn 28 r') = firstn 4 (skipn 28 r) -> differ_by r r' pos e ->
  differ_by (zero_crc r) (zero_crc r') pos e.
Proof.
  intros H B B' F [L X]. assert (H' : 40 <= lenZ r') by (unfold lenZ in *; lia).
  split; [rewrite !zero_crc_len; auto|]. rewrite <- X.
  rewrite (le_val_zero_crc r), (le_val_zero_crc r') by auto. rewrite F.
  rewrite (Z.lxor_comm (le_val (zero_crc r'))). rewrite Z.lxor_assoc.
  rewrite <- (Z.lxor_assoc (_ * _)). rewrite Z.lxor_nilpotent, Z.lxor_0_l. reflexivity.
Qed.

Lemma unpack3_crc hb mode addr flags r : has_flag flags 4 = true -> bytes_ok r -> 40 <= lenZ r ->
  (exists c, unpack3 hb mode addr flags r (lenZ r) = Err c) \/
  le_val (firstn 4 (skipn 28 r)) = crc32c (zero_crc r) 0.
Proof.
  intros F B H. unfold unpack3. unfold MINRECLEN, MAXRECLEN.
  destruct ((lenZ r <? 40) || (10485760 <? lenZ r)) eqn:G; [left; eexists; reflexivity|].
  destruct (valid3_sig r H) as [_ [V|V]]; rewrite V; cbn [bind negb]; [|left; eexists; reflexivity].
  unfold rd at 1. rewrite sliceZ_ok by lia. cbn [bind].
  match goal with |- context [64 <=? ?x] => destruct (64 <=? x) end; [left; eexists; reflexivity|].
  unfold MSF_VALIDATECRC. rewrite F.
  assert (R : rd hb hb 4 28 r = Ok (le_val (firstn 4 (skipn 28 r)))).
  { unfold rd. rewrite sliceZ_ok by lia. cbn [bind]. now rewrite ld_le. }
  rewrite R. cbn [bind].
  assert (L : length (zero_crc r) = length r) by (apply zero_crc_len; auto).
  rewrite ms_crc32c_ok; [|lia|now apply zero_crc_bytes|unfold in_u; lia|rewrite L; unfold lenZ in *; lia|lia|lia].
  cbn [bind]. replace (firstn (Z.to_nat (lenZ r)) (zero_crc r)) with (zero_crc r)
    by (symmetry; apply firstn_all2; rewrite L; unfold lenZ; lia).
  destruct (Z.eqb_spec (le_val (firstn 4 (skipn 28 r))) (crc32c (zero_crc r) 0)) as [E|E].
  - right. exact E.
  - left. eexists. reflexivity.
Qed.

Lemma damage_rejected hb mode addr flags r r' m pos e :
  has_flag flags 4 = true -> bytes_ok r -> bytes_ok r' -> 40 <= lenZ r ->
  unpack3 hb mode addr flags r (lenZ r) = Ok m ->
  firstn 4 (skipn 28 r') = firstn 4 (skipn 28 r) -> differ_by r r' pos e -> 0 <= pos -> 0 < e < 2 ^ 32 ->
  exists c, unpack3 hb mode addr flags r' (lenZ r) = Err c.
Proof.
  intros F B B' H E W D Hp He. assert (L : lenZ r' = lenZ r) by (destruct D as [D _]; unfold lenZ; lia).
  destruct (unpack3_crc hb mode addr flags r F B H) as [[c Q]|Q]; [congruence|].
  rewrite <- L. destruct (unpack3_crc hb mode addr flags r' F B' ltac:(lia)) as [Q'|Q']; [exact Q'|].
  exfalso. apply (burst (zero_crc r) (zero_crc r') 0 pos e); auto using zero_crc_bytes.
  - apply zero_crc_differ; auto.
  - congruence.
Qed.

(** Through msr3_parse, when detection is not affected. *)
Lemma stated_same r r' : firstn 7 (skipn 33 r') = firstn 7 (skipn 33 r) -> 40 <= lenZ r -> 40 <= lenZ r' ->
  stated_lengths r' = stated_lengths r.
Proof.
  intros E H H'. unfold stated_lengths.
  assert (A : forall x : list Z, firstn 1 (skipn 33 x) = firstn 1 (firstn 7 (skipn 33 x))) by (intros; now rewrite firstn_firstn).
  assert (B : forall x : list Z, firstn 2 (skipn 34 x) = firstn 2 (skipn 1 (firstn 7 (skipn 33 x)))).
  { intros. rewrite skipn_firstn_comm, skipn_skipn, firstn_firstn. reflexivity. }
  assert (C : forall x : list Z, firstn 4 (skipn 36 x) = firstn 4 (skipn 3 (firstn 7 (skipn 33 x)))).
  { intros. rewrite skipn_firstn_comm, skipn_skipn, firstn_firstn. reflexivity. }
  rewrite !A, !B, !C, E. reflexivity.
Qed.

Lemma parse_damage u mode addr flags r r' m pos e :
  has_flag flags 4 = true -> bytes_ok r -> bytes_ok r' -> 40 <= lenZ r <= 10485760 ->
  signature3 r -> 40 + stated_lengths r = lenZ r ->
  parse u false mode addr flags r = Ok (PRec m) ->
  firstn 3 r' = firstn 3 r -> firstn 4 (skipn 28 r') = firstn 4 (skipn 28 r) ->
  firstn 7 (skipn 33 r') = firstn 7 (skipn 33 r) ->
  differ_by r r' pos e -> 0 <= pos -> 0 < e < 2 ^ 32 ->
  exists c, parse u false mode addr flags r' = Err c.
Proof.
  intros F B B' H S SL P W0 W1 W2 D Hp He. assert (L : lenZ r' = lenZ r) by (destruct D as [D _]; unfold lenZ; lia).
  assert (G : forall x, 40 <= lenZ x <= 10485760 -> signature3 x -> 40 + stated_lengths x = lenZ x ->
     parse u false mode addr flags x = let! m := unpack3 false mode addr flags x (lenZ x) in Ok (PRec m)).
  { intros x Hx Sx Lx. unfold parse. rewrite detect_any by (auto; lia). cbn [bind]. change (3 =? 2) with false. cbn [andb].
    rewrite Lx. rewrite Z.mod_small by lia. change (Z.of_nat (length x)) with (lenZ x). unfold MINRECLEN, MAXRECLEN.
    replace (lenZ x <? 0) with false by lia. replace (lenZ x =? 0) with false by lia.
    replace ((lenZ x <? 40) || (10485760 <? lenZ x)) with false by lia. replace (lenZ x <? lenZ x) with false by lia.
    reflexivity. }
  rewrite (G r H S SL) in P.
  destruct (unpack3 false mode addr flags r (lenZ r)) as [m0| | |] eqn:U; cbn [bind] in P; try discriminate.
  destruct (damage_rejected false mode addr flags r r' m0 pos e F B B' ltac:(lia) U W1 D Hp He) as [c Q].
  destruct (valid3_sig r' ltac:(lia)) as [V [V1|V1]].
  - exists c. rewrite G; [|lia|now apply V|rewrite (stated_same r r') by (auto; lia); lia].
    rewrite L, Q. reflexivity.
  - exists (-2). unfold parse, detect. unfold MINRECLEN. pose proof L as L'. unfold lenZ in L', H.
    replace (Z.of_nat (length r') <? 40) with false by lia. rewrite V1. cbn [bind].
    assert (N : valid2_at 0 r' = Ok false).
    { unfold valid2_at. cbn [all_at]. change (0 + 0) with (Z.of_nat 0). rewrite nth_get by lia. cbn [bind].
      assert (nth 0 r' 0 = 77).
      { destruct S as [S _]. destruct r' as [|x0 r']; [cbn in L'; lia|]. destruct r as [|y0 r]; [cbn in L'; lia|].
        cbn [firstn] in W0. injection W0 as -> _. exact S. }
      rewrite H0. reflexivity. }
    rewrite N. cbn [bind]. reflexivity.
Qed.

(** ** Combinations used in the theorems *)

Lemma detect_prefix buf buf' : 40 <= lenZ buf -> 40 <= lenZ buf' -> signature3 buf ->
  firstn 40 buf' = firstn 40 buf -> detect false buf' = detect false buf.
Proof.
  intros H H' S E.
  assert (N : forall i, (i < 40)%nat -> nth i buf' 0 = nth i buf 0).
  { intros i Hi. rewrite <- (firstn_skipn 40 buf), <- (firstn_skipn 40 buf'), E.
    rewrite !app_nth1 by (rewrite firstn_length; unfold lenZ in *; lia). reflexivity. }
  assert (S' : signature3 buf') by (unfold signature3 in *; rewrite !N by lia; exact S).
  rewrite !detect_any by auto. rewrite (stated_same buf buf'); auto.
  assert (A : forall x : list Z, firstn 7 (skipn 33 x) = skipn 33 (firstn 40 x)) by (intros; rewrite skipn_firstn_comm; reflexivity).
  rewrite !A, E. reflexivity.
Qed.

Lemma hint_then_parse u mode addr flags h k : hdr_ok h -> 40 <= k < lenZ (layout3 h) ->
  exists n, 0 < n /\ k + n = lenZ (layout3 h) /\
    parse u false mode addr flags (firstn (Z.to_nat k) (layout3 h)) = Ok (PHint n) /\
    forall tail, bytes_ok tail ->
      parse u false mode addr flags (firstn (Z.to_nat (k + n)) (layout3 h) ++ tail) =
      parse u false mode addr flags (layout3 h).
Proof.
  intros H Hk. exists (lenZ (layout3 h) - k). split; [lia|]. split; [lia|]. split; [now apply parse_hint|].
  intros tail Ht. rewrite firstn_all2 by (unfold lenZ; lia). now apply parse_tail.
Qed.

Lemma parse_record u mode addr flags h : hdr_ok h -> lenZ (h_sid h) < 64 ->
  has_flag flags 1 = false -> (has_flag flags 4 = true -> h_crc h = crc3 h) ->
  forall t, time2nstime mode (h_year h) (h_day h) (h_hour h) (h_min h) (h_sec h) (h_nsec h) = Ok t ->
  t <> NSTERROR ->
  parse u false mode addr flags (layout3 h) = Ok (PRec (rec_of false t h None)).
Proof.
  intros H Hs F C t T N. rewrite <- (app_nil_r (layout3 h)). rewrite parse_complete by (auto; constructor).
  rewrite unpack3_eq by (auto; constructor). replace (64 <=? lenZ (h_sid h)) with false by lia.
  replace (has_flag flags 4 && negb (h_crc h =? crc3 h)) with false.
  - rewrite T. cbn [bind]. unfold finish3. replace (t =? NSTERROR) with false by lia. rewrite F. reflexivity.
  - destruct (has_flag flags 4); [|reflexivity]. rewrite C, Z.eqb_refl; reflexivity.
Qed.
