From Verif Require Import Base BaseLemmas CrcSpec CrcProof RecSpec RecProof ReadModel ReadSpec.
From Coq Require Import ZifyBool.
Open Scope Z_scope.

(** ** Bytes as a layout *)

Lemma bytes_app a b : bytes_ok (a ++ b) <-> bytes_ok a /\ bytes_ok b.
Proof. apply Forall_app. Qed.

Lemma bytes_firstn n l : bytes_ok l -> bytes_ok (firstn n l).
Proof. apply Forall_firstn. Qed.

Lemma bytes_skipn n l : bytes_ok l -> bytes_ok (skipn n l).
Proof. apply Forall_skipn. Qed.

Lemma le_b1 a : byte_ok a -> le_val [a] = a.
Proof. cbn. lia. Qed.

Lemma split40 (r : list Z) : 40 <= lenZ r -> exists f r', r = f ++ r' /\ length f = 40%nat.
Proof.
  intros H. exists (firstn 40 r), (skipn 40 r). split; [symmetry; apply firstn_skipn|].
  rewrite firstn_length. unfold lenZ in H. lia.
Qed.

Ltac bytes := unfold bytes_ok; repeat (apply Forall_cons; [assumption|]); apply Forall_nil.

Lemma layout_of r : bytes_ok r -> 40 <= lenZ r -> signature3 r -> length3 r <= 10485760 -> length3 r <= lenZ r ->
  exists h tail, hdr_ok h /\ bytes_ok tail /\ r = layout3 h ++ tail /\ lenZ (layout3 h) = length3 r.
Proof.
  intros B H S M L. destruct (split40 r H) as (f & r' & -> & F).
  do 40 (destruct f as [|? f]; [discriminate|]). destruct f; [|discriminate]. clear F H.
  unfold length3, stated_lengths in M, L |- *.
  cbn [firstn skipn app] in M, L |- *.
  unfold signature3 in S. cbn [nth app] in S. destruct S as (-> & -> & -> & S1 & S2 & S3).
  apply bytes_app in B. destruct B as [Bf Br].
  unfold bytes_ok in Bf. repeat (match goal with X : Forall _ (_ :: _) |- _ => inversion_clear X end).
  unfold lenZ in L. cbn [length app] in L.
  match type of M with 40 + (le_val [?s] + le_val ?e + le_val ?d) <= _ =>
    set (sl := s) in *; set (el := le_val e) in *; set (dl := le_val d) in *; set (eb := e) in *; set (db := d) in * end.
  rewrite le_b1 in * by assumption.
  assert (Hs : 0 <= sl < 256) by assumption.
  assert (He : 0 <= el < 2 ^ 16).
  { apply (le_val_range eb). bytes. }
  assert (Hd : 0 <= dl < 2 ^ 32).
  { apply (le_val_range db). bytes. }
  match goal with |- exists h tail, _ /\ _ /\ 77 :: 83 :: 3 :: ?a3 :: ?a4 :: ?a5 :: ?a6 :: ?a7 :: ?a8 :: ?a9 :: ?a10 :: ?a11 :: ?a12 :: ?a13 :: ?a14 :: ?a15
     :: ?a16 :: ?a17 :: ?a18 :: ?a19 :: ?a20 :: ?a21 :: ?a22 :: ?a23 :: ?a24 :: ?a25 :: ?a26 :: ?a27 :: ?a28 :: ?a29 :: ?a30 :: ?a31 :: ?a32 :: _ = _ /\ _ =>
    exists (mk_hdr a3 (le_val [a4; a5; a6; a7]) (le_val [a8; a9]) (le_val [a10; a11]) a12 a13 a14 a15
              (le_val [a16; a17; a18; a19; a20; a21; a22; a23]) (le_val [a24; a25; a26; a27]) (le_val [a28; a29; a30; a31]) a32
              (firstn (Z.to_nat sl) r') (firstn (Z.to_nat el) (skipn (Z.to_nat sl) r'))
              (firstn (Z.to_nat dl) (skipn (Z.to_nat (sl + el)) r')))
  end.
  exists (skipn (Z.to_nat (sl + el + dl)) r').
  match goal with |- hdr_ok ?h /\ _ => set (h0 := h) end.
  assert (L1 : lenZ (h_sid h0) = sl) by (unfold h0, lenZ; cbn [h_sid]; rewrite firstn_length; lia).
  assert (L2 : lenZ (h_extra h0) = el) by (unfold h0, lenZ; cbn [h_extra]; rewrite firstn_length, skipn_length; lia).
  assert (L3 : lenZ (h_payload h0) = dl) by (unfold h0, lenZ; cbn [h_payload]; rewrite firstn_length, skipn_length; lia).
  assert (LL : lenZ (layout3 h0) = 40 + (sl + el + dl)) by (rewrite layout3_len; lia).
  split; [|split; [|split]].
  - unfold hdr_ok. rewrite LL, L1, L2. unfold h0.
    cbn [h_flags h_nsec h_year h_day h_hour h_min h_sec h_enc h_rate h_cnt h_crc h_pub h_sid h_extra h_payload].
    unfold in_u.
    repeat match goal with |- _ /\ _ => split end;
      repeat match goal with
      | |- bytes_ok (firstn _ _) => apply bytes_firstn
      | |- bytes_ok (skipn _ _) => apply bytes_skipn
      | |- 0 <= le_val ?l => apply (le_val_range l)
      | |- le_val ?l < _ => apply (le_val_range l)
      end; try exact Br; try bytes; unfold byte_ok in *; lia.
  - now apply bytes_skipn.
  - unfold layout3, fixed3. rewrite L1, L2, L3. unfold h0 at 1 2 3 4 5 6 7 8 9 10 11 12.
    cbn [h_flags h_nsec h_year h_day h_hour h_min h_sec h_enc h_rate h_cnt h_crc h_pub].
    unfold el at 1, dl at 1.
    repeat match goal with |- context [le_bytes ?n (le_val ?l)] =>
      rewrite (le_bytes_le_val l : bytes_ok l -> le_bytes n (le_val l) = l) by bytes end.
    unfold eb, db, h0. cbn [app h_sid h_extra h_payload]. do 40 f_equal.
    rewrite <- (firstn_skipn (Z.to_nat sl) r') at 1. rewrite <- !app_assoc. f_equal.
    rewrite <- (firstn_skipn (Z.to_nat el) (skipn (Z.to_nat sl) r')) at 1. f_equal.
    rewrite skipn_skipn. replace (Z.to_nat el + Z.to_nat sl)%nat with (Z.to_nat (sl + el)) by lia.
    rewrite <- (firstn_skipn (Z.to_nat dl) (skipn (Z.to_nat (sl + el)) r')) at 1. f_equal.
    rewrite skipn_skipn. f_equal. lia.
  - rewrite LL. lia.
Qed.

(** ** What parsing sees of a prefix *)

Lemma nth_first {A} i n (l : list A) d : (i < n)%nat -> nth i (firstn n l) d = nth i l d.
Proof.
  revert n l. induction i as [|i IH]; intros [|n] [|x l] H; try lia; cbn [firstn nth]; auto. apply IH. lia.
Qed.

Lemma first_skip_first {A} a b n (l : list A) : (a + b <= n)%nat ->
  firstn a (skipn b (firstn n l)) = firstn a (skipn b l).
Proof.
  intros H. rewrite skipn_firstn_comm, firstn_firstn. f_equal. lia.
Qed.

Lemma sig3_first n r : (15 <= n)%nat -> signature3 (firstn n r) <-> signature3 r.
Proof. intros H. unfold signature3. rewrite !nth_first by lia. tauto. Qed.

Lemma sig2_first n r : (27 <= n)%nat -> signature2 (firstn n r) <-> signature2 r.
Proof.
  intros H. unfold signature2. rewrite !nth_first by lia.
  assert (E : (forall i, (i < 6)%nat -> 48 <= nth i (firstn n r) 0 <= 57 \/ nth i (firstn n r) 0 = 32 \/ nth i (firstn n r) 0 = 0)
          <-> (forall i, (i < 6)%nat -> 48 <= nth i r 0 <= 57 \/ nth i r 0 = 32 \/ nth i r 0 = 0)).
  { split; intros G i Hi; specialize (G i Hi); rewrite nth_first in *; auto; lia. }
  tauto.
Qed.

Lemma len3_first n r : (40 <= n)%nat -> length3 (firstn n r) = length3 r.
Proof. intros H. unfold length3, stated_lengths. rewrite !first_skip_first by lia. reflexivity. Qed.

Lemma all_at_ok tests buf : (forall o t, In (o, t) tests -> 0 <= o < lenZ buf) ->
  all_at tests 0 buf = Ok (forallb (fun ot => snd ot (nth (Z.to_nat (fst ot)) buf 0)) tests).
Proof.
  induction tests as [|[o t] l IH]; intros H; cbn [all_at forallb]; [reflexivity|].
  assert (B : 0 <= o < lenZ buf) by (apply (H o t); now left).
  replace (0 + o) with (Z.of_nat (Z.to_nat o)) by lia. rewrite nth_get by (unfold lenZ in B; lia). cbn [bind fst snd].
  destruct (t _); cbn [andb]; [|reflexivity]. apply IH. intros o' t' I. apply (H o' t'). now right.
Qed.

Lemma valid2_sig buf : 40 <= lenZ buf ->
  (valid2_at 0 buf = Ok true /\ signature2 buf) \/ (valid2_at 0 buf = Ok false /\ ~ signature2 buf).
Proof.
  intros H. unfold valid2_at. rewrite all_at_ok.
  2:{ intros o t I. cbn [In] in I. intuition (match goal with X : (_, _) = _ |- _ => injection X as <- _ end; lia). }
  cbn [forallb fst snd]. unfold signature2, seq_char.
  change (Z.to_nat 0) with 0%nat. change (Z.to_nat 1) with 1%nat. change (Z.to_nat 2) with 2%nat. change (Z.to_nat 3) with 3%nat.
  change (Z.to_nat 4) with 4%nat. change (Z.to_nat 5) with 5%nat. change (Z.to_nat 6) with 6%nat. change (Z.to_nat 7) with 7%nat.
  change (Z.to_nat 24) with 24%nat. change (Z.to_nat 25) with 25%nat. change (Z.to_nat 26) with 26%nat.
  match goal with |- (Ok ?b = Ok true /\ ?P) \/ _ => assert (W : b = true <-> P); [|destruct b; [left; intuition congruence|right; split; [reflexivity|intro X; apply W in X; discriminate]]] end.
  cbn [In]. rewrite !andb_true_iff. split.
  - intros (A0 & A1 & A2 & A3 & A4 & A5 & A6 & A7 & A8 & A9 & A10 & _). split; [|lia].
    intros i Hi. do 6 (destruct i as [|i]; [lia|]). lia.
  - intros (F & G). pose proof (F 0%nat ltac:(lia)). pose proof (F 1%nat ltac:(lia)). pose proof (F 2%nat ltac:(lia)).
    pose proof (F 3%nat ltac:(lia)). pose proof (F 4%nat ltac:(lia)). pose proof (F 5%nat ltac:(lia)). clear F.
    repeat split; lia.
Qed.

Lemma le_slice n k r : bytes_ok r -> 0 <= le_val (firstn n (skipn k r)) < 2 ^ (8 * Z.of_nat n).
Proof.
  intros B. pose proof (le_val_range (firstn n (skipn k r)) ltac:(now apply bytes_firstn, bytes_skipn)) as R.
  rewrite firstn_length in R. split; [lia|]. eapply Z.lt_le_trans; [apply R|]. apply Z.pow_le_mono_r; lia.
Qed.

Lemma length3_ge r : bytes_ok r -> 40 <= length3 r.
Proof.
  intros B. unfold length3, stated_lengths.
  pose proof (le_slice 1 33 r B). pose proof (le_slice 2 34 r B). pose proof (le_slice 4 36 r B). lia.
Qed.

Section Parse.
  Variable u : list Z -> Z -> res msr.
  Variable mode : ovmode.
  Variables addr flags : Z.
  Notation P := (parse u false mode addr flags).

  Lemma parse_noise b : 40 <= lenZ b -> ~ signature3 b -> ~ signature2 b -> P b = Err (-2).
  Proof.
    intros H S3 S2. unfold parse, detect. unfold MINRECLEN. pose proof H as H'. unfold lenZ in H'.
    replace (Z.of_nat (length b) <? 40) with false by lia.
    destruct (valid3_sig b H) as [V [E|E]]; [tauto|]. rewrite E. cbn [bind].
    destruct (valid2_sig b H) as [[E2 G]|[E2 G]]; [tauto|]. rewrite E2. cbn [bind].
    change (0 =? 2) with false. cbn [andb]. reflexivity.
  Qed.

  Lemma parse_big b : 40 <= lenZ b -> signature3 b -> 10485760 < length3 b < 2 ^ 32 -> P b = Err (-4).
  Proof.
    intros H S L. unfold parse. rewrite detect_any by auto. cbn [bind]. change (3 =? 2) with false. cbn [andb].
    fold (length3 b). rewrite Z.mod_small by lia. unfold MINRECLEN, MAXRECLEN, MS_OUTOFRANGE.
    replace (length3 b <? 0) with false by lia. replace (length3 b =? 0) with false by lia.
    replace ((length3 b <? 40) || (10485760 <? length3 b)) with true by lia. reflexivity.
  Qed.

  Lemma parse_cut b : bytes_ok b -> 40 <= lenZ b < length3 b -> signature3 b -> length3 b <= 10485760 ->
    P b = Ok (PHint (length3 b - lenZ b)).
  Proof.
    intros B H S L. unfold parse. rewrite detect_any by (auto; lia). cbn [bind]. change (3 =? 2) with false. cbn [andb].
    fold (length3 b). rewrite Z.mod_small by lia. unfold MINRECLEN, MAXRECLEN.
    replace (length3 b <? 0) with false by lia. replace (length3 b =? 0) with false by lia.
    replace ((length3 b <? 40) || (10485760 <? length3 b)) with false by lia.
    change (Z.of_nat (length b)) with (lenZ b). replace (lenZ b <? length3 b) with true by lia.
    replace (10485760 <? length3 b - lenZ b) with false by lia. reflexivity.
  Qed.

  Lemma parse_whole b : bytes_ok b -> 40 <= lenZ b -> signature3 b -> length3 b <= 10485760 -> length3 b <= lenZ b ->
    P b = P (firstn (Z.to_nat (length3 b)) b).
  Proof.
    intros B H S M L. destruct (layout_of b B H S M L) as (h & tail & Hh & Ht & E & EL).
    rewrite <- EL. rewrite E. unfold lenZ. rewrite Nat2Z.id, firstn_app_exact by reflexivity. now apply parse_tail.
  Qed.
End Parse.

(** The flag for the end of the file only matters to version 2. *)
Lemma has_flag_lor f a b : 0 <= f -> has_flag (Z.lor a f) b = has_flag a b || has_flag f b.
Proof.
  intros _. unfold has_flag. rewrite Z.land_lor_distr_l.
  destruct (Z.eqb_spec (Z.lor (Z.land a b) (Z.land f b)) 0) as [E|E];
  destruct (Z.eqb_spec (Z.land a b) 0) as [E1|E1]; destruct (Z.eqb_spec (Z.land f b) 0) as [E2|E2]; cbn [negb orb]; try reflexivity.
  - apply Z.lor_eq_0_iff in E. tauto.
  - apply Z.lor_eq_0_iff in E. tauto.
  - apply Z.lor_eq_0_iff in E. tauto.
  - rewrite E1, E2 in E. cbn in E. lia.
Qed.

Lemma parse_eof u mode addr flags f r : bytes_ok r -> 40 <= lenZ r -> signature3 r -> length3 r <= 10485760 ->
  length3 r <= lenZ r -> (f = 0 \/ f = 16) ->
  parse u false mode addr (Z.lor flags f) r = parse u false mode addr flags r.
Proof.
  intros B H S M L F. destruct (layout_of r B H S M L) as (h & tail & Hh & Ht & E & EL). rewrite E.
  rewrite !parse_complete, !unpack3_eq by auto. unfold finish3.
  assert (F1 : forall b, (b = 1 \/ b = 4) -> has_flag (Z.lor flags f) b = has_flag flags b).
  { intros b Hb. rewrite has_flag_lor by lia. destruct F as [-> | ->]; destruct Hb as [-> | ->]; cbn; apply orb_false_r. }
  rewrite !F1 by auto. reflexivity.
Qed.

Lemma parse_reclen u mode addr flags r m : bytes_ok r -> 40 <= lenZ r -> signature3 r -> length3 r <= 10485760 ->
  length3 r <= lenZ r -> parse u false mode addr flags r = Ok (PRec m) -> m_reclen m = length3 r.
Proof.
  intros B H S M L E. destruct (layout_of r B H S M L) as (h & tail & Hh & Ht & -> & EL). rewrite <- EL.
  rewrite parse_complete, unpack3_eq in E by auto. unfold finish3 in E.
  destruct (64 <=? _); [discriminate|]. destruct (_ && _); [discriminate|].
  destruct (time2nstime _ _ _ _ _ _ _) as [t| | |]; cbn [bind] in E; try discriminate.
  destruct (t =? NSTERROR); [discriminate|]. destruct (_ && _).
  - destruct (unpack_data _ _ _ _ _); cbn [bind] in E; try discriminate. injection E as <-. reflexivity.
  - injection E as <-. reflexivity.
Qed.

(** A record parses to a record, an error or undefined behaviour. *)
Lemma parse_kinds u mode addr flags r : bytes_ok r -> 40 <= lenZ r -> signature3 r -> length3 r <= 10485760 ->
  length3 r <= lenZ r ->
  (exists m, parse u false mode addr flags r = Ok (PRec m)) \/ (exists c, parse u false mode addr flags r = Err c) \/
  (exists x, parse u false mode addr flags r = UB x) \/ parse u false mode addr flags r = Fuel.
Proof.
  intros B H S M L. destruct (layout_of r B H S M L) as (h & tail & Hh & Ht & -> & EL).
  rewrite parse_complete by auto. destruct (unpack3 _ _ _ _ _ _); cbn [bind]; eauto 6.
Qed.

(** ** The stream at a position *)

Definition at_pos (last : Z) (q : stream) (p : Z) (r : list Z) (n : Z) : Prop :=
  q_pos q = p /\ q_count q = n /\ q_end q = last /\ 0 <= q_off q <= lenZ (q_buf q) /\ lenZ (q_buf q) <= 10485760 /\
  skipn (Z.to_nat (q_off q)) (q_buf q) ++ q_rest q = r /\ (q_eof q = true -> q_rest q = []) /\
  bytes_ok r /\ 0 <= p /\ p + lenZ r < 2 ^ 63.

Lemma buflen_eq last q p r n : at_pos last q p r n -> buflen q + lenZ (q_rest q) = lenZ r /\ 0 <= buflen q.
Proof.
  intros (A1 & A2 & A3 & A4 & A5 & <- & A7 & A8). unfold buflen. rewrite lenZ_app. unfold lenZ in *. rewrite skipn_length. lia.
Qed.

Lemma here_eq last q p r n : at_pos last q p r n ->
  skipn (Z.to_nat (q_off q)) (q_buf q) = firstn (Z.to_nat (buflen q)) r.
Proof.
  intros (A1 & A2 & A3 & A4 & A5 & <- & A7 & A8). rewrite firstn_app_exact; [reflexivity|].
  rewrite skipn_length. unfold buflen, lenZ in *. lia.
Qed.

Lemma advance_ok last q p r n k : at_pos last q p r n -> 0 <= k <= buflen q ->
  at_pos last (advance q k) (p + k) (skipn (Z.to_nat k) r) n.
Proof.
  intros A Hk. pose proof (buflen_eq _ _ _ _ _ A) as [E E0].
  destruct A as (A1 & A2 & A3 & A4 & A5 & <- & A7 & A8 & A9 & A10).
  unfold at_pos, advance. cbn [q_pos q_count q_end q_off q_buf q_rest q_eof]. unfold buflen in *.
  repeat (split; [first [assumption | unfold lenZ in *; lia | idtac]|]).
  - rewrite skipn_app, skipn_skipn. rewrite skipn_length.
    replace (Z.to_nat k - _)%nat with 0%nat by (unfold lenZ in *; lia). cbn [skipn]. do 2 f_equal. lia.
  - now apply bytes_skipn.
  - rewrite lenZ_app in *. unfold lenZ in *. rewrite skipn_length, app_length. lia.
Qed.

Lemma fill_ok sch last q p r n : delivers sch -> at_pos last q p r n -> q_eof q = false -> buflen q < 10485760 ->
  exists q', fill sch q = Ok (q', false) /\ at_pos last q' p r n /\
    lenZ (q_rest q') <= lenZ (q_rest q) /\ (q_eof q' = false -> lenZ (q_rest q') < lenZ (q_rest q)).
Proof.
  intros D A Ef Hb. pose proof (buflen_eq _ _ _ _ _ A) as [E E0].
  assert (S : exists q1, (if buflen q <=? 0
     then Ok (mk_stream [] 0 (q_pos q) (q_count q) (q_end q) (q_rest q) (q_eof q) (q_reads q))
     else if 0 <? q_off q then shift_msfp q (q_off q) else Ok q) = Ok q1 /\ at_pos last q1 p r n /\ q_off q1 = 0 /\
     q_rest q1 = q_rest q /\ lenZ (q_buf q1) = buflen q).
  { destruct A as (A1 & A2 & A3 & A4 & A5 & A6 & A7 & A8 & A9 & A10). unfold buflen in *.
    destruct (Z.leb_spec (Z.of_nat (length (q_buf q)) - q_off q) 0) as [L|L].
    - eexists. split; [reflexivity|]. unfold at_pos. cbn [q_pos q_count q_end q_off q_buf q_rest q_eof].
      rewrite skipn_all2 in A6 by (unfold lenZ in *; lia). cbn [app] in A6.
      repeat split; try assumption; cbn; unfold lenZ in *; try lia.
    - destruct (Z.ltb_spec 0 (q_off q)) as [O|O].
      + unfold shift_msfp. replace ((q_off q <=? 0) && _) with false by lia.
        rewrite sliceZ_ok by (unfold lenZ in *; lia). cbn [bind].
        replace (q_off q <? q_off q) with false by lia.
        rewrite firstn_all2 by (rewrite skipn_length; unfold lenZ in *; lia).
        eexists. split; [reflexivity|]. unfold at_pos. cbn [q_pos q_count q_end q_off q_buf q_rest q_eof].
        repeat split; try assumption; cbn [Z.to_nat skipn]; try assumption; unfold lenZ in *; rewrite ?skipn_length; try lia.
      + exists q. split; [reflexivity|]. repeat split; try assumption; unfold lenZ in *; try lia. }
  destruct S as (q1 & S & A' & O1 & R1 & B1). unfold fill. rewrite S. cbn [bind]. clear S.
  change (Z.of_nat (length (q_buf q1))) with (lenZ (q_buf q1)). rewrite B1, R1. unfold MAXRECLEN.
  specialize (D (q_reads q1) (10485760 - buflen q) (Z.of_nat (length (q_rest q))) ltac:(lia) ltac:(lia)).
  destruct (sch (q_reads q1) (10485760 - buflen q) (Z.of_nat (length (q_rest q)))) as [k e].
  destruct D as (D1 & D2 & D3 & D4).
  eexists. split.
  { f_equal. f_equal. destruct e; cbn [negb]; [apply andb_false_r|]. specialize (D4 eq_refl). lia. }
  destruct A' as (A1 & A2 & A3 & A4 & A5 & A6 & A7 & A8 & A9 & A10). rewrite O1 in *. cbn [Z.to_nat skipn] in A6.
  split; [|cbn [q_rest q_eof]; unfold lenZ; rewrite skipn_length; split; [lia|intros ->; specialize (D4 eq_refl); lia]].
  unfold at_pos. cbn [q_pos q_count q_end q_off q_buf q_rest q_eof].
  repeat split; try assumption; try lia.
  - apply lenZ_nonneg.
  - rewrite lenZ_app, B1. unfold lenZ. rewrite firstn_length. lia.
  - cbn [Z.to_nat skipn]. rewrite <- app_assoc, firstn_skipn. rewrite <- R1. exact A6.
  - intros ->. specialize (D3 eq_refl). apply skipn_all2. lia.
Qed.

(** ** A call *)

Lemma sel_true g m : selected g m = true -> (match g_select g with Some s => negb (s m) | None => false end) = false.
Proof. unfold selected. destruct (g_select g); [intros ->|]; reflexivity. Qed.

Lemma record_len g r m : bytes_ok r -> record_at g r (Ok (PRec m)) -> m_reclen m = length3 r.
Proof.
  intros B (S & M & L & E). pose proof (length3_ge r B).
  specialize (E 0). apply parse_reclen in E.
  - rewrite E. apply len3_first. lia.
  - now apply bytes_firstn.
  - unfold lenZ in *. rewrite firstn_length. lia.
  - rewrite sig3_first by lia. exact S.
  - rewrite len3_first by lia. exact M.
  - rewrite len3_first by lia. unfold lenZ in *. rewrite firstn_length. lia.
Qed.

Section Call.
  Variable g : rconf.
  Variable sch : schedule.
  Variable last : Z.
  Hypothesis HB : g_hb g = false.
  Hypothesis HD : delivers sch.
  Hypothesis HL : 0 <= last < 2 ^ 63 - 1.

  Definition call_gives (x : res (Z * option msr * stream)) (n : Z) (l : list (Z * msr)) (f : res Z) : Prop :=
    match l with
    | [] => match f with
            | Ok c => exists q', x = Ok (c, None, q') \/ (last <> 0 /\ n = 0 /\ c = 1 /\ x = Ok (-2, None, q'))
            | UB u => x = UB u
            | _ => False
            end
    | (p0, m) :: l' => exists q' r', x = Ok (0, Some m, q') /\ m_reclen m <= q_off q' /\ at_pos last q' (p0 + m_reclen m) r' (n + 1) /\
        reads g last (p0 + m_reclen m) r' (n + 1) l' f
    end.

  Definition within (p : Z) : Prop := last = 0 \/ 40 <= last + 1 - p.

  Lemma prelude fuel q pv p r n : at_pos last q p r n -> within p -> (0 < pv -> buflen q < 10485760) ->
    exists q1, read_loop (S fuel) g sch q pv = read_turn (read_loop fuel g sch) g q1 pv /\ at_pos last q1 p r n /\
      lenZ (q_rest q1) <= lenZ (q_rest q) /\
      (q_eof q1 = false -> buflen q < 40 \/ 0 < pv -> lenZ (q_rest q1) < lenZ (q_rest q)).
  Proof using HD HL.
    clear HB. intros A W V. cbn [read_loop].
    pose proof A as (A1 & A2 & A3 & A4 & A5 & A6 & A7 & A8 & A9 & A10). rewrite A3, A1.
    assert (T : exists t, (if last =? 0 then Ok 0
                  else let! x := sarith (g_mode g) 64 (last + 1) in sarith (g_mode g) 64 (x - p)) = Ok t /\
                  negb (last =? 0) && (t <? MINRECLEN) = false).
    { destruct (Z.eqb_spec last 0) as [Z0|Z0]; [exists 0; split; reflexivity|].
      pose proof (lenZ_nonneg r). rewrite sarith_ok by (unfold in_s; lia). cbn [bind]. rewrite sarith_ok by (unfold in_s; lia).
      eexists. split; [reflexivity|]. unfold within in W. unfold MINRECLEN. cbn [negb andb]. lia. }
    destruct T as (t & -> & T). cbn [bind]. rewrite T. unfold MINRECLEN.
    destruct (negb (q_eof q) && ((buflen q <? 40) || (0 <? pv))) eqn:C.
    - destruct (fill_ok sch last q p r n HD A) as (q' & F & A' & R1 & R2).
      + destruct (q_eof q); [discriminate|reflexivity].
      + destruct (Z.ltb_spec 0 pv); [auto|]. cbn in C. destruct (q_eof q); cbn in C; lia.
      + rewrite F. cbn [bind]. exists q'. auto.
    - cbn [bind]. exists q. split; [reflexivity|]. split; [exact A|]. split; [lia|].
      intros E N. rewrite E in C. cbn in C. lia.
  Qed.

  Lemma not_within q pv fuel p r n : at_pos last q p r n -> ~ within p ->
    read_loop (S fuel) g sch q pv = Ok (1, None, q).
  Proof using HL.
    clear HB HD. intros A W. cbn [read_loop]. pose proof A as (A1 & A2 & A3 & A4 & A5 & A6 & A7 & A8 & A9 & A10). rewrite A3, A1.
    unfold within in W. pose proof (lenZ_nonneg r). replace (last =? 0) with false by lia.
    rewrite sarith_ok by (unfold in_s; lia). cbn [bind]. rewrite sarith_ok by (unfold in_s; lia). cbn [bind]. unfold MINRECLEN.
    replace (last + 1 - p <? 40) with true by lia. reflexivity.
  Qed.

  (** What a turn parses. *)
  Lemma turn_flags q : Z.lor (if has_flag (g_flags g) MSF_UNPACKDATA && (match g_select g with Some _ => true | None => false end)
         then Z.ldiff (g_flags g) MSF_UNPACKDATA else g_flags g) (if q_eof q then MSF_ATENDOFFILE else 0)
    = Z.lor (parse_flags g) (if q_eof q then 16 else 0).
  Proof. reflexivity. Qed.

  Section Turn.
    Variable q : stream.
    Variables (p : Z) (r : list Z) (n : Z).
    Hypothesis A : at_pos last q p r n.
    Hypothesis B40 : 40 <= buflen q.
    Notation here := (skipn (Z.to_nat (q_off q)) (q_buf q)).
    Notation PH := (parse (g_unpack2 g) false (g_mode g) (g_base g + q_off q) (Z.lor (parse_flags g) (if q_eof q then 16 else 0)) here).

    Lemma here_facts : bytes_ok here /\ lenZ here = buflen q /\ (signature3 here <-> signature3 r) /\
      (signature2 here <-> signature2 r) /\ length3 here = length3 r /\ buflen q <= lenZ r /\ bytes_ok r.
    Proof using A B40.
      clear HB HD HL.
      pose proof (buflen_eq _ _ _ _ _ A) as [E E0]. pose proof (lenZ_nonneg (q_rest q)).
      pose proof A as (A1 & A2 & A3 & A4 & A5 & A6 & A7 & A8 & A9 & A10).
      rewrite (here_eq _ _ _ _ _ A). rewrite sig3_first, sig2_first, len3_first by lia.
      split; [now apply bytes_firstn|]. split; [unfold lenZ in *; rewrite firstn_length; lia|]. split; [reflexivity|]. split; [reflexivity|]. split; [reflexivity|]. split; [lia|exact A8].
    Qed.

    Lemma ph_record x : record_at g r x -> length3 r <= buflen q -> PH = x.
    Proof.
      intros (S & M & L & E) K. destruct here_facts as (B & H & F3 & F2 & FL & _).
      rewrite parse_eof; [|auto|lia|tauto|lia|lia|destruct (q_eof q); auto].
      rewrite parse_whole; [|auto|lia|tauto|lia|lia]. rewrite FL. rewrite (here_eq _ _ _ _ _ A).
      rewrite firstn_firstn. replace (Init.Nat.min _ _) with (Z.to_nat (length3 r)) by lia. apply E.
    Qed.

    Lemma ph_cut : signature3 r -> length3 r <= 10485760 -> buflen q < length3 r -> PH = Ok (PHint (length3 r - buflen q)).
    Proof.
      intros S M K. destruct here_facts as (B & H & F3 & F2 & FL & _).
      rewrite parse_cut; [|auto|lia|tauto|lia]. now rewrite FL, H.
    Qed.

    Lemma ph_none c : no_record g r c -> PH = Err c \/ (exists k, record_at g r (Err c) /\ PH = Ok (PHint k) /\ k = length3 r - buflen q /\ 0 < k).
    Proof.
      intros [(S3 & S2 & ->)|[(S & L & ->)|R]].
      - left. destruct here_facts as (B & H & F3 & F2 & FL & _). apply parse_noise; [lia|tauto|tauto].
      - left. destruct here_facts as (B & H & F3 & F2 & FL & _). apply parse_big; [lia|tauto|lia].
      - destruct (Z.le_gt_cases (length3 r) (buflen q)) as [K|K]; [left; now apply ph_record|right].
        destruct R as (S & M & L & E). exists (length3 r - buflen q). split; [unfold record_at; auto|]. split; [now apply ph_cut|]. lia.
    Qed.
  End Turn.

  Lemma loop_reads : forall fuel q pv p r n l f, at_pos last q p r n -> (0 < pv -> buflen q < 10485760) ->
    reads g last p r n l f ->
    2 * lenZ (q_rest q) + 2 * lenZ r + (if 0 <? pv then 0 else 1) < Z.of_nat fuel ->
    call_gives (read_loop fuel g sch q pv) n l f.
  Proof.
    induction fuel as [|fuel IH]; intros q pv p r n l f A V R HF.
    { pose proof (lenZ_nonneg (q_rest q)). pose proof (lenZ_nonneg r). exfalso. destruct (0 <? pv); lia. }
    assert (D : within p \/ ~ within p) by (unfold within; lia).
    destruct D as [W|W].
    2:{ rewrite (not_within q pv fuel p r n A W). unfold within in W.
        inversion R; subst; try (exfalso; tauto). cbn. eauto. }
    destruct (prelude fuel q pv p r n A W V) as (q1 & -> & A1 & R1 & R2).
    pose proof (buflen_eq _ _ _ _ _ A) as [E E0]. pose proof (buflen_eq _ _ _ _ _ A1) as [E1 E10].
    pose proof (lenZ_nonneg (q_rest q1)) as NN.
    assert (EOF0 : q_eof q1 = true -> lenZ (q_rest q1) = 0).
    { intros X. destruct A1 as (_ & _ & _ & _ & _ & _ & Y & _). now rewrite (Y X). }
    unfold read_turn. unfold MINRECLEN, MAXRECLEN.
    destruct (Z.ltb_spec (buflen q1) 40) as [S|S].
    { unfold turn_end. unfold MINRECLEN. replace (buflen q1 <? 40) with true by lia.
      destruct (q_eof q1) eqn:Ee; cbn [andb].
      - specialize (EOF0 eq_refl).
        assert (BR : bytes_ok r) by (apply A1).
        pose proof (length3_ge r BR).
        inversion R; subst; try (exfalso; unfold within in W; lia); try (exfalso; match goal with X : record_at _ _ _ |- _ => destruct X as (_ & _ & X & _); lia end).
        cbn [call_gives]. destruct A1 as (_ & -> & _). eexists. left. reflexivity.
      - eapply IH; [exact A1| |exact R|].
        + lia.
        + specialize (R2 eq_refl ltac:(lia)). destruct (0 <? pv); lia. }
    pose proof (here_facts q1 p r n A1 S) as (_ & _ & _ & _ & _ & BL & BR).
    pose proof (length3_ge r BR) as L40.
    (* the turn asks for more *)
    assert (MORE : length3 r <= 10485760 -> 0 < length3 r - buflen q1 -> q_eof q1 = false ->
      call_gives (turn_end (read_loop fuel g sch) q1 (length3 r - buflen q1)) n l f).
    { intros M K Ee. unfold turn_end. rewrite Ee. cbn [andb]. eapply IH; [exact A1|lia|exact R|].
      replace (0 <? length3 r - buflen q1) with true by lia.
      destruct (Z.ltb_spec 0 pv) as [P|P]; [specialize (R2 Ee ltac:(lia)); lia|lia]. }
    rewrite turn_flags, HB.
    (* a step of [k] bytes, then again *)
    assert (STEP : forall k pv' l' f', 0 < k <= buflen q1 ->
      reads g last (p + k) (skipn (Z.to_nat k) r) n l' f' ->
      call_gives (turn_end (read_loop fuel g sch) (advance q1 k) pv') n l' f').
    { intros k pv' l' f' K R'. pose proof (advance_ok _ _ _ _ _ k A1 ltac:(lia)) as A2.
      pose proof (buflen_eq _ _ _ _ _ A2) as [E2 E20].
      assert (LS : lenZ (skipn (Z.to_nat k) r) = lenZ r - k) by (unfold lenZ in *; rewrite skipn_length; lia).
      change (q_rest (advance q1 k)) with (q_rest q1) in *.
      unfold turn_end. unfold MINRECLEN. change (q_eof (advance q1 k)) with (q_eof q1).
      destruct (q_eof q1 && (buflen (advance q1 k) <? 40)) eqn:T.
      - assert (X : q_eof q1 = true) by (destruct (q_eof q1); [reflexivity|discriminate]). specialize (EOF0 X).
        rewrite X in T. cbn [andb] in T.
        assert (BR2 : bytes_ok (skipn (Z.to_nat k) r)) by now apply bytes_skipn.
        pose proof (length3_ge _ BR2).
        inversion R'; subst; try (exfalso; lia); try (exfalso; match goal with X : record_at _ _ _ |- _ => destruct X as (_ & _ & X & _); lia end).
        + cbn [call_gives]. destruct A2 as (_ & -> & _). eexists. destruct (Z.eqb_spec n 0); [right; repeat split; auto; fail|left; reflexivity].
        + cbn [call_gives]. destruct A2 as (_ & -> & _). eexists. left. reflexivity.
      - eapply IH; [exact A2| |exact R'|].
        + destruct A1 as (_ & _ & _ & A4 & A5 & _). unfold buflen, lenZ in *. lia.
        + rewrite LS. change (q_rest (advance q1 k)) with (q_rest q1). destruct (0 <? pv), (0 <? pv'); lia. }
    assert (HIT : forall x, record_at g r x ->
      (q_eof q1 = false /\ 0 < length3 r - buflen q1 /\ length3 r <= 10485760 /\
       parse (g_unpack2 g) false (g_mode g) (g_base g + q_off q1) (Z.lor (parse_flags g) (if q_eof q1 then 16 else 0))
         (skipn (Z.to_nat (q_off q1)) (q_buf q1)) = Ok (PHint (length3 r - buflen q1))) \/
      (length3 r <= buflen q1 /\
       parse (g_unpack2 g) false (g_mode g) (g_base g + q_off q1) (Z.lor (parse_flags g) (if q_eof q1 then 16 else 0))
         (skipn (Z.to_nat (q_off q1)) (q_buf q1)) = x)).
    { intros x X. destruct (Z.le_gt_cases (length3 r) (buflen q1)) as [K|K].
      - right. split; [exact K|]. now apply (ph_record q1 p r n A1 S).
      - left. destruct X as (S3 & M & L & _). split; [destruct (q_eof q1) eqn:Ee; [specialize (EOF0 eq_refl); lia|reflexivity]|].
        split; [lia|]. split; [exact M|]. now apply (ph_cut q1 p r n A1 S). }
    assert (MORE' : q_eof q1 = false /\ 0 < length3 r - buflen q1 /\ length3 r <= 10485760 ->
      call_gives (if 10485760 <? buflen q1 + (length3 r - buflen q1)
        then if has_flag (g_flags g) MSF_SKIPNOTDATA then turn_end (read_loop fuel g sch) (advance q1 SKIPLEN) (length3 r - buflen q1)
             else Ok (MS_OUTOFRANGE, None, q1)
        else if q_eof q1 then Ok (MS_ENDOFFILE, None, q1)
        else turn_end (read_loop fuel g sch) q1 (length3 r - buflen q1)) n l f).
    { intros (Ee & K & M). replace (10485760 <? _) with false by lia. rewrite Ee. now apply MORE. }
    assert (HERE : length3 r <= buflen q1 ->
      firstn (Z.to_nat (length3 r)) (skipn (Z.to_nat (q_off q1)) (q_buf q1)) = firstn (Z.to_nat (length3 r)) r).
    { intros K. rewrite (here_eq _ _ _ _ _ A1), firstn_firstn. f_equal. lia. }
    destruct R as [p r n K1 K2|p r n K1 K2|p r n c K1 K2 K3 K4|p r n c l f K1 K2 K3 K4 K5|p r n K1 K2 K3 K4|p r n m l f K1 K2 K3 K4
                  |p r n m m' l f K1 K2 K3 K4 K5|p r n m c K1 K2 K3 K4|p r n x K1 K2|p r n m x K1 K2 K3 K4].
    - exfalso. unfold within in W. lia.
    - exfalso. lia.
    - destruct (ph_none q1 p r n A1 S c K3) as [X|(k & RA & X & -> & PK)].
      + rewrite X. unfold MSF_SKIPNOTDATA. rewrite K4. cbn [call_gives]. eexists. left. reflexivity.
      + rewrite X. apply MORE'. destruct (HIT _ RA) as [(? & ? & ? & _)|(? & _)]; [auto|lia].
    - destruct (ph_none q1 p r n A1 S c K3) as [X|(k & RA & X & -> & PK)].
      + rewrite X. unfold MSF_SKIPNOTDATA, SKIPLEN. rewrite K4. apply STEP; [lia|]. exact K5.
      + rewrite X. apply MORE'. destruct (HIT _ RA) as [(? & ? & ? & _)|(? & _)]; [auto|lia].
    - rewrite (ph_cut q1 p r n A1 S K3) by lia. destruct (q_eof q1) eqn:Ee.
      + replace (10485760 <? _) with false by lia. cbn [call_gives]. eexists. left. reflexivity.
      + apply MORE'. repeat split; auto; lia.
    - destruct (HIT _ K2) as [(X1 & X2 & X3 & X)|(X1 & X)]; rewrite X; [now apply MORE'|].
      unfold selected in K3. destruct (g_select g) as [s|]; [|discriminate]. rewrite K3. cbn [negb].
      rewrite (record_len g r m BR K2). apply STEP; [lia|exact K4].
    - destruct (HIT _ K2) as [(X1 & X2 & X3 & X)|(X1 & X)]; rewrite X; [now apply MORE'|].
      pose proof (record_len g r m BR K2) as ML. rewrite (sel_true g m K3).
      unfold delivered, later in K4.
      assert (FIN : forall mm, m_reclen mm = length3 r -> mm = m' -> call_gives (Ok (MS_NOERROR, Some mm,
        mk_stream (q_buf (advance q1 (m_reclen mm))) (q_off (advance q1 (m_reclen mm))) (q_pos (advance q1 (m_reclen mm)))
          (q_count (advance q1 (m_reclen mm)) + 1) (q_end (advance q1 (m_reclen mm))) (q_rest (advance q1 (m_reclen mm)))
          (q_eof (advance q1 (m_reclen mm))) (q_reads (advance q1 (m_reclen mm))))) n ((p, m') :: l) f).
      { intros mm Lm <-. rewrite Lm. cbn [call_gives]. eexists. exists (skipn (Z.to_nat (length3 r)) r). split; [reflexivity|].
        rewrite Lm. split; [unfold at_pos in A1; cbn [q_off advance]; lia|]. split; [|exact K5]. pose proof (advance_ok _ _ _ _ _ (length3 r) A1 ltac:(lia)) as AA.
        unfold at_pos in *. cbn [q_pos q_count q_end q_off q_buf q_rest q_eof]. destruct AA as (B1 & B2 & B3). rewrite B2. auto. }
      unfold MSF_UNPACKDATA. destruct (has_flag (g_flags g) 1 && _ && (0 <? m_cnt m)).
      + specialize (K4 (g_base g + q_off q1)). rewrite ML, HERE by lia.
        destruct (unpack_data _ _ _ _ _) as [d| | |]; cbn [bind] in K4 |- *; try discriminate.
        injection K4 as K4. unfold with_data in K4. rewrite ML in K4. apply FIN; [reflexivity|exact K4].
      + cbn [bind]. injection K4 as K4. apply FIN; [exact ML|now symmetry].
    - destruct (HIT _ K2) as [(X1 & X2 & X3 & X)|(X1 & X)]; rewrite X; [now apply MORE'|].
      pose proof (record_len g r m BR K2) as ML. rewrite (sel_true g m K3). rewrite ML.
      unfold delivered, later in K4. unfold MSF_UNPACKDATA. destruct (has_flag (g_flags g) 1 && _ && (0 <? m_cnt m)); [|discriminate].
      specialize (K4 (g_base g + q_off q1)). rewrite HERE by lia.
      destruct (unpack_data _ _ _ _ _) as [d| | |]; cbn [bind] in K4 |- *; try discriminate. cbn [call_gives]. eexists. left. reflexivity.
    - destruct (HIT _ K2) as [(X1 & X2 & X3 & X)|(X1 & X)]; rewrite X; [now apply MORE'|reflexivity].
    - destruct (HIT _ K2) as [(X1 & X2 & X3 & X)|(X1 & X)]; rewrite X; [now apply MORE'|].
      pose proof (record_len g r m BR K2) as ML. rewrite (sel_true g m K3). rewrite ML.
      unfold delivered, later in K4. unfold MSF_UNPACKDATA. destruct (has_flag (g_flags g) 1 && _ && (0 <? m_cnt m)); [|discriminate].
      specialize (K4 (g_base g + q_off q1)). rewrite HERE by lia.
      destruct (unpack_data _ _ _ _ _) as [d| | |]; cbn [bind] in K4 |- *; try discriminate. injection K4 as ->. reflexivity.
  Qed.
End Call.

(** ** All calls *)

Lemma reads_final g last p r n l f : reads g last p r n l f -> (exists c, f = Ok c) \/ (exists u, f = UB u).
Proof. induction 1; eauto. Qed.

Lemma reads_count g last p r n l f : bytes_ok r -> reads g last p r n l f -> (length l <= length r)%nat.
Proof.
  intros B R. induction R as [p r n K1 K2|p r n K1 K2|p r n c K1 K2 K3 K4|p r n c l f K1 K2 K3 K4 K5 IH|p r n K1 K2 K3 K4|p r n m l f K1 K2 K3 K4 IH
                  |p r n m m' l f K1 K2 K3 K4 K5 IH|p r n m c K1 K2 K3 K4|p r n x K1 K2|p r n m x K1 K2 K3 K4]; cbn [length]; try lia.
  - specialize (IH (bytes_skipn _ _ B)). rewrite skipn_length in IH. lia.
  - specialize (IH (bytes_skipn _ _ B)). rewrite skipn_length in IH. lia.
  - specialize (IH (bytes_skipn _ _ B)). rewrite skipn_length in IH. destruct K2 as (_ & _ & L & _).
    pose proof (length3_ge r B). unfold lenZ in L. lia.
Qed.

Lemma read_all_reads g sch last : g_hb g = false -> delivers sch -> 0 <= last < 2 ^ 63 - 1 ->
  forall l q p r n f calls, at_pos last q p r n -> 0 <= n -> reads g last p r n l f -> (length l < calls)%nat ->
  read_all calls g sch q = outcome l f \/
  (last <> 0 /\ n = 0 /\ l = [] /\ f = Ok 1 /\ read_all calls g sch q = Ok ([], -2)).
Proof.
  intros HB HD HL. induction l as [|[p0 m] l IH]; intros q p r n f calls A N R C; destruct calls as [|calls]; try (cbn in C; lia);
    cbn [read_all]; unfold read_msr.
  all: pose proof (loop_reads g sch last HB HD HL (read_fuel q) q 0 p r n _ f A ltac:(lia) R) as X.
  all: assert (F : 2 * lenZ (q_rest q) + 2 * lenZ r + (if 0 <? 0 then 0 else 1) < Z.of_nat (read_fuel q)).
  1, 3: destruct A as (_ & _ & _ & _ & _ & <- & _); unfold read_fuel, lenZ; rewrite app_length, skipn_length; cbn [Z.ltb Z.compare]; lia.
  all: specialize (X F); clear F; cbn [call_gives] in X.
  - destruct f as [c| |u|]; try contradiction.
    + destruct X as (q' & [-> | (L0 & N0 & -> & ->)]); cbn [bind]; [left; reflexivity|right; auto].
    + rewrite X. left. reflexivity.
  - destruct X as (q' & r' & -> & _ & A' & R'). cbn [bind].
    destruct (IH q' _ _ _ f calls A' ltac:(lia) R' ltac:(cbn in C; lia)) as [-> | (_ & N0 & _)]; [|lia].
    assert (P : q_pos q' - m_reclen m = p0) by (destruct A' as (-> & _); lia). rewrite P. left.
    destruct (reads_final _ _ _ _ _ _ _ R') as [(c & ->)|(u & ->)]; reflexivity.
Qed.

Lemma opened_at file start last : bytes_ok file -> 0 <= start -> start + lenZ file < 2 ^ 63 ->
  at_pos last (opened file start last) start file 0.
Proof.
  intros B S L. unfold at_pos, opened. cbn [q_pos q_count q_end q_off q_buf q_rest q_eof].
  repeat split; auto; cbn; try lia.
Qed.

Lemma read_opened g sch file start last l f : g_hb g = false -> delivers sch -> 0 <= last < 2 ^ 63 - 1 -> bytes_ok file ->
  0 <= start -> start + lenZ file < 2 ^ 63 -> reads g last start file 0 l f ->
  read_all (S (length file)) g sch (opened file start last) = outcome l f \/
  (last <> 0 /\ l = [] /\ f = Ok 1 /\ read_all (S (length file)) g sch (opened file start last) = Ok ([], -2)).
Proof.
  intros HB HD HL B S0 L R.
  destruct (read_all_reads g sch last HB HD HL l _ _ _ 0 f (S (length file)) (opened_at file start last B S0 L) ltac:(lia) R) as [E|(E1 & _ & E)]; [|auto|right; auto].
  pose proof (reads_count _ _ _ _ _ _ _ B R). lia.
Qed.

(** ** Without unpacking every plain file has a reference result *)

Lemma time2nstime_fuel mode y d h mi s ns : time2nstime mode y d h mi s ns <> Fuel.
Proof.
  unfold time2nstime, time2nstime_int, sarith. repeat match goal with |- context [if ?b then _ else _] => destruct b; try discriminate end;
  cbn [bind]; repeat match goal with |- context [if ?b then _ else _] => destruct b; try discriminate end;
  destruct mode; try discriminate; cbn [bind]; repeat match goal with |- context [if ?b then _ else _] => destruct b; try discriminate end.
Qed.

Lemma parse_anywhere g r : bytes_ok r -> 40 <= lenZ r -> has_flag (parse_flags g) 1 = false -> signature3 r -> length3 r <= 10485760 ->
  length3 r <= lenZ r ->
  (exists m, record_at g r (Ok (PRec m))) \/ (exists c, record_at g r (Err c)) \/ (exists u, record_at g r (UB u)).
Proof.
  intros B H F S M L. destruct (layout_of r B H S M L) as (h & tail & Hh & Ht & E & EL).
  assert (X : forall addr, parse (g_unpack2 g) false (g_mode g) addr (parse_flags g) (firstn (Z.to_nat (length3 r)) r) =
    let! m := (if 64 <=? lenZ (h_sid h) then Err (-1)
       else if has_flag (parse_flags g) 4 && negb (h_crc h =? crc3 h) then Err (-7)
       else let! start := time2nstime (g_mode g) (h_year h) (h_day h) (h_hour h) (h_min h) (h_sec h) (h_nsec h) in
         if start =? NSTERROR then Err (-1) else Ok (rec_of false start h None)) in Ok (PRec m)).
  { intros addr. rewrite <- EL, E. unfold lenZ at 1. rewrite Nat2Z.id, firstn_app_exact by reflexivity.
    rewrite <- (app_nil_r (layout3 h)). rewrite parse_complete by (auto; constructor). rewrite unpack3_eq by (auto; constructor).
    unfold finish3. rewrite F. reflexivity. }
  pose proof (time2nstime_fuel (g_mode g) (h_year h) (h_day h) (h_hour h) (h_min h) (h_sec h) (h_nsec h)) as TF.
  destruct (64 <=? lenZ (h_sid h)); [right; left; eexists; unfold record_at; eauto|].
  destruct (_ && _); [right; left; eexists; unfold record_at; eauto|].
  destruct (time2nstime _ _ _ _ _ _ _) as [t| |u|]; cbn [bind] in X.
  - destruct (t =? NSTERROR); cbn [bind] in X; [right; left|left]; eexists; unfold record_at; eauto.
  - right. left. eexists; unfold record_at; eauto.
  - right. right. eexists; unfold record_at; eauto.
  - congruence.
Qed.

Lemma plain_skip k r : plain r -> plain (skipn k r).
Proof. intros P i H. rewrite skipn_skipn in *. apply P. exact H. Qed.

Lemma reads_total g last : has_flag (g_flags g) 1 = false -> forall k r p n, (length r < k)%nat -> bytes_ok r -> plain r ->
  exists l f, reads g last p r n l f.
Proof.
  intros NF. assert (LT : later g = false) by (unfold later; now rewrite NF).
  assert (PF : has_flag (parse_flags g) 1 = false) by (unfold parse_flags; now rewrite LT).
  induction k as [|k IH]; intros r p n K B P; [lia|].
  assert (D : (last = 0 \/ 40 <= last + 1 - p) \/ (last <> 0 /\ last + 1 - p < 40)) by lia.
  destruct D as [W|[W1 W2]]; [|do 2 eexists; now apply rd_limit].
  destruct (Z.lt_ge_cases (lenZ r) 40) as [S|S]; [do 2 eexists; now apply rd_short|].
  destruct (P 0%nat ltac:(cbn; lia)) as [P2 P3]. cbn [skipn] in P2, P3.
  assert (SK : forall c, no_record g r c -> exists l f, reads g last p r n l f).
  { intros c NR. destruct (has_flag (g_flags g) 2) eqn:F2.
    - destruct (IH (skipn 1 r) (p + 1) n) as (l & f & R).
      + rewrite skipn_length. unfold lenZ in S. lia.
      + now apply bytes_skipn.
      + now apply plain_skip.
      + exists l, f. eapply rd_skip; eauto.
    - do 2 eexists. eapply rd_stop; eauto. }
  destruct (valid3_sig r S) as [V [V'|V']].
  2:{ apply (SK (-2)). left. split; [intro X; apply V in X; congruence|]. auto. }
  assert (S3 : signature3 r) by now apply V. specialize (P3 S3).
  destruct (Z.lt_ge_cases 10485760 (length3 r)) as [M|M]; [apply (SK (-4)); right; left; auto|].
  destruct (Z.lt_ge_cases (lenZ r) (length3 r)) as [L|L]; [do 2 eexists; apply rd_cut; auto|].
  pose proof (length3_ge r B).
  assert (NX : forall p' n', exists l f, reads g last p' (skipn (Z.to_nat (length3 r)) r) n' l f).
  { intros. apply IH; [rewrite skipn_length; unfold lenZ in *; lia|now apply bytes_skipn|now apply plain_skip]. }
  destruct (parse_anywhere g r B S PF S3 M L) as [(m & R)|[(c & R)|(u & R)]].
  - destruct (selected g m) eqn:Se.
    + destruct (NX (p + length3 r) (n + 1)) as (l & f & R'). do 2 eexists. eapply rd_record; eauto. unfold delivered. rewrite LT. reflexivity.
    + destruct (NX (p + length3 r) n) as (l & f & R'). do 2 eexists. eapply rd_other; eauto.
  - apply (SK c). right. right. exact R.
  - do 2 eexists. eapply rd_ub; eauto.
Qed.

Lemma chunking g sch sch' file start last : g_hb g = false -> has_flag (g_flags g) 1 = false -> delivers sch -> delivers sch' ->
  0 <= last < 2 ^ 63 - 1 -> bytes_ok file -> plain file -> 0 <= start -> start + lenZ file < 2 ^ 63 ->
  let x := read_all (S (length file)) g sch (opened file start last) in
  let x' := read_all (S (length file)) g sch' (opened file start last) in
  x <> Fuel /\ (x' = x \/ (last <> 0 /\ exists c c', x = Ok ([], c) /\ x' = Ok ([], c') /\ In c [1; -2] /\ In c' [1; -2])).
Proof.
  intros HB NF D D' HL B P S0 L x x'.
  destruct (reads_total g last NF (S (length file)) file start 0 ltac:(lia) B P) as (l & f & R).
  destruct (read_opened g sch file start last l f HB D HL B S0 L R) as [E|(E1 & E2 & E3 & E)];
  destruct (read_opened g sch' file start last l f HB D' HL B S0 L R) as [E'|(E1' & E2' & E3' & E')];
    unfold x, x'; rewrite E, E'.
  - split; [|now left]. destruct (reads_final _ _ _ _ _ _ _ R) as [(c & ->)|(u & ->)]; discriminate.
  - subst l f. split; [discriminate|]. right. split; [assumption|]. exists 1, (-2). cbn. auto 10.
  - subst l f. split; [discriminate|]. right. split; [assumption|]. exists (-2), 1. cbn. auto 10.
  - split; [discriminate|now left].
Qed.

(** ** Files of records *)

Lemma has_flag_off a : has_flag (Z.ldiff a 1) 1 = false /\ has_flag (Z.ldiff a 1) 4 = has_flag a 4.
Proof.
  unfold has_flag. rewrite Z.ldiff_land, <- !Z.land_assoc. split.
  - change (Z.land (Z.lnot 1) 1) with 0. now rewrite Z.land_0_r.
  - reflexivity.
Qed.

Lemma layout_sig h tail : hdr_ok h -> signature3 (layout3 h ++ tail) /\ length3 (layout3 h ++ tail) = lenZ (layout3 h).
Proof.
  intros H. assert (G : 40 <= lenZ (layout3 h ++ tail)).
  { rewrite lenZ_app, layout3_len. pose proof (lenZ_nonneg (h_sid h)). pose proof (lenZ_nonneg (h_extra h)).
    pose proof (lenZ_nonneg (h_payload h)). pose proof (lenZ_nonneg tail). lia. }
  pose proof (detect_fixed h (h_sid h ++ h_extra h ++ h_payload h ++ tail) H) as D. rewrite <- layout3_app in D.
  assert (S : signature3 (layout3 h ++ tail)).
  { unfold hdr_ok in H. unfold signature3, layout3, fixed3. cbn [app nth le_bytes]. repeat split; tauto || lia. }
  split; [exact S|].
  rewrite layout3_app in *. unfold length3, stated_lengths, fixed3.
  unfold hdr_ok in H. cbn [app skipn le_bytes firstn le_val].
  rewrite layout3_len in *. unfold lenZ in *.
  destruct H as (_ & _ & _ & _ & _ & _ & _ & _ & _ & _ & _ & _ & _ & H1 & _ & H2 & _ & H3). lia.
Qed.

Lemma part_at g x tail : bytes_ok tail -> readable (g_mode g) (g_flags g) x ->
  record_at g (layout3 (pt_hdr x) ++ tail) (Ok (PRec (if later g then part_head x else part_rec x))) /\
  delivered g (layout3 (pt_hdr x) ++ tail) (if later g then part_head x else part_rec x) (Ok (part_rec x)).
Proof.
  intros B (_ & H & Sl & C & T & TN & DD). set (h := pt_hdr x) in *.
  destruct (layout_sig h tail H) as [S L].
  assert (FE : firstn (Z.to_nat (length3 (layout3 h ++ tail))) (layout3 h ++ tail) = layout3 h).
  { rewrite L. unfold lenZ. now rewrite Nat2Z.id, firstn_app_exact. }
  assert (PP : forall addr fl, has_flag fl 4 = has_flag (g_flags g) 4 -> parse (g_unpack2 g) false (g_mode g) addr fl (layout3 h) =
     let! m := finish3 false (g_mode g) addr fl h (pt_time x) in Ok (PRec m)).
  { intros addr fl F4. rewrite <- (app_nil_r (layout3 h)) at 1. rewrite parse_complete by (auto; constructor).
    rewrite unpack3_eq by (auto; constructor). replace (64 <=? lenZ (h_sid h)) with false by lia. rewrite F4.
    replace (has_flag (g_flags g) 4 && negb (h_crc h =? crc3 h)) with false.
    2:{ destruct (has_flag (g_flags g) 4); [|reflexivity]. rewrite (C eq_refl), Z.eqb_refl. reflexivity. }
    rewrite T. reflexivity. }
  assert (CN : 0 <= h_cnt h) by (unfold hdr_ok, in_u in H; tauto).
  split.
  - split; [exact S|]. split; [rewrite L; unfold hdr_ok in H; tauto|]. split; [rewrite L, lenZ_app; pose proof (lenZ_nonneg tail); lia|].
    intros addr. rewrite FE. unfold parse_flags. destruct (later g) eqn:LT.
    + rewrite PP by apply has_flag_off. unfold finish3. replace (pt_time x =? NSTERROR) with false by lia.
      rewrite (proj1 (has_flag_off _)). reflexivity.
    + rewrite PP by reflexivity. unfold finish3. replace (pt_time x =? NSTERROR) with false by lia.
      unfold part_rec. fold h. destruct (pt_data x) as [d|].
      * destruct DD as (D1 & D2 & D3). rewrite D1. replace (0 <? h_cnt h) with true by lia. cbn [andb]. rewrite D3. reflexivity.
      * destruct DD as [D|D]; rewrite D; cbn [andb]; [reflexivity|]. rewrite andb_false_r. reflexivity.
  - unfold delivered. destruct (later g) eqn:LT; cbn [andb]; [|reflexivity].
    change (m_cnt (part_head x)) with (h_cnt h).
    assert (HF : has_flag (g_flags g) 1 = true) by (unfold later in LT; destruct (has_flag (g_flags g) 1); [reflexivity|discriminate]).
    destruct (Z.ltb_spec 0 (h_cnt h)) as [K|K].
    + intros addr. rewrite FE. unfold part_head, part_rec. fold h. destruct (pt_data x) as [d|].
      * destruct DD as (D1 & D2 & D3). rewrite D3. reflexivity.
      * destruct DD; [congruence|lia].
    + unfold part_head, part_rec. destruct (pt_data x); [lia|reflexivity].
Qed.

Lemma bytes_file parts rest : Forall (fun x => bytes_ok (pt_junk x) /\ hdr_ok (pt_hdr x)) parts -> bytes_ok rest ->
  bytes_ok (file_of parts rest).
Proof.
  induction 1 as [|x parts [H1 H2] _ IH]; intros B; [exact B|]. cbn [file_of]. apply bytes_app. split; [exact H1|].
  apply bytes_app. split; [now apply layout3_ok|auto].
Qed.

Lemma selected_head g x : readable (g_mode g) (g_flags g) x -> selected g (if later g then part_head x else part_rec x) = selected g (part_head x).
Proof.
  intros (_ & _ & _ & _ & _ & _ & DD). destruct (later g) eqn:LT; [reflexivity|].
  unfold selected. destruct (g_select g) as [s|] eqn:Es; [|reflexivity]. unfold later in LT. rewrite Es, andb_true_r in LT.
  unfold part_rec, part_head. destruct (pt_data x); [|reflexivity]. destruct DD; congruence.
Qed.

Lemma reads_junk g p junk r n l f : has_flag (g_flags g) 2 = true -> 40 <= lenZ r -> no_headers (length junk) (junk ++ r) ->
  reads g 0 (p + lenZ junk) r n l f -> reads g 0 p (junk ++ r) n l f.
Proof.
  intros F. revert p. induction junk as [|c junk IH]; intros p L NH R.
  - cbn. replace (p + lenZ []) with p in R by (cbn; lia). exact R.
  - eapply (rd_skip _ _ _ _ _ (-2)); [now left| | |exact F|].
    + unfold lenZ in *. rewrite app_length. lia.
    + left. destruct (NH 0%nat ltac:(cbn; lia)) as [N3 N2]. cbn [skipn] in N3, N2. auto.
    + cbn [app skipn]. apply IH; [exact L| |].
      * intros i Hi. apply (NH (S i)). cbn. lia.
      * replace (p + 1 + lenZ junk) with (p + lenZ (c :: junk)) by (unfold lenZ; cbn [length]; lia). exact R.
Qed.

Lemma reads_end g p rest n : has_flag (g_flags g) 2 = true \/ lenZ rest < 40 -> no_headers (length rest) rest ->
  reads g 0 p rest n [] (Ok (if n =? 0 then -2 else 1)).
Proof.
  revert p. induction rest as [|c rest IH]; intros p F NH.
  - apply rd_short; [now left|cbn; lia].
  - destruct (Z.lt_ge_cases (lenZ (c :: rest)) 40) as [L|L]; [apply rd_short; [now left|exact L]|].
    destruct F as [F|F]; [|lia]. eapply (rd_skip _ _ _ _ _ (-2)); [now left|lia| |exact F|].
    + left. destruct (NH 0%nat ltac:(cbn; lia)) as [N3 N2]. cbn [skipn] in N3, N2. auto.
    + cbn [skipn]. apply IH; [now left|]. intros i Hi. apply (NH (S i)). cbn. lia.
Qed.

Lemma reads_file g parts rest : forall p n, 0 <= n ->
  Forall (readable (g_mode g) (g_flags g)) parts -> bytes_ok rest -> junk_ok parts rest ->
  has_flag (g_flags g) 2 = true \/ no_junk parts rest ->
  reads g 0 p (file_of parts rest) n (expected g p parts)
    (Ok (if n + lenZ (expected g p parts) =? 0 then -2 else 1)).
Proof.
  induction parts as [|x parts IH]; intros p n N R B J F.
  - cbn [file_of]. unfold expected. cbn [contents filter map]. replace (n + lenZ []) with n by (cbn; lia).
    apply reads_end; [|exact J]. destruct F as [F|[_ F]]; auto.
  - inversion_clear R as [|? ? Rx Rp]. destruct J as [Jx Jp]. cbn [file_of] in Jx |- *.
    assert (BT : bytes_ok (file_of parts rest)).
    { apply bytes_file; [|exact B]. eapply Forall_impl; [|exact Rp]. intros a Ha. unfold readable in Ha. tauto. }
    destruct (part_at g x _ BT Rx) as [RA DE].
    assert (Hh : hdr_ok (pt_hdr x)) by (unfold readable in Rx; tauto).
    destruct (layout_sig (pt_hdr x) (file_of parts rest) Hh) as [S L].
    assert (L40 : 40 <= lenZ (layout3 (pt_hdr x))).
    { rewrite layout3_len. pose proof (lenZ_nonneg (h_sid (pt_hdr x))). pose proof (lenZ_nonneg (h_extra (pt_hdr x))).
      pose proof (lenZ_nonneg (h_payload (pt_hdr x))). lia. }
    assert (F' : has_flag (g_flags g) 2 = true \/ no_junk parts rest).
    { destruct F as [F|[F1 F2]]; [now left|right]. inversion_clear F1. now split. }
    assert (CORE : forall p, reads g 0 p (layout3 (pt_hdr x) ++ file_of parts rest) n
      (expected g p (mk_part [] (pt_hdr x) (pt_time x) (pt_data x) :: parts))
      (Ok (if n + lenZ (expected g p (mk_part [] (pt_hdr x) (pt_time x) (pt_data x) :: parts)) =? 0 then -2 else 1))).
    { clear p. intros p. unfold expected. cbn [contents filter pt_junk pt_hdr snd]. replace (p + lenZ (@nil Z)) with p by (cbn; lia).
      change (part_head (mk_part [] (pt_hdr x) (pt_time x) (pt_data x))) with (part_head x).
      assert (SK : skipn (Z.to_nat (length3 (layout3 (pt_hdr x) ++ file_of parts rest))) (layout3 (pt_hdr x) ++ file_of parts rest) = file_of parts rest).
      { rewrite L. unfold lenZ. rewrite Nat2Z.id. now apply skipn_app_exact. }
      destruct (selected g (part_head x)) eqn:Se; cbn [map fst snd].
      - eapply rd_record; [now left|exact RA|rewrite selected_head; auto|exact DE|]. rewrite SK, L.
        specialize (IH (p + lenZ (layout3 (pt_hdr x))) (n + 1) ltac:(lia) Rp B Jp F'). unfold expected in IH.
        match goal with |- reads _ _ _ _ _ _ (Ok (if ?a =? 0 then _ else _)) => match type of IH with
          reads _ _ _ _ _ _ (Ok (if ?b =? 0 then _ else _)) => replace a with b; [exact IH|] end end.
        unfold lenZ. cbn [length]. lia.
      - eapply rd_other; [now left|exact RA|rewrite selected_head; auto|]. rewrite SK, L. apply IH; auto. }
    specialize (CORE (p + lenZ (pt_junk x))).
    assert (EE : expected g (p + lenZ (pt_junk x)) (mk_part [] (pt_hdr x) (pt_time x) (pt_data x) :: parts) = expected g p (x :: parts)).
    { unfold expected. cbn [contents pt_junk pt_hdr]. replace (p + lenZ (pt_junk x) + lenZ (@nil Z)) with (p + lenZ (pt_junk x)) by (cbn; lia).
      cbn [filter snd]. change (part_head (mk_part [] (pt_hdr x) (pt_time x) (pt_data x))) with (part_head x).
      destruct (selected g (part_head x)); reflexivity. }
    rewrite EE in CORE.
    assert (FC : has_flag (g_flags g) 2 = true \/ pt_junk x = []) by (destruct F as [F|[F1 _]]; [now left|right; now inversion_clear F1]).
    destruct FC as [FC|FC].
    + apply reads_junk; auto. rewrite lenZ_app. pose proof (lenZ_nonneg (file_of parts rest)). lia.
    + rewrite FC in CORE |- *. cbn [app]. replace (p + lenZ []) with p in CORE by (cbn; lia). exact CORE.
Qed.

Lemma file_read g sch parts rest : g_hb g = false -> delivers sch ->
  Forall (readable (g_mode g) (g_flags g)) parts -> bytes_ok rest -> junk_ok parts rest ->
  has_flag (g_flags g) 2 = true \/ no_junk parts rest -> lenZ (file_of parts rest) < 2 ^ 63 ->
  read_all (S (length (file_of parts rest))) g sch (opened (file_of parts rest) 0 0) =
  Ok (expected g 0 parts, if lenZ (expected g 0 parts) =? 0 then -2 else 1).
Proof.
  intros HB HD R B J F L.
  assert (BT : bytes_ok (file_of parts rest)).
  { apply bytes_file; [|exact B]. eapply Forall_impl; [|exact R]. intros a Ha. unfold readable in Ha. tauto. }
  pose proof (reads_file g parts rest 0 0 ltac:(lia) R B J F) as X.
  destruct (read_opened g sch _ 0 0 _ _ HB HD ltac:(lia) BT ltac:(lia) ltac:(lia) X) as [E|(E & _)]; [|lia].
  rewrite E. reflexivity.
Qed.
