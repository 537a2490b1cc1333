(** * Packing version 2 records: the results put together. *)

From Coq Require Import String.
From Verif Require Import Base BaseLemmas TimeModel TimeSpec TimeProof SteimSpec StrModel StrSpec RecModel RecSpec RecProof PackModel PackSpec PackData PackProof
  V2Model V2RecSpec V2RecProof V2RecParse V2Total SampleProof ConvSpec ConvModel ConvProof Pack2Model Pack2Spec Pack2Data Pack2Hdr Pack2Proof Pack2Rate Pack2Read.
Open Scope Z_scope.

(** ** The rate cannot be represented *)

Lemma header2_rate hb mode stack m k e buf : codes_ok k -> m_sid m = codes_sid k -> (64 <= length stack)%nat ->
  7 <= e <= 17 -> maxlen m = 2 ^ e -> in_s 64 (m_start m) ->
  match genfactmult mode (sampratehz (m_rate m)) with
  | Ok _ => True
  | Err c => pack_header2 hb mode stack m buf = Err c
  | UB u => pack_header2 hb mode stack m buf = UB u
  | Fuel => pack_header2 hb mode stack m buf = Fuel
  end.
Proof.
  intros K S St E M T. destruct (exp_is e E) as (X1 & X2 & X3).
  unfold pack_header2. cbv zeta. fold (maxlen m). fold (encoding_of m). rewrite M.
  replace ((2 ^ e <? 128) || (MAXRECLEN <? 2 ^ e)) with false by (unfold MAXRECLEN; lia). rewrite X1, X2. cbn [Z.eqb negb bind].
  destruct (sid_codes stack k K St) as (o & Eo & An & As & Al & Ac). rewrite S, Eo. cbn [bind]. rewrite An, As, Al, Ac. cbn [bind].
  pose proof K as ((Ln & _) & (Ls & _) & (Ll & _) & _). fold (lenZ (k_net k)) (lenZ (k_sta k)) (lenZ (k_loc k)).
  replace ((2 <? lenZ (k_net k)) || (5 <? lenZ (k_sta k)) || (2 <? lenZ (k_loc k)) || negb (Z.of_nat (length [k_band k; k_source k; k_sub k]) =? 3)) with false
    by (cbn [length]; lia).
  rewrite nstime2time_ok by exact T. unfold fields_of. cbv iota. destruct (genfactmult mode (sampratehz (m_rate m))) as [[? ?]|c|u|]; [exact I|reflexivity|reflexivity|reflexivity].
Qed.

Lemma pack2_rate fuel nexttime hb mode stack alloc m k e type src flags : codes_ok k -> m_sid m = codes_sid k -> (64 <= length stack)%nat ->
  7 <= e <= 17 -> maxlen m = 2 ^ e -> in_s 64 (m_start m) ->
  match genfactmult mode (sampratehz (m_rate m)) with
  | Ok _ => True
  | Err c => pack2 fuel nexttime hb mode stack alloc m type src flags = Ok ([], 0, false)
  | UB u => pack2 fuel nexttime hb mode stack alloc m type src flags = UB u
  | Fuel => pack2 fuel nexttime hb mode stack alloc m type src flags = Fuel
  end.
Proof.
  intros K S St E M T. pose proof (header2_rate hb mode stack m k e (repeat 0 48 ++ skipn 48 (firstn (Z.to_nat (2 ^ e)) alloc)) K S St E M T) as H.
  unfold pack2. cbv zeta. fold (maxlen m). fold (encoding_of m). destruct (exp_is e E) as (X1 & X2 & X3). rewrite M.
  replace ((2 ^ e <? 128) || (MAXRECLENv2 <? 2 ^ e)) with false by (unfold MAXRECLENv2; lia). rewrite X2. cbn [Z.eqb negb].
  destruct (genfactmult mode (sampratehz (m_rate m))) as [[? ?]|c|u|]; [exact I| | |]; rewrite H; reflexivity.
Qed.

(** ** Read back *)

Lemma total_nonneg2 m2 m src cap cs : forall k, chunks2_ok m2 m src cap k cs -> 0 <= total_of cs.
Proof.
  induction cs as [|[n p] cs IH]; intros k C; cbn [total_of]; [lia|]. cbn [chunks2_ok] in C.
  destruct C as [[(Pn & _) _] C]. specialize (IH _ C). lia.
Qed.

Lemma chunk_concat2 m2 m src cap cs : forall k, 0 <= k -> chunks2_ok m2 m src cap k cs ->
  concat (chunk_list src k cs) = firstn (Z.to_nat (total_of cs)) (skipn (Z.to_nat k) src).
Proof.
  induction cs as [|[n p] cs IH]; intros k Hk C; cbn [chunk_list total_of concat]; [reflexivity|]. cbn [chunks2_ok] in C.
  destruct C as [[(Pn & _) _] C]. rewrite IH by (auto; lia). pose proof (total_nonneg2 _ _ _ _ _ _ C).
  replace (Z.to_nat (k + n)) with (Z.to_nat n + Z.to_nat k)%nat by lia. rewrite <- skipn_skipn.
  set (l := skipn (Z.to_nat k) src). replace (Z.to_nat (n + total_of cs)) with (Z.to_nat n + Z.to_nat (total_of cs))%nat by lia.
  rewrite <- (firstn_skipn (Z.to_nat n) l) at 3. rewrite firstn_app, firstn_firstn.
  rewrite firstn_length. unfold lenZ in Pn. fold l in Pn.
  replace (Nat.min (Z.to_nat n + Z.to_nat (total_of cs)) (Z.to_nat n)) with (Z.to_nat n) by lia. f_equal. f_equal. lia.
Qed.

Lemma pack2_roundtrip J fuel nexttime hb hb2 m1 m2 addr stack alloc m k type src flags recs tot ok :
  headers_accepted J -> sendable m k -> (64 <= length stack)%nat -> maxlen m <= lenZ alloc ->
  packable m1 (encoding_of m) type src -> packable m2 (encoding_of m) type src -> src <> [] -> lenZ src < 2 ^ 32 -> readable m ->
  (forall i, in_s 64 (nexttime i)) -> (forall i, 0 <= i < lenZ src -> dated hb2 (record_time nexttime m i)) ->
  pack2 fuel nexttime hb m1 stack alloc m type src flags = Ok (recs, tot, ok) ->
  exists chunks, concat chunks = firstn (Z.to_nat tot) src /\ 0 <= tot <= lenZ src /\
    described (fun i c r => c <> [] /\ lenZ r = maxlen m /\ read_back2 J hb2 m2 addr nexttime m i c r) 0 recs chunks.
Proof.
  intros HJ (K & S & (e & He & M) & T & Hr & x & Ex) St La P1 P2 Hne Hn Rd Hx Ht E.
  pose proof (pack2_rate fuel nexttime hb m1 stack alloc m k e type src flags K S St He M T) as G.
  destruct (genfactmult m1 (sampratehz (m_rate m))) as [[f mu]|c|u|] eqn:Gf; try (rewrite E in G); try discriminate G.
  2:{ injection G as -> -> ->. exists []. split; [reflexivity|]. split; [pose proof (lenZ_nonneg src); lia|exact I]. }
  clear G. destruct (factors_range _ _ _ _ Gf) as [Hf Hm].
  pose proof (pack2_ok fuel nexttime hb m1 m2 stack alloc m k f mu e type src flags K S St He M T Gf P1 P2 Hne Hn Hx La) as Q. cbv zeta in Q.
  rewrite E in Q. destruct Q as [(cs & -> & C & -> & Hl & _) _].
  exists (chunk_list src 0 cs). pose proof (total_nonneg2 _ _ _ _ _ _ C).
  split; [rewrite (chunk_concat2 _ _ _ _ _ 0 ltac:(lia) C); reflexivity|]. split; [lia|].
  set (us := micros (m_start m)) in *. set (w := rate_blk m f mu) in *. set (gap := gap_of (encoding_of m) (hlen us w)) in *.
  set (off := data_at (encoding_of m) (hlen us w)) in *. set (cap := maxlen m - off) in *.
  assert (G : forall cs i, 0 <= i -> chunks2_ok m2 m src cap i cs ->
    described (fun i c r => c <> [] /\ lenZ r = maxlen m /\ read_back2 J hb2 m2 addr nexttime m i c r) i (emit2 nexttime m k f mu e gap cap i cs) (chunk_list src i cs)).
  { clear cs C H Hl E. induction cs as [|[n p] cs IH]; intros i Hi C; cbn [emit2 chunk_list described]; [exact I|].
    cbn [chunks2_ok] in C. destruct C as [[Pp Sm] C]. pose proof Pp as (Pn & Pb & _).
    assert (Lk : lenZ (skipn (Z.to_nat i) src) = Z.max 0 (lenZ src - i)) by (unfold lenZ; rewrite skipn_length; lia).
    assert (Lc : lenZ (firstn (Z.to_nat n) (skipn (Z.to_nat i) src)) = n) by (unfold lenZ in *; rewrite firstn_length; lia).
    destruct (lenZ_gap (encoding_of m) us w) as [Lg Rg]. fold gap off in Lg, Rg.
    split; [split; [|split]|].
    - intros Z0. rewrite Z0 in Lc. unfold lenZ in Lc. cbn [length] in Lc. lia.
    - unfold rec_at. unfold hdr_at. rewrite layout_len by exact K. fold us w. rewrite !lenZ_app. unfold lenZ at 3. rewrite repeat_length. unfold cap in *. lia.
    - apply (rec_reads J hb2 m2 addr nexttime m k f mu e type src cap i n p x); auto. apply Ht. lia.
    - rewrite Lc. apply IH; [lia|exact C]. }
  apply G; [lia|exact C].
Qed.

(** ** Everything is packed *)

Lemma steim_room enc hl : hl <= 76 -> data_at enc hl <= 128.
Proof. intros. unfold data_at. destruct ((enc =? 10) || (enc =? 11)); [destruct (hl <=? 64)|]; lia. Qed.

Lemma pack2_flush fuel nexttime hb mode stack alloc m k type src flags f :
  sendable m k -> (64 <= length stack)%nat -> maxlen m <= lenZ alloc ->
  packable mode (encoding_of m) type src -> src <> [] -> lenZ src < 65536 -> (forall i, in_s 64 (nexttime i)) ->
  genfactmult mode (sampratehz (m_rate m)) = Ok f -> has_flag flags 64 = true -> lenZ src < Z.of_nat fuel ->
  (is_steim (encoding_of m) = true -> 128 < maxlen m) -> storable (encoding_of m) src ->
  exists recs, pack2 fuel nexttime hb mode stack alloc m type src flags = Ok (recs, lenZ src, true).
Proof.
  intros (K & S & (e & He & M) & T & Hr & x & Ex) St La P Hne Hn Hx Gf Fl Hu Sp Sb. destruct f as [f mu].
  pose proof (pack2_ok fuel nexttime hb mode mode stack alloc m k f mu e type src flags K S St He M T Gf P P Hne ltac:(lia) Hx La) as Q. cbv zeta in Q.
  set (us := micros (m_start m)) in *. set (w := rate_blk m f mu) in *. 
  destruct (pack2 fuel nexttime hb mode stack alloc m type src flags) as [[[recs tot] ok]|c|u|].
  - destruct Q as [(cs & _ & _ & Ht & Hl & Q1 & [-> |(_ & [N|(n & p & (Pn & _) & Big)])]) _].
    + exists recs. rewrite Q1; auto.
    + exfalso. apply N. split; [|exact Sb]. unfold data_at. destruct (exp_is e He) as (_ & _ & X3). pose proof (hlen_cases us w).
      unfold min_payload. unfold is_steim in Sp. destruct ((encoding_of m =? 10) || (encoding_of m =? 11)) eqn:Es.
      * specialize (Sp eq_refl). assert (256 <= maxlen m). { rewrite M in *. destruct (Z.eq_dec e 7) as [->|]; [now cbn in Sp|]. change 256 with (2 ^ 8). apply Z.pow_le_mono_r; lia. }
        destruct (encoding_of m =? 0) eqn:?; [lia|]. destruct (encoding_of m =? 1) eqn:?; [lia|]. destruct ((encoding_of m =? 3) || (encoding_of m =? 4)) eqn:?; [lia|].
        destruct (encoding_of m =? 5) eqn:?; [lia|]. destruct (hlen us w <=? 64); lia.
      * assert (C : encoding_of m = 0 \/ encoding_of m = 1 \/ encoding_of m = 3 \/ encoding_of m = 4 \/ encoding_of m = 5).
        { clear - P Es. unfold packable in P. destruct P as [(C & _)|[(C & _)|[(C & _)|[(C & _)|[(C & _)|(C & _)]]]]]; lia. }
        destruct C as [C|[C|[C|[C|C]]]]; rewrite C; cbn [Z.eqb Pos.eqb orb]; clear - H M X3; lia.
    + exfalso. unfold lenZ in *. rewrite skipn_length in Pn. lia.
  - destruct Q as [[] _].
  - destruct Q as [[] _].
  - destruct Q as [_ Q]. exfalso. now apply Q.
Qed.

(** No fault but in the computation of the factors, and no Fuel outcome. *)
Lemma pack2_terminates fuel nexttime hb mode stack alloc m k type src flags :
  sendable m k -> (64 <= length stack)%nat -> maxlen m <= lenZ alloc ->
  packable mode (encoding_of m) type src -> src <> [] -> lenZ src < 2 ^ 32 -> (forall i, in_s 64 (nexttime i)) -> lenZ src < Z.of_nat fuel ->
  match genfactmult mode (sampratehz (m_rate m)) with
  | Ok _ => exists recs tot ok, pack2 fuel nexttime hb mode stack alloc m type src flags = Ok (recs, tot, ok) /\
      (has_flag flags 64 = true -> tot = lenZ src \/ ok = false)
  | Err _ => pack2 fuel nexttime hb mode stack alloc m type src flags = Ok ([], 0, false)
  | UB u => pack2 fuel nexttime hb mode stack alloc m type src flags = UB u
  | Fuel => pack2 fuel nexttime hb mode stack alloc m type src flags = Fuel
  end.
Proof.
  intros (K & S & (e & He & M) & T & Hr & x & Ex) St La P Hne Hn Hx Hu.
  pose proof (pack2_rate fuel nexttime hb mode stack alloc m k e type src flags K S St He M T) as G.
  destruct (genfactmult mode (sampratehz (m_rate m))) as [[f mu]|c|u|] eqn:Gf; auto. clear G.
  pose proof (pack2_ok fuel nexttime hb mode mode stack alloc m k f mu e type src flags K S St He M T Gf P P Hne ltac:(lia) Hx La) as Q. cbv zeta in Q.
  destruct (pack2 fuel nexttime hb mode stack alloc m type src flags) as [[[recs tot] ok]|c|u|].
  - destruct Q as [(cs & _ & _ & _ & _ & Q1 & Q2) _]. exists recs, tot, ok. split; [reflexivity|]. intros Fl. destruct ok; [left; auto|right; reflexivity].
  - destruct Q as [[] _].
  - destruct Q as [[] _].
  - destruct Q as [_ Q]. exfalso. now apply Q.
Qed.

(** ** Lengths *)

Lemma land_power n : 0 < n -> Z.land n (n - 1) = 0 -> n = 2 ^ Z.log2 n.
Proof.
  intros H L. pose proof (Z.log2_spec n H) as [A B]. destruct (Z.eq_dec n (2 ^ Z.log2 n)) as [E|N]; [exact E|exfalso].
  assert (L1 : Z.log2 (n - 1) = Z.log2 n) by (apply Z.log2_unique; [apply Z.log2_nonneg|lia]).
  pose proof (Z.bit_log2 n H) as B1. pose proof (Z.bit_log2 (n - 1)) as B2. rewrite L1 in B2.
  assert (0 < n - 1) by (pose proof (Z.log2_nonneg n); pose proof (ConvProof.pow_pos (Z.log2 n) ltac:(lia)); lia).
  specialize (B2 ltac:(lia)). pose proof (Z.land_spec n (n - 1) (Z.log2 n)) as C. rewrite L, Z.bits_0, B1, B2 in C. discriminate.
Qed.

Lemma log2_range n : 128 <= n < 262144 -> 7 <= Z.log2 n <= 17.
Proof.
  intros H. assert (A : Z.log2 128 <= Z.log2 n) by (apply Z.log2_le_mono; lia). assert (B : Z.log2 n <= Z.log2 262143) by (apply Z.log2_le_mono; lia).
  change (Z.log2 128) with 7 in A. change (Z.log2 262143) with 17 in B. split; assumption.
Qed.

Lemma pack2_length fuel nexttime hb mode stack alloc m type src flags : ~ reclen2_ok (maxlen m) ->
  pack2 fuel nexttime hb mode stack alloc m type src flags = Ok ([], 0, false).
Proof.
  intros N. unfold pack2. cbv zeta. fold (maxlen m).
  destruct ((maxlen m <? 128) || (MAXRECLENv2 <? maxlen m)) eqn:R; [reflexivity|].
  destruct (Z.eqb_spec (Z.land (maxlen m) (maxlen m - 1)) 0) as [L|L]; [|reflexivity].
  exfalso. apply N. apply orb_false_elim in R as [R1 R2]. apply Z.ltb_ge in R1, R2. unfold MAXRECLENv2 in R2.
  exists (Z.log2 (maxlen m)). split; [apply log2_range; clear - R1 R2; lia|]. apply land_power; [clear - R1; lia|exact L].
Qed.

(** ** No samples *)

Lemma put_encoding m k f mu nb t cnt off enc e us w rest : codes_ok k ->
  put 52 [0] (layout2 true (hdr_of m k f mu nb t cnt off) [] (blks_of enc e us w) rest) =
  Ok (layout2 true (hdr_of m k f mu nb t cnt off) [] (blks_of 0 e us w) rest).
Proof.
  intros K. rewrite !layout_eq. pose proof (fixed_len m k f mu nb t cnt off K) as L. set (F := fixed2 _ _ _) in *.
  assert (C : exists A Y, lenZ A = 4 /\ forall x, chain_bytes true 48 (blks_of x e us w) = A ++ [x] ++ Y).
  { unfold blks_of. set (c := (_ ++ _) : list (blk * list Z)).
    assert (B : forall x, 48 + blk_size (B1000 x 1 e 0) + lenZ (@nil Z) = 56) by reflexivity.
    exists (ord true 2 1000 ++ ord true 2 (match c with [] => 0 | _ => 56 end)), ([1; e; 0] ++ chain_bytes true 56 c).
    split; [rewrite lenZ_app, !lenZ_ord; reflexivity|]. intros x. cbn [chain_bytes]. rewrite B. cbn [blk_body blk_type app]. rewrite <- app_assoc. reflexivity. }
  destruct C as (A & Y & LA & C). rewrite !C. replace (F ++ (A ++ [enc] ++ Y) ++ rest) with ((F ++ A) ++ [enc] ++ (Y ++ rest)) by (now rewrite <- !app_assoc).
  rewrite put_mid; [now rewrite <- !app_assoc|rewrite lenZ_app; lia|reflexivity].
Qed.

Lemma pack2_empty J fuel nexttime hb hb2 m1 m2 addr stack alloc m k type flags f pf :
  headers_accepted J -> sendable m k -> (64 <= length stack)%nat -> maxlen m <= lenZ alloc ->
  genfactmult m1 (sampratehz (m_rate m)) = Ok f -> dated hb2 (m_start m) ->
  exists r rate datalen, pack2 fuel nexttime hb m1 stack alloc m type [] flags = Ok ([r], 0, true) /\ lenZ r = maxlen m /\
    rate_back (m_rate m) rate /\
    parse (unpack2 J hb2 m2 addr pf) hb2 m2 addr pf r =
    Ok (PRec (mk_msr (maxlen m) (negb hb2) (negb hb2) 2 (m_flags m mod 8) (m_sid m) (tenths (m_start m) + micros (m_start m) * 1000) rate 0
                     (version2 (m_pub m)) 0 0 (if micros (m_start m) =? 0 then [] else quality0) datalen None)).
Proof.
  intros HJ (K & S & (e & He & M) & T & Hr & x & Ex) St La G D. destruct f as [f mu]. destruct (factors_range _ _ _ _ G) as [Hf Hm].
  destruct (exp_is e He) as (X1 & X2 & X3).
  set (us := micros (m_start m)). set (w := rate_blk m f mu). set (t := m_start m) in *.
  set (bs := blks_of 0 e us w). set (h := hdr_of m k f mu (lenZ bs) t 0 0).
  set (rest := repeat 0 (Z.to_nat (maxlen m - hlen us w))).
  pose proof (hlen_cases us w) as HL.
  assert (Lr : lenZ rest = maxlen m - hlen us w) by (unfold rest, lenZ; rewrite repeat_length; lia).
  assert (PK : pack2 fuel nexttime hb m1 stack alloc m type [] flags = Ok ([layout2 true h [] bs rest], 0, true)).
  { unfold pack2. cbv zeta. fold (maxlen m). fold (encoding_of m). rewrite M.
    replace ((2 ^ e <? 128) || (MAXRECLENv2 <? 2 ^ e)) with false by (unfold MAXRECLENv2; lia). rewrite X2. cbn [Z.eqb negb].
    set (R := skipn 48 (firstn (Z.to_nat (2 ^ e)) alloc)).
    assert (LR : lenZ R = maxlen m - 48) by (subst R; unfold lenZ in *; rewrite skipn_length, firstn_length; lia). clearbody R.
    rewrite (header2_ok hb m1 stack m k f mu e R K S St He M T G LR). cbv zeta. fold t us w.
    rewrite put_encoding by exact K. cbn [bind].
    assert (Nb : lenZ (blks_of (encoding_of m) e us w) = lenZ bs) by (unfold bs, blks_of; destruct (us =? 0), w; reflexivity).
    rewrite Nb. fold h bs. unfold h, bs. rewrite !layout_eq.
    set (Q := skipn (Z.to_nat (hlen us w - 48)) R). assert (LQ : lenZ Q = maxlen m - hlen us w) by (unfold Q, lenZ in *; rewrite skipn_length; lia).
    rewrite <- M. fold rest. rewrite <- (app_nil_r Q). rewrite !app_assoc. rewrite <- (app_assoc _ Q []).
    rewrite put_mid; [now rewrite app_nil_r, <- !app_assoc|rewrite !lenZ_app, fixed_len, chain_len by exact K; lia|].
    unfold lenZ in *. lia. }
  assert (LR : lenZ (layout2 true h [] bs rest) = 2 ^ e) by (unfold h, bs; rewrite layout_len by exact K; fold bs; lia).
  assert (Hw : match w with Some w => in_u 32 w | None => True end).
  { unfold w, rate_blk. destruct (dlt _ _); [|exact I]. destruct (double_float _ Hr) as (R & _). unfold in_u. exact R. }
  assert (Z16 : in_u 16 0) by (unfold in_u; lia). assert (Z8 : in_u 8 0) by (unfold in_u; lia).
  assert (HF : hdr2_ok h) by (unfold h, bs, us; eapply header_fine; eassumption).
  assert (CF : chain_ok bs) by (unfold bs, us; eapply chain_fine; eassumption).
  assert (OF : order_seen hb2 true h) by (unfold h, bs, us; eapply order_fine; eassumption).
  assert (SF : states_length (2 ^ e) bs) by (unfold bs, us; eapply states_fine; eassumption).
  assert (Bz : forall j, bytes_ok (repeat 0 j)) by (induction j; constructor; [unfold byte_ok; lia|assumption]).
  assert (Cl : lenZ (chain_bytes true 48 bs) = hlen us w - 48) by apply chain_len.
  assert (WF : well_formed true h [] bs rest []).
  { split; [exact HF|]. split; [exact CF|]. split; [constructor|]. split; [apply Bz|]. split; [constructor|].
    split; [rewrite (@lenZ_nil Z); lia|]. split; [unfold MAXRECLEN; lia|]. change (48 + lenZ (@nil Z)) with 48. rewrite Cl. lia. }
  destruct (parse_whole J hb2 true m2 addr pf h [] bs rest [] HJ WF OF ltac:(rewrite LR; exact SF)) as [PW _].
  destruct (PW (or_intror eq_refl)) as (rate & RO & PE). rewrite app_nil_r in PE.
  assert (RF : exists datalen, rec2_of J hb2 true h bs (lenZ (layout2 true h [] bs rest)) rate =
    mk_msr (2 ^ e) (negb hb2) (negb hb2) 2 (m_flags m mod 8) (codes_sid k) (tenths t + us * 1000) rate 0 (version2 (m_pub m)) 0 0
           (if us =? 0 then [] else quality0) datalen None) by (unfold h, bs, us; eapply record_fine; eassumption).
  destruct RF as (dl & RF). exists (layout2 true h [] bs rest), rate, dl. split; [exact PK|]. split; [lia|]. split.
  - apply (rate_returns m f mu h bs rate x Hr Ex Hf Hm eq_refl eq_refl); [|exact RO]. unfold bs, blks_of, w. destruct (us =? 0), (rate_blk m f mu); reflexivity.
  - rewrite PE, RF. rewrite M, S. reflexivity.
Qed.

(** Text of more than 65535 characters in records of 131072 bytes is not packed. *)
Lemma pack2_long_text fuel nexttime hb mode stack alloc m k type src flags f mu :
  codes_ok k -> m_sid m = codes_sid k -> (64 <= length stack)%nat -> maxlen m = 2 ^ 17 -> in_s 64 (m_start m) ->
  genfactmult mode (sampratehz (m_rate m)) = Ok (f, mu) -> maxlen m <= lenZ alloc -> encoding_of m = 0 -> type = 116 ->
  has_flag flags 64 = true -> 65535 < lenZ src < 2 ^ 31 -> (0 < fuel)%nat ->
  pack2 fuel nexttime hb mode stack alloc m type src flags = Ok ([], 0, false).
Proof.
  intros K S St M T G La En Ty Fl Hs Hf. destruct fuel as [|fuel]; [lia|].
  unfold pack2. cbv zeta. fold (maxlen m). fold (encoding_of m). rewrite En, Ty. change (has_flag flags MSF_FLUSHDATA) with (has_flag flags 64). rewrite Fl.
  assert (He : 7 <= 17 <= 17) by lia. destruct (exp_is 17 He) as (X1 & X2 & X3). rewrite M.
  replace ((2 ^ 17 <? 128) || (MAXRECLENv2 <? 2 ^ 17)) with false by reflexivity. rewrite X2. cbn [Z.eqb negb].
  set (R := skipn 48 (firstn (Z.to_nat (2 ^ 17)) alloc)).
  assert (LR : lenZ R = maxlen m - 48) by (subst R; unfold lenZ in *; rewrite skipn_length, firstn_length; lia). clearbody R.
  rewrite (header2_ok hb mode stack m k f mu 17 R K S St He M T G LR). cbv zeta.
  set (us := micros (m_start m)). set (w := rate_blk m f mu).
  pose proof (hlen_cases us w) as Hl.
  destruct src as [|x src0] eqn:Esrc; [cbn in Hs; lia|]. rewrite <- Esrc in *. clear Esrc.
  change (samplesize 116 =? 0) with false. cbn [Z.eqb Pos.eqb orb]. cbn [bind]. rewrite layout_eq, put_off by exact K. cbn [bind].
  cbn [pack_loop2]. rewrite orb_true_r. fold (lenZ src).
  unfold pack_data. cbn [Z.eqb Pos.eqb negb andb]. unfold encode_text. rewrite Z.sub_0_r. cbn [Z.to_nat skipn].
  assert (Eu : uwrap 64 (swrap 32 (lenZ src)) = lenZ src).
  { unfold swrap, uwrap. rewrite (Z.mod_small (lenZ src)) by lia. replace (lenZ src <? 2 ^ (32 - 1)) with true by lia. apply Z.mod_small. lia. }
  rewrite Eu. rewrite firstn_all2 by (unfold lenZ; lia). destruct src as [|y s]; [cbn in Hs; lia|].
  fold (lenZ (y :: s)). replace (2 ^ 17 - hlen us w =? 0) with false by lia.
  replace (65535 <? (if lenZ (y :: s) <? 2 ^ 17 - hlen us w then lenZ (y :: s) else 2 ^ 17 - hlen us w)) with true; [reflexivity|].
  destruct (lenZ (y :: s) <? 2 ^ 17 - hlen us w); lia.
Qed.
