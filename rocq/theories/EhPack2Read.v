(** * Reading packed version 2 records with extra headers. *)

From Coq Require Import String QArith.
From Verif Require Import Base BaseLemmas TimeModel TimeSpec TimeProof SteimSpec StrModel RecModel RecSpec RecProof PackModel PackSpec PackData PackProof
  ConvSpec ConvProof EhModel EhSpec V2Model V2Total V2RecSpec V2RecProof V2RecParse V2Rate SampleProof Pack2Model Pack2Spec Pack2Data Pack2Hdr Pack2Rate Pack2Read Pack2All
  EhPackModel EhPackSpec EhPackProof EhPackHdr EhPackRead EhPack2Model EhPack2Spec EhPack2Proof.
Open Scope Z_scope.
Open Scope list_scope.

(** ** One record *)

Lemma recx_reads J hb mode addr nexttime m k f mu e type src cap i n p x j h bs :
  let enc := encoding_of m in let hl := header_size bs in
  let gap := gapx enc hl in let off := data_begin enc hl in
  headers_accepted J -> codes_ok k -> m_sid m = codes_sid k -> 7 <= e <= 17 -> maxlen m = 2 ^ e -> cap = maxlen m - off ->
  in_s 16 f -> in_s 16 mu -> 0 <= m_rate m < 2 ^ 64 -> dval (m_rate m) = DFin x ->
  document_ok j -> document_kept j -> header_says j m k f mu h -> in_s 32 (f_corr h) ->
  blockettes_say j enc e (micros (m_start m)) (rate_blk m f mu) bs ->
  packable mode enc type src -> readable_at m hl -> dated hb (record_time nexttime m i) ->
  payload2_of mode enc (skipn (Z.to_nat i) src) cap n p -> n <= 65535 ->
  read_backx J hb mode addr nexttime m h bs i (firstn (Z.to_nat n) (skipn (Z.to_nat i) src)) (recx_at nexttime m h bs gap cap i n p).
Proof.
  intros enc hl gap off HJ K S He M Cp Hf Hm Hr Ex Dok Dk Hh Ic Hb Pk Rd T Pp Sm.
  pose proof Pp as (Pn & Pb & Pbk & Pl & Pf & Pd).
  destruct (header_least _ _ _ _ _ _ Hb) as [Nb Hl]. fold hl in Hl. pose proof (says_sized _ _ _ _ _ _ K Hh) as Sz.
  destruct (lenZ_gapx enc hl ltac:(lia)) as [Lg Rg]. fold gap off in Lg, Rg.
  destruct (packable_enc _ _ _ _ Pk) as (E1 & E2 & _ & E3).
  destruct (exp_is e He) as (_ & _ & X3).
  set (us := micros (m_start m)) in *. set (w := rate_blk m f mu) in *.
  assert (Hw : match w with Some w => in_u 32 w | None => True end) by now apply rate_blk_range.
  assert (Hn : in_u 16 n) by (unfold in_u; lia).
  assert (Oe : off < 65536).
  { unfold readable_at in Rd. fold enc in Rd. fold off in Rd. destruct (is_steim enc); lia. }
  assert (Ho : in_u 16 off) by (unfold in_u; lia).
  set (t := record_time nexttime m i) in *.
  set (h' := with_data h t n off).
  assert (Hr2 : recx_at nexttime m h bs gap cap i n p = layout2 true h' [] bs (gap ++ p ++ repeat 0 (Z.to_nat (cap - lenZ p)))).
  { unfold recx_at, hdrx_at. fold t hl. unfold h'. replace (hl + lenZ gap) with off by lia. reflexivity. }
  rewrite Hr2. set (tail := repeat 0 (Z.to_nat (cap - lenZ p))).
  assert (Lt : lenZ tail = cap - lenZ p) by (unfold tail, lenZ in *; rewrite repeat_length; lia).
  assert (LR : lenZ (layout2 true h' [] bs (gap ++ p ++ tail)) = 2 ^ e).
  { rewrite layoutx_len by (exact Nb || exact Sz). rewrite !lenZ_app. fold hl. lia. }
  assert (HF : hdr2_ok h') by (unfold h'; eapply hdrx_fine; eassumption).
  assert (CF : chain_ok bs) by (eapply chainx_fine; eassumption).
  assert (OF : order_seen hb true h') by (unfold h'; now apply orderx_fine).
  assert (SF : states_length (2 ^ e) bs) by (eapply statesx_fine; eassumption).
  assert (LF : last_1000 bs = Some (enc, true, 2 ^ e)) by (eapply lastx_fine; eassumption).
  assert (Bz : forall j, bytes_ok (repeat 0 j)) by (induction j0; constructor; [unfold byte_ok; lia|assumption]).
  assert (Br : bytes_ok (gap ++ p ++ tail)) by (unfold bytes_ok; rewrite !Forall_app; split; [apply Bz|split; [exact Pbk|apply Bz]]).
  assert (Cl : lenZ (chain_bytes true 48 bs) = hl - 48) by (unfold hl, header_size; lia).
  assert (L0 : 0 < lenZ (gap ++ p ++ tail) + lenZ (@nil Z)) by (rewrite !lenZ_app, (@lenZ_nil Z); lia).
  assert (Ls : 64 <= lenZ (layout2 true h' [] bs (gap ++ p ++ tail)) <= MAXRECLEN) by (unfold MAXRECLEN; lia).
  assert (Fi : 48 + lenZ (@nil Z) + lenZ (chain_bytes true (48 + lenZ (@nil Z)) bs) < 65536).
  { change (48 + lenZ (@nil Z)) with 48. rewrite Cl. lia. }
  destruct (unpack_layout J hb true mode addr 1 h' [] bs (gap ++ p ++ tail) [] HJ HF CF (Forall_nil _) Br (Forall_nil _) L0 OF Ls Fi) as (rate & RO & UN).
  assert (Ff : f_fact h' = f /\ f_mult h' = mu) by (destruct Hh as (q0 & a0 & io0 & dq0 & corr0 & nb0 & Eh & _); unfold h'; rewrite Eh; split; reflexivity).
  assert (RB : rate_back (m_rate m) rate).
  { apply (rate_returns m f mu h' bs rate x Hr Ex Hf Hm (proj1 Ff) (proj2 Ff)); [|exact RO]. fold w. eapply last100_fine; eassumption. }
  destruct (recx_fine j m enc e w bs Hb He Hw J hb k f mu h t n off (lenZ (layout2 true h' [] bs (gap ++ p ++ tail))) rate K S Hh) as (dl & RF).
  fold h' us in RF.
  exists rate, dl. split; [exact RB|].
  assert (UD : unpack_data hb mode addr (layout2 true h' [] bs (gap ++ p ++ tail)) (rec2_of J hb true h' bs (lenZ (layout2 true h' [] bs (gap ++ p ++ tail))) rate)
    = Ok (SInt (firstn (Z.to_nat n) (skipn (Z.to_nat i) src)))).
  { apply (payload_layout J hb mode addr h' bs gap p tail enc (skipn (Z.to_nat i) src) cap n rate HF Ls).
    - rewrite LR. exact LF.
    - rewrite Cl. change (f_data h') with off. lia.
    - reflexivity.
    - exact Pp.
    - exact E1.
    - exact E3.
    - exact E2.
    - intros St. split; [|unfold readable_at in Rd; fold enc in Rd; rewrite St in Rd; lia].
      intros N. revert St E1 N Pk. unfold packable.
      intros St E1' N [(Z0 & _)|[(Z0 & _)|[(Z0 & _)|[(Z0 & _)|[(Z0 & _)|([Z0|Z0] & _)]]]]]; rewrite Z0 in *; discriminate.
    - intros St. rewrite LR. change (f_data h') with off. unfold readable_at in Rd. fold enc in Rd. rewrite St in Rd. fold off in Rd.
      assert (E64 : 2 ^ e = 64 * 2 ^ (e - 6)) by (rewrite <- (Z.pow_add_r 2 6) by lia; f_equal; lia).
      split; [lia|]. split; [unfold off, data_begin; rewrite St; lia|]. left. lia.
    - destruct Hh as (q0 & a0 & io0 & dq0 & corr0 & nb0 & Eh & _). unfold h'. rewrite Eh. cbn. lia. }
  rewrite <- parse_mem_eq. rewrite <- (app_nil_r (layout2 true h' [] bs (gap ++ p ++ tail))).
  rewrite (parse_layout J hb true mode addr 1 _ h' [] bs (gap ++ p ++ tail) [] HJ HF CF (Forall_nil _) Br (Forall_nil _) L0 OF Ls);
    [|rewrite LR; exact SF|rewrite app_nil_r; lia|exact Fi].
  rewrite UN. cbv zeta. change (f_cnt h') with n. replace (has_flag 1 MSF_UNPACKDATA && (0 <? n)) with true by (change (has_flag 1 MSF_UNPACKDATA) with true; cbn [andb]; lia).
  rewrite app_nil_r, UD. cbn [bind]. rewrite RF. unfold with_samples.
  cbn [m_reclen m_swaph m_swapp m_fver m_flags m_sid m_start m_rate m_enc m_pub m_cnt m_crc m_extra m_datalen].
  rewrite M. repeat f_equal. unfold lenZ in *. rewrite firstn_length. lia.
Qed.

(** ** With samples *)

Lemma packx_all J rd fuel nexttime hb hb2 m1 m2 addr stack alloc m k f mu j type src flags :
  headers_accepted J -> sendable m k -> (64 <= List.length stack)%nat -> maxlen m <= lenZ alloc ->
  doc_of rd m j -> document_ok j -> document_kept j -> genfactmult m1 (sampratehz (m_rate m)) = Ok (f, mu) ->
  packable m1 (encoding_of m) type src -> packable m2 (encoding_of m) type src -> src <> [] -> lenZ src < 2 ^ 32 ->
  (forall i, in_s 64 (nexttime i)) -> (forall i, 0 <= i < lenZ src -> dated hb2 (record_time nexttime m i)) ->
  exists h e w bs, maxlen m = 2 ^ e /\ header_says j m k f mu h /\ blockettes_say j (encoding_of m) e (micros (m_start m)) w bs /\
    (readable_at m (header_size bs) -> forall recs tot ok, pack2x rd fuel nexttime hb m1 stack alloc m type src flags = Ok (recs, tot, ok) ->
     exists chunks, concat chunks = firstn (Z.to_nat tot) src /\ 0 <= tot <= lenZ src /\
       described (fun i c r => c <> [] /\ lenZ r = maxlen m /\ read_backx J hb2 m2 addr nexttime m h bs i c r) 0 recs chunks).
Proof.
  intros HJ (K & S & (e & He & M) & T & Hr & x & Ex) St La Dj Dok Dk G P1 P2 Hne Hn Hx Ht. destruct (factors_range _ _ _ _ G) as [Hf Hm].
  destruct (exp_is e He) as (X1 & X2 & X3).
  assert (LR : lenZ (skipn 48 (firstn (Z.to_nat (2 ^ e)) alloc)) = maxlen m - 48) by (unfold lenZ in *; rewrite skipn_length, firstn_length; lia).
  destruct (header2x_ok rd hb m1 stack m k f mu e _ j K S St He M T G LR Dj Dok) as (h & bs & Hh & Hc & Ic & Hb & PK).
  exists h, e, (rate_blk m f mu), bs. split; [exact M|]. split; [exact Hh|]. split; [exact Hb|]. intros Rd recs tot ok E.
  pose proof (pack2x_ok rd fuel nexttime hb m1 m2 stack alloc m k f mu e type src flags j h bs K He M P1 P2 Hne Hn Hx La Hh Hb PK) as Q. cbv zeta in Q.
  rewrite E in Q. destruct (header_least _ _ _ _ _ _ Hb) as [Nb Hl]. pose proof (says_sized _ _ _ _ _ _ K Hh) as Sz.
  set (hl := header_size bs) in *. destruct (hl <=? maxlen m).
  2:{ injection Q as -> -> ->. exists []. split; [reflexivity|]. split; [pose proof (lenZ_nonneg src); lia|exact I]. }
  destruct Q as [(cs & -> & C & -> & Hle & _) _].
  exists (chunk_list src 0 cs). pose proof (total_nonneg2 _ _ _ _ _ _ C).
  split; [rewrite (chunk_concat2 _ _ _ _ _ 0 ltac:(lia) C); reflexivity|]. split; [lia|].
  set (gap := gapx (encoding_of m) hl) in *. set (off := data_begin (encoding_of m) hl) in *. set (cap := maxlen m - off) in *.
  assert (GG : forall cs i, 0 <= i -> Pack2Proof.chunks2_ok m2 m src cap i cs ->
    described (fun i c r => c <> [] /\ lenZ r = maxlen m /\ read_backx J hb2 m2 addr nexttime m h bs i c r) i (emitx nexttime m h bs gap cap i cs) (chunk_list src i cs)).
  { clear cs C H Hle E. induction cs as [|[n p] cs IH]; intros i Hi C; cbn [emitx chunk_list described]; [exact I|].
    cbn [Pack2Proof.chunks2_ok] in C. destruct C as [[Pp Sm] C]. pose proof Pp as (Pn & Pb & _).
    assert (Lk : lenZ (skipn (Z.to_nat i) src) = Z.max 0 (lenZ src - i)) by (unfold lenZ; rewrite skipn_length; lia).
    assert (Lc : lenZ (firstn (Z.to_nat n) (skipn (Z.to_nat i) src)) = n) by (unfold lenZ in *; rewrite firstn_length; lia).
    destruct (lenZ_gapx (encoding_of m) hl ltac:(lia)) as [Lg Rg]. fold gap off in Lg, Rg.
    split; [split; [|split]|].
    - intros Z0. rewrite Z0 in Lc. unfold lenZ in Lc. cbn [List.length] in Lc. lia.
    - unfold recx_at. rewrite layoutx_len by (exact Nb || exact Sz). fold hl. rewrite !lenZ_app. unfold lenZ at 3. rewrite repeat_length. unfold cap in *. lia.
    - apply (recx_reads J hb2 m2 addr nexttime m k f mu e type src cap i n p x j h bs); auto. apply Ht. lia.
    - rewrite Lc. apply IH; [lia|exact C]. }
  apply GG; [lia|exact C].
Qed.

Lemma packx_goes rd fuel nexttime hb mode stack alloc m k f mu j type src flags :
  sendable m k -> (64 <= List.length stack)%nat -> maxlen m <= lenZ alloc ->
  doc_of rd m j -> document_ok j -> genfactmult mode (sampratehz (m_rate m)) = Ok (f, mu) ->
  packable mode (encoding_of m) type src -> src <> [] -> lenZ src < 2 ^ 32 ->
  (forall i, in_s 64 (nexttime i)) -> lenZ src < Z.of_nat fuel ->
  exists e w bs, maxlen m = 2 ^ e /\ blockettes_say j (encoding_of m) e (micros (m_start m)) w bs /\
    exists recs tot ok, pack2x rd fuel nexttime hb mode stack alloc m type src flags = Ok (recs, tot, ok) /\
      (has_flag flags 64 = true -> tot = lenZ src \/ ok = false) /\
      (has_flag flags 64 = true -> lenZ src < 65536 -> storable (encoding_of m) src ->
       min_payload (encoding_of m) <= maxlen m - data_begin (encoding_of m) (header_size bs) -> tot = lenZ src /\ ok = true) /\
      (maxlen m < header_size bs -> recs = [] /\ tot = 0 /\ ok = false).
Proof.
  intros (K & S & (e & He & M) & T & Hr & x & Ex) St La Dj Dok G P Hne Hn Hx Hu.
  destruct (exp_is e He) as (X1 & X2 & X3).
  assert (LR : lenZ (skipn 48 (firstn (Z.to_nat (2 ^ e)) alloc)) = maxlen m - 48) by (unfold lenZ in *; rewrite skipn_length, firstn_length; lia).
  destruct (header2x_ok rd hb mode stack m k f mu e _ j K S St He M T G LR Dj Dok) as (h & bs & Hh & Hc & Ic & Hb & PK).
  exists e, (rate_blk m f mu), bs. split; [exact M|]. split; [exact Hb|].
  pose proof (pack2x_ok rd fuel nexttime hb mode mode stack alloc m k f mu e type src flags j h bs K He M P P Hne Hn Hx La Hh Hb PK) as Q. cbv zeta in Q.
  destruct (header_least _ _ _ _ _ _ Hb) as [Nb Hl].
  assert (L1 : 1 <= lenZ src) by (destruct src; [congruence|unfold lenZ; cbn [List.length]; lia]).
  assert (MP : 1 <= min_payload (encoding_of m)).
  { unfold min_payload. repeat match goal with |- context [if ?c then _ else _] => destruct c end; lia. }
  destruct (Z.leb_spec (header_size bs) (maxlen m)) as [Le|Gt].
  - destruct (pack2x rd fuel nexttime hb mode stack alloc m type src flags) as [[[recs tot] ok]|c|u|].
    + destruct Q as [(cs & _ & _ & Et & Hl2 & Q1 & Q2) _]. exists recs, tot, ok. split; [reflexivity|].
      split; [intros Fl; destruct ok; [left; auto|right; reflexivity]|]. split; [|lia].
      intros Fl L6 Sb Mp. destruct Q2 as [-> |(_ & [N|(n & p & (Pn & _) & Big)])]; [auto|exfalso; apply N; auto|].
      exfalso. unfold lenZ in *. rewrite skipn_length in Pn. lia.
    + destruct Q as [[] _].
    + destruct Q as [[] _].
    + destruct Q as [_ Q]. exfalso. now apply Q.
  - exists [], 0, false. split; [exact Q|]. split; [auto|]. split; [|auto].
    intros _ _ _ Mp. exfalso. destruct (lenZ_gapx (encoding_of m) (header_size bs) ltac:(lia)) as [_ Rg]. lia.
Qed.

(** ** Without samples *)

Lemma put_encx h enc e bs rest : sized h ->
  put 52 [0] (layout2 true h [] ((B1000 enc 1 e 0, []) :: bs) rest) = Ok (layout2 true h [] ((B1000 0 1 e 0, []) :: bs) rest).
Proof.
  intros Sz. rewrite !layoutx_eq by discriminate. pose proof (fixed_len h Sz) as L. set (F := fixed2 _ _ _) in *.
  assert (C : exists A Y, lenZ A = 4 /\ forall x, chain_bytes true 48 ((B1000 x 1 e 0, []) :: bs) = A ++ [x] ++ Y).
  { assert (B : forall x, 48 + blk_size (B1000 x 1 e 0) + lenZ (@nil Z) = 56) by reflexivity.
    exists (ord true 2 1000 ++ ord true 2 (match bs with [] => 0 | _ => 56 end)), ([1; e; 0] ++ chain_bytes true 56 bs).
    split; [rewrite lenZ_app, !lenZ_ord; reflexivity|]. intros x. cbn [chain_bytes]. rewrite B. cbn [blk_body blk_type app]. rewrite <- app_assoc. reflexivity. }
  destruct C as (A & Y & LA & C). rewrite !C. replace (F ++ (A ++ [enc] ++ Y) ++ rest) with ((F ++ A) ++ [enc] ++ (Y ++ rest)) by (now rewrite <- !app_assoc).
  rewrite put_mid; [now rewrite <- !app_assoc|rewrite lenZ_app; lia|reflexivity].
Qed.

Lemma says_text j enc e us w bs : blockettes_say j enc e us w bs -> exists bs', bs = (B1000 enc 1 e 0, []) :: bs' /\
  blockettes_say j 0 e us w ((B1000 0 1 e 0, []) :: bs') /\ header_size ((B1000 0 1 e 0, []) :: bs') = header_size bs.
Proof.
  intros (q & xs & Q & X & [[A ->]|[A ->]]); cbn [map]; eexists; (split; [reflexivity|]); (split; [exists q, xs; split; [exact Q|]; split; [exact X|]|reflexivity]).
  - left. split; [exact A|reflexivity].
  - right. split; [exact A|reflexivity].
Qed.

Lemma packx_empty J rd fuel nexttime hb hb2 m1 m2 addr pf stack alloc m k f mu j type flags :
  headers_accepted J -> sendable m k -> (64 <= List.length stack)%nat -> maxlen m <= lenZ alloc ->
  doc_of rd m j -> document_ok j -> document_kept j -> genfactmult m1 (sampratehz (m_rate m)) = Ok (f, mu) -> dated hb2 (m_start m) ->
  exists h e w bs, maxlen m = 2 ^ e /\ header_says j m k f mu h /\ blockettes_say j 0 e (micros (m_start m)) w bs /\
    if header_size bs <=? maxlen m then
    exists r, pack2x rd fuel nexttime hb m1 stack alloc m type [] flags = Ok ([r], 0, true) /\ lenZ r = maxlen m /\
     (header_size bs < maxlen m -> header_size bs < 65536 -> exists rate datalen, rate_back (m_rate m) rate /\
       parse (unpack2 J hb2 m2 addr pf) hb2 m2 addr pf r =
       Ok (PRec (mk_msr (maxlen m) (negb hb2) (negb hb2) 2 (m_flags m mod 8) (m_sid m)
                        (tenths (m_start m) + micros (m_start m) * 1000) rate 0 (version_of (f_quality h))
                        0 0 (extra_text J h bs) datalen None)))
    else pack2x rd fuel nexttime hb m1 stack alloc m type [] flags = Ok ([], 0, false).
Proof.
  intros HJ (K & S & (e & He & M) & T & Hr & x & Ex) St La Dj Dok Dk G D. destruct (factors_range _ _ _ _ G) as [Hf Hm].
  destruct (exp_is e He) as (X1 & X2 & X3).
  set (R := skipn 48 (firstn (Z.to_nat (2 ^ e)) alloc)).
  assert (LR : lenZ R = maxlen m - 48) by (unfold R, lenZ in *; rewrite skipn_length, firstn_length; lia).
  destruct (header2x_ok rd hb m1 stack m k f mu e R j K S St He M T G LR Dj Dok) as (h & bs0 & Hh & Hc & Ic & Hb0 & PK).
  destruct (says_text _ _ _ _ _ _ Hb0) as (bs' & E0 & Hb & Es). set (bs := (B1000 0 1 e 0, []) :: bs') in *.
  exists h, e, (rate_blk m f mu), bs. split; [exact M|]. split; [exact Hh|]. split; [exact Hb|].
  destruct (header_least _ _ _ _ _ _ Hb) as [Nb Hl]. pose proof (says_sized _ _ _ _ _ _ K Hh) as Sz. set (hl := header_size bs) in *.
  set (rest := repeat 0 (Z.to_nat (maxlen m - hl))).
  assert (PX : pack2x rd fuel nexttime hb m1 stack alloc m type [] flags = if hl <=? maxlen m then Ok ([layout2 true h [] bs rest], 0, true) else Ok ([], 0, false)).
  { unfold pack2x. cbv zeta. fold (maxlen m). rewrite M.
    replace ((2 ^ e <? 128) || (MAXRECLENv2 <? 2 ^ e)) with false by (unfold MAXRECLENv2; lia). rewrite X2. cbn [Z.eqb negb]. fold R.
    rewrite <- M, PK, <- Es. destruct (Z.leb_spec hl (maxlen m)) as [Le|]; [|reflexivity].
    rewrite E0, put_encx by exact Sz. fold bs. cbn [bind]. rewrite !layoutx_eq by exact Nb.
    set (Q := skipn (Z.to_nat (hl - 48)) R). assert (LQ : lenZ Q = maxlen m - hl) by (unfold Q, lenZ in *; rewrite skipn_length; lia).
    fold rest. rewrite <- (app_nil_r Q). rewrite !app_assoc. rewrite <- (app_assoc _ Q []).
    rewrite put_mid; [now rewrite app_nil_r, <- !app_assoc|rewrite !lenZ_app, fixed_len by exact Sz; unfold hl, header_size; lia|].
    unfold rest. rewrite repeat_length. unfold lenZ in LQ. lia. }
  rewrite PX. destruct (Z.leb_spec hl (maxlen m)) as [Le|]; [|reflexivity].
  assert (Lr : lenZ rest = maxlen m - hl) by (unfold rest, lenZ; rewrite repeat_length; lia).
  assert (LL : lenZ (layout2 true h [] bs rest) = 2 ^ e) by (rewrite layoutx_len by (exact Nb || exact Sz); fold hl; lia).
  exists (layout2 true h [] bs rest). split; [reflexivity|]. split; [lia|]. intros Fi S16.
  assert (Z16 : in_u 16 0) by (unfold in_u; lia). assert (Z8 : in_u 8 0) by (unfold in_u; lia).
  pose proof (rate_blk_range m f mu Hr) as Hw.
  pose proof (says_with _ _ _ _ _ _ Hh) as Eh.
  assert (HF : hdr2_ok h) by (rewrite Eh; eapply hdrx_fine; eassumption).
  assert (CF : chain_ok bs) by (eapply chainx_fine; eassumption).
  assert (OF : order_seen hb2 true h) by (rewrite Eh; exact (orderx_fine hb2 h (m_start m) 0 0 D)).
  assert (SF : states_length (2 ^ e) bs) by (eapply statesx_fine; eassumption).
  assert (Bz : forall j, bytes_ok (repeat 0 j)) by (induction j0; constructor; [unfold byte_ok; lia|assumption]).
  assert (WF : well_formed true h [] bs rest []).
  { split; [exact HF|]. split; [exact CF|]. split; [constructor|]. split; [apply Bz|]. split; [constructor|].
    split; [rewrite (@lenZ_nil Z); lia|]. split; [unfold MAXRECLEN; lia|]. change (48 + lenZ (@nil Z)) with 48. unfold hl, header_size in S16. lia. }
  destruct (V2RecParse.parse_whole J hb2 true m2 addr pf h [] bs rest [] HJ WF OF ltac:(rewrite LL; exact SF)) as [PW _].
  assert (Cn : f_cnt h = 0) by (rewrite Eh; reflexivity).
  destruct (PW (or_intror Cn)) as (rate & RO & PE). rewrite app_nil_r in PE.
  destruct (recx_fine j m 0 e _ bs Hb He Hw J hb2 k f mu h (m_start m) 0 0 (lenZ (layout2 true h [] bs rest)) rate K S Hh) as (dl & RF).
  exists rate, dl.
  assert (Ff : f_fact h = f /\ f_mult h = mu) by (destruct Hh as (q0 & a0 & io0 & dq0 & corr0 & nb0 & E1 & _); rewrite E1; split; reflexivity).
  split.
  - apply (rate_returns m f mu h bs rate x Hr Ex Hf Hm (proj1 Ff) (proj2 Ff)); [|exact RO]. eapply last100_fine; eassumption.
  - rewrite PE. rewrite <- Eh in RF. rewrite RF. rewrite M. reflexivity.
Qed.

Lemma packx_refused rd fuel nexttime hb mode stack alloc m k f type src flags :
  sendable m k -> (64 <= List.length stack)%nat -> m_extra m <> [] -> rd (m_extra m) = None ->
  genfactmult mode (sampratehz (m_rate m)) = Ok f ->
  pack2x rd fuel nexttime hb mode stack alloc m type src flags = Ok ([], 0, false).
Proof.
  intros Sd St N E G. pose proof Sd as (_ & _ & (e & He & M) & _). destruct (exp_is e He) as (X1 & X2 & X3).
  unfold pack2x. cbv zeta. fold (maxlen m). rewrite M.
  replace ((2 ^ e <? 128) || (MAXRECLENv2 <? 2 ^ e)) with false by (unfold MAXRECLENv2; lia). rewrite X2. cbn [Z.eqb negb].
  rewrite <- M. rewrite (header_refused rd hb mode stack _ m k f Sd St N E G). reflexivity.
Qed.
