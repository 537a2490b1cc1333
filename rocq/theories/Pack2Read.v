(** * Reading packed version 2 records. *)

From Coq Require Import String.
From Verif Require Import Base BaseLemmas TimeModel TimeSpec TimeProof SteimSpec SteimFrames StrModel StrSpec RecModel RecSpec RecProof PackModel PackSpec PackData PackProof
  V2Model V2RecSpec V2RecProof V2RecParse V2Total SampleProof ConvSpec ConvModel ConvProof Pack2Model Pack2Spec Pack2Data Pack2Hdr Pack2Proof Pack2Rate.
Open Scope Z_scope.

(** ** The samples *)

Lemma nth_app_l {A} (l l' : list A) n d : (n < length l)%nat -> nth n (l ++ l') d = nth n l d.
Proof. intros. now apply app_nth1. Qed.

Lemma trim_payload pre p tail size : lenZ pre mod 64 = 0 -> lenZ p + lenZ tail = size -> size mod 64 = 0 -> leads p -> 1 <= lenZ p ->
  (lenZ pre + 64 <= size \/ (lenZ pre = 64 /\ size = 64) \/ (lenZ pre = 128 /\ size = 128 /\ nth 65 (pre ++ p ++ tail) 0 <> 0)) -> nth 0 pre 0 <> 0 -> 1 <= lenZ pre ->
  exists d, trim_frames (S (length (pre ++ p ++ tail))) (pre ++ p ++ tail) size = Ok d /\ lenZ p <= d <= size.
Proof.
  intros Mp Ls Ms (g & Lg & G) L1 C N0 L0.
  assert (Lz : lenZ p = 64 * Z.of_nat g) by (unfold lenZ; lia).
  assert (Sz : exists s, size = 64 * Z.of_nat s) by (exists (Z.to_nat (size / 64)); pose proof (lenZ_nonneg tail); lia). destruct Sz as (s & ->).
  pose proof (lenZ_nonneg tail). pose proof (lenZ_nonneg p).
  assert (Lr : lenZ (pre ++ p ++ tail) = lenZ pre + 64 * Z.of_nat s) by (rewrite !lenZ_app; lia).
  assert (Fu : (s < S (length (pre ++ p ++ tail)))%nat) by (unfold lenZ in *; lia).
  destruct C as [C|[[C1 C2]|(C1 & C2 & C3)]].
  - set (q := Z.min (Z.of_nat g - 1) (Z.of_nat s - 1 - lenZ pre / 64)).
    assert (Q : 0 <= q) by (subst q; lia).
    destruct (trim_keeps (pre ++ p ++ tail) (lenZ pre + 64 * q) s (S (length (pre ++ p ++ tail))) Fu) as (d & E & D).
    + lia.
    + subst q. lia.
    + rewrite app_nth2 by (unfold lenZ; lia). rewrite app_nth1 by (unfold lenZ in *; subst q; lia).
      replace (Z.to_nat (lenZ pre + 64 * q) - length pre)%nat with (64 * Z.to_nat q)%nat by (unfold lenZ; lia). apply G. subst q. lia.
    + exists (64 * Z.of_nat d). split; [exact E|]. subst q. lia.
  - destruct (trim_keeps (pre ++ p ++ tail) 0 s (S (length (pre ++ p ++ tail))) Fu) as (d & E & D).
    + lia.
    + lia.
    + rewrite app_nth1 by (unfold lenZ in *; lia). exact N0.
    + exists (64 * Z.of_nat d). split; [exact E|]. lia.
  - destruct (trim_keeps (pre ++ p ++ tail) 65 s (S (length (pre ++ p ++ tail))) Fu) as (d & E & D).
    + lia.
    + lia.
    + exact C3.
    + exists (64 * Z.of_nat d). split; [exact E|]. lia.
Qed.

Lemma payload_layout J hb mode addr h bs gap p tail enc src cap n rate :
  hdr2_ok h -> let rec := layout2 true h [] bs (gap ++ p ++ tail) in 64 <= lenZ rec <= MAXRECLEN ->
  last_1000 bs = Some (enc, true, lenZ rec) -> f_data h = 48 + lenZ (chain_bytes true 48 bs) + lenZ gap ->
  f_cnt h = n -> payload2_of mode enc src cap n p -> encoding_sizetype enc <> None -> in_u 8 enc ->
  (is_steim enc = true -> fixed_bytes enc = None) -> (is_steim enc = false -> fixed_bytes enc <> None /\ lenZ p < 65536) ->
  (is_steim enc = true -> lenZ rec mod 64 = 0 /\ f_data h mod 64 = 0 /\ (2 * f_data h + 64 <= lenZ rec \/ lenZ rec = 128 \/ (lenZ rec = 256 /\ f_data h = 128 /\ nth 65 rec 0 <> 0))) ->
  nth 0 (f_seq h) 0 <> 0 ->
  unpack_data hb mode addr rec (rec2_of J hb true h bs (lenZ rec) rate) = Ok (SInt (firstn (Z.to_nat n) src)).
Proof.
  intros K rec L LS Da Cn Pp ES EI FS FX SC N0.
  pose proof Pp as (Pn & Pb & Pk & Pl & Pf & Pd).
  set (chain := chain_bytes true 48 bs) in *.
  assert (LR : lenZ rec = 48 + lenZ chain + lenZ gap + lenZ p + lenZ tail).
  { unfold rec, layout2. rewrite !lenZ_app, lenZ_fixed by exact K. change (48 + lenZ (@nil Z)) with 48. fold chain. rewrite (@lenZ_nil Z). lia. }
  pose proof (lenZ_nonneg chain). pose proof (lenZ_nonneg gap). pose proof (lenZ_nonneg tail).
  assert (V1 : n < 65536). { pose proof K as (_ & _ & _ & _ & _ & _ & _ & _ & _ & I & _). unfold in_u in I. lia. }
  set (m := rec2_of J hb true h bs (lenZ rec) rate).
  assert (M1 : m_cnt m = n) by exact Cn.
  assert (M2 : m_reclen m = lenZ rec).
  { unfold m, rec2_of. cbn [m_reclen]. rewrite (last_of_map (fun b => match b with B1000 enc o e _ => Some (enc, negb (o =? 0), 2 ^ e) | _ => None end) _ snd)
      by (intros []; reflexivity). fold (last_1000 bs). rewrite LS. reflexivity. }
  assert (M3 : m_enc m = enc).
  { unfold m, rec2_of. cbn [m_enc]. rewrite (last_of_map (fun b => match b with B1000 enc o e _ => Some (enc, negb (o =? 0), 2 ^ e) | _ => None end) _ (fun p => fst (fst p)))
      by (intros []; reflexivity). fold (last_1000 bs). rewrite LS. reflexivity. }
  assert (M4 : m_swapp m = negb hb).
  { unfold m, rec2_of. cbn [m_swapp]. rewrite (last_of_map (fun b => match b with B1000 enc o e _ => Some (enc, negb (o =? 0), 2 ^ e) | _ => None end) _ (fun p => snd (fst p)))
      by (intros []; reflexivity). fold (last_1000 bs). rewrite LS. cbn [option_map or_else fst snd]. destruct hb; reflexivity. }
  assert (DI : in_u 16 (f_data h)) by (unfold hdr2_ok in K; tauto). unfold in_u in DI.
  assert (DO : rd hb (m_swaph m) 2 44 rec = Ok (f_data h)).
  { destruct (header_reads h true (match bs with [] => 0 | _ => 48 end) (chain ++ gap ++ p ++ tail) K hb)
      as (_ & _ & _ & _ & _ & _ & _ & _ & _ & _ & _ & _ & _ & D & _).
    change (m_swaph m) with (other hb true). unfold rec, layout2. cbn [app]. change (48 + lenZ (@nil Z)) with 48. fold chain.
    rewrite D. f_equal. apply Z.mod_small. lia. }
  set (pre := fixed2 true h (match bs with [] => 0 | _ => 48 end) ++ chain ++ gap).
  assert (RE : rec = pre ++ p ++ tail) by (unfold rec, layout2, pre; cbn [app]; change (48 + lenZ (@nil Z)) with 48; fold chain; rewrite <- !app_assoc; reflexivity).
  assert (LP : lenZ pre = f_data h) by (unfold pre; rewrite !lenZ_app, lenZ_fixed by exact K; lia).
  assert (DB : exists size, data_bounds hb rec m = Ok (f_data h, size) /\ lenZ p <= size <= lenZ p + lenZ tail).
  { unfold data_bounds. cbn [m_fver m rec2_of Z.eqb Pos.eqb]. fold m. rewrite DO. cbn [bind]. rewrite M1, M2, M3.
    assert (U1 : uwrap 32 (lenZ rec - f_data h) = lenZ p + lenZ tail).
    { unfold uwrap. rewrite Z.mod_small by (unfold MAXRECLEN in L; lia). lia. }
    rewrite U1. destruct (is_steim enc) eqn:St.
    - rewrite (FS eq_refl). destruct (SC eq_refl) as (R1 & R2 & R3). replace ((lenZ p + lenZ tail) mod 64 =? 0) with true by lia. cbn [andb].
      destruct (trim_payload pre p tail (lenZ p + lenZ tail)) as (d & E & D).
      + lia.
      + reflexivity.
      + lia.
      + now apply Pl.
      + lia.
      + destruct R3 as [R3|[R3|(R3 & R4 & R5)]]; [left; lia|right; left; lia|]. right. right. rewrite <- RE. split; [lia|]. split; [lia|exact R5].
      + unfold pre, fixed2. destruct (f_seq h) as [|c0 sq] eqn:Eq; [|exact N0].
        exfalso. pose proof K as (Lq & _). rewrite Eq in Lq. discriminate.
      + lia.
      + rewrite RE, E. cbn [bind]. exists d. split; [reflexivity|exact D].
    - destruct (FX eq_refl) as [FN Small]. destruct (fixed_bytes enc) as [w|] eqn:Fb; [|congruence].
      specialize (Pf w eq_refl). rewrite andb_false_r.
      replace (uwrap 64 (n * w)) with (lenZ p) by (unfold uwrap; rewrite Z.mod_small by lia; lia).
      eexists. split; [reflexivity|]. destruct (Z.ltb_spec (lenZ p) (lenZ p + lenZ tail)); [unfold uwrap; rewrite Z.mod_small by lia|]; lia. }
  destruct DB as (size & DB & Sz).
  unfold unpack_data. rewrite M1, M2, M3, M4. replace (n <=? 0) with false by lia. replace (lenZ rec <? 0) with false by lia.
  replace ((lenZ rec <? MINRECLEN) || (MAXRECLEN <? lenZ rec)) with false by (unfold MINRECLEN; lia).
  replace (2 ^ 31 - 1 <? n) with false by lia. rewrite DB. cbn [bind].
  replace ((f_data h <? MINRECLEN) || (lenZ rec <=? f_data h)) with false by (unfold MINRECLEN; lia).
  unfold in_u in EI. replace (enc <? 0) with false by lia. replace (uwrap 8 enc) with enc by (unfold uwrap; rewrite Z.mod_small by lia; reflexivity).
  destruct (encoding_sizetype enc) as [[ss ty]|] eqn:Es; [|congruence].
  destruct ((addr + f_data h) mod ss =? 0).
  - fold (lenZ rec). rewrite RE, slice_skip by lia. rewrite <- (app_nil_r (p ++ tail)) at 2.
    rewrite slice_hit by (rewrite ?lenZ_app; lia). cbn [bind]. apply Pd; [lia|rewrite lenZ_app; lia].
  - rewrite RE, slice_skip by lia. rewrite <- (firstn_skipn (Z.to_nat (size - lenZ p)) tail). rewrite app_assoc.
    assert (Lf : lenZ (p ++ firstn (Z.to_nat (size - lenZ p)) tail) = size).
    { rewrite lenZ_app. unfold lenZ in *. rewrite firstn_length. lia. }
    rewrite slice_hit by lia. cbn [bind]. apply Pd; [lia|lia].
Qed.

(** ** The header *)

Lemma no_spaces_fill c n s : code_ok c s -> no_spaces (fill n s) = s.
Proof.
  intros [_ F]. unfold fill, no_spaces. rewrite filter_app.
  assert (A : filter (fun c => negb (c =? 32)) s = s).
  { induction F as [|x s (X & N & _) F IH]; [reflexivity|]. cbn [filter]. replace (x =? 32) with false by lia. cbn [negb]. now rewrite IH. }
  rewrite A. assert (B : forall i, filter (fun c => negb (c =? 32)) (repeat 32 i) = []) by (induction i; [reflexivity|exact IHi]).
  rewrite B. apply app_nil_r.
Qed.

Lemma chars_fill c n s : code_ok c s -> Forall (fun c => 1 <= c <= 127) (fill n s).
Proof.
  intros [_ F]. unfold fill. apply Forall_app. split.
  - eapply Forall_impl; [|exact F]. cbv beta. intros x H. tauto.
  - generalize (Z.to_nat (n - lenZ s)). induction n0; constructor; [lia|assumption].
Qed.

Lemma tenths_ns t : btime_ns (btime_at t) = tenths t.
Proof.
  unfold btime_ns, btime_at, epoch_ns, tenths. cbn [b_day b_hour b_min b_sec b_fract].
  assert (A : t / 3600000000000 = t / 86400000000000 * 24 + t / 3600000000000 mod 24).
  { replace 86400000000000 with (3600000000000 * 24) by reflexivity. rewrite <- Z.div_div by lia. pose proof (Z.div_mod (t / 3600000000000) 24). lia. }
  assert (B : t / 60000000000 = t / 3600000000000 * 60 + t / 60000000000 mod 60).
  { replace 3600000000000 with (60000000000 * 60) by reflexivity. rewrite <- Z.div_div by lia. pose proof (Z.div_mod (t / 60000000000) 60). lia. }
  assert (C : t / 1000000000 = t / 60000000000 * 60 + t / 1000000000 mod 60).
  { replace 60000000000 with (1000000000 * 60) by reflexivity. rewrite <- Z.div_div by lia. pose proof (Z.div_mod (t / 1000000000) 60). lia. }
  assert (D : t / 100000 = t / 1000000000 * 10000 + t mod 1000000000 / 100000) by lia.
  lia.
Qed.

Lemma bit_flag v i w j : 0 <= j -> bit (flag v i (2 ^ w)) j = Z.testbit v i && bit (2 ^ w) j.
Proof. intros. unfold flag. destruct (Z.testbit v i); [reflexivity|]. unfold bit. rewrite Z.div_0_l by (pose proof (ConvProof.pow_pos j); lia). reflexivity. Qed.

Lemma flags_mod v : (if Z.testbit v 0 then 1 else 0) + (if Z.testbit v 1 then 2 else 0) + (if Z.testbit v 2 then 4 else 0) = v mod 8.
Proof. 
  pose proof (Z.testbit_spec' v 0 ltac:(lia)) as A. pose proof (Z.testbit_spec' v 1 ltac:(lia)) as B. pose proof (Z.testbit_spec' v 2 ltac:(lia)) as C.
  change (2 ^ 0) with 1 in A. change (2 ^ 1) with 2 in B. change (2 ^ 2) with 4 in C. rewrite Z.div_1_r in A.
  destruct (Z.testbit v 0), (Z.testbit v 1), (Z.testbit v 2); cbn [Z.b2z] in *; lia.
Qed.

Section Header.
  Variables (J : json) (hb : bool) (m : msr) (k : codes) (f mu e enc t n off : Z) (w : option Z).
  Let us := micros (m_start m).
  Let bs := blks_of enc e us w.
  Let h := hdr_of m k f mu (lenZ bs) t n off.
  Hypothesis K : codes_ok k.
  Hypothesis Hf : in_s 16 f.
  Hypothesis Hm : in_s 16 mu.
  Hypothesis He : 7 <= e <= 17.
  Hypothesis Hn : in_u 16 n.
  Hypothesis Ho : in_u 16 off.
  Hypothesis Hc : in_u 8 enc.
  Hypothesis Hw : match w with Some w => in_u 32 w | None => True end.
  Hypothesis T : dated hb t.

  Lemma us_range : 0 <= us < 100.
  Proof. unfold us, micros. lia. Qed.

  Lemma header_fine : hdr2_ok h.
  Proof.
    pose proof K as (Kn & Ks & Kl & (Kb & _) & (Kso & _) & (Ksu & _)). pose proof T as (T1 & T2 & T3 & T4).
    unfold h, hdr_of, hdr2_ok. cbn [f_seq f_quality f_reserved f_sta f_loc f_chan f_net f_start f_cnt f_fact f_mult f_act f_io f_dq f_nblk f_corr f_data].
    split; [reflexivity|]. split; [cbn [repeat]; repeat constructor; lia|].
    split. { unfold version_char. destruct (m_pub m) as [|[[|[]|]|[|[]|]|]|]; cbn [In]; tauto. }
    split; [left; reflexivity|]. split; [apply lenZ_fill, Ks|]. split; [apply lenZ_fill, Kl|]. split; [apply lenZ_fill, Kn|].
    split. { rewrite !Forall_app. split; [eapply chars_fill, Ks|]. split; [eapply chars_fill, Kl|]. split; [|eapply chars_fill, Kn].
             constructor; [lia|]. constructor; [lia|]. constructor; [lia|constructor]. }
    split. { unfold btime_ok. rewrite tenths_ns. cbn [b_day b_hour b_min b_sec b_unused b_fract btime_at]. 
             split; [lia|]. split; [lia|]. split; [lia|]. split; [lia|]. split; [lia|]. split; [lia|exact T4]. }
    split; [exact Hn|]. split; [exact Hf|]. split; [exact Hm|]. unfold flag.
    split; [destruct (Z.testbit _ _); unfold in_u; lia|]. split; [destruct (Z.testbit _ _); unfold in_u; lia|].
    split; [destruct (Z.testbit _ _); unfold in_u; lia|].
    split; [unfold bs, blks_of; destruct (us =? 0), w; unfold in_u; cbn; lia|]. split; [unfold in_s; lia|exact Ho].
  Qed.

  Lemma chain_fine : chain_ok bs.
  Proof.
    pose proof us_range as U. unfold in_u in Hc. 
    assert (A : blk_ok (B1000 enc 1 e 0) /\ bytes_ok []).
    { split; [|constructor]. split; [|lia]. cbn [blk_body]. repeat constructor; unfold byte_ok; lia. }
    assert (B : blk_ok (B1001 0 us 0 0) /\ bytes_ok []).
    { split; [|constructor]. split; [|unfold in_s; lia]. cbn [blk_body]. repeat constructor; unfold byte_ok; lia. }
    unfold bs, blks_of, chain_ok. constructor; [exact A|]. apply Forall_app. split.
    - destruct (us =? 0); constructor; [exact B|constructor].
    - destruct w as [x|]; constructor; [|constructor]. cbn [fst snd]. split; [|constructor]. split; [|split; [exact Hw|reflexivity]].
      cbn [blk_body]. apply Forall_app. split; [apply ord_ok|]. repeat constructor; unfold byte_ok; lia.
  Qed.

  Lemma order_fine : order_seen hb true h.
  Proof.
    pose proof T as (T1 & T2 & T3 & T4). unfold order_seen, h, hdr_of, btime_at. cbn [f_start b_day].
    set (d := day_at (t / 86400000000000)) in *. pose proof (day_at_ok (t / 86400000000000)) as D. fold d in D.
    assert (YD : 1 <= d_yday d <= 366) by (destruct D as [[V1 V2] _]; pose proof (cum_bound _ _ _ V1); pose proof (year_len_range (d_year d)); lia).
    clear D. clearbody d. clear - T2 T3 YD. destruct hb; cbn [Bool.eqb].
    - unfold plausible. lia.
    - intros [P1 P2]. apply T3. unfold exchanged in P1, P2. cbn [In]. lia.
  Qed.

  Lemma states_fine : states_length (2 ^ e) bs.
  Proof.
    unfold states_length, bs, blks_of. split; [left; exact I|]. constructor; [reflexivity|]. apply Forall_app.
    split; [destruct (us =? 0)|destruct w]; repeat constructor.
  Qed.

  Lemma last_fine : last_1000 bs = Some (enc, true, 2 ^ e).
  Proof. unfold bs, blks_of, last_1000. destruct (us =? 0), w; reflexivity. Qed.

  Lemma record_fine len rate : exists datalen, rec2_of J hb true h bs len rate =
    mk_msr (2 ^ e) (negb hb) (negb hb) 2 (m_flags m mod 8) (codes_sid k) (tenths t + us * 1000) rate enc (version2 (m_pub m)) n 0
           (if us =? 0 then [] else quality0) datalen None.
  Proof.
    eexists. unfold rec2_of. rewrite <- flags_mod.
    assert (Q : version_of (version_char (m_pub m)) = version2 (m_pub m)).
    { unfold version_char, version2. destruct (m_pub m) as [|[[|[]|]|[|[]|]|]|]; reflexivity. }
    assert (S : sid2 h = codes_sid k).
    { pose proof K as (Kn & Ks & Kl & _). unfold sid2, codes_sid, h, hdr_of. cbn [f_chan f_net f_sta f_loc].
      rewrite (no_spaces_fill _ _ _ Kn), (no_spaces_fill _ _ _ Ks), (no_spaces_fill _ _ _ Kl). reflexivity. }
    assert (ST : start2 h bs = tenths t + us * 1000).
    { unfold start2. change (f_start h) with (btime_at t). rewrite tenths_ns. change (f_corr h) with 0. change (f_act h) with (flag (m_flags m) 0 (2 ^ 0)).
      rewrite bit_flag by lia. change (bit (2 ^ 0) 1) with false. rewrite andb_false_r. unfold bs, blks_of.
      pose proof us_range. destruct (Z.eqb_spec us 0) as [Z0|Z0], w; cbn [app last_of or_else fst snd]; lia. }
    assert (X : extra_text J h bs = if us =? 0 then [] else quality0).
    { assert (F : flag_ops h = []).
      { unfold flag_ops. change (f_act h) with (flag (m_flags m) 0 (2 ^ 0)). change (f_io h) with (flag (m_flags m) 2 (2 ^ 5)).
        change (f_dq h) with (flag (m_flags m) 1 (2 ^ 7)). change (f_corr h) with 0. rewrite !bit_flag by lia.
        cbn [Z.pow Z.pow_pos Pos.iter Z.mul Pos.mul bit Z.div Z.div_eucl Z.pos_div_eucl].
        destruct (Z.testbit (m_flags m) 0), (Z.testbit (m_flags m) 1), (Z.testbit (m_flags m) 2); reflexivity. }
      unfold extra_text. rewrite F. unfold bs, blks_of. destruct (us =? 0), w; reflexivity. }
    rewrite S, ST, X. change (f_quality h) with (version_char (m_pub m)). rewrite Q.
    change (f_act h) with (flag (m_flags m) 0 (2 ^ 0)). change (f_io h) with (flag (m_flags m) 2 (2 ^ 5)).
    change (f_dq h) with (flag (m_flags m) 1 (2 ^ 7)). rewrite !bit_flag by lia.
    change (bit (2 ^ 0) 0) with true. change (bit (2 ^ 7) 7) with true. change (bit (2 ^ 5) 5) with true. rewrite !andb_true_r.
    assert (R : forall d, or_else (last_of (fun b => match b with B1000 _ _ e0 _ => Some (2 ^ e0) | _ => None end) bs) d = 2 ^ e) by (unfold bs, blks_of; destruct (us =? 0), w; reflexivity).
    assert (R2 : forall d, or_else (last_of (fun b => match b with B1000 _ o _ _ => Some (negb (o =? 0)) | _ => None end) bs) d = true) by (unfold bs, blks_of; destruct (us =? 0), w; reflexivity).
    assert (R3 : forall d, or_else (last_of (fun b => match b with B1000 e0 _ _ _ => Some e0 | _ => None end) bs) d = enc) by (unfold bs, blks_of; destruct (us =? 0), w; reflexivity).
    rewrite R, R2, R3. replace (Bool.eqb hb true) with hb by (now destruct hb). reflexivity.
  Qed.
End Header.

(** ** The records *)

Lemma nth_b100 m k f mu nb t cnt off enc e us w x : codes_ok k -> us <> 0 -> w = Some x -> forall rest,
  nth 65 (layout2 true (hdr_of m k f mu nb t cnt off) [] (blks_of enc e us w) rest) 0 = 100.
Proof.
  intros K U -> rest. rewrite layout_eq. pose proof (fixed_len m k f mu nb t cnt off K) as L. unfold lenZ in L.
  rewrite app_nth2 by lia. replace (65 - length (fixed2 true (hdr_of m k f mu nb t cnt off) 48))%nat with 17%nat by lia.
  unfold blks_of. replace (us =? 0) with false by lia. reflexivity.
Qed.

Lemma rec_reads J hb mode addr nexttime m kc f mu e type src cap i n p x :
  let enc := encoding_of m in let us := micros (m_start m) in let w := rate_blk m f mu in
  let gap := gap_of enc (hlen us w) in let off := data_at enc (hlen us w) in
  headers_accepted J -> codes_ok kc -> m_sid m = codes_sid kc -> 7 <= e <= 17 -> maxlen m = 2 ^ e -> cap = maxlen m - off ->
  in_s 16 f -> in_s 16 mu -> 0 <= m_rate m < 2 ^ 64 -> dval (m_rate m) = DFin x ->
  packable mode enc type src -> readable m -> dated hb (record_time nexttime m i) ->
  payload2_of mode enc (skipn (Z.to_nat i) src) cap n p -> n <= 65535 ->
  read_back2 J hb mode addr nexttime m i (firstn (Z.to_nat n) (skipn (Z.to_nat i) src)) (rec_at nexttime m kc f mu e gap cap i n p).
Proof.
  intros enc us w gap off HJ K S He M Cp Hf Hm Hr Ex Pk Rd T Pp Sm.
  pose proof Pp as (Pn & Pb & Pbk & Pl & Pf & Pd).
  destruct (lenZ_gap enc us w) as [Lg Rg]. fold gap off in Lg, Rg.
  destruct (packable_enc _ _ _ _ Pk) as (E1 & E2 & _ & E3).
  destruct (exp_is e He) as (_ & _ & X3).
  assert (Hw : match w with Some w => in_u 32 w | None => True end).
  { unfold w, rate_blk. destruct (dlt _ _); [|exact I]. destruct (double_float _ Hr) as (R & _). unfold in_u. exact R. }
  assert (Hn : in_u 16 n) by (unfold in_u; lia). assert (Ho : in_u 16 off) by (unfold in_u; pose proof (hlen_cases us w); lia).
  set (t := record_time nexttime m i) in *.
  set (bs := blks_of enc e us w).
  set (h := hdr_of m kc f mu (lenZ bs) t n off).
  assert (Hr2 : rec_at nexttime m kc f mu e gap cap i n p = layout2 true h [] bs (gap ++ p ++ repeat 0 (Z.to_nat (cap - lenZ p)))).
  { unfold rec_at, hdr_at. fold enc us w. fold bs t. unfold h. replace (hlen us w + lenZ gap) with off by lia. reflexivity. }
  rewrite Hr2. set (tail := repeat 0 (Z.to_nat (cap - lenZ p))).
  assert (Lt : lenZ tail = cap - lenZ p) by (unfold tail, lenZ in *; rewrite repeat_length; lia).
  assert (LR : lenZ (layout2 true h [] bs (gap ++ p ++ tail)) = 2 ^ e).
  { unfold h, bs. rewrite layout_len by exact K. rewrite !lenZ_app. fold bs. lia. }
  assert (HF : hdr2_ok h) by (unfold h, bs, us; eapply header_fine; eassumption).
  assert (CF : chain_ok bs) by (unfold bs, us; eapply chain_fine; eassumption).
  assert (OF : order_seen hb true h) by (unfold h, bs, us; eapply order_fine; eassumption).
  assert (SF : states_length (2 ^ e) bs) by (unfold bs, us; eapply states_fine; eassumption).
  assert (LF : last_1000 bs = Some (enc, true, 2 ^ e)) by (unfold bs, us; eapply last_fine; eassumption).
  assert (Bz : forall j, bytes_ok (repeat 0 j)) by (induction j; constructor; [unfold byte_ok; lia|assumption]).
  assert (Br : bytes_ok (gap ++ p ++ tail)) by (apply Forall_app; split; [apply Bz|apply Forall_app; split; [exact Pbk|apply Bz]]).
  assert (Cl : lenZ (chain_bytes true 48 bs) = hlen us w - 48) by apply chain_len.
  assert (L0 : 0 < lenZ (gap ++ p ++ tail) + lenZ (@nil Z)) by (rewrite !lenZ_app, (@lenZ_nil Z); lia).
  assert (Ls : 64 <= lenZ (layout2 true h [] bs (gap ++ p ++ tail)) <= MAXRECLEN) by (unfold MAXRECLEN; lia).
  assert (Fi : 48 + lenZ (@nil Z) + lenZ (chain_bytes true (48 + lenZ (@nil Z)) bs) < 65536).
  { change (48 + lenZ (@nil Z)) with 48. rewrite Cl. pose proof (hlen_cases us w). lia. }
  destruct (unpack_layout J hb true mode addr 1 h [] bs (gap ++ p ++ tail) [] HJ HF CF (Forall_nil _) Br (Forall_nil _) L0 OF Ls Fi) as (rate & RO & UN).
  assert (RB : rate_back (m_rate m) rate).
  { apply (rate_returns m f mu h bs rate x Hr Ex Hf Hm eq_refl eq_refl); [|exact RO]. unfold bs, blks_of, w. destruct (us =? 0), (rate_blk m f mu); reflexivity. }
  assert (RF : exists datalen, rec2_of J hb true h bs (lenZ (layout2 true h [] bs (gap ++ p ++ tail))) rate =
    mk_msr (2 ^ e) (negb hb) (negb hb) 2 (m_flags m mod 8) (codes_sid kc) (tenths t + us * 1000) rate enc (version2 (m_pub m)) n 0
           (if us =? 0 then [] else quality0) datalen None) by (unfold h, bs, us; eapply record_fine; eassumption).
  destruct RF as (dl & RF).
  exists rate, dl. split; [exact RB|].
  assert (UD : unpack_data hb mode addr (layout2 true h [] bs (gap ++ p ++ tail)) (rec2_of J hb true h bs (lenZ (layout2 true h [] bs (gap ++ p ++ tail))) rate)
    = Ok (SInt (firstn (Z.to_nat n) (skipn (Z.to_nat i) src)))).
  { apply (payload_layout J hb mode addr h bs gap p tail enc (skipn (Z.to_nat i) src) cap n rate HF Ls).
    - rewrite LR. exact LF.
    - rewrite Cl. change (f_data h) with off. lia.
    - reflexivity.
    - exact Pp.
    - exact E1.
    - exact E3.
    - exact E2.
    - intros St. split; [|unfold readable in Rd; fold enc in Rd; rewrite St in Rd; pose proof (hlen_cases us w); lia].
      intros N. revert St E1 N Pk. unfold packable.
      intros St E1' N [(Z0 & _)|[(Z0 & _)|[(Z0 & _)|[(Z0 & _)|[(Z0 & _)|([Z0|Z0] & _)]]]]]; rewrite Z0 in *; discriminate.
    - intros St. rewrite LR. change (f_data h) with off. unfold readable in Rd. fold enc in Rd. rewrite St in Rd.
      assert (Od : off = if hlen us w <=? 64 then 64 else 128) by (unfold off, data_at; unfold is_steim in St; rewrite St; reflexivity).
      assert (E64 : 2 ^ e = 64 * 2 ^ (e - 6)) by (rewrite <- (Z.pow_add_r 2 6) by lia; f_equal; lia).
      assert (Oc : off = 64 \/ off = 128) by (destruct (hlen us w <=? 64); lia).
      split; [lia|]. split; [lia|]. destruct (Z.eq_dec e 7) as [->|N7]; [right; left; reflexivity|].
      destruct (Z.eq_dec e 8) as [->|N8].
      + destruct Oc as [Oc|Oc]; [left; change (2 ^ 8) with 256; lia|]. right. right. split; [reflexivity|]. split; [exact Oc|].
        assert (U0 : us <> 0) by (unfold us; destruct Rd as [Rd|Rd]; [rewrite M in Rd; now destruct Rd|exact Rd]).
        destruct w as [x0|] eqn:Ew.
        * unfold h, bs. rewrite (nth_b100 m kc f mu _ t n off enc 8 us (Some x0) x0 K U0 eq_refl). discriminate.
        * exfalso. unfold hlen in Od. replace (us =? 0) with false in Od by lia. cbn in Od. lia.
      + left. assert (2 ^ 9 <= 2 ^ e) by (apply Z.pow_le_mono_r; lia). change (2 ^ 9) with 512 in *. lia.
    - unfold h, hdr_of. cbn. lia. }
  rewrite <- parse_mem_eq. rewrite <- (app_nil_r (layout2 true h [] bs (gap ++ p ++ tail))).
  rewrite (parse_layout J hb true mode addr 1 _ h [] bs (gap ++ p ++ tail) [] HJ HF CF (Forall_nil _) Br (Forall_nil _) L0 OF Ls);
    [|rewrite LR; exact SF|rewrite app_nil_r; lia|exact Fi].
  rewrite UN. cbv zeta. change (f_cnt h) with n. replace (has_flag 1 MSF_UNPACKDATA && (0 <? n)) with true by (change (has_flag 1 MSF_UNPACKDATA) with true; cbn [andb]; lia).
  rewrite app_nil_r, UD. cbn [bind]. rewrite RF. unfold with_samples.
  cbn [m_reclen m_swaph m_swapp m_fver m_flags m_sid m_start m_rate m_enc m_pub m_cnt m_crc m_extra m_datalen].
  rewrite M, S. repeat f_equal. unfold lenZ in *. rewrite firstn_length. lia.
Qed.
