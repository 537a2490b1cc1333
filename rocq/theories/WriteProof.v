(** * Proofs about writing trace lists to files. *)

From Verif Require Import Base BaseLemmas RecProof SteimModel SteimSpec CodecModel PackModel PackData PackProof PackTimes SampleProof TlTime TlPackModel TlPackSpec TlPackProof
  ReadModel ReadSpec ReadProof FileModel FileSpec FileProof WriteSpec TimeModel TimeSpec TimeProof RecModel RecSpec PackSpec CrcModel CrcProof Pack2Hdr Pack2Proof Pack2Rate Pack2Read Pack2All V2Rate.
From Coq Require Import ZifyBool.
Open Scope Z_scope.

(** ** The records of the packer are readable *)

Lemma out_rec_fields m2 recip m enc t n p : readable_time t ->
  exists y d ho mi s ns c, out_rec recip m enc (fields_at t) n p = mk_hdr (m_flags m) ns y d ho mi s enc (rate_of recip m) n c (m_pub m) (m_sid m) (m_extra m) p /\
    time2nstime m2 y d ho mi s ns = Ok t.
Proof.
  intros (T1 & T2 & T3). destruct (epoch_cal_epoch m2 t T1 T2) as (y & d & ho & mi & s & ns & Ef & _ & _ & Et).
  exists y, d, ho, mi, s, ns, (crc3 (out_hdr recip m enc (fields_at t) n 0 p)). split; [|exact Et].
  unfold out_rec. rewrite out_with_crc. unfold fields_at. rewrite Ef. reflexivity.
Qed.

Lemma out_rec_ok recip m enc t n p : msr_ok recip m -> in_u 8 enc -> in_s 64 t -> in_u 32 n -> bytes_ok p ->
  40 + lenZ (m_sid m) + lenZ (m_extra m) + lenZ p <= 10485760 ->
  let h := out_rec recip m enc (fields_at t) n p in hdr_ok h /\ h_crc h = crc3 h.
Proof.
  intros M He Ht Hn Hp L. cbv zeta. unfold out_rec. rewrite out_with_crc.
  assert (H0 : hdr_ok (out_hdr recip m enc (fields_at t) n 0 p)) by (apply out_hdr_ok; auto; unfold in_u; lia).
  pose proof (crc3_range _ H0) as Cr. set (c := crc3 (out_hdr recip m enc (fields_at t) n 0 p)) in *. split.
  - rewrite <- (out_with_crc recip m enc (fields_at t) n 0 c p). now apply with_crc_ok.
  - transitivity c; [unfold out_hdr; destruct (fields_at t) as [[[[[? ?] ?] ?] ?] ?]; reflexivity|].
    symmetry. unfold crc3. rewrite out_with_crc. subst c. unfold crc3. now rewrite out_with_crc.
Qed.

Lemma out_rec_part m2 F recip m type enc src cap t n p : has_flag F 1 = true -> msr_ok recip m -> lenZ (m_sid m) < 64 ->
  Forall (fun b => b <> 0) (m_sid m) -> Forall (fun b => b <> 0) (m_extra m) ->
  packable m2 enc type src -> payload_of m2 enc src cap n p -> n < 2 ^ 31 ->
  40 + lenZ (m_sid m) + lenZ (m_extra m) + cap <= 10485760 -> readable_time t ->
  let h := out_rec recip m enc (fields_at t) n p in
  let x := mk_part [] h t (Some (SInt (firstn (Z.to_nat n) src))) in
  ReadSpec.readable m2 F x /\
  part_rec x = mk_msr (lenZ (layout3 h)) false (is_steim enc) 3 (m_flags m) (m_sid m) t (rate_of recip m) enc (m_pub m) n (h_crc h) (m_extra m) (lenZ p)
                      (Some (SInt (firstn (Z.to_nat n) src))).
Proof.
  intros F1 M Hs Ns Ne Pk Pp Hn Hcap Ht. pose proof Ht as (T1 & T2 & T3). cbv zeta.
  destruct (packable_enc _ _ _ _ Pk) as (E1 & E2 & _ & E3). pose proof Pp as (Pn & Pb & Pbk & _).
  destruct (out_rec_ok recip m enc t n p M E3 T1 ltac:(unfold in_u; lia) Pbk ltac:(lia)) as (H1 & Hc).
  destruct (out_rec_fields m2 recip m enc t n p Ht) as (y & d & ho & mi & s & ns & c & Eh & Et).
  set (h := out_rec recip m enc (fields_at t) n p) in *. clearbody h. split.
  - unfold ReadSpec.readable. cbn [pt_junk pt_hdr pt_time pt_data]. split; [constructor|]. split; [exact H1|]. split; [rewrite Eh; exact Hs|]. split; [auto|].
    split; [rewrite Eh; exact Et|]. split; [exact T3|]. split; [exact F1|]. split; [rewrite Eh; cbn [h_cnt]; lia|]. intros addr.
    replace n with (h_cnt h) by (rewrite Eh; reflexivity).
    apply (unpack_data_layout false m2 addr h t src cap); auto; rewrite Eh; cbn [h_sid h_extra h_payload h_cnt h_enc]; auto.
  - unfold part_rec. cbn [pt_hdr pt_time pt_data]. unfold rec_of. rewrite until0_id by (rewrite Eh; exact Ns). rewrite Eh. cbn [h_flags h_sid h_rate h_enc h_pub h_cnt h_crc h_extra h_payload].
    unfold is_steim. destruct ((enc =? 10) || (enc =? 11)); reflexivity.
Qed.

Lemma empty_part m2 F recip m t : msr_ok recip m -> hdrlen m <= 10485760 -> lenZ (m_sid m) < 64 -> Forall (fun b => b <> 0) (m_sid m) -> readable_time t ->
  let h := out_rec recip m 0 (fields_at t) 0 [] in
  let x := mk_part [] h t None in
  ReadSpec.readable m2 F x /\
  part_rec x = mk_msr (hdrlen m) false false 3 (m_flags m) (m_sid m) t (rate_of recip m) 0 (m_pub m) 0 (h_crc h) (m_extra m) 0 None.
Proof.
  intros M Hl Hs Ns Ht. pose proof Ht as (T1 & T2 & T3). cbv zeta. unfold hdrlen in Hl.
  destruct (out_rec_ok recip m 0 t 0 [] M ltac:(unfold in_u; lia) T1 ltac:(unfold in_u; lia) ltac:(constructor) ltac:(change (lenZ (@nil Z)) with 0; lia)) as (H1 & Hc).
  destruct (out_rec_fields m2 recip m 0 t 0 [] Ht) as (y & d & ho & mi & s & ns & c & Eh & Et).
  set (h := out_rec recip m 0 (fields_at t) 0 []) in *. clearbody h. split.
  - unfold ReadSpec.readable. cbn [pt_junk pt_hdr pt_time pt_data]. split; [constructor|]. split; [exact H1|]. split; [rewrite Eh; exact Hs|]. split; [auto|].
    split; [rewrite Eh; exact Et|]. split; [exact T3|]. right. rewrite Eh. reflexivity.
  - unfold part_rec. cbn [pt_hdr pt_time pt_data]. unfold rec_of. rewrite until0_id by (rewrite Eh; exact Ns). rewrite layout3_len, Eh. cbn [h_flags h_sid h_rate h_enc h_pub h_cnt h_crc h_extra h_payload].
    unfold hdrlen. change (lenZ (@nil Z)) with 0. rewrite Z.add_0_r. reflexivity.
Qed.

Lemma emit_parts F recip nexttime m2 m type src cap cs : has_flag F 1 = true -> msr_ok recip m -> lenZ (m_sid m) < 64 ->
  Forall (fun b => b <> 0) (m_sid m) -> Forall (fun b => b <> 0) (m_extra m) ->
  packable m2 (encoding_of m) type src -> lenZ src < 2 ^ 31 -> (cs <> [] -> hdrlen m + cap <= 10485760) ->
  (forall k, 0 <= k < lenZ src -> readable_time (record_time nexttime m k)) ->
  forall k, 0 <= k -> chunks_ok m2 m src cap k cs ->
  exists parts, map (fun x => layout3 (pt_hdr x)) parts = emit recip nexttime m k cs /\ Forall (fun x => ReadSpec.readable m2 F x /\ pt_junk x = []) parts /\
    in_turn (fun k c x => c <> [] /\ 0 <= k < lenZ src /\ exists len crc datalen, len <= hdrlen m + cap /\
      part_rec x = mk_msr len false (is_steim (encoding_of m)) 3 (m_flags m) (m_sid m) (record_time nexttime m k) (rate_of recip m) (encoding_of m) (m_pub m) (lenZ c) crc
                          (m_extra m) datalen (Some (SInt c))) k parts (chunk_list src k cs).
Proof.
  intros F1 M Hs Ns Ne Pk Hn Hcap Ht. induction cs as [|[n p] cs IH]; intros k Hk C; cbn [emit chunk_list].
  { exists []. split; [reflexivity|]. split; [constructor|exact I]. }
  cbn [chunks_ok] in C. destruct C as [Pp C]. pose proof Pp as (Pn & Pb & _).
  assert (Lk : lenZ (skipn (Z.to_nat k) src) = Z.max 0 (lenZ src - k)) by (unfold lenZ; rewrite skipn_length; lia).
  assert (Lc : lenZ (firstn (Z.to_nat n) (skipn (Z.to_nat k) src)) = n) by (unfold lenZ in *; rewrite firstn_length; lia).
  specialize (Hcap ltac:(discriminate)). destruct (IH ltac:(auto) (k + n) ltac:(lia) C) as (parts & E & R & D).
  change (rectime nexttime m k) with (record_time nexttime m k).
  assert (Pk' : packable m2 (encoding_of m) type (skipn (Z.to_nat k) src)) by (apply packable_skipn; [exact Pk|]; unfold lenZ in *; lia).
  destruct (out_rec_part m2 F recip m type (encoding_of m) (skipn (Z.to_nat k) src) cap (record_time nexttime m k) n p F1 M Hs Ns Ne Pk' Pp ltac:(lia) ltac:(unfold hdrlen in Hcap; lia) ltac:(apply Ht; lia)) as (A & B).
  set (x := mk_part [] _ _ _) in *. exists (x :: parts). split; [cbn [map]; now rewrite E|]. split; [constructor; [split; [exact A|reflexivity]|exact R]|].
  cbn [in_turn]. rewrite Lc. split; [|exact D]. split; [intros Z; rewrite Z in Lc; unfold lenZ in Lc; cbn [length] in Lc; lia|]. split; [lia|].
  eexists _, _, _. split; [|exact B].
  rewrite layout3_len. unfold out_rec. rewrite out_with_crc. unfold out_hdr. destruct (fields_at _) as [[[[[? ?] ?] ?] ?] ?]. cbn [h_sid h_extra h_payload]. unfold hdrlen. lia.
Qed.

(** ** Segments and lists *)

Lemma in_turn_impl (D D' : Z -> list Z -> ReadSpec.part -> Prop) : (forall k c x, D k c x -> D' k c x) ->
  forall parts chunks k, in_turn D k parts chunks -> in_turn D' k parts chunks.
Proof.
  intros H. induction parts as [|x parts IH]; intros [|c cs] k Hd; cbn [in_turn] in *; try tauto.
  destruct Hd as [A B]. split; [now apply H|now apply IH].
Qed.

Definition wrote_seg (mode : ovmode) (F : Z) (e : penv) (o : popt) (t : tid) (s : seg) (x : TlPackSpec.outcome) : Prop :=
  exists parts, x_recs x = map (fun x => layout3 (pt_hdr x)) parts /\ x_ret x = lenZ parts /\ x_seg x = s /\ written_as mode F (e_recip e) (e_leaps e) o t s parts.

Lemma seg_parts mode2 F e o t s : has_flag F 1 = true -> has_flag (o_flags o) MSF_PACKVER2 = false -> has_flag (o_flags o) 64 = true -> has_flag (o_flags o) 512 = true ->
  good_call e o -> good_id t -> ready3 mode2 e o t s ->
  exists x, goes e o (t_sid t) (t_pub t) s x /\ wrote_seg mode2 F e o t s x.
Proof.
  intros F1 V F64 F512 (Rc & Ba & Rl & La & Bx & Nx & Lx) (Bs & Ls & Ns & Pb) ((x & q & Rx & Hz & Q0 & Sp) & Ht & Hc & P1 & P2 & St & Ln & Lf & Mp).
  set (m := TlPackSpec.wanted o t s) in *. change (maxlen m <= lenZ (e_alloc e)) in La.
  pose proof (times_ok (e_mode e) (e_leaps e) o t s x q Rx Hz Q0 Sp ltac:(lia) Ht) as T. cbv zeta in T. fold m in T.
  assert (M : msr_ok (e_recip e) m).
  { destruct (dbits_value x q Rx) as (Hd & _). rewrite <- Hz in Hd. unfold msr_ok, m. cbn [TlPackSpec.wanted m_flags m_start m_pub m_sid m_extra]. unfold NSTERROR in Ht. split; [unfold in_u; lia|]. split; [unfold in_s; lia|].
    split; [|split; [exact Pb|split; [exact Bs|split; [lia|split; [exact Bx|exact Lx]]]]]. unfold rate_of. cbn [m_rate]. destruct (_ && _); [apply Rc|exact Hd]. }
  assert (R : reclen_ok m) by exact Rl.
  set (next := next_start (e_mode e) (e_leaps e) m) in *.
  assert (A : forall type src flags, flags = o_flags o -> pack_any e m type src flags = msr3_pack (e_fuel e) (e_recip e) next (e_hb e) (e_mode e) (e_alloc e) m type src flags).
  { intros type src flags ->. unfold pack_any, msr3_pack. rewrite V. reflexivity. }
  assert (Rt : forall k, 0 <= k < lenZ (s_data s) + 1 -> readable_time (record_time next m k)).
  { intros k Hk. destruct (T k ltac:(lia)) as (_ & G & _). unfold readable_time. unfold NSTERROR in *.
    split; [|lia]. unfold record_time in *. destruct (k =? 0); [unfold in_s; change (m_start m) with (s_start s); lia|apply next_start_range]. }
  destruct (list_eq_dec Z.eq_dec (s_data s) []) as [E0|E0].
  - pose proof (Rt 0 ltac:(pose proof (lenZ_nonneg (s_data s)); lia)) as R0. change (record_time next m 0) with (m_start m) in R0.
    assert (Hl : hdrlen m <= maxlen m). { unfold min_payload in Mp. destruct (_ =? 0); [lia|]. destruct (_ =? 1); [lia|]. destruct (_ || _); [lia|]. destruct (_ =? 5); lia. }
    pose proof (pack_empty (e_fuel e) (e_recip e) next (e_hb e) (e_mode e) (e_alloc e) m (s_type s) (o_flags o) M Ba La R Hl) as E.
    assert (Mx : maxlen m <= 10485760) by (unfold maxlen; destruct R as [-> |]; [cbn; lia|]; destruct (m_reclen m <? 0) eqn:?; lia).
    destruct (empty_part mode2 F (e_recip e) m (m_start m) M ltac:(lia) Ls Ns R0) as (X1 & X2). set (y := mk_part _ _ _ _) in *.
    change (layout3 (out_rec (e_recip e) m 0 (fields_at (m_start m)) 0 [])) with (layout3 (pt_hdr y)) in E. rewrite <- A in E by reflexivity. rewrite <- E0 in E.
    destruct (finish e o t s _ 0 q E) as (s' & G & Lf'); auto; [pose proof (lenZ_nonneg (s_data s)); lia|lia|eapply packable_size; exact P1|intros k Hk; apply T; exact Hk|].
    eexists. split; [exact G|]. exists [y]. cbn [x_recs x_ret x_tot x_seg]. split; [reflexivity|]. split; [reflexivity|].
    split; [unfold left in Lf'; rewrite F512 in Lf'; exact Lf'|]. split; [constructor; [split; [exact X1|reflexivity]|constructor]|]. split; [|congruence].
    intros _. eexists y, _. split; [reflexivity|]. exact X2.
  - pose proof (pack_ok (e_fuel e) (e_recip e) next (e_hb e) (e_mode e) mode2 (e_alloc e) m (s_type s) (s_data s) (o_flags o) M P1 P2 E0 ltac:(lia) (next_start_range _ _ _) Ba La) as K. cbv zeta in K.
    destruct (msr3_pack _ _ _ _ _ _ _ _ _ _) as [[[recs tot] ok]|c|ub|] eqn:E.
    2:{ destruct K as [[] _]. } 2:{ destruct K as [[] _]. } 2:{ destruct K as [_ K]. exfalso. now apply K. }
    destruct K as [(cs & Er & Ck & Et & Htot & Hcs & Fl & Ok1) _].
    assert (ok = true) as -> by (destruct Ok1 as [->|(_ & N)]; [reflexivity|exfalso; apply N; repeat split; auto; lia]).
    specialize (Fl eq_refl F64).
    destruct (emit_parts F (e_recip e) next mode2 m (s_type s) (s_data s) _ cs F1 M Ls Ns Nx P2 Ln ltac:(intros H0; exact (proj2 (Hcs H0))) ltac:(intros k Hk; apply Rt; lia) 0 ltac:(lia) Ck)
      as (parts & E1 & E2 & E3).
    rewrite <- A in E by reflexivity.
    destruct (finish e o t s recs tot q E) as (s' & G & Lf'); auto; [pose proof (lenZ_nonneg (s_data s)); lia|lia|eapply packable_size; exact P1|intros k Hk; apply T; exact Hk|].
    eexists. split; [exact G|]. exists parts. cbn [x_recs x_ret x_tot x_seg]. split; [now rewrite E1|]. split; [rewrite Er, <- E1; unfold lenZ; now rewrite map_length|].
    split; [unfold left in Lf'; rewrite F512 in Lf'; exact Lf'|]. split; [exact E2|]. split; [congruence|]. intros _. exists q, (chunk_list (s_data s) 0 cs). split; [exact Hz|].
    split. { rewrite (chunk_concat _ _ _ _ _ 0 ltac:(lia) Ck). cbn [Z.to_nat skipn]. rewrite <- Et, Fl. unfold lenZ. rewrite Nat2Z.id. apply firstn_all. }
    eapply in_turn_impl; [|exact E3]. cbv beta. intros k c y (N & Hk & len & crc & dl & Ll & Ey). split; [exact N|]. exists len, (record_time next m k), crc, dl. fold m.
    split; [lia|]. split; [apply T; lia|exact Ey].
Qed.

Lemma list_parts mode2 F e o k ids : has_flag F 1 = true -> has_flag (o_flags o) MSF_PACKVER2 = false -> has_flag (o_flags o) 64 = true -> has_flag (o_flags o) 512 = true ->
  good_call e o -> tl_ids k = Ok ids ->
  Forall (fun t => good_id t /\ exists segs, tid_segs t = Ok segs /\ Forall (ready3 mode2 e o t) segs) ids ->
  exists r n k' partss, tl_pack e o k = Ok r /\ p_ret r = lenZ (concat (concat partss)) /\ p_recs r = map (fun x => layout3 (pt_hdr x)) (concat (concat partss)) /\
    p_done r = Some (n, k') /\ kept k k' /\
    Forall2 (fun t pss => exists segs, tid_segs t = Ok segs /\ Forall2 (written_as mode2 F (e_recip e) (e_leaps e) o t) segs pss) ids partss.
Proof.
  intros F1 V F64 F512 G Ei R.
  destruct (list_ok e o k ids (fun t s x => wrote_seg mode2 F e o t s x) (fun t s => good_id t /\ ready3 mode2 e o t s)) as (r & xss & Er & Y & D).
  { apply G. } { exact Ei. } { intros t s (Gi & Rs). now apply seg_parts. }
  { eapply Forall_impl; [|exact R]. intros t (Gi & segs & Es & Fs). exists segs. split; [exact Es|]. eapply Forall_impl; [|exact Fs]. auto. }
  destruct Y as (Y1 & Y2 & k' & ids' & Y3 & Y4 & Y5 & Y6).
  assert (X : exists partss, TlPackSpec.total x_ret xss = lenZ (concat (concat partss)) /\ concat (map x_recs (concat xss)) = map (fun x => layout3 (pt_hdr x)) (concat (concat partss)) /\
     Forall2 (fun t xs => tid_segs t = Ok (map x_seg xs)) ids xss /\
     Forall2 (fun t pss => exists segs, tid_segs t = Ok segs /\ Forall2 (written_as mode2 F (e_recip e) (e_leaps e) o t) segs pss) ids partss).
  { clear - D. induction D as [|t xs ids xss (segs & Es & Fs) D (partss & I1 & I2 & I3 & I4)].
    - exists []. cbn. repeat split; constructor.
    - assert (S1 : exists pss, fold_right (fun x a => x_ret x + a) 0 xs = lenZ (concat pss) /\ concat (map x_recs xs) = map (fun x => layout3 (pt_hdr x)) (concat pss) /\
        map x_seg xs = segs /\ Forall2 (written_as mode2 F (e_recip e) (e_leaps e) o t) segs pss).
      { clear - Fs. induction Fs as [|s x segs xs (ps & J1 & J2 & J3 & J4) Fs (pss & I1 & I2 & I3 & I4)].
        - exists []. cbn. repeat split; constructor.
        - exists (ps :: pss). cbn [fold_right map concat]. rewrite I1, I2, J1, J2, map_app, lenZ_app, I3, J3. repeat split. constructor; assumption. }
      destruct S1 as (pss & J1 & J2 & J3 & J4). exists (pss :: partss). cbn [concat]. unfold TlPackSpec.total in *. cbn [concat].
      rewrite fold_right_app, map_app, !concat_app, map_app, lenZ_app, I2, J2. split.
      + rewrite I1. rewrite <- J1. clear. generalize (lenZ (concat (concat partss))). intros z. induction xs as [|x xs IH]; cbn [fold_right]; [lia|]. rewrite IH. lia.
      + split; [reflexivity|]. split; [constructor; [now rewrite J3|exact I3]|]. constructor; [exists segs; auto|exact I4]. }
  destruct X as (partss & X1 & X2 & X3 & X4). exists r, (TlPackSpec.total x_tot xss), k', partss. split; [exact Er|]. split; [congruence|]. split; [congruence|]. split; [exact Y3|].
  split; [|exact X4]. exists ids, ids'. split; [exact Ei|]. split; [exact Y4|]. clear - X3 Y5 Y6. revert xss X3 Y6. induction Y5 as [|t t' ids ids' E1 Y5 IH]; intros xss X3 Y6; [constructor|].
  inversion X3; subst. inversion Y6; subst. constructor; [split; [exact E1|congruence]|eapply IH; eauto].
Qed.

(** ** Writing *)

Lemma write_whole wrote : writes_all wrote -> forall parts i, Forall (fun x => hdr_ok (pt_hdr x) /\ pt_junk x = []) parts ->
  write_records wrote i (map (fun x => layout3 (pt_hdr x)) parts) = file_of parts [].
Proof.
  intros W. induction parts as [|x parts IH]; intros i R; cbn [map write_records file_of]; [reflexivity|]. inversion R as [|? ? (H & J) R']; subst.
  rewrite IH by exact R'. rewrite J. cbn [app]. f_equal. rewrite firstn_all2; [reflexivity|]. specialize (W i). unfold hdr_ok in H. unfold lenZ in H. lia.
Qed.

Lemma name_eqb_eq a b : name_eqb a b = true <-> a = b.
Proof. unfold name_eqb. destruct (list_eq_dec Z.eq_dec a b); split; congruence. Qed.

Lemma write_flags flags : let f := Z.lor (Z.lor flags MSF_MAINTAINMSTL) MSF_FLUSHDATA in
  has_flag f 64 = true /\ has_flag f 512 = true /\ has_flag f MSF_PACKVER2 = has_flag flags MSF_PACKVER2.
Proof.
  unfold has_flag, MSF_MAINTAINMSTL, MSF_FLUSHDATA, MSF_PACKVER2. cbv zeta. rewrite !Z.land_lor_distr_l. repeat split.
  - change (Z.land 512 64) with 0. change (Z.land 64 64) with 64. rewrite Z.lor_0_r. apply Bool.negb_true_iff, Z.eqb_neq. intros H. apply Z.lor_eq_0_iff in H. lia.
  - change (Z.land 512 512) with 512. change (Z.land 64 512) with 0. rewrite Z.lor_0_r. apply Bool.negb_true_iff, Z.eqb_neq. intros H. apply Z.lor_eq_0_iff in H. lia.
  - change (Z.land 512 128) with 0. change (Z.land 64 128) with 0. now rewrite !Z.lor_0_r.
Qed.

Lemma before_is fs overwrite path old : starts_with fs overwrite path old -> before fs overwrite path = old.
Proof. unfold starts_with, before. destruct overwrite; [congruence|]. intros [-> |(-> & ->)]; reflexivity. Qed.

Lemma written_readable mode F recip leaps o ids partss :
  Forall2 (fun t pss => exists segs, tid_segs t = Ok segs /\ Forall2 (written_as mode F recip leaps o t) segs pss) ids partss ->
  Forall (fun x => ReadSpec.readable mode F x /\ pt_junk x = []) (concat (concat partss)).
Proof.
  intros D. induction D as [|t pss ids partss (segs & _ & Fs) D IH]; [constructor|]. cbn [concat]. rewrite concat_app. apply Forall_app. split; [|exact IH].
  clear - Fs. induction Fs as [|s ps segs pss (R & _) Fs IH]; [constructor|]. cbn [concat]. apply Forall_app. auto.
Qed.

Lemma write_list mode2 F fs closed wrote e path overwrite reclen encoding flags k ids old : let o := write_opts (mk_popt reclen encoding None flags) in
  has_flag F 1 = true -> path <> [45] -> writes_all wrote -> starts_with fs overwrite path old ->
  has_flag flags MSF_PACKVER2 = false -> good_call e o -> tl_ids k = Ok ids ->
  Forall (fun t => good_id t /\ exists segs, tid_segs t = Ok segs /\ Forall (ready3 mode2 e o t) segs) ids ->
  exists w partss, write_tracelist fs true closed wrote e path overwrite reclen encoding flags k = Ok w /\
    let parts := concat (concat partss) in
    w_ret w = lenZ parts /\ w_files w path = Some (old ++ file_of parts []) /\ (forall name, name <> path -> w_files w name = fs name) /\ w_stdout w = [] /\ w_closed w = closed /\
    (exists p n k', w_packed w = Some p /\ p_done p = Some (n, k') /\ kept k k') /\
    Forall2 (fun t pss => exists segs, tid_segs t = Ok segs /\ Forall2 (written_as mode2 F (e_recip e) (e_leaps e) o t) segs pss) ids partss.
Proof.
  intros o F1 NP W St V G Ei R. destruct (write_flags flags) as (W1 & W2 & W3).
  destruct (list_parts mode2 F e o k ids F1 ltac:(cbn [o write_opts o_flags]; congruence) W1 W2 G Ei R) as (r & n & k' & partss & Er & Rr & Rc & Rd & K & D).
  unfold write_tracelist, write_with. rewrite (match_minus _ _ _ NP). fold o. rewrite Er. cbn [bind]. eexists _, partss. split; [reflexivity|].
  cbv zeta. cbn [w_ret w_files w_stdout w_closed w_packed]. split; [exact Rr|]. split.
  - unfold store. replace (name_eqb path path) with true by (symmetry; now apply name_eqb_eq). rewrite (before_is _ _ _ _ St), Rc, (write_whole wrote W); [reflexivity|].
    eapply Forall_impl; [|exact (written_readable _ _ _ _ _ _ _ D)]. unfold ReadSpec.readable. tauto.
  - split; [|split; [reflexivity|split; [reflexivity|split; [exists r, n, k'; auto|exact D]]]].
    intros name N. unfold store. destruct (name_eqb name path) eqn:X; [apply name_eqb_eq in X; congruence|reflexivity].
Qed.

Lemma write_out mode2 F fs wrote e overwrite reclen encoding flags k ids : let o := write_opts (mk_popt reclen encoding None flags) in
  has_flag F 1 = true -> writes_all wrote -> has_flag flags MSF_PACKVER2 = false -> good_call e o -> tl_ids k = Ok ids ->
  Forall (fun t => good_id t /\ exists segs, tid_segs t = Ok segs /\ Forall (ready3 mode2 e o t) segs) ids ->
  exists w partss, write_tracelist fs true false wrote e [45] overwrite reclen encoding flags k = Ok w /\
    let parts := concat (concat partss) in
    w_ret w = lenZ parts /\ w_stdout w = file_of parts [] /\ (forall name, w_files w name = fs name) /\ w_closed w = true /\
    (exists p n k', w_packed w = Some p /\ p_done p = Some (n, k') /\ kept k k') /\
    Forall2 (fun t pss => exists segs, tid_segs t = Ok segs /\ Forall2 (written_as mode2 F (e_recip e) (e_leaps e) o t) segs pss) ids partss.
Proof.
  intros o F1 W V G Ei R. destruct (write_flags flags) as (W1 & W2 & W3).
  destruct (list_parts mode2 F e o k ids F1 ltac:(cbn [o write_opts o_flags]; congruence) W1 W2 G Ei R) as (r & n & k' & partss & Er & Rr & Rc & Rd & K & D).
  unfold write_tracelist, write_with. fold o. rewrite Er. cbn [bind]. eexists _, partss. split; [reflexivity|].
  cbv zeta. cbn [w_ret w_files w_stdout w_closed w_packed]. split; [exact Rr|]. split.
  - rewrite Rc, (write_whole wrote W); [reflexivity|]. eapply Forall_impl; [|exact (written_readable _ _ _ _ _ _ _ D)]. unfold ReadSpec.readable. tauto.
  - split; [reflexivity|]. split; [reflexivity|]. split; [exists r, n, k'; auto|exact D].
Qed.

(** ** Reading it back *)

Lemma file_app parts parts' rest : file_of (parts ++ parts') rest = file_of parts [] ++ file_of parts' rest.
Proof. induction parts as [|x parts IH]; cbn [app file_of]; [reflexivity|]. rewrite IH, <- !app_assoc. reflexivity. Qed.

Lemma nothing_between : forall parts, Forall (fun x => pt_junk x = []) parts -> junk_ok parts [] /\ no_junk parts [].
Proof.
  intros parts J. split; [|split; [exact J|cbn; lia]]. induction J as [|x parts J1 J IH]; cbn [junk_ok]; [intros i Hi; cbn in Hi; lia|].
  split; [|exact IH]. intros i Hi. rewrite J1 in Hi. cbn in Hi. lia.
Qed.

Lemma read_written fs stdin x sch path parts heights k' : let g := t_read x in
  g_hb g = false -> delivers sch -> holds fs stdin (g_flags g) path (file_of parts []) ->
  Forall (fun x => ReadSpec.readable (g_mode g) (g_flags g) x /\ pt_junk x = []) parts -> g_select g = None -> lenZ (file_of parts []) < 2 ^ 63 ->
  (length parts <= length heights)%nat ->
  add_all (t_conf x) tl_init (combine (map (fun x => trec_of (part_rec x)) parts) heights) = Ok k' -> parts <> [] ->
  read_all (S (length (file_of parts []))) g sch (opened (file_of parts []) 0 0) = Ok (map (fun px => (fst px, part_rec (snd px))) (contents 0 parts), 1) /\
  exists ptrs, read_tracelist fs stdin x sch path tl_init heights = Ok (0, Some k', ptrs).
Proof.
  intros g HB HD H R S L Hl A NE. assert (R1 : Forall (ReadSpec.readable (g_mode g) (g_flags g)) parts) by (eapply Forall_impl; [|exact R]; cbv beta; tauto).
  destruct (nothing_between parts ltac:(eapply Forall_impl; [|exact R]; cbv beta; tauto)) as (J1 & J2).
  assert (FT : forall l : list ReadSpec.part, filter (fun x => selected g (part_head x)) l = l).
  { induction l as [|y l IH]; [reflexivity|]. cbn [filter]. unfold selected at 1. rewrite S, IH. reflexivity. }
  assert (FT2 : forall l : list (Z * ReadSpec.part), filter (fun px => selected g (part_head (snd px))) l = l).
  { induction l as [|y l IH]; [reflexivity|]. cbn [filter]. unfold selected at 1. rewrite S, IH. reflexivity. }
  assert (LZ : lenZ parts =? 0 = false) by (destruct parts; [congruence|unfold lenZ; cbn [length]; lia]).
  split.
  - rewrite (file_read g sch parts [] HB HD R1 ltac:(constructor) J1 (or_intror J2) L). unfold expected. rewrite FT2.
    replace (lenZ (map _ (contents 0 parts)) =? 0) with false; [reflexivity|]. unfold lenZ. rewrite map_length.
    destruct parts; [congruence|]. cbn [contents length]. lia.
  - destruct (read_list fs stdin x sch path parts [] tl_init heights k' HB HD H R1 ltac:(constructor) J1 (or_intror J2) L) as (ptrs & E & _); fold g; rewrite ?FT; auto.
    fold g in E. rewrite FT, LZ in E. exists ptrs. exact E.
Qed.

Lemma write_one mode2 F fs closed wrote e path overwrite flags m type src old : let next := next_start (e_mode e) (e_leaps e) m in
  has_flag F 1 = true -> path <> [45] -> writes_all wrote -> starts_with fs overwrite path old ->
  m_fver m <> 2 -> has_flag flags MSF_PACKVER2 = false ->
  msr_ok (e_recip e) m -> lenZ (m_sid m) < 64 -> Forall (fun b => b <> 0) (m_sid m) -> Forall (fun b => b <> 0) (m_extra m) ->
  packable (e_mode e) (encoding_of m) type src -> packable mode2 (encoding_of m) type src -> src <> [] -> lenZ src < 2 ^ 31 -> lenZ src < Z.of_nat (e_fuel e) ->
  (forall k, 0 <= k < lenZ src -> readable_time (record_time next m k)) ->
  bytes_ok (e_alloc e) -> maxlen m <= lenZ (e_alloc e) -> reclen_ok m -> hdrlen m + min_payload (encoding_of m) <= maxlen m -> storable (encoding_of m) src ->
  exists w parts chunks, write_record fs true closed wrote e path overwrite flags m type src = Ok w /\
    w_ret w = lenZ parts /\ w_files w path = Some (old ++ file_of parts []) /\ (forall name, name <> path -> w_files w name = fs name) /\
    Forall (fun x => ReadSpec.readable mode2 F x /\ pt_junk x = []) parts /\
    (exists n, concat chunks = firstn n src /\ (has_flag flags 64 = true -> concat chunks = src)) /\
    in_turn (fun k c x => c <> [] /\ exists len crc datalen, len <= maxlen m /\
      part_rec x = mk_msr len false (is_steim (encoding_of m)) 3 (m_flags m) (m_sid m) (record_time next m k) (rate_of (e_recip e) m) (encoding_of m) (m_pub m) (lenZ c) crc
                          (m_extra m) datalen (Some (SInt c))) 0 parts chunks.
Proof.
  intros next F1 NP W St V2 V M Ls Ns Nx P1 P2 E0 Ln Lf Rt Ba La R Mp Sb.
  pose proof (pack_ok (e_fuel e) (e_recip e) next (e_hb e) (e_mode e) mode2 (e_alloc e) m type src flags M P1 P2 E0 ltac:(lia) (next_start_range _ _ _) Ba La) as K. cbv zeta in K.
  assert (A : pack_any e m type src flags = msr3_pack (e_fuel e) (e_recip e) next (e_hb e) (e_mode e) (e_alloc e) m type src flags) by (unfold pack_any, msr3_pack; rewrite V; reflexivity).
  destruct (msr3_pack _ _ _ _ _ _ _ _ _ _) as [[[recs tot] ok]|c|ub|] eqn:E.
  2:{ destruct K as [[] _]. } 2:{ destruct K as [[] _]. } 2:{ destruct K as [_ K]. exfalso. now apply K. }
  destruct K as [(cs & Er & Ck & Et & Htot & Hcs & Fl & Ok1) _].
  assert (ok = true) as -> by (destruct Ok1 as [->|(_ & N)]; [reflexivity|exfalso; apply N; repeat split; auto; lia]).
  destruct (emit_parts F (e_recip e) next mode2 m type src _ cs F1 M Ls Ns Nx P2 Ln ltac:(intros H0; exact (proj2 (Hcs H0))) Rt 0 ltac:(lia) Ck) as (parts & E1 & E2 & E3).
  unfold write_record, write_with, pack_record. rewrite (match_minus _ _ _ NP). replace (m_fver m =? 2) with false by lia. rewrite A. cbn [bind].
  eexists _, parts, _. split; [reflexivity|]. cbn [w_ret w_files p_ret p_recs]. split; [rewrite Er, <- E1; unfold lenZ; now rewrite map_length|]. split.
  - unfold store. replace (name_eqb path path) with true by (symmetry; now apply name_eqb_eq). rewrite (before_is _ _ _ _ St), Er, <- E1, (write_whole wrote W); [reflexivity|].
    eapply Forall_impl; [|exact E2]. unfold ReadSpec.readable. tauto.
  - split. { intros name N. unfold store. destruct (name_eqb name path) eqn:X; [apply name_eqb_eq in X; congruence|reflexivity]. }
    split; [exact E2|]. pose proof (chunk_concat _ _ _ _ _ 0 ltac:(lia) Ck) as Cc. cbn [Z.to_nat skipn] in Cc. split.
    + exists (Z.to_nat (total_of cs)). split; [exact Cc|]. intros F64. specialize (Fl eq_refl F64). rewrite Cc, <- Et, Fl. unfold lenZ. rewrite Nat2Z.id. apply firstn_all.
    + eapply in_turn_impl; [|exact E3]. cbv beta. intros k c y (N & Hk & len & crc & dl & Ll & Ey). split; [exact N|]. exists len, crc, dl. split; [lia|exact Ey].
Qed.

(** Written and read again. *)
Lemma written_read fs stdin closed wrote e path overwrite reclen encoding flags k ids parts0 x sch :
  let o := write_opts (mk_popt reclen encoding None flags) in let g := t_read x in
  path <> [45] -> lenZ path < 512 -> ~ has_colon path -> no_range (g_flags g) path -> has_flag (g_flags g) 1 = true -> g_hb g = false -> g_select g = None -> delivers sch ->
  writes_all wrote -> starts_with fs overwrite path (file_of parts0 []) ->
  Forall (fun x => ReadSpec.readable (g_mode g) (g_flags g) x /\ pt_junk x = []) parts0 ->
  has_flag flags MSF_PACKVER2 = false -> good_call e o -> tl_ids k = Ok ids ->
  Forall (fun t => good_id t /\ exists segs, tid_segs t = Ok segs /\ Forall (ready3 (g_mode g) e o t) segs) ids ->
  exists w partss, write_tracelist fs true closed wrote e path overwrite reclen encoding flags k = Ok w /\
    Forall2 (fun t pss => exists segs, tid_segs t = Ok segs /\ Forall2 (written_as (g_mode g) (g_flags g) (e_recip e) (e_leaps e) o t) segs pss) ids partss /\
    let parts := parts0 ++ concat (concat partss) in
    (parts <> [] -> lenZ (file_of parts []) < 2 ^ 63 ->
     read_all (S (length (file_of parts []))) g sch (opened (file_of parts []) 0 0) = Ok (map (fun px => (fst px, part_rec (snd px))) (contents 0 parts), 1) /\
     forall heights k', (length parts <= length heights)%nat ->
       add_all (t_conf x) tl_init (combine (map (fun x => trec_of (part_rec x)) parts) heights) = Ok k' ->
       exists ptrs, read_tracelist (w_files w) stdin x sch path tl_init heights = Ok (0, Some k', ptrs)).
Proof.
  intros o g NP LP NC NR F1 HB S HD W St R0 V G Ei R.
  destruct (write_list (g_mode g) (g_flags g) fs closed wrote e path overwrite reclen encoding flags k ids _ F1 NP W St V G Ei R) as (w & partss & Ew & _ & Ef & _ & _ & _ & _ & D).
  exists w, partss. split; [exact Ew|]. split; [exact D|]. cbv zeta. intros NE L. set (parts := parts0 ++ concat (concat partss)) in *.
  rewrite <- file_app in Ef. fold parts in Ef.
  assert (RP : Forall (fun x => ReadSpec.readable (g_mode g) (g_flags g) x /\ pt_junk x = []) parts) by (apply Forall_app; split; [exact R0|exact (written_readable _ _ _ _ _ _ _ D)]).
  assert (H : holds (w_files w) stdin (g_flags g) path (file_of parts [])) by (apply h_file; assumption).
  split.
  - assert (R1 : Forall (ReadSpec.readable (g_mode g) (g_flags g)) parts) by (eapply Forall_impl; [|exact RP]; cbv beta; tauto).
    destruct (nothing_between parts ltac:(eapply Forall_impl; [|exact RP]; cbv beta; tauto)) as (J1 & J2).
    assert (FT2 : forall l : list (Z * ReadSpec.part), filter (fun px => selected g (part_head (snd px))) l = l).
    { induction l as [|y l IH]; [reflexivity|]. cbn [filter]. unfold selected at 1. rewrite S, IH. reflexivity. }
    rewrite (file_read g sch parts [] HB HD R1 ltac:(constructor) J1 (or_intror J2) L). unfold expected. rewrite FT2.
    replace (lenZ (map _ (contents 0 parts)) =? 0) with false; [reflexivity|]. unfold lenZ. rewrite map_length.
    destruct parts; [congruence|]. cbn [contents length]. lia.
  - intros heights k' Hl A. exact (proj2 (read_written (w_files w) stdin x sch path parts heights k' HB HD H RP S L Hl A NE)).
Qed.
