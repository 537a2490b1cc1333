(** * The records of a packed version 2 series. *)

From Coq Require Import String.
From Verif Require Import Base BaseLemmas TimeModel TimeSpec TimeProof SteimSpec StrModel StrSpec RecModel RecSpec RecProof PackModel PackSpec PackData PackProof
  V2Model V2RecSpec V2RecProof V2RecParse Pack2Model Pack2Spec Pack2Data Pack2Hdr.
Open Scope Z_scope.

(** ** Fields changed from record to record *)

Section Fields.
  Variables (hb : bool) (m : msr) (k : codes) (f mu nb t cnt off : Z) (R : list Z).
  Hypothesis K : codes_ok k.

  Lemma explicit : exists s0 s1 s2 s3 s4 l0 l1 n0 n1, fill 5 (k_sta k) = [s0; s1; s2; s3; s4] /\ fill 2 (k_loc k) = [l0; l1] /\ fill 2 (k_net k) = [n0; n1].
  Proof.
    destruct K as (Kn & Ks & Kl & _). apply code_ascii in Kn, Ks, Kl. destruct Kn as [Tn Ln], Ks as [Ts Ls], Kl as [Tl Ll].
    destruct (five _ (lenZ_fill _ _ Ls)) as (s0 & s1 & s2 & s3 & s4 & Es). destruct (two _ (lenZ_fill _ _ Ll)) as (l0 & l1 & El).
    destruct (two _ (lenZ_fill _ _ Ln)) as (n0 & n1 & En). exists s0, s1, s2, s3, s4, l0, l1, n0, n1. auto.
  Qed.

  Ltac open_header :=
    destruct explicit as (s0 & s1 & s2 & s3 & s4 & l0 & l1 & n0 & n1 & Es & El & En);
    unfold fixed2, hdr_of; cbn [f_seq f_quality f_reserved f_sta f_loc f_chan f_net f_start f_cnt f_fact f_mult f_act f_io f_dq f_nblk f_corr f_data];
    unfold btime_bytes; rewrite Es, El, En; rewrite ?be_ord.

  Lemma fixed_len : lenZ (fixed2 true (hdr_of m k f mu nb t cnt off) 48) = 48.
  Proof. open_header. reflexivity. Qed.

  Lemma put_cnt n : put 30 (be hb 2 n) (fixed2 true (hdr_of m k f mu nb t cnt off) 48 ++ R) = Ok (fixed2 true (hdr_of m k f mu nb t n off) 48 ++ R).
  Proof. open_header. rewrite put_in_b by reflexivity. reflexivity. Qed.

  Lemma put_off o : put 44 (be hb 2 o) (fixed2 true (hdr_of m k f mu nb t cnt off) 48 ++ R) = Ok (fixed2 true (hdr_of m k f mu nb t cnt o) 48 ++ R).
  Proof. open_header. rewrite put_in_b by reflexivity. reflexivity. Qed.

  Lemma put_start t' : put_time2 hb (fields_of t') (fixed2 true (hdr_of m k f mu nb t cnt off) 48 ++ R) = Ok (fixed2 true (hdr_of m k f mu nb t' cnt off) 48 ++ R).
  Proof. 
    open_header. unfold fields_of, put_time2. rewrite !be_ord. do 5 (rewrite put_in_b by reflexivity; cbn [bind]).
    rewrite put_in_b by reflexivity. reflexivity.
  Qed.
End Fields.

Lemma layout_eq m k f mu nb t cnt off enc e us w rest :
  layout2 true (hdr_of m k f mu nb t cnt off) [] (blks_of enc e us w) rest =
  fixed2 true (hdr_of m k f mu nb t cnt off) 48 ++ chain_bytes true 48 (blks_of enc e us w) ++ rest.
Proof. reflexivity. Qed.

Lemma layout_len m k f mu nb t cnt off enc e us w rest : codes_ok k ->
  lenZ (layout2 true (hdr_of m k f mu nb t cnt off) [] (blks_of enc e us w) rest) = hlen us w + lenZ rest.
Proof. intros K. rewrite layout_eq, !lenZ_app, fixed_len, chain_len by exact K. lia. Qed.

(** ** The loop *)

Section Loop.
  Variables (nexttime : Z -> Z) (hb : bool) (m1 m2 : ovmode) (m : msr) (kc : codes) (f mu e type : Z) (src gap : list Z)
            (cap maxsamples : Z) (flush : bool).
  Let enc := encoding_of m.
  Let us := micros (m_start m).
  Let w := rate_blk m f mu.
  Let bs := blks_of enc e us w.
  Let off := hlen us w + lenZ gap.
  Hypothesis K : codes_ok kc.
  Hypothesis P1 : packable m1 enc type src.
  Hypothesis P2 : packable m2 enc type src.
  Hypothesis Hnum : lenZ src < 2 ^ 32.
  Hypothesis Hcap : 0 <= cap.
  Hypothesis Hmax : 0 <= maxsamples.
  Hypothesis Hstart : in_s 64 (m_start m).
  Hypothesis Hnext : forall k, in_s 64 (nexttime k).

  Definition hdr_at (k n : Z) : hdr2 := hdr_of m kc f mu (lenZ bs) (record_time nexttime m k) n off.
  Definition rec_at (k n : Z) (p : list Z) : list Z :=
    layout2 true (hdr_at k n) [] bs (gap ++ p ++ repeat 0 (Z.to_nat (cap - lenZ p))).
  Fixpoint emit2 (k : Z) (cs : list (Z * list Z)) : list (list Z) :=
    match cs with
    | [] => []
    | (n, p) :: r => rec_at k n p :: emit2 (k + n) r
    end.
  Fixpoint chunks2_ok (k : Z) (cs : list (Z * list Z)) : Prop :=
    match cs with
    | [] => True
    | (n, p) :: r => (payload2_of m2 enc (skipn (Z.to_nat k) src) cap n p /\ n <= 65535) /\ chunks2_ok (k + n) r
    end.

  Definition loop_post2 (k : Z) (r : res (list (list Z) * Z * bool)) : Prop :=
    match r with
    | Ok (recs, tot, ok) => exists cs, recs = emit2 k cs /\ chunks2_ok k cs /\ tot = k + total_of cs /\ tot <= lenZ src /\
        (ok = true -> flush = true -> tot = lenZ src) /\ (ok = true -> flush = false -> lenZ src - tot <= maxsamples) /\
        (ok = true \/ (tot < lenZ src /\ (~ (min_payload enc <= cap /\ storable enc (skipn (Z.to_nat tot) src)) \/
                        exists n p, payload2_of m2 enc (skipn (Z.to_nat tot) src) cap n p /\ 65535 < n)))
    | Fuel => True
    | _ => False
    end.

  Lemma time_range k : in_s 64 (record_time nexttime m k).
  Proof. unfold record_time. destruct (k =? 0); auto. Qed.

  Lemma loop2_ok fuel : forall k rest cnt, 0 <= k < lenZ src -> lenZ rest = cap ->
    let r := pack_loop2 fuel hb m1 nexttime enc type src off cap maxsamples (off + cap) flush (layout2 true (hdr_at k cnt) [] bs (gap ++ rest)) k in
    loop_post2 k r /\ (lenZ src - k < Z.of_nat fuel -> r <> Fuel).
  Proof.
    assert (Mc : 0 <= lenZ src) by apply lenZ_nonneg.
    induction fuel as [|fuel IH]; intros k rest cnt Hk Lr; cbn [pack_loop2].
    { cbv zeta. split; [exact I|]. lia. }
    cbv zeta. fold (lenZ src).
    destruct ((maxsamples <? lenZ src - k) || flush) eqn:Go.
    2:{ split; [|discriminate]. exists []. cbn [emit2 chunks2_ok total_of]. destruct flush; [rewrite orb_true_r in Go; discriminate|].
        repeat split; try lia; try discriminate. }
    assert (Ec : lenZ src - k <= uwrap 64 (swrap 32 (lenZ src - k))).
    { unfold swrap, uwrap. rewrite (Z.mod_small (lenZ src - k) (2 ^ 32)) by lia. destruct (lenZ src - k <? 2 ^ (32 - 1)) eqn:E.
      - rewrite Z.mod_small by lia. lia.
      - replace (lenZ src - k - 2 ^ 32) with (lenZ src - k - 2 ^ 32 + 2 ^ 64 + (-1) * 2 ^ 64) by lia.
        rewrite Z.mod_add by lia. rewrite Z.mod_small by lia. lia. }
    assert (Ef : firstn (Z.to_nat (uwrap 64 (swrap 32 (lenZ src - k)))) (skipn (Z.to_nat k) src) = skipn (Z.to_nat k) src).
    { apply firstn_all2. rewrite skipn_length. unfold lenZ in *. lia. }
    rewrite Ef. clear Ef Ec.
    assert (Hne : skipn (Z.to_nat k) src <> []).
    { intros E. apply (f_equal (@length Z)) in E. rewrite skipn_length in E. cbn [length] in E. unfold lenZ in Hk. lia. }
    assert (Hkn : (Z.to_nat k < length src)%nat) by (unfold lenZ in Hk; lia).
    assert (Lk : lenZ (skipn (Z.to_nat k) src) = lenZ src - k) by (unfold lenZ; rewrite skipn_length; lia).
    destruct (pack_data2_ok hb m1 m2 enc type (skipn (Z.to_nat k) src) cap) as [[E N]|(n & p & E & Pp)].
    { now apply packable_skipn. }
    { now apply packable_skipn. }
    { exact Hne. }
    { exact Hcap. }
    { rewrite E. split; [|discriminate]. exists []. cbn [emit2 chunks2_ok total_of]. rewrite Z.add_0_r.
      repeat split; try lia; try discriminate. right. split; [lia|left; exact N]. }
    rewrite E. destruct (Z.ltb_spec 65535 n) as [Big|Sm].
    { split; [|discriminate]. exists []. cbn [emit2 chunks2_ok total_of]. rewrite Z.add_0_r.
      repeat split; try lia; try discriminate. right. split; [lia|right; exists n, p; split; [exact Pp|lia]]. }
    pose proof Pp as (Pn & Pb & Pbk & _). fold (lenZ p).
    assert (Pd : put off p (layout2 true (hdr_at k cnt) [] bs (gap ++ rest)) = Ok (layout2 true (hdr_at k cnt) [] bs (gap ++ p ++ skipn (length p) rest))).
    { unfold hdr_at, bs. rewrite !layout_eq. rewrite <- (firstn_skipn (length p) rest) at 1. rewrite !app_assoc. rewrite <- (app_assoc _ (firstn _ _) _).
      rewrite put_mid; [now rewrite <- !app_assoc|rewrite !lenZ_app, fixed_len, chain_len by exact K; unfold off; lia|].
      rewrite firstn_length. unfold lenZ in *. lia. }
    rewrite Pd. cbn [bind].
    assert (Pc : put 30 (be hb 2 n) (layout2 true (hdr_at k cnt) [] bs (gap ++ p ++ skipn (length p) rest)) = Ok (layout2 true (hdr_at k n) [] bs (gap ++ p ++ skipn (length p) rest))).
    { unfold hdr_at, bs. rewrite !layout_eq. apply put_cnt. exact K. }
    rewrite Pc. cbn [bind].
    assert (Pz : (if off + lenZ p <? off + cap then put (off + lenZ p) (repeat 0 (Z.to_nat (off + cap - (off + lenZ p)))) (layout2 true (hdr_at k n) [] bs (gap ++ p ++ skipn (length p) rest))
                  else Ok (layout2 true (hdr_at k n) [] bs (gap ++ p ++ skipn (length p) rest))) = Ok (rec_at k n p)).
    { unfold rec_at. replace (off + cap - (off + lenZ p)) with (cap - lenZ p) by lia.
      destruct (Z.ltb_spec (off + lenZ p) (off + cap)) as [G|G].
      - unfold hdr_at, bs. rewrite !layout_eq. rewrite <- (app_nil_r (skipn (length p) rest)). rewrite <- (app_nil_r (repeat 0 (Z.to_nat (cap - lenZ p)))) at 2.
        rewrite !app_assoc. rewrite <- (app_assoc _ (skipn (length p) rest)), <- (app_assoc _ (repeat 0 _)).
        apply put_mid; [rewrite !lenZ_app, fixed_len, chain_len by exact K; unfold off; lia|].
        rewrite repeat_length, skipn_length. unfold lenZ in *. lia.
      - replace (cap - lenZ p) with 0 by lia. rewrite (skipn_all2 rest) by (unfold lenZ in *; lia). reflexivity. }
    rewrite Pz. cbn [bind]. rewrite nstime2time_ok by apply Hnext. cbv iota.
    destruct (Z.leb_spec (lenZ src) (k + n)) as [Fi|Mo].
    { split; [|discriminate]. exists [(n, p)]. cbn [emit2 chunks2_ok total_of]. split; [reflexivity|]. split; [split; [split; [exact Pp|lia]|exact I]|].
      split; [lia|]. split; [lia|]. split; [lia|]. split; [lia|]. left. reflexivity. }
    assert (Pt : put_time2 hb (fields_of (nexttime (k + n))) (rec_at k n p) = Ok (layout2 true (hdr_at (k + n) n) [] bs (gap ++ p ++ repeat 0 (Z.to_nat (cap - lenZ p))))).
    { unfold rec_at, hdr_at, bs. rewrite !layout_eq. rewrite put_start by exact K. unfold record_time. replace (k + n =? 0) with false by lia. reflexivity. }
    rewrite Pt. cbn [bind].
    specialize (IH (k + n) (p ++ repeat 0 (Z.to_nat (cap - lenZ p))) n ltac:(lia)).
    assert (Lq : lenZ (p ++ repeat 0 (Z.to_nat (cap - lenZ p))) = cap) by (rewrite lenZ_app; unfold lenZ in *; rewrite repeat_length; lia).
    specialize (IH Lq). cbv zeta in IH.
    match type of IH with loop_post2 _ ?x /\ _ => destruct x as [[[recs tot] ok]|c|u|] end; cbn [bind].
    - destruct IH as [(cs & -> & Ck & Et & Etl & F1 & F2 & F3) _]. split; [|discriminate].
      exists ((n, p) :: cs). cbn [emit2 chunks2_ok total_of]. split; [reflexivity|]. split; [split; [split; [exact Pp|lia]|exact Ck]|].
      split; [lia|]. split; [lia|]. auto.
    - destruct IH as [[] _].
    - destruct IH as [[] _].
    - split; [exact I|]. intros Hf. destruct IH as [_ IH]. exfalso. apply IH; [lia|reflexivity].
  Qed.
End Loop.

(** ** The whole function *)

(** Where the data start: right behind the header, for the Steim encodings at a frame. *)
Definition data_at (enc hl : Z) : Z := if (enc =? 10) || (enc =? 11) then if hl <=? 64 then 64 else 128 else hl.
Definition gap_of (enc hl : Z) : list Z := repeat 0 (Z.to_nat (data_at enc hl - hl)).

Lemma hlen_cases us w : hlen us w = 56 \/ hlen us w = 64 \/ hlen us w = 68 \/ hlen us w = 76.
Proof. unfold hlen. destruct (us =? 0), w; lia. Qed.

Lemma lenZ_gap enc us w : lenZ (gap_of enc (hlen us w)) = data_at enc (hlen us w) - hlen us w /\ hlen us w <= data_at enc (hlen us w) <= 128.
Proof.
  unfold gap_of, lenZ. rewrite repeat_length. unfold data_at. 
  destruct (hlen_cases us w) as [-> |[-> |[-> | ->]]]; destruct ((enc =? 10) || (enc =? 11)); cbn; lia.
Qed.

Lemma round_is us w : round64 200 64 (hlen us w) = if hlen us w <=? 64 then 64 else 128.
Proof. destruct (hlen_cases us w) as [-> |[-> |[-> | ->]]]; reflexivity. Qed.

Lemma pack2_ok fuel nexttime hb m1 m2 stack alloc m k f mu e type src flags :
  codes_ok k -> m_sid m = codes_sid k -> (64 <= length stack)%nat ->
  7 <= e <= 17 -> maxlen m = 2 ^ e -> in_s 64 (m_start m) -> genfactmult m1 (sampratehz (m_rate m)) = Ok (f, mu) ->
  packable m1 (encoding_of m) type src -> packable m2 (encoding_of m) type src ->
  src <> [] -> lenZ src < 2 ^ 32 -> (forall k, in_s 64 (nexttime k)) -> maxlen m <= lenZ alloc ->
  let us := micros (m_start m) in let w := rate_blk m f mu in
  let gap := gap_of (encoding_of m) (hlen us w) in
  let off := data_at (encoding_of m) (hlen us w) in
  let cap := maxlen m - off in
  let r := pack2 fuel nexttime hb m1 stack alloc m type src flags in
  match r with
  | Ok (recs, tot, ok) => exists cs, recs = emit2 nexttime m k f mu e gap cap 0 cs /\ chunks2_ok m2 m src cap 0 cs /\
      tot = total_of cs /\ tot <= lenZ src /\ (ok = true -> has_flag flags 64 = true -> tot = lenZ src) /\
      (ok = true \/ (tot < lenZ src /\ (~ (min_payload (encoding_of m) <= cap /\ storable (encoding_of m) src) \/
          exists n p, payload2_of m2 (encoding_of m) (skipn (Z.to_nat tot) src) cap n p /\ 65535 < n)))
  | Fuel => True
  | _ => False
  end /\ (lenZ src < Z.of_nat fuel -> r <> Fuel).
Proof.
  intros K S St E M T G P1 P2 Hne Hnum Hnext La us w gap off cap. cbv zeta.
  assert (L1 : 1 <= lenZ src) by (destruct src; [congruence|unfold lenZ; cbn [length]; lia]).
  unfold pack2. cbv zeta. fold (maxlen m). fold (encoding_of m).
  destruct (exp_is e E) as (X1 & X2 & X3). rewrite M.
  replace ((2 ^ e <? 128) || (MAXRECLENv2 <? 2 ^ e)) with false by (unfold MAXRECLENv2; lia). rewrite X2. cbn [Z.eqb negb].
  set (R := skipn 48 (firstn (Z.to_nat (2 ^ e)) alloc)).
  assert (LR : lenZ R = maxlen m - 48) by (subst R; unfold lenZ in *; rewrite skipn_length, firstn_length; lia). clearbody R.
  rewrite (header2_ok hb m1 stack m k f mu e R K S St E M T G LR). cbv zeta. fold us w.
  set (bs := blks_of (encoding_of m) e us w).
  destruct src as [|x src0] eqn:Esrc; [congruence|]. rewrite <- Esrc in *. clear Esrc.
  destruct (packable_enc _ _ _ _ P1) as (_ & _ & Sz & _).
  replace (samplesize type =? 0) with false by lia.
  destruct (lenZ_gap (encoding_of m) us w) as [Lg Rg]. fold gap off in Lg, Rg.
  assert (Ho : (if (encoding_of m =? 10) || (encoding_of m =? 11) then round64 200 64 (hlen us w) else hlen us w) = off).
  { unfold off, data_at. rewrite round_is. reflexivity. }
  rewrite Ho.
  set (hd := hdr_of m k f mu (lenZ bs) (m_start m) 0 0).
  set (rest := skipn (Z.to_nat (off - 48)) R).
  assert (Lrest : lenZ rest = cap) by (subst rest cap; unfold lenZ in *; rewrite skipn_length; destruct (hlen_cases us w); lia).
  assert (Pg : (if (encoding_of m =? 10) || (encoding_of m =? 11) then
      put (hlen us w) (repeat 0 (Z.to_nat (off - hlen us w))) (layout2 true hd [] bs (skipn (Z.to_nat (hlen us w - 48)) R))
      else Ok (layout2 true hd [] bs (skipn (Z.to_nat (hlen us w - 48)) R))) = Ok (layout2 true hd [] bs (gap ++ rest))).
  { destruct ((encoding_of m =? 10) || (encoding_of m =? 11)) eqn:Es.
    - fold gap. unfold hd, bs. rewrite !layout_eq.
      assert (Sp : skipn (Z.to_nat (hlen us w - 48)) R = firstn (Z.to_nat (off - hlen us w)) (skipn (Z.to_nat (hlen us w - 48)) R) ++ rest).
      { subst rest. rewrite <- (firstn_skipn (Z.to_nat (off - hlen us w)) (skipn (Z.to_nat (hlen us w - 48)) R)) at 1. f_equal.
        rewrite skipn_skipn. f_equal. pose proof (hlen_cases us w). lia. }
      rewrite Sp. rewrite !app_assoc. rewrite <- (app_assoc _ (firstn _ _) _). rewrite put_mid; [now rewrite <- !app_assoc| |].
      + rewrite !lenZ_app, fixed_len, chain_len by exact K. lia.
      + rewrite firstn_length, skipn_length. unfold lenZ in *. pose proof (hlen_cases us w). rewrite repeat_length. lia. 
    - assert (Eo : off = hlen us w) by (unfold off, data_at; rewrite Es; reflexivity).
      subst rest. unfold gap, gap_of. fold off. rewrite Eo, Z.sub_diag. reflexivity. }
  rewrite Pg. cbn [bind]. unfold hd, bs. rewrite layout_eq, put_off by exact K. cbn [bind].
  rewrite <- layout_eq. fold bs.
  set (mxs := if encoding_of m =? 10 then _ else _).
  assert (Hmx : 0 <= mxs).
  { assert (0 <= 2 ^ e - off) by lia. subst mxs. destruct (encoding_of m =? 10); [lia|]. destruct (encoding_of m =? 11); [lia|].
    apply Z.div_pos; [lia|]. unfold samplesize in *. repeat match goal with |- context [if ?c then _ else _] => destruct c end; lia. }
  clearbody mxs.
  pose proof (loop2_ok nexttime hb m1 m2 m k f mu e type src gap cap mxs (has_flag flags MSF_FLUSHDATA) K P1 P2 Hnum ltac:(subst cap; lia) Hmx Hnext
    fuel 0 rest 0 ltac:(lia) Lrest) as Lp. cbv zeta in Lp.
  unfold hdr_at in Lp. change (record_time nexttime m 0) with (m_start m) in Lp. fold us w in Lp. fold bs in Lp.
  replace (hlen us w + lenZ gap) with off in Lp by lia. replace (off + cap) with (2 ^ e) in Lp by (subst cap; lia).
  replace (2 ^ e - off) with cap by (subst cap; lia).
  match type of Lp with loop_post2 _ _ _ _ _ _ _ _ _ _ _ _ _ ?x /\ _ => destruct x as [[[recs tot] ok]|c|u|] end.
  - destruct Lp as [(cs & E1 & E2 & E3 & E4 & E5 & E6 & E7) Lf]. split; [|discriminate].
    exists cs. split; [exact E1|]. split; [exact E2|]. split; [lia|]. split; [exact E4|]. split; [exact E5|].
    destruct E7 as [E7|(E7 & E8)]; [left; exact E7|right; split; [exact E7|]].
    destruct E8 as [E8|E8]; [left|right; exact E8]. intros [N1 N2]. apply E8. split; [exact N1|]. now apply storable_skipn.
  - destruct Lp as [[] _].
  - destruct Lp as [[] _].
  - split; [exact I|]. destruct Lp as [_ Lp]. intros H. apply Lp. lia.
Qed.
