(** * The records of a version 2 series with extra headers. *)

From Coq Require Import String QArith.
From Verif Require Import Base BaseLemmas TimeModel TimeSpec TimeProof SteimSpec StrModel RecModel RecSpec RecProof PackModel PackSpec PackData PackProof
  ConvSpec EhModel EhSpec V2Model V2RecSpec V2RecProof V2RecParse Pack2Model Pack2Spec Pack2Data Pack2Hdr Pack2Rate
  EhPackModel EhPackSpec EhPackProof EhPackHdr EhPackRead EhPack2Model EhPack2Spec.
From Verif Require Pack2Proof Pack2Read Pack2All.
Open Scope Z_scope.
Open Scope list_scope.

(** ** Fields changed from record to record *)

Lemma sized_with h t cnt off : sized h -> sized (with_data h t cnt off).
Proof. exact (fun H => H). Qed.

Lemma head_split h : sized h -> exists A, lenZ A = 20 /\ forall t cnt off,
  fixed2 true (with_data h t cnt off) 48 = A ++ btime_bytes true (btime_at t) ++ ord true 2 cnt ++
    (ord true 2 (f_fact h) ++ ord true 2 (f_mult h) ++ [f_act h; f_io h; f_dq h; f_nblk h] ++ ord true 4 (f_corr h)) ++ ord true 2 off ++ ord true 2 48.
Proof.
  intros (L1 & L2 & L3 & L4). destruct (f_chan h) as [[a b] c] eqn:Ec.
  exists (f_seq h ++ [f_quality h; f_reserved h] ++ f_sta h ++ f_loc h ++ [a; b; c] ++ f_net h).
  split; [rewrite !lenZ_app, L1, L2, L3, L4; reflexivity|]. intros t cnt off.
  unfold fixed2, with_data. cbn [f_seq f_quality f_reserved f_sta f_loc f_chan f_net f_start f_cnt f_fact f_mult f_act f_io f_dq f_nblk f_corr f_data].
  rewrite Ec. rewrite <- !app_assoc. reflexivity.
Qed.

Section Fields.
  Variables (hb : bool) (h : hdr2) (t cnt off : Z) (R : list Z).
  Hypothesis Sz : sized h.

  Lemma put_cnt n : put 30 (be hb 2 n) (fixed2 true (with_data h t cnt off) 48 ++ R) = Ok (fixed2 true (with_data h t n off) 48 ++ R).
  Proof.
    destruct (head_split h Sz) as (A & LA & E). rewrite !E, be_ord. rewrite <- !app_assoc. rewrite (app_assoc A).
    rewrite put_mid; [now rewrite <- !app_assoc|rewrite lenZ_app, LA, lenZ_btime; reflexivity|reflexivity].
  Qed.

  Lemma put_off o : put 44 (be hb 2 o) (fixed2 true (with_data h t cnt off) 48 ++ R) = Ok (fixed2 true (with_data h t cnt o) 48 ++ R).
  Proof.
    destruct (head_split h Sz) as (A & LA & E). rewrite !E, be_ord.
    set (B := ord true 2 (f_fact h) ++ _). assert (LB : lenZ B = 12) by (subst B; rewrite !lenZ_app, !lenZ_ord; reflexivity). clearbody B.
    rewrite <- !app_assoc. rewrite (app_assoc _ B), (app_assoc _ (_ ++ B)), (app_assoc A).
    rewrite put_mid; [now rewrite <- !app_assoc|rewrite !lenZ_app, LA, LB, lenZ_btime, lenZ_ord; reflexivity|reflexivity].
  Qed.

  Lemma put_start t' : put_time2 hb (fields_of t') (fixed2 true (with_data h t cnt off) 48 ++ R) = Ok (fixed2 true (with_data h t' cnt off) 48 ++ R).
  Proof.
    destruct (head_split h Sz) as (A & LA & E). rewrite !E.
    set (B := ord true 2 cnt ++ _). clearbody B. rewrite <- !app_assoc. set (R' := B ++ R). clearbody R'. clear B. rewrite !(app_assoc A).
    unfold btime_bytes, btime_at. cbn [b_day b_hour b_min b_sec b_unused b_fract]. unfold fields_of, put_time2. rewrite !be_ord.
    assert (A20 : exists a0 a1 a2 a3 a4 a5 a6 a7 a8 a9 b0 b1 b2 b3 b4 b5 b6 b7 b8 b9,
      A = [a0; a1; a2; a3; a4; a5; a6; a7; a8; a9; b0; b1; b2; b3; b4; b5; b6; b7; b8; b9]).
    { unfold lenZ in LA. do 20 (destruct A as [|? A]; [cbn [List.length] in LA; lia|]). destruct A; [|cbn [List.length] in LA; lia].
      repeat eexists. }
    destruct A20 as (a0 & a1 & a2 & a3 & a4 & a5 & a6 & a7 & a8 & a9 & b0 & b1 & b2 & b3 & b4 & b5 & b6 & b7 & b8 & b9 & ->).
    do 5 (rewrite put_in_b by reflexivity; cbn [bind]). rewrite put_in_b by reflexivity. reflexivity.
  Qed.
End Fields.

Lemma layoutx_eq h bs rest : bs <> [] -> layout2 true h [] bs rest = fixed2 true h 48 ++ chain_bytes true 48 bs ++ rest.
Proof. destruct bs; [congruence|]. reflexivity. Qed.
Lemma layoutx_len h bs rest : bs <> [] -> sized h -> lenZ (layout2 true h [] bs rest) = header_size bs + lenZ rest.
Proof. intros N S. rewrite layoutx_eq, !lenZ_app, fixed_len by assumption. unfold header_size. lia. Qed.

(** ** The loop *)

Section Loop.
  Variables (nexttime : Z -> Z) (hb : bool) (m1 m2 : ovmode) (m : msr) (h : hdr2) (bs : list (blk * list Z)) (type : Z) (src gap : list Z)
            (cap maxsamples : Z) (flush : bool).
  Let enc := encoding_of m.
  Let off := header_size bs + lenZ gap.
  Hypothesis Sz : sized h.
  Hypothesis Nb : bs <> [].
  Hypothesis P1 : packable m1 enc type src.
  Hypothesis P2 : packable m2 enc type src.
  Hypothesis Hnum : lenZ src < 2 ^ 32.
  Hypothesis Hcap : 0 <= cap.
  Hypothesis Hmax : 0 <= maxsamples.
  Hypothesis Hstart : in_s 64 (m_start m).
  Hypothesis Hnext : forall k, in_s 64 (nexttime k).

  Definition hdrx_at (k n : Z) : hdr2 := with_data h (record_time nexttime m k) n off.
  Definition recx_at (k n : Z) (p : list Z) : list Z :=
    layout2 true (hdrx_at k n) [] bs (gap ++ p ++ repeat 0 (Z.to_nat (cap - lenZ p))).
  Fixpoint emitx (k : Z) (cs : list (Z * list Z)) : list (list Z) :=
    match cs with
    | [] => []
    | (n, p) :: r => recx_at k n p :: emitx (k + n) r
    end.

  Definition loopx_post (k : Z) (r : res (list (list Z) * Z * bool)) : Prop :=
    match r with
    | Ok (recs, tot, ok) => exists cs, recs = emitx k cs /\ Pack2Proof.chunks2_ok m2 m src cap k cs /\ tot = k + total_of cs /\ tot <= lenZ src /\
        (ok = true -> flush = true -> tot = lenZ src) /\ (ok = true -> flush = false -> lenZ src - tot <= maxsamples) /\
        (ok = true \/ (tot < lenZ src /\ (~ (min_payload enc <= cap /\ storable enc (skipn (Z.to_nat tot) src)) \/
                        exists n p, payload2_of m2 enc (skipn (Z.to_nat tot) src) cap n p /\ 65535 < n)))
    | Fuel => True
    | _ => False
    end.

  Lemma loopx_ok fuel : forall k rest cnt, 0 <= k < lenZ src -> lenZ rest = cap ->
    let r := pack_loop2 fuel hb m1 nexttime enc type src off cap maxsamples (off + cap) flush (layout2 true (hdrx_at k cnt) [] bs (gap ++ rest)) k in
    loopx_post k r /\ (lenZ src - k < Z.of_nat fuel -> r <> Fuel).
  Proof.
    assert (Mc : 0 <= lenZ src) by apply lenZ_nonneg.
    assert (SzA : forall k n, sized (hdrx_at k n)) by (intros; exact Sz).
    induction fuel as [|fuel IH]; intros k rest cnt Hk Lr; cbn [pack_loop2].
    { cbv zeta. split; [exact I|]. lia. }
    cbv zeta. fold (lenZ src).
    destruct ((maxsamples <? lenZ src - k) || flush) eqn:Go.
    2:{ split; [|discriminate]. exists []. cbn [emitx Pack2Proof.chunks2_ok total_of]. destruct flush; [rewrite orb_true_r in Go; discriminate|].
        repeat split; try lia; try discriminate. }
    assert (Ec : lenZ src - k <= uwrap 64 (swrap 32 (lenZ src - k))).
    { unfold swrap, uwrap. rewrite (Z.mod_small (lenZ src - k) (2 ^ 32)) by lia. destruct (lenZ src - k <? 2 ^ (32 - 1)) eqn:E.
      - rewrite Z.mod_small by lia. lia.
      - replace (lenZ src - k - 2 ^ 32) with (lenZ src - k - 2 ^ 32 + 2 ^ 64 + (-1) * 2 ^ 64) by lia.
        rewrite Z.mod_add by lia. rewrite Z.mod_small by lia. lia. }
    assert (Ef : firstn (Z.to_nat (uwrap 64 (swrap 32 (lenZ src - k)))) (skipn (Z.to_nat k) src) = skipn (Z.to_nat k) src).
    { apply firstn_all2. rewrite skipn_length. unfold lenZ in *. lia. }
    rewrite Ef. clear Ef Ec.
    assert (Hne : skipn (Z.to_nat k) src <> []).
    { intros E. apply (f_equal (@List.length Z)) in E. rewrite skipn_length in E. cbn [List.length] in E. unfold lenZ in Hk. lia. }
    assert (Hkn : (Z.to_nat k < List.length src)%nat) by (unfold lenZ in Hk; lia).
    assert (Lk : lenZ (skipn (Z.to_nat k) src) = lenZ src - k) by (unfold lenZ; rewrite skipn_length; lia).
    destruct (pack_data2_ok hb m1 m2 enc type (skipn (Z.to_nat k) src) cap) as [[E N]|(n & p & E & Pp)].
    { now apply packable_skipn. }
    { now apply packable_skipn. }
    { exact Hne. }
    { exact Hcap. }
    { rewrite E. split; [|discriminate]. exists []. cbn [emitx Pack2Proof.chunks2_ok total_of]. rewrite Z.add_0_r.
      repeat split; try lia; try discriminate. right. split; [lia|left; exact N]. }
    rewrite E. destruct (Z.ltb_spec 65535 n) as [Big|Sm].
    { split; [|discriminate]. exists []. cbn [emitx Pack2Proof.chunks2_ok total_of]. rewrite Z.add_0_r.
      repeat split; try lia; try discriminate. right. split; [lia|right; exists n, p; split; [exact Pp|lia]]. }
    pose proof Pp as (Pn & Pb & Pbk & _). fold (lenZ p).
    assert (Pd : put off p (layout2 true (hdrx_at k cnt) [] bs (gap ++ rest)) = Ok (layout2 true (hdrx_at k cnt) [] bs (gap ++ p ++ skipn (List.length p) rest))).
    { rewrite !layoutx_eq by exact Nb. rewrite <- (firstn_skipn (List.length p) rest) at 1. rewrite !app_assoc. rewrite <- (app_assoc _ (firstn _ _) _).
      rewrite put_mid; [now rewrite <- !app_assoc|rewrite !lenZ_app, fixed_len by apply SzA; unfold off, header_size; lia|].
      rewrite firstn_length. unfold lenZ in *. lia. }
    rewrite Pd. cbn [bind].
    assert (Pc : put 30 (be hb 2 n) (layout2 true (hdrx_at k cnt) [] bs (gap ++ p ++ skipn (List.length p) rest)) = Ok (layout2 true (hdrx_at k n) [] bs (gap ++ p ++ skipn (List.length p) rest))).
    { rewrite !layoutx_eq by exact Nb. unfold hdrx_at. apply put_cnt. exact Sz. }
    rewrite Pc. cbn [bind].
    assert (Pz : (if off + lenZ p <? off + cap then put (off + lenZ p) (repeat 0 (Z.to_nat (off + cap - (off + lenZ p)))) (layout2 true (hdrx_at k n) [] bs (gap ++ p ++ skipn (List.length p) rest))
                  else Ok (layout2 true (hdrx_at k n) [] bs (gap ++ p ++ skipn (List.length p) rest))) = Ok (recx_at k n p)).
    { unfold recx_at. replace (off + cap - (off + lenZ p)) with (cap - lenZ p) by lia.
      destruct (Z.ltb_spec (off + lenZ p) (off + cap)) as [G|G].
      - rewrite !layoutx_eq by exact Nb. rewrite <- (app_nil_r (skipn (List.length p) rest)). rewrite <- (app_nil_r (repeat 0 (Z.to_nat (cap - lenZ p)))) at 2.
        rewrite !app_assoc. rewrite <- (app_assoc _ (skipn (List.length p) rest)), <- (app_assoc _ (repeat 0 _)).
        apply put_mid; [rewrite !lenZ_app, fixed_len by apply SzA; unfold off, header_size; lia|].
        rewrite repeat_length, skipn_length. unfold lenZ in *. lia.
      - replace (cap - lenZ p) with 0 by lia. rewrite (skipn_all2 rest) by (unfold lenZ in *; lia). reflexivity. }
    rewrite Pz. cbn [bind]. rewrite nstime2time_ok by apply Hnext. cbv iota.
    destruct (Z.leb_spec (lenZ src) (k + n)) as [Fi|Mo].
    { split; [|discriminate]. exists [(n, p)]. cbn [emitx Pack2Proof.chunks2_ok total_of]. split; [reflexivity|]. split; [split; [split; [exact Pp|lia]|exact I]|].
      split; [lia|]. split; [lia|]. split; [lia|]. split; [lia|]. left. reflexivity. }
    assert (Pt : put_time2 hb (fields_of (nexttime (k + n))) (recx_at k n p) = Ok (layout2 true (hdrx_at (k + n) n) [] bs (gap ++ p ++ repeat 0 (Z.to_nat (cap - lenZ p))))).
    { unfold recx_at. rewrite !layoutx_eq by exact Nb. unfold hdrx_at. rewrite put_start by exact Sz. unfold record_time. replace (k + n =? 0) with false by lia. reflexivity. }
    rewrite Pt. cbn [bind].
    specialize (IH (k + n) (p ++ repeat 0 (Z.to_nat (cap - lenZ p))) n ltac:(lia)).
    assert (Lq : lenZ (p ++ repeat 0 (Z.to_nat (cap - lenZ p))) = cap) by (rewrite lenZ_app; unfold lenZ in *; rewrite repeat_length; lia).
    specialize (IH Lq). cbv zeta in IH.
    match type of IH with loopx_post _ ?x /\ _ => destruct x as [[[recs tot] ok]|c|u|] end; cbn [bind].
    - destruct IH as [(cs & -> & Ck & Et & Etl & F1 & F2 & F3) _]. split; [|discriminate].
      exists ((n, p) :: cs). cbn [emitx Pack2Proof.chunks2_ok total_of]. split; [reflexivity|]. split; [split; [split; [exact Pp|lia]|exact Ck]|].
      split; [lia|]. split; [lia|]. auto.
    - destruct IH as [[] _].
    - destruct IH as [[] _].
    - split; [exact I|]. intros Hf. destruct IH as [_ IH]. exfalso. apply IH; [lia|reflexivity].
  Qed.
End Loop.

(** ** The whole function *)

Definition gapx (enc hl : Z) : list Z := repeat 0 (Z.to_nat (data_begin enc hl - hl)).

Lemma round_up hl : forall fuel off, 0 <= off -> off mod 64 = 0 -> off <= (hl + 63) / 64 * 64 -> hl <= off + 64 * Z.of_nat fuel ->
  round64 fuel off hl = (hl + 63) / 64 * 64.
Proof.
  induction fuel as [|fuel IH]; intros off O M L H; cbn [round64]; [lia|].
  destruct (Z.ltb_spec off hl) as [G|G]; [|lia]. apply IH; lia.
Qed.

Lemma lenZ_gapx enc hl : 0 <= hl -> lenZ (gapx enc hl) = data_begin enc hl - hl /\ hl <= data_begin enc hl < hl + 64.
Proof. intros H. unfold gapx, lenZ. rewrite repeat_length. unfold data_begin. destruct (is_steim enc); lia. Qed.

Lemma header_least j enc e us w bs : blockettes_say j enc e us w bs -> bs <> [] /\ 56 <= header_size bs.
Proof.
  intros H. destruct (split_says _ _ _ _ _ _ H) as (q & t & xs & _ & _ & _ & ->). split; [discriminate|].
  unfold header_size. rewrite chainf_0, chainf_len. unfold front. cbn [app sizes fold_right].
  assert (P : forall l, 0 <= sizes l).
  { clear. induction l as [|b l IH]; [unfold sizes; cbn [fold_right]; lia|]. unfold sizes in *. cbn [fold_right]. unfold blk_size at 1. pose proof (lenZ_nonneg (blk_body true b)). lia. }
  match goal with |- _ <= 48 + (_ + ?s) => assert (0 <= s) by apply P end. change (blk_size (B1000 enc 1 e 0)) with 8. lia.
Qed.

Lemma says_sized j m k f mu h : codes_ok k -> header_says j m k f mu h -> sized h.
Proof.
  intros ((Ln & _) & (Ls & _) & (Ll & _) & _) (q & a & io & dq & corr & nb & -> & _). unfold sized. cbn [f_seq f_sta f_loc f_net].
  split; [reflexivity|]. split; [now apply lenZ_fill|]. split; now apply lenZ_fill.
Qed.

(** What comes out with samples, the header being written. *)
Lemma pack2x_ok rd fuel nexttime hb m1 m2 stack alloc m k f mu e type src flags j h bs :
  codes_ok k -> 7 <= e <= 17 -> maxlen m = 2 ^ e ->
  packable m1 (encoding_of m) type src -> packable m2 (encoding_of m) type src ->
  src <> [] -> lenZ src < 2 ^ 32 -> (forall k, in_s 64 (nexttime k)) -> maxlen m <= lenZ alloc ->
  header_says j m k f mu h -> blockettes_say j (encoding_of m) e (micros (m_start m)) (rate_blk m f mu) bs ->
  (let R := skipn 48 (firstn (Z.to_nat (2 ^ e)) alloc) in
   pack_header2x rd hb m1 stack (maxlen m) m (repeat 0 48 ++ R) =
   (if header_size bs <=? maxlen m then Ok (layout2 true h [] bs (skipn (Z.to_nat (header_size bs - 48)) R), header_size bs) else Err (-1))) ->
  let hl := header_size bs in let gap := gapx (encoding_of m) hl in let off := data_begin (encoding_of m) hl in
  let cap := maxlen m - off in
  let r := pack2x rd fuel nexttime hb m1 stack alloc m type src flags in
  if hl <=? maxlen m then
  match r with
  | Ok (recs, tot, ok) => exists cs, recs = emitx nexttime m h bs gap cap 0 cs /\ Pack2Proof.chunks2_ok m2 m src cap 0 cs /\
      tot = total_of cs /\ tot <= lenZ src /\ (ok = true -> has_flag flags 64 = true -> tot = lenZ src) /\
      (ok = true \/ (tot < lenZ src /\ (~ (min_payload (encoding_of m) <= cap /\ storable (encoding_of m) src) \/
          exists n p, payload2_of m2 (encoding_of m) (skipn (Z.to_nat tot) src) cap n p /\ 65535 < n)))
  | Fuel => True
  | _ => False
  end /\ (lenZ src < Z.of_nat fuel -> r <> Fuel)
  else r = Ok ([], 0, false).
Proof.
  intros K E M P1 P2 Hne Hnum Hnext La Hh Hb PK hl gap off cap. cbv zeta in PK. cbv zeta.
  assert (L1 : 1 <= lenZ src) by (destruct src; [congruence|unfold lenZ; cbn [List.length]; lia]).
  destruct (header_least _ _ _ _ _ _ Hb) as [Nb Hl]. fold hl in Hl. pose proof (says_sized _ _ _ _ _ _ K Hh) as Sz.
  unfold pack2x. cbv zeta. fold (maxlen m). fold (encoding_of m).
  destruct (exp_is e E) as (X1 & X2 & X3). rewrite M in PK |- *.
  replace ((2 ^ e <? 128) || (MAXRECLENv2 <? 2 ^ e)) with false by (unfold MAXRECLENv2; lia). rewrite X2. cbn [Z.eqb negb].
  set (R := skipn 48 (firstn (Z.to_nat (2 ^ e)) alloc)) in *.
  assert (LR : lenZ R = maxlen m - 48) by (subst R; unfold lenZ in *; rewrite skipn_length, firstn_length; lia). clearbody R.
  rewrite PK. fold hl. destruct (Z.leb_spec hl (2 ^ e)) as [Fi|_]; [|reflexivity].
  destruct src as [|x src0] eqn:Esrc; [congruence|]. rewrite <- Esrc in *. clear Esrc.
  destruct (packable_enc _ _ _ _ P1) as (_ & _ & Ss & _).
  replace (samplesize type =? 0) with false by lia.
  destruct (lenZ_gapx (encoding_of m) hl ltac:(lia)) as [Lg Rg]. fold gap off in Lg, Rg.
  assert (E64 : 2 ^ e = 64 * 2 ^ (e - 6)) by (rewrite <- (Z.pow_add_r 2 6) by lia; f_equal; lia).
  assert (Ho : (if (encoding_of m =? 10) || (encoding_of m =? 11) then round64 2100 64 hl else hl) = off).
  { unfold off, data_begin, is_steim. destruct ((encoding_of m =? 10) || (encoding_of m =? 11)); [|reflexivity]. apply round_up; lia. }
  assert (Oe : off <= 2 ^ e) by (unfold off, data_begin; destruct (is_steim (encoding_of m)); lia).
  rewrite Ho.
  set (hd := with_data h (m_start m) 0 0). assert (Eh : h = hd) by exact (says_with _ _ _ _ _ _ Hh).
  replace (layout2 true h) with (layout2 true hd) by now rewrite <- Eh.
  set (rest := skipn (Z.to_nat (off - 48)) R).
  assert (Lrest : lenZ rest = cap) by (subst rest cap; unfold lenZ in *; rewrite skipn_length; lia).
  assert (Lc : lenZ (chain_bytes true 48 bs) = hl - 48) by (unfold hl, header_size; lia).
  assert (Pg : (if (encoding_of m =? 10) || (encoding_of m =? 11) then
      put hl (repeat 0 (Z.to_nat (off - hl))) (layout2 true hd [] bs (skipn (Z.to_nat (hl - 48)) R))
      else Ok (layout2 true hd [] bs (skipn (Z.to_nat (hl - 48)) R))) = Ok (layout2 true hd [] bs (gap ++ rest))).
  { destruct ((encoding_of m =? 10) || (encoding_of m =? 11)) eqn:Es.
    - fold gap. rewrite !layoutx_eq by exact Nb.
      assert (Sp : skipn (Z.to_nat (hl - 48)) R = firstn (Z.to_nat (off - hl)) (skipn (Z.to_nat (hl - 48)) R) ++ rest).
      { subst rest. rewrite <- (firstn_skipn (Z.to_nat (off - hl)) (skipn (Z.to_nat (hl - 48)) R)) at 1. f_equal.
        rewrite skipn_skipn. f_equal. lia. }
      rewrite Sp. rewrite !app_assoc. rewrite <- (app_assoc _ (firstn _ _) _). fold (gapx (encoding_of m) hl). fold gap.
      rewrite put_mid; [now rewrite <- !app_assoc| |].
      + rewrite !lenZ_app, fixed_len by exact Sz. lia.
      + rewrite firstn_length, skipn_length, repeat_length. unfold lenZ in *. lia.
    - assert (Eo : off = hl) by (unfold off, data_begin, is_steim; rewrite Es; reflexivity).
      subst rest. unfold gap, gapx. fold off. rewrite Eo, Z.sub_diag. reflexivity. }
  rewrite Pg. cbn [bind]. unfold hd. rewrite layoutx_eq, put_off by assumption. cbn [bind].
  rewrite <- layoutx_eq by exact Nb.
  set (mxs := if encoding_of m =? 10 then _ else _).
  assert (Hmx : 0 <= mxs).
  { assert (0 <= 2 ^ e - off) by lia. subst mxs. destruct (encoding_of m =? 10); [lia|]. destruct (encoding_of m =? 11); [lia|].
    apply Z.div_pos; [lia|]. unfold samplesize in *. repeat match goal with |- context [if ?c then _ else _] => destruct c end; lia. }
  clearbody mxs.
  pose proof (loopx_ok nexttime hb m1 m2 m h bs type src gap cap mxs (has_flag flags MSF_FLUSHDATA) Sz Nb P1 P2 Hnum ltac:(subst cap; lia) Hmx Hnext
    fuel 0 rest 0 ltac:(lia) Lrest) as Lp. cbv zeta in Lp.
  unfold hdrx_at in Lp. change (record_time nexttime m 0) with (m_start m) in Lp.
  replace (header_size bs + lenZ gap) with off in Lp by (fold hl; lia). replace (off + cap) with (2 ^ e) in Lp by (subst cap; lia).
  replace (2 ^ e - off) with cap by (subst cap; lia).
  match type of Lp with loopx_post _ _ _ _ _ _ _ _ _ _ _ ?x /\ _ => destruct x as [[[recs tot] ok]|c|u|] end.
  - destruct Lp as [(cs & E1 & E2 & E3 & E4 & E5 & E6 & E7) Lf]. split; [|discriminate].
    exists cs. split; [exact E1|]. split; [exact E2|]. split; [lia|]. split; [exact E4|]. split; [exact E5|].
    destruct E7 as [E7|(E7 & E8)]; [left; exact E7|right; split; [exact E7|]].
    destruct E8 as [E8|E8]; [left|right; exact E8]. intros [N1 N2]. apply E8. split; [exact N1|]. now apply storable_skipn.
  - destruct Lp as [[] _].
  - destruct Lp as [[] _].
  - split; [exact I|]. destruct Lp as [_ Lp]. intros H. apply Lp. lia.
Qed.
