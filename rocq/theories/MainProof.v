(** * The inspector as a whole: proofs. *)

From Coq Require Import String.
From Verif Require Import Base BaseLemmas TimeStrModel RecModel RecSpec RecProof ReadModel ReadSpec ReadProof TlModel BufModel CliModel CliSpec CliProof
  FileModel FileSpec FileProof ShowModel ShowProof MainModel MainSpec.
Open Scope Z_scope.
Open Scope list_scope.

(** ** Where a record is in the buffer *)

Lemma read_where g sch : delivers sch -> g_select g = None -> forall fuel q pv p r n rc m q', at_pos 0 q p r n ->
  (0 < pv -> buflen q < 10485760) -> read_loop fuel g sch q pv = Ok (rc, Some m, q') -> 0 <= m_reclen m ->
  q_off q' <= lenZ (q_buf q') ->
  exists k, 0 <= k /\ q_pos q' = p + k + m_reclen m /\ last_record q' m = firstn (Z.to_nat (m_reclen m)) (skipn (Z.to_nat k) r) /\
    skipn (Z.to_nat (q_off q')) (q_buf q') ++ q_rest q' = skipn (Z.to_nat (k + m_reclen m)) r.
Proof.
  intros HD NS. induction fuel as [|fuel IH]; intros q pv p r n rc m q' A V E M0 O; [discriminate|].
  assert (0 <= 0 < 2 ^ 63 - 1) as HL by lia.
  destruct (prelude g sch 0 HD HL fuel q pv p r n A ltac:(left; reflexivity) V) as (q1 & X & A1 & R1 & R2).
  rewrite X in E. clear X. unfold read_turn in E. unfold MINRECLEN, MAXRECLEN in E.
  assert (B1 : buflen q1 <= 10485760) by (destruct A1 as (_ & _ & _ & A4 & A5 & _); unfold buflen, lenZ in *; lia).
  destruct (Z.ltb_spec (buflen q1) 40) as [S|S].
  { unfold turn_end in E. destruct (q_eof q1 && _); [discriminate|]. apply (IH _ _ _ _ _ _ _ _ A1) in E; [exact E|lia|exact M0|exact O]. }
  rewrite NS in E. rewrite andb_false_r in E.
  assert (STEP : forall c, turn_end (read_loop fuel g sch) (advance q1 SKIPLEN) c = Ok (rc, Some m, q') ->
    exists k, 0 <= k /\ q_pos q' = p + k + m_reclen m /\ last_record q' m = firstn (Z.to_nat (m_reclen m)) (skipn (Z.to_nat k) r) /\
      skipn (Z.to_nat (q_off q')) (q_buf q') ++ q_rest q' = skipn (Z.to_nat (k + m_reclen m)) r).
  { intros c T. unfold turn_end in T. destruct (_ && _); [discriminate|]. unfold SKIPLEN in T.
    pose proof (advance_ok _ _ _ _ _ 1 A1 ltac:(lia)) as A2.
    apply (IH _ _ _ _ _ _ _ _ A2) in T; [|intros _; unfold buflen, advance in *; cbn [q_buf q_off]; lia|exact M0|exact O].
    destruct T as (k & K & P & L & T). exists (k + 1). split; [lia|]. split; [lia|]. rewrite !skipn_skipn in *.
    replace (Z.to_nat (k + 1)) with (Z.to_nat k + Z.to_nat 1)%nat by lia.
    replace (Z.to_nat (k + 1 + m_reclen m)) with (Z.to_nat (k + m_reclen m) + Z.to_nat 1)%nat by lia. split; [exact L|exact T]. }
  destruct (parse _ _ _ _ _ _) as [[h|m0]|c|u|]; try discriminate.
  - destruct (10485760 <? buflen q1 + h) eqn:Q.
    + destruct (has_flag _ _); [|discriminate]. exact (STEP _ E).
    + destruct (q_eof q1) eqn:Ee; [discriminate|]. unfold turn_end in E. rewrite Ee in E. cbn [andb] in E.
      apply (IH _ _ _ _ _ _ _ _ A1) in E; [exact E|lia|exact M0|exact O].
  - cbn [bind andb] in E. injection E as _ <- <-. exists 0. split; [lia|].
    destruct A1 as (P1 & P2 & P3 & P4 & P5 & P6 & P7 & P8 & P9 & P10). cbn [q_pos q_off q_buf q_rest advance] in *.
    split; [lia|]. unfold last_record. cbn [q_off q_buf]. replace (q_off q1 + m_reclen m0 - m_reclen m0) with (q_off q1) by lia.
    rewrite <- P6. unfold lenZ in *. split.
    + cbn [Z.to_nat skipn]. rewrite firstn_app. rewrite skipn_length.
      replace (Z.to_nat (m_reclen m0) - _)%nat with 0%nat by lia. cbn [firstn]. rewrite app_nil_r. reflexivity.
    + rewrite skipn_app, skipn_skipn, skipn_length. replace (Z.to_nat (0 + m_reclen m0) - _)%nat with 0%nat by lia. cbn [skipn].
      do 2 f_equal. lia.
  - destruct (has_flag _ _); [|discriminate]. exact (STEP _ E).
Qed.

(** ** One record *)

Lemma type_sizes enc : 0 <= enc < 256 ->
  match encoding_sizetype enc with Some (_, t) => t | None => 0 end = type_of enc.
Proof.
  intros _. unfold encoding_sizetype, type_of.
  repeat match goal with |- context [if ?c then _ else _] => destruct c eqn:? end; reflexivity.
Qed.

Lemma main_type_ok x : hdr_ok (pt_hdr x) -> main_type (part_head x) = type_of (h_enc (pt_hdr x)).
Proof.
  intros H. assert (0 <= h_enc (pt_hdr x) < 256) as E by (unfold hdr_ok in H; unfold byte_ok, in_u in *; intuition lia).
  unfold main_type, used_encoding, part_head, rec_of. cbn [m_enc]. replace (h_enc (pt_hdr x) <? 0) with false by lia.
  rewrite uwrap_id by (unfold in_u; lia). apply type_sizes. exact E.
Qed.

Lemma known_type mode addr x d : hdr_ok (pt_hdr x) -> unpack_data false mode addr (layout3 (pt_hdr x)) (part_head x) = Ok d -> 0 < samples_len d ->
  samplesize (type_of (h_enc (pt_hdr x))) = Z.of_nat (word_size (h_enc (pt_hdr x))).
Proof.
  intros H U L. assert (0 <= h_enc (pt_hdr x) < 256) as E by (unfold hdr_ok in H; unfold byte_ok, in_u in *; intuition lia).
  unfold unpack_data in U. change (m_enc (part_head x)) with (h_enc (pt_hdr x)) in U. replace (h_enc (pt_hdr x) <? 0) with false in U by lia.
  rewrite uwrap_id in U by (unfold in_u; lia).
  assert (encoding_sizetype (h_enc (pt_hdr x)) <> None) as K.
  { intros K. rewrite K in U. destruct (m_cnt _ <=? 0); [injection U as <-; cbn in L; lia|].
    destruct (_ <? 0); [discriminate|]. destruct (_ || _); [discriminate|]. destruct (_ <? _); [discriminate|].
    destruct (match _ with Ok _ => _ | Err _ => _ | UB _ => _ | Fuel => _ end) as [[off size]| | |]; cbn [bind] in U; try discriminate.
    destruct (_ || _); discriminate. }
  clear U L H. revert K. unfold encoding_sizetype, type_of, samplesize, word_size.
  repeat match goal with |- context [if ?c then _ else _] => destruct c eqn:? end; cbn; intros K; try congruence; try lia.
Qed.

Lemma memory_length size ws : length (flat_map (le_bytes size) ws) = (size * length ws)%nat.
Proof.
  induction ws as [|w ws IH]; cbn [flat_map length]; [lia|]. rewrite app_length, IH, le_bytes_length. lia.
Qed.

Lemma binary_ok mode addr x d : hdr_ok (pt_hdr x) -> unpack_data false mode addr (layout3 (pt_hdr x)) (part_head x) = Ok d ->
  (if 0 <? samples_len d
   then bin_samples (main_type (part_head x)) (samples_len d) (sample_memory false (Z.to_nat (samplesize (main_type (part_head x)))) d)
   else Ok []) = Ok (binary x (Ok d)).
Proof.
  intros H U. assert (length (sample_words d) = Z.to_nat (samples_len d)) as W by (destruct d; cbn; rewrite ?map_length; lia).
  destruct (Z.ltb_spec 0 (samples_len d)) as [L|L].
  - rewrite (main_type_ok x H), (known_type mode addr x d H U L). unfold bin_samples, sample_memory, binary.
    rewrite (known_type mode addr x d H U L), Nat2Z.id.
    assert (1 <= word_size (h_enc (pt_hdr x)))%nat as W1 by (unfold word_size; destruct (_ =? 0); [lia|destruct (_ =? 5); lia]).
    replace (Z.of_nat (word_size _) =? 0) with false by lia.
    rewrite sliceZ_ok; [|lia|nia|unfold lenZ; rewrite memory_length, W; nia].
    cbn [Z.to_nat skipn]. rewrite firstn_all2; [reflexivity|]. rewrite memory_length, W. nia.
  - unfold binary. destruct (sample_words d); [reflexivity|cbn in W; lia].
Qed.

Section Run.
  Variables (fs : files) (stdin : list Z) (n : menv) (i : mset) (ts te : Z) (m rj : option (list Z * list tok))
    (keep : part -> bool) (data : part -> res samples) (text : Z * part -> list Z).
  Hypothesis HB : n_hb n = false.
  Hypothesis FI : i_filter i = settings_of ts te m rj.
  Hypothesis PM : pattern_ok m.
  Hypothesis PR : pattern_ok rj.

  Definition facts (px : Z * part) : Prop :=
    record_facts n i ts te m rj keep data text px /\ hdr_ok (pt_hdr (snd px)).

  Lemma main_keeps px : facts px -> exists r, main_crec n i (layout3 (pt_hdr (snd px))) (part_head (snd px)) = Ok r /\
    keeps (i_filter i) r = Ok (keep (snd px)) /\ c_cnt r = h_cnt (pt_hdr (snd px)) /\ c_bytes r = layout3 (pt_hdr (snd px)).
  Proof using FI PM PR.
    intros (((e & E & L & K) & _) & _). unfold main_crec.
    change (m_start (part_head (snd px))) with (pt_time (snd px)). change (m_cnt (part_head (snd px))) with (h_cnt (pt_hdr (snd px))).
    change (m_rate (part_head (snd px))) with (h_rate (pt_hdr (snd px))). change (m_sid (part_head (snd px))) with (until0 (h_sid (pt_hdr (snd px)))).
    rewrite E.
    assert (keeps (i_filter i) (seen (snd px) e) = Ok (keep (snd px))) as KE.
    { rewrite FI. destruct (keeps_ok ts te m rj (seen (snd px) e) PM PR) as (b & B & BI); [exact L|]. rewrite B. f_equal.
      apply eq_true_iff_eq. rewrite BI, K. reflexivity. }
    destruct (negb (o_ts (i_filter i) =? NSTERROR) || negb (o_te (i_filter i) =? NSTERROR)) eqn:Q; cbn [bind].
    - eexists. split; [reflexivity|]. split; [exact KE|]. split; reflexivity.
    - eexists. split; [reflexivity|]. split; [|split; reflexivity]. rewrite <- KE. unfold keeps, time_keeps. rewrite Q. reflexivity.
  Qed.

  Definition tr (px : Z * part) : trec := trec_of (part_head (snd px)).
  (** The additions to the trace list succeed. *)
  Definition tracing (s : vstate) (done : list (Z * part)) : Prop :=
    i_traces i = true -> exists k k', v_traces s = Some k /\ (length done <= length (v_heights s))%nat /\
      add_all (main_traces n) k (combine (map tr done) (v_heights s)) = Ok k'.
  Record vfollows (more : Z) (s s' : vstate) (done : list (Z * part)) : Prop := {
    vf_left : st_left (v_cli s') = if st_left (v_cli s) <? 0 then st_left (v_cli s) else st_left (v_cli s) - lenZ done;
    vf_fits : 0 <= st_left (v_cli s) -> lenZ done <= st_left (v_cli s);
    vf_recs : st_recs (v_cli s') = st_recs (v_cli s) + lenZ done;
    vf_samps : st_samps (v_cli s') = st_samps (v_cli s) + samples_in done;
    vf_files : st_files (v_cli s') = st_files (v_cli s) + more;
    vf_out : st_out (v_cli s') = st_out (v_cli s) ++ concat (map (fun px => layout3 (pt_hdr (snd px))) done);
    vf_text : v_text s' = v_text s ++ (if i_only i then [] else concat (map text done));
    vf_bin : v_bin s' = v_bin s ++ (if i_bin i then concat (map (fun px => binary (snd px) (data (snd px))) done) else []);
    vf_traces : i_traces i = true -> exists k k', v_traces s = Some k /\ v_traces s' = Some k' /\
      add_all (main_traces n) k (combine (map tr done) (v_heights s)) = Ok k' /\ v_heights s' = skipn (length done) (v_heights s) }.

  Lemma samples_in_app a b : samples_in (a ++ b) = samples_in a + samples_in b.
  Proof. unfold samples_in. induction a as [|x a IH]; cbn [app fold_right]; lia. Qed.

  Lemma samples_in_nonneg l : Forall facts l -> 0 <= samples_in l.
  Proof.
    induction 1 as [|px l F _ IH]; unfold samples_in in *; cbn [fold_right]; [lia|].
    destruct F as (_ & F). unfold hdr_ok, in_u in F. lia.
  Qed.

  Lemma text_ok px : facts px -> keep (snd px) = true -> forall d,
    (i_data i = 0 \/ d = data (snd px)) ->
    show_record (n_mode n) (n_hz n) (n_g8 n) (n_g10 n) (if i_offset i then Some (fst px) else None) None
      (i_details i) (i_data i) (main_type (part_head (snd px))) (part_head (snd px)) d = Ok (text px).
  Proof.
    intros ((_ & _ & T) & H) K d D. rewrite (main_type_ok _ H). specialize (T K). unfold text_is in T.
    destruct D as [D| ->]; [|exact T]. rewrite <- T. unfold show_record. rewrite D. reflexivity.
  Qed.

  Lemma record_step addr px s : facts px -> st_left (v_cli s) <> 0 -> 0 <= st_recs (v_cli s) -> st_recs (v_cli s) + 1 < 2 ^ 63 ->
    0 <= st_samps (v_cli s) -> st_samps (v_cli s) + h_cnt (pt_hdr (snd px)) < 2 ^ 63 ->
    (keep (snd px) = true -> tracing s [px]) ->
    if keep (snd px)
    then exists s', main_record n i addr (fst px) (layout3 (pt_hdr (snd px))) (part_head (snd px)) s = Ok s' /\ vfollows 0 s s' [px]
    else main_record n i addr (fst px) (layout3 (pt_hdr (snd px))) (part_head (snd px)) s = Ok s.
  Proof using HB FI PM PR.
    intros F L0 R0 R1 S0 S1 TR. destruct (main_keeps px F) as (r & CR & KE & CC & CB).
    pose proof F as ((_ & (D1 & D2) & _) & H).
    unfold main_record. rewrite CR. cbn [bind]. rewrite KE. cbn [bind]. destruct (keep (snd px)) eqn:K; [|reflexivity]. cbn [negb].
    specialize (TR eq_refl). unfold process. rewrite CC, CB.
    assert (0 <= h_cnt (pt_hdr (snd px))) as C0 by (unfold hdr_ok, in_u in H; lia).
    rewrite !sarith_ok by (unfold in_s; change (2 ^ (64 - 1)) with (2 ^ 63); lia). cbn [bind]. rewrite HB, D1.
    assert ((if negb (i_data i =? 0) || i_bin i
             then match data (snd px) with UB u => UB u | Fuel => Fuel | _ => Ok tt end else Ok tt) = Ok tt) as ->.
    { destruct (_ || _); [|reflexivity]. destruct D2 as [(d & ->)|(c & ->)]; reflexivity. }
    cbn [bind].
    assert ((if i_only i then Ok []
       else show_record (n_mode n) (n_hz n) (n_g8 n) (n_g10 n) (if i_offset i then Some (fst px) else None) None
              (i_details i) (i_data i) (main_type (part_head (snd px))) (part_head (snd px))
              (if negb (i_data i =? 0) || i_bin i then data (snd px) else Err MS_GENERROR)) = Ok (if i_only i then [] else text px)) as ->.
    { destruct (i_only i); [reflexivity|]. apply text_ok; [exact F|exact K|].
      destruct (Z.eqb_spec (i_data i) 0) as [Z0|Z0]; [left; exact Z0|right; reflexivity]. }
    cbn [bind].
    assert ((if i_bin i then match data (snd px) with
         | Ok d =>
           if 0 <? samples_len d
           then bin_samples (main_type (part_head (snd px))) (samples_len d) (sample_memory false (Z.to_nat (samplesize (main_type (part_head (snd px))))) d)
           else Ok []
         | _ => Ok []
         end else Ok []) = Ok (if i_bin i then binary (snd px) (data (snd px)) else [])) as BI.
    { destruct (i_bin i); [|reflexivity]. destruct D2 as [(d & D2)|(c & D2)]; rewrite D2; [|reflexivity].
      apply (binary_ok (n_mode n) 0); [exact H|]. rewrite D1. exact D2. }
    assert (exists t h, (if i_traces i then
         match v_traces s with
         | None => Ok (None, v_heights s)
         | Some k =>
           match add_msr (main_traces n) k (trec_of (part_head (snd px))) (hd 1%nat (v_heights s)) with
           | Ok k => Ok (Some k, tl (v_heights s))
           | Err _ => Ok (None, v_heights s)
           | UB u => UB u
           | Fuel => Fuel
           end
         end
       else Ok (v_traces s, v_heights s)) = Ok (t, h) /\
       (i_traces i = true -> exists k k', v_traces s = Some k /\ t = Some k' /\
         add_all (main_traces n) k (combine (map tr [px]) (v_heights s)) = Ok k' /\ h = skipn 1 (v_heights s))) as (t & h & TE & TH).
    { unfold tracing in TR. destruct (i_traces i); [|eexists _, _; split; [reflexivity|discriminate]].
      destruct (TR eq_refl) as (k & k' & T1 & T2 & T3). rewrite T1. destruct (v_heights s) as [|h0 hs]; [cbn in T2; lia|].
      cbn [map combine hd tl add_all] in T3 |- *. unfold tr in T3 at 1. destruct (add_msr _ _ _ _) as [k1| | |] eqn:AE; try discriminate.
      cbn [bind] in T3. injection T3 as ->. eexists _, _. split; [reflexivity|]. intros _. exists k, k'. split; [reflexivity|]. split; [reflexivity|].
      unfold tr at 1. rewrite AE. split; reflexivity. }
    rewrite TE. cbn [bind]. rewrite BI. cbn [bind]. eexists. split; [reflexivity|].
    constructor; cbn [v_cli v_text v_bin v_traces v_heights st_left st_recs st_samps st_files st_out]; unfold lenZ; cbn [length map concat samples_in fold_right];
      rewrite ?app_nil_r; try lia; try reflexivity.
    - destruct (Z.ltb_spec (st_left (v_cli s)) 0), (Z.ltb_spec 0 (st_left (v_cli s))); lia.
    - exact TH.
  Qed.

  Lemma vfollows_nil s : tracing s [] -> vfollows 0 s s [].
  Proof.
    intros T. constructor; unfold lenZ; cbn [length map concat samples_in fold_right]; rewrite ?app_nil_r; try lia; try reflexivity.
    - destruct (_ <? 0); lia.
    - destruct (i_only i); rewrite app_nil_r; reflexivity.
    - destruct (i_bin i); rewrite app_nil_r; reflexivity.
    - intros TI. destruct (T TI) as (k & k' & T1 & T2 & T3). exists k, k'. cbn in T3. injection T3 as ->. split; [exact T1|]. split; [exact T1|]. split; reflexivity.
  Qed.

  Lemma add_all_app f : forall a b k, add_all f k (a ++ b) = let! k := add_all f k a in add_all f k b.
  Proof.
    induction a as [|[r h] a IH]; intros b k; cbn [app add_all]; [reflexivity|]. destruct (add_msr f k r h); cbn [bind]; [apply IH|reflexivity..].
  Qed.

  Lemma combine_split {A B} : forall (a b : list A) (h : list B), (length a <= length h)%nat ->
    combine (a ++ b) h = combine a h ++ combine b (skipn (length a) h).
  Proof.
    induction a as [|x a IH]; intros b h L; [reflexivity|]. destruct h as [|y h]; [cbn in L; lia|]. cbn. f_equal. apply IH. cbn in L. lia.
  Qed.

  Lemma tracing_app s a b : tracing s (a ++ b) -> tracing s a /\ forall w s', vfollows w s s' a -> tracing s' b.
  Proof.
    intros T. assert (i_traces i = true -> exists k k1 k', v_traces s = Some k /\ (length a + length b <= length (v_heights s))%nat /\
      add_all (main_traces n) k (combine (map tr a) (v_heights s)) = Ok k1 /\
      add_all (main_traces n) k1 (combine (map tr b) (skipn (length a) (v_heights s))) = Ok k') as X.
    { intros TI. destruct (T TI) as (k & k' & T1 & T2 & T3). rewrite app_length in T2. rewrite map_app, combine_split in T3 by (rewrite map_length; lia).
      rewrite add_all_app in T3. destruct (add_all _ k (combine (map tr a) _)) as [k1| | |] eqn:E; try discriminate. cbn [bind] in T3.
      rewrite map_length in T3. exists k, k1, k'. split; [exact T1|]. split; [exact T2|]. split; [exact E|exact T3]. }
    split.
    - intros TI. destruct (X TI) as (k & k1 & k' & X1 & X2 & X3 & X4). exists k, k1. split; [exact X1|]. split; [lia|exact X3].
    - intros w s' V TI. destruct (X TI) as (k & k1 & k' & X1 & X2 & X3 & X4). destruct (vf_traces _ _ _ _ V TI) as (u & u' & U1 & U2 & U3 & U4).
      rewrite X1 in U1. injection U1 as <-. rewrite X3 in U3. injection U3 as <-. exists k1, k'. split; [exact U2|]. rewrite U4, skipn_length. split; [lia|exact X4].
  Qed.

  Lemma vfollows_app w1 w2 s s1 s2 a b : vfollows w1 s s1 a -> vfollows w2 s1 s2 b -> tracing s (a ++ b) -> vfollows (w1 + w2) s s2 (a ++ b).
  Proof.
    intros [A1 A2 A3 A4 A5 A6 A7 A8 A9] [B1 B2 B3 B4 B5 B6 B7 B8 B9] T.
    constructor; rewrite ?map_app, ?concat_app, ?samples_in_app, ?lenZ_app; try lia.
    - rewrite B1, A1. destruct (Z.ltb_spec (st_left (v_cli s)) 0) as [L|L]; [destruct (Z.ltb_spec (st_left (v_cli s)) 0); lia|].
      specialize (A2 L). destruct (Z.ltb_spec (st_left (v_cli s) - lenZ a) 0); lia.
    - intros L. specialize (A2 L). rewrite A1 in B2. destruct (Z.ltb_spec (st_left (v_cli s)) 0); lia.
    - rewrite B6, A6, <- app_assoc. reflexivity.
    - rewrite B7, A7, <- app_assoc. destruct (i_only i); reflexivity.
    - rewrite B8, A8, <- app_assoc. destruct (i_bin i); reflexivity.
    - intros TI. destruct (A9 TI) as (k & k1 & X1 & X2 & X3 & X4). destruct (B9 TI) as (u & u' & U1 & U2 & U3 & U4).
      destruct (T TI) as (z & z' & Z1 & Z2 & _).
      rewrite X2 in U1. injection U1 as <-. exists k, u'. split; [exact X1|]. split; [exact U2|].
      rewrite app_length in Z2. rewrite combine_split by (rewrite map_length; lia). rewrite add_all_app, X3. cbn [bind].
      rewrite map_length, <- X4. split; [exact U3|]. rewrite U4, X4, skipn_skipn, app_length. f_equal. lia.
  Qed.

  (** ** The records of a file *)
  Lemma first_n_zero {A} (l : list A) : first_n 0 l = [].
  Proof. reflexivity. Qed.

  Lemma file_ok sch file : delivers sch -> let g := main_read n i in
    forall pl q p r c nrec calls s, at_pos 0 q p r nrec -> 0 <= nrec -> 0 <= p -> r = skipn (Z.to_nat p) file ->
    reads g 0 p r nrec (map (fun px => (fst px, part_head (snd px))) pl) (Ok c) -> (length pl < calls)%nat ->
    Forall facts pl -> Forall (fun px => firstn (length (layout3 (pt_hdr (snd px)))) (skipn (Z.to_nat (fst px)) file) = layout3 (pt_hdr (snd px))) pl ->
    0 <= st_recs (v_cli s) -> st_recs (v_cli s) + lenZ pl < 2 ^ 63 -> 0 <= st_samps (v_cli s) -> st_samps (v_cli s) + samples_in pl < 2 ^ 63 ->
    let done := first_n (st_left (v_cli s)) (filter (fun px => keep (snd px)) pl) in
    tracing s done ->
    exists rc s', main_file calls n i sch q s = Ok (rc, s') /\ vfollows 0 s s' done /\ (st_left (v_cli s') <> 0 -> rc = c).
  Proof using HB FI PM PR.
    intros HD g. induction pl as [|px pl IH]; intros q p r c nrec calls s A N P0 RE R C F B R0 R1 S0 S1 done T; destruct calls as [|calls]; try (cbn in C; lia);
      cbn [main_file]; (destruct (Z.eqb_spec (st_left (v_cli s)) 0) as [L0|L0];
        [exists 0, s; split; [reflexivity|]; unfold done in *; rewrite L0, first_n_zero in *; split; [apply vfollows_nil; exact T|lia]|]).
    all: unfold read_msr; assert (HB' : g_hb g = false) by exact HB;
      pose proof (loop_reads g sch 0 HB' HD ltac:(lia) (read_fuel q) q 0 p r nrec _ (Ok c) A ltac:(lia) R) as X.
    all: assert (FU : 2 * lenZ (q_rest q) + 2 * lenZ r + (if 0 <? 0 then 0 else 1) < Z.of_nat (read_fuel q)).
    1, 3: destruct A as (_ & _ & _ & _ & _ & A6 & _); rewrite <- A6; unfold read_fuel, lenZ; rewrite app_length, skipn_length; cbn [Z.ltb Z.compare]; lia.
    all: specialize (X FU); clear FU; cbn [map call_gives] in X.
    - destruct X as (q' & [X | (X & _)]); [|lia]. fold g. rewrite X. cbn [bind]. exists c, s. split; [reflexivity|].
      unfold done in *. cbn [filter] in *. rewrite first_n_nil in *. split; [apply vfollows_nil; exact T|reflexivity].
    - destruct X as (q' & r' & X & O' & A' & R'). fold g. pose proof X as X'. rewrite X. cbn [bind].
      inversion F as [|? ? F1 F2]; subst x l. inversion B as [|? ? B1 B2]; subst x l.
      assert (m_reclen (part_head (snd px)) = lenZ (layout3 (pt_hdr (snd px)))) as ML by reflexivity.
      assert (0 <= m_reclen (part_head (snd px))) as M0 by (rewrite ML; apply lenZ_nonneg).
      assert (PP : q_pos q' = fst px + m_reclen (part_head (snd px))) by (destruct A' as (-> & _); reflexivity).
      destruct (read_where g sch HD eq_refl (read_fuel q) q 0 p r nrec 0 (part_head (snd px)) q' A ltac:(lia) X' M0) as (k & K0 & K1 & K2 & K3).
      { destruct A' as (_ & _ & _ & A4 & _). lia. }
      assert (K4 : fst px = p + k) by lia.
      assert (LR : last_record q' (part_head (snd px)) = layout3 (pt_hdr (snd px))).
      { rewrite K2, RE, skipn_skipn, ML. unfold lenZ. rewrite Nat2Z.id.
        replace (Z.to_nat k + Z.to_nat p)%nat with (Z.to_nat (fst px)) by lia. exact B1. }
      assert (RE' : r' = skipn (Z.to_nat (fst px + m_reclen (part_head (snd px)))) file).
      { destruct A' as (_ & _ & _ & _ & _ & A6 & _). rewrite <- A6, K3, RE, skipn_skipn. f_equal. lia. }
      rewrite LR. replace (q_pos q' - m_reclen (part_head (snd px))) with (fst px) by lia.
      assert (N' : 0 <= nrec + 1) by lia. assert (P' : 0 <= fst px + m_reclen (part_head (snd px))) by lia.
      assert (C' : (length pl < calls)%nat) by (cbn in C; lia).
      assert (lenZ (px :: pl) = 1 + lenZ pl) as LC by (unfold lenZ; cbn [length]; lia). rewrite LC in R1. pose proof (lenZ_nonneg pl) as LP. cbn [samples_in fold_right] in S1. fold (samples_in pl) in S1.
      pose proof (samples_in_nonneg pl F2) as SP.
      assert (CP : 0 <= h_cnt (pt_hdr (snd px))) by (destruct F1 as (_ & F1); unfold hdr_ok, in_u in F1; lia).
      pose proof (record_step (n_base n + (q_off q' - m_reclen (part_head (snd px)))) px s F1 L0 R0 ltac:(lia) S0 ltac:(lia)) as ST.
      unfold done in *. cbn [filter] in *. destruct (keep (snd px)).
      + rewrite first_n_cons in * by exact L0.
        match goal with |- context [first_n ?z (filter _ pl)] => set (rest := first_n z (filter (fun px => keep (snd px)) pl)) in * end.
        change (px :: rest) with ([px] ++ rest) in T |- *. destruct (tracing_app s [px] rest T) as (T1 & T2).
        destruct (ST (fun _ => T1)) as (s1 & E1 & V1). rewrite E1. cbn [bind]. specialize (T2 0 s1 V1).
        pose proof V1 as [V1a V1b V1c V1d V1e _ _ _ _]. unfold lenZ in V1a, V1b, V1c. cbn [length] in V1a, V1b, V1c. cbn [samples_in fold_right] in V1d.
        assert (rest = first_n (st_left (v_cli s1)) (filter (fun px => keep (snd px)) pl)) as RS.
        { unfold rest. f_equal. rewrite V1a. destruct (Z.ltb_spec 0 (st_left (v_cli s))), (Z.ltb_spec (st_left (v_cli s)) 0); lia. }
        destruct (IH q' _ r' c (nrec + 1) calls s1 A' N' P' RE' R' C' F2 B2) as (rc & s2 & E2 & V2 & E3); try lia; try (rewrite <- RS; exact T2).
        rewrite <- RS in V2. exists rc, s2. split; [exact E2|]. split; [|exact E3]. exact (vfollows_app 0 0 s s1 s2 [px] rest V1 V2 T).
      + rewrite ST by discriminate. cbn [bind].
        destruct (IH q' _ r' c (nrec + 1) calls s A' N' P' RE' R' C' F2 B2) as (rc & s2 & E2 & V2 & E3); try lia; try exact T.
        exists rc, s2. split; [exact E2|]. split; [exact V2|exact E3].
  Qed.

  (** ** The files *)
  Lemma contents_at rest : forall parts pre, Forall (fun px => firstn (length (layout3 (pt_hdr (snd px)))) (skipn (Z.to_nat (fst px)) (pre ++ file_of parts rest)) = layout3 (pt_hdr (snd px)))
    (contents (lenZ pre) parts).
  Proof.
    induction parts as [|x parts IH]; intros pre; cbn [contents]; constructor.
    - cbn [fst snd file_of]. unfold lenZ. rewrite <- Nat2Z.inj_add, Nat2Z.id, <- app_length, app_assoc, skipn_app_exact by reflexivity.
      apply firstn_app_exact. reflexivity.
    - cbn [file_of]. specialize (IH (pre ++ pt_junk x ++ layout3 (pt_hdr x))). rewrite !lenZ_app in IH. rewrite <- !app_assoc in IH.
      rewrite <- Z.add_assoc. exact IH.
  Qed.

  Lemma no_unpacking : has_flag (main_flags i) 1 = false.
  Proof. unfold main_flags. destruct (i_skip i); reflexivity. Qed.

  Lemma undecoded_parts mode parts p : Forall (ReadSpec.readable mode (main_flags i)) parts ->
    expected (main_read n i) p parts = map (fun px => (fst px, part_head (snd px))) (contents p parts).
  Proof.
    intros R. unfold expected. revert p. induction R as [|x parts Rx R IH]; intros p; [reflexivity|]. cbn [contents filter snd].
    change (selected _ _) with true. cbv iota. cbn [map fst snd]. rewrite IH. f_equal. f_equal.
    unfold ReadSpec.readable in Rx. rewrite no_unpacking in Rx. unfold part_rec, part_head. destruct (pt_data x); [|reflexivity].
    destruct Rx as (_ & _ & _ & _ & _ & _ & Rx & _). discriminate.
  Qed.

  Lemma contents_hdr mode parts : Forall (ReadSpec.readable mode (main_flags i)) parts -> forall p, Forall (fun px => hdr_ok (pt_hdr (snd px))) (contents p parts).
  Proof.
    induction 1 as [|x parts R _ IH]; intros p; cbn [contents]; constructor; [|apply IH]. unfold ReadSpec.readable in R. apply R.
  Qed.

  Definition fact (px : Z * part) : Prop := record_facts n i ts te m rj keep data text px.
  Definition done_of (s : vstate) (l : list (Z * part)) : list (Z * part) := first_n (st_left (v_cli s)) (filter (fun px => keep (snd px)) l).

  Lemma path_ok x s : good_input fs stdin (n_mode n) (main_flags i) x ->
    let pl := contents 0 (in_parts x) in Forall fact pl ->
    0 <= st_recs (v_cli s) -> st_recs (v_cli s) + lenZ pl < 2 ^ 63 -> 0 <= st_samps (v_cli s) -> st_samps (v_cli s) + samples_in pl < 2 ^ 63 ->
    tracing s (done_of s pl) ->
    exists rc s', main_path fs stdin n i (in_sch x) (in_path x) s = Ok (rc, s') /\ vfollows 0 s s' (done_of s pl) /\ (st_left (v_cli s') <> 0 -> rc = 1).
  Proof using HB FI PM PR.
    intros (H & D & R & B & J & U & L & NE) pl F R0 R1 S0 S1 T. unfold main_path.
    destruct (Z.eqb_spec (st_left (v_cli s)) 0) as [L0|L0].
    { exists 0, s. split; [reflexivity|]. unfold done_of in *. rewrite L0, first_n_zero in *. split; [apply vfollows_nil; exact T|lia]. }
    destruct (holds_opens _ _ _ _ _ H) as (p & a & b & E1 & E2 & E3). rewrite E1. cbn [bind]. rewrite E2, E3. cbn [bind].
    assert (BT : bytes_ok (file_of (in_parts x) (in_rest x))).
    { apply bytes_file; [|exact B]. eapply Forall_impl; [|exact R]. intros y Hy. unfold ReadSpec.readable in Hy. tauto. }
    pose proof (reads_file (main_read n i) (in_parts x) (in_rest x) 0 0 ltac:(lia) R B J U) as RD.
    pose proof (reads_count _ _ _ _ _ _ _ BT RD) as RC.
    rewrite (undecoded_parts (n_mode n) _ _ R) in RD, RC.
    assert (AT : at_pos 0 (opened (file_of (in_parts x) (in_rest x)) 0 0) 0 (file_of (in_parts x) (in_rest x)) 0) by (apply opened_at; [exact BT|lia|lia]).
    assert (Ff : Forall facts pl).
    { pose proof (contents_hdr (n_mode n) _ R 0) as CH. unfold pl in *. rewrite Forall_forall in F, CH |- *. intros px I. split; [exact (F px I)|exact (CH px I)]. }
    assert (LL : (length pl < S (length (file_of (in_parts x) (in_rest x))))%nat) by (rewrite map_length in RC; unfold pl; lia).
    destruct (file_ok (in_sch x) (file_of (in_parts x) (in_rest x)) D pl _ 0 _ _ 0 (S (length (file_of (in_parts x) (in_rest x)))) s AT ltac:(lia) ltac:(lia) eq_refl RD LL
      Ff (contents_at (in_rest x) (in_parts x) []) R0 R1 S0 S1 T) as (rc & s' & E & V & C).
    exists rc, s'. split; [exact E|]. split; [exact V|]. intros N. rewrite (C N). clear -NE.
    destruct (in_parts x) as [|y ys]; [congruence|]. unfold lenZ. cbn [contents map length]. rewrite Z.add_0_l. reflexivity.
  Qed.

  Lemma paths_ok : forall xs s, Forall (good_input fs stdin (n_mode n) (main_flags i)) xs ->
    let pl := all_records xs in Forall fact pl ->
    0 <= st_recs (v_cli s) -> st_recs (v_cli s) + lenZ pl < 2 ^ 63 -> 0 <= st_samps (v_cli s) -> st_samps (v_cli s) + samples_in pl < 2 ^ 63 ->
    0 <= st_files (v_cli s) -> st_files (v_cli s) + lenZ xs < 2 ^ 63 ->
    tracing s (done_of s pl) ->
    exists s', main_paths fs stdin n i (map (fun x => (in_path x, in_sch x)) xs) s = Ok (false, s') /\ vfollows (lenZ xs) s s' (done_of s pl).
  Proof using HB FI PM PR.
    induction xs as [|x xs IH]; intros s G pl F R0 R1 S0 S1 F0 F1 T.
    - exists s. split; [reflexivity|]. assert (DN : done_of s pl = []) by apply first_n_nil. rewrite DN in T |- *. apply vfollows_nil. exact T.
    - cbn [map main_paths]. inversion G as [|? ? G1 G2]; subst x0 l.
      assert (PL : pl = contents 0 (in_parts x) ++ all_records xs) by reflexivity. clearbody pl. subst pl.
      rewrite Forall_app in F. destruct F as (Fa & Fb). rewrite lenZ_app in R1. rewrite samples_in_app in S1.
      assert (LC : lenZ (x :: xs) = 1 + lenZ xs) by (unfold lenZ; cbn [length]; lia). rewrite LC in F1.
      pose proof (lenZ_nonneg (contents 0 (in_parts x))). pose proof (lenZ_nonneg (all_records xs)). pose proof (lenZ_nonneg xs).
      assert (NN : forall l, Forall fact l -> Forall (fun px => hdr_ok (pt_hdr (snd px))) l -> 0 <= samples_in l).
      { intros l Fl Hl. apply samples_in_nonneg. rewrite Forall_forall in *. intros px I. split; [exact (Fl px I)|exact (Hl px I)]. }
      assert (Ha : 0 <= samples_in (contents 0 (in_parts x))) by (apply NN; [exact Fa|apply (contents_hdr (n_mode n)); apply G1]).
      assert (Hb : 0 <= samples_in (all_records xs)).
      { apply NN; [exact Fb|]. clear -G2. induction G2 as [|y ys Gy _ IH]; [constructor|]. cbn. rewrite Forall_app. split; [apply (contents_hdr (n_mode n)); apply Gy|exact IH]. }
      assert (DE : forall s1, st_left (v_cli s1) = (if st_left (v_cli s) <? 0 then st_left (v_cli s) else st_left (v_cli s) - lenZ (done_of s (contents 0 (in_parts x)))) ->
        done_of s (contents 0 (in_parts x) ++ all_records xs) = done_of s (contents 0 (in_parts x)) ++ done_of s1 (all_records xs)).
      { intros s1 E. unfold done_of in *. rewrite filter_app, first_n_app. f_equal. f_equal. symmetry. exact E. }
      assert (T1 : tracing s (done_of s (contents 0 (in_parts x)))).
      { unfold done_of in T. rewrite filter_app, first_n_app in T. apply tracing_app in T. apply T. }
      destruct (path_ok x s G1 Fa R0 ltac:(lia) S0 ltac:(lia) T1) as (rc & s1 & E1 & V1 & C1). rewrite E1. cbn [bind].
      pose proof (DE s1 (vf_left _ _ _ _ V1)) as D1. rewrite D1 in T |- *.
      destruct (tracing_app s _ _ T) as (_ & T2). specialize (T2 0 s1 V1).
      assert (negb (rc =? MS_ENDOFFILE) && negb (st_left (v_cli s1) =? 0) = false) as ->.
      { destruct (Z.eqb_spec (st_left (v_cli s1)) 0) as [Q|Q]; [apply andb_false_r|]. rewrite (C1 Q). reflexivity. }
      pose proof V1 as [W1 W2 W3 W4 W5 _ _ _ _]. rewrite W5. rewrite sarith_ok by (unfold in_s; change (2 ^ (64 - 1)) with (2 ^ 63); lia). cbn [bind].
      assert (LD : lenZ (done_of s (contents 0 (in_parts x))) <= lenZ (contents 0 (in_parts x))).
      { unfold done_of, lenZ. pose proof (first_n_length_le (st_left (v_cli s)) (filter (fun px => keep (snd px)) (contents 0 (in_parts x)))).
        pose proof (CliProof.filter_length_le (fun px : Z * part => keep (snd px)) (contents 0 (in_parts x))). lia. }
      pose proof (lenZ_nonneg (done_of s (contents 0 (in_parts x)))).
      assert (SD : 0 <= samples_in (done_of s (contents 0 (in_parts x))) <= samples_in (contents 0 (in_parts x))).
      { assert (HC : Forall (fun px => 0 <= h_cnt (pt_hdr (snd px))) (contents 0 (in_parts x))).
        { eapply Forall_impl; [|apply (contents_hdr (n_mode n) (in_parts x)); apply G1]. intros px Hp. unfold hdr_ok, in_u in Hp. lia. }
        unfold done_of. clear -HC. generalize (st_left (v_cli s)). induction HC as [|px l P HC IH]; intros z; [cbn [filter]; rewrite first_n_nil; cbn; lia|].
        cbn [filter]. destruct (keep (snd px)); [|specialize (IH z); cbn [samples_in fold_right]; unfold samples_in in *; lia].
        destruct (Z.eq_dec z 0) as [->|NZ].
        - rewrite first_n_zero. cbn [samples_in fold_right]. specialize (IH 0). rewrite first_n_zero in IH. unfold samples_in in *. cbn in *. lia.
        - rewrite first_n_cons by exact NZ. specialize (IH (if 0 <? z then z - 1 else z)). unfold samples_in in *. cbn [fold_right]. lia. }
      match goal with |- exists s', main_paths _ _ _ _ _ ?z = _ /\ _ => set (s2 := z) end.
      assert (V2 : vfollows 1 s s2 (done_of s (contents 0 (in_parts x)))).
      { destruct V1 as [X1 X2 X3 X4 X5 X6 X7 X8 X9]. constructor; try assumption. cbn. rewrite Z.add_0_r. reflexivity. }
      destruct (IH s2 G2 Fb) as (s3 & E3 & V3); cbn [s2 v_cli st_recs st_samps st_files]; try lia.
      { exact T2. }
      exists s3. split; [exact E3|]. rewrite LC. exact (vfollows_app 1 (lenZ xs) s s2 s3 _ _ V2 V3 T).
  Qed.
End Run.

Definition start_state (i : mset) (heights : list nat) : vstate :=
  mk_vstate {| st_done := []; st_left := i_count i; st_recs := 0; st_samps := 0; st_files := 0; st_out := [] |} [] [] (Some tl_init) heights.

Lemma run_paths fs stdin n i heights ts te m rj keep data text xs : good_run fs stdin n i heights ts te m rj keep data text xs ->
  exists s, main_paths fs stdin n i (map (fun x => (in_path x, in_sch x)) xs) (start_state i heights) = Ok (false, s) /\
    vfollows n i data text (lenZ xs) (start_state i heights) s (processed i keep xs).
Proof.
  intros ((HB & FI & PM & PR) & G & F & (L1 & L2 & L3) & T).
  apply (paths_ok fs stdin n i ts te m rj keep data text HB FI PM PR xs (start_state i heights) G F); cbn [start_state v_cli st_recs st_samps st_files]; try lia.
  intros TI. destruct (T TI) as (k & T1 & T2). exists tl_init, k. split; [reflexivity|]. split; [exact T1|exact T2].
Qed.

Lemma output_of n i data text w heights s done tail s' : vfollows n i data text w (start_state i heights) s done ->
  v_text s' = v_text s ++ tail -> st_out (v_cli s') = st_out (v_cli s) -> v_bin s' = v_bin s -> v_traces s' = v_traces s ->
  (i_traces i = true -> exists k, traced n done heights k) -> output n i heights data text done tail s'.
Proof.
  intros [V1 V2 V3 V4 V5 V6 V7 V8 V9] E1 E2 E3 E4 T. unfold output. rewrite E1, E2, E3, E4, V7. split; [reflexivity|]. split; [exact V6|]. split; [exact V8|].
  intros TI. destruct (V9 TI) as (k & k' & K1 & K2 & K3 & K4). exists k'. split; [exact K2|]. destruct (T TI) as (k0 & T1 & _). split; [exact T1|].
  injection K1 as <-. exact K3.
Qed.

Lemma done_bounds fs stdin n i heights ts te m rj keep data text xs : good_run fs stdin n i heights ts te m rj keep data text xs ->
  0 <= lenZ (processed i keep xs) < 2 ^ 63 /\ 0 <= samples_in (processed i keep xs) < 2 ^ 63.
Proof.
  intros (_ & G & F & (L1 & L2 & L3) & _). unfold processed.
  assert (HC : Forall (fun px => 0 <= h_cnt (pt_hdr (snd px))) (all_records xs)).
  { clear -G. induction G as [|y ys Gy _ IH]; [constructor|]. cbn. rewrite Forall_app. split; [|exact IH].
    eapply Forall_impl; [|apply (contents_hdr i (n_mode n) (in_parts y)); apply Gy]. intros px Hp. unfold hdr_ok, in_u in Hp. lia. }
  split.
  - unfold lenZ in *. pose proof (first_n_length_le (i_count i) (filter (fun px => keep (snd px)) (all_records xs))).
    pose proof (CliProof.filter_length_le (fun px : Z * part => keep (snd px)) (all_records xs)). lia.
  - cut (0 <= samples_in (first_n (i_count i) (filter (fun px => keep (snd px)) (all_records xs))) <= samples_in (all_records xs)); [lia|].
    clear -HC. generalize (i_count i). induction HC as [|px l P HC IH]; intros z; [cbn [filter]; rewrite first_n_nil; cbn; lia|].
    cbn [filter]. destruct (keep (snd px)); [|specialize (IH z); cbn [samples_in fold_right]; unfold samples_in in *; lia].
    destruct (Z.eq_dec z 0) as [->|NZ].
    + rewrite first_n_zero. cbn [samples_in fold_right]. specialize (IH 0). rewrite first_n_zero in IH. unfold samples_in in *. cbn in *. lia.
    + rewrite first_n_cons by exact NZ. specialize (IH (if 0 <? z then z - 1 else z)). unfold samples_in in *. cbn [fold_right]. lia.
Qed.

Lemma run_good fs stdin n i heights ts te m rj keep data text xs : good_run fs stdin n i heights ts te m rj keep data text xs ->
  let done := processed i keep xs in
  exists s, main_run fs stdin n i heights (map (fun x => (in_path x, in_sch x)) xs) = Ok (0, s) /\
    output n i heights data text done (if i_sum i then totals (lenZ xs) (lenZ done) (samples_in done) else []) s.
Proof.
  intros G done. destruct (run_paths _ _ _ _ _ _ _ _ _ _ _ _ _ G) as (s & E & V). destruct (done_bounds _ _ _ _ _ _ _ _ _ _ _ _ _ G) as (B1 & B2).
  pose proof G as (_ & _ & _ & (L1 & L2 & L3) & T). unfold main_run. unfold start_state in E. rewrite E. cbn [bind]. eexists. split; [reflexivity|].
  apply (output_of n i data text (lenZ xs) heights s); try reflexivity; [exact V| |exact T]. cbn [v_text]. f_equal.
  destruct (i_sum i); [|reflexivity]. pose proof V as [_ _ V3 V4 V5 _ _ _ _]. rewrite V3, V4, V5. cbn [start_state v_cli st_recs st_samps st_files]. rewrite !Z.add_0_l.
  fold done. unfold totals. apply say_ok. pose proof (lenZ_nonneg xs).
  pose proof (dec_long (lenZ xs) ltac:(unfold in_s; change (2 ^ (64 - 1)) with (2 ^ 63); lia)).
  pose proof (dec_long (lenZ done) ltac:(unfold in_s; change (2 ^ (64 - 1)) with (2 ^ 63); unfold done; lia)).
  pose proof (dec_long (samples_in done) ltac:(unfold in_s; change (2 ^ (64 - 1)) with (2 ^ 63); unfold done; lia)).
  rewrite !app_length. cbn [length zs]. change (length (zs "Files: ")) with 7%nat. change (length (zs ", Records: ")) with 11%nat. change (length (zs ", Samples: ")) with 11%nat. lia.
Qed.

(** ** A path that stands for nothing *)
Lemma paths_app fs stdin n i : forall a b s, main_paths fs stdin n i (a ++ b) s =
  let! (stop, s) := main_paths fs stdin n i a s in if (stop : bool) then Ok (true, s) else main_paths fs stdin n i b s.
Proof.
  induction a as [|[p sch] a IH]; intros b s; [reflexivity|]. cbn [app main_paths]. destruct (main_path fs stdin n i sch p s) as [[rc s1]| | |]; try reflexivity. cbn [bind].
  destruct (_ && _); [reflexivity|]. destruct (sarith _ _ _); cbn [bind]; try reflexivity. apply IH.
Qed.

Lemma path_nothing fs stdin n i sch path s : nothing fs (main_flags i) path -> st_left (v_cli s) <> 0 -> main_path fs stdin n i sch path s = Ok (-1, s).
Proof.
  intros N L. unfold main_path. replace (st_left (v_cli s) =? 0) with false by lia.
  assert (ST : forall p, no_range (main_flags i) p -> lenZ p < 512 -> stored_path (main_flags i) p = Ok (p, 0, 0))
    by (intros p R L'; apply RangeProof.stored_unchanged; [exact L'|unfold no_range in R; tauto]).
  destruct N as [p R L' NE C E|name scheme R L' F E|p R L' C F]; rewrite ST by assumption; cbn [bind].
  - rewrite (match_minus _ _ _ NE), (local_plain _ C), E. reflexivity.
  - rewrite (match_minus _ _ _ (scheme_minus _ _ F)), (local_scheme _ _ F), E. reflexivity.
  - rewrite match_minus, (local_url _ C F); [reflexivity|]. intros ->. destruct C as (a & b & X). destruct a as [|? [|]]; discriminate.
Qed.

Lemma run_stop fs stdin n i heights ts te m rj keep data text xs path sch others : good_run fs stdin n i heights ts te m rj keep data text xs ->
  nothing fs (main_flags i) path -> let done := processed i keep xs in i_count i < 0 \/ lenZ done < i_count i ->
  exists s, main_run fs stdin n i heights (map (fun x => (in_path x, in_sch x)) xs ++ (path, sch) :: others) = Ok (1, s) /\
    output n i heights data text done [] s.
Proof.
  intros G N done C. destruct (run_paths _ _ _ _ _ _ _ _ _ _ _ _ _ G) as (s & E & V). pose proof G as (_ & _ & _ & _ & T).
  assert (st_left (v_cli s) <> 0) as L0.
  { rewrite (vf_left _ _ _ _ _ _ _ _ V). cbn [start_state v_cli st_left]. fold done. destruct (Z.ltb_spec (i_count i) 0); lia. }
  unfold main_run. rewrite paths_app. unfold start_state in E. rewrite E. cbn [bind main_paths]. rewrite (path_nothing _ _ _ _ _ _ _ N L0). cbn [bind].
  replace (st_left (v_cli s) =? 0) with false by lia. cbn [Z.eqb negb andb bind MS_ENDOFFILE]. eexists. split; [reflexivity|].
  apply (output_of n i data text (lenZ xs) heights s); try reflexivity; [exact V| |exact T]. rewrite app_nil_r. reflexivity.
Qed.

Lemma run_enough fs stdin n i heights ts te m rj keep data text xs path sch : good_run fs stdin n i heights ts te m rj keep data text xs ->
  let done := processed i keep xs in i_count i = lenZ done -> lenZ xs + 1 < 2 ^ 63 ->
  exists s, main_run fs stdin n i heights (map (fun x => (in_path x, in_sch x)) xs ++ [(path, sch)]) = Ok (0, s) /\
    output n i heights data text done (if i_sum i then totals (lenZ xs + 1) (lenZ done) (samples_in done) else []) s.
Proof.
  intros G done C LX. destruct (run_paths _ _ _ _ _ _ _ _ _ _ _ _ _ G) as (s & E & V). destruct (done_bounds _ _ _ _ _ _ _ _ _ _ _ _ _ G) as (B1 & B2).
  pose proof G as (_ & _ & _ & (L1 & L2 & L3) & T).
  assert (st_left (v_cli s) = 0) as L0.
  { rewrite (vf_left _ _ _ _ _ _ _ _ V). cbn [start_state v_cli st_left]. fold done. pose proof (lenZ_nonneg done). destruct (Z.ltb_spec (i_count i) 0); lia. }
  pose proof V as [_ _ V3 V4 V5 _ _ _ _]. cbn [start_state v_cli st_recs st_samps st_files] in V3, V4, V5. rewrite !Z.add_0_l in *. pose proof (lenZ_nonneg xs).
  unfold main_run. rewrite paths_app. unfold start_state in E. rewrite E. cbn [bind main_paths]. unfold main_path. rewrite L0. cbn [Z.eqb bind MS_NOERROR].
  rewrite L0. cbn [Z.eqb negb]. rewrite andb_false_r. rewrite sarith_ok by (unfold in_s; change (2 ^ (64 - 1)) with (2 ^ 63); lia). cbn [bind].
  eexists. split; [reflexivity|].
  apply (output_of n i data text (lenZ xs) heights s); try reflexivity; [exact V| |exact T]. cbn [v_text v_cli st_files st_recs st_samps]. f_equal.
  destruct (i_sum i); [|reflexivity]. rewrite V3, V4, V5. fold done. unfold totals. apply say_ok.
  pose proof (dec_long (lenZ xs + 1) ltac:(unfold in_s; change (2 ^ (64 - 1)) with (2 ^ 63); lia)).
  pose proof (dec_long (lenZ done) ltac:(unfold in_s; change (2 ^ (64 - 1)) with (2 ^ 63); unfold done; lia)).
  pose proof (dec_long (samples_in done) ltac:(unfold in_s; change (2 ^ (64 - 1)) with (2 ^ 63); unfold done; lia)).
  rewrite !app_length. cbn [length zs]. change (length (zs "Files: ")) with 7%nat. change (length (zs ", Records: ")) with 11%nat. change (length (zs ", Samples: ")) with 11%nat. lia.
Qed.

(** ** The copy made by -o *)
Definition again_data (n : menv) (x : part) : res samples := unpack_data false (n_mode n) 0 (layout3 (pt_hdr x)) (part_head x).
Definition again_text (n : menv) (i : mset) (px : Z * part) : list Z :=
  match show_record (n_mode n) (n_hz n) (n_g8 n) (n_g10 n) None None (i_details i) (i_data i)
    (type_of (h_enc (pt_hdr (snd px)))) (part_head (snd px)) (again_data n (snd px)) with Ok t => t | _ => [] end.

Lemma contents_parts : forall parts p, map snd (contents p parts) = parts.
Proof. induction parts as [|x parts IH]; intros p; [reflexivity|]. cbn. now rewrite IH. Qed.
Lemma file_bare : forall l, file_of (map bare l) [] = concat (map (fun x => layout3 (pt_hdr x)) l).
Proof. induction l as [|x l IH]; [reflexivity|]. cbn. now rewrite IH. Qed.
Lemma junk_bare : forall l, junk_ok (map bare l) [].
Proof.
  induction l as [|x l IH]; cbn [map junk_ok]; [|split; [|exact IH]]; unfold no_headers; cbn [bare pt_junk length]; intros k K; lia.
Qed.
Lemma first_n_all {A} z (l : list A) : z < 0 \/ lenZ l <= z -> first_n z l = l.
Proof. intros [C|C]; unfold first_n; destruct (Z.ltb_spec z 0); try lia; [reflexivity|reflexivity|]. apply firstn_all2. unfold lenZ in C. lia. Qed.
Lemma done_in i keep xs px : In px (processed i keep xs) -> keep (snd px) = true /\ In px (all_records xs).
Proof.
  unfold processed, first_n. intros I. assert (In px (filter (fun px => keep (snd px)) (all_records xs))) as J.
  { destruct (i_count i <? 0); [exact I|]. rewrite <- (firstn_skipn (Z.to_nat (i_count i)) (filter _ _)). apply in_or_app. now left. }
  apply filter_In in J. tauto.
Qed.
Lemma filter_all {A} (l : list A) : filter (fun _ => true) l = l.
Proof. induction l as [|a l IH]; [reflexivity|]. cbn. now rewrite IH. Qed.
Lemma map_through {A B C} (f : A -> C) (g : B -> C) (h : A -> B) (l : list A) (r : list B) :
  r = map h l -> (forall a, In a l -> g (h a) = f a) -> map g r = map f l.
Proof. intros -> H. rewrite map_map. apply map_ext_in. exact H. Qed.
Lemma part_of_all mode fs stdin flags xs px : Forall (good_input fs stdin mode flags) xs -> In px (all_records xs) -> ReadSpec.readable mode flags (snd px).
Proof.
  intros G I. unfold all_records in I. apply in_flat_map in I. destruct I as (x & X & I). rewrite Forall_forall in G. destruct (G x X) as (_ & _ & R & _).
  rewrite Forall_forall in R. apply R. rewrite <- (contents_parts (in_parts x) 0). now apply in_map.
Qed.

Lemma run_again fs stdin n i heights ts te m rj keep data text xs : good_run fs stdin n i heights ts te m rj keep data text xs ->
  let done := processed i keep xs in done <> [] -> i_offset i = false ->
  let copy := concat (map (fun px => layout3 (pt_hdr (snd px))) done) in lenZ copy < 2 ^ 63 ->
  forall fs' stdin' out sch, holds fs' stdin' (main_flags i) out copy -> delivers sch ->
  exists s', main_run fs' stdin' n i heights [(out, sch)] = Ok (0, s') /\
    output n i heights data text done (if i_sum i then totals 1 (lenZ done) (samples_in done) else []) s'.
Proof.
  intros G done NE OFF copy LC fs' stdin' out sch H D. destruct (done_bounds _ _ _ _ _ _ _ _ _ _ _ _ _ G) as (B1 & B2). fold done in B1, B2.
  pose proof G as (G1 & G2 & G3 & G4 & G5).
  set (x' := mk_input out sch (map bare (map snd done)) []).
  assert (AR : map snd (all_records [x']) = map (fun px => bare (snd px)) done).
  { unfold all_records. cbn [flat_map]. rewrite app_nil_r, contents_parts. unfold x'. cbn [in_parts]. now rewrite map_map. }
  assert (CNT : i_count i < 0 \/ lenZ done <= i_count i).
  { destruct (Z.ltb_spec (i_count i) 0); [now left|right]. unfold done, processed, lenZ. rewrite first_n_length by assumption. lia. }
  assert (LA : lenZ (all_records [x']) = lenZ done).
  { unfold lenZ. rewrite <- (map_length snd (all_records [x'])), AR, map_length. reflexivity. }
  assert (PR : processed i (fun _ => true) [x'] = all_records [x']).
  { unfold processed. rewrite filter_all. apply first_n_all. now rewrite LA. }
  assert (IN : forall px, In px (all_records [x']) -> exists px0, In px0 done /\ snd px = bare (snd px0)).
  { intros px I. apply (in_map snd) in I. rewrite AR in I. apply in_map_iff in I. destruct I as (px0 & E & I). exists px0. split; [exact I|now symmetry]. }
  assert (FACT : forall px, In px done -> record_facts n i ts te m rj keep data text px /\ keep (snd px) = true /\ ReadSpec.readable (n_mode n) (main_flags i) (snd px)).
  { intros px I. destruct (done_in _ _ _ _ I) as (K & I'). split; [rewrite Forall_forall in G3; now apply G3|]. split; [exact K|]. eapply part_of_all; eauto. }
  assert (DATA : forall px, In px done -> again_data n (bare (snd px)) = data (snd px)).
  { intros px I. destruct (FACT _ I) as ((_ & (HS & _) & _) & _). rewrite <- (HS 0). reflexivity. }
  assert (TEXT : forall px px0, In px0 done -> snd px = bare (snd px0) -> again_text n i px = text px0).
  { intros px px0 I E. destruct (FACT _ I) as ((_ & _ & TX) & K & _). specialize (TX K). unfold text_is in TX. rewrite OFF in TX.
    unfold again_text. rewrite E, (DATA _ I). cbn [bare pt_hdr]. change (part_head (bare (snd px0))) with (part_head (snd px0)). now rewrite TX. }
  assert (GR : good_run fs' stdin' n i heights ts te m rj (fun _ => true) (again_data n) (again_text n i) [x']).
  { split; [exact G1|]. split; [|split; [|split]].
    - constructor; [|constructor]. unfold good_input, x'. cbn [in_path in_sch in_parts in_rest]. rewrite file_bare, map_map. fold copy.
      split; [exact H|]. split; [exact D|]. split; [|split; [constructor|split; [apply junk_bare|]]].
      + rewrite map_map, Forall_map, Forall_forall. intros px I. destruct (FACT _ I) as (_ & _ & R). unfold ReadSpec.readable in *. cbn [bare pt_junk pt_hdr pt_time pt_data].
        destruct R as (_ & R). split; [constructor|exact R].
      + split; [right; split; [|cbn; lia]|split; [exact LC|]].
        * rewrite Forall_map, Forall_forall. intros px I. reflexivity.
        * destruct done; [congruence|discriminate].
    - rewrite Forall_forall. intros px I. destruct (IN _ I) as (px0 & I0 & E). destruct (FACT _ I0) as ((FE & FD & FT) & K & _).
      unfold record_facts. split; [|split].
      + destruct FE as (e & E1 & E2 & E3). exists e. rewrite E. cbn [bare pt_time pt_hdr]. split; [exact E1|]. split; [exact E2|].
        split; [intros _|reflexivity]. now apply E3.
      + rewrite E, (DATA _ I0). exact FD.
      + intros _. rewrite (TEXT px px0 I0 E), E, (DATA _ I0). specialize (FT K). unfold text_is in *. rewrite OFF in *. rewrite E. exact FT.
    - rewrite LA. split; [lia|]. split; [|cbn; lia]. replace (samples_in (all_records [x'])) with (samples_in done); [lia|].
      clear - AR. revert AR. generalize (all_records [x']). intros l. revert l. generalize done. clear. induction done as [|a d IH]; intros [|b l] E; try discriminate; [reflexivity|].
      injection E as E1 E2. unfold samples_in in *. cbn [fold_right]. rewrite E1, (IH l E2). reflexivity.
    - intros TI. destruct (G5 TI) as (k & T1 & T2). fold done in T1, T2. exists k. rewrite PR. split; [unfold lenZ in LA; lia|].
      rewrite <- T2. do 2 f_equal. rewrite <- (map_map snd (fun x => trec_of (part_head x)) (all_records [x'])), AR, map_map. reflexivity. }
  destruct (run_good _ _ _ _ _ _ _ _ _ _ _ _ _ GR) as (s & E & O1 & O2 & O3 & O4). rewrite PR in *.
  assert (MS : forall (B : Type) (f : part -> B), map (fun px => f (snd px)) (all_records [x']) = map (fun px => f (bare (snd px))) done)
    by (intros B f; rewrite <- (map_map snd f), AR, map_map; reflexivity).
  assert (SI : samples_in (all_records [x']) = samples_in done).
  { revert AR. generalize (all_records [x']). generalize done. clear. induction done as [|a d IH]; intros [|b l] E; try discriminate; [reflexivity|].
    injection E as E1 E2. unfold samples_in in *. cbn [fold_right]. rewrite E1, (IH l E2). reflexivity. }
  exists s. split; [exact E|]. unfold output. split; [|split; [|split]].
  - rewrite O1, LA, SI. f_equal. destruct (i_only i); [reflexivity|]. f_equal.
    revert AR TEXT. generalize (all_records [x']). generalize done. clear. induction done as [|a d IH]; intros [|b l] E T; try discriminate; [reflexivity|].
    injection E as E1 E2. cbn [map]. f_equal; [apply T; [now left|exact E1]|]. apply IH; [exact E2|]. intros px px0 I0. apply T. now right.
  - rewrite O2, (MS _ (fun x => layout3 (pt_hdr x))). reflexivity.
  - rewrite O3. destruct (i_bin i); [|reflexivity]. f_equal. rewrite (MS _ (fun x => binary x (again_data n x))). apply map_ext_in. intros px I.
    rewrite (DATA _ I). reflexivity.
  - intros TI. destruct (O4 TI) as (k & K1 & K2 & K3). exists k. split; [exact K1|]. split; [unfold lenZ in LA; lia|]. rewrite <- K3. do 2 f_equal.
    rewrite (MS _ (fun x => trec_of (part_head x))). reflexivity.
Qed.
