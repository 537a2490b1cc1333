(** * Parsing a laid out version 2 record: the fixed header, the chain and the result. *)

From Coq Require Import String QArith.
From Verif Require Import Base BaseLemmas TimeModel TimeSpec TimeProof StrModel StrSpec StrProof RecModel RecSpec RecProof
  CodecModel CodecProof ConvModel ConvSpec ConvProof V2Model V2Spec V2Proof V2Total V2RecSpec V2RecProof V2Rate.
Open Scope Z_scope.

(** ** What the chain leaves behind *)

Lemma last_some {A} (f : blk -> option A) b g bs : last_of f ((b, g) :: bs) = match last_of f bs with Some x => Some x | None => f b end.
Proof. reflexivity. Qed.

Lemma run_rate bs : forall k st, s_rate (run k bs st) =
  match last_of (fun b => match b with B100 w _ => Some w | _ => None end) bs with Some w => float_to_double w | None => s_rate st end.
Proof.
  induction bs as [|[b g] bs IH]; intros k st; cbn [run last_of]; [reflexivity|]. rewrite IH.
  destruct (last_of _ bs); [reflexivity|]. destruct b; try reflexivity. cbn [after chain_ops visited s_ops s_extra].
  destruct (s_ops st); reflexivity.
Qed.

Lemma run_reclen bs : forall k st, s_reclen (run k bs st) =
  or_else (last_of (fun b => match b with B1000 _ _ e _ => Some (2 ^ e) | _ => None end) bs) (s_reclen st).
Proof.
  induction bs as [|[b g] bs IH]; intros k st; cbn [run last_of]; [reflexivity|]. rewrite IH.
  destruct (last_of _ bs); [reflexivity|]. destruct b; try reflexivity. cbn [after chain_ops visited s_ops s_extra].
  destruct (s_ops st); reflexivity.
Qed.

Lemma run_enc bs : forall k st, s_enc (run k bs st) =
  or_else (last_of (fun b => match b with B1000 enc _ _ _ => Some enc | _ => None end) bs) (s_enc st).
Proof.
  induction bs as [|[b g] bs IH]; intros k st; cbn [run last_of]; [reflexivity|]. rewrite IH.
  destruct (last_of _ bs); [reflexivity|]. destruct b; try reflexivity. cbn [after chain_ops visited s_ops s_extra].
  destruct (s_ops st); reflexivity.
Qed.

Lemma run_ops bs : forall k st, (s_extra (run k bs st), s_ops (run k bs st)) = chain_ops (s_extra st) (s_ops st) bs.
Proof.
  induction bs as [|[b g] bs IH]; intros k st; cbn [run chain_ops]; [reflexivity|]. rewrite IH.
  destruct b; try reflexivity; cbn [after visited s_extra s_ops blk_ops]; rewrite ?app_nil_r; try reflexivity.
  cbn [chain_ops]. destruct (s_ops st); reflexivity.
Qed.

Lemma run_b1000 big bs : forall pre post st, 0 < lenZ pre -> chain_ok bs ->
  match last_of (fun b => match b with B1000 _ o _ _ => Some (negb (o =? 0)) | _ => None end) bs with
  | None => s_b1000 (run (lenZ pre) bs st) = s_b1000 st
  | Some x => 0 < s_b1000 (run (lenZ pre) bs st) /\ exists o, x = negb (o =? 0) /\ 0 <= o /\
      getZ (s_b1000 (run (lenZ pre) bs st) + 5) (pre ++ chain_bytes big (lenZ pre) bs ++ post) = Ok o
  end.
Proof.
  induction bs as [|[b g] bs IH]; intros pre post st L C; cbn [run last_of chain_bytes]; [reflexivity|].
  apply Forall_cons_iff in C. destruct C as [[B G] C]. cbn [fst snd] in *. set (next := lenZ pre + blk_size b + lenZ g).
  set (link := match bs with [] => 0 | _ => next end).
  specialize (IH (pre ++ ord big 2 (blk_type b) ++ ord big 2 link ++ blk_body big b ++ g) post (after b (lenZ pre) (visited (lenZ pre + liblen b) st))).
  assert (N : lenZ (pre ++ ord big 2 (blk_type b) ++ ord big 2 link ++ blk_body big b ++ g) = next).
  { rewrite !lenZ_app, !lenZ_ord, body_len. unfold next, blk_size. lia. }
  rewrite N in IH. rewrite <- !app_assoc in IH. rewrite <- !app_assoc.
  destruct (blktlen_ok false false [] 0 0 b [] B) as (_ & _ & L6). pose proof (lenZ_nonneg g).
  assert (0 < next) by (unfold next; lia). specialize (IH ltac:(assumption) C).
  destruct (last_of _ bs) as [x|]; [exact IH|]. rewrite IH.
  destruct b; try reflexivity.
  - cbn [after s_b1000]. split; [lia|]. exists order. split; [reflexivity|]. split.
    + destruct B as [B _]. cbn [blk_body] in B. apply Forall_cons_iff in B. destruct B as [_ B]. apply Forall_cons_iff in B. destruct B as [B _].
      unfold byte_ok in B. lia.
    + cbn [blk_body]. cbn [app]. get.
  - cbn [after chain_ops visited s_ops s_extra]. destruct (s_ops st); reflexivity.
Qed.

Lemma run_b1001 big bs : forall pre post st, 0 < lenZ pre -> chain_ok bs ->
  match last_of (fun b => match b with B1001 _ us _ _ => Some (us * 1000) | _ => None end) bs with
  | None => s_b1001 (run (lenZ pre) bs st) = s_b1001 st
  | Some x => 0 < s_b1001 (run (lenZ pre) bs st) /\ exists us, x = us * 1000 /\ in_s 8 us /\
      getZ (s_b1001 (run (lenZ pre) bs st) + 5) (pre ++ chain_bytes big (lenZ pre) bs ++ post) = Ok (us mod 256)
  end.
Proof.
  induction bs as [|[b g] bs IH]; intros pre post st L C; cbn [run last_of chain_bytes]; [reflexivity|].
  apply Forall_cons_iff in C. destruct C as [[B G] C]. cbn [fst snd] in *. set (next := lenZ pre + blk_size b + lenZ g).
  set (link := match bs with [] => 0 | _ => next end).
  specialize (IH (pre ++ ord big 2 (blk_type b) ++ ord big 2 link ++ blk_body big b ++ g) post (after b (lenZ pre) (visited (lenZ pre + liblen b) st))).
  assert (N : lenZ (pre ++ ord big 2 (blk_type b) ++ ord big 2 link ++ blk_body big b ++ g) = next).
  { rewrite !lenZ_app, !lenZ_ord, body_len. unfold next, blk_size. lia. }
  rewrite N in IH. rewrite <- !app_assoc in IH. rewrite <- !app_assoc.
  destruct (blktlen_ok false false [] 0 0 b [] B) as (_ & _ & L6). pose proof (lenZ_nonneg g).
  assert (0 < next) by (unfold next; lia). specialize (IH ltac:(assumption) C).
  destruct (last_of _ bs) as [x|]; [exact IH|]. rewrite IH.
  destruct b; try reflexivity.
  cbn [after]. destruct (chain_ops _ _ _) as [x p]. cbn [s_b1001]. split; [lia|]. exists us. split; [reflexivity|]. split.
  - destruct B as [_ B]. exact B.
  - cbn [blk_body]. cbn [app]. get.
Qed.

(** ** The fixed header *)

Lemma all_at_true base buf tests : Forall (fun p => exists b, getZ (base + fst p) buf = Ok b /\ snd p b = true) tests ->
  all_at tests base buf = Ok true.
Proof.
  induction 1 as [|[off t] tests (b & E & T) H IH]; cbn [all_at]; [reflexivity|]. cbn [fst snd] in *. rewrite E. cbn [bind]. now rewrite T.
Qed.

Lemma rd_native hb big k v c : k = 0 -> 0 <= v < 65536 ->
  rd hb false 2 k (ord big 2 v ++ c) = Ok (if Bool.eqb hb big then v else exchanged v).
Proof.
  intros -> H. unfold rd. rewrite slice_hit by (try reflexivity; now rewrite lenZ_ord). cbn [bind]. f_equal.
  unfold ld, gswap_if, host_val, ord, be_val, be_bytes, exchanged.
  destruct hb, big; cbn [Bool.eqb le_bytes rev app le_val]; lia.
Qed.

Lemma seq_char_ok c : digit_or_blank c -> seq_char c = true.
Proof. unfold digit_or_blank, seq_char. lia. Qed.

Lemma explode {A} (l : list A) n : lenZ l = Z.of_nat n -> length l = n.
Proof. unfold lenZ. lia. Qed.

Section Header.
  Variables (h : hdr2) (big : bool) (first : Z) (tl : list Z).
  Hypotheses (K : hdr2_ok h).
  Let rec := fixed2 big h first ++ tl.

  Lemma year_day : 0 <= d_year (day_at (b_day (f_start h))) < 65536 /\ 0 <= d_yday (day_at (b_day (f_start h))) < 65536.
  Proof.
    destruct K as (_ & _ & _ & _ & _ & _ & _ & _ & (Y & _) & _). destruct (day_bounds _ Y) as (B & _ & _).
    assert (L : year_len (d_year (day_at (b_day (f_start h)))) <= 366) by (unfold year_len; destruct (gleap _); lia). lia.
  Qed.

  Lemma header_reads hb :
    valid2_at 0 rec = Ok true
    /\ rd hb false 2 20 rec = Ok (let y := d_year (day_at (b_day (f_start h))) in if Bool.eqb hb big then y else exchanged y)
    /\ rd hb false 2 22 rec = Ok (let y := d_yday (day_at (b_day (f_start h))) in if Bool.eqb hb big then y else exchanged y)
    /\ (tl <> [] -> bytes_ok tl -> recordsid rec (repeat 0 64) 64 =
          Ok (sid2 h ++ 0 :: skipn (S (length (sid2 h))) (repeat 0 64), lenZ (sid2 h)))
    /\ rd hb (other hb big) 2 32 rec = Ok (f_fact h mod 2 ^ (8 * 2))
    /\ rd hb (other hb big) 2 34 rec = Ok (f_mult h mod 2 ^ (8 * 2))
    /\ rd hb (other hb big) 2 30 rec = Ok (f_cnt h mod 2 ^ (8 * 2))
    /\ getZ 6 rec = Ok (f_quality h) /\ getZ 36 rec = Ok (f_act h) /\ getZ 37 rec = Ok (f_io h) /\ getZ 38 rec = Ok (f_dq h)
    /\ rd hb (other hb big) 4 40 rec = Ok (f_corr h mod 2 ^ (8 * 4))
    /\ rd hb (other hb big) 2 46 rec = Ok (first mod 2 ^ (8 * 2))
    /\ rd hb (other hb big) 2 44 rec = Ok (f_data h mod 2 ^ (8 * 2))
    /\ (forall mode, btime_or_fail hb (other hb big) mode 20 rec = Ok (btime_ns (f_start h))).
  Proof.
    destruct year_day as [Y D]. unfold rec, sid2. clear rec.
    destruct K as (Ls & Ss & Q & Rr & Lt & Ll & Ln & T & B & Cn & Fa & Mu & Ac & Io & Dq & Nb & Co & Da). 
    destruct h as [seq q r sta loc [[a b] c] net start cnt fact mult act io dq nblk corr data]. cbn [f_seq f_quality f_reserved f_sta f_loc f_chan f_net f_start f_cnt f_fact
      f_mult f_act f_io f_dq f_nblk f_corr f_data] in *. unfold fixed2.
    cbn [f_seq f_quality f_reserved f_sta f_loc f_chan f_net f_start f_cnt f_fact f_mult f_act f_io f_dq f_nblk f_corr f_data].
    rewrite <- ?app_assoc. cbn [app].
    pose proof B as (BY & BH & BM & BS & BU & BF & _).
    assert (G24 : forall X, getZ (0 + 24) (seq ++ q :: r :: sta ++ loc ++ a :: b :: c :: net ++ btime_bytes big start ++ X) = Ok (b_hour start)).
    { intros X. unfold btime_bytes. rewrite <- ?app_assoc. cbn [app]. get. }
    assert (G25 : forall X, getZ (0 + 25) (seq ++ q :: r :: sta ++ loc ++ a :: b :: c :: net ++ btime_bytes big start ++ X) = Ok (b_min start)).
    { intros X. unfold btime_bytes. rewrite <- ?app_assoc. cbn [app]. get. }
    assert (G26 : forall X, getZ (0 + 26) (seq ++ q :: r :: sta ++ loc ++ a :: b :: c :: net ++ btime_bytes big start ++ X) = Ok (b_sec start)).
    { intros X. unfold btime_bytes. rewrite <- ?app_assoc. cbn [app]. get. }
    repeat match goal with |- _ /\ _ => split end; try solve [get|rdr].
    - apply all_at_true. repeat (apply Forall_cons; [cbn [fst snd]|]); try apply Forall_nil.
      1,2,3,4,5,6: destruct seq as [|s0 [|s1 [|s2 [|s3 [|s4 [|s5 [|]]]]]]]; try discriminate Ls;
        repeat (apply Forall_cons_iff in Ss; destruct Ss as [? Ss]);
        eexists; (split; [reflexivity|now apply seq_char_ok]).
      + eexists. split; [get|]. cbn [In] in Q. lia.
      + eexists. split; [get|]. lia.
      + eexists. split; [apply G24|lia].
      + eexists. split; [apply G25|lia].
      + eexists. split; [apply G26|lia].
    - unfold btime_bytes. rewrite <- ?app_assoc. cbn [app].
      repeat first [apply rd_native; [sides|exact Y] | rewrite rd_skip1 by sides | rewrite rd_skip by sides].
    - unfold btime_bytes. rewrite <- ?app_assoc. cbn [app].
      repeat first [apply rd_native; [sides|exact D] | rewrite rd_skip1 by sides | rewrite rd_skip by sides].
    - intros Tn Tb.
      pose proof (recordsid_ok (seq ++ [q; r]) sta loc [a; b; c] net (btime_bytes big start ++ ord big 2 cnt ++ ord big 2 fact ++
        ord big 2 mult ++ act :: io :: dq :: nblk :: ord big 4 corr ++ ord big 2 data ++ ord big 2 first ++ tl) (repeat 0 64) 64 a b c) as E.
      cbv zeta in E. rewrite <- ?app_assoc in E. cbn [app] in E. unfold lenZ. apply E; clear E.
      + rewrite app_length. unfold lenZ in Ls. cbn [length]. lia.
      + now apply explode.
      + now apply explode.
      + reflexivity.
      + now apply explode.
      + unfold btime_bytes. intros E. apply (f_equal (@lenZ Z)) in E. revert E. lens. pose proof (lenZ_nonneg tl). lia.
      + exact T.
      + assert (byte_ok act /\ byte_ok io /\ byte_ok dq /\ byte_ok nblk) as (? & ? & ? & ?) by (unfold in_u, byte_ok in *; lia). bok.
      + rewrite repeat_length. lia.
    - intros mode. btm.
  Qed.
End Header.

(** ** The whole record *)

Lemma lenZ_fixed big h first : hdr2_ok h -> lenZ (fixed2 big h first) = 48.
Proof.
  intros (Ls & _ & _ & _ & Lt & Ll & Ln & _). unfold fixed2. destruct (f_chan h) as [[a b] c]. lens. lia.
Qed.

Lemma fixed_ok big h first : hdr2_ok h -> bytes_ok (fixed2 big h first).
Proof.
  intros (Ls & Ss & Q & Rr & Lt & Ll & Ln & T & B & Cn & Fa & Mu & Ac & Io & Dq & Nb & Co & Da). unfold fixed2.
  apply Forall_app in T. destruct T as [T1 T]. apply Forall_app in T. destruct T as [T2 T]. apply Forall_app in T. destruct T as [T3 T4].
  assert (AB : forall s, Forall (fun c => 1 <= c <= 127) s -> bytes_ok s).
  { intros s H. eapply Forall_impl; [|exact H]. unfold byte_ok. cbn. lia. }
  assert (bytes_ok (f_seq h)). { eapply Forall_impl; [|exact Ss]. unfold digit_or_blank, byte_ok. cbn. lia. }
  pose proof (AB _ T1). pose proof (AB _ T2). pose proof (AB _ T3). pose proof (AB _ T4). destruct (f_chan h) as [[a b] c].
  assert (byte_ok (f_act h) /\ byte_ok (f_io h) /\ byte_ok (f_dq h) /\ byte_ok (f_nblk h) /\ byte_ok (f_quality h) /\ byte_ok (f_reserved h))
    as (? & ? & ? & ? & ? & ?) by (unfold in_u, byte_ok in *; cbn [In] in Q; lia). bok.
Qed.

Lemma swrap_back n w v : 0 < w -> w = 8 * n -> in_s w v -> swrap w (v mod 2 ^ (8 * n)) = v.
Proof.
  intros W -> I. unfold in_s in I. unfold swrap. rewrite Z.mod_mod by (apply Z.pow_nonzero; lia).
  assert (P : 2 ^ (8 * n) = 2 * 2 ^ (8 * n - 1)) by (rewrite <- Z.pow_succ_r by lia; f_equal; lia).
  set (p := 2 ^ (8 * n - 1)) in *. rewrite P. destruct (Z.lt_ge_cases v 0).
  - replace (v mod (2 * p)) with (v + 2 * p) by (apply Z.mod_unique with (-1); lia). destruct (Z.ltb_spec (v + 2 * p) p); lia.
  - rewrite Z.mod_small by lia. destruct (Z.ltb_spec v p); lia.
Qed.

Lemma order_is hb big h : hdr2_ok h -> order_seen hb big h ->
  negb ((1900 <=? (let y := d_year (day_at (b_day (f_start h))) in if Bool.eqb hb big then y else exchanged y))
        && ((let y := d_year (day_at (b_day (f_start h))) in if Bool.eqb hb big then y else exchanged y) <=? 2100)
        && (1 <=? (let y := d_yday (day_at (b_day (f_start h))) in if Bool.eqb hb big then y else exchanged y))
        && ((let y := d_yday (day_at (b_day (f_start h))) in if Bool.eqb hb big then y else exchanged y) <=? 366)) = other hb big.
Proof.
  intros K. unfold order_seen, other, plausible. cbv zeta. destruct (Bool.eqb hb big); intros H; lia.
Qed.

Lemma header_ops_is h : header_ops (f_act h) (f_io h) (f_dq h) (f_corr h) = flag_ops h.
Proof.
  unfold header_ops, flag_ops, op_if. cbn [concat]. rewrite !bit_testbit by lia. rewrite app_nil_r. reflexivity.
Qed.

Lemma flags2_is a i d : flags2 a i d = (if bit a 0 then 1 else 0) + (if bit d 7 then 2 else 0) + (if bit i 5 then 4 else 0).
Proof.
  unfold flags2. rewrite !bit_testbit by lia. destruct (Z.testbit a 0), (Z.testbit d 7), (Z.testbit i 5); reflexivity.
Qed.

Lemma version_is q : In q [68; 82; 81; 77] -> pubversion2 q = version_of q.
Proof. cbn [In]. intros [<-|[<-|[<-|[<-|[]]]]]; reflexivity. Qed.

Lemma chain_count big bs : forall k, Z.of_nat (length bs) <= lenZ (chain_bytes big k bs).
Proof.
  induction bs as [|[b g] bs IH]; intros k; cbn [chain_bytes length]; [unfold lenZ; cbn; lia|].
  specialize (IH (k + blk_size b + lenZ g)). lens. pose proof (lenZ_nonneg (blk_body big b)). pose proof (lenZ_nonneg g). lia.
Qed.

Lemma sid2_text h : hdr2_ok h -> Forall (fun c => 1 <= c <= 127) (sid2 h).
Proof.
  intros (_ & _ & _ & _ & _ & _ & _ & T & _). unfold sid2. destruct (f_chan h) as [[a b] c].
  apply Forall_app in T. destruct T as [T1 T]. apply Forall_app in T. destruct T as [T2 T]. apply Forall_app in T. destruct T as [T3 T4].
  assert (NS : forall l, Forall (fun c => 1 <= c <= 127) l -> Forall (fun c => 1 <= c <= 127) (no_spaces l)).
  { intros l H. unfold no_spaces. apply Forall_forall. intros x Hx. apply filter_In in Hx. rewrite Forall_forall in H. now apply H. }
  apply NS in T1, T2, T4. repeat match goal with H : Forall _ (_ :: _) |- _ => apply Forall_cons_iff in H; destruct H end.
  unfold sid_text. repeat first [assumption | apply Forall_nil | apply Forall_cons; [lia|] | apply Forall_app; split].
Qed.

Lemma unpack_layout J hb big mode addr flags h lead bs rest more :
  headers_accepted J -> hdr2_ok h -> chain_ok bs -> bytes_ok lead -> bytes_ok rest -> bytes_ok more -> 0 < lenZ rest + lenZ more ->
  order_seen hb big h -> let rec := layout2 big h lead bs rest in 64 <= lenZ rec <= MAXRECLEN ->
  48 + lenZ lead + lenZ (chain_bytes big (48 + lenZ lead) bs) < 65536 ->
  exists rate, rate_ok h bs rate /\
  unpack2 J hb mode addr flags (rec ++ more) (lenZ rec) =
  let m := rec2_of J hb big h bs (lenZ rec) rate in
  if has_flag flags MSF_UNPACKDATA && (0 <? f_cnt h) then bind (unpack_data hb mode addr (rec ++ more) m) (fun d => Ok (with_samples m d)) else Ok m.
Proof.
  intros HJ K C Bl Br Bm Lp O rec L S.
  set (first := match bs with [] => 0 | _ => 48 + lenZ lead end).
  set (chain := chain_bytes big (48 + lenZ lead) bs) in *.
  assert (RE : rec ++ more = fixed2 big h first ++ (lead ++ chain ++ rest ++ more)) by (unfold rec, layout2; rewrite <- !app_assoc; reflexivity).
  assert (LR : lenZ rec = 48 + lenZ lead + lenZ chain + lenZ rest).
  { unfold rec, layout2. rewrite !lenZ_app, lenZ_fixed by exact K. fold chain. lia. }
  pose proof (lenZ_nonneg rest). pose proof (lenZ_nonneg more). pose proof (lenZ_nonneg lead). pose proof (lenZ_nonneg chain).
  destruct (header_reads h big first (lead ++ chain ++ rest ++ more) K hb) as
    (V & Y & D & Sd & Fa & Mu & Cn & Qu & Ac & Io & Dq & Co & Fi & Da & Bt).
  rewrite RE. set (mem := fixed2 big h first ++ lead ++ chain ++ rest ++ more) in *.
  assert (CO : bytes_ok chain) by (apply chain_bytes_ok; exact C).
  specialize (Sd ltac:(intros E; apply (f_equal (@lenZ Z)) in E; rewrite !lenZ_app, (@lenZ_nil Z) in E; lia) ltac:(bok)).
  pose proof (order_is hb big h K O) as OI.
  pose proof K as (_ & _ & Q & _ & _ & _ & _ & _ & B & Ic & If & Im & Ia & Ii & Id & _ & Ico & Ida).
  pose proof (btime_range _ B) as BR.
  unfold unpack2. replace ((lenZ rec <? 64) || (MAXRECLEN <? lenZ rec)) with false by lia.
  rewrite V. cbn [bind negb]. rewrite Y. cbn [bind]. rewrite D. cbn [bind]. cbv zeta in OI |- *. rewrite OI, Sd. cbn [bind].
  rewrite Fa. cbn [bind]. rewrite Mu. cbn [bind]. rewrite Cn. cbn [bind]. rewrite Qu. cbn [bind]. rewrite Ac. cbn [bind].
  rewrite Io. cbn [bind]. rewrite Dq. cbn [bind]. rewrite Co. cbn [bind]. rewrite Fi. cbn [bind].
  rewrite (swrap_back 4 32) by (try lia; exact Ico). rewrite (swrap_back 2 16 (f_fact h)) by (try lia; exact If).
  rewrite (swrap_back 2 16 (f_mult h)) by (try lia; exact Im).
  rewrite (Z.mod_small (f_cnt h)) by (unfold in_u in Ic; lia). rewrite (Z.mod_small first) by (unfold first; destruct bs; lia).
  rewrite header_ops_is.
  set (rate0 := dbits (nomsamprate (f_fact h) (f_mult h))).
  set (st0 := mk_v2st rate0 (lenZ rec) (-1) 0 0 0 0 None (flag_ops h)).
  set (pre := fixed2 big h first ++ lead).
  assert (LPr : lenZ pre = 48 + lenZ lead) by (unfold pre; rewrite lenZ_app, lenZ_fixed by exact K; reflexivity).
  assert (ME : mem = pre ++ chain_bytes big (lenZ pre) bs ++ (rest ++ more)) by (rewrite LPr; unfold mem, pre, chain; rewrite <- !app_assoc; reflexivity).
  assert (CR : blockettes (Datatypes.S (Z.to_nat (lenZ rec))) J hb (other hb big) mode mem (lenZ rec) first st0 = Ok (run (lenZ pre) bs st0)).
  { rewrite ME. replace first with (match bs with [] => 0 | _ => lenZ pre end) by (unfold first; rewrite LPr; reflexivity).
    apply chain_run; try assumption.
    - bok.
    - rewrite lenZ_app. lia.
    - lia.
    - pose proof (chain_count big bs (48 + lenZ lead)). fold chain in H3. lia.
    - rewrite LPr. fold chain. lia.
    - rewrite LPr. fold chain. lia. }
  rewrite CR. cbn [bind]. rewrite Bt. cbn [bind].
  set (st := run (lenZ pre) bs st0).
  match goal with |- context [bind (if negb (f_corr h =? 0) && _ then ?a else ?b) _] =>
    replace (if negb (f_corr h =? 0) && negb (Z.testbit (f_act h) 1) then a else b)
       with (@Ok Z (btime_ns (f_start h) + (if bit (f_act h) 1 then 0 else f_corr h * 100000))) end.
  2:{ rewrite bit_testbit by lia. unfold in_s in Ico. change (2 ^ (32 - 1)) with 2147483648 in Ico. destruct (Z.testbit (f_act h) 1); cbn [negb].
      - rewrite andb_false_r. f_equal. lia.
      - rewrite andb_true_r. destruct (Z.eqb_spec (f_corr h) 0) as [->|N]; cbn [negb]; [f_equal; lia|]. symmetry. apply sarith_ok, in_s64. lia. }
  cbn [bind].
  assert (US : (if negb (s_b1001 st =? 0) then bind (getZ (s_b1001 st + 5) mem) (fun us => sarith mode 64
      (btime_ns (f_start h) + (if bit (f_act h) 1 then 0 else f_corr h * 100000) + swrap 8 us * 1000))
      else Ok (btime_ns (f_start h) + (if bit (f_act h) 1 then 0 else f_corr h * 100000))) = Ok (start2 h bs)).
  { pose proof (run_b1001 big bs pre (rest ++ more) st0 ltac:(lia) C) as R1. rewrite <- ME in R1. fold st in R1.
    unfold start2. unfold in_s in Ico. change (2 ^ (32 - 1)) with 2147483648 in Ico. destruct (last_of _ bs) as [x|]; cbn [or_else].
    - destruct R1 as (P & us & -> & U & G). replace (s_b1001 st =? 0) with false by lia. cbn [negb]. rewrite G. cbn [bind].
      change 256 with (2 ^ (8 * 1)). rewrite (swrap_back 1 8) by (try lia; exact U). unfold in_s in U. change (2 ^ (8 - 1)) with 128 in U.
      apply sarith_ok, in_s64. destruct (bit (f_act h) 1); lia.
    - rewrite R1. cbn [s_b1001 st0 Z.eqb negb]. f_equal. lia. }
  rewrite US. cbn [bind]. rewrite Da. cbn [bind]. rewrite (Z.mod_small (f_data h)) by (unfold in_u in Ida; lia).
  assert (SP : (if negb (s_b1000 st =? 0) then bind (getZ (s_b1000 st + 5) mem) (fun bo => Ok (if hb then bo =? 0 else 0 <? bo)) else Ok (other hb big))
     = Ok (negb (Bool.eqb hb (or_else (last_of (fun b => match b with B1000 _ o _ _ => Some (negb (o =? 0)) | _ => None end) bs) big)))).
  { pose proof (run_b1000 big bs pre (rest ++ more) st0 ltac:(lia) C) as R1. rewrite <- ME in R1. fold st in R1.
    destruct (last_of _ bs) as [x|]; cbn [or_else].
    - destruct R1 as (P & o & -> & U & G). replace (s_b1000 st =? 0) with false by lia. cbn [negb]. rewrite G. cbn [bind]. f_equal.
      destruct hb, (Z.eqb_spec o 0); cbn; lia.
    - rewrite R1. reflexivity. }
  rewrite SP. cbn [bind]. rewrite until0_stop by (apply sid2_text; exact K).
  exists (s_rate st). split.
  { unfold rate_ok, st. rewrite run_rate.
    destruct (last_of (fun b => match b with B100 w _ => Some w | _ => None end) bs) as [w|] eqn:E.
    - apply float_double. clear - E C. induction bs as [|[b g] bs IH]; cbn [last_of] in E; [discriminate|].
      apply Forall_cons_iff in C. destruct C as [[[_ B] _] C]. cbn [fst] in B. destruct (last_of _ bs) as [w'|]; [apply IH; [exact C|exact E]|].
      destruct b; try discriminate. injection E as ->. destruct B as [B _]. exact B.
    - cbn [st0 s_rate]. apply nominal_bits; assumption. }
  cbv zeta. unfold rec2_of.
  assert (EX : (match s_ops st with [] => match s_extra st with Some x => x | None => [] end | ops => j_text J (s_extra st) ops end) = extra_text J h bs).
  { pose proof (run_ops bs (lenZ pre) st0) as RO. fold st in RO. unfold extra_text. cbn [st0 s_extra s_ops] in RO. rewrite <- RO.
    destruct (s_ops st); reflexivity. }
  assert (RL : s_reclen st = or_else (last_of (fun b => match b with B1000 _ _ e _ => Some (2 ^ e) | _ => None end) bs) (lenZ rec))
    by (unfold st; rewrite run_reclen; reflexivity).
  assert (EN : s_enc st = or_else (last_of (fun b => match b with B1000 enc _ _ _ => Some enc | _ => None end) bs) (-1))
    by (unfold st; rewrite run_enc; reflexivity).
  rewrite flags2_is, (version_is _ Q), EN, RL.
  match goal with |- context [mk_msr ?a ?b ?c ?d ?e ?f ?g ?hh ?i ?j ?k ?l ?x ?dl None] =>
    replace x with (extra_text J h bs) by (symmetry; exact EX);
    replace dl with (if f_data h =? 0 then 0 else (a - f_data h) mod 2 ^ 32)
      by (unfold in_u in Ida; unfold uwrap; destruct (Z.eqb_spec (f_data h) 0), (Z.ltb_spec 0 (f_data h)); lia || reflexivity) end.
  unfold other. destruct (has_flag flags MSF_UNPACKDATA && (0 <? f_cnt h)); [|reflexivity].
  match goal with |- bind ?a _ = bind ?b _ => destruct a; reflexivity end.
Qed.

(** ** Detection *)

Lemma detect_chain hb big n len bs : forall fuel pre post,
  chain_ok bs -> states_length len bs -> 47 < lenZ pre -> (length bs < fuel)%nat ->
  lenZ pre + lenZ (chain_bytes big (lenZ pre) bs) <= n -> lenZ pre + lenZ (chain_bytes big (lenZ pre) bs) < 65536 ->
  detect2_mem fuel hb (other hb big) (pre ++ chain_bytes big (lenZ pre) bs ++ post) n (match bs with [] => 0 | _ => lenZ pre end) = Ok (Some len).
Proof.
  induction bs as [|[b g] bs IH]; intros fuel pre post C [X A] L F R S; [inversion X|].
  destruct fuel as [|fuel]; [cbn [length] in F; lia|]. apply Forall_cons_iff in C. destruct C as [[B G] C]. cbn [fst snd] in *.
  apply Forall_cons_iff in A. destruct A as [A0 A]. cbn [fst] in A0.
  cbn [chain_bytes] in R, S |- *. set (next := lenZ pre + blk_size b + lenZ g) in *.
  rewrite !lenZ_app, !lenZ_ord, body_len in R, S. cbn [Z.of_nat Pos.of_succ_nat Pos.succ] in R, S.
  pose proof (lenZ_nonneg g). pose proof (lenZ_nonneg (chain_bytes big next bs)).
  rewrite <- !app_assoc. set (link := match bs with [] => 0 | _ => next end) in *.
  destruct (blktlen_ok hb big pre (blk_type b) link b (g ++ chain_bytes big next bs ++ post) B) as (_ & _ & L6).
  unfold blk_size in next, L6. fold (blk_size b) in next.
  cbn [detect2_mem]. match goal with |- (if ?c then _ else _) = _ => replace c with true by lia end.
  assert (LK : 0 <= link < 65536) by (unfold link; destruct bs; unfold next, blk_size; lia).
  one. rewrite Z.mod_small by (pose proof (blk_type_range b); lia).
  one. rewrite Z.mod_small by lia.
  assert (NE : next = lenZ pre + (4 + lenZ (blk_body true b)) + lenZ g) by reflexivity.
  assert (GO : negb (link =? 0) && ((link <? 4) || (link - 4 <=? lenZ pre)) = false) by (unfold link; destruct bs; [reflexivity|lia]).
  assert (REST : bs <> [] -> ~ is_b1000 b -> detect2_mem fuel hb (other hb big)
    (pre ++ ord big 2 (blk_type b) ++ ord big 2 link ++ blk_body big b ++ g ++ chain_bytes big next bs ++ post) n link = Ok (Some len)).
  { intros N NB. specialize (IH fuel (pre ++ ord big 2 (blk_type b) ++ ord big 2 link ++ blk_body big b ++ g) post).
    assert (NN : lenZ (pre ++ ord big 2 (blk_type b) ++ ord big 2 link ++ blk_body big b ++ g) = next).
    { rewrite !lenZ_app, !lenZ_ord, body_len. lia. }
    rewrite NN in IH. rewrite <- !app_assoc in IH. apply IH; try assumption; try lia.
    - split; [|exact A]. inversion X as [? ? X0|]; [contradiction|assumption].
    - cbn [length] in F. lia. }
  destruct b; cbn [blk_type Z.eqb Pos.eqb andb]; try (rewrite GO; apply REST; [|cbn; auto];
    intros ->; inversion X as [? ? X0|? ? X0]; [exact X0|inversion X0]).
  assert (LB : lenZ (blk_body true (B1000 enc order exp res)) = 4) by reflexivity.
  replace (lenZ pre + 8 <=? n) with true by lia. cbn [blk_body] in *. one.
  destruct B as [_ B]. replace (64 <=? exp) with false by lia.
  rewrite Z.shiftl_mul_pow2, Z.mul_1_l by lia. unfold uwrap, swrap.
  assert (1 <= 2 ^ exp <= 2 ^ 30) by (split; [apply (Z.pow_le_mono_r 2 0); lia|apply Z.pow_le_mono_r; lia]).
  rewrite !Z.mod_small by lia. replace (2 ^ exp <? 2 ^ (64 - 1)) with true by lia. now rewrite A0.
Qed.

Lemma parse_layout J hb big mode addr flags n h lead bs rest more :
  headers_accepted J -> hdr2_ok h -> chain_ok bs -> bytes_ok lead -> bytes_ok rest -> bytes_ok more -> 0 < lenZ rest + lenZ more ->
  order_seen hb big h -> let rec := layout2 big h lead bs rest in 64 <= lenZ rec <= MAXRECLEN -> states_length (lenZ rec) bs ->
  lenZ rec <= n -> 48 + lenZ lead + lenZ (chain_bytes big (48 + lenZ lead) bs) < 65536 ->
  parse_mem J hb mode addr flags (rec ++ more) n = bind (unpack2 J hb mode addr flags (rec ++ more) (lenZ rec)) (fun m => Ok (PRec m)).
Proof.
  intros HJ K C Bl Br Bm Lp O rec L SL Ln S. unfold parse_mem.
  set (first := match bs with [] => 0 | _ => 48 + lenZ lead end).
  set (chain := chain_bytes big (48 + lenZ lead) bs) in *.
  assert (RE : rec ++ more = fixed2 big h first ++ (lead ++ chain ++ rest ++ more)) by (unfold rec, layout2; rewrite <- !app_assoc; reflexivity).
  assert (LR : lenZ rec = 48 + lenZ lead + lenZ chain + lenZ rest).
  { unfold rec, layout2. rewrite !lenZ_app, lenZ_fixed by exact K. fold chain. lia. }
  pose proof (lenZ_nonneg rest). pose proof (lenZ_nonneg lead). pose proof (lenZ_nonneg chain).
  destruct (header_reads h big first (lead ++ chain ++ rest ++ more) K hb) as (V & Y & D & _ & _ & _ & _ & _ & _ & _ & _ & _ & Fi & _ & _).
  pose proof (order_is hb big h K O) as OI.
  assert (DM : detect_mem hb (rec ++ more) n = Ok (2, lenZ rec)).
  { unfold detect_mem. replace (n <? MINRECLEN) with false by (unfold MINRECLEN; lia).
    replace (valid3 (rec ++ more)) with (@Ok bool false).
    2:{ rewrite RE. unfold fixed2. destruct K as (Ls & Ss & _). destruct (f_seq h) as [|s0 sq]; [discriminate Ls|].
        apply Forall_cons_iff in Ss. destruct Ss as [S0 _]. unfold digit_or_blank in S0.
        unfold valid3. cbn [app all_at]. rewrite get_hit by reflexivity. cbn [bind fst snd]. replace (s0 =? 77) with false by lia. reflexivity. }
    cbn [bind]. rewrite RE, V. cbn [bind negb]. rewrite Y. cbn [bind]. rewrite D. cbn [bind]. cbv zeta in OI |- *. rewrite OI, Fi. cbn [bind].
    rewrite (Z.mod_small first) by (unfold first; destruct bs; lia).
    set (pre := fixed2 big h first ++ lead).
    assert (LPr : lenZ pre = 48 + lenZ lead) by (unfold pre; rewrite lenZ_app, lenZ_fixed by exact K; reflexivity).
    pose proof (detect_chain hb big n (lenZ rec) bs (Datatypes.S (Z.to_nat n)) pre (rest ++ more) C SL ltac:(lia)) as DC.
    rewrite LPr in DC. fold chain first in DC. pose proof (chain_count big bs (48 + lenZ lead)) as CC. fold chain in CC.
    specialize (DC ltac:(lia) ltac:(lia) ltac:(lia)). unfold pre in DC. rewrite <- !app_assoc in DC. rewrite DC.
    replace (lenZ rec =? -1) with false by lia. reflexivity. }
  rewrite DM. cbn [bind]. cbv zeta. replace (lenZ rec =? 0) with false by lia. rewrite andb_false_r. cbn [andb].
  replace (lenZ rec =? 0) with false by lia.
  replace (lenZ rec <? 0) with false by lia. replace ((lenZ rec <? MINRECLEN) || (MAXRECLEN <? lenZ rec)) with false by (unfold MINRECLEN; lia).
  replace (n <? lenZ rec) with false by lia. cbn [Z.eqb Pos.eqb]. reflexivity.
Qed.

(** ** Samples *)

Lemma last_of_map {A B} (f : blk -> option A) (g : blk -> option B) (k : A -> B) bs :
  (forall b, g b = option_map k (f b)) -> last_of g bs = option_map k (last_of f bs).
Proof.
  intros H. induction bs as [|[b gap] bs IH]; cbn [last_of]; [reflexivity|]. rewrite IH. destruct (last_of f bs); [reflexivity|apply H].
Qed.

Lemma stored_len big enc vs : lenZ (samples_stored big enc vs) = Z.of_nat (sample_width enc) * lenZ vs.
Proof.
  unfold samples_stored. induction vs as [|v vs IH]; cbn [map concat]; [rewrite !(@lenZ_nil Z); lia|]. rewrite lenZ_app, lenZ_cons, lenZ_ord, IH. lia.
Qed.

Lemma fits_cases enc (P : Z -> Prop) vs : vs <> [] -> Forall (sample_fits enc) vs -> P 0 -> P 1 -> P 3 -> P 4 -> P 5 -> P enc.
Proof.
  intros N F P0 P1 P3 P4 P5. destruct vs as [|v vs]; [congruence|]. apply Forall_cons_iff in F. destruct F as [F _].
  unfold sample_fits in F. destruct enc as [|p|p]; [exact P0| |contradiction].
  destruct p as [p|p|]; [|destruct p as [p|p|]|exact P1].
  - destruct p as [p|p|]; [|destruct p|exact P3]; try contradiction. exact P5.
  - contradiction.
  - destruct p; try contradiction. exact P4.
  - contradiction.
Qed.

Lemma decode_stored hb ob mode enc vs tail inlen : vs <> [] -> lenZ vs < 65536 -> Forall (sample_fits enc) vs ->
  exists ss ty, encoding_sizetype enc = Some (ss, ty) /\ fixed_bytes enc = Some (Z.of_nat (sample_width enc)) /\ is_steim enc = false /\ 0 <= enc < 256 /\
  decode_data hb (other hb ob) mode (samples_stored ob enc vs ++ tail) inlen enc (lenZ vs) (lenZ vs * ss) = Ok (SInt vs).
Proof.
  intros N L. assert (0 < lenZ vs) by (destruct vs; [congruence|rewrite lenZ_cons; pose proof (lenZ_nonneg vs); lia]).
  assert (D : forall n w (f : list Z -> res Z) (P : Z -> Prop), (forall v, P v -> f (ord ob n v) = Ok v) -> Forall P vs -> 1 <= w ->
    decode_fixed n w w f (concat (map (ord ob n) vs) ++ tail) (lenZ vs) (lenZ vs * w) = Ok vs).
  { intros n w f P Hf F W. unfold lenZ. rewrite (decode_fixed_series n w w f (ord ob n) (fun v => v)); [now rewrite map_id|..]; try lia.
    - intros x Hx. split; [pose proof (lenZ_ord ob n x) as E; unfold lenZ in E; lia|]. apply Hf. rewrite Forall_forall in F. now apply F.
    - unfold lenZ in L. lia. }
  assert (E : forall l : list Z, samples_len (SInt l) = lenZ l) by reflexivity.
  intros F. assert (C : enc = 0 \/ enc = 1 \/ enc = 3 \/ enc = 4 \/ enc = 5) by (apply (fits_cases enc (fun e => e = 0 \/ e = 1 \/ e = 3 \/ e = 4 \/ e = 5) vs N F); tauto).
  destruct C as [-> | [-> | [-> | [-> | ->]]]]; cbn [sample_fits] in F.
  1: exists 1, 116. 2,3: exists 4, 105. 4: exists 4, 102. 5: exists 8, 100.
  all: split; [reflexivity|]; split; [reflexivity|]; split; [reflexivity|]; split; [lia|].
  all: unfold decode_data, samples_stored; replace (lenZ vs =? 0) with false by lia.
  all: cbn [encoding_sizetype Z.eqb Pos.eqb orb sample_width]; unfold uwrap; rewrite ?Z.mod_small by lia; rewrite ?Z.ltb_irrefl.
  - replace (concat (map (ord ob 1) vs)) with vs.
    2:{ clear - F. induction vs as [|v vs IH]; [reflexivity|]. apply Forall_cons_iff in F. destruct F as [V F]. cbn [map concat]. rewrite <- IH by exact F.
        cbn [sample_fits] in V. unfold in_u in V. unfold ord, be_bytes. destruct ob; cbn [le_bytes rev app]; rewrite Z.mod_small by lia; reflexivity. }
    rewrite slice_hit by reflexivity. cbn [bind]. rewrite E, Z.eqb_refl. reflexivity.
  - unfold decode_int16. rewrite (D 2%nat 4 _ (in_s 16)); [|..|lia]; [cbn [bind]; now rewrite E, Z.eqb_refl| |exact F].
    intros v V. rewrite ld_ord. rewrite (swrap_back 2 16) by (try lia; exact V). reflexivity.
  - unfold decode_int32. rewrite (D 4%nat 4 _ (in_s 32)); [|..|lia]; [cbn [bind]; now rewrite E, Z.eqb_refl| |exact F].
    intros v V. rewrite ld_ord. rewrite (swrap_back 4 32) by (try lia; exact V). reflexivity.
  - unfold decode_float32. rewrite (D 4%nat 4 _ (in_u 32)); [|..|lia]; [cbn [bind]; now rewrite E, Z.eqb_refl| |exact F].
    intros v V. rewrite ld_ord. unfold in_u in V. rewrite Z.mod_small by (cbn; lia). reflexivity.
  - unfold decode_float64. rewrite (D 8%nat 8 _ (in_u 64)); [|..|lia]; [cbn [bind]; now rewrite E, Z.eqb_refl| |exact F].
    intros v V. rewrite ld_ord. unfold in_u in V. rewrite Z.mod_small by (cbn; lia). reflexivity.
Qed.

Lemma samples_layout J hb big mode addr h lead bs gap vs tail more enc ob rate :
  hdr2_ok h -> let rec := layout2 big h lead bs (gap ++ samples_stored ob enc vs ++ tail) in 64 <= lenZ rec <= MAXRECLEN ->
  last_1000 bs = Some (enc, ob, lenZ rec) -> f_data h = 48 + lenZ lead + lenZ (chain_bytes big (48 + lenZ lead) bs) + lenZ gap ->
  f_cnt h = lenZ vs -> vs <> [] -> Forall (sample_fits enc) vs -> lenZ (samples_stored ob enc vs) < 65536 ->
  unpack_data hb mode addr (rec ++ more) (rec2_of J hb big h bs (lenZ rec) rate) = Ok (SInt vs).
Proof.
  intros K rec L LS Da Cn N F W.
  assert (V0 : 0 < lenZ vs) by (destruct vs; [congruence|rewrite lenZ_cons; pose proof (lenZ_nonneg vs); lia]).
  set (chain := chain_bytes big (48 + lenZ lead) bs) in *.
  assert (LR : lenZ rec = 48 + lenZ lead + lenZ chain + lenZ gap + lenZ (samples_stored ob enc vs) + lenZ tail).
  { unfold rec, layout2. rewrite !lenZ_app, lenZ_fixed by exact K. fold chain. lia. }
  pose proof (lenZ_nonneg lead). pose proof (lenZ_nonneg chain). pose proof (lenZ_nonneg gap). pose proof (lenZ_nonneg tail).
  pose proof (stored_len ob enc vs) as SL.
  assert (V1 : lenZ vs < 65536). { pose proof K as (_ & _ & _ & _ & _ & _ & _ & _ & _ & I & _). unfold in_u in I. lia. }
  destruct (decode_stored hb ob mode enc vs (tail ++ more) (lenZ (samples_stored ob enc vs)) N V1 F) as (ss & ty & ES & FB & IS & ER & DD).
  destruct (decode_stored hb ob mode enc vs [] (lenZ (samples_stored ob enc vs)) N V1 F) as (ss' & ty' & ES' & _ & _ & _ & DD').
  rewrite ES in ES'. injection ES' as <- <-. rewrite app_nil_r in DD'.
  assert (W1 : 1 <= Z.of_nat (sample_width enc)) by (apply (fits_cases enc (fun enc => 1 <= Z.of_nat (sample_width enc)) vs N F); cbn; lia).
  set (m := rec2_of J hb big h bs (lenZ rec) rate).
  assert (M1 : m_cnt m = lenZ vs) by exact Cn.
  assert (M2 : m_reclen m = lenZ rec).
  { unfold m, rec2_of. cbn [m_reclen]. rewrite (last_of_map (fun b => match b with B1000 enc o e _ => Some (enc, negb (o =? 0), 2 ^ e) | _ => None end) _ snd)
      by (intros []; reflexivity). fold (last_1000 bs). rewrite LS. reflexivity. }
  assert (M3 : m_enc m = enc).
  { unfold m, rec2_of. cbn [m_enc]. rewrite (last_of_map (fun b => match b with B1000 enc o e _ => Some (enc, negb (o =? 0), 2 ^ e) | _ => None end) _ (fun p => fst (fst p)))
      by (intros []; reflexivity). fold (last_1000 bs). rewrite LS. reflexivity. }
  assert (M4 : m_swapp m = other hb ob).
  { unfold m, rec2_of. cbn [m_swapp]. rewrite (last_of_map (fun b => match b with B1000 enc o e _ => Some (enc, negb (o =? 0), 2 ^ e) | _ => None end) _ (fun p => snd (fst p)))
      by (intros []; reflexivity). fold (last_1000 bs). rewrite LS. reflexivity. }
  assert (DI : in_u 16 (f_data h)) by (unfold hdr2_ok in K; tauto). unfold in_u in DI.
  assert (DO : rd hb (m_swaph m) 2 44 (rec ++ more) = Ok (f_data h)).
  { destruct (header_reads h big (match bs with [] => 0 | _ => 48 + lenZ lead end) (lead ++ chain ++ (gap ++ samples_stored ob enc vs ++ tail) ++ more) K hb)
      as (_ & _ & _ & _ & _ & _ & _ & _ & _ & _ & _ & _ & _ & D & _).
    unfold rec, layout2. fold chain. rewrite <- !app_assoc in *. unfold m, rec2_of. cbn [m_swaph]. fold (other hb big).
    rewrite D. f_equal. apply Z.mod_small. lia. }
  unfold unpack_data. rewrite M1, M2, M3, M4. replace (lenZ vs <=? 0) with false by lia. replace (lenZ rec <? 0) with false by lia.
  replace ((lenZ rec <? MINRECLEN) || (MAXRECLEN <? lenZ rec)) with false by (unfold MINRECLEN; lia).
  replace (2 ^ 31 - 1 <? lenZ vs) with false by lia.
  unfold data_bounds. cbn [m_fver m rec2_of Z.eqb Pos.eqb]. fold m. rewrite DO. cbn [bind]. rewrite M1, M2, M3, FB.
  assert (U1 : uwrap 32 (lenZ rec - f_data h) = lenZ (samples_stored ob enc vs) + lenZ tail).
  { unfold uwrap. rewrite Z.mod_small by (unfold MAXRECLEN in L; lia). lia. }
  rewrite U1. replace (uwrap 64 (lenZ vs * Z.of_nat (sample_width enc))) with (lenZ (samples_stored ob enc vs)) by (unfold uwrap; rewrite Z.mod_small by lia; lia).
  replace (if lenZ (samples_stored ob enc vs) <? lenZ (samples_stored ob enc vs) + lenZ tail then uwrap 16 (lenZ (samples_stored ob enc vs))
    else lenZ (samples_stored ob enc vs) + lenZ tail) with (lenZ (samples_stored ob enc vs)).
  2:{ destruct (Z.ltb_spec (lenZ (samples_stored ob enc vs)) (lenZ (samples_stored ob enc vs) + lenZ tail)); [|lia]. unfold uwrap. rewrite Z.mod_small by lia. reflexivity. }
  rewrite IS, andb_false_r. cbn [bind].
  replace ((f_data h <? MINRECLEN) || (lenZ rec <=? f_data h)) with false.
  2:{ unfold MINRECLEN. assert (0 < lenZ (samples_stored ob enc vs)) by nia. lia. }
  replace (enc <? 0) with false by lia. replace (uwrap 8 enc) with enc by (unfold uwrap; rewrite Z.mod_small by lia; reflexivity). rewrite ES.
  set (pre := fixed2 big h (match bs with [] => 0 | _ => 48 + lenZ lead end) ++ lead ++ chain ++ gap).
  assert (RE : rec ++ more = pre ++ samples_stored ob enc vs ++ (tail ++ more)) by (unfold rec, layout2, pre; fold chain; rewrite <- !app_assoc; reflexivity).
  assert (LP : lenZ pre = f_data h) by (unfold pre; rewrite !lenZ_app, lenZ_fixed by exact K; lia).
  destruct ((addr + f_data h) mod ss =? 0).
  - fold (lenZ (rec ++ more)). rewrite RE. rewrite slice_skip by lia. rewrite <- (app_nil_r (samples_stored ob enc vs ++ tail ++ more)) at 2.
    rewrite slice_hit by (rewrite ?lenZ_app; lia). cbn [bind]. exact DD.
  - rewrite RE, slice_skip by lia. rewrite slice_hit by lia. cbn [bind]. exact DD'.
Qed.

(** ** Together *)

Lemma header_only J hb big mode addr flags h lead bs rest more :
  headers_accepted J -> well_formed big h lead bs rest more -> order_seen hb big h ->
  has_flag flags MSF_UNPACKDATA = false \/ f_cnt h = 0 ->
  exists rate, rate_ok h bs rate /\
  unpack2 J hb mode addr flags (layout2 big h lead bs rest ++ more) (lenZ (layout2 big h lead bs rest)) =
  Ok (rec2_of J hb big h bs (lenZ (layout2 big h lead bs rest)) rate).
Proof.
  intros HJ (K & C & Bl & Br & Bm & Lp & L & S) O N.
  destruct (unpack_layout J hb big mode addr flags h lead bs rest more HJ K C Bl Br Bm Lp O L S) as (rate & R & E).
  exists rate. split; [exact R|]. rewrite E. cbv zeta. replace (has_flag flags MSF_UNPACKDATA && (0 <? f_cnt h)) with false; [reflexivity|].
  destruct N as [-> | ->]; [reflexivity|now rewrite andb_false_r].
Qed.

Lemma header_samples J hb big mode addr flags h lead bs rest more vs :
  headers_accepted J -> well_formed big h lead bs rest more -> order_seen hb big h ->
  has_flag flags MSF_UNPACKDATA = true -> holds_samples big h lead bs rest vs ->
  exists rate, rate_ok h bs rate /\
  unpack2 J hb mode addr flags (layout2 big h lead bs rest ++ more) (lenZ (layout2 big h lead bs rest)) =
  Ok (with_samples (rec2_of J hb big h bs (lenZ (layout2 big h lead bs rest)) rate) (SInt vs)).
Proof.
  intros HJ (K & C & Bl & Br & Bm & Lp & L & S) O N (gap & enc & ob & tail & -> & NE & F & Cn & Da & LS & W).
  destruct (unpack_layout J hb big mode addr flags h lead bs _ more HJ K C Bl Br Bm Lp O L S) as (rate & R & E).
  exists rate. split; [exact R|]. rewrite E. cbv zeta.
  replace (has_flag flags MSF_UNPACKDATA && (0 <? f_cnt h)) with true.
  2:{ rewrite N, Cn. destruct vs; [congruence|]. rewrite lenZ_cons. pose proof (lenZ_nonneg vs). cbn [andb]. lia. }
  rewrite (samples_layout J hb big mode addr h lead bs gap vs tail more enc ob rate K L LS Da Cn NE F W). reflexivity.
Qed.

Lemma parse_whole J hb big mode addr flags h lead bs rest more :
  headers_accepted J -> well_formed big h lead bs rest more -> order_seen hb big h ->
  states_length (lenZ (layout2 big h lead bs rest)) bs ->
  (has_flag flags MSF_UNPACKDATA = false \/ f_cnt h = 0 ->
   exists rate, rate_ok h bs rate /\
   parse (unpack2 J hb mode addr flags) hb mode addr flags (layout2 big h lead bs rest ++ more) =
   Ok (PRec (rec2_of J hb big h bs (lenZ (layout2 big h lead bs rest)) rate))) /\
  (forall vs, has_flag flags MSF_UNPACKDATA = true -> holds_samples big h lead bs rest vs ->
   exists rate, rate_ok h bs rate /\
   parse (unpack2 J hb mode addr flags) hb mode addr flags (layout2 big h lead bs rest ++ more) =
   Ok (PRec (with_samples (rec2_of J hb big h bs (lenZ (layout2 big h lead bs rest)) rate) (SInt vs)))).
Proof.
  intros HJ WF O SL. pose proof WF as (K & C & Bl & Br & Bm & Lp & L & S).
  rewrite <- parse_mem_eq, (parse_layout J hb big mode addr flags _ h lead bs rest more HJ K C Bl Br Bm Lp O L SL);
    [|rewrite lenZ_app; pose proof (lenZ_nonneg more); lia|exact S]. split.
  - intros N. destruct (header_only J hb big mode addr flags h lead bs rest more HJ WF O N) as (rate & R & ->). exists rate. now split.
  - intros vs N H. destruct (header_samples J hb big mode addr flags h lead bs rest more vs HJ WF O N H) as (rate & R & ->). exists rate. now split.
Qed.

Lemma order_years hb big h : let d := day_at (b_day (f_start h)) in
  1900 <= d_year d <= 2100 ->
  (order_seen hb big h <-> hb = big \/ ~ (d_year d = 2056 /\ In (d_yday d) [1; 256; 257])).
Proof.
  intros d Y. pose proof (day_at_ok (b_day (f_start h))) as D. fold d in D. unfold order_seen. fold d.
  assert (YD : 1 <= d_yday d <= 366) by (destruct D as [[V1 V2] _]; pose proof (cum_bound _ _ _ V1); pose proof (year_len_range (d_year d)); lia).
  destruct (Bool.eqb hb big) eqn:E.
  - apply Bool.eqb_prop in E. split; [tauto|]. intros _. unfold plausible. lia.
  - assert (N : hb <> big) by (intros ->; now rewrite Bool.eqb_reflx in E).
    split.
    + intros P. right. intros [EY I]. apply P. rewrite EY. unfold plausible, exchanged. cbn [In] in I.
      destruct I as [<- | [<- | [<- | []]]]; cbn; lia.
    + intros [H | H]; [contradiction|]. intros [P1 P2]. apply H. unfold exchanged in P1, P2.
      set (y := d_year d) in *. set (k := d_yday d) in *. clearbody y k.
      assert (y = 2056) by lia. split; [assumption|]. cbn [In]. lia.
Qed.
