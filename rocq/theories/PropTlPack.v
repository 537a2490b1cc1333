(** * C51: a trace list is packed segment by segment *)

From Coq Require Import String QArith.
From Verif Require Import Base BaseLemmas RecProof SampleProof TlModel TlPackModel TlPackSpec TlPackProof.
Open Scope list_scope.
Open Scope Z_scope.

(** Version 3.  The records handed over are those of all segments, entry after entry; those
    of a segment parse to its identifier, version, rate, times and samples.  The return
    value is their number, the count reported that of their samples.  Afterwards the
    entries are the same but for the samples packed, unless MSF_MAINTAINMSTL is given. *)
Theorem C51_packed : forall u mode2 addr e o k ids, has_flag (o_flags o) MSF_PACKVER2 = false -> good_call e o -> tl_ids k = Ok ids ->
  Forall (fun t => good_id t /\ exists segs, tid_segs t = Ok segs /\ Forall (ready3 mode2 e o t) segs) ids ->
  exists r xss, tl_pack e o k = Ok r /\ yields ids o xss r /\
    Forall2 (fun t xs => exists segs, tid_segs t = Ok segs /\ Forall2 (packed3 u mode2 addr (e_recip e) (e_leaps e) o t) segs xs) ids xss.
Proof. exact list3_ok. Qed.
Print Assumptions C51_packed.

(** Version 2, without extra headers. *)
Theorem C51_packed_2 : forall J hb2 mode2 addr e o k ids, headers_accepted J -> has_flag (o_flags o) MSF_PACKVER2 = true -> good_call2 e o -> tl_ids k = Ok ids ->
  Forall (fun t => good_id2 t /\ exists segs, tid_segs t = Ok segs /\ Forall (ready2 hb2 mode2 e o t) segs) ids ->
  exists r xss, tl_pack e o k = Ok r /\ yields ids o xss r /\
    Forall2 (fun t xs => exists segs, tid_segs t = Ok segs /\ Forall2 (packed2 J hb2 mode2 addr (e_leaps e) o t) segs xs) ids xss.
Proof. exact list2_ok. Qed.
Print Assumptions C51_packed_2.

(** With MSF_MAINTAINMSTL the list is what it was. *)
Theorem C51_maintained : forall mode2 e o k ids, has_flag (o_flags o) MSF_PACKVER2 = false -> has_flag (o_flags o) 512 = true -> good_call e o -> tl_ids k = Ok ids ->
  Forall (fun t => good_id t /\ exists segs, tid_segs t = Ok segs /\ Forall (ready3 mode2 e o t) segs) ids ->
  exists r n k' ids', tl_pack e o k = Ok r /\ p_done r = Some (n, k') /\ tl_ids k' = Ok ids' /\
    Forall2 (fun t t' => same_entry t t' /\ tid_segs t' = tid_segs t) ids ids'.
Proof. exact list3_kept. Qed.
Print Assumptions C51_maintained.

(** ** A list that meets the hypotheses

    Two entries; the first has two segments, the second one without samples. *)

Definition ka : codes := mk_codes (chars "XX") (chars "ABCD") (chars "00") 66 72 90.
Definition kb : codes := mk_codes (chars "YY") (chars "EF") (chars "") 66 72 78.
Definition conf0 : conf := mk_conf Strict [] None None true true false.
Definition rec0 (k : codes) (s : Z) (d : list Z) : trec :=
  mk_trec (codes_sid k) 1 s 0x4008000000000000 (Z.of_nat (length d)) 105 d.               (* 3.0 Hz *)
Definition t0 : Z := 1580552430123456789.            (* 2020-02-01T10:20:30.123456789 *)
Definition adds : list (trec * nat) :=
  [(rec0 ka t0 [1; 2; 3; 4; 5; 6; 7; 8; 9; 10; 11; 12; 13; 14; 15; 16; -17; -18; 19; 20], 1%nat); (rec0 ka (t0 + 50000000000) [7], 1%nat); (rec0 kb t0 [], 2%nat)].
Definition built (rs : list (trec * nat)) : tlist := match add_all conf0 tl_init rs with Ok k => k | _ => tl_init end.
Definition list0 : tlist := built adds.
Definition ids0 : list tid := match tl_ids list0 with Ok l => l | _ => [] end.
Definition env0 : penv := mk_penv 30 (fun _ => 0) [] false Strict (repeat 170 64) (repeat 7 200).
Definition opt0 (flags : Z) : popt := mk_popt 128 3 None flags.

Definition view (t : tid) : list Z * Z * res (list seg) := (t_sid t, t_pub t, tid_segs t).
Definition views (k : tlist) : option (list (list Z * Z * res (list seg))) := match tl_ids k with Ok l => Some (map view l) | _ => None end.
Lemma built_ok rs : match add_all conf0 tl_init rs with Ok _ => true | _ => false end = true -> add_all conf0 tl_init rs = Ok (built rs).
Proof. unfold built. destruct (add_all conf0 tl_init rs); [reflexivity|discriminate..]. Qed.
Definition q3 : Q := 6755399441055744 # 2251799813685248.   (* 3, as a quotient of powers of two *)
Lemma ids0_two : tl_ids list0 = Ok ids0 /\ exists a b, ids0 = [a; b] /\ t_sid a = codes_sid ka /\ t_sid b = codes_sid kb /\ t_pub a = 1 /\ t_pub b = 1 /\
  tid_segs a = Ok [mk_seg t0 1580552436456790122 (DFin q3) 20 105 [1; 2; 3; 4; 5; 6; 7; 8; 9; 10; 11; 12; 13; 14; 15; 16; -17; -18; 19; 20] [];
                   mk_seg (t0 + 50000000000) (t0 + 50000000000) (DFin q3) 1 105 [7] []] /\
  tid_segs b = Ok [mk_seg t0 t0 (DFin q3) 0 105 [] []].
Proof.
  assert (E : views list0 = Some [(codes_sid ka, 1, Ok [mk_seg t0 1580552436456790122 (DFin q3) 20 105 [1; 2; 3; 4; 5; 6; 7; 8; 9; 10; 11; 12; 13; 14; 15; 16; -17; -18; 19; 20] [];
                   mk_seg (t0 + 50000000000) (t0 + 50000000000) (DFin q3) 1 105 [7] []]); (codes_sid kb, 1, Ok [mk_seg t0 t0 (DFin q3) 0 105 [] []])]) by (vm_compute; reflexivity).
  unfold views in E. unfold ids0. destruct (tl_ids list0) as [l| | |]; try discriminate. split; [reflexivity|].
  destruct l as [|a [|b [|c l]]]; try discriminate. cbn [map] in E. unfold view in E. exists a, b. split; [reflexivity|]. injection E as E1 E2 E3 E4 E5 E6. repeat split; assumption.
Qed.

Lemma near_start k st : 0 <= k <= 20 -> starts_at t0 [] (6755399441055744 # 2251799813685248) k st -> t0 - 1 <= st < t0 + 10000000000.
Proof.
  intros Hk (z & N & ->). change (Z.min 1 (count_inside t0 z []) * 1000000000) with 0. enough (-1 <= z < 10000000000) by lia.
  unfold near_span in N. apply Qabs.Qabs_Qle_condition in N. destruct N as [N1 N2].
  set (X := exact_span k (6755399441055744 # 2251799813685248)) in *.
  assert (X0 : (0 <= X)%Q).
  { unfold X, exact_span. apply Qmult_le_0_compat; [change 0%Q with (inject_Z 0); rewrite <- Zle_Qle; lia|vm_compute; discriminate]. }
  assert (X1 : (X <= 8000000000 # 1)%Q).
  { eapply Qle_trans; [apply (exact_span_mono k 20); [discriminate|lia]|vm_compute; discriminate]. }
  clearbody X. assert (A : (inject_Z z <= 9000000000 # 1)%Q) by (clear N1; Lqa.lra). assert (B : (- (3 # 4) - (8000000000 # 1125899906842624) <= inject_Z z)%Q) by (clear N2; Lqa.lra).
  clear N1 N2 X0 X1. unfold Qle in A, B. cbn [inject_Z Qnum Qden Qminus Qplus Qopp] in A, B. lia.
Qed.

Lemma near_start1 k st s : 0 <= k <= 1 -> starts_at s [] (6755399441055744 # 2251799813685248) k st -> s - 1 <= st < s + 10000000000.
Proof.
  intros Hk H. assert (starts_at t0 [] (6755399441055744 # 2251799813685248) k (t0 + (st - s))).
  { destruct H as (z & N & ->). exists z. split; [exact N|]. change (Z.min 1 (count_inside t0 z []) * 1000000000) with 0. change (Z.min 1 (count_inside s z []) * 1000000000) with 0. lia. }
  pose proof (near_start k _ ltac:(lia) H0). lia.
Qed.

Lemma dated_in_february hb t : 1580552430123456000 <= t < 1580552530123456789 -> dated hb t.
Proof.
  intros T. unfold dated. cbv zeta. assert (E : t / 86400000000000 = 18293) by lia. rewrite E.
  split; [unfold in_s; lia|]. split; [vm_compute; split; discriminate|].
  split; [destruct hb; [vm_compute; split; discriminate|intros [A _]; vm_compute in A; decompose [or] A; discriminate || contradiction]|].
  unfold tenths, NSTERROR. lia.
Qed.

Lemma codes_good k : In k [ka; kb] -> codes_ok k.
Proof.
  assert (forall n s, (lenZ s <=? n) && forallb (fun c => (1 <=? c) && (c <=? 127) && negb (c =? 32) && negb (c =? 95) && negb (c =? 58)) s = true -> code_ok n s) as H.
  { intros n s H. apply andb_prop in H. destruct H as [H1 H2]. split; [lia|]. rewrite forallb_forall in H2. apply Forall_forall. intros x I. specialize (H2 x I). lia. }
  intros [<-|[<-|[]]]; unfold codes_ok, band_ok; cbn [k_net k_sta k_loc k_band k_source k_sub ka kb]; (split; [apply H; reflexivity|]; split; [apply H; reflexivity|]; split; [apply H; reflexivity|]; lia).
Qed.

Definition in_range (lo hi : Z) (l : list Z) : bool := forallb (fun c => (lo <=? c) && (c <=? hi)) l.
Lemma range_all (P : Z -> Prop) lo hi l : (forall c, lo <= c <= hi -> P c) -> in_range lo hi l = true -> Forall P l.
Proof. intros H E. unfold in_range in E. rewrite forallb_forall in E. apply Forall_forall. intros x I. apply H. specialize (E x I). lia. Qed.

Example C51_instance :
  tl_ids list0 = Ok ids0 /\ good_call env0 (opt0 64) /\
  Forall (fun t => good_id t /\ exists segs, tid_segs t = Ok segs /\ Forall (ready3 Strict env0 (opt0 64) t) segs) ids0.
Proof.
  split; [exact (proj1 ids0_two)|]. split.
  { split; [intros; unfold in_u, env0; cbn [e_recip]; lia|]. split; [apply (range_all _ 0 255); [unfold byte_ok; lia|reflexivity]|]. split; [right; cbn; lia|]. split; [vm_compute; discriminate|].
    split; [constructor|]. split; [constructor|reflexivity]. }
  destruct ids0_two as (_ & a & b & -> & Sa & Sb & Pa & Pb & Ea & Eb).
  assert (G : forall t s e d, (t_sid t = codes_sid ka \/ t_sid t = codes_sid kb) -> t0 <= s <= t0 + 50000000000 -> lenZ d <= 20 -> in_range (-100) 100 d = true ->
    ready3 Strict env0 (opt0 64) t (mk_seg s e (DFin q3) (lenZ d) 105 d [])).
  { intros t s e d St Hs Ld Rg. unfold t0 in Hs. pose proof (lenZ_nonneg d) as L0. split.
    { exists (3%Q), q3. split; [reflexivity|]. split; [reflexivity|]. split; [reflexivity|]. cbn [s_data].
      eapply Qle_trans; [apply (exact_span_mono _ 20); [discriminate|lia]|vm_compute; discriminate]. }
    cbn [s_start s_cnt s_data s_type]. unfold NSTERROR. split; [lia|]. split; [lia|].
    assert (P : packable Strict 3 105 d) by (right; right; left; split; [reflexivity|]; split; [reflexivity|]; eapply range_all; [|exact Rg]; unfold in_s; lia).
    change (encoding_of _) with 3. split; [exact P|]. split; [exact P|]. split; [intros H; discriminate|]. split; [lia|]. split; [change (Z.of_nat (e_fuel env0)) with 30; lia|].
    unfold hdrlen, maxlen. cbn [wanted m_sid m_extra m_reclen]. destruct St as [->| ->]; vm_compute; discriminate. }
  assert (I : forall t, (t_sid t = codes_sid ka \/ t_sid t = codes_sid kb) -> t_pub t = 1 -> good_id t).
  { intros t St Pt. unfold good_id. rewrite Pt. destruct St as [->| ->]; (split; [apply (range_all _ 0 255); [unfold byte_ok; lia|reflexivity]|]; split; [reflexivity|]; split; [apply (range_all _ 1 255); [lia|reflexivity]|unfold in_u; lia]). }
  constructor; [|constructor; [|constructor]].
  - split; [apply I; auto|]. eexists. split; [exact Ea|]. constructor; [|constructor; [|constructor]].
    + apply (G a t0 _ [1; 2; 3; 4; 5; 6; 7; 8; 9; 10; 11; 12; 13; 14; 15; 16; -17; -18; 19; 20]); auto; [lia|vm_compute; discriminate].
    + apply (G a (t0 + 50000000000) _ [7]); auto; [lia|vm_compute; discriminate].
  - split; [apply I; auto|]. eexists. split; [exact Eb|]. constructor; [|constructor]. apply (G b t0 _ []); auto; [lia|vm_compute; discriminate].
Qed.

(** The four records: 16 and 4 samples, one sample, a header. *)
Definition seen (u : list Z -> Z -> res msr) (r : list Z) :=
  match parse u false Strict 0 1 r with Ok (PRec m) => Some (lenZ r, m_fver m, m_start m, m_cnt m, m_data m) | _ => None end.
Definition J0 : json := mk_json (fun _ _ => false) (fun t ops => []).
Definition u0 : list Z -> Z -> res msr := unpack2 J0 false Strict 0 1.
Definition call (o : popt) (k : tlist) := match tl_pack env0 o k with
  | Ok r => Some (map (seen u0) (p_recs r), p_ret r, match p_done r with Some (n, _) => n | None => -1 end) | _ => None end.
Example C51_run : call (opt0 64) list0 =
  Some ([Some (125, 3, t0, 16, Some (SInt [1; 2; 3; 4; 5; 6; 7; 8; 9; 10; 11; 12; 13; 14; 15; 16])); Some (77, 3, t0 + 5333333333, 4, Some (SInt [-17; -18; 19; 20]));
         Some (65, 3, t0 + 50000000000, 1, Some (SInt [7])); Some (57, 3, t0, 0, None)], 4, 21).
Proof. vm_compute. reflexivity. Qed.

Example C51_instance_2 :
  headers_accepted J0 /\ tl_ids list0 = Ok ids0 /\ good_call2 env0 (opt0 192) /\
  Forall (fun t => good_id2 t /\ exists segs, tid_segs t = Ok segs /\ Forall (ready2 false Strict env0 (opt0 192) t) segs) ids0.
Proof.
  split; [intros ? ?; reflexivity|]. split; [exact (proj1 ids0_two)|]. split.
  { split; [vm_compute; lia|]. split; [right; cbn; lia|]. split; [exists 7; split; [lia|reflexivity]|]. split; [vm_compute; discriminate|reflexivity]. }
  destruct ids0_two as (_ & a & b & -> & Sa & Sb & _ & _ & Ea & Eb).
  assert (G : forall t s e d, t0 <= s <= t0 + 50000000000 -> (s = t0 /\ lenZ d <= 20 \/ lenZ d <= 1) -> in_range (-100) 100 d = true ->
    ready2 false Strict env0 (opt0 192) t (mk_seg s e (DFin q3) (lenZ d) 105 d [])).
  { intros t s e d Hs Ld Rg. pose proof (lenZ_nonneg d) as L0. split.
    { exists (3%Q), q3. split; [reflexivity|]. split; [reflexivity|]. split; [reflexivity|]. cbn [s_data s_start]. split.
      { eapply Qle_trans; [apply (exact_span_mono _ 20); [discriminate|lia]|vm_compute; discriminate]. }
      intros k st Hk H. assert (R : s - 1 <= st < s + 10000000000) by (destruct Ld as [[-> Ld]|Ld]; [apply (near_start k); [lia|exact H]|apply (near_start1 k); [lia|exact H]]).
      apply dated_in_february. unfold t0 in *. lia. }
    unfold t0 in *. cbn [s_start s_cnt s_data s_type s_hz]. unfold NSTERROR. split; [lia|]. split; [lia|].
    assert (P : packable Strict 3 105 d) by (right; right; left; split; [reflexivity|]; split; [reflexivity|]; eapply range_all; [|exact Rg]; unfold in_s; lia).
    change (encoding_of _) with 3. split; [exact P|]. split; [exact P|]. split; [intros H; discriminate|]. split; [lia|]. split; [change (Z.of_nat (e_fuel env0)) with 30; lia|].
    split; [vm_compute; discriminate|]. split; [discriminate|]. eexists. vm_compute. reflexivity. }
  constructor; [|constructor; [|constructor]].
  - split; [exists ka; split; [apply codes_good; cbn; auto|exact Sa]|]. eexists. split; [exact Ea|]. constructor; [|constructor; [|constructor]].
    + apply (G a t0 _ [1; 2; 3; 4; 5; 6; 7; 8; 9; 10; 11; 12; 13; 14; 15; 16; -17; -18; 19; 20]); auto; [lia|left; split; [reflexivity|vm_compute; discriminate]].
    + apply (G a (t0 + 50000000000) _ [7]); auto; [lia|right; vm_compute; discriminate].
  - split; [exists kb; split; [apply codes_good; cbn; auto|exact Sb]|]. eexists. split; [exact Eb|]. constructor; [|constructor]. apply (G b t0 _ []); auto; [lia|left; split; [reflexivity|vm_compute; discriminate]].
Qed.
Example C51_run_2 : call (opt0 192) list0 =
  Some ([Some (128, 2, 1580552430123456000, 16, Some (SInt [1; 2; 3; 4; 5; 6; 7; 8; 9; 10; 11; 12; 13; 14; 15; 16])); Some (128, 2, 1580552435456756000, 4, Some (SInt [-17; -18; 19; 20]));
         Some (128, 2, 1580552480123456000, 1, Some (SInt [7])); Some (128, 2, 1580552430123456000, 0, None)], 4, 21).
Proof. vm_compute. reflexivity. Qed.

(** The list after a call. *)
Definition after (o : popt) (k : tlist) : tlist := match tl_pack env0 o k with Ok r => match p_done r with Some (_, k) => k | None => k end | _ => k end.
Definition times (t : tid) := (t_early t, match tid_segs t with Ok l => map (fun s => (s_start s, s_cnt s, s_data s)) l | _ => [] end).
Definition seg_times (k : tlist) := match tl_ids k with Ok l => map times l | _ => [] end.

(** Without MSF_FLUSHDATA the last record is not filled: its samples stay. *)
Example C51_run_part : call (opt0 0) list0 =
  Some ([Some (125, 3, t0, 16, Some (SInt [1; 2; 3; 4; 5; 6; 7; 8; 9; 10; 11; 12; 13; 14; 15; 16])); Some (57, 3, t0, 0, None)], 2, 16)
  /\ seg_times (after (opt0 0) list0) = [(t0, [(t0 + 5333333333, 4, [-17; -18; 19; 20]); (t0 + 50000000000, 1, [7])]); (t0, [(t0, 0, [])])].
Proof. split; vm_compute; reflexivity. Qed.

(** ** Where more might be expected *)

(** A segment that cannot be packed counts as -1 records, and the call goes on: one record
    and one failure give 0, the sum, and not an error.  (Steim-2 is asked for.) *)
Theorem C51_failure_refuted : exists k, add_all conf0 tl_init [(rec0 ka t0 [1; 2; 3], 1%nat); (rec0 kb t0 [0; 2000000000], 1%nat)] = Ok k /\
  call (mk_popt 128 11 None 64) k = Some ([Some (125, 3, t0, 3, Some (SInt [1; 2; 3]))], 0, 3).
Proof. eexists. split; [apply built_ok; vm_compute; reflexivity|]. vm_compute. reflexivity. Qed.

(** When all samples have been packed the segment starts at the time of the last of them.
    A record that follows is added to it and packed as if it started a period earlier. *)
Definition followed (k : tlist) : tlist := match add_msr conf0 k (rec0 ka (t0 + 1000000000) [4; 5; 6]) 1 with Ok k => k | _ => tl_init end.
Theorem C51_next_start_refuted : exists k, add_all conf0 tl_init [(rec0 ka t0 [1; 2; 3], 1%nat)] = Ok k /\
  call (opt0 64) (followed (after (opt0 64) k)) = Some ([Some (73, 3, t0 + 666666667, 3, Some (SInt [4; 5; 6]))], 1, 3).
Proof. eexists. split; [apply built_ok; vm_compute; reflexivity|]. vm_compute. reflexivity. Qed.

(** A second call, nothing having been added, gives a record without samples for each
    segment. *)
Theorem C51_again_refuted : call (opt0 64) (after (opt0 64) list0) =
  Some ([Some (61, 3, 1580552436456790122, 0, None); Some (61, 3, t0 + 50000000000, 0, None); Some (57, 3, t0, 0, None)], 3, 0).
Proof. vm_compute. reflexivity. Qed.

(** The earliest time of the entry is not brought forward. *)
Theorem C51_earliest_refuted : exists t segs rest, tl_ids (after (opt0 0) list0) = Ok (t :: rest) /\ tid_segs t = Ok segs /\
  segs <> [] /\ Forall (fun s => t_early t < s_start s) segs.
Proof.
  pose proof (proj2 C51_run_part) as E. unfold seg_times in E. destruct (tl_ids (after (opt0 0) list0)) as [[|t rest]| | |]; try discriminate.
  cbn [map] in E. unfold times at 1 in E. injection E as E1 E2 _. destruct (tid_segs t) as [segs| | |] eqn:Es; try discriminate.
  exists t, segs, rest. split; [reflexivity|]. split; [exact Es|]. destruct segs as [|s1 [|s2 [|s3 l]]]; try discriminate.
  cbn [map] in E2. injection E2 as A _ _ B _ _. split; [discriminate|]. rewrite E1. repeat constructor; unfold t0 in *; lia.
Qed.

(** Extra headers given by the caller are freed, whatever the list is. *)
Theorem C51_extra_refuted : forall e reclen encoding x flags k r, tl_pack e (mk_popt reclen encoding (Some x) flags) k = Ok r -> p_done r <> None -> p_freed r = true.
Proof.
  intros e reclen encoding x flags k r. unfold tl_pack. destruct (65535 <? _); [intros H; injection H as <-; cbn; congruence|].
  destruct (next_at k PHead 0) as [p| | |]; try discriminate. cbn [bind]. destruct (pack_ids _ _ _ _ _) as [[recs [[[n tot] k']|]]| | |]; try discriminate; cbn [bind]; intros H; injection H as <-; cbn; congruence.
Qed.
