(** * Record start times of a packed series: the packing loop with ms_sampletime. *)

From Verif Require Import BaseLemmas RecProof.
From Verif Require Export PackModel PackSpec PackProof SampleProof.
Open Scope Z_scope.

(** [nextstarttime], pack.c:346: ms_sampletime of the series start.  (The
    value 0 stands for undefined behaviour in ms_sampletime, which is excluded where
    this is used.) *)
Definition next_start (mode : ovmode) (leaps : list Z) (m : msr) (k : Z) : Z :=
  match sampletime mode leaps (m_start m) k (m_rate m) with Ok t => t | _ => 0 end.

Lemma next_start_range mode leaps m k : in_s 64 (next_start mode leaps m k).
Proof.
  unfold next_start. destruct (sampletime _ _ _ _ _) as [t| | |] eqn:E; try (unfold in_s; lia).
  unfold sampletime in E. destruct (sample_span k (m_rate m)) as [s| | |]; try discriminate E. cbn [bind] in E.
  destruct (leap_adjust _ _ _ s) as [s'| | |]; try discriminate E. cbn [bind] in E.
  unfold sarith in E. destruct (in_sb 64 (m_start m + s')) eqn:B.
  - injection E as <-. now apply in_sb_spec.
  - destruct mode; [discriminate E|]. injection E as <-. apply swrap_range. lia.
Qed.

Lemma record_starts mode leaps m q N : dval (m_rate m) = DFin q -> Qnum q <> 0 ->
  (exact_span N q <= inject_Z (2 ^ 61))%Q -> N < 2 ^ 63 -> NSTERROR < m_start m <= 2 ^ 62 ->
  forall k, 0 <= k <= N -> starts_at (m_start m) leaps q k (record_time (next_start mode leaps m) m k) /\
    m_start m <= record_time (next_start mode leaps m) m k.
Proof.
  intros Hr Hq HS HN Ht k Hk. unfold record_time. destruct (k =? 0) eqn:E.
  - assert (k = 0) by lia. subst k. split; [|lia]. exists 0. split.
    + apply (near_span_comp _ 0%Q); [symmetry; apply exact_span_0|]. apply near_int. split; discriminate.
    + rewrite count_inside_0. cbn. lia.
  - unfold next_start. unfold NSTERROR in Ht.
    destruct (sampletime_ok mode leaps (m_start m) k (m_rate m) q Hr Hq ltac:(lia)) as (z & A & B & ->); [|lia|].
    + eapply Qle_trans; [apply (exact_span_mono k N); [exact Hq|lia]|exact HS].
    + split; [exists z; split; [exact A|reflexivity]|]. apply sampletime_ge. lia.
Qed.

Lemma pack_times fuel recip mode leaps hb m1 m2 alloc m type src flags u addr recs tot ok q :
  msr_ok recip m -> lenZ (m_sid m) < 64 -> Forall (fun b => b <> 0) (m_sid m) -> Forall (fun b => b <> 0) (m_extra m) ->
  packable m1 (encoding_of m) type src -> packable m2 (encoding_of m) type src -> src <> [] -> lenZ src < 2 ^ 31 ->
  dval (m_rate m) = DFin q -> Qnum q <> 0 -> (exact_span (lenZ src) q <= inject_Z (2 ^ 61))%Q -> NSTERROR < m_start m <= 2 ^ 62 ->
  bytes_ok alloc -> maxlen m <= lenZ alloc ->
  msr3_pack fuel recip (next_start mode leaps m) hb m1 alloc m type src flags = Ok (recs, tot, ok) ->
  exists chunks, concat chunks = firstn (Z.to_nat tot) src /\
    described (fun k c r => exists x, parse u false m2 addr 5 r = Ok (PRec x) /\ m_data x = Some (SInt c) /\
                 starts_at (m_start m) leaps q k (m_start x)) 0 recs chunks.
Proof.
  intros M Hs Ns Ne P1 P2 Hne Hn Hr Hq HS Ht Ba La E.
  pose proof (record_starts mode leaps m q (lenZ src) Hr Hq HS ltac:(lia) Ht) as R.
  destruct (pack_roundtrip fuel recip (next_start mode leaps m) hb m1 m2 alloc m type src flags u addr recs tot ok M Hs Ns Ne P1 P2 Hne Hn
    (next_start_range mode leaps m)) as (cs & Ec & Htot & D); auto.
  { intros k Hk. destruct (R k ltac:(lia)) as [_ Rg]. unfold readable_time. unfold NSTERROR in *.
    split; [|lia]. unfold record_time. destruct (k =? 0); [unfold in_s; lia|apply next_start_range]. }
  exists cs. split; [exact Ec|].
  assert (Ld : lenZ (concat cs) = tot) by (rewrite Ec; unfold lenZ in *; rewrite firstn_length; lia).
  assert (G : forall recs cs k, 0 <= k -> k + lenZ (concat cs) <= lenZ src ->
    described (fun k c r => c <> [] /\ lenZ r <= maxlen m /\ read_back u m2 addr recip (next_start mode leaps m) m k c r) k recs cs ->
    described (fun k c r => exists x, parse u false m2 addr 5 r = Ok (PRec x) /\ m_data x = Some (SInt c) /\
                 starts_at (m_start m) leaps q k (m_start x)) k recs cs).
  { clear - R. intros recs. induction recs as [|r rs IH]; intros [|c cs] k Hk Hl Hd; cbn [described] in *; try tauto.
    cbn [concat] in Hl. rewrite lenZ_app in Hl. pose proof (lenZ_nonneg (concat cs)). pose proof (lenZ_nonneg c).
    destruct Hd as [(_ & _ & crc & dl & P) Hd]. split; [|apply IH; [lia|lia|exact Hd]].
    eexists. split; [exact P|]. split; [reflexivity|]. cbn [m_start]. apply R. lia. }
  apply G; [lia|lia|exact D].
Qed.
