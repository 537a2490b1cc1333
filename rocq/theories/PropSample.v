(** * C41 and C26: sample times, end times and the start times of packed records.
    Vocabulary: SampleSpec.v.  The rate is a finite nonzero double [q] given by its bit
    pattern; spans up to 2^61 ns (73 years), times between 1823 and 2116. *)

From Verif Require Import Base SteimSpec CrcSpec TimeModel RecModel RecSpec PackModel PackSpec SampleModel SampleSpec SampleProof PackTimes.
Open Scope Z_scope.

(** ** C41 *)

(** The time of the last sample: the start plus (samples - 1) periods, to the nearest
    nanosecond up to double rounding, less one second for the leap second inside; for
    any overflow behaviour (nothing overflows). *)
Theorem C41_endtime : forall mode leaps t n rate q, dval rate = DFin q -> Qnum q <> 0 -> 1 <= n < 2 ^ 63 ->
  (exact_span (n - 1) q <= inject_Z (2 ^ 61))%Q -> - 2 ^ 62 <= t <= 2 ^ 62 ->
  exists z, near_span z (exact_span (n - 1) q) /\
    (count_inside t z leaps <= 1 ->
     endtime mode leaps t n rate = Ok (t + z - count_inside t z leaps * 1000000000)).
Proof.
  intros mode leaps t n rate q Hr Hq Hn HS Ht. unfold endtime. replace (0 <? n) with true by lia.
  destruct (sampletime_ok mode leaps t (n - 1) rate q Hr Hq ltac:(lia) HS Ht) as (z & A & B & E).
  exists z. split; [exact A|]. intros C. rewrite E. now rewrite Z.min_r by lia.
Qed.
Print Assumptions C41_endtime.

(** No leap second inside: unaffected by the list. *)
Theorem C41_unaffected : forall mode leaps t n rate q, dval rate = DFin q -> Qnum q <> 0 -> 1 <= n < 2 ^ 63 ->
  (exact_span (n - 1) q <= inject_Z (2 ^ 61))%Q -> - 2 ^ 62 <= t <= 2 ^ 62 ->
  exists z, endtime mode [] t n rate = Ok (t + z) /\
    (Forall (fun l => ~ inside t z l) leaps -> endtime mode leaps t n rate = endtime mode [] t n rate).
Proof.
  intros mode leaps t n rate q Hr Hq Hn HS Ht. unfold endtime. replace (0 <? n) with true by lia.
  destruct (span_ok (n - 1) rate q Hr Hq ltac:(lia) HS) as (z & E & _ & B).
  exists z. unfold sampletime. rewrite E. cbn [bind leap_adjust].
  split; [rewrite BaseLemmas.sarith_ok by (unfold in_s; lia); reflexivity|].
  intros F. rewrite adjust_none by assumption. reflexivity.
Qed.
Print Assumptions C41_unaffected.

(** Whole nanoseconds: below 2^48 ns (78 hours) the time is exact. *)
Theorem C41_exact : forall mode t n rate q k, dval rate = DFin q -> Qnum q <> 0 -> 1 <= n < 2 ^ 63 ->
  (exact_span (n - 1) q == inject_Z k)%Q -> 0 <= k < 2 ^ 48 -> - 2 ^ 62 <= t <= 2 ^ 62 ->
  endtime mode [] t n rate = Ok (t + k).
Proof.
  intros mode t n rate q k Hr Hq Hn HS Hk Ht.
  assert (HS' : (exact_span (n - 1) q <= inject_Z (2 ^ 61))%Q) by (rewrite HS; rewrite <- FloatOpsProof.zq_le; lia).
  destruct (C41_endtime mode [] t n rate q Hr Hq Hn HS' Ht) as (z & A & E).
  rewrite E by (cbn; lia). rewrite (near_exact z k _ A HS Hk). cbn [count_inside filter length]. f_equal. unfold count_inside. cbn. lia.
Qed.
Print Assumptions C41_exact.

(** 100 samples at 100 Hz and across the leap second of the end of 2016. *)
Example C41_instance : (exists q, dval 0x4059000000000000 = DFin q /\ (q == 100)%Q) /\
  endtime Strict [] 1483228799500000000 100 0x4059000000000000 = Ok 1483228800490000000 /\
  endtime Strict embedded_leaps 1483228799500000000 300 0x4059000000000000 = Ok (1483228802490000000 - 1000000000) /\
  count_inside 1483228799500000000 2990000000 embedded_leaps = 1.
Proof.
  split; [eexists; split; [vm_compute; reflexivity|reflexivity]|]. repeat split; vm_compute; reflexivity.
Qed.

(** Two listed leap seconds inside: only one second is taken off. *)
Theorem C41_two_leap_seconds_refuted : exists leaps t n rate q, dval rate = DFin q /\
  (exact_span (n - 1) q == inject_Z 30000000000)%Q /\ count_inside t 30000000000 leaps = 2 /\
  endtime Strict leaps t n rate = Ok (t + 30000000000 - 1000000000).
Proof.
  exists [5000000000; 15000000000], 0, 4, 0xC024000000000000. eexists. split; [vm_compute; reflexivity|].
  split; [reflexivity|]. split; reflexivity.
Qed.
Print Assumptions C41_two_leap_seconds_refuted.

(** The first entry of the embedded list is 1972-01-01, when leap seconds were
    introduced and none was inserted: a span across it is shortened all the same. *)
Example C41_embedded_first_entry :
  endtime Strict embedded_leaps (63072000000000000 - 5000000000) 11 0x3FF0000000000000 = Ok (63072000000000000 + 4000000000).
Proof. vm_compute. reflexivity. Qed.

(** Sample rate 0 or NaN: no span. *)
Theorem C41_no_rate : forall mode t n rate, dval rate = DNaN \/ (exists q, dval rate = DFin q /\ Qnum q = 0) -> in_s 64 t ->
  endtime mode [] t n rate = Ok t.
Proof.
  intros mode t n rate H Ht. unfold endtime, sampletime, sample_span.
  assert (E : dlt dzero (dval rate) = false /\ dlt (dval rate) dzero = false).
  { destruct H as [-> |(q & -> & Hq)]; [split; reflexivity|]. rewrite dlt_zero, dlt_zero', Hq. split; reflexivity. }
  destruct E as [-> ->]. destruct (0 <? (if 0 <? n then n - 1 else 0)); cbn [bind leap_adjust]; rewrite Z.add_0_r; now rewrite BaseLemmas.sarith_ok.
Qed.
Print Assumptions C41_no_rate.

(** ** C26 *)

(** Packing with the library's own next start time: each record emitted parses to its
    share of the samples and starts at the series start advanced by the samples packed
    before it. *)
Theorem C26_start : forall fuel recip mode leaps hb m1 m2 alloc m type src flags u addr recs tot ok q,
  msr_ok recip m -> lenZ (m_sid m) < 64 -> Forall (fun b => b <> 0) (m_sid m) -> Forall (fun b => b <> 0) (m_extra m) ->
  packable m1 (encoding_of m) type src -> packable m2 (encoding_of m) type src -> src <> [] -> lenZ src < 2 ^ 31 ->
  dval (m_rate m) = DFin q -> Qnum q <> 0 -> (exact_span (lenZ src) q <= inject_Z (2 ^ 61))%Q -> NSTERROR < m_start m <= 2 ^ 62 ->
  bytes_ok alloc -> maxlen m <= lenZ alloc ->
  msr3_pack fuel recip (next_start mode leaps m) hb m1 alloc m type src flags = Ok (recs, tot, ok) ->
  exists chunks, concat chunks = firstn (Z.to_nat tot) src /\
    described (fun k c r => exists x, parse u false m2 addr 5 r = Ok (PRec x) /\ m_data x = Some (SInt c) /\
                 starts_at (m_start m) leaps q k (m_start x)) 0 recs chunks.
Proof. exact pack_times. Qed.
Print Assumptions C26_start.

(** What this means when the spans are whole nanoseconds below 2^48 and there is no leap
    second: exactly [k] periods after the start. *)
Theorem C26_exact : forall start q k t n, starts_at start [] q k t -> (exact_span k q == inject_Z n)%Q -> 0 <= n < 2 ^ 48 ->
  t = start + n.
Proof. intros start q k t n (z & A & ->) E Hn. rewrite (near_exact z n _ A E Hn). unfold count_inside. cbn. lia. Qed.
Print Assumptions C26_exact.

(** Two records, the second starting two samples (20 ms) later. *)
Example C26_instance : let m := mk_msr 50 false false 3 4 [88; 88] 1709168523000000500 0x4059000000000000 3 2 0 0 [] 0 None in
  (exact_span 3 (inject_Z 100) <= inject_Z (2 ^ 61))%Q /\
  exists r1 r2 x, msr3_pack 4 Z.opp (next_start Strict embedded_leaps m) true Strict (repeat 9 4096) m 105 [5; -7; 9] 64 = Ok ([r1; r2], 3, true) /\
    parse (fun _ _ => Err (-1)) false Strict 0 5 r2 = Ok (PRec x) /\ m_start x = 1709168523020000500.
Proof.
  cbv zeta. split; [vm_compute; discriminate|]. eexists. eexists. eexists. split; [vm_compute; reflexivity|].
  split; [vm_compute; reflexivity|]. reflexivity.
Qed.
