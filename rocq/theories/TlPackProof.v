(** * Packing a trace list: proofs. *)

From Verif Require Import BaseLemmas RecProof PackProof PackTimes SampleProof V2Rate Pack2Hdr Pack2Proof Pack2Rate Pack2Read Pack2All TlTime TlPackModel TlPackSpec.
Open Scope Z_scope.

(** ** Paths through linked nodes *)

Section Path.
Context {A : Type}.
Implicit Types (g : nat -> option (A * option nat)) (l : list (nat * A)).

Fixpoint path g (p : option nat) l : Prop :=
  match l with
  | [] => p = None
  | (a, x) :: l' => p = Some a /\ exists q, g a = Some (x, q) /\ path g q l'
  end.

Lemma path_unique g : forall l l' p, path g p l -> path g p l' -> l = l'.
Proof.
  induction l as [|[a x] l IH]; intros [|[a' x'] l'] p H H'; cbn [path] in *; auto.
  - destruct H' as [E _]. congruence.
  - destruct H as [E _]. congruence.
  - destruct H as (E & q & G & P), H' as (E' & q' & G' & P'). assert (a' = a) by congruence. subst a'.
    rewrite G in G'. injection G' as <- <-. f_equal. eapply IH; eassumption.
Qed.

Lemma path_split g : forall l1 l2 p, path g p (l1 ++ l2) -> exists q, path g q l2.
Proof. induction l1 as [|[a x] l1 IH]; intros l2 p H; [exists p; exact H|]. destruct H as (_ & q & _ & H). eapply IH; eassumption. Qed.

Lemma path_nodup g : forall l p, path g p l -> NoDup (map fst l).
Proof.
  induction l as [|[a x] l IH]; intros p H; cbn [map fst]; [constructor|]. pose proof H as H0. destruct H as (E & q & G & P). constructor; [|eapply IH; eassumption].
  intros I. apply in_map_iff in I. destruct I as ([b y] & Eb & I). cbn [fst] in Eb. subst b. apply in_split in I. destruct I as (l1 & l2 & ->).
  destruct (path_split g l1 _ _ P) as (p' & P'). assert (p' = p) by (destruct P' as [-> _]; congruence). subst p'.
  pose proof (path_unique g _ _ _ H0 P') as U. apply (f_equal (@length _)) in U. cbn [length] in U. rewrite app_length in U. cbn [length] in U. lia.
Qed.

Lemma path_ext g g' : forall l p, (forall a, In a (map fst l) -> g' a = g a) -> path g p l -> path g' p l.
Proof.
  induction l as [|[a x] l IH]; intros p He H; [exact H|]. destruct H as (E & q & G & P). cbn [map fst In] in He.
  split; [exact E|]. exists q. split; [rewrite He; auto|apply IH; auto].
Qed.
End Path.

(** ** The segments of an identifier *)

Definition seg_link (h : heap) (a : nat) : option (seg * option nat) :=
  match h a with Some n => Some (n_seg n, n_next n) | None => None end.

Lemma walk_path h : forall fuel p segs, walk_segs fuel h p = Ok segs -> exists l, map snd l = segs /\ path (seg_link h) p l /\ (length l < fuel)%nat.
Proof.
  induction fuel as [|fuel IH]; intros p segs E; [discriminate|]. cbn [walk_segs] in E. destruct p as [a|].
  - unfold deref in E. destruct (h a) as [n|] eqn:Ha; [|discriminate]. cbn [bind] in E. destruct (walk_segs fuel h (n_next n)) as [l| | |] eqn:W; try discriminate.
    injection E as <-. destruct (IH _ _ W) as (l0 & <- & P & L). exists ((a, n_seg n) :: l0). split; [reflexivity|]. split; [|cbn; lia].
    split; [reflexivity|]. exists (n_next n). split; [unfold seg_link; now rewrite Ha|exact P].
  - injection E as <-. exists []. split; [reflexivity|]. split; [reflexivity|cbn; lia].
Qed.

Lemma path_walk h : forall l fuel p, path (seg_link h) p l -> (length l < fuel)%nat -> walk_segs fuel h p = Ok (map snd l).
Proof.
  induction l as [|[a s] l IH]; intros [|fuel] p H L; cbn [length] in L; try lia; cbn [walk_segs path] in *.
  - now subst p.
  - destruct H as (-> & q & G & P). unfold seg_link in G. unfold deref. destruct (h a) as [n|]; [|discriminate]. injection G as <- <-. cbn [bind].
    rewrite (IH fuel _ P) by lia. reflexivity.
Qed.

Definition sum (f : outcome -> Z) (xs : list outcome) : Z := fold_right (fun x a => f x + a) 0 xs.
Definition goes (e : penv) (o : popt) (sid : list Z) (pub : Z) (s : seg) (x : outcome) : Prop :=
  pack_seg e o sid pub s = Ok (x_recs x, Some (x_ret x, x_tot x, x_seg x)).

Lemma pack_segs_ok e o sid pub : forall l xs fuel h p, path (seg_link h) p l -> NoDup (map fst l) -> (length l < fuel)%nat ->
  Forall2 (goes e o sid pub) (map snd l) xs ->
  exists h' l', pack_segs fuel e o sid pub h p = Ok (concat (map x_recs xs), Some (sum x_ret xs, sum x_tot xs, h')) /\
    path (seg_link h') p l' /\ map fst l' = map fst l /\ map snd l' = map x_seg xs /\ (forall a, ~ In a (map fst l) -> h' a = h a).
Proof.
  induction l as [|[a s] l IH]; intros xs [|fuel] h p P N L F; cbn [length] in L; try lia; cbn [map snd] in F; inversion F as [|? x ? xs' G F']; subst.
  - cbn [path] in P. subst p. exists h, []. repeat split.
  - destruct P as (-> & q & Ga & P). cbn [map fst] in N. inversion N as [|? ? Ni N']; subst. unfold seg_link in Ga. destruct (h a) as [n|] eqn:Ha; [|discriminate].
    injection Ga as <- <-. cbn [pack_segs]. unfold deref. rewrite Ha. cbn [bind]. unfold goes in G. rewrite G. cbn [bind]. unfold set_seg, deref. rewrite Ha. cbn [bind].
    set (h1 := hupd h a _).
    destruct (IH xs' fuel h1 (n_next n)) as (h' & l' & E & P' & M1 & M2 & Fr); [|exact N'|lia|exact F'|].
    { eapply path_ext; [|exact P]. intros b I. unfold seg_link, h1, hupd. destruct (Nat.eqb_spec b a) as [->|]; [contradiction|reflexivity]. }
    rewrite E. cbn [bind]. exists h', ((a, x_seg x) :: l'). split; [reflexivity|]. cbn [map fst snd]. rewrite M1, M2. split; [|split; [reflexivity|split; [reflexivity|]]].
    + split; [reflexivity|]. exists (n_next n). split; [|exact P']. unfold seg_link. rewrite Fr by exact Ni. unfold h1, hupd. rewrite Nat.eqb_refl. reflexivity.
    + intros b I. rewrite Fr by (intros I'; apply I; right; exact I'). unfold h1, hupd. destruct (Nat.eqb_spec b a) as [->|]; [exfalso; apply I; now left|reflexivity].
Qed.

Lemma pack_tid_ok e o t segs xs : tid_segs t = Ok segs -> Forall2 (goes e o (t_sid t) (t_pub t)) segs xs ->
  exists h', pack_segs (S (t_fresh t)) e o (t_sid t) (t_pub t) (t_heap t) (t_first t) = Ok (concat (map x_recs xs), Some (sum x_ret xs, sum x_tot xs, h')) /\
    same_entry t (with_heap t h') /\ tid_segs (with_heap t h') = Ok (map x_seg xs).
Proof.
  intros E F. destruct (walk_path _ _ _ _ E) as (l & <- & P & L). destruct (pack_segs_ok e o (t_sid t) (t_pub t) l xs _ _ _ P (path_nodup _ _ _ P) L F) as (h' & l' & E' & P' & M1 & M2 & _).
  exists h'. split; [exact E'|]. split; [repeat split|]. unfold tid_segs, with_heap. cbn [t_fresh t_heap t_first]. rewrite <- M2. apply path_walk; [exact P'|].
  apply (f_equal (@length _)) in M1. rewrite !map_length in M1. lia.
Qed.

(** ** The identifiers of a list *)

Definition id_link (k : tlist) (a : nat) : option (tid * option nat) :=
  match k_nodes k a with Some n => match nth_error (i_next n) 0 with Some q => Some (i_tid n, q) | None => None end | None => None end.

Lemma ids_path k : forall fuel p ids, walk fuel k p = Ok ids -> exists l, map snd l = ids /\ path (id_link k) p l /\ (length l < fuel)%nat.
Proof.
  induction fuel as [|fuel IH]; intros p ids E; [discriminate|]. cbn [walk] in E. destruct p as [a|].
  - cbn [next_at] in E. destruct (k_nodes k a) as [n|] eqn:Ha; [|discriminate]. destruct (nth_error (i_next n) 0) as [q|] eqn:Hn; [|discriminate]. cbn [bind] in E.
    destruct (walk fuel k q) as [l| | |] eqn:W; try discriminate.
    injection E as <-. destruct (IH _ _ W) as (l0 & <- & P & L). exists ((a, i_tid n) :: l0). split; [reflexivity|]. split; [|cbn; lia].
    split; [reflexivity|]. exists q. split; [unfold id_link; now rewrite Ha, Hn|exact P].
  - injection E as <-. exists []. split; [reflexivity|]. split; [reflexivity|cbn; lia].
Qed.

Lemma path_ids k : forall l fuel p, path (id_link k) p l -> (length l < fuel)%nat -> walk fuel k p = Ok (map snd l).
Proof.
  induction l as [|[a s] l IH]; intros [|fuel] p H L; cbn [length] in L; try lia; cbn [walk path] in *.
  - now subst p.
  - destruct H as (-> & q & G & P). unfold id_link in G. cbn [next_at]. destruct (k_nodes k a) as [n|]; [|discriminate].
    destruct (nth_error (i_next n) 0) as [q'|]; [|discriminate]. injection G as <- <-. cbn [bind].
    rewrite (IH fuel _ P) by lia. reflexivity.
Qed.

Lemma sum_app f a b : sum f (a ++ b) = sum f a + sum f b.
Proof. unfold sum. induction a as [|x a IH]; cbn [fold_right app]; lia. Qed.

Lemma pack_ids_ok e o : forall l xss fuel k p, path (id_link k) p l -> NoDup (map fst l) -> (length l < fuel)%nat ->
  Forall2 (fun t xs => exists segs, tid_segs t = Ok segs /\ Forall2 (goes e o (t_sid t) (t_pub t)) segs xs) (map snd l) xss ->
  exists k' l', pack_ids fuel e o k p = Ok (concat (map x_recs (concat xss)), Some (sum x_ret (concat xss), sum x_tot (concat xss), k')) /\
    path (id_link k') p l' /\ map fst l' = map fst l /\ k_head k' = k_head k /\ k_fresh k' = k_fresh k /\ k_num k' = k_num k /\
    Forall2 same_entry (map snd l) (map snd l') /\ Forall2 (fun t' xs => tid_segs t' = Ok (map x_seg xs)) (map snd l') xss /\
    (forall a, ~ In a (map fst l) -> k_nodes k' a = k_nodes k a).
Proof.
  induction l as [|[a t] l IH]; intros xss [|fuel] k p P N L F; cbn [length] in L; try lia; cbn [map snd] in F; inversion F as [|? xs ? xss' G F']; subst.
  - cbn [path] in P. subst p. exists k, []. repeat split; constructor.
  - destruct P as (-> & q & Ga & P). cbn [map fst] in N. inversion N as [|? ? Ni N']; subst. unfold id_link in Ga. destruct (k_nodes k a) as [n|] eqn:Ha; [|discriminate].
    destruct (nth_error (i_next n) 0) as [q'|] eqn:Hn; [|discriminate].
    injection Ga as Et <-. cbn [pack_ids]. rewrite Ha. rewrite Et. destruct G as (segs & Es & G). destruct (pack_tid_ok e o t segs xs Es G) as (h' & E1 & S1 & S2).
    rewrite E1. cbn [bind]. set (k1 := set_tid k a n (with_heap t h')).
    assert (K1 : next_at k1 (PNode a) 0 = Ok q') by (unfold next_at, k1, set_tid; cbn [k_nodes]; rewrite Nat.eqb_refl; cbn [i_next]; now rewrite Hn).
    rewrite K1. cbn [bind].
    destruct (IH xss' fuel k1 q') as (k' & l' & E & P' & M1 & H1 & H2 & H3 & M2 & M3 & Fr); [|exact N'|lia|exact F'|].
    { eapply path_ext; [|exact P]. intros b I. unfold id_link, k1, set_tid. cbn [k_nodes]. destruct (Nat.eqb_spec b a) as [->|]; [contradiction|reflexivity]. }
    rewrite E. cbn [bind]. exists k', ((a, with_heap t h') :: l'). split.
    { cbn [concat]. rewrite map_app, concat_app, !sum_app. reflexivity. }
    cbn [map fst snd]. rewrite M1. split; [|split; [reflexivity|split; [exact H1|split; [exact H2|split; [exact H3|split; [constructor; assumption|split; [constructor; assumption|]]]]]]].
    + split; [reflexivity|]. exists q'. split; [|exact P']. unfold id_link. rewrite Fr by exact Ni. unfold k1, set_tid. cbn [k_nodes]. rewrite Nat.eqb_refl. cbn [i_next i_tid]. now rewrite Hn.
    + intros b I. rewrite Fr by (intros I'; apply I; right; exact I'). unfold k1, set_tid. cbn [k_nodes]. destruct (Nat.eqb_spec b a) as [->|]; [exfalso; apply I; now left|reflexivity].
Qed.

Lemma tl_pack_ok e o k ids xss : lenZ (extra_text o) < 65536 -> tl_ids k = Ok ids ->
  Forall2 (fun t xs => exists segs, tid_segs t = Ok segs /\ Forall2 (goes e o (t_sid t) (t_pub t)) segs xs) ids xss ->
  exists r, tl_pack e o k = Ok r /\ yields ids o xss r.
Proof.
  intros X E F. unfold tl_ids in E. unfold tl_pack. fold (lenZ (extra_text o)). destruct (Z.ltb_spec 65535 (lenZ (extra_text o))); [lia|].
  cbn [next_at] in *. destruct (nth_error (k_head k) 0) as [p|] eqn:Hp; [|discriminate]. cbn [bind] in *.
  destruct (ids_path _ _ _ _ E) as (l & <- & P & L).
  destruct (pack_ids_ok e o l xss _ _ _ P (path_nodup _ _ _ P) L F) as (k' & l' & E' & P' & M1 & H1 & H2 & H3 & M2 & M3 & _).
  rewrite E'. cbn [bind]. eexists. split; [reflexivity|]. unfold yields. cbn [p_recs p_ret p_done]. split; [reflexivity|]. split; [reflexivity|].
  exists k', (map snd l'). split; [reflexivity|]. split; [|split; assumption].
  unfold tl_ids. cbn [next_at]. rewrite H1, Hp. cbn [bind]. rewrite H2. apply path_ids; [exact P'|].
  apply (f_equal (@length _)) in M1. rewrite !map_length in M1. lia.
Qed.

(** ** One segment *)

Lemma seg_encoding_is o type : seg_encoding o type = encoding_for o type.
Proof.
  unfold seg_encoding, encoding_for. destruct (Z.eqb_spec type 116) as [->|]; [reflexivity|]. destruct (Z.eqb_spec type 102) as [->|]; [reflexivity|].
  destruct (Z.eqb_spec type 100) as [->|]; [reflexivity|]. repeat match goal with |- _ = match ?x with _ => _ end => destruct x; try reflexivity end; congruence.
Qed.

Lemma wanted_is o t s : seg_msr o (t_sid t) (t_pub t) s = wanted o t s.
Proof. unfold seg_msr, wanted. now rewrite seg_encoding_is. Qed.

Lemma packable_size mode enc type src : packable mode enc type src -> samplesize type =? 0 = false.
Proof. unfold packable. intros [(_ & [->| ->] & _)|[(_ & -> & _)|[(_ & -> & _)|[(_ & -> & _)|[(_ & -> & _)|(_ & -> & _)]]]]]; reflexivity. Qed.

Lemma rate_value s x q : rnd64 x = Some q -> s_hz s = DFin q -> exists q', dval (dbits (s_hz s)) = DFin q' /\ (q' == q)%Q.
Proof. intros R ->. apply (proj2 (dbits_value x q R)). Qed.

Lemma exact_span_comp k (q q' : Q) : (q' == q)%Q -> (exact_span k q' == exact_span k q)%Q.
Proof.
  intros E. unfold exact_span, period_ns. assert ((0 <? Qnum q') = (0 <? Qnum q)) as ->.
  { destruct q as [n d], q' as [n' d']. unfold Qeq in E. cbn [Qnum Qden] in *. destruct (Z.ltb_spec 0 n), (Z.ltb_spec 0 n'); try reflexivity; exfalso; nia. }
  destruct (0 <? Qnum q); now rewrite E.
Qed.

Lemma starts_comp start leaps k t (q q' : Q) : (q' == q)%Q -> starts_at start leaps q' k t -> starts_at start leaps q k t.
Proof. intros E (z & N & T). exists z. split; [|exact T]. eapply near_span_comp; [apply exact_span_comp; exact E|exact N]. Qed.

Lemma times_ok mode leaps o t s x q : rnd64 x = Some q -> s_hz s = DFin q -> (0 < q)%Q -> (exact_span (lenZ (s_data s)) q <= inject_Z (2 ^ 61))%Q ->
  lenZ (s_data s) < 2 ^ 63 -> NSTERROR < s_start s <= 2 ^ 62 ->
  let m := wanted o t s in let next := next_start mode leaps m in
  forall k, 0 <= k <= lenZ (s_data s) ->
    starts_at (s_start s) leaps q k (record_time next m k) /\ s_start s <= record_time next m k /\
    exists v, sampletime mode leaps (s_start s) k (dbits (s_hz s)) = Ok v /\ starts_at (s_start s) leaps q k v.
Proof.
  intros R Hz Q0 Sp L T m next k Hk. destruct (rate_value s x q R Hz) as (q' & D & Eq).
  assert (Q1 : Qnum q' <> 0). { intros Z. assert (q' == 0)%Q by (unfold Qeq; cbn [Qnum Qden]; rewrite Z; lia). rewrite Eq in H. rewrite H in Q0. discriminate Q0. }
  assert (S1 : (exact_span (lenZ (s_data s)) q' <= inject_Z (2 ^ 61))%Q) by (rewrite (exact_span_comp _ _ _ Eq); exact Sp).
  destruct (record_starts mode leaps m q' (lenZ (s_data s)) D Q1 S1 L T k Hk) as [A B]. split; [eapply starts_comp; eassumption|]. split; [exact B|].
  unfold NSTERROR in T. destruct (sampletime_ok mode leaps (s_start s) k (dbits (s_hz s)) q' D Q1 ltac:(lia)) as (z & N & _ & E).
  { eapply Qle_trans; [apply (exact_span_mono k (lenZ (s_data s))); [exact Q1|lia]|exact S1]. }
  { lia. }
  eexists. split; [exact E|]. eapply starts_comp; [exact Eq|]. exists z. split; [exact N|reflexivity].
Qed.

Lemma finish e o t s recs tot q : pack_any e (wanted o t s) (s_type s) (s_data s) (o_flags o) = Ok (recs, tot, true) ->
  0 <= tot <= lenZ (s_data s) -> lenZ (s_data s) < 2 ^ 32 -> 0 <= s_cnt s < 2 ^ 63 -> samplesize (s_type s) =? 0 = false -> s_hz s = DFin q ->
  (forall k, 0 <= k <= lenZ (s_data s) -> exists v, sampletime (e_mode e) (e_leaps e) (s_start s) k (dbits (s_hz s)) = Ok v /\ starts_at (s_start s) (e_leaps e) q k v) ->
  exists s', goes e o (t_sid t) (t_pub t) s (mk_out recs (lenZ recs) tot s') /\ left (e_leaps e) (o_flags o) s tot s'.
Proof.
  intros E Ht Ls Hc Sz Hz Hv. unfold goes, pack_seg. rewrite wanted_is, E. cbn [bind x_recs x_ret x_tot x_seg]. fold (lenZ recs). fold (lenZ (s_data s)).
  change MSF_MAINTAINMSTL with 512. unfold left. destruct (has_flag (o_flags o) 512); cbn [negb andb orb].
  { exists s. split; reflexivity. }
  destruct (Z.ltb_spec 0 tot); destruct (Z.eqb_spec tot 0); try lia.
  2:{ exists s. split; reflexivity. }
  change (m_rate (wanted o t s)) with (dbits (s_hz s)). rewrite Sz.
  assert (C : sarith (e_mode e) 64 (s_cnt s - tot) = Ok (s_cnt s - tot)) by (apply sarith_ok; unfold in_s; lia).
  destruct (Z.eqb_spec tot (lenZ (s_data s))).
  - cbn [bind]. rewrite C. cbn [bind]. eexists. split; [reflexivity|]. cbn [s_data s_cnt s_end s_hz s_type s_recs s_start]. repeat split.
  - destruct (Hv tot Ht) as (v & V & W). rewrite V. cbn [bind]. rewrite C. cbn [bind]. eexists. split; [reflexivity|]. cbn [s_data s_cnt s_end s_hz s_type s_recs s_start]. repeat split. exists q. split; assumption.
Qed.

Lemma described_map (D D' : Z -> list Z -> list Z -> Prop) N : (forall k c r, 0 <= k -> k + lenZ c <= N -> D k c r -> D' k c r) ->
  forall recs cs k, 0 <= k -> k + lenZ (concat cs) <= N -> described D k recs cs -> described D' k recs cs.
Proof.
  intros H recs. induction recs as [|r rs IH]; intros [|c cs] k Hk Hl Hd; cbn [described] in *; try tauto.
  cbn [concat] in Hl. rewrite lenZ_app in Hl. pose proof (lenZ_nonneg (concat cs)). pose proof (lenZ_nonneg c).
  destruct Hd as [A B]. split; [apply H; [lia|lia|exact A]|apply IH; [lia|lia|exact B]].
Qed.

Lemma reclen_passes o t s : (o_reclen o = -1 \/ 40 <= o_reclen o <= 10485760) ->
  negb (m_reclen (wanted o t s) =? -1) && ((m_reclen (wanted o t s) <? MINRECLEN) || (MAXRECLEN <? m_reclen (wanted o t s))) = false.
Proof. cbn [wanted m_reclen]. intros [-> |H]; [reflexivity|]. unfold MINRECLEN, MAXRECLEN. lia. Qed.

Lemma seg3_ok u mode2 addr e o t s : has_flag (o_flags o) MSF_PACKVER2 = false -> good_call e o -> good_id t -> ready3 mode2 e o t s ->
  exists x, goes e o (t_sid t) (t_pub t) s x /\ packed3 u mode2 addr (e_recip e) (e_leaps e) o t s x.
Proof.
  intros V (Rc & Ba & Rl & La & Bx & Nx & Lx) (Bs & Ls & Ns & Pb) ((x & q & Rx & Hz & Q0 & Sp) & Ht & Hc & P1 & P2 & St & Ln & Lf & Mp).
  set (m := wanted o t s) in *. change (maxlen m <= lenZ (e_alloc e)) in La.
  pose proof (times_ok (e_mode e) (e_leaps e) o t s x q Rx Hz Q0 Sp ltac:(lia) Ht) as T. cbv zeta in T. fold m in T.
  assert (M : msr_ok (e_recip e) m).
  { destruct (dbits_value x q Rx) as (Hd & _). rewrite <- Hz in Hd. unfold msr_ok, m. cbn [wanted m_flags m_start m_pub m_sid m_extra]. unfold NSTERROR in Ht. split; [unfold in_u; lia|]. split; [unfold in_s; lia|].
    split; [|split; [exact Pb|split; [exact Bs|split; [lia|split; [exact Bx|exact Lx]]]]]. unfold rate_of. cbn [m_rate]. destruct (_ && _); [apply Rc|exact Hd]. }
  assert (R : reclen_ok m) by exact Rl.
  set (next := next_start (e_mode e) (e_leaps e) m) in *.
  assert (A : forall type src flags, flags = o_flags o -> pack_any e m type src flags = msr3_pack (e_fuel e) (e_recip e) next (e_hb e) (e_mode e) (e_alloc e) m type src flags).
  { intros type src flags ->. unfold pack_any, msr3_pack. rewrite V. reflexivity. }
  assert (Rt : forall k, 0 <= k < lenZ (s_data s) + 1 -> readable_time (record_time next m k)).
  { intros k Hk. destruct (T k ltac:(lia)) as (_ & G & _). unfold readable_time. unfold NSTERROR in *.
    split; [|lia]. unfold record_time in *. destruct (k =? 0); [unfold in_s; change (m_start m) with (s_start s); lia|apply next_start_range]. }
  destruct (list_eq_dec Z.eq_dec (s_data s) []) as [E0|E0].
  - pose proof (Rt 0 ltac:(pose proof (lenZ_nonneg (s_data s)); lia)) as R0. change (record_time next m 0) with (m_start m) in R0.
    assert (Hl : hdrlen m <= maxlen m). { unfold min_payload in Mp. destruct (_ =? 0); [lia|]. destruct (_ =? 1); [lia|]. destruct (_ || _); [lia|]. destruct (_ =? 5); lia. }
    destruct (pack_empty_parse (e_fuel e) (e_recip e) next (e_hb e) (e_mode e) mode2 (e_alloc e) m (s_type s) (o_flags o) u addr M Ba La R Hl Ls Ns R0) as (r & crc & E & Pr).
    rewrite <- A in E by reflexivity. rewrite <- E0 in E.
    destruct (finish e o t s [r] 0 q E) as (s' & G & Lf'); auto; [pose proof (lenZ_nonneg (s_data s)); lia|lia|eapply packable_size; exact P1|intros k Hk; apply T; exact Hk|].
    eexists. split; [exact G|]. unfold packed3. cbn [x_recs x_ret x_tot x_seg]. rewrite E0. split; [reflexivity|]. split; [cbn; lia|]. split; [reflexivity|]. split; [exact Lf'|].
    split; [|congruence]. intros _. exists r, crc. split; [reflexivity|exact Pr].
  - pose proof (pack_ok (e_fuel e) (e_recip e) next (e_hb e) (e_mode e) mode2 (e_alloc e) m (s_type s) (s_data s) (o_flags o) M P1 P2 E0 ltac:(lia) (next_start_range _ _ _) Ba La) as K. cbv zeta in K.
    destruct (msr3_pack _ _ _ _ _ _ _ _ _ _) as [[[recs tot] ok]|c|ub|] eqn:E.
    2:{ destruct K as [[] _]. } 2:{ destruct K as [[] _]. } 2:{ destruct K as [_ K]. exfalso. now apply K. }
    destruct K as [(cs0 & _ & _ & _ & _ & _ & Fl & Ok1) _].
    assert (ok = true) as -> by (destruct Ok1 as [->|(_ & N)]; [reflexivity|exfalso; apply N; repeat split; auto; lia]).
    destruct (pack_roundtrip (e_fuel e) (e_recip e) next (e_hb e) (e_mode e) mode2 (e_alloc e) m (s_type s) (s_data s) (o_flags o) u addr recs tot true M Ls Ns Nx P1 P2 E0 Ln
      (next_start_range _ _ _)) as (cs & Ec & Htot & D); auto.
    { intros k Hk. apply Rt. lia. }
    rewrite <- A in E by reflexivity.
    destruct (finish e o t s recs tot q E) as (s' & G & Lf'); auto; [lia|eapply packable_size; exact P1|intros k Hk; apply T; exact Hk|].
    eexists. split; [exact G|]. unfold packed3. cbn [x_recs x_ret x_tot x_seg]. fold m. split; [reflexivity|]. split; [exact Htot|]. split; [auto|]. split; [exact Lf'|].
    split; [congruence|]. intros _. exists q, cs. split; [exact Hz|]. split; [exact Ec|].
    assert (Ld : lenZ (concat cs) = tot) by (rewrite Ec; unfold lenZ in *; rewrite firstn_length; lia).
    eapply (described_map _ _ (lenZ (s_data s))); [|lia|lia|exact D].
    intros k c r Hk Hl (N & Lr & crc & dl & Pr). split; [exact N|]. split; [exact Lr|]. exists (record_time next m k), crc, dl. split; [|exact Pr].
    apply T. pose proof (lenZ_nonneg c). lia.
Qed.

Lemma choose {A B} (R : A -> B -> Prop) l : Forall (fun a => exists b, R a b) l -> exists m, Forall2 R l m.
Proof. intros F. induction F as [|a l (b & Hb) F (m & IH)]; [exists []; constructor|]. exists (b :: m). now constructor. Qed.

Lemma Forall2_mono {A B} (P Q : A -> B -> Prop) l m : (forall a b, P a b -> Q a b) -> Forall2 P l m -> Forall2 Q l m.
Proof. intros H F. induction F; constructor; auto. Qed.

(** Any statement about each segment is one about the list. *)
Lemma list_ok e o k ids (D : tid -> seg -> outcome -> Prop) (R : tid -> seg -> Prop) : lenZ (extra_text o) < 65536 -> tl_ids k = Ok ids ->
  (forall t s, R t s -> exists x, goes e o (t_sid t) (t_pub t) s x /\ D t s x) ->
  Forall (fun t => exists segs, tid_segs t = Ok segs /\ Forall (R t) segs) ids ->
  exists r xss, tl_pack e o k = Ok r /\ yields ids o xss r /\ Forall2 (fun t xs => exists segs, tid_segs t = Ok segs /\ Forall2 (D t) segs xs) ids xss.
Proof.
  intros X E H F.
  destruct (choose (fun t xs => exists segs, tid_segs t = Ok segs /\ Forall2 (fun s x => goes e o (t_sid t) (t_pub t) s x /\ D t s x) segs xs) ids) as (xss & G).
  { eapply Forall_impl; [|exact F]. intros t (segs & Et & Fs). destruct (choose (fun s x => goes e o (t_sid t) (t_pub t) s x /\ D t s x) segs) as (xs & Fx).
    - eapply Forall_impl; [|exact Fs]. intros s Rs. apply H. exact Rs.
    - exists xs, segs. split; assumption. }
  destruct (tl_pack_ok e o k ids xss X E) as (r & Er & Y).
  { eapply Forall2_mono; [|exact G]. intros t xs (segs & A & B). exists segs. split; [exact A|]. eapply Forall2_mono; [|exact B]. cbv beta. tauto. }
  exists r, xss. split; [exact Er|]. split; [exact Y|]. eapply Forall2_mono; [|exact G]. intros t xs (segs & A & B). exists segs. split; [exact A|]. eapply Forall2_mono; [|exact B]. cbv beta. tauto.
Qed.

(** ** The same for version 2 *)

Lemma pack2_done fuel nexttime hb mode stack alloc m k type src flags f :
  sendable m k -> (64 <= length stack)%nat -> maxlen m <= lenZ alloc ->
  packable mode (encoding_of m) type src -> src <> [] -> lenZ src < 65536 -> (forall i, in_s 64 (nexttime i)) ->
  genfactmult mode (sampratehz (m_rate m)) = Ok f -> lenZ src < Z.of_nat fuel ->
  (is_steim (encoding_of m) = true -> 128 < maxlen m) -> storable (encoding_of m) src ->
  exists recs tot, pack2 fuel nexttime hb mode stack alloc m type src flags = Ok (recs, tot, true) /\ (has_flag flags 64 = true -> tot = lenZ src).
Proof.
  intros (K & S & (e & He & M) & T & Hr & x & Ex) St La P Hne Hn Hx Gf Hu Sp Sb. destruct f as [f mu].
  pose proof (pack2_ok fuel nexttime hb mode mode stack alloc m k f mu e type src flags K S St He M T Gf P P Hne ltac:(lia) Hx La) as Q. cbv zeta in Q.
  set (us := micros (m_start m)) in *. set (w := rate_blk m f mu) in *. 
  destruct (pack2 fuel nexttime hb mode stack alloc m type src flags) as [[[recs tot] ok]|c|u|].
  - destruct Q as [(cs & _ & _ & Ht & Hl & Q1 & [-> |(_ & [N|(n & p & (Pn & _) & Big)])]) _].
    + exists recs, tot. auto.
    + exfalso. apply N. split; [|exact Sb]. unfold data_at. destruct (exp_is e He) as (_ & _ & X3). pose proof (hlen_cases us w).
      unfold min_payload. unfold is_steim in Sp. destruct ((encoding_of m =? 10) || (encoding_of m =? 11)) eqn:Es.
      * specialize (Sp eq_refl). assert (256 <= maxlen m). { rewrite M in *. destruct (Z.eq_dec e 7) as [->|]; [now cbn in Sp|]. change 256 with (2 ^ 8). apply Z.pow_le_mono_r; lia. }
        destruct (encoding_of m =? 0) eqn:?; [lia|]. destruct (encoding_of m =? 1) eqn:?; [lia|]. destruct ((encoding_of m =? 3) || (encoding_of m =? 4)) eqn:?; [lia|].
        destruct (encoding_of m =? 5) eqn:?; [lia|]. destruct (hlen us w <=? 64); lia.
      * assert (C : encoding_of m = 0 \/ encoding_of m = 1 \/ encoding_of m = 3 \/ encoding_of m = 4 \/ encoding_of m = 5).
        { clear - P Es. unfold packable in P. destruct P as [(C & _)|[(C & _)|[(C & _)|[(C & _)|[(C & _)|(C & _)]]]]]; lia. }
        destruct C as [C|[C|[C|[C|C]]]]; rewrite C; cbn [Z.eqb Pos.eqb orb]; clear - H M X3; lia.
    + exfalso. unfold lenZ in *. rewrite skipn_length in Pn. lia.
  - destruct Q as [[] _].
  - destruct Q as [[] _].
  - destruct Q as [_ Q]. exfalso. now apply Q.
Qed.

Lemma seg2_ok J hb2 mode2 addr e o t s : headers_accepted J -> has_flag (o_flags o) MSF_PACKVER2 = true -> good_call2 e o -> good_id2 t -> ready2 hb2 mode2 e o t s ->
  exists x, goes e o (t_sid t) (t_pub t) s x /\ packed2 J hb2 mode2 addr (e_leaps e) o t s x.
Proof.
  intros HJ V (Sk & Rl & R2 & La & Xe) (k & Ck & Sd) ((x & q & Rx & Hz & Q0 & Sp & Dt) & Ht & Hc & P1 & P2 & St & Ln & Lf & Rd & S1 & f & Gf).
  set (m := wanted o t s) in *. change (maxlen m <= lenZ (e_alloc e)) in La.
  pose proof (times_ok (e_mode e) (e_leaps e) o t s x q Rx Hz Q0 Sp ltac:(lia) Ht) as T. cbv zeta in T. fold m in T.
  assert (M : sendable m k).
  { destruct (dbits_value x q Rx) as (Hd & v & Hv & _). rewrite <- Hz in Hd, Hv. unfold NSTERROR in Ht. split; [exact Ck|]. split; [exact Sd|]. split; [exact R2|].
    split; [change (in_s 64 (s_start s)); unfold in_s; lia|]. split; [exact Hd|]. exists v. exact Hv. }
  set (next := next_start (e_mode e) (e_leaps e) m) in *.
  assert (A : forall type src flags, flags = o_flags o -> pack_any e m type src flags = pack2 (e_fuel e) next (e_hb e) (e_mode e) (e_stack e) (e_alloc e) m type src flags).
  { intros type src flags ->. unfold pack_any. rewrite V. unfold m at 1 2 3. rewrite (reclen_passes o t s Rl). reflexivity. }
  assert (Rt : forall i, 0 <= i < lenZ (s_data s) + 1 -> dated hb2 (record_time next m i)).
  { intros i Hi. destruct (T i ltac:(lia)) as (G & _). apply (Dt i); [lia|exact G]. }
  destruct (list_eq_dec Z.eq_dec (s_data s) []) as [E0|E0].
  - pose proof (Rt 0 ltac:(pose proof (lenZ_nonneg (s_data s)); lia)) as R0. change (record_time next m 0) with (m_start m) in R0.
    destruct (pack2_empty J (e_fuel e) next (e_hb e) hb2 (e_mode e) mode2 addr (e_stack e) (e_alloc e) m k (s_type s) (o_flags o) f 1 HJ M Sk La Gf R0) as (r & rate & dl & E & Lr & Rb & Pr).
    rewrite <- A in E by reflexivity. rewrite <- E0 in E.
    destruct (finish e o t s [r] 0 q E) as (s' & G & Lf'); auto; [pose proof (lenZ_nonneg (s_data s)); lia|lia|eapply packable_size; exact P1|intros i Hi; apply T; exact Hi|].
    eexists. split; [exact G|]. unfold packed2. cbn [x_recs x_ret x_tot x_seg]. rewrite E0. split; [reflexivity|]. split; [cbn; lia|]. split; [reflexivity|]. split; [exact Lf'|].
    split; [|congruence]. intros _. exists r, rate, dl. split; [reflexivity|]. split; [exact Lr|]. split; [exact Rb|exact Pr].
  - destruct (pack2_done (e_fuel e) next (e_hb e) (e_mode e) (e_stack e) (e_alloc e) m k (s_type s) (s_data s) (o_flags o) f M Sk La P1 E0 Ln (next_start_range _ _ _) Gf Lf S1 St) as (recs & tot & E & Fl).
    destruct (pack2_roundtrip J (e_fuel e) next (e_hb e) hb2 (e_mode e) mode2 addr (e_stack e) (e_alloc e) m k (s_type s) (s_data s) (o_flags o) recs tot true HJ M Sk La P1 P2 E0 ltac:(lia) Rd
      (next_start_range _ _ _)) as (cs & Ec & Htot & D); auto.
    { intros i Hi. apply Rt. lia. }
    rewrite <- A in E by reflexivity.
    destruct (finish e o t s recs tot q E) as (s' & G & Lf'); auto; [lia|eapply packable_size; exact P1|intros i Hi; apply T; exact Hi|].
    eexists. split; [exact G|]. unfold packed2. cbn [x_recs x_ret x_tot x_seg]. fold m. split; [reflexivity|]. split; [exact Htot|]. split; [auto|]. split; [exact Lf'|].
    split; [congruence|]. intros _. exists q, cs. split; [exact Hz|]. split; [exact Ec|].
    assert (Ld : lenZ (concat cs) = tot) by (rewrite Ec; unfold lenZ in *; rewrite firstn_length; lia).
    eapply (described_map _ _ (lenZ (s_data s))); [|lia|lia|exact D].
    intros i c r Hi Hl (N & Lr & rate & dl & Rb & Pr). split; [exact N|]. split; [exact Lr|]. exists (record_time next m i), rate, dl. split; [|split; [exact Rb|exact Pr]].
    apply T. pose proof (lenZ_nonneg c). lia.
Qed.

Lemma list3_ok u mode2 addr e o k ids : has_flag (o_flags o) MSF_PACKVER2 = false -> good_call e o -> tl_ids k = Ok ids ->
  Forall (fun t => good_id t /\ exists segs, tid_segs t = Ok segs /\ Forall (ready3 mode2 e o t) segs) ids ->
  exists r xss, tl_pack e o k = Ok r /\ yields ids o xss r /\
    Forall2 (fun t xs => exists segs, tid_segs t = Ok segs /\ Forall2 (packed3 u mode2 addr (e_recip e) (e_leaps e) o t) segs xs) ids xss.
Proof.
  intros V G E F. apply (list_ok e o k ids _ (fun t s => good_id t /\ ready3 mode2 e o t s)); [apply G|exact E| |].
  - intros t s (Gi & R). apply seg3_ok; assumption.
  - eapply Forall_impl; [|exact F]. intros t (Gi & segs & Es & Fs). exists segs. split; [exact Es|]. eapply Forall_impl; [|exact Fs]. auto.
Qed.

Lemma list2_ok J hb2 mode2 addr e o k ids : headers_accepted J -> has_flag (o_flags o) MSF_PACKVER2 = true -> good_call2 e o -> tl_ids k = Ok ids ->
  Forall (fun t => good_id2 t /\ exists segs, tid_segs t = Ok segs /\ Forall (ready2 hb2 mode2 e o t) segs) ids ->
  exists r xss, tl_pack e o k = Ok r /\ yields ids o xss r /\
    Forall2 (fun t xs => exists segs, tid_segs t = Ok segs /\ Forall2 (packed2 J hb2 mode2 addr (e_leaps e) o t) segs xs) ids xss.
Proof.
  intros HJ V G E F. apply (list_ok e o k ids _ (fun t s => good_id2 t /\ ready2 hb2 mode2 e o t s)); [destruct G as (_ & _ & _ & _ & ->); cbn; lia|exact E| |].
  - intros t s (Gi & R). apply seg2_ok; assumption.
  - eapply Forall_impl; [|exact F]. intros t (Gi & segs & Es & Fs). exists segs. split; [exact Es|]. eapply Forall_impl; [|exact Fs]. auto.
Qed.

(** ** Consequences *)

Lemma kept_same o leaps (D : seg -> outcome -> Prop) : has_flag (o_flags o) 512 = true -> (forall s x, D s x -> left leaps (o_flags o) s (x_tot x) (x_seg x)) ->
  forall segs xs, Forall2 D segs xs -> map x_seg xs = segs.
Proof.
  intros F H segs xs G. induction G as [|s x segs xs G1 G IH]; [reflexivity|]. cbn [map]. rewrite IH. f_equal. specialize (H _ _ G1). unfold left in H. rewrite F in H. exact H.
Qed.

Lemma list3_kept mode2 e o k ids : has_flag (o_flags o) MSF_PACKVER2 = false -> has_flag (o_flags o) 512 = true -> good_call e o -> tl_ids k = Ok ids ->
  Forall (fun t => good_id t /\ exists segs, tid_segs t = Ok segs /\ Forall (ready3 mode2 e o t) segs) ids ->
  exists r n k' ids', tl_pack e o k = Ok r /\ p_done r = Some (n, k') /\ tl_ids k' = Ok ids' /\
    Forall2 (fun t t' => same_entry t t' /\ tid_segs t' = tid_segs t) ids ids'.
Proof.
  intros V K G E F. destruct (list3_ok (fun _ _ => Err 0) mode2 0 e o k ids V G E F) as (r & xss & Er & (_ & _ & k' & ids' & Y1 & Y2 & Y3 & Y4) & D).
  exists r, (total x_tot xss), k', ids'. split; [exact Er|]. split; [exact Y1|]. split; [exact Y2|]. clear - K Y3 Y4 D. revert xss Y4 D.
  induction Y3 as [|t t' ids ids' S1 Y3 IH]; intros xss Y4 D; [constructor|]. inversion Y4 as [|? xs ? xss' Y5 Y6]; subst. inversion D as [|? ? ? ? (segs & D1 & D2) D3]; subst.
  constructor; [|eapply IH; eassumption]. split; [exact S1|]. rewrite Y5, D1. f_equal. eapply (kept_same o (e_leaps e)); [exact K| |exact D2].
  intros s x (_ & _ & _ & L & _). exact L.
Qed.
