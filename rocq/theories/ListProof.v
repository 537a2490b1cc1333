(** * Proofs about the trace list and the SYNC list. *)

From Verif Require Import Base BaseLemmas TlModel TlSpec TlProof TlIds GapModel GapSpec GapProof StrModel StrSpec StrProof
  TimeStrModel TimeStrSpec TimeStrProof ListModel ListSpec.
Open Scope Z_scope.

(** ** Texts *)

Lemma prints t f sub : in_s 64 t -> exists s, nstime2timestr t f sub = Ok (Some s).
Proof.
  intros R. destruct (needs_calendar f) eqn:F.
  - destruct (print_calendar t f sub R F) as (dg & _ & _ & _ & E). eauto.
  - destruct f; try discriminate.
    + unfold nstime2timestr. cbv zeta. pose proof (split_values t) as S. cbv zeta in S. destruct S as [S1 S2]. rewrite S2.
      cbn [needs_calendar bind]. destruct (sub_digits_ok sub (t mod 1000000000) ltac:(lia)) as (dg & D & _). rewrite D.
      unfold snprintf. cbn [Z.eqb Z.ltb orb andb]. eexists; reflexivity.
    + rewrite nano_print by exact R. eauto.
Qed.

Lemma time_text t f sub : in_s 64 t -> exists s, nstime2timestr t f sub = Ok (Some s) /\ time_shown f sub t s.
Proof.
  intros R. destruct (prints t f sub R) as (s & E). exists s. split; [exact E|]. split; [exact E|].
  intros L D mode. destruct (calendar_roundtrip mode t f sub R L D) as (s' & E' & H). rewrite E in E'. injection E' as <-. exact H.
Qed.

Lemma time_in s : gap_seg s -> in_s 64 (s_start s) /\ in_s 64 (s_end s).
Proof. intros (A & B & _). unfold in_s. change (2 ^ (64 - 1)) with 9223372036854775808. lia. Qed.

Lemma pub_short : forallb (fun p => Nat.leb (length (dec (Z.of_nat p))) 3) (seq 0 256) = true.
Proof. vm_compute. reflexivity. Qed.
Lemma sid_whole versions t : id_fits t -> display_sid versions t = shown_sid versions t.
Proof.
  intros [L P]. unfold display_sid, shown_sid. destruct versions; [|reflexivity]. cbn [app].
  apply firstn_all2. rewrite app_length. cbn [length].
  assert (X := pub_short). rewrite forallb_forall in X. specialize (X (Z.to_nat (t_pub t))).
  rewrite Z2Nat.id in X by lia. assert (In (Z.to_nat (t_pub t)) (seq 0 256)) by (apply in_seq; lia).
  apply X in H. apply Nat.leb_le in H. lia.
Qed.

(** ** The trace list *)

Lemma shown_fin v : ((v == 0) \/ ((1 # 10 ^ 280) <= Qabs v))%Q -> (Qabs v <= 8000000001 # 1)%Q ->
  exists u w, gap_shown (DFin v) = (u, DFin w) /\ shown_as u v w.
Proof.
  intros A B. destruct (shown_ok v A B) as (w & E & H). destruct (gap_shown (DFin v)) as [u x]. cbn [fst snd] in *. subst x. exists u, w. auto.
Qed.

Definition prev_of (h : heap) (q : option nat) (prv : option seg) : Prop :=
  match q, prv with
  | None, None => True
  | Some a, Some s => gap_seg s /\ exists n, h a = Some n /\ n_seg n = s
  | _, _ => False
  end.

Lemma gap_text mode (gaps : bool) h s q nxt prv : gap_seg s -> prev_of h q prv ->
  exists g : option (option (gap_unit * dbl)), (if gaps then let! g := trace_gap mode h (mk_node s q nxt) in Ok (Some g) else Ok None) = Ok g /\ gap_column gaps prv s g.
Proof.
  intros G P. destruct gaps; [|exists None; split; reflexivity]. unfold trace_gap. cbn [n_prev n_seg].
  destruct q as [a|], prv as [p|]; cbn [prev_of] in P; try contradiction; [|exists (Some None); split; reflexivity].
  destruct P as [Gp (n & En & Es)]. unfold deref. rewrite En. cbn [bind]. rewrite Es.
  destruct (gap_near mode p s Gp G) as (v & Ev & C & A & B). rewrite Ev. cbn [bind].
  destruct (shown_fin v A B) as (u & w & Ew & H). rewrite Ew. exists (Some (Some (u, DFin w))). split; [reflexivity|].
  exists v, u, w. auto.
Qed.

Lemma segs_lines mode f d g sid h : forall segs fuel q p prv cnt, chain h q p segs -> prev_of h q prv -> Forall gap_seg segs ->
  (length segs < fuel)%nat -> 0 <= cnt ->
  exists ls, trace_lines f d g sid prv segs ls /\ length ls = length segs
    /\ (cnt + Z.of_nat (length segs) < 2 ^ 31 -> trace_segs fuel mode f d g sid h p cnt = Ok (ls, Some (cnt + Z.of_nat (length segs)))).
Proof.
  induction segs as [|s segs IH]; intros fuel q p prv cnt C P F L H0.
  - cbn [chain] in C. subst p. exists []. split; [exact I|]. split; [reflexivity|]. intros _. destruct fuel; [cbn in L; lia|]. cbn.
    rewrite Z.add_0_r. reflexivity.
  - cbn [chain] in C. destruct C as (a & nxt & -> & Ha & C). inversion F as [|? ? Gs F']; subst. destruct fuel as [|fuel]; [cbn in L; lia|].
    destruct (time_in s Gs) as [R1 R2]. destruct (time_text _ f NANO_MICRO R1) as (st & Est & Tst). destruct (time_text _ f NANO_MICRO R2) as (et & Eet & Tet).
    destruct (gap_text mode g h s q nxt prv Gs P) as (gp & Eg & Hg).
    destruct (IH fuel (Some a) nxt (Some s) (cnt + 1) C) as (ls & T & Ln & E); [|exact F'|cbn in L; lia|lia|].
    { cbn [prev_of]. split; [exact Gs|]. eexists. split; [exact Ha|reflexivity]. }
    exists (mk_traceline sid st et gp (if d then Some (s_hz s, s_cnt s) else None) :: ls). split; [|split; [cbn; lia|]].
    + cbn [trace_lines]. split; [|exact T]. repeat split; try assumption; try apply Tst; try apply Tet.
    + intros B. cbn [length] in B. rewrite Nat2Z.inj_succ in B. cbn [trace_segs]. unfold deref at 1. rewrite Ha. cbn [bind n_seg n_next]. rewrite Est. cbn [bind].
      rewrite Eet. cbn [bind]. rewrite Eg. cbn [bind]. rewrite sarith_ok by (unfold in_s; lia). cbn [bind]. rewrite E by lia. cbn [bind length].
      do 3 f_equal. lia.
Qed.

Lemma chain_walk h : forall segs fuel q p, chain h q p segs -> (length segs < fuel)%nat -> walk_segs fuel h p = Ok segs.
Proof.
  induction segs as [|s segs IH]; intros fuel q p C L; (destruct fuel as [|fuel]; [cbn in L; lia|]).
  - cbn in C. subst p. reflexivity.
  - destruct C as (a & nxt & -> & Ha & C). cbn [walk_segs]. unfold deref. rewrite Ha. cbn [bind n_next n_seg].
    rewrite (IH fuel _ _ C) by (cbn in L; lia). reflexivity.
Qed.

Lemma walk_short h : forall fuel p segs, walk_segs fuel h p = Ok segs -> (length segs < fuel)%nat.
Proof.
  induction fuel as [|fuel IH]; intros p segs E; [discriminate|]. cbn [walk_segs] in E. destruct p as [a|]; [|injection E as <-; cbn; lia].
  destruct (deref h (Some a)) as [n| | |]; try discriminate. cbn [bind] in E. destruct (walk_segs fuel h (n_next n)) as [l| | |] eqn:W; try discriminate.
  injection E as <-. apply IH in W. cbn. lia.
Qed.

Lemma ids_lines mode f d g ver : forall ids tcnt cnt, Forall listed ids -> 0 <= tcnt <= cnt ->
  exists lss, Forall2 (fun t ls => exists segs, tid_segs t = Ok segs /\ trace_lines f d g (shown_sid ver t) None segs ls) ids lss
    /\ (cnt + Z.of_nat (length (concat lss)) < 2 ^ 31 -> trace_ids mode f d g ver ids tcnt cnt
        = Ok (concat lss, Some (tcnt + Z.of_nat (length ids), cnt + Z.of_nat (length (concat lss))))).
Proof.
  induction ids as [|t ids IH]; intros tcnt cnt F B.
  - exists []. split; [constructor|]. intros _. cbn. rewrite !Z.add_0_r. reflexivity.
  - inversion F as [|? ? (Ft & segs & W & G) F']; subst. destruct W as (N & W & _ & _ & _ & C).
    destruct (segs_lines mode f d g (shown_sid ver t) (t_heap t) segs (S (t_fresh t)) None (t_first t) None cnt C I G (walk_short _ _ _ _ W) ltac:(lia))
      as (ls & T & Ln & E).
    assert (L1 : (1 <= length segs)%nat) by (destruct segs; [contradiction|cbn; lia]).
    destruct (IH (tcnt + 1) (cnt + Z.of_nat (length segs)) F' ltac:(lia)) as (lss & T' & E').
    exists (ls :: lss). split; [constructor; [exists segs; auto|exact T']|]. cbn [concat]. rewrite app_length, Nat2Z.inj_add, Ln. intro H.
    cbn [trace_ids]. rewrite sid_whole by exact Ft. rewrite E by lia. cbn [bind]. rewrite sarith_ok by (unfold in_s; lia). cbn [bind].
    rewrite E' by lia. cbn [bind length]. do 4 f_equal; lia.
Qed.

Lemma list_lines mode f d g ver k ids : tl_ids k = Ok ids -> Forall listed ids ->
  exists lss, Forall2 (fun t ls => exists segs, tid_segs t = Ok segs /\ trace_lines f d g (shown_sid ver t) None segs ls) ids lss
    /\ (Z.of_nat (length (concat lss)) < 2 ^ 31 -> trace_list mode k f d g ver
        = Ok (concat lss, if d then Some (Z.of_nat (length ids), Z.of_nat (length (concat lss))) else None)).
Proof.
  intros E F. destruct (ids_lines mode f d g ver ids 0 0 F ltac:(lia)) as (lss & T & H). exists lss. split; [exact T|].
  intro B. unfold trace_list. rewrite E. cbn [bind]. rewrite H by lia. cbn [bind]. rewrite !Z.add_0_l. reflexivity.
Qed.

Lemma records_listed f rs k : given rs -> f_mode f = Strict -> f_ttol f = None -> Forall ordinary (map fst rs) ->
  Forall rated (map fst rs) -> Forall rec_fits (map fst rs) -> add_all f tl_init rs = Ok k ->
  exists ids, tl_ids k = Ok ids /\ Forall listed ids.
Proof.
  intros G M T O R Ft E. destruct (records_segs f rs k G M T O R E) as (ids & Ei & X). exists ids. split; [exact Ei|].
  destruct (all_holds f rs k G E) as (ids' & gss & H). destruct H as (Ei' & _ & _ & F & P & _). rewrite Ei in Ei'. injection Ei' as <-.
  assert (Q : Forall (fun x => rec_fits (fst x)) (concat (concat gss))).
  { apply Forall_forall. intros x Hx. rewrite Forall_forall in Ft. apply Ft. eapply Permutation_in; [exact P|]. now apply in_map. }
  clear - F X Q. induction F as [|t gs ids gss [_ A] F IH]; [constructor|]. inversion X as [|? ? Xt X']; subst.
  cbn [concat] in Q. rewrite concat_app in Q. apply Forall_app in Q as [Q1 Q2]. constructor; [|apply IH; assumption].
  split; [|exact Xt]. destruct A as (A1 & (x & Ix & Ex) & _). rewrite Forall_forall in A1, Q1. destruct (A1 x Ix) as (Es & _).
  destruct (Q1 x Ix) as [B1 B2]. unfold id_fits. rewrite <- Es, <- Ex. auto.
Qed.

Lemma records_lines f rs k mode tf d g ver : given rs -> f_mode f = Strict -> f_ttol f = None -> Forall ordinary (map fst rs) ->
  Forall rated (map fst rs) -> Forall rec_fits (map fst rs) -> add_all f tl_init rs = Ok k ->
  exists ids lss, tl_ids k = Ok ids
    /\ Forall2 (fun t ls => exists segs, tid_segs t = Ok segs /\ trace_lines tf d g (shown_sid ver t) None segs ls) ids lss
    /\ (Z.of_nat (length (concat lss)) < 2 ^ 31 -> trace_list mode k tf d g ver
        = Ok (concat lss, if d then Some (Z.of_nat (length ids), Z.of_nat (length (concat lss))) else None)).
Proof.
  intros G M T O R Ft E. destruct (records_listed f rs k G M T O R Ft E) as (ids & Ei & L).
  destruct (list_lines mode tf d g ver k ids Ei L) as (lss & A & B). exists ids, lss. auto.
Qed.

(** ** The SYNC list *)

Definition eleven (o : nslc) : Prop := exists a b c d, o = mk_nslc (Some a) (Some b) (Some c) (Some d)
  /\ length a = 11%nat /\ length b = 11%nat /\ length c = 11%nat /\ length d = 11%nat.

Lemma text_of_string : forall s r, text s -> text_of (s ++ 0 :: r) = Ok s.
Proof.
  induction s as [|c s IH]; intros r T; [reflexivity|]. inversion T; subst. cbn [app text_of]. replace (c =? 0) with false by lia.
  rewrite IH by assumption. reflexivity.
Qed.

Lemma stored_code b a s : length b = 11%nat -> (length s <= 10)%nat -> text s -> stored (Some b) a s ->
  exists m, a = Some m /\ length m = 11%nat /\ text_of m = Ok s.
Proof.
  intros L Ls T S. destruct a as [m|]; [|contradiction]. cbn [stored] in S. unfold holds_string in S. exists m. split; [reflexivity|]. subst m. split.
  - rewrite app_length. cbn [length]. rewrite skipn_length. lia.
  - apply text_of_string. exact T.
Qed.

Lemma split_codes sid net sta loc chan o : sid_codes sid net sta loc chan -> eleven o ->
  exists o', sid2nslc sid o = Ok o' /\ eleven o' /\ code_of (o_net o') = Ok net /\ code_of (o_sta o') = Ok sta
    /\ code_of (o_loc o') = Ok loc /\ code_of (o_chan o') = Ok chan.
Proof.
  intros (ns & ch & -> & Hns & P1 & P2 & P3 & T4 & N4 & C4 & Sf & L1 & L2 & L3 & L4) (a & b & c & d & -> & A1 & A2 & A3 & A4).
  destruct (sid2nslc_ok ns net sta loc ch chan (mk_nslc (Some a) (Some b) (Some c) (Some d)) Hns P1 P2 P3 T4 N4 C4 Sf) as (o' & E & S1 & S2 & S3 & S4);
    cbn [o_net o_sta o_loc o_chan StrProof.fits]; try lia.
  assert (X : text chan /\ (length chan <= 10)%nat).
  { destruct Sf as [Sf|[_ ->]]; [|auto]. clear - Sf T4. inversion Sf; subst. split; [|cbn; lia]. unfold text in *. rewrite Forall_forall in *. intros v Hv. apply T4.
    destruct Hv as [Hv|[Hv|[Hv|[]]]]; subst v; cbn; auto 10. }
  destruct X as [Tc Lc]. destruct P1 as [T1 _], P2 as [T2 _], P3 as [T3 _]. cbn [o_net o_sta o_loc o_chan] in *.
  destruct (stored_code _ _ _ A1 L1 T1 S1) as (m1 & E1 & M1 & V1). destruct (stored_code _ _ _ A2 L2 T2 S2) as (m2 & E2 & M2 & V2).
  destruct (stored_code _ _ _ A3 L3 T3 S3) as (m3 & E3 & M3 & V3). destruct (stored_code _ _ _ A4 Lc Tc S4) as (m4 & E4 & M4 & V4).
  exists o'. split; [exact E|]. unfold code_of. rewrite E1, E2, E3, E4. split; [|auto].
  exists m1, m2, m3, m4. split; [|auto]. destruct o' as [w1 w2 w3 w4]; cbn [o_net o_sta o_loc o_chan] in *; subst; reflexivity.
Qed.

Lemma segs_sync sub day o h net sta loc chan : code_of (o_net o) = Ok net -> code_of (o_sta o) = Ok sta ->
  code_of (o_loc o) = Ok loc -> code_of (o_chan o) = Ok chan ->
  forall fuel p segs, walk_segs fuel h p = Ok segs -> Forall timely segs ->
  exists ls, sync_segs fuel sub day o h p = Ok ls /\ Forall2 (sync_line sub day net sta loc chan) segs ls.
Proof.
  intros E1 E2 E3 E4. induction fuel as [|fuel IH]; intros p segs W F; [discriminate|]. cbn [walk_segs sync_segs] in *.
  destruct p as [a|]; [|injection W as <-; exists []; split; [reflexivity|constructor]].
  destruct (deref h (Some a)) as [n| | |]; try discriminate. cbn [bind] in *. destruct (walk_segs fuel h (n_next n)) as [l| | |] eqn:W'; try discriminate.
  cbn [bind] in W. injection W as <-. inversion F as [|? ? [R1 R2] F']; subst. destruct (IH _ _ W' F') as (ls & El & Hl).
  destruct (time_text _ SEEDORDINAL sub R1) as (st & Est & Tst). destruct (time_text _ SEEDORDINAL sub R2) as (et & Eet & Tet).
  rewrite Est. cbn [bind]. rewrite Eet. cbn [bind]. rewrite E1, E2, E3, E4. cbn [bind]. rewrite El. cbn [bind].
  eexists. split; [reflexivity|]. constructor; [|exact Hl]. repeat split; try apply Tst; try apply Tet.
Qed.

Lemma ids_sync sub day : forall ids o, eleven o -> Forall synced ids ->
  exists lss, sync_ids sub day o ids = Ok (concat lss)
    /\ Forall2 (fun t ls => exists segs net sta loc chan, tid_segs t = Ok segs /\ sid_codes (t_sid t) net sta loc chan
                            /\ Forall2 (sync_line sub day net sta loc chan) segs ls) ids lss.
Proof.
  induction ids as [|t ids IH]; intros o O F; [exists []; split; [reflexivity|constructor]|].
  inversion F as [|? ? ((net & sta & loc & chan & Sc) & segs & W & T) F']; subst.
  destruct (split_codes _ _ _ _ _ o Sc O) as (o' & E & O' & E1 & E2 & E3 & E4). cbn [sync_ids]. rewrite E. cbn [bind].
  destruct (segs_sync sub day o' (t_heap t) _ _ _ _ E1 E2 E3 E4 _ _ _ W T) as (ls & El & Hl). rewrite El. cbn [bind].
  destruct (IH o' O' F') as (lss & Els & Hls). rewrite Els. cbn [bind]. exists (ls :: lss). split; [reflexivity|].
  constructor; [|exact Hls]. exists segs, net, sta, loc, chan. auto.
Qed.

Lemma list_sync k dcc day sub ids : tl_ids k = Ok ids -> Forall synced ids ->
  exists lss, sync_list k dcc day sub = Ok ((match dcc with Some d => d | None => [68; 67; 67] end, day), concat lss)
    /\ Forall2 (fun t ls => exists segs net sta loc chan, tid_segs t = Ok segs /\ sid_codes (t_sid t) net sta loc chan
                            /\ Forall2 (sync_line sub day net sta loc chan) segs ls) ids lss.
Proof.
  intros E F. destruct (ids_sync sub day ids sync_buffers) as (lss & El & Hl); [|exact F|].
  { unfold eleven, sync_buffers. do 4 eexists. split; [reflexivity|]. auto. }
  exists lss. split; [|exact Hl]. unfold sync_list. rewrite E. cbn [bind]. rewrite El. reflexivity.
Qed.
