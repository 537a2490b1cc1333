(** * The extra headers of a version 2 record as a document. *)

From Coq Require Import String QArith Lqa.
From Verif Require Import Base BaseLemmas FloatOps DblModel ConvModel ConvSpec ConvProof TimeModel TimeSpec ListProof TimeProof EhModel EhSpec EhProof V2Model V2RecSpec V2RecProof V2Rate V2RecParse Pack2Rate EhPackSpec EhPackFields V2EhModel V2EhSpec V2EhProof.
Open Scope Z_scope.
Open Scope list_scope.

(** ** Numbers *)

Lemma sign_range s : in_u 64 (with_sign binary64 s 0x7FF0000000000000).
Proof. unfold in_u. destruct s; vm_compute; split; congruence. Qed.
Lemma drnd_range q : in_u 64 (dbits (drnd q)).
Proof.
  unfold drnd. destruct (rnd64 q) as [v|] eqn:E; [exact (proj1 (dbits_value q v E))|]. cbn [dbits]. apply sign_range.
Qed.
Lemma ddiv_range x y : in_u 64 (dbits (ddiv x y)).
Proof.
  unfold ddiv. destruct x as [a|s|], y as [b|t|]; try (destruct (qzero b)); try (destruct (qzero a)); try apply drnd_range; try (cbn [dbits]; apply sign_range);
    unfold in_u; vm_compute; split; congruence.
Qed.
Lemma ten_range v : in_u 64 (tenthousandths v).
Proof. apply ddiv_range. Qed.

(** ** Requests of a record *)

Lemma cstring_end t : In 0 (cstring t).
Proof. apply in_or_app. right. now left. Qed.
Lemma time_ready t : in_s 64 t -> t = NSTERROR \/ t = NSTUNSET \/ exists s, nstime2timestr t ISOMONTHDAY_Z NANO_MICRO_NONE = Ok (Some s).
Proof. intros H. right. right. apply prints. exact H. Qed.
Lemma float_range w : in_u 32 w -> in_u 64 (float_to_double w).
Proof. intros H. exact (proj1 (float_double w H)). Qed.
Lemma int_range i : in_u 32 i -> in_u 64 (dbits (dofz i)).
Proof. intros H. apply drnd_range. Qed.
Lemma btime_s64 t : btime_ok t -> in_s 64 (btime_ns t).
Proof. intros H. pose proof (btime_range t H). apply in_s64. lia. Qed.

Ltac items := cbn [texts_of reals_of times_of]; repeat match goal with |- Forall _ (_ :: _) => apply Forall_cons | |- Forall _ [] => apply Forall_nil end.
Ltac shown := cbn [EhModel.d_type EhModel.d_detector d_amplitude EhModel.d_period d_background EhModel.d_wave EhModel.d_units EhModel.d_onset
  EhModel.k_type EhModel.k_begin EhModel.k_end EhModel.k_trigger EhModel.k_units EhModel.k_range EhModel.k_channel EhModel.k_coupling EhModel.k_rolloff EhModel.k_noise k_amplitude EhModel.k_duration k_sine EhModel.k_between k_reference
  V2Model.d_onset V2Model.k_begin V2Model.k_end V2Model.d_amp V2Model.d_period V2Model.d_back V2Model.k_amp].
Lemma blk_good b : blk_ok b -> Forall good_request (blk_ops b).
Proof.
  intros [_ B]. destruct b; cbn [blk_ops]; try apply Forall_nil.
  all: repeat match type of B with _ /\ _ => let H := fresh "H" in destruct B as [H B] end.
  1-7: apply Forall_cons; [|apply Forall_nil]; right; eexists; (split; [reflexivity|]); (split; [|split]); items; shown;
    match goal with
    | |- In 0 _ => apply cstring_end
    | |- in_u 64 (float_to_double _) => first [apply float_range; assumption|apply float_range; unfold in_u; cbn; lia]
    | |- in_u 64 (tenthousandths _) => apply ten_range
    | |- in_u 64 (dbits (dofz _)) => apply drnd_range
    | |- NSTERROR = NSTERROR \/ _ => left; reflexivity
    | |- _ \/ _ => apply time_ready, btime_s64; assumption
    end.
  apply Forall_cons; [|apply Forall_cons; [|apply Forall_nil]].
  - right. eexists. split; [reflexivity|]. split; [|split]; items; [apply cstring_end|apply cstring_end|]. apply time_ready.
    pose proof (btime_range t ltac:(assumption)). apply in_s64. match goal with H : in_s 8 us |- _ => unfold in_s in H; change (2 ^ (8 - 1)) with 128 in H end.
    cbn [EhModel.x_time V2Model.x_time]. lia.
  - left. exists (fdsn "Clock" "Model"), (JStr (l_text model)). split; [vm_compute; tauto|]. constructor. reflexivity.
Qed.
Lemma flags_good h : Forall good_request (flag_ops h).
Proof.
  assert (S : forall ks v o, In ks value_paths -> puts o ks v -> good_request o) by (intros ks v o I P; left; eauto).
  unfold flag_ops. cbn [concat].
  repeat (apply Forall_app; split); try apply Forall_nil.
  all: match goal with |- Forall _ (if ?c then _ else _) => destruct c; [|apply Forall_nil] | |- Forall _ (if ?c then [] else _) => destruct c; [apply Forall_nil|] end || idtac.
  all: try (destruct (f_corr h =? 0); [apply Forall_nil|]).
  all: apply Forall_cons; [|apply Forall_nil].
  all: match goal with
    | |- good_request (HBool ?p) => let r := eval vm_compute in (find (fun x => String.eqb (fst x) p) switches) in
        match r with Some (_, ?ks) => refine (S ks (JBool true) _ _ _) end
    | |- good_request (HInt _ ?v) => refine (S (fdsn "Time" "LeapSecond") (JInt v) _ _ _)
    | |- good_request (HNum _ ?v) => refine (S (fdsn "Time" "Correction") (JReal (tenthousandths v)) _ _ _)
    end; [vm_compute; tauto|constructor; reflexivity].
Qed.

(** The chain, with the timing quality of the text. *)
Fixpoint chain_q (q : option Z) (ops : list ehop) (bs : list (blk * list Z)) : option Z * list ehop :=
  match bs with
  | [] => (q, ops)
  | (B1001 n _ _ _, _) :: bs' => match ops with [] => chain_q (Some n) [] bs' | _ => chain_q q (ops ++ [HInt "/FDSN/Time/Quality" n]) bs' end
  | (b, _) :: bs' => chain_q q (ops ++ blk_ops b) bs'
  end.
Lemma chain_q_ok bs : forall q ops, chain_ops (text_of_quality q) ops bs = (text_of_quality (fst (chain_q q ops bs)), snd (chain_q q ops bs)).
Proof.
  induction bs as [|[b g] bs IH]; intros q ops; [reflexivity|].
  destruct b; cbn [chain_ops chain_q]; try apply IH. destruct ops; [apply (IH (Some quality))|apply IH].
Qed.
Definition small (q : option Z) : Prop := forall n, q = Some n -> 0 <= n <= 255.
Lemma chain_q_good bs : chain_ok bs -> forall q ops, small q -> Forall good_request ops ->
  small (fst (chain_q q ops bs)) /\ Forall good_request (snd (chain_q q ops bs)).
Proof.
  intros C. induction C as [|[b g] bs [B _] C IH]; intros q ops Q G; [split; assumption|].
  assert (D : small (fst (chain_q q (ops ++ blk_ops b) bs)) /\ Forall good_request (snd (chain_q q (ops ++ blk_ops b) bs))).
  { apply IH; [exact Q|]. apply Forall_app. split; [exact G|]. apply blk_good. exact B. }
  destruct b; cbn [chain_q]; try exact D.
  cbn [fst] in B. destruct B as [B _]. cbn [blk_body] in B. apply Forall_cons_iff in B. destruct B as [B _]. unfold byte_ok in B.
  destruct ops as [|o ops].
  - apply IH; [|exact G]. intros n E. injection E as <-. lia.
  - apply IH; [exact Q|]. apply Forall_app. split; [exact G|]. apply Forall_cons; [|apply Forall_nil].
    left. exists (fdsn "Time" "Quality"), (JInt quality). split; [vm_compute; tauto|]. constructor. reflexivity.
Qed.
Lemma chain_q_entries ks bs : forall q ops, filter (entry_at ks) (snd (chain_q q ops bs)) =
  filter (entry_at ks) ops ++ flat_map (fun p => filter (entry_at ks) (blk_ops (fst p))) bs.
Proof.
  induction bs as [|[b g] bs IH]; intros q ops; [cbn; now rewrite app_nil_r|].
  assert (D : filter (entry_at ks) (snd (chain_q q (ops ++ blk_ops b) bs)) =
    filter (entry_at ks) ops ++ flat_map (fun p => filter (entry_at ks) (blk_ops (fst p))) ((b, g) :: bs)).
  { rewrite IH, filter_app, <- app_assoc. reflexivity. }
  destruct b; cbn [chain_q]; try exact D. destruct ops as [|o ops].
  - rewrite IH. reflexivity.
  - rewrite IH, filter_app. change (filter (entry_at ks) [HInt "/FDSN/Time/Quality" quality]) with (@nil ehop). rewrite app_nil_r. reflexivity.
Qed.
Lemma flags_entries ks h : filter (entry_at ks) (flag_ops h) = [].
Proof.
  unfold flag_ops. cbn [concat]. rewrite !filter_app.
  assert (O : forall (c : bool) o, entry_of o = None -> filter (entry_at ks) (if c then [o] else []) = []).
  { intros c o E. destruct c; [|reflexivity]. cbn [filter]. unfold entry_at. rewrite (not_entry o E). reflexivity. }
  rewrite !O by reflexivity. destruct (f_corr h =? 0); reflexivity.
Qed.

(** The last value put at a path. *)
Definition put_at (ks : list string) (o : ehop) : option jv :=
  match o with
  | HBool p => if same (zs p) (path_text ks) then Some (JBool true) else None
  | HInt p v => if same (zs p) (path_text ks) then Some (JInt v) else None
  | HNum p v => if same (zs p) (path_text ks) then Some (JReal (tenthousandths v)) else None
  | HStr p s => if same (zs p) (path_text ks) then Some (JStr s) else None
  | _ => None
  end.
Lemma put_at_ok ks o v : put_at ks o = Some v <-> puts o ks v.
Proof.
  split.
  - destruct o; cbn [put_at]; try discriminate; match goal with |- (if ?c then _ else _) = _ -> _ => destruct c eqn:E; [|discriminate] end;
      apply same_spec in E; intros H; injection H as <-; now constructor.
  - intros H. destruct H as [p ks E|p ks x E|p ks x E|p ks x E]; cbn [put_at]; rewrite E, same_refl; reflexivity.
Qed.
Definition orl {A} (a b : option A) : option A := match a with Some x => Some x | None => b end.
Fixpoint lastp (ks : list string) (os : list ehop) : option jv :=
  match os with [] => None | o :: os' => orl (lastp ks os') (put_at ks o) end.
Lemma lastp_app ks a b : lastp ks (a ++ b) = orl (lastp ks b) (lastp ks a).
Proof. induction a as [|o a IH]; cbn [List.app lastp]; [now destruct (lastp ks b)|]. rewrite IH. now destruct (lastp ks b). Qed.
Lemma lastp_ok ks os v : lastp ks os = Some v <-> last_put os ks v.
Proof.
  revert v. induction os as [|o os IH] using rev_ind; intros v.
  - split; [discriminate|intros H; elim (no_last _ _ H)].
  - rewrite lastp_app, last_snoc. cbn [lastp orl]. rewrite <- put_at_ok. destruct (put_at ks o) as [w|] eqn:E; cbn [orl].
    + split; [auto|]. intros [H|[H _]]; [exact H|]. elim (H w). now apply put_at_ok.
    + rewrite IH. split; [|intros [H|[_ H]]; [discriminate|exact H]]. intros H. right. split; [|exact H]. intros w W. apply put_at_ok in W. congruence.
Qed.
Lemma document_lastp quality os j ks v : document_of quality os j -> In ks value_paths ->
  (at_ j ks v <-> orl (lastp ks os) (if pathb (map zs ks) (map zs (fdsn "Time" "Quality")) then option_map JInt quality else None) = Some v).
Proof.
  intros (D & _) I. rewrite (D ks v I), <- lastp_ok.
  assert (P : pathb (map zs ks) (map zs (fdsn "Time" "Quality")) = true <-> ks = fdsn "Time" "Quality").
  { split; [|intros ->; reflexivity]. revert ks I.
    assert (H : Forall (fun ks => pathb (map zs ks) (map zs (fdsn "Time" "Quality")) = true -> ks = fdsn "Time" "Quality") value_paths).
    { repeat (apply Forall_cons; [intros H; first [discriminate H|reflexivity]|]). exact (Forall_nil _). }
    rewrite Forall_forall in H. exact H. }
  destruct (lastp ks os) as [w|] eqn:E; cbn [orl].
  - split; [intros [H|(_ & H & _)]; [exact H|]|auto]. elim (H w). apply lastp_ok. exact E.
  - split.
    + intros [H|(K & _ & q & -> & ->)]; [discriminate|]. apply P in K. rewrite K. reflexivity.
    + destruct (pathb _ _); [|discriminate]. destruct quality as [q|]; [|discriminate]. intros H. injection H as <-. right. split; [apply P; reflexivity|].
      split; [|exists q; auto]. intros w W. apply lastp_ok in W. congruence.
Qed.

(** Values over the chain. *)
Lemma chain_value ks bs : put_at ks (HInt "/FDSN/Time/Quality" 0) = None -> forall q ops,
  lastp ks (snd (chain_q q ops bs)) = orl (last_of (fun b => lastp ks (blk_ops b)) bs) (lastp ks ops).
Proof.
  intros N. assert (N' : forall n, lastp ks [HInt "/FDSN/Time/Quality" n] = None).
  { intros n. cbn [lastp put_at orl] in N |- *. destruct (same _ _); [discriminate|reflexivity]. }
  induction bs as [|[b g] bs IH]; intros q ops; [reflexivity|]. cbn [last_of].
  assert (D : lastp ks (snd (chain_q q (ops ++ blk_ops b) bs)) =
    orl (match last_of (fun b => lastp ks (blk_ops b)) bs with Some x => Some x | None => lastp ks (blk_ops b) end) (lastp ks ops)).
  { rewrite IH, lastp_app. now destruct (last_of _ bs), (lastp ks (blk_ops b)). }
  destruct b; cbn [chain_q]; try exact D. destruct ops as [|o ops].
  - rewrite IH. now destruct (last_of _ bs).
  - rewrite IH, lastp_app, N'. cbn [orl blk_ops lastp]. now destruct (last_of _ bs).
Qed.
Lemma chain_quality bs : let Q := fdsn "Time" "Quality" in forall q ops,
  orl (lastp Q (snd (chain_q q ops bs))) (option_map JInt (fst (chain_q q ops bs))) =
  orl (last_of (fun b => match b with B1001 n _ _ _ => Some (JInt n) | _ => None end) bs) (orl (lastp Q ops) (option_map JInt q)).
Proof.
  intros Q. assert (B : forall b, lastp Q (blk_ops b) = None) by (intros b; destruct b; reflexivity).
  induction bs as [|[b g] bs IH]; intros q ops; [reflexivity|]. cbn [last_of].
  assert (D : orl (lastp Q (snd (chain_q q (ops ++ blk_ops b) bs))) (option_map JInt (fst (chain_q q (ops ++ blk_ops b) bs))) =
    orl (last_of (fun b => match b with B1001 n _ _ _ => Some (JInt n) | _ => None end) bs) (orl (lastp Q ops) (option_map JInt q))).
  { rewrite IH, lastp_app, B. reflexivity. }
  destruct b; cbn [chain_q]; try (rewrite D; now destruct (last_of _ bs)). destruct ops as [|o ops].
  - rewrite IH. destruct (last_of _ bs); reflexivity.
  - rewrite IH, lastp_app. destruct (last_of _ bs); [reflexivity|]. reflexivity.
Qed.
Lemma last_of_ext {A} (f g : blk -> option A) bs : (forall b, f b = g b) -> last_of f bs = last_of g bs.
Proof. intros E. induction bs as [|[b x] bs IH]; cbn [last_of]; [reflexivity|]. now rewrite IH, E. Qed.
Lemma last_of_none {A} bs : last_of (fun _ => @None A) bs = None.
Proof. induction bs as [|[b x] bs IH]; cbn [last_of]; [reflexivity|]. now rewrite IH. Qed.

Lemma one_piece ks (c : bool) o : lastp ks (if c then [o] else []) = if c then put_at ks o else None.
Proof. now destruct c. Qed.
Lemma corr_piece ks (c : bool) o : lastp ks (if c then [] else [o]) = if c then None else put_at ks o.
Proof. now destruct c. Qed.
Lemma no_piece (c : bool) : (if c then @None jv else None) = None.
Proof. now destruct c. Qed.
Lemma orl_none {A} (a : option A) : orl a None = a.
Proof. now destruct a. Qed.

Ltac settle :=
  rewrite !lastp_app, ?one_piece, ?corr_piece;
  repeat match goal with |- context [put_at ?k ?o] => let r := eval cbv -[tenthousandths f_corr] in (put_at k o) in change (put_at k o) with r end.

Lemma record_ok h bs j : let '(q, os) := chain_q None (flag_ops h) bs in document_of q os j -> record_document h bs j.
Proof.
  destruct (chain_q None (flag_ops h) bs) as [q os] eqn:E. intros D. split; [|split].
  - intros ks o v I.
    assert (V : forall k, In k value_paths -> pathb (map zs k) (map zs (fdsn "Time" "Quality")) = false -> put_at k (HInt "/FDSN/Time/Quality" 0) = None ->
      (at_ j k v <-> orl (last_of (fun b => lastp k (blk_ops b)) bs) (lastp k (flag_ops h)) = Some v)).
    { intros k Ik P N. rewrite (document_lastp q os j k v D Ik), P, orl_none. pose proof (chain_value k bs N None (flag_ops h)) as C. rewrite E in C. cbn [snd] in C. rewrite C. reflexivity. }
    assert (V0 : forall k, In k value_paths -> pathb (map zs k) (map zs (fdsn "Time" "Quality")) = false -> put_at k (HInt "/FDSN/Time/Quality" 0) = None ->
      (forall b, lastp k (blk_ops b) = None) -> (at_ j k v <-> lastp k (flag_ops h) = Some v)).
    { intros k Ik P N B. rewrite (V k Ik P N), (last_of_ext _ (fun _ => None) bs B), last_of_none. reflexivity. }
    unfold record_values in I. cbn [In] in I.
    repeat match type of I with _ \/ _ => destruct I as [I|I] end; [..|destruct I].
    all: apply pair_equal_spec in I; destruct I as [<- <-].
    1-17: rewrite V0; [|vm_compute; tauto|reflexivity|reflexivity|intros b; destruct b; reflexivity].
    1-17: unfold flag_ops; cbn [concat]; settle; rewrite ?no_piece; cbn [orl].
    1-17: rewrite !orl_none; cbn [lastp orl].
    1-15: apply iff_refl.
    + cbn [orl]. unfold said. destruct (bit (f_act h) 5); apply iff_refl.
    + unfold said. destruct (f_corr h =? 0); apply iff_refl.
    + pose proof (chain_quality bs None (flag_ops h)) as C. cbv zeta in C. rewrite E in C. cbn [fst snd option_map] in C.
      rewrite (document_lastp q os j _ v D) by (vm_compute; tauto). change (pathb _ _) with true. cbv iota. rewrite C.
      assert (F : lastp (fdsn "Time" "Quality") (flag_ops h) = None).
      { unfold flag_ops; cbn [concat]; settle; rewrite ?no_piece; cbn [orl]. rewrite !orl_none. reflexivity. }
      rewrite F. cbn [orl]. rewrite orl_none. apply iff_refl.
    + rewrite V; [|vm_compute; tauto|reflexivity|reflexivity].
      assert (F : lastp (fdsn "Clock" "Model") (flag_ops h) = None).
      { unfold flag_ops; cbn [concat]; settle; rewrite ?no_piece; cbn [orl]. rewrite !orl_none. reflexivity. }
      rewrite F, orl_none. rewrite (last_of_ext _ (fun b => match b with B500 _ _ _ _ _ _ model _ => Some (JStr (l_text model)) | _ => None end)); [apply iff_refl|].
      intros b. destruct b; reflexivity.
  - intros ks I. destruct D as (_ & D & _). destruct (D ks I) as (l & F & L). exists l. split; [|exact L].
    pose proof (chain_q_entries ks bs None (flag_ops h)) as C. rewrite E, flags_entries in C. cbn [snd List.app] in C. rewrite <- C. exact F.
  - apply D.
Qed.
