(** * Reading packed extra headers. *)

From Coq Require Import String QArith Qabs.
From Verif Require Import Base BaseLemmas TimeModel TimeSpec TimeProof StrModel RecModel RecSpec RecProof PackModel PackSpec PackProof ConvSpec ConvProof
  EhModel EhSpec EhProof V2Model V2RecSpec V2RecProof V2RecParse V2Rate Pack2Model Pack2Spec Pack2Hdr Pack2Rate Pack2Read
  EhPackModel EhPackSpec EhPack2Spec EhPackFields EhPackBody EhPackProof EhPackHdr.
Open Scope Z_scope.
Open Scope list_scope.

(** ** Fields *)

Lemma label_fine n j ks l : 0 <= n -> sound j -> label_for n j ks l -> clean n j ks -> label_ok n l.
Proof.
  intros N S [(s & T & ->)|[_ ->]] C; unfold label_ok; cbn [l_text l_fill].
  - pose proof (sound_at _ _ _ T S) as St. inversion St as [| | | |s' F| |]; subst. split.
    { rewrite <- (firstn_skipn (Z.to_nat n) s) in F. apply Forall_app in F. tauto. }
    split; [intros t; now apply C|]. split; [left; reflexivity|]. unfold lenZ. rewrite firstn_length. lia.
  - split; [constructor|]. split; [intros [|]; discriminate|]. split; [now right|]. exact N.
Qed.
Lemma label_bytes_fine n l : label_ok n l -> bytes_ok (label_bytes n l).
Proof.
  intros (F & _ & B & _). unfold label_bytes, bytes_ok. rewrite Forall_app. split.
  - eapply Forall_impl; [|exact F]. unfold byte_ok. cbv beta. lia.
  - generalize (Z.to_nat (n - lenZ (l_text l))). induction n0 as [|i IH]; constructor; [unfold byte_ok; lia|exact IH].
Qed.

Lemma time_fine v ks t : has_time v ks t -> kept_time v ks -> btime_ok (btime_at t).
Proof.
  intros H K. destruct (K t H) as [Y N]. unfold btime_ok. rewrite tenths_ns. cbn [b_day b_hour b_min b_sec b_unused b_fract btime_at].
  split; [exact Y|]. repeat (split; [lia|]). exact N.
Qed.

Lemma float_fine j ks w : float_for j ks w -> in_u 32 w.
Proof. intros [(b & _ & R & _)|[_ ->]]; unfold in_u; lia. Qed.
Lemma rounded_fine k j ks u : rounded_for k j ks u -> in_u 32 u.
Proof. intros [(b & q & _ & _ & _ & R)|[_ ->]]; [exact R|unfold in_u; lia]. Qed.
Lemma upto_fine mx j ks u : 0 <= mx -> upto_for mx j ks u -> 0 <= u <= mx.
Proof. intros M [[[_ A] B]|[_ ->]]; lia. Qed.

Lemma bytes_app a b : bytes_ok a -> bytes_ok b -> bytes_ok (a ++ b).
Proof. unfold bytes_ok. rewrite Forall_app. tauto. Qed.
Lemma bytes_cons x a : 0 <= x < 256 -> bytes_ok a -> bytes_ok (x :: a).
Proof. constructor; assumption. Qed.
Lemma bytes_nil : bytes_ok [].
Proof. constructor. Qed.

Ltac bytes := cbn [app]; repeat first [apply bytes_nil | apply ord_ok | apply label_bytes_fine; assumption
                           | apply btime_bytes_ok; assumption | assumption | apply bytes_cons; [cbn [b_hour b_min b_sec b_unused btime_at]; lia|] | apply bytes_app].

(** ** Blockettes *)

Lemma exception_fine j v b : sound j -> sound v -> excepts j v b -> exception_kept j v -> blk_ok b.
Proof.
  intros Sj Sv [vco t q c ty mo cs T V Q C Ty Mo Cs] (Kt & N1 & N2 & Cm).
  pose proof (time_fine _ _ _ T Kt). pose proof (float_fine _ _ _ V). pose proof (upto_fine 255 _ _ _ ltac:(lia) Q). pose proof (upto_fine (2 ^ 32 - 1) _ _ _ ltac:(lia) C).
  pose proof (label_fine 32 _ _ _ ltac:(lia) Sj Mo Cm).
  assert (Et : ty = mk_label [] 0) by (destruct Ty as [(s & H' & _)|[_ E]]; [destruct (N1 s H')|exact E]).
  assert (Es : cs = mk_label [] 0) by (destruct Cs as [(s & H' & _)|[_ E]]; [destruct (N2 s H')|exact E]).
  assert (Lt : forall n, 0 <= n -> label_ok n (mk_label [] 0)).
  { intros n Hn. unfold label_ok. cbn [l_text l_fill]. split; [constructor|]. split; [intros [|]; discriminate|]. split; [now right|exact Hn]. }
  assert (M : 0 <= micros t < 100) by (unfold micros; lia).
  subst ty cs. pose proof (Lt 16 ltac:(lia)). pose proof (Lt 128 ltac:(lia)). split.
  - cbn [blk_body]. bytes.
  - cbn [l_fill]. split; [assumption|]. split; [assumption|]. split; [unfold in_s; lia|]. split; [unfold in_u; lia|]. split; [apply Lt; lia|]. split; [reflexivity|].
    split; [assumption|]. split; [apply Lt; lia|reflexivity].
Qed.

Lemma map_int_inj a b : map JInt a = map JInt b -> a = b.
Proof. revert b. induction a as [|x a IH]; intros [|y b] E; try discriminate; [reflexivity|]. injection E as -> E. f_equal. now apply IH. Qed.

Lemma detection_fine v b : sound v -> detects v b -> detection_ok v -> detection_kept v -> blk_ok b.
Proof.
  intros Sv D (_ & Sn) [Kt Cd].
  destruct D as [a p k fl t det _ T A P K De Fl _ _ _|a p k fl t snr lb pk det _ T A P K De Fl _ Hs Lb Pk];
    pose proof (time_fine _ _ _ T Kt); pose proof (float_fine _ _ _ A); pose proof (float_fine _ _ _ P); pose proof (float_fine _ _ _ K);
    pose proof (label_fine 24 _ _ _ ltac:(lia) Sv De Cd).
  - split; [cbn [blk_body]; bytes|tauto].
  - pose proof (upto_fine 254 _ _ _ ltac:(lia) Lb). pose proof (upto_fine 254 _ _ _ ltac:(lia) Pk).
    assert (Z0 : forall i, bytes_ok (repeat 0 i)) by (induction i; [constructor|apply bytes_cons; [lia|assumption]]).
    assert (S6 : lenZ snr = 6 /\ bytes_ok snr).
    { destruct Hs as [(n & At & ->)|[_ ->]]; [|split; [reflexivity|apply Z0]].
      destruct (Sn _ At) as (n' & E & L & F). apply map_int_inj in E. subst n'. split; [unfold lenZ; rewrite app_length, repeat_length; lia|].
      apply bytes_app; [|apply Z0]. eapply Forall_impl; [|exact F]. unfold in_u, byte_ok. cbv beta. lia. }
    destruct S6. split; [cbn [blk_body]; bytes|tauto].
Qed.

Lemma begun_fine v b : sound v -> begun v b -> calibration_kept v -> blk_ok b.
Proof.
  intros Sv B (Kb & _ & C1 & C2 & C3 & C4).
  destruct B; repeat match goal with
    | H : has_time v ["BeginTime"%string] _ |- _ => apply time_fine in H; [|exact Kb]
    | H : float_for _ _ _ |- _ => apply float_fine in H
    | H : rounded_for _ _ _ _ |- _ => apply rounded_fine in H
    | H : upto_for _ _ _ _ |- _ => apply upto_fine in H; [|lia]
    | H : label_for _ _ _ _ |- _ => apply label_fine in H; [|lia|exact Sv|assumption]
    end; (split; [cbn [blk_body]; bytes|tauto]).
Qed.
Lemma end_fine v t : has_time v ["EndTime"%string] t -> calibration_kept v -> blk_ok (B395 (btime_at t) [0; 0]).
Proof. intros T (_ & Ke & _). pose proof (time_fine _ _ _ T Ke). split; [cbn [blk_body]; bytes|]. split; [assumption|reflexivity]. Qed.
Lemma calibration_fine v l : sound v -> calibrates v l -> calibration_kept v -> Forall blk_ok l.
Proof.
  intros Sv C K. destruct C as [b B _|b t B T|t _ T].
  - constructor; [eapply begun_fine; eassumption|constructor].
  - constructor; [eapply begun_fine; eassumption|]. constructor; [eapply end_fine; eassumption|constructor].
  - constructor; [eapply end_fine; eassumption|constructor].
Qed.

Lemma forall2_all {A B} (R : A -> B -> Prop) (P : A -> Prop) (Q : B -> Prop) l l' :
  (forall a b, R a b -> P a -> Q b) -> Forall2 R l l' -> Forall P l -> Forall Q l'.
Proof. intros H. induction 1 as [|a b l l' Rab F IH]; intros FP; [constructor|]. inversion FP; subst. constructor; [eauto|auto]. Qed.

Lemma objects_sound j ks l : sound j -> objects j ks l -> Forall sound l.
Proof.
  intros S [(a & A & ->)|[_ ->]]; [|constructor]. pose proof (sound_at _ _ _ A S) as Sa. inversion Sa as [| | | | |a' F|]; subst.
  apply Forall_forall. intros x I. apply filter_In in I. rewrite Forall_forall in F. apply F, I.
Qed.

Lemma forall_and {A} (P Q : A -> Prop) l : Forall P l -> Forall Q l -> Forall (fun x => P x /\ Q x) l.
Proof. rewrite !Forall_forall. auto. Qed.

Definition entry_blk (b : blk) : Prop :=
  match b with B200 _ _ _ _ _ _ _ | B201 _ _ _ _ _ _ _ _ _ _ | B300 _ _ _ _ _ _ _ _ _ _ _ | B310 _ _ _ _ _ _ _ _ _ _ _
             | B320 _ _ _ _ _ _ _ _ _ _ _ | B390 _ _ _ _ _ _ _ | B395 _ _ | B500 _ _ _ _ _ _ _ _ => True | _ => False end.

Lemma entries_kinds j xs : entries_say j xs -> Forall entry_blk xs.
Proof.
  intros (es & ds & cs & xe & xd & xc & _ & _ & _ & Fe & Fd & Fc & ->). rewrite !Forall_app. split; [|split].
  - clear - Fe. induction Fe as [|v b es xe H F IH]; constructor; [|exact IH]. destruct H. exact I.
  - clear - Fd. induction Fd as [|v b es xe H F IH]; constructor; [|exact IH]. destruct H; exact I.
  - clear - Fc. induction Fc as [|v b es xe H F IH]; [constructor|]. cbn [concat]. apply Forall_app. split; [|exact IH].
    destruct H as [b B _|b t B _|t _ _]; repeat constructor; destruct B; exact I.
Qed.

Lemma entries_fine j xs : document_ok j -> document_kept j -> entries_say j xs -> Forall blk_ok xs.
Proof.
  intros (S & _ & _ & Od & _) (Ke & Kd & Kc) (es & ds & cs & xe & xd & xc & Oe & Ods & Oc & Fe & Fd & Fc & ->). rewrite !Forall_app.
  pose proof (objects_sound _ _ _ S Oe) as Se. pose proof (objects_sound _ _ _ S Ods) as Sd. pose proof (objects_sound _ _ _ S Oc) as Sc.
  split; [|split].
  - eapply forall2_all; [|exact Fe|exact (forall_and _ _ _ Se (Ke _ Oe))]. cbv beta. intros v b H [H1 H2]. exact (exception_fine j v b S H1 H H2).
  - eapply forall2_all; [|exact Fd|exact (forall_and _ _ _ Sd (forall_and _ _ _ (Od _ Ods) (Kd _ Ods)))]. cbv beta. intros v b H (H1 & H2 & H3). exact (detection_fine v b H1 H H2 H3).
  - assert (F : Forall (Forall blk_ok) xc).
    { eapply forall2_all; [|exact Fc|exact (forall_and _ _ _ Sc (Kc _ Oc))]. cbv beta. intros v b H [H1 H2]. exact (calibration_fine v b H1 H H2). }
    clear - F. induction F as [|x l H F IH]; [constructor|]. cbn [concat]. apply Forall_app. auto.
Qed.

(** ** Blockettes of a record *)

Lemma last_entries {A} (g : blk -> option A) xs : (forall b, entry_blk b -> g b = None) -> Forall entry_blk xs -> last_of g (bare xs) = None.
Proof. intros G F. induction F as [|b xs E F IH]; [reflexivity|]. cbn [bare map last_of]. unfold bare in IH. rewrite IH. now apply G. Qed.
Lemma last_app {A} (g : blk -> option A) a b : last_of g (a ++ b) = match last_of g b with Some x => Some x | None => last_of g a end.
Proof.
  induction a as [|[x y] a IH]; cbn [app last_of]; [destruct (last_of g b); reflexivity|]. rewrite IH. destruct (last_of g b); reflexivity.
Qed.

(** The blockettes before the entries decide length, encoding, order, rate and microseconds. *)
Definition front (enc e us q : Z) (w : option Z) (t : bool) : list blk :=
  B1000 enc 1 e 0 :: (if t then [B1001 q us 0 0] else []) ++ match w with Some w => [B100 w [0; 0; 0; 0]] | None => [] end.

Lemma split_says j enc e us w bs : blockettes_say j enc e us w bs -> exists q t xs, entries_say j xs /\ 0 <= q <= 255 /\ (t = false -> us = 0) /\
  bs = bare (front enc e us q w t ++ xs).
Proof.
  intros (q & xs & Q & X & [[_ ->]|[[U _] ->]]); pose proof (upto_fine 255 _ _ _ ltac:(lia) Q) as Hq; exists q.
  - exists true, xs. split; [exact X|]. split; [lia|]. split; [discriminate|]. unfold front, bare. destruct w; reflexivity.
  - exists false, xs. split; [exact X|]. split; [lia|]. split; [auto|]. unfold front, bare. destruct w; reflexivity.
Qed.

Lemma last_says {A} (g : blk -> option A) enc e us q w t xs : (forall b, entry_blk b -> g b = None) -> Forall entry_blk xs ->
  last_of g (bare (front enc e us q w t ++ xs)) = last_of g (bare (front enc e us q w t)).
Proof. intros G F. unfold bare. rewrite map_app, last_app. fold (bare xs). rewrite last_entries by assumption. reflexivity. Qed.

Lemma front_fine enc e us q w t : in_u 8 enc -> 7 <= e <= 17 -> 0 <= us < 100 -> 0 <= q <= 255 -> match w with Some w => in_u 32 w | None => True end ->
  Forall blk_ok (front enc e us q w t).
Proof.
  intros He Hx Hu Hq Hw. unfold in_u in He. unfold front.
  constructor. { split; [|lia]. cbn [blk_body]. bytes. }
  apply Forall_app. split.
  - destruct t; constructor; [|constructor]. split; [|unfold in_s; lia]. cbn [blk_body]. bytes.
  - destruct w as [x|]; constructor; [|constructor]. split; [|split; [exact Hw|reflexivity]]. cbn [blk_body]. bytes.
Qed.

Lemma states_says enc e us q w t xs : Forall entry_blk xs -> states_length (2 ^ e) (bare (front enc e us q w t ++ xs)).
Proof.
  intros F. unfold states_length, front, bare. split; [left; exact I|]. cbn [app map]. constructor; [reflexivity|]. rewrite !map_app, !Forall_app.
  split; [split; [destruct t|destruct w]; repeat constructor|].
  induction F as [|b xs E F IH]; cbn [map]; constructor; [|exact IH]. cbn [fst]. destruct b; try exact I; destruct E.
Qed.

Lemma bit_if (b : bool) (P : Prop) (x y : Z) : (b = true <-> P) -> forall c : bool, (c = true <-> P) -> (if b then x else y) = (if c then x else y).
Proof. intros B c C. destruct b, c; try reflexivity; [assert (false = true) by tauto|assert (false = true) by tauto]; discriminate. Qed.

(** ** The parts of a record *)

Lemma says_with j m k f mu h : header_says j m k f mu h -> h = with_data h (m_start m) 0 0.
Proof. intros (q & a & io & dq & corr & nb & -> & _). reflexivity. Qed.
Lemma hdrx_fine j m k f mu h hb t n off : codes_ok k -> header_says j m k f mu h -> in_s 16 f -> in_s 16 mu -> in_s 32 (f_corr h) ->
  dated hb t -> in_u 16 n -> in_u 16 off -> hdr2_ok (with_data h t n off).
Proof.
  intros K (qu & a & io & dq & corr & nb & -> & Hqu & A8 & I8 & D8 & N8 & _) Hf Hm Ic D Hn Ho.
  assert (Qin : In qu [68; 82; 81; 77]).
  { destruct Hqu as [(s & _ & _ & I)|[_ ->]]; [exact I|]. unfold version_char. destruct (m_pub m) as [|[[|[]|]|[|[]|]|]|]; cbn [In]; tauto. }
  pose proof K as (Kn & Ks & Kl & (Kb & _) & (Kso & _) & (Ksu & _)). pose proof D as (T1 & T2 & T3 & T4).
  unfold hdr2_ok, with_data. cbn [f_seq f_quality f_reserved f_sta f_loc f_chan f_net f_start f_cnt f_fact f_mult f_act f_io f_dq f_nblk f_corr f_data] in *.
  split; [reflexivity|]. split; [cbn [repeat]; repeat constructor; lia|]. split; [exact Qin|].
  split; [left; reflexivity|]. split; [apply lenZ_fill, Ks|]. split; [apply lenZ_fill, Kl|]. split; [apply lenZ_fill, Kn|].
  split. { rewrite !Forall_app. split; [eapply chars_fill, Ks|]. split; [eapply chars_fill, Kl|]. split; [|eapply chars_fill, Kn].
           constructor; [lia|]. constructor; [lia|]. constructor; [lia|constructor]. }
  split. { unfold btime_ok. rewrite tenths_ns. cbn [b_day b_hour b_min b_sec b_unused b_fract btime_at].
           split; [lia|]. split; [lia|]. split; [lia|]. split; [lia|]. split; [lia|]. split; [lia|exact T4]. }
  split; [exact Hn|]. split; [exact Hf|]. split; [exact Hm|]. do 4 (split; [assumption|]). split; [exact Ic|exact Ho].
Qed.

Lemma orderx_fine hb h t n off : dated hb t -> order_seen hb true (with_data h t n off).
Proof.
  intros D. assert (O : order_seen hb true (hdr_of (mk_msr 0 true true 0 0 [] t 0 0 0 0 0 [] 0 None) (mk_codes [] [] [] 0 0 0) 0 0 (lenZ (blks_of 0 0 (micros t) None)) t 0 0)).
  { apply (order_fine hb (mk_msr 0 true true 0 0 [] t 0 0 0 0 0 [] 0 None)). exact D. }
  exact O.
Qed.

Section Chain.
  Variables (j : jv) (m : msr) (enc e : Z) (w : option Z) (bs : list (blk * list Z)).
  Let us := micros (m_start m).
  Hypothesis Hb : blockettes_say j enc e us w bs.
  Hypothesis He : 7 <= e <= 17.
  Hypothesis Be : in_u 8 enc.
  Hypothesis Hw : match w with Some w => in_u 32 w | None => True end.

  Lemma chainx_fine : document_ok j -> document_kept j -> chain_ok bs.
  Proof.
    intros Dok Dk. destruct (split_says _ _ _ _ _ _ Hb) as (q & t & xs & Xs & Hq & Ht & Eb).
    assert (Hu : 0 <= us < 100) by (unfold us, micros; lia).
    assert (F : Forall blk_ok (front enc e us q w t ++ xs)) by (apply Forall_app; split; [now apply front_fine|now apply (entries_fine j)]).
    rewrite Eb. unfold chain_ok, bare. rewrite Forall_map. eapply Forall_impl; [|exact F]. cbn [fst snd]. intros b Hk. split; [exact Hk|constructor].
  Qed.

  Lemma statesx_fine : states_length (2 ^ e) bs.
  Proof.
    destruct (split_says _ _ _ _ _ _ Hb) as (q & t & xs & Xs & Hq & Ht & Eb). rewrite Eb. apply states_says. exact (entries_kinds _ _ Xs).
  Qed.

  Lemma lastx_fine : last_1000 bs = Some (enc, true, 2 ^ e).
  Proof.
    destruct (split_says _ _ _ _ _ _ Hb) as (q & t & xs & Xs & Hq & Ht & Eb). pose proof (entries_kinds _ _ Xs) as EK.
    unfold last_1000. rewrite Eb, last_says; [|intros [] Hb0; try reflexivity; destruct Hb0|exact EK]. unfold front, bare. destruct t, w; reflexivity.
  Qed.

  Lemma last100_fine : last_of (fun b => match b with B100 w _ => Some w | _ => None end) bs = w.
  Proof.
    destruct (split_says _ _ _ _ _ _ Hb) as (q & t & xs & Xs & Hq & Ht & Eb). pose proof (entries_kinds _ _ Xs) as EK.
    rewrite Eb, last_says; [|intros [] Hb0; try reflexivity; destruct Hb0|exact EK]. unfold front, bare. destruct t, w; reflexivity.
  Qed.

  Lemma recx_fine J hb k f mu h t n off len rate : codes_ok k -> m_sid m = codes_sid k -> header_says j m k f mu h ->
    exists datalen, rec2_of J hb true (with_data h t n off) bs len rate =
    mk_msr (2 ^ e) (negb hb) (negb hb) 2 (m_flags m mod 8) (m_sid m) (tenths t + us * 1000) rate enc (version_of (f_quality h)) n 0
           (extra_text J h bs) datalen None.
  Proof.
    intros K S (qu & a & io & dq & corr & nb & Eh & Hqu & A8 & I8 & D8 & N8 & B0 & B1 & _ & _ & _ & _ & _ & _ & _ & _ & _ & _ & _ & B5 & _ & _ & _ & _ & _ & _ & _ & _ & _ & B7 & Hc).
    destruct (split_says _ _ _ _ _ _ Hb) as (q & tt & xs & Xs & Hq & Ht & Eb). pose proof (entries_kinds _ _ Xs) as EK.
    eexists. unfold rec2_of.
    assert (R1 : forall d, or_else (last_of (fun b => match b with B1000 _ _ e0 _ => Some (2 ^ e0) | _ => None end) bs) d = 2 ^ e)
      by (intros; rewrite Eb, last_says; [|intros [] Hb0; try reflexivity; destruct Hb0|exact EK]; unfold front, bare; destruct tt, w; reflexivity).
    assert (R2 : forall d, or_else (last_of (fun b => match b with B1000 _ o _ _ => Some (negb (o =? 0)) | _ => None end) bs) d = true)
      by (intros; rewrite Eb, last_says; [|intros [] Hb0; try reflexivity; destruct Hb0|exact EK]; unfold front, bare; destruct tt, w; reflexivity).
    assert (R3 : forall d, or_else (last_of (fun b => match b with B1000 e0 _ _ _ => Some e0 | _ => None end) bs) d = enc)
      by (intros; rewrite Eb, last_says; [|intros [] Hb0; try reflexivity; destruct Hb0|exact EK]; unfold front, bare; destruct tt, w; reflexivity).
    assert (R4 : or_else (last_of (fun b => match b with B1001 _ us _ _ => Some (us * 1000) | _ => None end) bs) 0 = us * 1000).
    { rewrite Eb, last_says; [|intros [] Hb0; try reflexivity; destruct Hb0|exact EK]. unfold front, bare. destruct tt, w; cbn [app map last_of or_else]; try reflexivity; rewrite (Ht eq_refl); reflexivity. }
    assert (Sid : sid2 (with_data h t n off) = m_sid m).
    { rewrite Eh, S. pose proof K as (Kn & Ks & Kl & _). unfold sid2, codes_sid, with_data. cbn [f_chan f_net f_sta f_loc].
      rewrite (no_spaces_fill _ _ _ Kn), (no_spaces_fill _ _ _ Ks), (no_spaces_fill _ _ _ Kl). reflexivity. }
    assert (ST : start2 (with_data h t n off) bs = tenths t + us * 1000).
    { unfold start2. rewrite R4, Eh. unfold with_data. cbn [f_start f_act f_corr]. rewrite tenths_ns.
      destruct Hc as [(b & v & Hnum & _)|[_ ->]]; [|destruct (bit a 1); lia].
      assert (Ba : bit a 1 = true) by (apply B1; eauto). rewrite Ba. lia. }
    assert (FL : (if bit (f_act (with_data h t n off)) 0 then 1 else 0) + (if bit (f_dq (with_data h t n off)) 7 then 2 else 0) + (if bit (f_io (with_data h t n off)) 5 then 4 else 0) = m_flags m mod 8).
    { rewrite Eh. unfold with_data. cbn [f_act f_dq f_io]. rewrite <- flags_mod. unfold bit_for in *. f_equal; [f_equal|].
      - apply (bit_if _ _ _ _ B0). tauto.
      - apply (bit_if _ _ _ _ B7). tauto.
      - apply (bit_if _ _ _ _ B5). tauto. }
    change (extra_text J (with_data h t n off) bs) with (extra_text J h bs).
    rewrite R1, R2, R3, Sid, ST, FL. replace (Bool.eqb hb true) with hb by now destruct hb. reflexivity.
  Qed.
End Chain.

Lemma rate_blk_range m f mu : 0 <= m_rate m < 2 ^ 64 -> match rate_blk m f mu with Some w => in_u 32 w | None => True end.
Proof. intros Hr. unfold rate_blk. destruct (dlt _ _); [|exact I]. destruct (double_float _ Hr) as (R & _). unfold in_u. exact R. Qed.

(** ** The record *)

Lemma read_back_ok J rd hb hb2 mode m2 addr pf stack R m k f mu j : headers_accepted J ->
  sendable m k -> (64 <= List.length stack)%nat -> lenZ R = maxlen m - 48 -> bytes_ok R -> in_u 8 (encoding_of m) ->
  doc_of rd m j -> document_ok j -> document_kept j -> genfactmult mode (sampratehz (m_rate m)) = Ok (f, mu) -> dated hb2 (m_start m) ->
  exists h e w bs, 7 <= e <= 17 /\ maxlen m = 2 ^ e /\ header_says j m k f mu h /\ blockettes_say j (encoding_of m) e (micros (m_start m)) w bs /\
    (header_size bs < maxlen m -> header_size bs < 65536 ->
     exists r rate datalen, pack_header2x rd hb mode stack (maxlen m) m (repeat 0 48 ++ R) = Ok (r, header_size bs) /\ rate_back (m_rate m) rate /\
     parse (unpack2 J hb2 m2 addr pf) hb2 m2 addr pf r =
     Ok (PRec (mk_msr (maxlen m) (negb hb2) (negb hb2) 2 (m_flags m mod 8) (m_sid m) (tenths (m_start m) + micros (m_start m) * 1000) rate
                      (encoding_of m) (version_of (f_quality h)) 0 0 (extra_text J h bs) datalen None))).
Proof.
  intros HJ (K & S & (e & He & M) & T & Hr & x & Ex) St LR BR Be Dj Dok Dk G D. destruct (factors_range _ _ _ _ G) as [Hf Hm].
  destruct (exp_is e He) as (X1 & X2 & X3).
  destruct (header2x_ok rd hb mode stack m k f mu e R j K S St He M T G LR Dj Dok) as (h & bs & Hh & Hn & Ic & Hb & PK).
  exists h, e, (rate_blk m f mu), bs. split; [exact He|]. split; [exact M|]. split; [exact Hh|]. split; [exact Hb|]. intros Fi S16.
  replace (header_size bs <=? maxlen m) with true in PK by lia.
  pose proof (rate_blk_range m f mu Hr) as Hw. set (w := rate_blk m f mu) in *. pose proof (says_with _ _ _ _ _ _ Hh) as Eh.
  assert (Z16 : in_u 16 0) by (unfold in_u; lia).
  assert (HF : hdr2_ok h) by (rewrite Eh; eapply hdrx_fine; eassumption).
  assert (CF : chain_ok bs) by (eapply chainx_fine; eassumption).
  assert (OF : order_seen hb2 true h) by (rewrite Eh; exact (orderx_fine hb2 h (m_start m) 0 0 D)).
  assert (SF : states_length (2 ^ e) bs) by (eapply statesx_fine; eassumption).
  assert (L1 : last_of (fun b => match b with B100 w _ => Some w | _ => None end) bs = w) by (eapply last100_fine; eassumption).
  pose proof (fun len rate => recx_fine j m (encoding_of m) e w bs Hb He Hw J hb2 k f mu h (m_start m) 0 0 len rate K S Hh) as RF.
  assert (Ff : f_fact h = f /\ f_mult h = mu /\ f_cnt h = 0) by (destruct Hh as (q0 & a0 & io0 & dq0 & corr0 & nb0 & E1 & _); rewrite E1; repeat split).
  destruct Ff as (Ff & Fm & Cn).
  clear Hb Hh Dok Dk Dj.
  set (rest := skipn (Z.to_nat (header_size bs - 48)) R) in *. set (rec := layout2 true h [] bs rest) in *.
  assert (Brest : bytes_ok rest).
  { unfold rest. rewrite <- (firstn_skipn (Z.to_nat (header_size bs - 48)) R) in BR. exact (proj2 (proj1 (Forall_app _ _ _) BR)). }
  assert (Lrest : lenZ rest = maxlen m - header_size bs).
  { unfold rest, lenZ in *. rewrite skipn_length. unfold header_size, lenZ in *. lia. }
  clearbody rest.
  assert (Lh : header_size bs = 48 + lenZ (chain_bytes true 48 bs)) by reflexivity.
  pose proof (lenZ_nonneg (chain_bytes true 48 bs)) as Cp.
  assert (LL : lenZ rec = 2 ^ e).
  { unfold rec, layout2. rewrite !lenZ_app, lenZ_fixed by exact HF. change (48 + lenZ (@nil Z)) with 48. rewrite (@lenZ_nil Z). lia. }
  assert (WF : well_formed true h [] bs rest []).
  { split; [exact HF|]. split; [exact CF|]. split; [constructor|]. split; [exact Brest|]. split; [constructor|].
    split; [rewrite (@lenZ_nil Z); lia|]. fold rec. split; [unfold MAXRECLEN; lia|]. change (48 + lenZ (@nil Z)) with 48. lia. }
  destruct (V2RecParse.parse_whole J hb2 true m2 addr pf h [] bs rest [] HJ WF OF ltac:(fold rec; rewrite LL; exact SF)) as [PW _].
  destruct (PW (or_intror Cn)) as (rate & RO & PE). rewrite app_nil_r in PE. fold rec in PE.
  destruct (RF (lenZ rec) rate) as (dl & RE). rewrite <- Eh in RE.
  exists rec, rate, dl. split; [exact PK|]. split.
  - exact (rate_returns m f mu h bs rate x Hr Ex Hf Hm Ff Fm L1 RO).
  - rewrite PE, RE, M. reflexivity.
Qed.

(** ** Bits *)

(** The requests of a header: those of its list whose condition holds. *)
Lemma in_chosen (l : list (bool * ehop)) p : In p (concat (map (fun x : bool * ehop => if fst x then [snd x] else []) l)) <-> In (true, p) l.
Proof.
  induction l as [|[[] o] l IH]; cbn [map concat fst snd app In]; [tauto| |]; rewrite IH; [|intuition congruence].
  split; (intros [E|I]; [left; congruence|right; exact I]).
Qed.
Definition choices (h : hdr2) : list (bool * ehop) :=
  [(bit (f_act h) 2, HBool "/FDSN/Event/Begin"); (bit (f_act h) 3, HBool "/FDSN/Event/End");
   (bit (f_act h) 4, HInt "/FDSN/Time/LeapSecond" 1); (bit (f_act h) 5, HInt "/FDSN/Time/LeapSecond" (-1));
   (bit (f_act h) 6, HBool "/FDSN/Event/InProgress");
   (bit (f_io h) 0, HBool "/FDSN/Flags/StationVolumeParityError"); (bit (f_io h) 1, HBool "/FDSN/Flags/LongRecordRead");
   (bit (f_io h) 2, HBool "/FDSN/Flags/ShortRecordRead"); (bit (f_io h) 3, HBool "/FDSN/Flags/StartOfTimeSeries");
   (bit (f_io h) 4, HBool "/FDSN/Flags/EndOfTimeSeries");
   (bit (f_dq h) 0, HBool "/FDSN/Flags/AmplifierSaturation"); (bit (f_dq h) 1, HBool "/FDSN/Flags/DigitizerClipping");
   (bit (f_dq h) 2, HBool "/FDSN/Flags/Spikes"); (bit (f_dq h) 3, HBool "/FDSN/Flags/Glitches");
   (bit (f_dq h) 4, HBool "/FDSN/Flags/MissingData"); (bit (f_dq h) 5, HBool "/FDSN/Flags/TelemetrySyncError");
   (bit (f_dq h) 6, HBool "/FDSN/Flags/FilterCharging"); (negb (f_corr h =? 0), HNum "/FDSN/Time/Correction" (f_corr h))].
Lemma flags_chosen h p : In p (flag_ops h) <-> In (true, p) (choices h).
Proof.
  rewrite <- in_chosen. unfold flag_ops, choices. cbn [map fst snd]. destruct (f_corr h =? 0); cbn [negb]; apply iff_refl.
Qed.

(** The one place of a request in a list. *)
Lemma at_place (b : bool) (p : ehop) (l r : list (bool * ehop)) : ~ In (true, p) l -> ~ In (true, p) r -> (In (true, p) (l ++ (b, p) :: r) <-> b = true).
Proof.
  intros L R. rewrite in_app_iff. cbn [In]. split.
  - intros [I|[E|I]]; [now elim L|congruence|now elim R].
  - intros ->. right. left. reflexivity.
Qed.
Definition named (p : ehop) : string * Z := match p with HBool s => (s, 0) | HInt s i => (s, i) | HNum s _ => (s, 2) | _ => (EmptyString, 3) end.
Fixpoint place (q : string * Z) (n : nat) (l : list (bool * ehop)) : option nat :=
  match l with [] => None | (_, o) :: l => if (String.eqb (fst (named o)) (fst q) && (snd (named o) =? snd q))%bool then Some n else place q (S n) l end.
Lemma not_placed q n l b p : place q n l = None -> named p = q -> ~ In (b, p) l.
Proof.
  revert n. induction l as [|[c o] l IH]; intros n E N; [intros []|]. cbn [place] in E. destruct (_ && _)%bool eqn:B; [discriminate|].
  intros [I|I]; [|exact (IH _ E N I)]. injection I as -> ->. rewrite N, String.eqb_refl, Z.eqb_refl in B. discriminate.
Qed.
Lemma one_place h p n b : nth_error (choices h) n = Some (b, p) -> place (named p) 0 (firstn n (choices h)) = None -> place (named p) 0 (skipn (S n) (choices h)) = None ->
  (In p (flag_ops h) <-> b = true).
Proof.
  intros E A B. rewrite flags_chosen. destruct (nth_error_split _ _ E) as (l & r & El & Ln). rewrite El in A, B |- *.
  apply at_place.
  - rewrite <- Ln, firstn_app, Nat.sub_diag, firstn_all, app_nil_r in A. eapply not_placed; [exact A|reflexivity].
  - rewrite <- Ln in B. replace (S (List.length l)) with (List.length (l ++ [(b, p)])) in B by (rewrite app_length; cbn [List.length]; lia).
    replace (l ++ (b, p) :: r) with ((l ++ [(b, p)]) ++ r) in B by (rewrite <- app_assoc; reflexivity).
    rewrite skipn_app, skipn_all, Nat.sub_diag in B. eapply not_placed; [exact B|reflexivity].
Qed.

Lemma switches_ok j m k f mu h : header_says j m k f mu h ->
  Forall (fun s : string * list string => In (HBool (fst s)) (flag_ops h) <-> is_set j (snd s)) switches.
Proof.
  intros (q & a & io & dq & corr & nb & Eh & _ & _ & _ & _ & _ & _ & _ & A2 & A3 & _ & _ & A6 & _ & I0 & I1 & I2 & I3 & I4 & _ & _ & _ & D0 & D1 & D2 & D3 & D4 & D5 & D6 & _).
  unfold bit_for in *.
  assert (Fa : f_act h = a /\ f_io h = io /\ f_dq h = dq) by (rewrite Eh; repeat split). clear Eh. destruct Fa as (<- & <- & <-).
  unfold switches.
  apply Forall_cons; [exact (iff_trans (one_place h _ 0 _ eq_refl eq_refl eq_refl) A2)|].
  apply Forall_cons; [exact (iff_trans (one_place h _ 1 _ eq_refl eq_refl eq_refl) A3)|].
  apply Forall_cons; [exact (iff_trans (one_place h _ 4 _ eq_refl eq_refl eq_refl) A6)|].
  apply Forall_cons; [exact (iff_trans (one_place h _ 5 _ eq_refl eq_refl eq_refl) I0)|].
  apply Forall_cons; [exact (iff_trans (one_place h _ 6 _ eq_refl eq_refl eq_refl) I1)|].
  apply Forall_cons; [exact (iff_trans (one_place h _ 7 _ eq_refl eq_refl eq_refl) I2)|].
  apply Forall_cons; [exact (iff_trans (one_place h _ 8 _ eq_refl eq_refl eq_refl) I3)|].
  apply Forall_cons; [exact (iff_trans (one_place h _ 9 _ eq_refl eq_refl eq_refl) I4)|].
  apply Forall_cons; [exact (iff_trans (one_place h _ 10 _ eq_refl eq_refl eq_refl) D0)|].
  apply Forall_cons; [exact (iff_trans (one_place h _ 11 _ eq_refl eq_refl eq_refl) D1)|].
  apply Forall_cons; [exact (iff_trans (one_place h _ 12 _ eq_refl eq_refl eq_refl) D2)|].
  apply Forall_cons; [exact (iff_trans (one_place h _ 13 _ eq_refl eq_refl eq_refl) D3)|].
  apply Forall_cons; [exact (iff_trans (one_place h _ 14 _ eq_refl eq_refl eq_refl) D4)|].
  apply Forall_cons; [exact (iff_trans (one_place h _ 15 _ eq_refl eq_refl eq_refl) D5)|].
  apply Forall_cons; [exact (iff_trans (one_place h _ 16 _ eq_refl eq_refl eq_refl) D6)|].
  constructor.
Qed.

Lemma leap_ok j m k f mu h : header_says j m k f mu h -> forall i, In (HInt "/FDSN/Time/LeapSecond" i) (flag_ops h) <->
  (i = 1 /\ exists b, has_number j (fdsn "Time" "LeapSecond") b /\ positive b) \/ (i = -1 /\ exists b, has_number j (fdsn "Time" "LeapSecond") b /\ negative b).
Proof.
  intros (q & a & io & dq & corr & nb & Eh & _ & _ & _ & _ & _ & _ & _ & _ & _ & A4 & A5 & _) i. unfold bit_for in *.
  assert (Fa : f_act h = a) by (now rewrite Eh). clear Eh. subst a. rewrite <- A4, <- A5. clear A4 A5.
  split.
  - intros H. destruct (Z.eqb_spec i 1) as [->|N1]; [left; split; [reflexivity|]; now apply (one_place h (HInt "/FDSN/Time/LeapSecond" 1) 2 _ eq_refl eq_refl eq_refl)|].
    destruct (Z.eqb_spec i (-1)) as [->|N2]; [right; split; [reflexivity|]; now apply (one_place h (HInt "/FDSN/Time/LeapSecond" (-1)) 3 _ eq_refl eq_refl eq_refl)|].
    exfalso. apply flags_chosen in H. apply (in_map snd) in H. cbn [snd] in H. unfold choices in H. cbn [map snd In] in H.
    repeat (destruct H as [H|H]; [first [discriminate H|congruence]|]). destruct H.
  - intros [[-> H]|[-> H]]; [now apply (one_place h (HInt "/FDSN/Time/LeapSecond" 1) 2 _ eq_refl eq_refl eq_refl)|now apply (one_place h (HInt "/FDSN/Time/LeapSecond" (-1)) 3 _ eq_refl eq_refl eq_refl)].
Qed.

Lemma version_ok j m k f mu h : header_says j m k f mu h -> exists q, f_quality h = q /\ quality_for j (m_pub m) q.
Proof. intros (q & a & io & dq & corr & nb & -> & Q & _). exists q. split; [reflexivity|exact Q]. Qed.

Lemma header_all rd hb mode stack R m k f mu j :
  sendable m k -> (64 <= List.length stack)%nat -> lenZ R = maxlen m - 48 -> doc_of rd m j -> document_ok j ->
  genfactmult mode (sampratehz (m_rate m)) = Ok (f, mu) ->
  exists h e w bs, maxlen m = 2 ^ e /\ header_says j m k f mu h /\ f_nblk h = lenZ bs mod 256 /\
    blockettes_say j (encoding_of m) e (micros (m_start m)) w bs /\
    (forall rate, rate_ok h bs rate -> rate_back (m_rate m) rate) /\
    pack_header2x rd hb mode stack (maxlen m) m (repeat 0 48 ++ R) =
    (if header_size bs <=? maxlen m
     then Ok (layout2 true h [] bs (skipn (Z.to_nat (header_size bs - 48)) R), header_size bs) else Err (-1)).
Proof.
  intros (K & S & (e & He & M) & T & Hr & x & Ex) St LR Dj Dok G. destruct (factors_range _ _ _ _ G) as [Hf Hm].
  destruct (header2x_ok rd hb mode stack m k f mu e R j K S St He M T G LR Dj Dok) as (h & bs & Hh & Hn & _ & Hb & PK).
  exists h, e, (rate_blk m f mu), bs. split; [exact M|]. split; [exact Hh|]. split; [exact Hn|]. split; [exact Hb|]. split; [|exact PK].
  intros rate RO. destruct Hh as (q & a & io & dq & corr & nb & Eh & _).
  apply (rate_returns m f mu h bs rate x Hr Ex Hf Hm); [now rewrite Eh|now rewrite Eh| |exact RO].
  destruct (split_says _ _ _ _ _ _ Hb) as (q1 & t & xs & Xs & _ & _ & Eb). pose proof (entries_kinds _ _ Xs) as EK.
  rewrite Eb, last_says; [|intros [] Hb0; try reflexivity; destruct Hb0|exact EK]. unfold front, bare. destruct t, (rate_blk m f mu); reflexivity.
Qed.

Lemma header_refused rd hb mode stack R m k f :
  sendable m k -> (64 <= List.length stack)%nat -> m_extra m <> [] -> rd (m_extra m) = None ->
  genfactmult mode (sampratehz (m_rate m)) = Ok f ->
  pack_header2x rd hb mode stack (maxlen m) m R = Err (-1).
Proof.
  intros (K & S & (e & He & M) & T & Hr & x & Ex) St N E G. destruct (exp_is e He) as (X1 & X2 & X3). destruct f as [f mu].
  unfold pack_header2x. cbv zeta. fold (maxlen m). rewrite M.
  replace ((2 ^ e <? 128) || (MAXRECLEN <? 2 ^ e)) with false by (unfold MAXRECLEN; lia). rewrite X1, X2. cbn [Z.eqb negb bind].
  destruct (sid_codes stack k K St) as (o & Eo & An & As & Al & Ac). rewrite S, Eo. cbn [bind]. rewrite An, As, Al, Ac. cbn [bind].
  pose proof K as ((Ln & _) & (Ls & _) & (Ll & _) & _).
  replace ((2 <? Z.of_nat (List.length (k_net k))) || (5 <? Z.of_nat (List.length (k_sta k))) || (2 <? Z.of_nat (List.length (k_loc k))) || negb (Z.of_nat (List.length [k_band k; k_source k; k_sub k]) =? 3)) with false
    by (unfold lenZ in *; cbn [List.length]; lia).
  rewrite nstime2time_ok by exact T. unfold fields_of at 1. cbv iota. rewrite G. cbn [bind]. destruct (m_extra m); [congruence|]. now rewrite E.
Qed.
