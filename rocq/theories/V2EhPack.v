(** * Packing a document as version 2 and reading it back as a document. *)

From Coq Require Import String QArith Qabs.
From Verif Require Import Base BaseLemmas TimeModel TimeSpec TimeProof StrModel RecModel RecSpec RecProof PackModel PackSpec PackProof ConvSpec ConvProof
  EhModel EhSpec EhProof V2Model V2RecSpec V2RecProof V2RecParse V2Rate Pack2Model Pack2Spec Pack2Hdr Pack2Rate Pack2Read
  EhPackModel EhPackSpec EhPack2Spec EhPackFields EhPackBody EhPackProof EhPackHdr EhPackRead V2EhModel V2EhSpec V2EhProof V2EhRead V2EhWhole.
Open Scope Z_scope.
Open Scope list_scope.

Lemma said_iff b v : said b v = Some v <-> b = true.
Proof. destruct b; cbn [said]; split; congruence. Qed.
Lemma kept_switches j m k f mu h bs j2 : header_says j m k f mu h -> record_document h bs j2 ->
  Forall (fun s : string * list string => at_ j2 (snd s) (JBool true) <-> is_set j (snd s)) switches.
Proof.
  intros (q & a & io & dq & corr & nb & Eh & _ & _ & _ & _ & _ & _ & _ & A2 & A3 & _ & _ & A6 & _ & I0 & I1 & I2 & I3 & I4 & _ & _ & _ & D0 & D1 & D2 & D3 & D4 & D5 & D6 & _) (V & _).
  unfold bit_for in *. assert (Fa : f_act h = a) by (now rewrite Eh). assert (Fi : f_io h = io) by (now rewrite Eh). assert (Fd : f_dq h = dq) by (now rewrite Eh).
  clear Eh. subst a io dq.
  assert (W : forall ks b P, In (ks, said b (JBool true)) (record_values h bs) -> (b = true <-> P) -> (at_ j2 ks (JBool true) <-> P)).
  { intros ks b P I H. rewrite (V _ _ _ I), said_iff. exact H. }
  unfold switches.
  apply Forall_cons; [refine (W _ _ _ _ A2)|]. 1:{ unfold record_values. cbn [In snd]. tauto. }
  apply Forall_cons; [refine (W _ _ _ _ A3)|]. 1:{ unfold record_values. cbn [In snd]. tauto. }
  apply Forall_cons; [refine (W _ _ _ _ A6)|]. 1:{ unfold record_values. cbn [In snd]. tauto. }
  apply Forall_cons; [refine (W _ _ _ _ I0)|]. 1:{ unfold record_values. cbn [In snd]. tauto. }
  apply Forall_cons; [refine (W _ _ _ _ I1)|]. 1:{ unfold record_values. cbn [In snd]. tauto. }
  apply Forall_cons; [refine (W _ _ _ _ I2)|]. 1:{ unfold record_values. cbn [In snd]. tauto. }
  apply Forall_cons; [refine (W _ _ _ _ I3)|]. 1:{ unfold record_values. cbn [In snd]. tauto. }
  apply Forall_cons; [refine (W _ _ _ _ I4)|]. 1:{ unfold record_values. cbn [In snd]. tauto. }
  apply Forall_cons; [refine (W _ _ _ _ D0)|]. 1:{ unfold record_values. cbn [In snd]. tauto. }
  apply Forall_cons; [refine (W _ _ _ _ D1)|]. 1:{ unfold record_values. cbn [In snd]. tauto. }
  apply Forall_cons; [refine (W _ _ _ _ D2)|]. 1:{ unfold record_values. cbn [In snd]. tauto. }
  apply Forall_cons; [refine (W _ _ _ _ D3)|]. 1:{ unfold record_values. cbn [In snd]. tauto. }
  apply Forall_cons; [refine (W _ _ _ _ D4)|]. 1:{ unfold record_values. cbn [In snd]. tauto. }
  apply Forall_cons; [refine (W _ _ _ _ D5)|]. 1:{ unfold record_values. cbn [In snd]. tauto. }
  apply Forall_cons; [refine (W _ _ _ _ D6)|]. 1:{ unfold record_values. cbn [In snd]. tauto. }
  constructor.
Qed.
Lemma kept_leap j m k f mu h bs j2 : header_says j m k f mu h -> record_document h bs j2 ->
  (at_ j2 (fdsn "Time" "LeapSecond") (JInt (-1)) <-> exists b, has_number j (fdsn "Time" "LeapSecond") b /\ negative b) /\
  ((exists b, has_number j (fdsn "Time" "LeapSecond") b /\ positive b) -> ~ (exists b, has_number j (fdsn "Time" "LeapSecond") b /\ negative b) ->
   at_ j2 (fdsn "Time" "LeapSecond") (JInt 1)).
Proof.
  intros (q & a & io & dq & corr & nb & Eh & _ & _ & _ & _ & _ & _ & _ & _ & _ & A4 & A5 & _) (V & _). unfold bit_for in *.
  assert (Fa : f_act h = a) by (now rewrite Eh). clear Eh. subst a. rewrite <- A4, <- A5. clear A4 A5.
  assert (I : In (fdsn "Time" "LeapSecond", if bit (f_act h) 5 then Some (JInt (-1)) else said (bit (f_act h) 4) (JInt 1)) (record_values h bs)).
  { unfold record_values. cbn [In]. tauto. }
  rewrite !(V _ _ _ I). destruct (bit (f_act h) 5), (bit (f_act h) 4); cbn [said]; split; try (split; congruence); try congruence.
Qed.

Lemma packed_back rd rd2 wr hb hb2 mode m2 addr pf stack R m k f mu j : reads_quality rd2 ->
  sendable m k -> (64 <= List.length stack)%nat -> lenZ R = maxlen m - 48 -> bytes_ok R -> in_u 8 (encoding_of m) ->
  doc_of rd m j -> document_ok j -> document_kept j -> genfactmult mode (sampratehz (m_rate m)) = Ok (f, mu) -> dated hb2 (m_start m) ->
  exists h e w bs, 7 <= e <= 17 /\ maxlen m = 2 ^ e /\ header_says j m k f mu h /\ blockettes_say j (encoding_of m) e (micros (m_start m)) w bs /\
    (header_size bs < maxlen m -> header_size bs < 65536 ->
     exists r m' j2, pack_header2x rd hb mode stack (maxlen m) m (repeat 0 48 ++ R) = Ok (r, header_size bs) /\
       parse (unpack2 (eh_json rd2 wr) hb2 m2 addr pf) hb2 m2 addr pf r = Ok (PRec m') /\
       record_document h bs j2 /\ headers_text rd2 wr h bs j2 (m_extra m') /\
       Forall (fun s : string * list string => at_ j2 (snd s) (JBool true) <-> is_set j (snd s)) switches /\
       (at_ j2 (fdsn "Time" "LeapSecond") (JInt (-1)) <-> exists b, has_number j (fdsn "Time" "LeapSecond") b /\ negative b) /\
       ((exists b, has_number j (fdsn "Time" "LeapSecond") b /\ positive b) -> ~ (exists b, has_number j (fdsn "Time" "LeapSecond") b /\ negative b) ->
        at_ j2 (fdsn "Time" "LeapSecond") (JInt 1))).
Proof.
  intros HJ (K & S & (e & He & M) & T & Hr & x & Ex) St LR BR Be Dj Dok Dk G D. destruct (factors_range _ _ _ _ G) as [Hf Hm].
  destruct (exp_is e He) as (X1 & X2 & X3).
  destruct (header2x_ok rd hb mode stack m k f mu e R j K S St He M T G LR Dj Dok) as (h & bs & Hh & Hn & Ic & Hb & PK).
  exists h, e, (rate_blk m f mu), bs. split; [exact He|]. split; [exact M|]. split; [exact Hh|]. split; [exact Hb|]. intros Fi S16.
  replace (header_size bs <=? maxlen m) with true in PK by lia.
  pose proof (rate_blk_range m f mu Hr) as Hw. set (w := rate_blk m f mu) in *. pose proof (says_with _ _ _ _ _ _ Hh) as Eh.
  assert (Z16 : in_u 16 0) by (unfold in_u; lia).
  assert (HF : hdr2_ok h) by (rewrite Eh; eapply hdrx_fine; eassumption).
  assert (CF : chain_ok bs) by (eapply chainx_fine; eassumption).
  assert (OF : order_seen hb2 true h) by (rewrite Eh; exact (orderx_fine hb2 h (m_start m) 0 0 D)).
  assert (SF : states_length (2 ^ e) bs) by (eapply statesx_fine; eassumption).
  assert (Cn : f_cnt h = 0) by (destruct Hh as (q0 & a0 & io0 & dq0 & corr0 & nb0 & E1 & _); rewrite E1; reflexivity).
  pose proof (fun j2 => kept_switches j m k f mu h bs j2 Hh) as KS. pose proof (fun j2 => kept_leap j m k f mu h bs j2 Hh) as KL.
  clear Hb Hh Dok Dk Dj.
  set (rest := skipn (Z.to_nat (header_size bs - 48)) R) in *. set (rec := layout2 true h [] bs rest) in *.
  assert (Brest : bytes_ok rest).
  { unfold rest. rewrite <- (firstn_skipn (Z.to_nat (header_size bs - 48)) R) in BR. exact (proj2 (proj1 (Forall_app _ _ _) BR)). }
  assert (Lrest : lenZ rest = maxlen m - header_size bs).
  { unfold rest, lenZ in *. rewrite skipn_length. unfold header_size, lenZ in *. lia. }
  clearbody rest.
  assert (Lh : header_size bs = 48 + lenZ (chain_bytes true 48 bs)) by reflexivity.
  pose proof (lenZ_nonneg (chain_bytes true 48 bs)) as Cp.
  assert (LL : lenZ rec = 2 ^ e).
  { unfold rec, layout2. rewrite !lenZ_app, lenZ_fixed by exact HF. change (48 + lenZ (@nil Z)) with 48. rewrite (@lenZ_nil Z). lia. }
  assert (WF : well_formed true h [] bs rest []).
  { split; [exact HF|]. split; [exact CF|]. split; [constructor|]. split; [exact Brest|]. split; [constructor|].
    split; [rewrite (@lenZ_nil Z); lia|]. fold rec. split; [unfold MAXRECLEN; lia|]. change (48 + lenZ (@nil Z)) with 48. lia. }
  destruct (record_read rd2 wr hb2 true m2 addr pf h [] bs rest [] HJ WF OF ltac:(fold rec; rewrite LL; exact SF)) as (PW & _ & j2 & RD & HT).
  destruct (PW (or_intror Cn)) as (rate & RO & PE). rewrite app_nil_r in PE. fold rec in PE.
  exists rec, (rec2_of (eh_json rd2 wr) hb2 true h bs (lenZ rec) rate), j2. split; [exact PK|]. split; [exact PE|]. split; [exact RD|]. split; [exact HT|].
  split; [exact (KS j2 RD)|exact (KL j2 RD)].
Qed.
