(** * C65: the extra headers of a version 2 record as a document *)

From Coq Require Import String QArith.
From Verif Require Import Base BaseLemmas RecModel RecSpec EhModel EhSpec EhProof V2Model V2RecSpec EhPackSpec V2EhModel V2EhSpec V2EhProof V2EhWhole PropV2Rec.
Open Scope Z_scope.
Open Scope list_scope.

(** The requests of a record or any others of these kinds are all carried out, and their
    document has the last value put at each path and each entry in its list. *)
Theorem C65_document : forall rd wr quality os, reads_quality rd -> (forall q, quality = Some q -> 0 <= q <= 255) ->
  Forall good_request os -> os <> [] ->
  exists j, document_of quality os j /\
    eh_text rd wr (text_of_quality quality) os =
    match wr j with Some t => if Z.of_nat (List.length t) <=? 65535 then t else or_else (text_of_quality quality) [] | None => or_else (text_of_quality quality) [] end.
Proof. exact text_ok. Qed.
Print Assumptions C65_document.

Theorem C65_accepted : forall rd quality os, reads_quality rd -> (forall q, quality = Some q -> 0 <= q <= 255) ->
  Forall good_request os -> eh_fail rd (text_of_quality quality) os = false.
Proof. exact accepted_ok. Qed.
Print Assumptions C65_accepted.

(** Units of 0.0001 as doubles. *)
Theorem C65_units : forall v, Z.abs v <= 2 ^ 32 -> exists q, DblModel.dval (tenthousandths v) = DblModel.DFin q /\
  (Qabs.Qabs (q * inject_Z 10000 - inject_Z v) <= inject_Z (Z.abs v) * (1 # 2 ^ 52))%Q.
Proof. exact ten_value. Qed.
Print Assumptions C65_units.

(** A record is read whatever headers it states, and its extra headers are a document with
    each flag, time correction, timing quality, clock model and event of the record. *)
Theorem C65_record : forall rd wr hb big mode addr flags h lead bs rest more, let J := eh_json rd wr in
  reads_quality rd -> well_formed big h lead bs rest more -> order_seen hb big h -> states_length (lenZ (layout2 big h lead bs rest)) bs ->
  (has_flag flags MSF_UNPACKDATA = false \/ f_cnt h = 0 ->
   exists rate, rate_ok h bs rate /\
   parse (unpack2 J hb mode addr flags) hb mode addr flags (layout2 big h lead bs rest ++ more) =
   Ok (PRec (rec2_of J hb big h bs (lenZ (layout2 big h lead bs rest)) rate))) /\
  (forall vs, has_flag flags MSF_UNPACKDATA = true -> holds_samples big h lead bs rest vs ->
   exists rate, rate_ok h bs rate /\
   parse (unpack2 J hb mode addr flags) hb mode addr flags (layout2 big h lead bs rest ++ more) =
   Ok (PRec (with_samples (rec2_of J hb big h bs (lenZ (layout2 big h lead bs rest)) rate) (SInt vs)))) /\
  (exists j, record_document h bs j /\ headers_text rd wr h bs j (extra_text J h bs)).
Proof. exact record_read. Qed.
Print Assumptions C65_record.

(** ** Cases *)

(** A reader of the texts of a timing quality, and a writer that writes one such text. *)
Fixpoint find_quality (n : nat) (x : list Z) : option jv :=
  if list_eq_dec Z.eq_dec x (quality_doc (Z.of_nat n)) then Some (quality_of (Z.of_nat n))
  else match n with O => None | S n' => find_quality n' x end.
Definition rdq (x : list Z) : option jv := find_quality 255 x.
Definition wrq (j : jv) : option (list Z) := match look j (map zs (fdsn "Time" "Quality")) with Some (JInt q) => Some (quality_doc q) | _ => Some [123; 125] end.

Lemma find_quality_ok q : forall n, (q <= n)%nat -> (n <= 255)%nat -> find_quality n (quality_doc (Z.of_nat q)) = Some (quality_of (Z.of_nat q)).
Proof.
  assert (U : forall a b, 0 <= a <= 255 -> 0 <= b <= 255 -> quality_doc a = quality_doc b -> a = b).
  { intros a b A B E. unfold quality_doc in E. apply app_inv_head in E. apply app_inv_tail in E.
    pose (dec := fold_left (fun n d => 10 * n + (d - 48))).
    assert (H : forallb (fun n => dec (byte_decimal (Z.of_nat n)) 0 =? Z.of_nat n) (seq 0 256) = true) by (vm_compute; reflexivity).
    rewrite forallb_forall in H. assert (D : forall n, 0 <= n <= 255 -> dec (byte_decimal n) 0 = n).
    { intros n N. specialize (H (Z.to_nat n)). rewrite Z2Nat.id in H by lia. apply Z.eqb_eq, H, in_seq. lia. }
    rewrite <- (D a A), <- (D b B), E. reflexivity. }
  induction n as [|n IH]; intros L M.
  - replace q with 0%nat by lia. cbn [find_quality]. destruct (list_eq_dec _ _ _); [reflexivity|congruence].
  - cbn [find_quality]. destruct (list_eq_dec _ _ _) as [E|N].
    + apply U in E; [|lia|lia]. rewrite E. reflexivity.
    + apply IH; [|lia]. destruct (Nat.eq_dec q (S n)) as [->|]; [congruence|lia].
Qed.
Lemma rdq_ok : reads_quality rdq.
Proof. intros q H. unfold rdq. rewrite <- (Z2Nat.id q) by lia. apply find_quality_ok; lia. Qed.

Example C65_document_instance :
  reads_quality rdq /\ Forall good_request [HBool "/FDSN/Event/Begin"; HInt "/FDSN/Time/LeapSecond" 1; HInt "/FDSN/Time/LeapSecond" (-1)] /\
  exists j, requests rdq (heads_of (text_of_quality (Some 42))) [HBool "/FDSN/Event/Begin"; HInt "/FDSN/Time/LeapSecond" 1; HInt "/FDSN/Time/LeapSecond" (-1)] 0 None =
    Ok (0, Some (mk_pstate None (Some (Some j)))) /\
    look j (map zs (fdsn "Event" "Begin")) = Some (JBool true) /\ look j (map zs (fdsn "Time" "LeapSecond")) = Some (JInt (-1)) /\
    look j (map zs (fdsn "Time" "Quality")) = Some (JInt 42).
Proof.
  split; [exact rdq_ok|]. split.
  { apply Forall_cons; [|apply Forall_cons; [|apply Forall_cons; [|apply Forall_nil]]]; left;
      [exists (fdsn "Event" "Begin"), (JBool true)|exists (fdsn "Time" "LeapSecond"), (JInt 1)|exists (fdsn "Time" "LeapSecond"), (JInt (-1))];
      (split; [vm_compute; tauto|constructor; reflexivity]). }
  eexists. split; [vm_compute; reflexivity|]. split; [vm_compute; reflexivity|]. split; [vm_compute; reflexivity|]. vm_compute. reflexivity.
Qed.

(** A request that has nothing to do with the known paths, and one of a member of a value,
    are not among these. *)
Example C65_good_instance : ~ good_request (HBool "/FDSN/Event/Begin/X") /\ ~ good_request (HBool "").
Proof.
  assert (H : forall p, forallb (fun ks => negb (same (zs p) (path_text ks))) value_paths = true -> ~ good_request (HBool p)).
  { intros p F [(ks & v & I & P)|(e & E & _)]; [|discriminate]. inversion P as [? ? E|?|?|?]; subst. rewrite forallb_forall in F. specialize (F _ I).
    rewrite E, same_refl in F. discriminate. }
  split; apply H; vm_compute; reflexivity.
Qed.

Example C65_units_instance : exists q, DblModel.dval (tenthousandths (-5)) = DblModel.DFin q /\ (q < 0)%Q /\ tenthousandths 10000 = 4607182418800017408 (* 1.0 *).
Proof. eexists. split; [vm_compute; reflexivity|]. split; vm_compute; reflexivity. Qed.

(** The record of C43_instance, with an event in progress, saturation, a time correction,
    a detection and a timing quality. *)
Example C65_record_instance :
  reads_quality rdq /\ well_formed true (h0 t0 2 123) [1; 2] bs0 rest0 [1; 2; 3] /\ order_seen false true (h0 t0 2 123)
  /\ states_length (lenZ rec0) bs0 /\ holds_samples true (h0 t0 2 123) [1; 2] bs0 rest0 [258; -2] /\ states_headers (h0 t0 2 123) bs0 /\
  chain_ops None (flag_ops (h0 t0 2 123)) bs0 =
    (None, [HBool "/FDSN/Event/InProgress"; HBool "/FDSN/Flags/AmplifierSaturation"; HNum "/FDSN/Time/Correction" (-5);
            HDet (V2Model.mk_detection "GENERIC" (chars "STA/LTA") 1065353216 0 0 "COMPRESSION" "COUNTS" (btime_ns t0) [0; 0; 0; 0; 0; 0] (-1) (-1));
            HInt "/FDSN/Time/Quality" 99]) /\
  exists m, parse (unpack2 (eh_json rdq wrq) false Strict 0 1) false Strict 0 1 (rec0 ++ [1; 2; 3]) = Ok (PRec m) /\ m_extra m = quality_doc 99.
Proof.
  destruct C43_instance as (_ & W & O & S & _ & H & _). split; [exact rdq_ok|]. split; [exact W|]. split; [exact O|]. split; [exact S|]. split; [exact H|].
  split; [left; vm_compute; discriminate|]. split; [vm_compute; reflexivity|].
  eexists. split; [vm_compute; reflexivity|]. vm_compute. reflexivity.
Qed.
