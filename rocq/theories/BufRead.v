(** * Proofs about reading a buffer into a trace list. *)

From Verif Require Import Base BaseLemmas RecModel RecSpec RecProof DataSpec DataProof ReadModel ReadSpec ReadProof BufModel BufSpec BufProof.
From Coq Require Import ZifyBool.
Open Scope Z_scope.

Definition parsed_as (b : bconf) (x : part) : msr :=
  match b_select b with Some _ => if has_flag (b_flags b) 1 then part_head x else part_rec x | None => part_rec x end.

Lemma parse_part b x tail addr : b_hb b = false -> bytes_ok tail -> readable (b_mode b) (b_flags b) x ->
  parse (b_unpack2 b addr (b_pflags b)) (b_hb b) (b_mode b) addr (b_pflags b) (layout3 (pt_hdr x) ++ tail) = Ok (PRec (parsed_as b x)).
Proof.
  intros -> B (_ & H & Sl & C & T & TN & DD). set (h := pt_hdr x) in *. rewrite parse_complete by auto. rewrite unpack3_eq by auto.
  replace (64 <=? lenZ (h_sid h)) with false by lia.
  assert (F4 : has_flag (b_pflags b) 4 = has_flag (b_flags b) 4).
  { unfold b_pflags, MSF_UNPACKDATA. destruct (b_select b); [|reflexivity]. destruct (has_flag (b_flags b) 1); [apply has_flag_off|reflexivity]. }
  rewrite F4. replace (has_flag (b_flags b) 4 && negb (h_crc h =? crc3 h)) with false.
  2:{ destruct (has_flag (b_flags b) 4); [|reflexivity]. rewrite (C eq_refl), Z.eqb_refl. reflexivity. }
  rewrite T. cbn [bind]. unfold finish3. replace (pt_time x =? NSTERROR) with false by lia.
  assert (DR : (let! m := (if has_flag (b_flags b) 1 && (0 <? h_cnt h)
     then let! d := unpack_data false (b_mode b) addr (layout3 h) (rec_of false (pt_time x) h None) in Ok (rec_of false (pt_time x) h (Some d))
     else Ok (rec_of false (pt_time x) h None)) in Ok (PRec m)) = Ok (PRec (part_rec x))).
  { unfold part_rec. fold h. destruct (pt_data x) as [d|].
    - destruct DD as (-> & P & U). replace (0 <? h_cnt h) with true by lia. cbn [andb]. rewrite U. reflexivity.
    - destruct DD as [-> | ->]; cbn [andb]; [reflexivity|]. rewrite andb_false_r. reflexivity. }
  unfold parsed_as, b_pflags, MSF_UNPACKDATA. destruct (b_select b); [|exact DR].
  destruct (has_flag (b_flags b) 1) eqn:F1; [|rewrite F1; exact DR].
  rewrite (proj1 (has_flag_off _)). reflexivity.
Qed.

Lemma selected_parsed b x : b_selected b (parsed_as b x) = b_selected b (part_head x).
Proof. unfold b_selected, parsed_as. destruct (b_select b); [|reflexivity]. destruct (has_flag (b_flags b) 1); reflexivity. Qed.

Lemma unpack_count hb mode a rec m d : unpack_data hb mode a rec m = Ok d -> 0 < m_cnt m -> samples_len d = m_cnt m.
Proof.
  unfold unpack_data. intros E P. destruct (Z.leb_spec (m_cnt m) 0); [lia|]. destruct (m_reclen m <? 0); [discriminate|].
  destruct (_ || _); [discriminate|]. destruct (2 ^ 31 - 1 <? m_cnt m); [discriminate|].
  match type of E with bind ?x _ = _ => destruct x as [[o s]| | |] end; cbn [bind] in E; try discriminate.
  destruct (_ || _); [discriminate|]. destruct (encoding_sizetype _) as [[ss t]|]; [|discriminate].
  match type of E with bind ?x _ = _ => destruct x as [i| | |] end; cbn [bind] in E; try discriminate. now apply decode_count in E.
Qed.

Lemma later_part b x addr : b_hb b = false -> readable (b_mode b) (b_flags b) x ->
  b_later b addr (layout3 (pt_hdr x)) (parsed_as b x) = Ok (part_rec x).
Proof.
  intros HB (_ & H & _ & _ & _ & _ & DD). unfold b_later, parsed_as, MSF_UNPACKDATA. destruct (b_select b); [|reflexivity].
  rewrite HB. unfold part_rec. destruct (has_flag (b_flags b) 1) eqn:F1; cbn [andb]; [|reflexivity].
  change (m_cnt (part_head x)) with (h_cnt (pt_hdr x)). destruct (pt_data x) as [d|].
  - destruct DD as (_ & P & U). replace (0 <? h_cnt (pt_hdr x)) with true by lia. unfold part_head. rewrite U.
    pose proof (unpack_count _ _ _ _ _ _ (U 0) P) as L. cbn [rec_of m_cnt] in L. rewrite L, Z.eqb_refl. unfold set_data. cbn [rec_of m_enc].
    assert (E : 0 <= h_enc (pt_hdr x)) by (unfold hdr_ok, in_u in H; tauto). replace (h_enc (pt_hdr x) <? 0) with false by lia. reflexivity.
  - destruct DD as [D|D]; [congruence|]. rewrite D. reflexivity.
Qed.

Lemma bounds_part x d : hdr_ok (pt_hdr x) -> exists size, data_bounds false (layout3 (pt_hdr x)) (rec_of false (pt_time x) (pt_hdr x) d) =
  Ok (40 + lenZ (until0 (h_sid (pt_hdr x))) + lenZ (h_extra (pt_hdr x)), size).
Proof.
  intros H. set (h := pt_hdr x) in *. unfold data_bounds. cbn [rec_of m_fver m_sid m_extra m_datalen m_enc m_cnt Z.eqb Pos.eqb bind].
  fold (lenZ (until0 (h_sid h))) (lenZ (h_extra h)). pose proof (until0_le (h_sid h)). pose proof (lenZ_nonneg (until0 (h_sid h))). pose proof (lenZ_nonneg (h_extra h)).
  pose proof (layout3_len h) as L. pose proof (lenZ_nonneg (h_payload h)).
  assert (M : lenZ (layout3 h) <= 10485760) by (unfold hdr_ok in H; tauto).
  rewrite uwrap_id by (unfold in_u; lia).
  match goal with |- context [if (?s mod 64 =? 0) && _ then _ else _] => set (s1 := s) end.
  destruct ((s1 mod 64 =? 0) && is_steim (h_enc h)) eqn:E; [|eauto].
  assert (S1 : s1 = lenZ (h_payload h)).
  { unfold s1, fixed_bytes. unfold is_steim in E. assert (h_enc h = 10 \/ h_enc h = 11) as [Q|Q] by lia; rewrite Q; reflexivity. }
  destruct (trim_ok (layout3 h) (S (length (layout3 h))) s1) as (s & Es & _); [lia|lia|unfold lenZ in *; lia|]. rewrite Es. cbn [bind]. eauto.
Qed.

(** The buffer [pre ++ file_of parts rest], [pre] having been read. *)
Lemma rb_parts b fin rest : b_hb b = false -> bytes_ok rest ->
  (forall fuel k offset count heights ptrs, rb_loop (S fuel) b k rest offset count heights ptrs = Ok (fin count, Some k, ptrs)) ->
  forall want parts, Forall (readable (b_mode b) (b_flags b)) parts -> Forall (fun x => pt_junk x = []) parts -> all_read parts rest ->
  Forall (fun x => b_selected b (part_head x) = Ok (want x)) parts ->
  forall fuel k count heights ptrs pre k', (length parts < fuel)%nat ->
    (length (filter want parts) <= length heights)%nat ->
    add_all (b_conf b) k (combine (map (fun x => trec_of (part_rec x)) (filter want parts)) heights) = Ok k' ->
    exists new, rb_loop fuel b k (file_of parts rest) (lenZ pre) count heights ptrs =
        Ok (fin (count + lenZ (filter want parts)), Some k', ptrs ++ new) /\
      if has_flag (b_flags b) 256
      then Forall2 (entry_for (b_addr b) (pre ++ file_of parts rest)) (filter (fun px => want (snd px)) (contents (lenZ pre) parts)) new
      else new = [].
Proof.
  intros HB B FIN want. induction parts as [|x parts IH]; intros R J AR W fuel k count heights ptrs pre k' Fu Hh A.
  - cbn [file_of filter contents map combine add_all length] in *. injection A as <-. destruct fuel as [|fuel]; [lia|]. rewrite FIN.
    exists []. rewrite app_nil_r. replace (count + lenZ (@nil part)) with count by (cbn; lia). split; [reflexivity|]. destruct (has_flag _ _); [constructor|reflexivity].
  - inversion_clear R as [|? ? Rx Rp]. inversion_clear J as [|? ? Jx Jp]. inversion_clear W as [|? ? Wx Wp].
    assert (AR' : all_read parts rest) by (intros front y E; apply (AR (x :: front) y); cbn; congruence).
    assert (Hx : hdr_ok (pt_hdr x)) by (unfold readable in Rx; tauto).
    assert (BT : bytes_ok (file_of parts rest)).
    { apply bytes_file; [|exact B]. eapply Forall_impl; [|exact Rp]. intros a Ha. unfold readable in Ha. tauto. }
    assert (L40 : forall h, 40 <= lenZ (layout3 h)).
    { intros h. rewrite layout3_len. pose proof (lenZ_nonneg (h_sid h)). pose proof (lenZ_nonneg (h_extra h)). pose proof (lenZ_nonneg (h_payload h)). lia. }
    cbn [file_of contents]. rewrite Jx. cbn [app]. change (lenZ (@nil Z)) with 0. rewrite Z.add_0_r.
    destruct fuel as [|fuel]; [cbn in Fu; lia|]. cbn [rb_loop].
    assert (G : 40 < lenZ (layout3 (pt_hdr x) ++ file_of parts rest)).
    { rewrite lenZ_app. destruct parts as [|y parts].
      - apply (AR [] x eq_refl).
      - cbn [file_of]. rewrite !lenZ_app. pose proof (L40 (pt_hdr x)). pose proof (L40 (pt_hdr y)). pose proof (lenZ_nonneg (pt_junk y)).
        pose proof (lenZ_nonneg (file_of parts rest)). lia. }
    unfold MINRECLEN. change (Z.of_nat (length (layout3 (pt_hdr x) ++ file_of parts rest))) with (lenZ (layout3 (pt_hdr x) ++ file_of parts rest)).
    replace (40 <? lenZ (layout3 (pt_hdr x) ++ file_of parts rest)) with true by lia.
    set (addr := (b_addr b + lenZ pre) mod 8). rewrite (parse_part b x (file_of parts rest) addr HB BT Rx).
    replace (m_reclen (parsed_as b x)) with (lenZ (layout3 (pt_hdr x))).
    2:{ unfold parsed_as. destruct (b_select b); [|reflexivity]. destruct (has_flag (b_flags b) 1); reflexivity. }
    assert (SK : skipn (Z.to_nat (lenZ (layout3 (pt_hdr x)))) (layout3 (pt_hdr x) ++ file_of parts rest) = file_of parts rest).
    { unfold lenZ. rewrite Nat2Z.id. now apply skipn_app_exact. }
    assert (FI : firstn (Z.to_nat (lenZ (layout3 (pt_hdr x)))) (layout3 (pt_hdr x) ++ file_of parts rest) = layout3 (pt_hdr x)).
    { unfold lenZ. rewrite Nat2Z.id. now apply firstn_app_exact. }
    rewrite SK, FI, selected_parsed, Wx. cbn [bind].
    assert (PP : pre ++ layout3 (pt_hdr x) ++ file_of parts rest = (pre ++ layout3 (pt_hdr x)) ++ file_of parts rest) by apply app_assoc.
    assert (LP : lenZ pre + lenZ (layout3 (pt_hdr x)) = lenZ (pre ++ layout3 (pt_hdr x))) by (symmetry; apply lenZ_app).
    rewrite PP, LP. cbn [filter snd].
    destruct (want x) eqn:Ew; cbn [negb].
    + rewrite (later_part b x addr HB Rx). change (m_reclen (part_rec x)) with (lenZ (layout3 (pt_hdr x))). rewrite ?LP. cbn [filter] in Hh, A. rewrite Ew in Hh, A. cbn [length map] in Hh, A.
      destruct heights as [|ht heights]; [cbn in Hh; lia|]. cbn [combine add_all hd tl] in A |- *.
      destruct (add_msr (b_conf b) k (trec_of (part_rec x)) ht) as [k1| | |] eqn:Ea; cbn [bind] in A; try discriminate.
      assert (LC : forall c, c + lenZ (x :: filter want parts) = c + 1 + lenZ (filter want parts)) by (intros c; unfold lenZ; cbn [length]; lia).
      rewrite LC. unfold MSF_RECORDLIST. destruct (has_flag (b_flags b) 256) eqn:F8.
      * rewrite HB. unfold part_rec at 1. destruct (bounds_part x (pt_data x) Hx) as (size & Eb). rewrite Eb.
        match goal with |- context [rb_loop fuel b k1 _ _ _ _ (ptrs ++ [?p])] => set (p0 := p) end.
        destruct (IH Rp Jp AR' Wp fuel k1 (count + 1) heights (ptrs ++ [p0]) (pre ++ layout3 (pt_hdr x)) k' ltac:(cbn in Fu; lia) ltac:(cbn in Hh; lia) A) as (new & -> & N).
        exists (p0 :: new). split; [rewrite <- app_assoc; reflexivity|]. constructor; [|exact N].
        unfold entry_for, p0. cbn [p_msr p_src p_off fst snd]. split; [reflexivity|]. split; [|reflexivity]. f_equal.
        unfold lenZ. rewrite Nat2Z.id. rewrite <- app_assoc. now rewrite skipn_app_exact.
      * destruct (IH Rp Jp AR' Wp fuel k1 (count + 1) heights ptrs (pre ++ layout3 (pt_hdr x)) k' ltac:(cbn in Fu; lia) ltac:(cbn in Hh; lia) A) as (new & -> & N).
        exists new. split; [reflexivity|exact N].
    + cbn [filter] in Hh, A. rewrite Ew in Hh, A.
      apply (IH Rp Jp AR' Wp fuel k count heights ptrs (pre ++ layout3 (pt_hdr x)) k'); auto. cbn in Fu; lia.
Qed.

Lemma rb_ends b rest : b_hb b = false -> bytes_ok rest -> ends rest ->
  forall fuel k offset count heights ptrs, rb_loop (S fuel) b k rest offset count heights ptrs = Ok (count, Some k, ptrs).
Proof.
  intros HB B E fuel k offset count heights ptrs. cbn [rb_loop]. unfold MINRECLEN. fold (lenZ rest).
  destruct (Z.ltb_spec 40 (lenZ rest)); [|reflexivity]. destruct E as [E|[E1 E2]]; [lia|]. rewrite HB, (parse_cut _ _ _ _ rest B); auto; try lia.
Qed.

Lemma rb_stops b rest c : b_hb b = false -> bytes_ok rest -> stops (b_flags b) rest c ->
  forall fuel k offset count heights ptrs, rb_loop (S fuel) b k rest offset count heights ptrs = Ok (c, Some k, ptrs).
Proof.
  intros HB B [L E] fuel k offset count heights ptrs. cbn [rb_loop]. unfold MINRECLEN. fold (lenZ rest).
  replace (40 <? lenZ rest) with true by lia. rewrite HB. destruct E as [(S3 & S2 & ->)|[(S3 & G & ->)|(h & tail & -> & H & Sl & Bt & F4 & C & ->)]].
  - now rewrite parse_noise by (auto; lia).
  - now rewrite parse_big by (auto; lia).
  - rewrite parse_complete by auto. rewrite unpack3_eq by auto. replace (64 <=? lenZ (h_sid h)) with false by lia.
    replace (has_flag (b_pflags b) 4) with true.
    2:{ unfold b_pflags, MSF_UNPACKDATA. destruct (b_select b); [|now rewrite F4]. destruct (has_flag (b_flags b) 1); [rewrite (proj2 (has_flag_off _))|]; now rewrite F4. }
    replace (h_crc h =? crc3 h) with false by lia. reflexivity.
Qed.

Lemma parts_short parts rest : Forall (fun x => hdr_ok (pt_hdr x)) parts -> (length parts <= length (file_of parts rest))%nat.
Proof.
  induction 1 as [|x parts H _ IH]; cbn [file_of length]; [lia|]. rewrite !app_length. pose proof (layout3_len (pt_hdr x)) as L.
  pose proof (lenZ_nonneg (h_sid (pt_hdr x))). pose proof (lenZ_nonneg (h_extra (pt_hdr x))). pose proof (lenZ_nonneg (h_payload (pt_hdr x))). unfold lenZ in *. lia.
Qed.

Lemma read_with b parts rest want k heights k' fin : b_hb b = false -> bytes_ok rest ->
  (forall fuel k offset count heights ptrs, rb_loop (S fuel) b k rest offset count heights ptrs = Ok (fin count, Some k, ptrs)) ->
  Forall (readable (b_mode b) (b_flags b)) parts -> Forall (fun x => pt_junk x = []) parts -> all_read parts rest ->
  Forall (fun x => b_selected b (part_head x) = Ok (want x)) parts -> (length (filter want parts) <= length heights)%nat ->
  add_all (b_conf b) k (combine (map (fun x => trec_of (part_rec x)) (filter want parts)) heights) = Ok k' ->
  exists ptrs, readbuffer b k (file_of parts rest) heights = Ok (fin (lenZ (filter want parts)), Some k', ptrs) /\
    if has_flag (b_flags b) 256
    then Forall2 (entry_for (b_addr b) (file_of parts rest)) (filter (fun px => want (snd px)) (contents 0 parts)) ptrs
    else ptrs = [].
Proof.
  intros HB B FIN R J AR W Hh A. unfold readbuffer.
  assert (Fu : (length parts < S (length (file_of parts rest)))%nat).
  { pose proof (parts_short parts rest) as P. cut (Forall (fun x => hdr_ok (pt_hdr x)) parts); [intros Q; specialize (P Q); lia|].
    eapply Forall_impl; [|exact R]. intros a Ha. unfold readable in Ha. tauto. }
  destruct (rb_parts b fin rest HB B FIN want parts R J AR W _ k 0 heights [] [] k' Fu Hh A) as (new & E & N). exists new. split; [exact E|exact N].
Qed.

Lemma read_buffer b parts rest want k heights k' : b_hb b = false -> bytes_ok rest -> ends rest ->
  Forall (readable (b_mode b) (b_flags b)) parts -> Forall (fun x => pt_junk x = []) parts -> all_read parts rest ->
  Forall (fun x => b_selected b (part_head x) = Ok (want x)) parts -> (length (filter want parts) <= length heights)%nat ->
  add_all (b_conf b) k (combine (map (fun x => trec_of (part_rec x)) (filter want parts)) heights) = Ok k' ->
  exists ptrs, readbuffer b k (file_of parts rest) heights = Ok (lenZ (filter want parts), Some k', ptrs) /\
    if has_flag (b_flags b) 256
    then Forall2 (entry_for (b_addr b) (file_of parts rest)) (filter (fun px => want (snd px)) (contents 0 parts)) ptrs
    else ptrs = [].
Proof. intros HB B E. apply read_with with (fin := fun c => c); auto. now apply rb_ends. Qed.

Lemma read_stopped b parts rest want k heights k' c : b_hb b = false -> bytes_ok rest -> stops (b_flags b) rest c ->
  Forall (readable (b_mode b) (b_flags b)) parts -> Forall (fun x => pt_junk x = []) parts ->
  Forall (fun x => b_selected b (part_head x) = Ok (want x)) parts -> (length (filter want parts) <= length heights)%nat ->
  add_all (b_conf b) k (combine (map (fun x => trec_of (part_rec x)) (filter want parts)) heights) = Ok k' ->
  exists ptrs, readbuffer b k (file_of parts rest) heights = Ok (c, Some k', ptrs).
Proof.
  intros HB B E R J W Hh A.
  assert (AR : all_read parts rest).
  { intros front x _. pose proof (lenZ_nonneg (layout3 (pt_hdr x))). unfold stops in E. lia. }
  destruct (read_with b parts rest want k heights k' (fun _ => c) HB B (rb_stops b rest c HB B E) R J AR W Hh A) as (ptrs & X & _). eauto.
Qed.
