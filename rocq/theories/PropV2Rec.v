(** * C43: parsing a version 2 record returns what its header states. *)

From Coq Require Import String QArith.
From Verif Require Import Base BaseLemmas TimeModel TimeSpec StrModel StrSpec RecModel RecSpec V2Model V2RecSpec V2RecProof V2RecParse.
Open Scope Z_scope.

(** Identifier, times, flags, version, rate, encoding, length and extra headers of the
    record are those its fixed header and blockettes state. *)
Theorem C43_header_partial : forall J hb big mode addr flags h lead bs rest more,
  headers_accepted J -> well_formed big h lead bs rest more -> order_seen hb big h ->
  has_flag flags MSF_UNPACKDATA = false \/ f_cnt h = 0 ->
  exists rate, rate_ok h bs rate /\
  unpack2 J hb mode addr flags (layout2 big h lead bs rest ++ more) (lenZ (layout2 big h lead bs rest)) =
  Ok (rec2_of J hb big h bs (lenZ (layout2 big h lead bs rest)) rate).
Proof. exact header_only. Qed.
Print Assumptions C43_header_partial.

(** The samples as well, when they are not compressed. *)
Theorem C43_samples_partial : forall J hb big mode addr flags h lead bs rest more vs,
  headers_accepted J -> well_formed big h lead bs rest more -> order_seen hb big h ->
  has_flag flags MSF_UNPACKDATA = true -> holds_samples big h lead bs rest vs ->
  exists rate, rate_ok h bs rate /\
  unpack2 J hb mode addr flags (layout2 big h lead bs rest ++ more) (lenZ (layout2 big h lead bs rest)) =
  Ok (with_samples (rec2_of J hb big h bs (lenZ (layout2 big h lead bs rest)) rate) (SInt vs)).
Proof. exact header_samples. Qed.
Print Assumptions C43_samples_partial.

(** msr3_parse finds the end of the record by its blockette 1000, in any buffer that
    begins with it. *)
Theorem C43_parse_partial : forall J hb big mode addr flags h lead bs rest more,
  headers_accepted J -> well_formed big h lead bs rest more -> order_seen hb big h ->
  states_length (lenZ (layout2 big h lead bs rest)) bs ->
  (has_flag flags MSF_UNPACKDATA = false \/ f_cnt h = 0 ->
   exists rate, rate_ok h bs rate /\
   parse (unpack2 J hb mode addr flags) hb mode addr flags (layout2 big h lead bs rest ++ more) =
   Ok (PRec (rec2_of J hb big h bs (lenZ (layout2 big h lead bs rest)) rate))) /\
  (forall vs, has_flag flags MSF_UNPACKDATA = true -> holds_samples big h lead bs rest vs ->
   exists rate, rate_ok h bs rate /\
   parse (unpack2 J hb mode addr flags) hb mode addr flags (layout2 big h lead bs rest ++ more) =
   Ok (PRec (with_samples (rec2_of J hb big h bs (lenZ (layout2 big h lead bs rest)) rate) (SInt vs)))).
Proof. exact parse_whole. Qed.
Print Assumptions C43_parse_partial.

(** The byte order is recognized for all dates of the years 1900 to 2100 but three days
    of 2056 in the order that is not the host's. *)
Theorem C43_order_partial : forall hb big h, 
  let d := day_at (b_day (f_start h)) in
  1900 <= d_year d <= 2100 ->
  (order_seen hb big h <-> hb = big \/ ~ (d_year d = 2056 /\ In (d_yday d) [1; 256; 257])).
Proof. exact order_years. Qed.
Print Assumptions C43_order_partial.

(** ** Examples *)

(** A text as a field filled with spaces. *)
Definition lab (s : string) : label := mk_label (chars s) 32.
(** 2020-02-01T10:20:30.1234 *)
Definition t0 : btime := mk_btime 18293 10 20 30 0 1234.
Definition h0 (t : btime) (cnt doff : Z) : hdr2 :=
  mk_hdr2 (chars "000001") 77 32 (chars "ABCD ") (chars "00") (66, 72, 90) (chars "XX") t cnt 20 1 64 32 1 3 (-5) doff.
Definition bs0 : list (blk * list Z) :=
  [(B1000 3 0 8 0, [7; 7]); (B200 1065353216 0 0 4 0 t0 (lab "STA/LTA"), []); (B1001 99 (-3) 0 1, [])].
Definition J1 : json := mk_json (fun _ _ => false) (fun t ops => [lenZ ops]).
(** Big-endian header, little-endian samples, 256 bytes. *)
Definition rest0 : list Z := [0; 0; 0] ++ samples_stored false 3 [258; -2] ++ repeat 9 125.

Definition rec0 : list Z := layout2 true (h0 t0 2 123) [1; 2] bs0 rest0.

Definition byte_check (l : list Z) : bool := forallb (fun v => (0 <=? v) && (v <? 256)) l.
Lemma byte_check_ok l : byte_check l = true -> bytes_ok l.
Proof. intros H. apply Forall_forall. intros x I. unfold byte_check in H. rewrite forallb_forall in H. specialize (H x I). unfold byte_ok. lia. Qed.

Lemma t_ok d f : 1678 <= d_year (day_at d) <= 2261 -> 0 <= f <= 9999 -> epoch_ns d 10 20 30 (f * 100000) <> NSTERROR -> btime_ok (mk_btime d 10 20 30 0 f).
Proof. intros Y F E. unfold btime_ok, btime_ns. cbn [b_day b_hour b_min b_sec b_unused b_fract]. split; [exact Y|]. do 5 (split; [lia|]). exact E. Qed.
Lemma t0_ok : btime_ok t0.
Proof. apply t_ok; vm_compute; try split; discriminate. Qed.

Lemma h0_ok t cnt doff : btime_ok t -> 0 <= cnt < 65536 -> 0 <= doff < 65536 -> hdr2_ok (h0 t cnt doff).
Proof.
  intros T C D. unfold hdr2_ok, h0. cbn [f_seq f_quality f_reserved f_sta f_loc f_chan f_net f_start f_cnt f_fact f_mult f_act f_io f_dq f_nblk f_corr f_data].
  split; [reflexivity|]. split; [repeat constructor; unfold digit_or_blank; cbn; lia|]. split; [cbn; tauto|]. split; [lia|].
  split; [reflexivity|]. split; [reflexivity|]. split; [reflexivity|]. split; [cbn [chars map list_ascii_of_string app]; repeat constructor; cbn; lia|].
  split; [exact T|]. unfold in_u, in_s. lia.
Qed.

Lemma lab_ok n s : Forall (fun c => 1 <= c <= 127) (chars s) -> last (chars s) 0 <> 32 -> lenZ (chars s) <= n -> label_ok n (lab s).
Proof.
  intros F L N. unfold label_ok, lab. cbn [l_text l_fill]. repeat split; try assumption; [|left; reflexivity].
  intros u E. apply L. rewrite E. apply last_last.
Qed.

Lemma bs0_ok : chain_ok bs0.
Proof.
  unfold chain_ok, bs0. constructor; [|constructor; [|constructor; [|constructor]]]; cbn [fst snd]; (split; [split|]).
  all: try (apply byte_check_ok; vm_compute; reflexivity).
  - lia.
  - split; [unfold in_u; lia|]. split; [unfold in_u; lia|]. split; [unfold in_u; lia|]. split; [apply t0_ok|].
    apply lab_ok; [repeat constructor; cbn; lia|vm_compute; discriminate|vm_compute; discriminate].
  - unfold in_s. lia.
Qed.

Example C43_instance :
  headers_accepted J1 /\ well_formed true (h0 t0 2 123) [1; 2] bs0 rest0 [1; 2; 3] /\ order_seen false true (h0 t0 2 123)
  /\ states_length (lenZ rec0) bs0 /\ has_flag 1 MSF_UNPACKDATA = true /\ holds_samples true (h0 t0 2 123) [1; 2] bs0 rest0 [258; -2]
  /\ exists m, parse (unpack2 J1 false Strict 0 1) false Strict 0 1 (rec0 ++ [1; 2; 3]) = Ok (PRec m)
     /\ m_sid m = chars "FDSN:XX_ABCD_00_B_H_Z" /\ m_start m = 1580552430122897000 /\ m_reclen m = 256 /\ m_pub m = 4
     /\ m_flags m = 4 /\ m_rate m = 4626322717216342016 (* 20.0 *) /\ m_data m = Some (SInt [258; -2]).
Proof.
  split; [intros ? ?; reflexivity|]. split.
  { split; [apply h0_ok; [apply t0_ok|lia|lia]|]. split; [apply bs0_ok|]. split; [apply byte_check_ok; reflexivity|].
    split; [apply byte_check_ok; vm_compute; reflexivity|]. split; [apply byte_check_ok; reflexivity|]. split; [reflexivity|].
    split; [vm_compute; split; discriminate|vm_compute; reflexivity]. }
  split. { intros [P _]. vm_compute in P. destruct P. congruence. }
  split. { split; [left; exact I|]. repeat constructor. }
  split; [reflexivity|]. split.
  { exists [0; 0; 0], 3, false, (repeat 9 125). split; [reflexivity|]. split; [discriminate|].
    split; [repeat constructor; cbn; unfold in_s; lia|]. repeat split; vm_compute; reflexivity. }
  eexists. split; [vm_compute; reflexivity|]. repeat split; vm_compute; reflexivity.
Qed.

(** A record of 64 bytes without blockette 1000, in the order of the host. *)
Example C43_header_instance :
  well_formed false (h0 t0 0 0) [] [] (repeat 0 16) [] /\ order_seen false false (h0 t0 0 0).
Proof.
  split.
  { split; [apply h0_ok; [apply t0_ok|lia|lia]|]. split; [constructor|]. split; [constructor|].
    split; [apply byte_check_ok; reflexivity|]. split; [constructor|]. split; [reflexivity|].
    split; [vm_compute; split; discriminate|vm_compute; reflexivity]. }
  vm_compute. repeat split; discriminate.
Qed.

(** ** Where the claim fails *)

(** A record of 2056-01-01 in the other byte order is not recognized (read as
    2056-09-12 with every other field exchanged). *)
Theorem C43_order_refuted : exists h bs rest, well_formed true h [] bs rest [] /\ states_length (lenZ (layout2 true h [] bs rest)) bs
  /\ d_year (day_at (b_day (f_start h))) = 2056
  /\ unpack2 J1 false Strict 0 0 (layout2 true h [] bs rest) (lenZ (layout2 true h [] bs rest)) = Err MS_GENERROR
  /\ parse (unpack2 J1 false Strict 0 0) false Strict 0 0 (layout2 true h [] bs rest) = Ok (PHint 40).
Proof.
  exists (h0 (mk_btime 31411 10 20 30 0 1234) 2 123), bs0, (rest0 ++ [1; 2]). split.
  { split; [apply h0_ok; [apply t_ok; vm_compute; try split; discriminate|lia|lia]|]. split; [apply bs0_ok|]. split; [constructor|].
    split; [apply byte_check_ok; vm_compute; reflexivity|]. split; [constructor|]. split; [reflexivity|].
    split; [vm_compute; split; discriminate|vm_compute; reflexivity]. }
  split. { split; [left; exact I|]. repeat constructor. }
  repeat split; vm_compute; reflexivity.
Qed.

(** Nor one of 2101 in the host's byte order. *)
Theorem C43_year_refuted : exists h bs rest, well_formed false h [] bs rest [] /\ states_length (lenZ (layout2 false h [] bs rest)) bs
  /\ d_year (day_at (b_day (f_start h))) = 2101
  /\ unpack2 J1 false Strict 0 0 (layout2 false h [] bs rest) (lenZ (layout2 false h [] bs rest)) = Err MS_GENERROR
  /\ parse (unpack2 J1 false Strict 0 0) false Strict 0 0 (layout2 false h [] bs rest) = Ok (PHint 40).
Proof.
  exists (h0 (mk_btime 47847 10 20 30 0 1234) 2 123), bs0, (rest0 ++ [1; 2]). split.
  { split; [apply h0_ok; [apply t_ok; vm_compute; try split; discriminate|lia|lia]|]. split; [apply bs0_ok|]. split; [constructor|].
    split; [apply byte_check_ok; vm_compute; reflexivity|]. split; [constructor|]. split; [reflexivity|].
    split; [vm_compute; split; discriminate|vm_compute; reflexivity]. }
  split. { split; [left; exact I|]. repeat constructor. }
  repeat split; vm_compute; reflexivity.
Qed.

(** With two blockettes 1000 the first gives the extent of the record, the second the
    length stored in the result: 4096 for a buffer of 128 bytes. *)
Theorem C43_length_refuted : exists h bs rest m, well_formed true h [] bs rest [] /\ order_seen false true h
  /\ lenZ (layout2 true h [] bs rest) = 128 /\ detect false (layout2 true h [] bs rest) = Ok (2, 128)
  /\ parse (unpack2 J1 false Strict 0 0) false Strict 0 0 (layout2 true h [] bs rest) = Ok (PRec m) /\ m_reclen m = 4096.
Proof.
  exists (h0 t0 2 123), [(B1000 3 0 7 0, []); (B1000 3 0 12 0, [])], (repeat 0 64). eexists. split.
  { split; [apply h0_ok; [apply t0_ok|lia|lia]|].
    split. { constructor; [|constructor; [|constructor]]; cbn [fst snd]; (split; [split; [apply byte_check_ok; vm_compute; reflexivity|lia]|constructor]). }
    split; [constructor|]. split; [apply byte_check_ok; vm_compute; reflexivity|]. split; [constructor|]. split; [reflexivity|].
    split; [vm_compute; split; discriminate|vm_compute; reflexivity]. }
  split. { intros [P _]. vm_compute in P. destruct P. congruence. }
  split; [vm_compute; reflexivity|]. split; [vm_compute; reflexivity|]. split; vm_compute; reflexivity.
Qed.

(** A fraction of 4.2950 seconds is out of range, but accepted as 32704 nanoseconds: the
    product overflows 32 bits. *)
Theorem C43_fraction_refuted : exists m,
  parse (unpack2 J1 false Strict 0 0) false Strict 0 0
    (layout2 true (h0 (mk_btime 18293 10 20 30 0 42950) 2 123) [] [(B1000 3 0 7 0, [])] (repeat 0 72)) = Ok (PRec m)
  /\ m_start m = epoch_ns 18293 10 20 30 32704 + -5 * 100000.
Proof. eexists. split; vm_compute; reflexivity. Qed.
