(** * C52 and C53: the raw record dumps *)

From Coq Require Import String.
From Verif Require Import Base BaseLemmas RecModel RecSpec RecProof V2Model V2Spec RawModel RawSpec RawProof.
Open Scope list_scope.
Open Scope Z_scope.

(** ** C52: the dump of a version 3 record *)

(** Nothing outside of the record is read.  A record too short for its header, or with an
    identifier of less than 4 characters, is refused.  Of others the value returned is the
    number of rules the header breaks, and the fields of the header are printed.  The extra
    headers are printed if they end within the record: the text is that of the record
    except for space between the tokens (every quote taken to begin or end a string), and its lines are
    indented by their depth; this for depths up to 93.  Of the identifier the first 189 characters
    are shown. *)
Theorem C52_dump : forall hb rec maxreclen details, bytes_ok rec -> maxreclen <= lenZ rec ->
  if (maxreclen <? 40) || (sid_length rec <? 4) || (maxreclen <? 40 + sid_length rec)
  then parse_raw3 hb (Some rec) maxreclen details = Ok (mk_raw 1 [] [])
  else
    let v := values false widths3 rec in
    exists text,
    parse_raw3 hb (Some rec) maxreclen details =
    Ok (mk_raw (broken (rules3 v)) (if 1 <=? details then printed3 v (sid_part rec) else []) text)
    /\ (if (2 <=? details) && (0 <? extra_length rec) && (40 + sid_length rec + extra_length rec <=? maxreclen)
        then exists body, text = body ++ [10] /\ pretty_print (interior (extra_part rec)) body
        else text = []).
Proof.
  intros hb rec maxreclen details B L. destruct (_ || _) eqn:E.
  - apply raw3_refuse; lia.
  - apply raw3_ok; try assumption; lia.
Qed.
Print Assumptions C52_dump.

Theorem C52_null : forall hb maxreclen details, parse_raw3 hb None maxreclen details = Ok (mk_raw 1 [] []).
Proof. reflexivity. Qed.
Print Assumptions C52_null.

(** A record laid out from a header breaks no rule, and the fields of that header are
    printed. *)
Theorem C52_layout : forall hb h details, hdr_ok h -> 4 <= lenZ (h_sid h) -> 1900 <= h_year h <= 2100 -> 1 <= h_day h <= 366 ->
  h_nsec h <= 999999999 ->
  exists text,
  parse_raw3 hb (Some (layout3 h)) (lenZ (layout3 h)) details =
  Ok (mk_raw 0 (if 1 <=? details
                then IText (firstn 189 (shown (h_sid h))) ::
                     map INum [77; 83; h_flags h; h_year h; h_day h; h_hour h; h_min h; h_sec h; h_nsec h; h_rate h;
                               h_enc h; h_pub h; h_cnt h; h_crc h; lenZ (h_sid h); lenZ (h_extra h); lenZ (h_payload h)]
                else []) text)
  /\ (if (2 <=? details) && (0 <? lenZ (h_extra h))
      then exists body, text = body ++ [10] /\ pretty_print (interior (h_extra h)) body
      else text = []).
Proof. exact layout_dump. Qed.
Print Assumptions C52_layout.

Definition hdr0 : hdr :=
  mk_hdr 4 500 2024 60 1 2 3 0 0x3FF0000000000000 4 1745263372 1 (chars "FDSN:XX_A") (chars "{""A"":{""b"":1,""c"":"":,""}}") (chars "data").
Lemma hdr0_ok : hdr_ok hdr0.
Proof. unfold hdr_ok, in_u. cbn -[Z.pow]. repeat split; try lia; repeat constructor; lia. Qed.
Definition nl : string := String (Ascii.ascii_of_nat 10) EmptyString.
Example C52_layout_instance :
  parse_raw3 false (Some (layout3 hdr0)) (lenZ (layout3 hdr0)) 2 =
  Ok (mk_raw 0 (IText (chars "FDSN:XX_A") ::
                map INum [77; 83; 4; 2024; 60; 1; 2; 3; 500; 0x3FF0000000000000; 0; 1; 4; 1745263372; 9; 22; 4])
        (chars ("          ""A"": {" ++ nl ++ "            ""b"": 1," ++ nl ++ "            ""c"": "":,""" ++ nl ++ "          }" ++ nl)))
  /\ exists text, parse_raw3 true (Some (layout3 hdr0)) (lenZ (layout3 hdr0)) 0 = Ok (mk_raw 0 [] text).
Proof.
  split; [vm_compute; reflexivity|].
  destruct (C52_layout true hdr0 0 hdr0_ok) as (text & E & _); try (cbn; lia). exists text. exact E.
Qed.
(* A record with minute 99 and second 61; the second one is cut in its identifier. *)
Definition bad3 : list Z := firstn 13 (layout3 hdr0) ++ [99; 61] ++ skipn 15 (layout3 hdr0).
Example C52_dump_instance : (exists i t, parse_raw3 false (Some bad3) 75 1 = Ok (mk_raw 2 i t)) /\
  parse_raw3 false (Some (firstn 45 bad3)) 45 1 = Ok (mk_raw 1 [] []).
Proof.
  assert (B : bytes_ok bad3) by (unfold bytes_ok; vm_compute; repeat constructor; discriminate).
  split.
  - destruct (C52_dump false bad3 75 1 B) as (t & E & _); [vm_compute; discriminate|]. eexists. exists t. exact E.
  - refine (C52_dump false (firstn 45 bad3) 45 1 _ _); [apply Forall_firstn; exact B|vm_compute; discriminate].
Qed.

(** The quote escaped by a backslash ends the string for the printer: a line break gets
    into the string, between the escaped quote with the comma after it and the letter. *)
Theorem C52_escape_refuted : exists h text, hdr_ok h /\ h_extra h = chars "{""a"":""\"",b""}" /\
  (exists i, parse_raw3 false (Some (layout3 h)) (lenZ (layout3 h)) 2 = Ok (mk_raw 0 i text)) /\
  squeeze_json false false text <> squeeze_json false false (interior (h_extra h)).
Proof.
  exists (mk_hdr 4 500 2024 60 1 2 3 0 0x3FF0000000000000 4 1745263372 1 (chars "FDSN:XX_A") (chars "{""a"":""\"",b""}") (chars "data")).
  exists (chars ("          ""a"": ""\""," ++ nl ++ "          b""" ++ nl)).
  split; [unfold hdr_ok, in_u; cbn -[Z.pow]; repeat split; try lia; repeat constructor; lia|].
  split; [reflexivity|]. split; [eexists; vm_compute; reflexivity|vm_compute; discriminate].
Qed.
Print Assumptions C52_escape_refuted.

Example C52_pretty_instance : let l := interior (h_extra hdr0) in shallow l /\ compact l /\ levels 0 (marks false l) = [1; 1; 0].
Proof.
  cbv zeta. split; [unfold shallow; vm_compute; repeat constructor; discriminate|]. split; [|vm_compute; reflexivity].
  split; intros H; vm_compute in H; repeat (destruct H as [H|H]; [discriminate H|]); exact H.
Qed.

(** Brackets are lost where they are nested too deeply: of 95 that open in the extra headers and as many that close, one of the latter is not
    printed. *)
Definition deep_hdr : hdr :=
  mk_hdr 4 500 2024 60 1 2 3 0 0x3FF0000000000000 4 1745263372 1 (chars "FDSN:XX_A") (chars "{""a"":" ++ repeat 91 95 ++ repeat 93 95 ++ chars "}")%list (chars "data").
Theorem C52_deep_refuted : exists text, hdr_ok deep_hdr /\
  (exists i, parse_raw3 false (Some (layout3 deep_hdr)) (lenZ (layout3 deep_hdr)) 2 = Ok (mk_raw 0 i text)) /\
  count_occ Z.eq_dec text 91 = 95%nat /\ count_occ Z.eq_dec text 93 = 94%nat.
Proof.
  eexists. split; [unfold hdr_ok, in_u; cbn -[Z.pow]; repeat split; try lia; repeat constructor; lia|].
  split; [eexists; vm_compute; reflexivity|]. split; vm_compute; reflexivity.
Qed.
Print Assumptions C52_deep_refuted.

(** An identifier of 200 characters is not shown whole. *)
Theorem C52_identifier_refuted : exists h, hdr_ok h /\ lenZ (h_sid h) = 200 /\ ~ In 0 (h_sid h) /\
  exists r l, parse_raw3 false (Some (layout3 h)) (lenZ (layout3 h)) 1 = Ok (mk_raw 0 (IText r :: l) []) /\ lenZ r = 189.
Proof.
  exists (mk_hdr 4 500 2024 60 1 2 3 0 0x3FF0000000000000 4 1745263372 1 (repeat 65 200) (chars "{}") (chars "data")).
  split; [unfold hdr_ok, in_u; cbn -[Z.pow]; repeat split; try lia; repeat constructor; lia|]. split; [reflexivity|]. split.
  - intros H. apply repeat_spec in H. discriminate H.
  - eexists _, _. split; vm_compute; reflexivity.
Qed.
Print Assumptions C52_identifier_refuted.

(** Lengths that do not fit the record are not counted: here extra headers of 60000 and
    data of 4 * 10^9 bytes in a record of 75. *)
Theorem C52_lengths_refuted : exists rec, bytes_ok rec /\ lenZ rec = 75 /\
  extra_length rec = 60000 /\ nth 17 (values false widths3 rec) 0 = 4000000000 /\
  exists i, parse_raw3 false (Some rec) 75 2 = Ok (mk_raw 0 i []).
Proof.
  exists (firstn 34 (layout3 hdr0) ++ le_bytes 2 60000 ++ le_bytes 4 4000000000 ++ skipn 40 (layout3 hdr0)).
  split; [unfold bytes_ok; vm_compute; repeat constructor; discriminate|]. repeat (split; [vm_compute; reflexivity|]).
  eexists. vm_compute. reflexivity.
Qed.
Print Assumptions C52_lengths_refuted.

(** ** C53: the dump of a version 2 record *)

(** If the blockettes met are [l], and all of them can be printed, the value returned is
    the number of rules broken by the header, by the blockettes and by the chain, and the
    fields printed are those of the header and of the blockettes, in the order of the
    chain. *)
Theorem C53_dump : forall fuel hb rec maxreclen details swapflag l cut, bytes_ok rec -> 48 <= maxreclen <= lenZ rec ->
  46 < bytes_at (record_order hb swapflag rec) rec 46 2 < maxreclen ->
  visits (record_order hb swapflag rec) rec maxreclen (bytes_at (record_order hb swapflag rec) rec 46 2) l cut ->
  (List.length l < fuel)%nat ->
  let big := record_order hb swapflag rec in
  parse_raw2 fuel hb (Some rec) maxreclen details swapflag =
  Ok (mk_raw (broken (rules2 (values big widths2 rec))
              + fold_right (fun b n => broken (blockette_rules big rec b) + n) 0 l
              + broken (chain_rules big rec maxreclen (bytes_at big rec 46 2) l cut))
             (seed_items big details seed_fixed rec ++ flat_map (blockette_items big details rec) l
              ++ match cut with
                 | Some o => seed_items big details [SUns 1 2; SUns 1 2] (skipn (Z.to_nat o) rec)
                 | None => []
                 end) []).
Proof. exact raw2_ok. Qed.
Print Assumptions C53_dump.

(** Without a chain only the header counts. *)
Theorem C53_short : forall fuel hb rec maxreclen details swapflag, bytes_ok rec -> 48 <= maxreclen <= lenZ rec ->
  let big := record_order hb swapflag rec in
  ~ 46 < bytes_at big rec 46 2 < maxreclen ->
  parse_raw2 fuel hb (Some rec) maxreclen details swapflag =
  Ok (mk_raw (broken (rules2 (values big widths2 rec))) (seed_items big details seed_fixed rec) []).
Proof. exact raw2_short. Qed.
Print Assumptions C53_short.

Theorem C53_refused : forall fuel hb rec maxreclen details swapflag, rec = None \/ maxreclen < 48 ->
  parse_raw2 fuel hb rec maxreclen details swapflag = Ok (mk_raw 1 [] []).
Proof.
  intros fuel hb rec maxreclen details swapflag H. unfold parse_raw2. destruct rec; [|reflexivity].
  destruct H; [discriminate|]. replace (maxreclen <? 48) with true by lia. reflexivity.
Qed.
Print Assumptions C53_refused.

(** The links lead to a list of blockettes as above if every blockette they lead to has its
    head, and as much of it as is read, in the record and none of them of unknown size
    names itself. *)
Theorem C53_visits : forall big rec limit off, bytes_ok rec -> 0 <= off < limit ->
  (forall o, reached big rec limit off o -> o <> 0 -> o < limit -> safe_at big rec limit o /\ ~ stuck big rec limit o) ->
  exists l cut, visits big rec limit off l cut /\ lenZ l <= limit - off + 1.
Proof.
  intros big rec limit off B O H. destruct (safe_visits big rec limit B (Z.to_nat (limit - off + 1)) off) as (l & cut & V & L);
    [lia|lia|lia|exact H|]. exists l, cut. split; [exact V|]. unfold lenZ. lia.
Qed.
Print Assumptions C53_visits.

(** Then, or as long as the heads and the parts read are in the record, nothing outside of
    the record is read. *)
Theorem C53_safe : forall fuel hb rec maxreclen details swapflag, bytes_ok rec -> 48 <= maxreclen <= lenZ rec ->
  let big := record_order hb swapflag rec in
  (forall o, reached big rec maxreclen (bytes_at big rec 46 2) o -> o <> 0 -> o < maxreclen -> safe_at big rec maxreclen o) ->
  ~ is_ub (parse_raw2 fuel hb (Some rec) maxreclen details swapflag).
Proof. exact raw2_safe. Qed.
Print Assumptions C53_safe.

(** The dump ends unless a blockette of unknown size that names itself as the next one is
    met, and then it does not. *)
Theorem C53_ends : forall hb rec maxreclen details swapflag, bytes_ok rec -> 48 <= maxreclen <= lenZ rec ->
  let big := record_order hb swapflag rec in
  let bad := 46 < bytes_at big rec 46 2 /\ exists o, reached big rec maxreclen (bytes_at big rec 46 2) o /\ stuck big rec maxreclen o in
  (~ bad -> forall fuel, maxreclen < Z.of_nat fuel -> terminates (parse_raw2 fuel hb (Some rec) maxreclen details swapflag))
  /\ (bad -> forall fuel, never_ends (parse_raw2 fuel hb (Some rec) maxreclen details swapflag)).
Proof.
  intros hb rec maxreclen details swapflag B L big bad. split.
  - intros N fuel F E. apply N. destruct (raw2_fuel fuel hb rec maxreclen details swapflag B L F E) as (o & R & K). split; [|eauto].
    destruct (Z_lt_le_dec 46 (bytes_at big rec 46 2)) as [H|H]; [exact H|exfalso].
    pose proof (raw2_short fuel hb rec maxreclen details swapflag B L) as X. cbv zeta in X. fold big in X. rewrite X in E by lia. discriminate.
  - intros (H & o & R & K) fuel. exact (raw2_stuck fuel hb rec maxreclen details swapflag o B L H R K).
Qed.
Print Assumptions C53_ends.

(** At level 0 or 1 no more than 193 bytes after the record are read, and then nothing goes
    wrong but the shift by the exponent of the record length. *)
Theorem C53_extent : forall fuel hb rec maxreclen details swapflag, bytes_ok rec -> 48 <= maxreclen -> maxreclen + 193 <= lenZ rec ->
  details <= 1 ->
  match parse_raw2 fuel hb (Some rec) maxreclen details swapflag with
  | Ok _ | Fuel => True
  | UB u => u = BadShift
  | Err _ => False
  end.
Proof. exact raw2_extent. Qed.
Print Assumptions C53_extent.

(** ** Records *)

Definition head2 (ns nblk doff boff : Z) : list Z :=
  chars "000001D ABCD 00BHZXX" ++ [7; 228; 0; 32; 10; 20; 30; 0; 4; 210] ++ rev (le_bytes 2 ns) ++ [0; 20; 0; 1; 0; 0; 0; nblk; 0; 0; 0; 0]
  ++ rev (le_bytes 2 doff) ++ rev (le_bytes 2 boff).
Definition blk (type next : Z) (rest : list Z) : list Z := rev (le_bytes 2 type) ++ rev (le_bytes 2 next) ++ rest.
Definition fill (n : Z) (l : list Z) : list Z := l ++ repeat 0 (Z.to_nat (n - lenZ l)).
Definition b1000 (next : Z) : list Z := blk 1000 next [3; 1; 7; 0].

Lemma reached_two (big : bool) (rec : list Z) (limit a b : Z) : a <> 0 -> a < limit -> follow big rec a = b -> 
  forall o, reached big rec limit a o -> o = a \/ reached big rec limit b o.
Proof. intros A1 A2 <- o R. inversion R; subst; auto. Qed.
Lemma reached_zero (big : bool) (rec : list Z) (limit o : Z) : reached big rec limit 0 o -> o = 0.
Proof. intros R. inversion R; subst; [reflexivity|congruence]. Qed.

Ltac step n := apply visits_one with (next := n); [vm_compute; congruence|vm_compute; reflexivity|vm_compute; discriminate|
  vm_compute; reflexivity|vm_compute; reflexivity|vm_compute; repeat split; intros; congruence|vm_compute; discriminate|].

(** Blockettes 1000, 1001 and 100; two samples. *)
Definition good2 : list Z := fill 128 (head2 2 3 96 48 ++ b1000 56 ++ blk 1001 64 [100; 251; 0; 3] ++ blk 100 0 [65; 160; 0; 0; 0; 0; 0; 0]).
Lemma good2_ok : bytes_ok good2.
Proof. unfold bytes_ok. vm_compute. repeat constructor; discriminate. Qed.
Lemma good2_visits : visits true good2 128 48 [(48, 1000); (56, 1001); (64, 100)] None.
Proof.
  step 56. step 64. step 0.
  vm_compute. constructor. auto.
Qed.
Lemma good2_dump : parse_raw2 4 false (Some good2) 128 2 (-1) =
  Ok (mk_raw 0 (map INum (chars "000001D ABCD 00BHZXX" ++ [2020; 32; 10; 20; 30; 1234; 0; 2; 20; 1; 0; 0; 0; 3; 0; 96; 48]
                          ++ [1000; 56; 3; 1; 7; 0] ++ [1001; 64; 100; -5; 0; 3] ++ [100; 0; 0x41A00000; 0; 0; 0; 0])) []).
Proof.
  pose proof (C53_dump 4 false good2 128 2 (-1) [(48, 1000); (56, 1001); (64, 100)] None good2_ok) as D. change (record_order false (-1) good2) with true in D.
  change (bytes_at true good2 46 2) with 48 in D. rewrite (D ltac:(vm_compute; split; discriminate) ltac:(lia) good2_visits) by (cbn; lia).
  vm_compute. reflexivity.
Qed.
Example C53_dump_instance : exists i, parse_raw2 4 false (Some good2) 128 2 (-1) = Ok (mk_raw 0 i []) /\ In (INum 0x41A00000) i /\ In (INum (-5)) i.
Proof. rewrite good2_dump. eexists. split; [reflexivity|]. split; vm_compute; tauto. Qed.
Example C53_short_instance : exists i, parse_raw2 0 false (Some (fill 64 (head2 2 0 56 0))) 64 1 (-1) = Ok (mk_raw 0 i []).
Proof. eexists. refine (C53_short 0 false _ 64 1 (-1) _ _ _); [unfold bytes_ok; vm_compute; repeat constructor; discriminate|vm_compute; split; discriminate|vm_compute; intros []; discriminate]. Qed.
Lemma good2_reached o : reached true good2 128 48 o -> o = 48 \/ o = 56 \/ o = 64 \/ o = 0.
Proof.
  intros R. apply (reached_two true good2 128 48 56) in R; [|lia|lia|vm_compute; reflexivity]. destruct R as [->|R]; [auto|].
  apply (reached_two true good2 128 56 64) in R; [|lia|lia|vm_compute; reflexivity]. destruct R as [->|R]; [auto|].
  apply (reached_two true good2 128 64 0) in R; [|lia|lia|vm_compute; reflexivity]. destruct R as [->|R]; [auto|].
  apply reached_zero in R. auto.
Qed.
Example C53_visits_instance : exists l cut, visits true good2 128 48 l cut /\ lenZ l <= 81.
Proof.
  apply (C53_visits true good2 128 48 good2_ok); [lia|]. intros o R N _. apply good2_reached in R.
  destruct R as [->|[->|[->|E]]]; [| | |lia]; vm_compute; (split; [repeat split; intros; congruence|intros (_ & _ & E & _); discriminate]).
Qed.
Example C53_safe_instance : ~ is_ub (parse_raw2 4 false (Some good2) 128 2 (-1)).
Proof.
  apply C53_safe; [exact good2_ok|vm_compute; split; discriminate|]. change (record_order false (-1) good2) with true.
  change (bytes_at true good2 46 2) with 48. intros o R N _. apply good2_reached in R.
  destruct R as [->|[->|[->|E]]]; [| | |lia]; vm_compute; repeat split; intros; congruence.
Qed.
Example C53_ends_instance : terminates (parse_raw2 200 false (Some good2) 128 2 (-1)).
Proof.
  apply C53_ends; [exact good2_ok|vm_compute; split; discriminate| |lia]. change (record_order false (-1) good2) with true.
  change (bytes_at true good2 46 2) with 48. intros (_ & o & R & K). apply good2_reached in R.
  destruct R as [->|[->|[->|E]]]; vm_compute in K; destruct K as (K0 & _ & K & _); try discriminate; congruence.
Qed.
Example C53_extent_instance : match parse_raw2 200 false (Some (fill 321 good2)) 128 1 (-1) with Ok _ | Fuel => True | UB u => u = BadShift | Err _ => False end.
Proof. apply C53_extent; [unfold bytes_ok; vm_compute; repeat constructor; discriminate|lia|vm_compute; discriminate|lia]. Qed.

(** ** Faults *)

Definition J1 : json := mk_json (fun _ _ => false) (fun _ _ => []).

(** A record that is read without complaint, and whose dump never ends: the delay blockette
    405 at 56, of which the code does not know the size, names itself. *)
Definition loop2 : list Z := fill 128 (head2 0 2 0 48 ++ b1000 56 ++ blk 405 56 [0; 1]).
Theorem C53_endless_refuted : exists rec, bytes_ok rec /\ lenZ rec = 128 /\
  (exists m, parse_mem J1 false Strict 0 0 rec 128 = Ok (PRec m) /\ m_fver m = 2) /\
  forall fuel details, parse_raw2 fuel false (Some rec) 128 details (-1) = Fuel.
Proof.
  assert (B : bytes_ok loop2) by (unfold bytes_ok; vm_compute; repeat constructor; discriminate).
  exists loop2. split; [exact B|]. split; [reflexivity|]. split; [eexists; split; [vm_compute; reflexivity|reflexivity]|].
  intros fuel details.
  assert (X56 : forall o, reached true loop2 128 56 o -> o = 56).
  { intros o R. remember 56 as a eqn:A. induction R as [a|a o N L E R IH]; [congruence|]. subst a. apply IH. vm_compute. reflexivity. }
  destruct (raw2_stuck fuel false loop2 128 details (-1) 56 B) as [E|U]; [vm_compute; split; discriminate|vm_compute; reflexivity| | |exact E|].
  - change (record_order false (-1) loop2) with true. change (bytes_at true loop2 46 2) with 48.
    apply reached_step; [lia|lia|vm_compute; discriminate|]. change (follow true loop2 48) with 56. constructor.
  - vm_compute. repeat split; congruence.
  - exfalso. revert U. apply C53_safe; [exact B|vm_compute; split; discriminate|]. change (record_order false (-1) loop2) with true.
    change (bytes_at true loop2 46 2) with 48. intros o R _ _.
    apply (reached_two true loop2 128 48 56) in R; [|lia|lia|vm_compute; reflexivity].
    destruct R as [->|R]; [|apply X56 in R; subst o]; vm_compute; repeat split; intros; congruence.
Qed.
Print Assumptions C53_endless_refuted.

(** Reads past the end of the record: the head of a
    blockette in its last byte; a blockette 500, taken to have 8 instead of 200 bytes; a
    blockette with its last byte after the end (the check of its end is off by two). *)
Theorem C53_read_refuted : exists a b c, Forall (fun rec => bytes_ok rec /\ lenZ rec = 128) [a; b; c] /\
  (forall fuel, parse_raw2 (S (S fuel)) false (Some a) 128 0 (-1) = UB OOBRead) /\
  (forall fuel, parse_raw2 (S (S fuel)) false (Some b) 128 1 (-1) = UB OOBRead) /\
  (forall fuel, parse_raw2 (S (S fuel)) false (Some c) 128 1 (-1) = UB OOBRead).
Proof.
  exists (fill 128 (head2 0 2 0 48 ++ b1000 127)).
  exists (fill 128 (head2 0 2 0 48 ++ b1000 56 ++ blk 500 0 (repeat 32 68))).
  exists (fill 121 (head2 0 2 0 48 ++ b1000 121) ++ blk 1001 0 [0; 0; 0]).
  split; [repeat (constructor; [split; [unfold bytes_ok; vm_compute; repeat constructor; discriminate|reflexivity]|]); constructor|].
  split; [|split]; intros fuel; vm_compute; reflexivity.
Qed.
Print Assumptions C53_read_refuted.

(** The bound of 193 bytes is reached. *)
Theorem C53_extent_refuted : exists rec, bytes_ok rec /\ lenZ rec = 128 + 192 /\
  forall fuel, parse_raw2 (S (S fuel)) false (Some rec) 128 1 (-1) = UB OOBRead.
Proof.
  exists (fill 121 (head2 0 2 0 48 ++ b1000 121) ++ blk 500 0 (repeat 32 195)).
  split; [unfold bytes_ok; vm_compute; repeat constructor; discriminate|]. split; [reflexivity|intros fuel; vm_compute; reflexivity].
Qed.
Print Assumptions C53_extent_refuted.

(** An opaque blockette whose data offset is less than its header: the precision of the
    text is negative, and all bytes up to a NUL are printed, here up to the end. *)
Theorem C53_precision_refuted : exists rec, bytes_ok rec /\ lenZ rec = 128 /\
  (forall fuel, parse_raw2 (S (S fuel)) false (Some rec) 128 2 (-1) = UB OOBRead) /\
  exists m, parse_mem J1 false Strict 0 0 rec 128 = Ok (PRec m) /\ m_fver m = 2.
Proof.
  exists (head2 0 2 0 48 ++ b1000 56 ++ blk 2000 0 [0; 20; 0; 10; 0; 0; 0; 1; 0; 0; 0] ++ repeat 32 57).
  split; [unfold bytes_ok; vm_compute; repeat constructor; discriminate|]. split; [reflexivity|].
  split; [intros fuel; vm_compute; reflexivity|]. eexists. split; [vm_compute; reflexivity|reflexivity].
Qed.
Print Assumptions C53_precision_refuted.

(** 1 is shifted by any exponent of a record length. *)
Theorem C53_shift_refuted : exists rec, bytes_ok rec /\ lenZ rec = 128 /\
  forall fuel, parse_raw2 (S fuel) false (Some rec) 128 0 (-1) = UB BadShift.
Proof.
  exists (fill 128 (head2 0 1 0 48 ++ blk 1000 0 [3; 1; 32; 0])).
  split; [unfold bytes_ok; vm_compute; repeat constructor; discriminate|]. split; [reflexivity|intros fuel; vm_compute; reflexivity].
Qed.
Print Assumptions C53_shift_refuted.

(** Not every error is counted: a link that leads back to the first blockette, nor data
    that start inside a blockette 200, of which only 28 of the 52 bytes are allowed for. *)
Theorem C53_count_refuted : exists back inside, Forall (fun rec => bytes_ok rec /\ lenZ rec = 128) [back; inside] /\
  bytes_at true back 58 2 = 48 /\ (forall fuel, exists i, parse_raw2 (S (S (S fuel))) false (Some back) 128 0 (-1) = Ok (mk_raw 0 i [])) /\
  bytes_at true inside 56 2 = 200 /\ bytes_at true inside 44 2 < 56 + 52 /\ bytes_at true inside 30 2 = 2 /\
  (forall fuel, exists i, parse_raw2 (S (S (S fuel))) false (Some inside) 128 0 (-1) = Ok (mk_raw 0 i [])).
Proof.
  exists (fill 128 (head2 2 2 64 48 ++ b1000 56 ++ blk 1001 48 [0; 0; 0; 0])).
  exists (fill 128 (head2 2 2 88 48 ++ b1000 56 ++ blk 200 0 (repeat 0 24))).
  split; [repeat (constructor; [split; [unfold bytes_ok; vm_compute; repeat constructor; discriminate|reflexivity]|]); constructor|].
  split; [vm_compute; reflexivity|]. split; [intros fuel; eexists; vm_compute; reflexivity|].
  split; [vm_compute; reflexivity|]. split; [vm_compute; reflexivity|]. split; [vm_compute; reflexivity|].
  intros fuel; eexists; vm_compute; reflexivity.
Qed.
Print Assumptions C53_count_refuted.

(** Without a blockette 1000 its absence is not reported as such; instead both offsets are
    found to be past the end of a record of -1 bytes. *)
Theorem C53_no_1000_refuted : exists rec, bytes_ok rec /\ lenZ rec = 128 /\
  (forall fuel, exists i, parse_raw2 (S (S fuel)) false (Some rec) 128 0 (-1) = Ok (mk_raw 2 i [])) /\
  broken (rules2 (values true widths2 rec)) = 0 /\ broken (blockette_rules true rec (48, 1001)) = 0 /\
  visits true rec 128 48 [(48, 1001)] None.
Proof.
  exists (fill 128 (head2 2 1 64 48 ++ blk 1001 0 [0; 0; 0; 0])).
  split; [unfold bytes_ok; vm_compute; repeat constructor; discriminate|]. split; [reflexivity|].
  split; [intros fuel; eexists; vm_compute; reflexivity|]. split; [vm_compute; reflexivity|]. split; [vm_compute; reflexivity|].
  step 0. vm_compute. constructor. auto.
Qed.
Print Assumptions C53_no_1000_refuted.

(** Asked to swap the bytes the function does not. *)
Theorem C53_swapflag_refuted : forall fuel hb record maxreclen details,
  parse_raw2 fuel hb record maxreclen details 1 = parse_raw2 fuel hb record maxreclen details 0.
Proof. reflexivity. Qed.
Print Assumptions C53_swapflag_refuted.
Example C53_swapflag_instance : exists i, parse_raw2 4 false (Some good2) 128 2 1 = Ok (mk_raw 3 i []) /\ In (INum (228 * 256 + 7)) i.
Proof. eexists. split; [vm_compute; reflexivity|vm_compute; tauto]. Qed.
