(** * C12, C13, C14: identifiers, channel codes and string copies. *)
From Verif Require Import StrModel StrSpec StrProof.
Open Scope Z_scope.

(** C12: building an identifier stores exactly FDSN:NET_STA_LOC_CHAN and its terminator
    when it fits the stated size, else a terminated prefix and the error value; bytes at
    and after the stated size are never changed, and nothing is read or written out of
    bounds for any codes. *)
Theorem C12_build : forall sid sidlen net sta loc chan,
  16 <= sidlen <= Z.of_nat (length sid) -> text chan ->
  let w := sid_text net sta (match loc with Some l => l | None => [] end) (extended_form chan) in
  nslc2sid sid sidlen net sta loc chan =
  if Z.of_nat (length w) <? sidlen
  then Ok (w ++ 0 :: skipn (S (length w)) sid, Z.of_nat (length w))
  else Ok (firstn (Z.to_nat sidlen - 1) w ++ 0 :: skipn (Z.to_nat sidlen) sid, -1).
Proof. exact nslc2sid_ok. Qed.
Print Assumptions C12_build.

Example C12_build_instance :
  nslc2sid (repeat 7 20) 18 [73; 85] [65] (Some []) [66; 72; 90]
    = Ok ([70; 68; 83; 78; 58; 73; 85; 95; 65; 95; 95; 66; 95; 72; 95; 90; 0; 7; 7; 7], 16) /\
  nslc2sid (repeat 7 20) 16 [73; 85] [65] (Some []) [66; 72; 90]
    = Ok ([70; 68; 83; 78; 58; 73; 85; 95; 65; 95; 95; 66; 95; 72; 95; 0; 7; 7; 7; 7], -1).
Proof. split; vm_compute; reflexivity. Qed.

(** C12: splitting an identifier, with or without further namespaces before the codes,
    stores the codes; the channel is given in SEED form when it has one. *)
Theorem C12_split : forall ns net sta loc ch out o,
  (ns = [] \/ exists a, ns = a ++ [58]) ->
  plain_code net -> plain_code sta -> plain_code loc -> text ch -> ~ In 58 ch -> count_char 95 ch = 2 ->
  (has_seed_form ch out \/ (forall t, ~ has_seed_form ch t) /\ out = ch) ->
  fits (o_net o) (length net) -> fits (o_sta o) (length sta) -> fits (o_loc o) (length loc) ->
  fits (o_chan o) (length ch) ->
  exists o', sid2nslc (fdsn ++ ns ++ net ++ [95] ++ sta ++ [95] ++ loc ++ [95] ++ ch) o = Ok o' /\
    stored (o_net o) (o_net o') net /\ stored (o_sta o) (o_sta o') sta /\ stored (o_loc o) (o_loc o') loc /\
    stored (o_chan o) (o_chan o') out.
Proof. exact sid2nslc_ok. Qed.
Print Assumptions C12_split.

(** C12: build, then split: the same codes. *)
Theorem C12_build_split : forall sid sidlen net sta loc a b c o buf n,
  16 <= sidlen <= Z.of_nat (length sid) ->
  plain_code net -> plain_code sta -> plain_code loc -> plain_code [a; b; c] ->
  nslc2sid sid sidlen net sta (Some loc) [a; b; c] = Ok (buf, n) -> n <> -1 ->
  fits (o_net o) (length net) -> fits (o_sta o) (length sta) -> fits (o_loc o) (length loc) -> fits (o_chan o) 5 ->
  exists o', sid2nslc (firstn (Z.to_nat n) buf) o = Ok o' /\
    stored (o_net o) (o_net o') net /\ stored (o_sta o) (o_sta o') sta /\ stored (o_loc o) (o_loc o') loc /\
    stored (o_chan o) (o_chan o') [a; b; c].
Proof.
  intros sid sidlen net sta loc a b c o buf n L P1 P2 P3 (T4 & U4 & K4) E N F1 F2 F3 F4.
  rewrite nslc2sid_ok in E by auto. cbn [extended_form] in E.
  remember (sid_text net sta loc [a; 95; b; 95; c]) as w eqn:W.
  destruct (Z.of_nat (length w) <? sidlen); injection E as <- <-; [|congruence].
  rewrite Nat2Z.id, firstn_app, firstn_all, Nat.sub_diag. cbn [firstn]. rewrite app_nil_r, W.
  assert (T4' := T4). unfold text in T4'. rewrite Forall_forall in T4'.
  apply (sid2nslc_ok [] net sta loc [a; 95; b; 95; c]); auto.
  - repeat constructor; try lia; apply T4'; cbn; auto.
  - intros I. apply K4. cbn in I |- *. intuition; discriminate.
  - cbn [count_char Z.eqb Pos.eqb]. destruct (Z.eqb_spec a 95), (Z.eqb_spec b 95), (Z.eqb_spec c 95); subst;
    try (exfalso; apply U4; cbn; tauto). reflexivity.
  - left. constructor.
Qed.
Print Assumptions C12_build_split.

Example C12_split_instance :
  sid2nslc [70; 68; 83; 78; 58; 73; 85; 95; 65; 95; 95; 66; 95; 72; 95; 90]
     (mk_nslc (Some [1; 1; 1]) None (Some [1]) (Some [1; 1; 1; 1]))
  = Ok (mk_nslc (Some [73; 85; 0]) None (Some [0]) (Some [66; 72; 90; 0])).
Proof. vm_compute. reflexivity. Qed.

(** C12: splitting is free of undefined behaviour when every destination is larger than
    the identifier. *)
Theorem C12_split_safe : forall sid o, text sid ->
  fits (o_net o) (length sid) -> fits (o_sta o) (length sid) -> fits (o_loc o) (length sid) ->
  fits (o_chan o) (length sid) ->
  sid2nslc sid o = Err (-1) \/ exists o', sid2nslc sid o = Ok o'.
Proof. exact sid2nslc_safe. Qed.
Print Assumptions C12_split_safe.

(** C12: the destinations of 11 bytes that mstl3_printsynclist (tracelist.c:2259-2262,
    2285) gives to ms_sid2nslc are too small for identifiers a record may carry: an
    11-character network code overflows them. *)
Theorem C12_synclist_buffers_refuted :
  sid2nslc ([70; 68; 83; 78; 58] ++ repeat 65 11 ++ [95; 83; 95; 95; 66; 95; 72; 95; 90])
    (mk_nslc (Some (repeat 0 11)) (Some (repeat 0 11)) (Some (repeat 0 11)) (Some (repeat 0 11)))
  = UB OOBWrite.
Proof. vm_compute. reflexivity. Qed.

(** C12: the identifier of a version 2 record is made of its space-stripped codes. *)
Theorem C12_record_identifier : forall pre sta loc chan net rest sid sidlen a b c,
  length pre = 8%nat -> length sta = 5%nat -> length loc = 2%nat -> chan = [a; b; c] ->
  length net = 2%nat -> rest <> [] ->
  Forall (fun c => 1 <= c <= 127) (sta ++ loc ++ chan ++ net) -> bytes_ok rest ->
  22 < sidlen <= Z.of_nat (length sid) ->
  let w := sid_text (no_spaces net) (no_spaces sta) (no_spaces loc) [a; 95; b; 95; c] in
  recordsid (pre ++ sta ++ loc ++ chan ++ net ++ rest) sid sidlen =
  Ok (w ++ 0 :: skipn (S (length w)) sid, Z.of_nat (length w)).
Proof. exact recordsid_ok. Qed.
Print Assumptions C12_record_identifier.

Example C12_record_instance :
  recordsid (repeat 48 8 ++ [65; 78; 77; 79; 32; 32; 32; 66; 72; 90; 73; 85] ++ [7]) (repeat 1 64) 64
  = Ok ([70; 68; 83; 78; 58; 73; 85; 95; 65; 78; 77; 79; 95; 95; 66; 95; 72; 95; 90; 0] ++ repeat 1 44, 19).
Proof. vm_compute. reflexivity. Qed.

(** C13: a three-character channel becomes its extended form ... *)
Theorem C13_seed_to_extended : forall a b c x, text [a; b; c] -> (6 <= length x)%nat ->
  seedchan2xchan (cstr [a; b; c]) x = Ok ([a; 95; b; 95; c; 0] ++ skipn 6 x).
Proof. exact seedchan2xchan_ok. Qed.
Print Assumptions C13_seed_to_extended.

(** ... and every other string is refused. *)
Theorem C13_seed_refused : forall s x, text s -> length s <> 3%nat -> seedchan2xchan (cstr s) x = Err (-1).
Proof. exact seedchan2xchan_err. Qed.
Print Assumptions C13_seed_refused.

(** C13: an extended channel with a SEED form becomes it, also in place ... *)
Theorem C13_extended_to_seed : forall s t d, text s -> has_seed_form s t -> (4 <= length d)%nat ->
  xchan2seedchan (cstr s) d = Ok (t ++ 0 :: skipn 4 d).
Proof. exact xchan2seedchan_ok. Qed.
Print Assumptions C13_extended_to_seed.
Theorem C13_extended_to_seed_in_place : forall s t r, text s -> has_seed_form s t ->
  xchan2seedchan_inplace (cstr s ++ r) = Ok (t ++ 0 :: skipn 4 (cstr s ++ r)).
Proof. exact xchan_inplace_ok. Qed.
Print Assumptions C13_extended_to_seed_in_place.

(** ... and every other string is refused, not shortened. *)
Theorem C13_extended_refused : forall s d, text s -> (forall t, ~ has_seed_form s t) ->
  xchan2seedchan (cstr s) d = Err (-1).
Proof. exact xchan2seedchan_err. Qed.
Print Assumptions C13_extended_refused.

(** C13: both round trips. *)
Theorem C13_round_trips : forall a b c x d, text [a; b; c] -> (6 <= length x)%nat -> (4 <= length d)%nat ->
  (exists xc, seedchan2xchan (cstr [a; b; c]) x = Ok xc /\
     exists sc, xchan2seedchan (firstn 6 xc) d = Ok sc /\ firstn 4 sc = cstr [a; b; c]) /\
  (exists sc, xchan2seedchan (cstr [a; 95; b; 95; c]) d = Ok sc /\
     exists xc, seedchan2xchan (firstn 4 sc) x = Ok xc /\ firstn 6 xc = cstr [a; 95; b; 95; c]).
Proof.
  intros a b c x d T L1 L2.
  assert (T' : text [a; 95; b; 95; c]).
  { unfold text in *. rewrite Forall_forall in T. repeat constructor; try lia; apply T; cbn; auto. }
  split.
  - eexists. split; [now apply seedchan2xchan_ok|]. cbn [app firstn].
    change [a; 95; b; 95; c; 0] with (cstr [a; 95; b; 95; c]).
    eexists. split; [apply (xchan2seedchan_ok _ [a; b; c]); auto; constructor|reflexivity].
  - eexists. split; [apply (xchan2seedchan_ok _ [a; b; c]); auto; constructor|]. cbn [app firstn].
    change [a; b; c; 0] with (cstr [a; b; c]).
    eexists. split; [now apply seedchan2xchan_ok|reflexivity].
Qed.
Print Assumptions C13_round_trips.

Example C13_instance :
  seedchan2xchan [66; 72; 90; 0] (repeat 9 6) = Ok [66; 95; 72; 95; 90; 0] /\
  xchan2seedchan [66; 95; 72; 95; 90; 0] (repeat 9 5) = Ok [66; 72; 90; 0; 9] /\
  xchan2seedchan [66; 66; 95; 72; 95; 90; 0] (repeat 9 5) = Err (-1).
Proof. repeat split; vm_compute; reflexivity. Qed.

(** C14: the length used by the copies is that of the longest well-formed UTF-8 prefix of
    the bytes before the terminator and within the requested length. *)
Theorem C14_length : forall src len, bytes_ok src -> readable src len ->
  exists p, longest_utf8 (visible src len) p /\ utf8length_int src len = Ok (Z.of_nat (length p)).
Proof. exact utf8length_ok. Qed.
Print Assumptions C14_length.

(** C14: the clean copy. *)
Theorem C14_clean : forall dest src len p,
  bytes_ok src -> readable src len -> longest_utf8 (visible src len) p ->
  (length (no_spaces p) < length dest)%nat ->
  exists d, strncpclean dest (Some src) len = Ok (d, Z.of_nat (length (no_spaces p))) /\
            holds_string dest d (no_spaces p).
Proof. exact strncpclean_ok. Qed.
Print Assumptions C14_clean.

(** C14: the tail-trimming copy; the space of the removed blanks is zero filled. *)
Theorem C14_cleantail : forall dest src len p,
  bytes_ok src -> readable src len -> longest_utf8 (visible src len) p ->
  (length p < length dest)%nat ->
  exists t k, p = t ++ repeat 32 k /\ trimmed p t /\
    strncpcleantail dest (Some src) len =
      Ok (t ++ repeat 0 (S k) ++ skipn (S (length p)) dest, Z.of_nat (length t)).
Proof. exact strncpcleantail_ok. Qed.
Print Assumptions C14_cleantail.

(** C14: the open copy, also from a NULL source. *)
Theorem C14_open : forall dest src len p,
  bytes_ok src -> readable src len -> longest_utf8 (visible src len) p ->
  len <= Z.of_nat (length dest) ->
  strncpopen dest (Some src) len =
    Ok (p ++ repeat 32 (Z.to_nat len - length p) ++ skipn (Z.to_nat len) dest, Z.of_nat (length p)).
Proof. exact strncpopen_ok. Qed.
Print Assumptions C14_open.
Theorem C14_open_null : forall dest len, len <= Z.of_nat (length dest) ->
  strncpopen dest None len = Ok (repeat 32 (Z.to_nat len) ++ skipn (Z.to_nat len) dest, 0).
Proof. exact strncpopen_null. Qed.
Print Assumptions C14_open_null.

Example C14_instance :
  strncpclean (repeat 9 5) (Some [32; 65; 32; 66; 32; 67; 68]) 5 = Ok ([65; 66; 0; 9; 9], 2) /\
  strncpcleantail (repeat 9 7) (Some [32; 65; 32; 66; 32; 67; 68]) 5 = Ok ([32; 65; 32; 66; 0; 0; 9], 4) /\
  strncpopen (repeat 9 6) (Some [65; 66; 0; 67]) 5 = Ok ([65; 66; 32; 32; 32; 9], 2) /\
  strncpclean (repeat 9 5) (Some [65; 0xC3; 0xA9; 0xE2; 0x82; 0]) 5 = Ok ([65; 0xC3; 0xA9; 0; 9], 3) /\
  longest_utf8 (visible [65; 66; 0; 67] 5) [65; 66].
Proof.
  repeat split; try (vm_compute; reflexivity).
  - exists []. reflexivity.
  - apply ascii_wf. repeat constructor; discriminate.
  - intros p' r' E _. apply (f_equal (@length Z)) in E. rewrite app_length in E. change (length (visible [65; 66; 0; 67] 5)) with 2%nat in E. cbn [length]. lia.
Qed.

(** C14: "never read beyond the requested source length" is false: the loop condition
    reads the byte after the requested length before comparing with it, so a field of
    exactly that size is overrun. *)
Theorem C14_overread_refuted :
  strncpclean (repeat 9 3) (Some [65; 66]) 2 = UB OOBRead /\
  strncpopen (repeat 9 3) (Some [65; 66]) 2 = UB OOBRead.
Proof. split; vm_compute; reflexivity. Qed.
