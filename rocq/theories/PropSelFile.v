(** * C50: selection files. *)
From Coq Require Import String.
From Verif Require Import TimeModel TimeStrModel TimeSpec LeapSpec DateSpec GlobSpec SelModel SelSpec StrSpec SelFileModel SelFileSpec SelFileProof.
Open Scope Z_scope.
Open Scope list_scope.

(** C50: every line of the two documented forms adds its selection, in the order of the
    file, blank lines and comments add none, and their number is returned. *)
Theorem C50_file : forall mode sels ls es last e,
  Forall2 states_sel ls es -> Forall short_line ls -> states_sel last e -> short_line last -> Z.of_nat (length ls) < 2 ^ 31 - 1 ->
  readselectionsfile mode sels (Some (file_of ls last)) =
    Ok (fold_left (fun l r => let '(p, (a, b), v) := r in addselect l p a b v) (asked (es ++ [e])) sels,
        Z.of_nat (length (asked (es ++ [e])))).
Proof. exact file_ok. Qed.
Print Assumptions C50_file.

Ltac dg := split; [discriminate|apply Forall_forall; intros x I; cbn in I; lia].
Ltac wd := split; [discriminate|apply Forall_forall; intros x I; cbn in I; unfold white; lia].
Ltac ws := apply Forall_forall; intros x I; cbn in I; unfold white; lia.
Ltac tx := split; [reflexivity|]; apply Forall_forall; intros x I; cbn in I; lia.

Definition ex_line1 : list Z := zs "  IU ANMO -- BHZ 2 2010-02-03".
Definition ex_line2 : list Z := zs "FDSN:GE_* 2010,034 ".
Definition ex_pat1 : list Z := zs "FDSN:IU_ANMO__B_H_Z".

Lemma ex_writes1 : writes (zs "2010-02-03") 1265155200000000000.
Proof.
  split; [do 7 eexists; split; [reflexivity|]; split; [apply Forall_forall; intros x I; cbn in I; lia|left; reflexivity]|].
  exists 2010, (Md 2 3), 0, 0, 0, 0, 14643. split.
  - apply (date_md (zs "2010") 45 (zs "02") 45 (zs "03") [] 0 0 0 0); [dg|dg|dg|left; reflexivity|left; reflexivity|]. constructor. left. reflexivity.
  - unfold good_clock, in_s, open, NSTERROR, NSTUNSET. split; [cbn; lia|]. split; [split; [reflexivity|split; reflexivity]|]. cbn. lia.
Qed.
Lemma ex_writes2 : writes (zs "2010,034") 1265155200000000000.
Proof.
  split; [do 7 eexists; split; [reflexivity|]; split; [apply Forall_forall; intros x I; cbn in I; lia|right; right; reflexivity]|].
  exists 2010, (Yd 34), 0, 0, 0, 0, 14643. split.
  - apply (date_seed (zs "2010") (zs "034") []); [dg|dg|]. constructor. left. reflexivity.
  - unfold good_clock, in_s, open, NSTERROR, NSTUNSET. split; [cbn; lia|]. split; [split; [reflexivity|reflexivity]|]. cbn. lia.
Qed.
Lemma ex_states1 : states_sel ex_line1 (Some (ex_pat1, (1265155200000000000, NSTUNSET), 2)).
Proof.
  apply (states_asks [zs "IU"; zs "ANMO"; zs "--"; zs "BHZ"; zs "2"; zs "2010-02-03"]).
  - apply (spaced_word (zs "  ") (zs "IU") _ (zs " ANMO -- BHZ 2 2010-02-03")); [ws|wd|cbn; unfold white; lia|].
    apply (spaced_word (zs " ") (zs "ANMO") _ (zs " -- BHZ 2 2010-02-03")); [ws|wd|cbn; unfold white; lia|].
    apply (spaced_word (zs " ") (zs "--") _ (zs " BHZ 2 2010-02-03")); [ws|wd|cbn; unfold white; lia|].
    apply (spaced_word (zs " ") (zs "BHZ") _ (zs " 2 2010-02-03")); [ws|wd|cbn; unfold white; lia|].
    apply (spaced_word (zs " ") (zs "2") _ (zs " 2010-02-03")); [ws|wd|cbn; unfold white; lia|].
    apply (spaced_word (zs " ") (zs "2010-02-03") _ []); [ws|wd|exact I|]. constructor. constructor.
  - cbn. discriminate.
  - apply asks_codes_from.
    + split; [repeat constructor; cbn; lia|]. split; [repeat constructor; cbn; lia|]. split; [reflexivity|cbn; lia].
    + intros (a & b & c & d & f & g & r & E & _). discriminate E.
    + intros (a & b & c & d & f & g & r & E & _). discriminate E.
    + left. split; [dg|]. split; [reflexivity|lia].
    + exact ex_writes1.
Qed.
Lemma ex_states2 : states_sel ex_line2 (Some (zs "FDSN:GE_*", (1265155200000000000, NSTUNSET), 0)).
Proof.
  apply (states_asks [zs "FDSN:GE_*"; zs "2010,034"]).
  - apply (spaced_word [] (zs "FDSN:GE_*") _ (zs " 2010,034 ")); [ws|wd|cbn; unfold white; lia|].
    apply (spaced_word (zs " ") (zs "2010,034") _ (zs " ")); [ws|wd|cbn; unfold white; lia|]. constructor. ws.
  - cbn. discriminate.
  - apply asks_from. exact ex_writes2.
Qed.

Example C50_file_instance :
  Forall2 states_sel [ex_line1; zs " # all"; []] [Some (ex_pat1, (1265155200000000000, NSTUNSET), 2); None; None] /\
  states_sel ex_line2 (Some (zs "FDSN:GE_*", (1265155200000000000, NSTUNSET), 0)) /\
  Forall short_line [ex_line1; zs " # all"; []; ex_line2] /\
  readselectionsfile Strict [] (Some (file_of [ex_line1; zs " # all"; []] ex_line2)) =
    Ok ([ {| s_pat := zs "FDSN:GE_*"; s_win := [(1265155200000000000, NSTUNSET)]; s_ver := 0 |};
          {| s_pat := ex_pat1; s_win := [(1265155200000000000, NSTUNSET)]; s_ver := 2 |} ], 2).
Proof.
  split; [|split; [exact ex_states2|split; [|vm_compute; reflexivity]]].
  - constructor; [exact ex_states1|]. constructor; [apply (states_remark (zs " ") (zs " all")); ws|]. constructor; [|constructor]. constructor. constructor.
  - repeat (apply Forall_cons; [unfold short_line; cbn; repeat split; try lia; intros X; repeat destruct X as [X|X]; try discriminate X; contradiction|]). constructor.
Qed.

(** C50: a record is selected by the list read exactly when a line of the file asks for
    it. *)
Theorem C50_selects : forall mode ls es last e sid st en qv,
  Forall2 states_sel ls es -> Forall short_line ls -> states_sel last e -> short_line last -> Z.of_nat (length ls) < 2 ^ 31 - 1 ->
  Forall good_request (asked (es ++ [e])) -> ~ open st -> ~ open en -> st <= en ->
  exists l n r, readselectionsfile mode [] (Some (file_of ls last)) = Ok (l, n) /\ matchselect l sid st en qv = Ok r /\
    (r <> None <-> exists p w v, In (p, w, v) (asked (es ++ [e])) /\ matches p sid /\ (v = 0 \/ v = qv) /\ overlaps st en w).
Proof. exact selects_ok. Qed.
Print Assumptions C50_selects.

Example C50_selects_instance :
  good_request (zs "FDSN:GE_*", (1265155200000000000, NSTUNSET), 0) /\
  (exists l n, readselectionsfile Strict [] (Some (file_of [ex_line1] ex_line2)) = Ok (l, n) /\
    (exists x, matchselect l (zs "FDSN:GE_WLF__B_H_Z") 1265155200000000000 1265155201000000000 1 = Ok (Some x)) /\
    matchselect l (zs "FDSN:GE_WLF__B_H_Z") 1265155100000000000 1265155199000000000 1 = Ok None /\
    matchselect l (zs "FDSN:IU_ANMO__B_H_Z") 1265155200000000000 1265155201000000000 1 = Ok None /\
    (exists x, matchselect l (zs "FDSN:IU_ANMO__B_H_Z") 1265155200000000000 1265155201000000000 2 = Ok (Some x))).
Proof.
  split.
  - split; [|split; [cbn; lia|split; [right; left; right; reflexivity|lia]]].
    exists (map Lit (zs "FDSN:GE_") ++ [Star]). split; [cbn; repeat constructor; lia|]. intros c I. cbn in I. repeat destruct I as [I|I]; try discriminate I. contradiction.
  - eexists. eexists. split; [vm_compute; reflexivity|]. split; [eexists; vm_compute; reflexivity|]. split; [vm_compute; reflexivity|].
    split; [vm_compute; reflexivity|eexists; vm_compute; reflexivity].
Qed.

(** C50: the first line with a version over 255 ends the reading with -1, the selections
    above it added; so does a file that cannot be opened. *)
Theorem C50_stops : forall mode sels ls es l rest,
  Forall2 states_sel ls es -> Forall short_line ls -> big_version l -> short_line l -> Z.of_nat (length ls) < 2 ^ 31 ->
  readselectionsfile mode sels (Some (file_of ls (l ++ 10 :: rest))) =
    Ok (fold_left (fun l r => let '(p, (a, b), v) := r in addselect l p a b v) (asked es) sels, -1) /\
  readselectionsfile mode sels None = Ok (sels, -1).
Proof. intros. split; [now apply stops_ok|reflexivity]. Qed.
Print Assumptions C50_stops.

Example C50_stops_instance :
  big_version (zs "IU ANMO 00 BHZ 256") /\
  readselectionsfile Strict [] (Some (file_of [zs "*"] (zs "IU ANMO 00 BHZ 256" ++ 10 :: ex_line2))) =
    Ok ([{| s_pat := [42]; s_win := [(NSTUNSET, NSTUNSET)]; s_ver := 0 |}], -1).
Proof.
  split; [|vm_compute; reflexivity]. exists [zs "IU"; zs "ANMO"; zs "00"; zs "BHZ"; zs "256"]. split; [|split; [cbn; discriminate|]].
  - apply (spaced_word [] (zs "IU") _ (zs " ANMO 00 BHZ 256")); [ws|wd|cbn; unfold white; lia|].
    apply (spaced_word (zs " ") (zs "ANMO") _ (zs " 00 BHZ 256")); [ws|wd|cbn; unfold white; lia|].
    apply (spaced_word (zs " ") (zs "00") _ (zs " BHZ 256")); [ws|wd|cbn; unfold white; lia|].
    apply (spaced_word (zs " ") (zs "BHZ") _ (zs " 256")); [ws|wd|cbn; unfold white; lia|].
    apply (spaced_word (zs " ") (zs "256") _ []); [ws|wd|exact I|]. constructor. constructor.
  - right. exists (zs "IU"), (zs "ANMO"), (zs "00"), (zs "BHZ"), (zs "256"), []. split; [reflexivity|]. split; [dg|]. split; [reflexivity|].
    split; [intros (a & b & c & d & f & g & r & E & _); discriminate E|]. split; [intros (a & b & c & d & f & g & r & E & _); discriminate E|]. left. reflexivity.
Qed.

(** C50: a line of neither form adds nothing (but is counted, see below). *)
Theorem C50_neither : forall mode sels ls es l,
  Forall2 states_sel ls es -> Forall short_line ls -> neither l -> short_line l -> Z.of_nat (length ls) < 2 ^ 31 - 1 ->
  readselectionsfile mode sels (Some (file_of ls l)) =
    Ok (fold_left (fun l r => let '(p, (a, b), v) := r in addselect l p a b v) (asked es) sels, Z.of_nat (length (asked es)) + 1).
Proof. exact neither_ok. Qed.
Print Assumptions C50_neither.

Example C50_neither_instance : (* bare years in the place of dates *)
  neither (zs "* 2010-02-03 2011") /\ neither (zs "IU ANMO 00 BHZ 2 2010") /\
  readselectionsfile Strict [] (Some (file_of [zs "*"] (zs "IU ANMO 00 BHZ 2 2010"))) =
    Ok ([{| s_pat := [42]; s_win := [(NSTUNSET, NSTUNSET)]; s_ver := 0 |}], 2).
Proof.
  split; [|split; [|vm_compute; reflexivity]].
  - exists [zs "*"; zs "2010-02-03"; zs "2011"]. split; [|split; [cbn; discriminate|]].
    + apply (spaced_word [] (zs "*") _ (zs " 2010-02-03 2011")); [ws|wd|cbn; unfold white; lia|].
      apply (spaced_word (zs " ") (zs "2010-02-03") _ (zs " 2011")); [ws|wd|cbn; unfold white; lia|].
      apply (spaced_word (zs " ") (zs "2011") _ []); [ws|wd|exact I|]. constructor. constructor.
    + right. left. exists (zs "*"), (zs "2010-02-03"), (zs "2011").
      assert (N : ~ date_shaped (zs "2011")) by (intros (a & b & c & d & f & g & r & E & _); discriminate E).
      split; [reflexivity|]. split; [right; eexists; exact ex_writes1|]. split; [left; exact N|right; exact N].
  - exists [zs "IU"; zs "ANMO"; zs "00"; zs "BHZ"; zs "2"; zs "2010"]. split; [|split; [cbn; discriminate|]].
    + apply (spaced_word [] (zs "IU") _ (zs " ANMO 00 BHZ 2 2010")); [ws|wd|cbn; unfold white; lia|].
      apply (spaced_word (zs " ") (zs "ANMO") _ (zs " 00 BHZ 2 2010")); [ws|wd|cbn; unfold white; lia|].
      apply (spaced_word (zs " ") (zs "00") _ (zs " BHZ 2 2010")); [ws|wd|cbn; unfold white; lia|].
      apply (spaced_word (zs " ") (zs "BHZ") _ (zs " 2 2010")); [ws|wd|cbn; unfold white; lia|].
      apply (spaced_word (zs " ") (zs "2") _ (zs " 2010")); [ws|wd|cbn; unfold white; lia|].
      apply (spaced_word (zs " ") (zs "2010") _ []); [ws|wd|exact I|]. constructor. constructor.
    + right. right. left. exists (zs "IU"), (zs "ANMO"), (zs "00"), (zs "BHZ"), (zs "2"), (zs "2010"). split; [reflexivity|].
      split; [|split]; intros (a & b & c & d & f & g & r & E & _); discriminate E.
Qed.

(** C50 fails for a date that is none: the text is refused with NSTERROR, the line tests
    for NSTUNSET (selection.c:552, 567), and the window has an open start.  A start of
    1902-01-01 is that value too. *)
Theorem C50_bad_date_refuted :
  timestr2nstime Strict (zs "2010-13-45") = Ok NSTERROR /\
  readselectionsfile Strict [] (Some (zs "* 2010-13-45")) = Ok ([{| s_pat := [42]; s_win := [(NSTERROR, NSTUNSET)]; s_ver := 0 |}], 1) /\
  readselectionsfile Strict [] (Some (zs "* 1902-01-01")) = Ok ([{| s_pat := [42]; s_win := [(NSTERROR, NSTUNSET)]; s_ver := 0 |}], 1) /\
  epoch_ns (-24837) 0 0 0 0 = NSTERROR /\
  exists x, matchselect [{| s_pat := [42]; s_win := [(NSTERROR, NSTUNSET)]; s_ver := 0 |}] (zs "FDSN:XX_S__B_H_Z") (NSTERROR - 200) (NSTERROR - 100) 1 = Ok (Some x).
Proof. split; [|split; [|split; [|split]]]; [vm_compute; reflexivity..|]. eexists. vm_compute. reflexivity. Qed.
Print Assumptions C50_bad_date_refuted.

(** C50 fails for a line of neither form: it is counted although it adds nothing
    (selection.c:636-641), as is a selection whose times are bare years. *)
Theorem C50_unknown_line_refuted :
  readselectionsfile Strict [] (Some (zs "A B")) = Ok ([], 1) /\
  readselectionsfile Strict [] (Some (zs "FDSN:XX_S__B_H_Z 2010 2011")) = Ok ([], 1).
Proof. split; vm_compute; reflexivity. Qed.
Print Assumptions C50_unknown_line_refuted.

(** C50 fails for long lines: after 198 characters the rest is a line of its own, so a
    comment can select everything. *)
Theorem C50_long_line_refuted :
  readselectionsfile Strict [] (Some (35 :: repeat 97 196 ++ zs " * and more")) =
    Ok ([], 1) /\
  readselectionsfile Strict [] (Some (35 :: repeat 97 197 ++ zs "*")) = Ok ([{| s_pat := [42]; s_win := [(NSTUNSET, NSTUNSET)]; s_ver := 0 |}], 1).
Proof. split; vm_compute; reflexivity. Qed.
Print Assumptions C50_long_line_refuted.

(** C50 fails for channels of three characters one of which is a set: the parts are not
    separated and the pattern matches no identifier of such a channel. *)
Theorem C50_channel_set_refuted :
  readselectionsfile Strict [] (Some (zs "IU ANMO 00 [BL]HZ")) =
    Ok ([{| s_pat := zs "FDSN:IU_ANMO_00_[BL]HZ"; s_win := [(NSTUNSET, NSTUNSET)]; s_ver := 0 |}], 1) /\
  matchselect [{| s_pat := zs "FDSN:IU_ANMO_00_[BL]HZ"; s_win := [(NSTUNSET, NSTUNSET)]; s_ver := 0 |}] (zs "FDSN:IU_ANMO_00_B_H_Z") 0 1 1 = Ok None.
Proof. split; vm_compute; reflexivity. Qed.
Print Assumptions C50_channel_set_refuted.

(** C50 fails for a source identifier with two dates and a version that is no number: the
    fields are taken for four codes. *)
Theorem C50_version_text_refuted :
  readselectionsfile Strict [] (Some (zs "A 2010-01-01 2010-01-02 x")) =
    Ok ([{| s_pat := zs "FDSN:A_2010-01-01_2010-01-02_x"; s_win := [(1262304000000000000, 1262390400000000000)]; s_ver := 0 |}], 1).
Proof. vm_compute. reflexivity. Qed.
Print Assumptions C50_version_text_refuted.

(** C50 fails for a date with a sign before the fraction, where reading it is undefined. *)
Theorem C50_fraction_sign_refuted : readselectionsfile Strict [] (Some (zs "* 2000-01-01T00:00:00-0.5")) = UB SignedOverflow.
Proof. vm_compute. reflexivity. Qed.
Print Assumptions C50_fraction_sign_refuted.
