(** * C46: leap second files, and C41 with the list of a file. *)

From Coq Require Import String.
From Verif Require Import Base SampleModel SampleSpec LeapModel LeapSpec LeapProof TimeStrModel PropSample.
Open Scope Z_scope.

(** A file in NTP format becomes the list of its entries, in its order, whatever list was
    in use, what time it is and how overflow behaves; their number is returned. *)
Theorem C46_file : forall mode now old ls es last e,
  Forall2 states ls es -> Forall short_line ls -> states last e -> short_line last -> Z.of_nat (length ls) < 2 ^ 31 - 1 ->
  readleapsecondfile mode now old (Some (file_of ls last, false)) = Ok (entries (es ++ [e]), Z.of_nat (length (entries (es ++ [e])))).
Proof. exact file_ok. Qed.
Print Assumptions C46_file.

Definition sample_lines : list (list Z) :=
  [zs "#	Updated through IERS Bulletin C"; zs "#$	 3676924800"; zs "#@	3896899200"; zs "#"; [];
   zs "2272060800	10	# 1 Jan 1972"; zs "2287785600      11      # 1 Jul 1972"; zs "3692217600	37	# 1 Jan 2017"].
Ltac all_chars := repeat (apply Forall_cons; [cbn; lia|]); apply Forall_nil.
Ltac line_shape := first [ (split; [discriminate|all_chars]) | (unfold blanks; all_chars) | discriminate | (vm_compute; intros [? ?]; congruence) | (vm_compute; discriminate) | (vm_compute; reflexivity) | exact I ].
Example C46_instance :
  readleapsecondfile Strict 1700000000 [] (Some (file_of sample_lines [], false)) =
  Ok ([(63072000000000000, 10); (78796800000000000, 11); (1483228800000000000, 37)], 3).
Proof.
  apply (C46_file Strict 1700000000 [] sample_lines [None; None; None; None; None; Some (2272060800, 10); Some (2287785600, 11); Some (3692217600, 37)] [] None).
  - unfold sample_lines.
    constructor; [apply states_comment; vm_compute; discriminate|]. constructor; [apply states_comment; vm_compute; discriminate|].
    constructor; [apply (states_expiry (zs "	") (zs "3896899200") []); line_shape|].
    constructor; [apply (states_comment []); exact I|]. constructor; [apply states_empty|].
    constructor; [apply (states_entry [] (zs "2272060800") (zs "	") (zs "10") (zs "	# 1 Jan 1972")); line_shape|].
    constructor; [apply (states_entry [] (zs "2287785600") (zs "      ") (zs "11") (zs "      # 1 Jul 1972")); line_shape|].
    constructor; [apply (states_entry [] (zs "3692217600") (zs "	") (zs "37") (zs "	# 1 Jan 2017")); line_shape|]. constructor.
  - unfold sample_lines. repeat constructor; cbn; intuition discriminate.
  - constructor.
  - repeat constructor; cbn; intuition discriminate.
  - reflexivity.
Qed.

(** Whatever the file holds, reading ends. *)
Theorem C46_ends : forall mode now old file, readleapsecondfile mode now old file <> Fuel.
Proof. exact file_ends. Qed.
Print Assumptions C46_ends.

(** A file that cannot be opened and a variable that is not set leave the list alone. *)
Theorem C46_unreadable : forall mode now old, readleapsecondfile mode now old None = Ok (old, -1) /\ readleapseconds mode now old None = Ok (old, -2).
Proof. intros. split; reflexivity. Qed.
Print Assumptions C46_unreadable.

(** A file that opens but cannot be read (a directory) leaves no list at all, although the
    value returned says that nothing was read. *)
Theorem C46_error_refuted : forall mode now old, readleapsecondfile mode now old (Some ([], true)) = Ok ([], -1).
Proof. intros [] ? ?; reflexivity. Qed.
Print Assumptions C46_error_refuted.

(** A comment of more than 198 characters: what follows is read as a line of its own. *)
Theorem C46_long_comment_refuted : exists comment, hd 0 comment = 35 /\ ~ In 10 comment /\
  readleapsecondfile Strict 0 [] (Some (file_of [comment] [], false)) = Ok ([((2272060800 - 2208988800) * 1000000000, 10)], 1).
Proof.
  exists (35 :: repeat 32 197 ++ zs "2272060800 10"). split; [reflexivity|]. split; [|vm_compute; reflexivity].
  vm_compute. intuition discriminate.
Qed.
Print Assumptions C46_long_comment_refuted.

(** A number that does not fit is undefined behaviour. *)
Theorem C46_overflow_refuted : forall now, readleapsecondfile Strict now [] (Some (file_of [zs "11432360837 37"] [], false)) = UB SignedOverflow /\
  forall mode, readleapsecondfile mode now [] (Some (file_of [zs "99999999999999999999 37"] [], false)) = UB SignedOverflow.
Proof. intros now. split; [vm_compute; reflexivity|]. intros []; vm_compute; reflexivity. Qed.
Print Assumptions C46_overflow_refuted.

(** ** C41 with the list of a file: the time of the last sample is moved by the second
    that the file lists inside the record. *)
Theorem C41_file : forall mode now old ls es last e leaps count t n rate q,
  Forall2 states ls es -> Forall short_line ls -> states last e -> short_line last -> Z.of_nat (length ls) < 2 ^ 31 - 1 ->
  readleapsecondfile mode now old (Some (file_of ls last, false)) = Ok (leaps, count) ->
  dval rate = DFin q -> Qnum q <> 0 -> 1 <= n < 2 ^ 63 ->
  (exact_span (n - 1) q <= inject_Z (2 ^ 61))%Q -> - 2 ^ 62 <= t <= 2 ^ 62 ->
  exists z, near_span z (exact_span (n - 1) q) /\
    (count_inside t z (map fst (entries (es ++ [e]))) <= 1 ->
     endtime mode (map fst leaps) t n rate = Ok (t + z - count_inside t z (map fst (entries (es ++ [e]))) * 1000000000)).
Proof.
  intros mode now old ls es last e leaps count t n rate q S G SL GL C R. rewrite (C46_file mode now old ls es last e S G SL GL C) in R.
  injection R as <- _. apply C41_endtime.
Qed.
Print Assumptions C41_file.
(** The file above and a record across the last of its leap seconds. *)
Example C41_file_instance : match readleapsecondfile Strict 1700000000 [] (Some (file_of sample_lines [], false)) with
  | Ok (leaps, 3) => endtime Strict (map fst leaps) 1483228799500000000 300 0x4059000000000000 = Ok (1483228802490000000 - 1000000000)
  | _ => False
  end.
Proof. rewrite C46_instance. vm_compute. reflexivity. Qed.
