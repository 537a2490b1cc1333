(** * Property C37: the message registry. *)

From Verif Require Import Base LogModel LogSpec LogProof.
Open Scope Z_scope.

(** Every history of logging, emitting, clearing and setting calls from the initial state,
    in which a retained message has between 1 and 200 bytes and fewer than 2^31 messages
    are logged: no undefined behaviour, what each call returns and prints is what the book
    of LogSpec says, and the registry is the book's messages, the newest first. *)
Theorem C37_histories_partial : forall m os, all_allowed book0 os -> additions os < 2 ^ 31 ->
  exists p', run (log_init m false) os = Ok (fst (history book0 os), p')
    /\ a_max p' = b_max (snd (history book0 os)) /\ a_msgs p' = rev (b_kept (snd (history book0 os))).
Proof. exact histories. Qed.
Print Assumptions C37_histories_partial.

(** After any sequence of retained messages the registry holds the newest ones, up to the
    maximum, and nothing has been printed. *)
Theorem C37_newest_partial : forall p b cs, represents p b -> Z.of_nat (length (b_kept b)) <= b_max b ->
  Forall (fun c => 1 <= c_level c) cs -> 0 < b_max b ->
  Forall (fun c => names (c_function c) /\ loggable b (c_level c) (c_text c) /\ buffer (c_junk c)) cs ->
  a_cnt p + Z.of_nat (length cs) < 2 ^ 31 ->
  exists outs p', run p (map log_call cs) = Ok (outs, p') /\ Forall (fun o => snd o = []) outs
    /\ a_msgs p' = firstn (Z.to_nat (b_max b)) (rev (b_kept b ++ map (entry_of b) cs)).
Proof. exact newest. Qed.
Print Assumptions C37_newest_partial.

(** Emitting prints the newest messages asked for (all for a count of zero or less), the
    earliest of them first, and removes them. *)
Theorem C37_emit : forall p b n c, represents p b ->
  exists p' k, rlog_emit p n c = Ok (0, concat (map (fun e => channel b (e_level e) (line c e) [10]) (rev (firstn k (a_msgs p)))), p')
    /\ a_msgs p' = skipn k (a_msgs p) /\ k = (if 0 <? n then Z.to_nat n else length (a_msgs p)) /\ represents p' (with_kept b (rev (a_msgs p'))).
Proof. exact emitting. Qed.
Print Assumptions C37_emit.

(** Clearing removes all and returns their number. *)
Theorem C37_clear : forall p b, represents p b -> a_cnt p < 2 ^ 31 ->
  exists p', rlog_free p = Ok (Z.of_nat (length (a_msgs p)), p') /\ a_msgs p' = [] /\ represents p' (with_kept b []).
Proof. exact clearing. Qed.
Print Assumptions C37_clear.

(** A message that is not retained may have any length: it is cut to the buffer and
    printed. *)
Theorem C37_direct : forall p b f level t junk, represents p b -> names f -> plain_text t -> Z.of_nat (length t) < 2 ^ 30 -> buffer junk ->
  a_cnt p + 1 < 2 ^ 31 -> retains b level = false -> 0 <= level ->
  rlog p f level (Some t) junk = Ok (Z.of_nat (length (whole b level t)), channel b level (firstn 199 (whole b level t)) [], p).
Proof. exact direct. Qed.
Print Assumptions C37_direct.

(** A retained message of more than 200 bytes: the newline is looked for outside the
    buffer. *)
Theorem C37_long_message : forall p b f level t junk, represents p b -> plain_text t -> Z.of_nat (length t) < 2 ^ 30 -> buffer junk ->
  retains b level = true -> 200 < Z.of_nat (length (whole b level t)) -> rlog p f level (Some t) junk = UB OOBRead.
Proof. exact long_message. Qed.
Print Assumptions C37_long_message.

(** Three messages with a maximum of two; then one emitted with its function. *)
Definition buf : list Z := repeat 0 200.
Definition init2 : op := OInit false None false None 2 buf.
Definition say (s : list Z) : op := OLog (Some [102]) 1 (Some s) buf.
Example C37_instance :
  all_allowed book0 [init2; say [65; 10]; say [66]; say [67]; OEmit 1 true; OEmit 0 false; say [68]; OFree]
  /\ run (log_init Strict false) [init2; say [65; 10]; say [66]; say [67]; OEmit 1 true; OEmit 0 false; say [68]; OFree]
     = Ok ([(0, []); (1, []); (1, []); (1, []); (0, [Diag [102; 40; 41; 32; 67; 10]]); (0, [Diag [66; 10]]); (1, []); (1, [])],
           mk_params Strict false false false None None 2 4 []).
Proof.
  split; [|vm_compute; reflexivity].
  cbn -[Z.pow]. unfold names, loggable, buffer, prefix_allowed, plain_text. cbn -[Z.pow].
  repeat split; try (intros; discriminate); try lia; try reflexivity; repeat constructor; try discriminate;
    intros s [= <-]; repeat constructor; discriminate.
Qed.
(** The parameters meant in the other theorems, and a long direct message. *)
Example C37_state_instance :
  represents (mk_params Strict false true true (Some [88]) None 2 1 [mk_entry 2 [102] [65]]) (mk_book true true [88] default_errprefix 2 [mk_entry 2 [102] [65]])
  /\ rlog (log_init Strict false) None 1 (Some (repeat 65 300)) buf = Ok (300, [Diag (repeat 65 199)], log_init Strict false)
  /\ retains (mk_book true true [88] default_errprefix 2 []) 2 = true
  /\ 200 < Z.of_nat (length (whole (mk_book true true [88] default_errprefix 2 []) 2 (repeat 65 194))).
Proof.
  split; [|vm_compute; repeat split; reflexivity].
  unfold represents, good_prefix, plain_text. cbn -[Z.pow]. repeat split; try lia; repeat constructor; discriminate || (cbn; lia).
Qed.

(** "Logging never writes outside its message buffer": a retained error message of 201
    bytes makes the code look at, and perhaps replace, the byte after the buffer. *)
Theorem C37_long_refuted : exists t, Z.of_nat (length t) = 194 /\ plain_text t
  /\ run (log_init Strict false) [init2; OLog None 2 (Some t) buf] = UB OOBRead.
Proof. exists (repeat 65 194). split; [reflexivity|]. split; [repeat constructor; discriminate|vm_compute; reflexivity]. Qed.
Print Assumptions C37_long_refuted.
(** An empty message without a prefix makes it look at the byte before the buffer. *)
Theorem C37_empty_refuted : run (log_init Strict false) [init2; OLog None 1 (Some []) buf] = UB OOBRead.
Proof. vm_compute. reflexivity. Qed.
Print Assumptions C37_empty_refuted.
(** "Exactly the most recent messages up to the maximum after any sequence": the counter
    of messages is never decreased; after 2^31 messages it overflows, and with wrap-around
    the registry then holds more than the maximum. *)
Theorem C37_counter_refuted :
  (exists os, run (log_init Strict false) os = UB SignedOverflow)
  /\ (exists os outs p', run (log_init Wrap false) os = Ok (outs, p') /\ a_max p' = 1 /\ length (a_msgs p') = 2%nat).
Proof. split; [eexists; exact many_strict|eexists; exact many_wrap]. Qed.
Print Assumptions C37_counter_refuted.
(** Lowering the maximum does not remove messages until the next one is logged. *)
Theorem C37_lowered_refuted : exists outs p',
  run (log_init Strict false) [init2; say [65]; say [66]; OInit false None false None 1 buf] = Ok (outs, p') /\ a_max p' = 1 /\ length (a_msgs p') = 2%nat.
Proof. do 2 eexists. vm_compute. repeat split; reflexivity. Qed.
Print Assumptions C37_lowered_refuted.
(** Messages are allocated with the functions of libmseed_memory and freed with the C
    library's: with other allocation functions emitting, clearing and exceeding the
    maximum free foreign memory. *)
Theorem C37_memory_refuted :
  run (log_init Strict true) [init2; say [65]; OEmit 0 false] = UB BadFree
  /\ run (log_init Strict true) [init2; say [65]; OFree] = UB BadFree
  /\ run (log_init Strict true) [init2; say [65]; say [66]; say [67]] = UB BadFree.
Proof. vm_compute. repeat split; reflexivity. Qed.
Print Assumptions C37_memory_refuted.
