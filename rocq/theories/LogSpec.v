(** * Specification notions for the logging facility. *)

From Verif Require Export Base LogModel.
Open Scope Z_scope.

(** The last [n] elements of a list, and the list without them. *)
Definition lastn {A} (n : Z) (l : list A) : list A := skipn (length l - Z.to_nat n) l.
Definition but_last {A} (n : Z) (l : list A) : list A := firstn (length l - Z.to_nat n) l.

(** A C string. *)
Definition plain_text (s : list Z) : Prop := Forall (fun c => c <> 0) s.
(** Without a trailing newline. *)
Fixpoint chomp (s : list Z) : list Z :=
  match s with
  | [] => []
  | c :: s' => match s' with [] => if c =? 10 then [] else [c] | _ => c :: chomp s' end
  end.

(** What the facility is to remember: the settings and the retained messages, the
    earliest first. *)
Record book := mk_book {
  b_log : bool; b_diag : bool; b_logprefix : list Z; b_errprefix : list Z; b_max : Z; b_kept : list entry }.

Definition prefix (b : book) (level : Z) : list Z := if 2 <=? level then b_errprefix b else b_logprefix b.
(** The whole message. *)
Definition whole (b : book) (level : Z) (t : list Z) : list Z := prefix b level ++ t.
(** Warnings and errors are retained when a maximum is set. *)
Definition retains (b : book) (level : Z) : bool := (1 <=? level) && (0 <? b_max b).

(** A message that can be logged: a retained message has between 1 and 200 bytes. *)
Definition loggable (b : book) (level : Z) (t : list Z) : Prop :=
  plain_text t /\ Z.of_nat (length t) < 2 ^ 30
  /\ (retains b level = true -> 1 <= Z.of_nat (length (whole b level t)) <= 200).

(** What is retained of a message. *)
Definition retained (function : option (list Z)) (level : Z) (m : list Z) : entry :=
  mk_entry level (match function with Some f => firstn 29 f | None => [] end) (firstn 199 (chomp m)).

(** What is handed to the printing functions; a line end is added when emitting without a
    printing function. *)
Definition channel (b : book) (level : Z) (s terminator : list Z) : list shown :=
  if level <? 0 then []
  else if level =? 0 then [Log (s ++ if b_log b then [] else terminator)]
  else [Diag (s ++ if b_diag b then [] else terminator)].

(** The message as emitted: with the function in front when asked for, and then at most
    167 bytes of the message. *)
Definition line (context : bool) (e : entry) : list Z :=
  match context, e_function e with
  | true, _ :: _ => e_function e ++ [40; 41; 32] ++ firstn 167 (e_message e)
  | _, _ => e_message e
  end.

Definition with_kept (b : book) (l : list entry) : book :=
  mk_book (b_log b) (b_diag b) (b_logprefix b) (b_errprefix b) (b_max b) l.

(** Logging; the value returned counts the bytes of the message, without a newline removed
    from inside the buffer. *)
Definition logged (b : book) (function : option (list Z)) (level : Z) (t : list Z) : Z * list shown * book :=
  let m := whole b level t in
  if retains b level
  then (Z.of_nat (length (if Nat.leb 200 (length m) then m else chomp m)), [], with_kept b (lastn (b_max b) (b_kept b ++ [retained function level m])))
  else if level <? 0 then (0, [], b)
  else (Z.of_nat (length m), channel b level (firstn 199 m) [], b).

(** Setting a prefix; one of 200 bytes or more is refused with an error message. *)
Definition prefix_set (b : book) (s : option (list Z)) (set : book -> list Z -> book) (text : list Z) : list shown * book :=
  match s with
  | None => ([], b)
  | Some s => if 200 <=? Z.of_nat (length s) then let '(_, o, b') := logged b (Some rloginit_name) 2 text in (o, b')
              else ([], set b s)
  end.
Definition set_logprefix (b : book) s := mk_book (b_log b) (b_diag b) s (b_errprefix b) (b_max b) (b_kept b).
Definition set_errprefix (b : book) s := mk_book (b_log b) (b_diag b) (b_logprefix b) s (b_max b) (b_kept b).
Definition set_printers (b : book) l d := mk_book (b_log b || l) (b_diag b || d) (b_logprefix b) (b_errprefix b) (b_max b) (b_kept b).

(** One operation: the value returned, what is printed, the new state. *)
Definition does (b : book) (o : op) : Z * list shown * book :=
  match o with
  | OLog f level (Some t) _ => logged b f level t
  | OLog f level None _ => (0, [], b)
  | OEmit n context =>
    let k := if n <=? 0 then Z.of_nat (length (b_kept b)) else n in
    (0, concat (map (fun e => channel b (e_level e) (line context e) [10]) (lastn k (b_kept b))), with_kept b (but_last k (b_kept b)))
  | OFree => (Z.of_nat (length (b_kept b)), [], with_kept b [])
  | OInit l lp d ep n _ =>
    let (o1, b1) := prefix_set (set_printers b l false) lp set_logprefix log_too_large in
    let (o2, b2) := prefix_set (set_printers b1 false d) ep set_errprefix err_too_large in
    (0, o1 ++ o2, if 0 <=? n then mk_book (b_log b2) (b_diag b2) (b_logprefix b2) (b_errprefix b2) n (b_kept b2) else b2)
  end.

Definition good_prefix (s : list Z) : Prop := plain_text s /\ Z.of_nat (length s) < 200.
Definition buffer (j : list Z) : Prop := length j = 200%nat.
Definition names (f : option (list Z)) : Prop := forall s, f = Some s -> plain_text s.

Definition prefix_allowed (b : book) (s : option (list Z)) (text : list Z) : Prop :=
  forall s', s = Some s' -> plain_text s' /\ (200 <= Z.of_nat (length s') -> loggable b 2 text).

(** The operations considered. *)
Definition allowed (b : book) (o : op) : Prop :=
  match o with
  | OLog f level (Some t) j => names f /\ loggable b level t /\ buffer j
  | OLog f level None j => False
  | OEmit _ _ | OFree => True
  | OInit l lp d ep n j =>
    buffer j /\ n < 2 ^ 31
    /\ prefix_allowed (set_printers b l false) lp log_too_large
    /\ prefix_allowed (set_printers (snd (prefix_set (set_printers b l false) lp set_logprefix log_too_large)) false d) ep err_too_large
  end.

(** Histories. *)
Fixpoint all_allowed (b : book) (os : list op) : Prop :=
  match os with
  | [] => True
  | o :: os' => allowed b o /\ all_allowed (snd (does b o)) os'
  end.
Fixpoint history (b : book) (os : list op) : list (Z * list shown) * book :=
  match os with
  | [] => ([], b)
  | o :: os' => let '(r, s, b') := does b o in let (l, b'') := history b' os' in ((r, s) :: l, b'')
  end.

(** Parameters that represent such a state. *)
Definition represents (p : params) (b : book) : Prop :=
  a_memory p = false /\ a_log p = b_log b /\ a_diag p = b_diag b
  /\ match a_logprefix p with Some s => s | None => [] end = b_logprefix b
  /\ match a_errprefix p with Some s => s | None => default_errprefix end = b_errprefix b
  /\ a_max p = b_max b /\ a_msgs p = rev (b_kept b)
  /\ good_prefix (b_logprefix b) /\ good_prefix (b_errprefix b)
  /\ 0 <= b_max b < 2 ^ 31 /\ Z.of_nat (length (b_kept b)) <= a_cnt p
  /\ Forall (fun e => 1 <= e_level e /\ plain_text (e_function e) /\ plain_text (e_message e) /\ Z.of_nat (length (e_function e)) <= 29) (b_kept b).

(** Messages at most an operation adds to the counter. *)
Definition adds (o : op) : Z := match o with OLog _ _ _ _ => 1 | OInit _ _ _ _ _ _ => 2 | _ => 0 end.
Fixpoint additions (os : list op) : Z := match os with [] => 0 | o :: os' => adds o + additions os' end.

(** The library's initial state. *)
Definition book0 : book := mk_book false false [] default_errprefix 0 [].

(** A call that logs a message, and the message retained. *)
Record call := mk_call { c_function : option (list Z); c_level : Z; c_text : list Z; c_junk : list Z }.
Definition log_call (c : call) : op := OLog (c_function c) (c_level c) (Some (c_text c)) (c_junk c).
Definition entry_of (b : book) (c : call) : entry := retained (c_function c) (c_level c) (whole b (c_level c) (c_text c)).
