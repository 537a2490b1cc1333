(** * The logging facility (libmseed/logging.c).

    A C string is the list of its bytes without the terminator.  The text a format and
    its arguments stand for is an argument ([None]: the conversion fails).  Printing
    functions supplied by the caller and the streams are modelled by the list of what is
    handed to them.  Allocation succeeds. *)

From Verif Require Export Base.
Open Scope Z_scope.

Definition MAX_LOG_MSG_LENGTH : Z := 200.   (* libmseed.h:1106 *)
Definition FUNCTION_SIZE : Z := 30.         (* libmseed.h:1114 *)
Definition NL : Z := 10.

(** MSLogEntry, libmseed.h:1111-1117 *)
Record entry := mk_entry { e_level : Z; e_function : list Z; e_message : list Z }.

(** MSLogParam with its MSLogRegistry, libmseed.h:1122-1148; the list of messages from
    the head of the chain.  [a_log], [a_diag]: a printing function is set.  [a_memory]:
    libmseed_memory has been given allocation functions other than the C library's. *)
Record params := mk_params {
  a_mode : ovmode; a_memory : bool; a_log : bool; a_diag : bool;
  a_logprefix : option (list Z); a_errprefix : option (list Z);
  a_max : Z; a_cnt : Z; a_msgs : list entry }.

Definition with_registry (p : params) (cnt : Z) (ms : list entry) : params :=
  mk_params (a_mode p) (a_memory p) (a_log p) (a_diag p) (a_logprefix p) (a_errprefix p) (a_max p) cnt ms.

(** What is printed: through the diagnostic or the log channel. *)
Inductive shown := Diag (s : list Z) | Log (s : list Z).

(** ** C library functions *)

(** The bytes up to the first NUL. *)
Fixpoint cstr (b : list Z) : list Z :=
  match b with
  | [] => []
  | c :: b' => if c =? 0 then [] else c :: cstr b'
  end.

(** A checked write of bytes at an offset. *)
Definition put (off : Z) (s b : list Z) : res (list Z) :=
  if (0 <=? off) && (off + Z.of_nat (length s) <=? Z.of_nat (length b))
  then Ok (firstn (Z.to_nat off) b ++ s ++ skipn (Z.to_nat off + length s) b)
  else UB OOBWrite.

(** [strncpy (b + off, s, n)]: [n] bytes are written, NULs after the end of [s]. *)
Definition strncpy (off : Z) (s : list Z) (n : Z) (b : list Z) : res (list Z) :=
  put off (firstn (Z.to_nat n) (s ++ repeat 0 (Z.to_nat n))) b.

(** [vsnprintf (b + off, n, ...)] of a text of bytes: what fits with a terminator is
    written, the length of the text is returned; a failing conversion or a length that is
    not an int returns a negative value. *)
Definition vsnprintf (off n : Z) (text : option (list Z)) (b : list Z) : res (Z * list Z) :=
  match text with
  | None => Ok (-1, b)
  | Some t =>
    if 2 ^ 31 <=? Z.of_nat (length t) then Ok (-1, b)
    else if n <=? 0 then Ok (Z.of_nat (length t), b)
    else let! b' := put off (firstn (Z.to_nat (n - 1)) t ++ [0]) b in Ok (Z.of_nat (length t), b')
  end.

(** ** Registry *)

(** free of memory obtained from libmseed_memory.malloc. *)
Definition release (p : params) : res unit := if a_memory p then UB BadFree else Ok tt.

(** The loop of add_message_int, logging.c:446-460, from the entry numbered [count]: the
    entries that stay reachable. *)
Fixpoint trim (p : params) (count : Z) (ms : list entry) : res (list entry) :=
  match ms with
  | [] => Ok []
  | m :: ms' =>
    let! count' := sarith (a_mode p) 32 (count + 1) in
    let! _ := if a_max p <? count' then release p else Ok tt in
    let! rest := trim p count' ms' in
    Ok (if a_max p <? count' then rest else if count' =? a_max p then [m] else m :: rest)
  end.

(** add_message_int, logging.c:403-464 (not the NULL checks). *)
Definition add_message (p : params) (function : option (list Z)) (level : Z) (message : list Z) : res params :=
  let! f := match function with
            | Some s => let! b := strncpy 0 s FUNCTION_SIZE (repeat 0 (Z.to_nat FUNCTION_SIZE)) in
                        let! b := put (FUNCTION_SIZE - 1) [0] b in Ok (cstr b)
            | None => Ok []
            end in
  let! b := strncpy 0 message MAX_LOG_MSG_LENGTH (repeat 0 (Z.to_nat MAX_LOG_MSG_LENGTH)) in
  let! b := put (MAX_LOG_MSG_LENGTH - 1) [0] b in
  let ms := mk_entry level f (cstr b) :: a_msgs p in
  let! cnt := sarith (a_mode p) 32 (a_cnt p + 1) in
  if a_max p <? cnt then let! ms' := trim p 0 ms in Ok (with_registry p cnt ms')
  else Ok (with_registry p cnt ms).

(** print_message_int, logging.c:476-505 *)
Definition print_message (p : params) (level : Z) (message terminator : list Z) : list shown :=
  if 1 <=? level then [Diag (if a_diag p then message else message ++ terminator)]
  else if level =? 0 then [Log (if a_log p then message else message ++ terminator)]
  else [].

(** ** Logging *)

(** "Error: " *)
Definition default_errprefix : list Z := [69; 114; 114; 111; 114; 58; 32].

(** The prefix of a level, and whether strncpy is called; logging.c:318-328, 338-342,
    353-357. *)
Definition prefix_of (p : params) (level : Z) : option (list Z) :=
  if 2 <=? level then match a_errprefix p with Some s => Some s | None => Some default_errprefix end
  else a_logprefix p.

(** rlog_int, logging.c:299-388, with [junk] the contents of the uninitialised buffer. *)
Definition rlog (p : params) (function : option (list Z)) (level : Z) (text : option (list Z)) (junk : list Z) : res (Z * list shown * params) :=
  let! b := put 0 [0] junk in
  let! (printed, presize, b) :=
    if 0 <=? level then
      let! b := match prefix_of p level with
                | Some s => let! b := strncpy 0 s MAX_LOG_MSG_LENGTH b in put (MAX_LOG_MSG_LENGTH - 1) [0] b
                | None => Ok b
                end in
      let presize := Z.of_nat (length (cstr b)) in
      let! (n, b) := vsnprintf presize (MAX_LOG_MSG_LENGTH - presize) text b in
      let! b := put (MAX_LOG_MSG_LENGTH - 1) [0] b in
      Ok (n, presize, b)
    else Ok (0, 0, b) in
  let! printed := sarith (a_mode p) 32 (printed + presize) in
  if (1 <=? level) && (0 <? a_max p) then
    let! c := getZ (printed - 1) b in
    let! (printed, b) := if c =? NL then let! b := put (printed - 1) [0] b in Ok (printed - 1, b) else Ok (printed, b) in
    let! p' := add_message p function level (cstr b) in
    Ok (printed, [], p')
  else Ok (printed, print_message p level (cstr b) [], p).

(** The two texts of rloginit_int and its name. *)
Definition log_too_large : list Z := [108;111;103;32;109;101;115;115;97;103;101;32;112;114;101;102;105;120;32;105;115;32;116;111;111;32;108;97;114;103;101].
Definition err_too_large : list Z := [101;114;114;111;114;32;109;101;115;115;97;103;101;32;112;114;101;102;105;120;32;105;115;32;116;111;111;32;108;97;114;103;101].
Definition rloginit_name : list Z := [114;108;111;103;105;110;105;116;95;105;110;116].

Definition set_log (p : params) (s : list Z) : params :=
  mk_params (a_mode p) (a_memory p) (a_log p) (a_diag p) (Some s) (a_errprefix p) (a_max p) (a_cnt p) (a_msgs p).
Definition set_err (p : params) (s : list Z) : params :=
  mk_params (a_mode p) (a_memory p) (a_log p) (a_diag p) (a_logprefix p) (Some s) (a_max p) (a_cnt p) (a_msgs p).
Definition set_max (p : params) (n : Z) : params :=
  mk_params (a_mode p) (a_memory p) (a_log p) (a_diag p) (a_logprefix p) (a_errprefix p) n (a_cnt p) (a_msgs p).
Definition set_print (p : params) (l d : bool) : params :=
  mk_params (a_mode p) (a_memory p) (a_log p || l) (a_diag p || d) (a_logprefix p) (a_errprefix p) (a_max p) (a_cnt p) (a_msgs p).

(** rloginit_int, logging.c:174-221; [l], [d]: printing functions are passed. *)
Definition rloginit (p : params) (l : bool) (logprefix : option (list Z)) (d : bool) (errprefix : option (list Z)) (maxmessages : Z) (junk : list Z) : res (list shown * params) :=
  let p := set_print p l false in
  let! (o1, p) := match logprefix with
                  | Some s => if MAX_LOG_MSG_LENGTH <=? Z.of_nat (length s)
                              then let! (_, o, p) := rlog p (Some rloginit_name) 2 (Some log_too_large) junk in Ok (o, p)
                              else Ok ([], set_log p s)
                  | None => Ok ([], p)
                  end in
  let p := set_print p false d in
  let! (o2, p) := match errprefix with
                  | Some s => if MAX_LOG_MSG_LENGTH <=? Z.of_nat (length s)
                              then let! (_, o, p) := rlog p (Some rloginit_name) 2 (Some err_too_large) junk in Ok (o, p)
                              else Ok ([], set_err p s)
                  | None => Ok ([], p)
                  end in
  Ok (o1 ++ o2, if 0 <=? maxmessages then set_max p maxmessages else p).

(** ** Emitting and clearing *)

(** The first loop of ms_rlog_emit, logging.c:547-561: what is left in the registry and
    the print list. *)
Fixpoint pop (emit : Z) (ms printlist : list entry) : list entry * list entry :=
  match ms with
  | [] => ([], printlist)
  | m :: ms' => if emit =? 0 then (ms, printlist)
                else pop (if 0 <? emit then emit - 1 else emit) ms' (m :: printlist)
  end.

(** The message of an entry, logging.c:567-580. *)
Definition emitted (context : bool) (e : entry) : res (list Z) :=
  if context && negb (match e_function e with [] => true | _ => false end) then
    let text := e_function e ++ [40; 41; 32] ++ firstn (Z.to_nat (MAX_LOG_MSG_LENGTH - FUNCTION_SIZE - 3)) (e_message e) in
    let! (_, b) := vsnprintf 0 MAX_LOG_MSG_LENGTH (Some text) (repeat 0 (Z.to_nat MAX_LOG_MSG_LENGTH)) in
    Ok (cstr b)
  else Ok (e_message e).

(** The second loop, logging.c:564-587. *)
Fixpoint print_list (p : params) (context : bool) (ms : list entry) : res (list shown) :=
  match ms with
  | [] => Ok []
  | m :: ms' =>
    let! s := emitted context m in
    let! _ := release p in
    let! rest := print_list p context ms' in
    Ok (print_message p (e_level m) s [NL] ++ rest)
  end.

(** ms_rlog_emit, logging.c:536-590 *)
Definition rlog_emit (p : params) (count : Z) (context : bool) : res (Z * list shown * params) :=
  let emit := if 0 <? count then count else -1 in
  let (left, printlist) := pop emit (a_msgs p) [] in
  let! o := print_list p context printlist in
  Ok (0, o, with_registry p (a_cnt p) left).

(** ms_rlog_free, logging.c:601-624: the number freed. *)
Fixpoint free_all (p : params) (freed : Z) (ms : list entry) : res Z :=
  match ms with
  | [] => Ok freed
  | m :: ms' => let! freed' := sarith (a_mode p) 32 (freed + 1) in let! _ := release p in free_all p freed' ms'
  end.
Definition rlog_free (p : params) : res (Z * params) :=
  let! n := free_all p 0 (a_msgs p) in Ok (n, with_registry p (a_cnt p) []).

(** ** Histories *)

Inductive op :=
| OLog (function : option (list Z)) (level : Z) (text : option (list Z)) (junk : list Z)
| OEmit (count : Z) (context : bool)
| OFree
| OInit (l : bool) (logprefix : option (list Z)) (d : bool) (errprefix : option (list Z)) (maxmessages : Z) (junk : list Z).

(** One call: the value returned, what is printed and the new parameters. *)
Definition step (p : params) (o : op) : res (Z * list shown * params) :=
  match o with
  | OLog f l t j => rlog p f l t j
  | OEmit n c => rlog_emit p n c
  | OFree => let! (n, p') := rlog_free p in Ok (n, [], p')
  | OInit l lp d ep n j => let! (s, p') := rloginit p l lp d ep n j in Ok (0, s, p')
  end.

Fixpoint run (p : params) (os : list op) : res (list (Z * list shown) * params) :=
  match os with
  | [] => Ok ([], p)
  | o :: os' => let! (r, s, p') := step p o in let! (l, p'') := run p' os' in Ok ((r, s) :: l, p'')
  end.

(** MSLogParam_INITIALIZER, libmseed.h:1152-1157 *)
Definition log_init (m : ovmode) (memory : bool) : params := mk_params m memory false false None None 0 0 [].
