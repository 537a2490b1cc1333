(** * Model of the inspector's command line and main loop (src/msi.c). *)

From Verif Require Import Base GlobModel TimeModel SelModel.
Open Scope Z_scope.

(** ** Records and files as the reader delivers them *)

(** The fields main() uses: sid, starttime, msr3_endtime(msr), samplecnt and the record
    bytes. *)
Record crec : Type := { c_sid : list Z; c_start : Z; c_end : Z; c_cnt : Z; c_bytes : list Z }.
(** The records ms3_readmsr_r returns for a file before its first other return code, and
    that code (1 is MS_ENDOFFILE). *)
Record cfile : Type := { f_recs : list crec; f_ret : Z }.

(** The static settings, msi.c:33-58: limits (NSTERROR: none), wrapped patterns. *)
Record settings : Type := { o_ts : Z; o_te : Z; o_match : option (list Z); o_reject : option (list Z) }.

(** ** Filters, msi.c:158-213: [true] when no [continue] is reached *)

Definition time_keeps (ts te st en : Z) : bool :=
  if negb (ts =? NSTERROR) || negb (te =? NSTERROR) then
    if negb (ts =? NSTERROR) && ((st <? ts) && negb ((st <=? ts) && (ts <=? en))) then false
    else if negb (te =? NSTERROR) && ((te <? en) && negb ((st <=? te) && (te <=? en))) then false
    else true
  else true.

Definition keeps (o : settings) (r : crec) : res bool :=
  if negb (time_keeps (o_ts o) (o_te o) (c_start r) (c_end r)) then Ok false else
  let! m := match o_match o with None => Ok true | Some p => my_globmatch (c_sid r) p end in
  if negb m then Ok false else
  let! x := match o_reject o with None => Ok false | Some p => my_globmatch (c_sid r) p end in
  Ok (negb x).

(** ** The loops over files and records, msi.c:147-347 *)

(** What has been done: the records passed to printing, trace list and data output
    ([st_done], in order), reccntdown, the totals and the bytes written by -o. *)
Record mstate : Type :=
  { st_done : list crec; st_left : Z; st_recs : Z; st_samps : Z; st_files : Z; st_out : list Z }.

(** msi.c:215-332 for one record that passed *)
Definition process (s : mstate) (r : crec) : res mstate :=
  let! n := sarith Strict 64 (st_recs s + 1) in
  let! m := sarith Strict 64 (st_samps s + c_cnt r) in
  Ok {| st_done := st_done s ++ [r];
        st_left := if 0 <? st_left s then st_left s - 1 else st_left s;
        st_recs := n; st_samps := m; st_files := st_files s;
        st_out := st_out s ++ c_bytes r |}.

(** msi.c:153-333: reads until the count is used up or the reader returns another code. *)
Fixpoint file_loop (o : settings) (rs : list crec) (s : mstate) : res mstate :=
  if st_left s =? 0 then Ok s else
  match rs with
  | [] => Ok s
  | r :: rest =>
    let! k := keeps o r in
    if k then let! s := process s r in file_loop o rest s else file_loop o rest s
  end.

(** msi.c:147-347: [Err 1] is not used; the flag says that exit (1) was reached, in which
    case nothing more is printed. *)
Fixpoint files_loop (o : settings) (fs : list cfile) (s : mstate) : res (mstate * bool) :=
  match fs with
  | [] => Ok (s, false)
  | f :: rest =>
    let! s := file_loop o (f_recs f) s in
    if negb (f_ret f =? 1) && negb (st_left s =? 0) then Ok (s, true)
    else
      let! n := sarith Strict 64 (st_files s + 1) in
      files_loop o rest {| st_done := st_done s; st_left := st_left s; st_recs := st_recs s;
                           st_samps := st_samps s; st_files := n; st_out := st_out s |}
  end.

Definition run (o : settings) (n : Z) (fs : list cfile) : res (mstate * bool) :=
  files_loop o fs {| st_done := []; st_left := n; st_recs := 0; st_samps := 0; st_files := 0; st_out := [] |}.

(** ** List files, msi.c:769-813 *)

(** fgets (buf, n, fp): at most [n - 1] characters, through the first newline. *)
Fixpoint fgets (k : nat) (content : list Z) : list Z * list Z :=
  match k, content with
  | O, _ => ([], content)
  | _, [] => ([], [])
  | S k, c :: rest =>
    if c =? 10 then ([c], rest) else let (a, b) := fgets k rest in (c :: a, b)
  end.

(** The C string in a buffer: up to the first zero byte. *)
Fixpoint until (x : Z) (l : list Z) : list Z :=
  match l with [] => [] | c :: l' => if c =? x then [] else c :: until x l' end.

(** The names passed to addfile, in order.  [fuel] bounds the calls of fgets; each takes a
    character, so the length is enough. *)
Fixpoint list_loop (fuel : nat) (content : list Z) : res (list (list Z)) :=
  match content with
  | [] => Ok []
  | _ =>
    match fuel with
    | O => Fuel
    | S fuel =>
      let (buf, rest) := fgets 1023 content in
      let ent := until 10 (until 0 buf) in
      let! more := list_loop fuel rest in
      match ent with
      | [] => Ok more
      | c :: _ => if c =? 35 then Ok more else Ok (ent :: more)
      end
    end
  end.
Definition addlistfile (content : list Z) : res (list (list Z)) := list_loop (length content) content.

(** ** Option values *)

Definition isdigit (c : Z) : bool := (48 <=? c) && (c <=? 57).

(** lisnumber, msi.c:689-711 *)
Definition lisnumber (s : list Z) : bool :=
  match s with
  | [] => true
  | c :: s' => if c =? 45 then forallb isdigit s' else forallb isdigit s
  end.

Definition opt_o := [45; 111].
Definition opt_gmin := [45; 103; 109; 105; 110].
Definition opt_gmax := [45; 103; 109; 97; 120].

(** getoptval, msi.c:653-680: the value of option [opt] given the arguments after it;
    [None]: exit (1).  A missing argument is [[]]; the first character of an empty
    string is its terminator, not '-'. *)
Definition getoptval (opt : list Z) (after : list (list Z)) : option (list Z) :=
  match after with
  | [] => None
  | v :: _ =>
    if text_eqb opt opt_o && text_eqb v [45] then Some v
    else if (text_eqb opt opt_gmin || text_eqb opt opt_gmax) && lisnumber v then Some v
    else match v with
         | c :: _ => if c =? 45 then None else Some v
         | [] => Some v
         end
  end.

(** ** The argument loop of processparam, msi.c:397-576 *)

(** The options taking a value, in a build without URL support: -ts -te -m -r -n -tt -rt
    -gmin -gmax -tf -b -o. *)
Definition value_options : list (list Z) :=
  [ [45; 116; 115]; [45; 116; 101]; [45; 109]; [45; 114]; [45; 110]; [45; 116; 116]; [45; 114; 116];
    opt_gmin; opt_gmax; [45; 116; 102]; [45; 98]; opt_o ].
(** The others compared whole: -snd -O -L -s -d -D -z -t -T -tg -g -G -S -Q -P. *)
Definition flag_options : list (list Z) :=
  [ [45; 115; 110; 100]; [45; 79]; [45; 76]; [45; 115]; [45; 100]; [45; 68]; [45; 122]; [45; 116]; [45; 84];
    [45; 116; 103]; [45; 103]; [45; 71]; [45; 83]; [45; 81]; [45; 80] ].

Definition mem_text (a : list Z) (l : list (list Z)) : bool := existsb (text_eqb a) l.
Definition starts2 (a b : Z) (s : list Z) : bool :=
  match s with x :: y :: _ => (x =? a) && (y =? b) | _ => false end.

Inductive event : Type :=
| EValue (opt v : list Z)   (* an option and its value *)
| EFlag (opt : list Z)      (* an option without value, including -v... and -p... *)
| EList (name : list Z)     (* @name *)
| EFile (name : list Z).
Inductive args_end : Type := AEnd | AVersion | AHelp | ANoValue (opt : list Z) | AUnknown (opt : list Z).

(** The events in order and how the loop ends: [AVersion] and [AHelp] are exit (0),
    [ANoValue] and [AUnknown] exit (1).  [fuel]: the number of arguments. *)
Fixpoint args_loop (fuel : nat) (args : list (list Z)) : list event * args_end :=
  match fuel, args with
  | _, [] => ([], AEnd)
  | O, _ => ([], AEnd)
  | S fuel, a :: rest =>
    if text_eqb a [45; 86] then ([], AVersion)
    else if text_eqb a [45; 104] then ([], AHelp)
    else if starts2 45 118 a then let (e, x) := args_loop fuel rest in (EFlag a :: e, x)
    else if mem_text a value_options then
      match getoptval a rest with
      | None => ([], ANoValue a)
      | Some v => let (e, x) := args_loop fuel (tl rest) in (EValue a v :: e, x)
      end
    else if mem_text a flag_options || starts2 45 112 a then
      let (e, x) := args_loop fuel rest in (EFlag a :: e, x)
    else match a with
         | 45 :: _ :: _ => ([], AUnknown a)
         | 64 :: name => let (e, x) := args_loop fuel rest in (EList name :: e, x)
         | _ => let (e, x) := args_loop fuel rest in (EFile a :: e, x)
         end
  end.
Definition process_args (args : list (list Z)) : list event * args_end := args_loop (length args) args.
