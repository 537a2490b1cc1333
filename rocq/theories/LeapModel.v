(** * Reading a leap second list (libmseed/genutils.c:1699-1853).

    A file is its bytes and whether reading it ends with an error; [None] is a file that
    cannot be opened.  The list is kept as pairs of leapsecond and TAIdelta. *)

From Verif Require Export Base TimeModel TimeStrModel CliModel.
Open Scope Z_scope.

(** NTPPOSIXEPOCHDELTA, genutils.c:75. *)
Definition NTPDELTA : Z := 2208988800.

(** MS_EPOCH2NSTIME (X - NTPPOSIXEPOCHDELTA), genutils.c:76 and libmseed.h:244. *)
Definition ntp2nstime (mode : ovmode) (x : Z) : res Z :=
  let! e := sarith mode 64 (x - NTPDELTA) in sarith mode 64 (e * 1000000000).

(** One line without its newline, genutils.c:1780-1838.  [now] is time (NULL), which decides
    whether a warning with the date of expiry is made. *)
Definition leap_line (mode : ovmode) (now : Z) (line : list Z) : res (option (Z * Z)) :=
  match line with
  | [] => Ok None
  | 35 :: 64 :: s =>
    let! r := scan_int 64 s in
    match r with
    | None => Ok None
    | Some (x, _) =>
      let! e := sarith mode 64 (x - NTPDELTA) in
      if e <? now then
        let! t := sarith mode 64 (e * 1000000000) in
        let! _ := nstime2timestr t ISOMONTHDAY NONE in Ok None
      else Ok None
    end
  | 35 :: _ => Ok None
  | _ =>
    let! (fields, _) := sscanf [Dint 64; Dint 32] line [] in
    match fields with
    | [x; delta] => let! t := ntp2nstime mode x in Ok (Some (t, delta))
    | _ => Ok None
    end
  end.

(** The loop of genutils.c:1771-1839 over the lines fgets returns (at most 198
    characters of a buffer of 200).  [fuel] bounds the calls of fgets. *)
Fixpoint leap_loop (fuel : nat) (mode : ovmode) (now : Z) (content : list Z) : res (list (Z * Z)) :=
  match content with
  | [] => Ok []
  | _ =>
    match fuel with
    | O => Fuel
    | S fuel =>
      let (buf, rest) := fgets 198 content in
      let! e := leap_line mode now (until 10 (until 0 buf)) in
      let! more := leap_loop fuel mode now rest in
      Ok (match e with Some x => x :: more | None => more end)
    end
  end.

(** ms_readleapsecondfile, genutils.c:1729-1853: the new list and the value returned.
    The list in use before is dropped as soon as the file is open. *)
Definition readleapsecondfile (mode : ovmode) (now : Z) (old : list (Z * Z)) (file : option (list Z * bool))
  : res (list (Z * Z) * Z) :=
  match file with
  | None => Ok (old, -1)
  | Some (content, failed) =>
    let! l := leap_loop (length content) mode now content in
    let! count := sarith mode 32 (Z.of_nat (length l)) in
    Ok (l, if failed then -1 else count)
  end.

(** ms_readleapseconds, genutils.c:1699-1711: [env] is the file the variable names. *)
Definition readleapseconds (mode : ovmode) (now : Z) (old : list (Z * Z)) (env : option (option (list Z * bool)))
  : res (list (Z * Z) * Z) :=
  match env with
  | None => Ok (old, -2)
  | Some file => readleapsecondfile mode now old file
  end.
