(** * Reading data selections from a file (libmseed/selection.c:305-387, 428-647).

    A file is its bytes; reading stops at the first failure of fgets, whatever its cause,
    so an error of the stream is not told from its end.  [None] is a file that cannot be
    opened. *)

From Coq Require Import String.
From Verif Require Export Base GlobModel SelModel TimeModel TimeStrModel StrModel CliModel.
Open Scope Z_scope.

(** ms3_addselect_comp, selection.c:305-387, with all four codes given.  Each is copied to a
    buffer of 20 bytes; [None]: -1 is returned.  The buffers start zeroed here; the code
    reads no byte of them it has not written. *)
Definition selchan_glob : list Z := zs "[?*a-zA-Z0-9][?*a-zA-Z0-9][?*a-zA-Z0-9]".
Definition addselect_comp (sels : list sel) (net sta loc chan : list Z) (st en pv : Z) : res (option (list sel)) :=
  let selnet := firstn 19 net in
  let selsta := firstn 19 sta in
  let selloc := if text_eqb loc (zs "--") then [] else firstn 19 loc in
  let! three := ms_globmatch chan selchan_glob in
  let! selchan := (if three then
                     let! x := seedchan2xchan (cstr chan) (repeat 0 20) in Ok (until 0 x)
                   else Ok (firstn 19 chan)) in
  let! (pattern, n) := nslc2sid (repeat 0 100) 100 selnet selsta (Some selloc) selchan in
  if n <? 0 then Ok None else Ok (Some (addselect sels (until 0 pattern) st en pv)).

(** Whitespace at the end, selection.c:479-489.  For a line of whitespace the code steps to
    the byte before the buffer, without reading it. *)
Fixpoint trim_end (l : list Z) : list Z :=
  match l with
  | [] => []
  | c :: l' => match trim_end l' with [] => if is_space_char c then [] else [c] | t => c :: t end
  end.

(** The fields, selection.c:506-534: [acc] holds those ended, [cur] the one being read.  The
    loop stops where the eighth starts, which so has the rest of the line. *)
Fixpoint split_fields (l : list Z) (cur : option (list Z)) (acc : list (list Z)) : list (list Z) :=
  match l with
  | [] => match cur with Some w => acc ++ [w] | None => acc end
  | c :: l' =>
    if is_space_char c then
      match cur with Some w => split_fields l' None (acc ++ [w]) | None => split_fields l' None acc end
    else
      match cur with
      | Some w => split_fields l' (Some (w ++ [c])) acc
      | None => if (length acc =? 7)%nat then acc ++ [c :: l'] else split_fields l' (Some [c]) acc
      end
  end.

(** INITDATEGLOB, selection.c:537; ms_isinteger, 752-763. *)
Definition date_glob : list Z := zs "[0-9][0-9][0-9][0-9][-/,][0-9]*".
Definition is_date (f : option (list Z)) : res bool := match f with Some s => ms_globmatch s date_glob | None => Ok false end.
Definition isinteger (f : list Z) : bool := forallb isdigit f.

(** strtol of a text of digits; a value over LONG_MAX is LONG_MAX. *)
Definition strtol_digits (f : list Z) : Z :=
  Z.min (fold_left (fun a c => 10 * a + (c - 48)) f 0) 9223372036854775807.

(** What a line does: it is passed over, the file is given up with -1, or it is counted. *)
Inductive line_result : Type := Passed | GivenUp | Counted (sels : list sel).

(** One time, selection.c:547-559, 561-574: [None] when the file is given up. *)
Definition line_time (mode : ovmode) (f : option (list Z)) : res (option Z) :=
  match f with
  | None => Ok (Some NSTUNSET)
  | Some s => let! t := timestr2nstime mode s in if t =? NSTUNSET then Ok None else Ok (Some t)
  end.

(** The version, selection.c:583-597, 612-626. *)
Definition line_version (f : option (list Z)) : option Z :=
  match f with
  | None => Some 0
  | Some s => let v := strtol_digits s in if (v <? 0) || (255 <? v) then None else Some v
  end.

(** One line of text, selection.c:475-642. *)
Definition sel_line (mode : ovmode) (sels : list sel) (text : list Z) : res line_result :=
  let line := skip_ws (trim_end text) in
  match line with
  | [] => Ok Passed
  | c :: _ =>
    if c =? 35 then Ok Passed else
    let fs := split_fields line None [] in
    let n := length fs in
    let f := nth_error fs in
    let! start2 := is_date (f 1%nat) in
    let! end3 := is_date (f 2%nat) in
    let! start6 := is_date (f 5%nat) in
    let! end7 := is_date (f 6%nat) in
    let! st := line_time mode (if start2 then f 1%nat else if start6 then f 5%nat else None) in
    match st with None => Ok GivenUp | Some st =>
    let! en := line_time mode (if end3 then f 2%nat else if end7 then f 6%nat else None) in
    match en with None => Ok GivenUp | Some en =>
    let field k := nth k fs [] in
    if (n =? 1)%nat || (n =? 2)%nat && start2 || (n =? 3)%nat && start2 && end3
       || (n =? 4)%nat && start2 && end3 && isinteger (field 3%nat) then
      match line_version (f 3%nat) with
      | None => Ok GivenUp
      | Some v => Ok (Counted (addselect sels (field 0%nat) st en v))
      end
    else if (n =? 4)%nat || (n =? 5)%nat || (n =? 6)%nat && start6 || (n =? 7)%nat && start6 && end7 then
      match line_version (if (4 <? n)%nat && isinteger (field 4%nat) then f 4%nat else None) with
      | None => Ok GivenUp
      | Some v =>
        let! r := addselect_comp sels (field 0%nat) (field 1%nat) (field 2%nat) (field 3%nat) st en v in
        match r with None => Ok GivenUp | Some l => Ok (Counted l) end
      end
    else Ok (Counted sels)
    end end
  end.

(** The loop, selection.c:465-642, over the lines fgets returns (at most 198 characters of a
    buffer of 200): the list and the count, or the list and -1.  [fuel] bounds the calls of
    fgets. *)
Fixpoint sel_loop (fuel : nat) (mode : ovmode) (sels : list sel) (count : Z) (content : list Z) : res (list sel * Z) :=
  match content with
  | [] => Ok (sels, count)
  | _ =>
    match fuel with
    | O => Fuel
    | S fuel =>
      let (buf, rest) := fgets 198 content in
      let! r := sel_line mode sels (until 0 buf) in
      match r with
      | Passed => sel_loop fuel mode sels count rest
      | GivenUp => Ok (sels, -1)
      | Counted l => let! c := sarith mode 32 (count + 1) in sel_loop fuel mode l c rest
      end
    end
  end.

(** ms3_readselectionsfile, selection.c:428-648: the list of the caller extended, and the
    value returned. *)
Definition readselectionsfile (mode : ovmode) (sels : list sel) (file : option (list Z)) : res (list sel * Z) :=
  match file with
  | None => Ok (sels, -1)
  | Some content => sel_loop (length content) mode sels 0 content
  end.
