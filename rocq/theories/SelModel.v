(** * Model of selection lists (libmseed/selection.c:57-118, 177-262, 280-360). *)

From Verif Require Import Base GlobModel TimeModel.
Open Scope Z_scope.

(** MS3Selections and its MS3SelectTime list, libmseed.h:438-450.  The linked lists are
    Coq lists; the pattern is the text in the 100-byte field. *)
Record sel : Type := { s_pat : list Z; s_win : list (Z * Z); s_ver : Z }.

Definition is_set (t : Z) : bool := negb (t =? NSTERROR) && negb (t =? NSTUNSET).

(** selection.c:87-107: the first window not skipped *)
Fixpoint find_window (st en : Z) (ws : list (Z * Z)) : option (Z * Z) :=
  match ws with
  | [] => None
  | (ws_, we) :: rest =>
    if is_set st && is_set ws_ && ((st <? ws_) && negb ((st <=? ws_) && (ws_ <=? en))) then find_window st en rest
    else if is_set en && is_set we && ((we <? en) && negb ((st <=? we) && (we <=? en))) then find_window st en rest
    else Some (ws_, we)
  end.

(** ms3_matchselect, selection.c:57-118: the entry and the window stored through
    [ppselecttime] ([None]: a null pointer), or no entry. *)
Fixpoint matchselect (sels : list sel) (sid : list Z) (st en pv : Z) : res (option (sel * option (Z * Z))) :=
  match sels with
  | [] => Ok None
  | e :: rest =>
    let! m := ms_globmatch sid (s_pat e) in
    if m then
      if (0 <? s_ver e) && negb (s_ver e =? pv) then matchselect rest sid st en pv
      else match s_win e with
           | [] => Ok (Some (e, None))
           | _ => match find_window st en (s_win e) with
                  | Some w => Ok (Some (e, Some w))
                  | None => matchselect rest sid st en pv
                  end
           end
    else matchselect rest sid st en pv
  end.

(** ms3_addselect, selection.c:177-262.  [strncpy] into the zeroed 100-byte field and the
    forced terminator keep at most 99 characters; [strcmp] compares with the whole text.
    Allocation succeeds. *)
Definition text_eqb (a b : list Z) : bool := if list_eq_dec Z.eq_dec a b then true else false.
Fixpoint add_window (sels : list sel) (pat : list Z) (st en pv : Z) : option (list sel) :=
  match sels with
  | [] => None
  | e :: rest =>
    if text_eqb (s_pat e) pat && (s_ver e =? pv)
    then Some ({| s_pat := s_pat e; s_win := (st, en) :: s_win e; s_ver := s_ver e |} :: rest)
    else option_map (cons e) (add_window rest pat st en pv)
  end.
Definition addselect (sels : list sel) (pat : list Z) (st en pv : Z) : list sel :=
  match add_window sels pat st en pv with
  | Some l => l
  | None => {| s_pat := firstn 99 pat; s_win := [(st, en)]; s_ver := pv |} :: sels
  end.
