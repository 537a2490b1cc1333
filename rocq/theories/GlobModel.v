(** * Model of the two glob matchers (src/msi.c:867-979, libmseed/selection.c:803-931).

    Strings are the lists of their characters (char values, none zero) before the
    terminator; reading the terminator is the case [[]].  The two functions are the same
    text except that the library one has a [break] after the escape case. *)

From Verif Require Import Base.
Open Scope Z_scope.

(** How the loop over a character set ends: [SetFalse] the function returns false,
    [SetEnd] the terminator was consumed as a set character (the pointer is now behind
    it), [SetDone m r] the loop stopped with [match = m] and the pattern pointer at [r]. *)
Inductive set_end : Type :=
| SetFalse
| SetEnd
| SetDone (m : bool) (r : list Z).

(** msi.c:918-955, selection.c:854-891; [p] is the pattern where [c = *pattern++] reads,
    [ch] is [*string]. *)
Fixpoint set_loop (p : list Z) (ch : Z) : set_end :=
  match p with
  | [] => SetEnd
  | c :: p1 =>
    match p1 with
    | [] => SetFalse
    | n :: p2 =>
      if n =? 45 then
        match p2 with
        | [] => SetFalse
        | m :: _ =>
          if negb (m =? 93) then
            if (ch =? c) || (ch =? m) || ((c <? ch) && (ch <? m)) then SetDone true p2
            else set_loop p2 ch
          else SetDone (c <=? ch) p2
        end
      else if negb (n =? 93) then
        if (c =? ch) || (n =? ch) then SetDone true p1 else set_loop p1 ch
      else SetDone (c =? ch) p1
    end
  end.

(** msi.c:961-964: the pattern behind the closing bracket, [None] when there is none. *)
Fixpoint skip_set (p : list Z) : option (list Z) :=
  match p with
  | [] => None
  | c :: p' => if c =? 93 then Some p' else skip_set p'
  end.

Fixpoint drop_stars (p : list Z) : list Z :=
  match p with
  | c :: p' => if c =? 42 then drop_stars p' else p
  | [] => []
  end.

(** msi.c:888-890 *)
Fixpoint drop_until (n : Z) (s : list Z) : list Z :=
  match s with
  | c :: s' => if n =? c then s else drop_until n s'
  | [] => []
  end.

(** msi.c:892-897 *)
Fixpoint star_loop (g : list Z -> res bool) (s : list Z) : res bool :=
  match s with
  | [] => Ok false
  | _ :: s' => let! r := g s in if r then Ok true else star_loop g s'
  end.

(** my_globmatch ([lib = false]) and ms_globmatch ([lib = true]).  [fuel] bounds the
    number of pattern characters; the proofs show that [S (length p)] is enough. *)
Fixpoint glob (fuel : nat) (lib : bool) (s p : list Z) : res bool :=
  match fuel with
  | O => Fuel
  | S fuel =>
    match p with
    | [] => Ok (match s with [] => true | _ => false end)
    | c :: p' =>
      if c =? 42 then
        let p1 := drop_stars p' in
        match p1 with
        | [] => Ok true
        | n :: _ =>
          let s1 := if negb (n =? 63) && negb (n =? 91) && negb (n =? 92) then drop_until n s else s in
          star_loop (fun s => glob fuel lib s p1) s1
        end
      else
        match s with
        | [] => Ok false
        | ch :: s' =>
          if c =? 63 then glob fuel lib s' p'
          else if c =? 91 then
            let (negate, body) := match p' with
                                  | 94 :: q => (true, q)
                                  | _ => (false, p')
                                  end in
            match set_loop body ch with
            | SetFalse => Ok false
            | SetEnd => if negate then UB OOBRead else Ok false
            | SetDone m r =>
              if Bool.eqb negate m then Ok false
              else match skip_set r with
                   | None => Ok false
                   | Some q => glob fuel lib s' q
                   end
            end
          else if c =? 92 then
            let (c, q) := match p' with [] => (c, []) | c2 :: q => (c2, q) end in
            if lib then glob fuel lib s' q
            else if negb (c =? ch) then Ok false else glob fuel lib s' q
          else if negb (c =? ch) then Ok false else glob fuel lib s' p'
        end
    end
  end.

Definition my_globmatch (s p : list Z) : res bool := glob (S (length p)) false s p.
Definition ms_globmatch (s p : list Z) : res bool := glob (S (length p)) true s p.

(** The pattern built from -m or -r, msi.c:608-630: "*%s*". *)
Definition contains_pattern (p : list Z) : list Z := 42 :: p ++ [42].
