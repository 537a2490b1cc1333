(** * What the inspector does with its options. *)
From Verif Require Export Base CliModel GlobSpec TimeModel.
Open Scope Z_scope.

(** ** Records *)

(** The record's span [st, en] reaches [ts] or later and begins at [te] or earlier. *)
Definition in_limits (ts te st en : Z) : Prop :=
  (ts = NSTERROR \/ ts <= en) /\ (te = NSTERROR \/ st <= te).

(** The records read: every file up to and including the first that ends in an error. *)
Fixpoint readable (fs : list cfile) : list crec :=
  match fs with
  | [] => []
  | f :: rest => f_recs f ++ (if f_ret f =? 1 then readable rest else [])
  end.
Definition all_good (fs : list cfile) : Prop := Forall (fun f => f_ret f = 1) fs.

(** The first [n] of a list, all for negative [n]. *)
Definition first_n {A} (n : Z) (l : list A) : list A := if n <? 0 then l else firstn (Z.to_nat n) l.
Definition sum_samples (l : list crec) : Z := fold_right (fun r a => c_cnt r + a) 0 l.

(** ** List files: lines ended by newline, the last one possibly not. *)
Definition text_of (ls : list (list Z)) (last : list Z) : list Z :=
  concat (map (fun l => l ++ [10]) ls) ++ last.
Definition names_a_file (l : list Z) : bool := match l with [] => false | c :: _ => negb (c =? 35) end.

(** ** Options *)
Definition negative_number (v : list Z) : Prop :=
  exists d, v = 45 :: d /\ Forall (fun c => 48 <= c <= 57) d.
Definition takes (opt v : list Z) : Prop :=
  (forall v', v <> 45 :: v') \/ (opt = opt_o /\ v = [45]) \/
  ((opt = opt_gmin \/ opt = opt_gmax) /\ negative_number v).

(** Reading of an argument vector as events (GNU-style order, values attached). *)
Inductive reads : list (list Z) -> list event -> args_end -> Prop :=
| r_nil : reads [] [] AEnd
| r_version : forall rest, reads ([45; 86] :: rest) [] AVersion
| r_help : forall rest, reads ([45; 104] :: rest) [] AHelp
| r_value : forall o v rest e x, In o value_options -> takes o v -> reads rest e x ->
    reads (o :: v :: rest) (EValue o v :: e) x
| r_novalue_end : forall o, In o value_options -> reads [o] [] (ANoValue o)
| r_novalue : forall o v rest, In o value_options -> ~ takes o v -> reads (o :: v :: rest) [] (ANoValue o)
| r_flag : forall o rest e x, In o flag_options \/ (exists s, o = 45 :: 118 :: s \/ o = 45 :: 112 :: s) ->
    reads rest e x -> reads (o :: rest) (EFlag o :: e) x
| r_unknown : forall s rest, s <> [] -> ~ In (45 :: s) value_options -> ~ In (45 :: s) flag_options ->
    (forall s', s <> 118 :: s') -> (forall s', s <> 112 :: s') -> s <> [86] -> s <> [104] ->
    reads ((45 :: s) :: rest) [] (AUnknown (45 :: s))
| r_list : forall name rest e x, reads rest e x -> reads ((64 :: name) :: rest) (EList name :: e) x
| r_file : forall a rest e x, (forall s, s <> [] -> a <> 45 :: s) -> (forall s, a <> 64 :: s) ->
    reads rest e x -> reads (a :: rest) (EFile a :: e) x.

(** ** The filters *)
Definition contains (p sid : list Z) (t : list tok) : Prop := exists x y z, sid = x ++ y ++ z /\ mat t y.
Definition passes (ts te : Z) (m rj : option (list Z * list tok)) (r : crec) : Prop :=
  in_limits ts te (c_start r) (c_end r) /\
  (forall p t, m = Some (p, t) -> contains p (c_sid r) t) /\
  (forall p t, rj = Some (p, t) -> ~ contains p (c_sid r) t).
Definition pattern_ok (m : option (list Z * list tok)) : Prop := forall p t, m = Some (p, t) -> pat_text p t.
Definition settings_of (ts te : Z) (m rj : option (list Z * list tok)) : settings :=
  {| o_ts := ts; o_te := te;
     o_match := option_map (fun x => contains_pattern (fst x)) m;
     o_reject := option_map (fun x => contains_pattern (fst x)) rj |}.
Definition good_line (l : list Z) : Prop := ~ In 10 l /\ ~ In 0 l /\ (length l <= 1023)%nat.
