(** * When a record is selected. *)
From Verif Require Export Base SelModel GlobSpec TimeModel.
Open Scope Z_scope.

Definition open (t : Z) : Prop := t = NSTERROR \/ t = NSTUNSET.
(** A pattern of the documented language without escapes, and its meaning. *)
Definition documented (p : list Z) : Prop := exists t, pat_text p t /\ no_escape t.
Definition matches (p sid : list Z) : Prop := exists t, pat_text p t /\ no_escape t /\ mat t sid.

(** A closed range shares an instant with a window whose bounds may be open. *)
Definition overlaps (st en : Z) (w : Z * Z) : Prop :=
  exists x, st <= x <= en /\ (open (fst w) \/ fst w <= x) /\ (open (snd w) \/ x <= snd w).

Definition entry_selects (e : sel) (sid : list Z) (st en pv : Z) : Prop :=
  matches (s_pat e) sid /\ (s_ver e = 0 \/ s_ver e = pv) /\
  (s_win e = [] \/ exists w, In w (s_win e) /\ overlaps st en w).
Definition selected (l : list sel) (sid : list Z) (st en pv : Z) : Prop :=
  exists e, In e l /\ entry_selects e sid st en pv.

Definition wellformed_window (w : Z * Z) : Prop := open (fst w) \/ open (snd w) \/ fst w <= snd w.
Definition wellformed (l : list sel) : Prop :=
  Forall (fun e => documented (s_pat e) /\ Forall wellformed_window (s_win e) /\ 0 <= s_ver e) l.
(** A list made by a sequence of additions. *)
Definition build (rs : list (list Z * (Z * Z) * Z)) : list sel :=
  fold_left (fun l r => let '(p, (a, b), v) := r in addselect l p a b v) rs [].

(** When a window is taken for a range whose bounds may be open or reversed: the range
    reaches the start of the window from one of its two ends, and likewise the end. *)
Definition taken (st en : Z) (w : Z * Z) : Prop :=
  (open st \/ open (fst w) \/ fst w <= st \/ fst w <= en) /\
  (open en \/ open (snd w) \/ en <= snd w \/ st <= snd w).
Definition entry_takes (e : sel) (sid : list Z) (st en pv : Z) : Prop :=
  matches (s_pat e) sid /\ (s_ver e = 0 \/ s_ver e = pv) /\
  (s_win e = [] \/ exists w, In w (s_win e) /\ taken st en w).
