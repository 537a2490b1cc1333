(** * C18-C21: the inspector's filters, totals, list files and options. *)
From Verif Require Import Base GlobModel GlobSpec SelModel CliModel CliSpec CliProof TimeModel.
Open Scope Z_scope.

(** C18: a record is kept exactly when its span is in the limits; NSTERROR is "no limit". *)
Theorem C18_limits : forall ts te st en, st <= en ->
  (time_keeps ts te st en = true <-> (ts = NSTERROR \/ ts <= en) /\ (te = NSTERROR \/ st <= te)).
Proof. exact time_keeps_ok. Qed.
Print Assumptions C18_limits.

Example C18_instance :
  time_keeps 100 200 50 100 = true /\ time_keeps 100 200 50 99 = false /\
  time_keeps 100 200 200 300 = true /\ time_keeps 100 200 201 300 = false /\ time_keeps NSTERROR NSTERROR 0 1 = true.
Proof. repeat split; reflexivity. Qed.

(** The limits and patterns together: no other record is dropped. *)
Theorem C18_filters : forall ts te m rj r, pattern_ok m -> pattern_ok rj -> c_start r <= c_end r ->
  exists b, keeps (settings_of ts te m rj) r = Ok b /\ (b = true <-> passes ts te m rj r).
Proof. exact keeps_ok. Qed.
Print Assumptions C18_filters.

Definition ex_rec (sid : Z) (a b n : Z) : crec := {| c_sid := [sid]; c_start := a; c_end := b; c_cnt := n; c_bytes := [sid; a] |}.
Definition ex_files : list cfile :=
  [ {| f_recs := [ex_rec 65 0 10 5; ex_rec 66 11 20 6]; f_ret := 1 |};
    {| f_recs := [ex_rec 65 21 30 7; ex_rec 65 31 40 8]; f_ret := -2 |};
    {| f_recs := [ex_rec 65 0 1 9]; f_ret := 1 |} ].

(** C19: the records processed are the first [n] (all for negative [n], the value without
    -n) of the records read that pass; totals and the -o file are theirs.  [readable] is
    every file's records up to and including the first file whose reading fails; in that
    case, unless the count was used up, the program stops with failure status ([bad]).
    [keep] is the filter decision of C18. *)
Theorem C19_run : forall ts te m rj n fs keep,
  pattern_ok m -> pattern_ok rj ->
  Forall (fun r => c_start r <= c_end r /\ 0 <= c_cnt r) (readable fs) ->
  (forall r, In r (readable fs) -> (keep r = true <-> passes ts te m rj r)) ->
  Z.of_nat (length (readable fs)) < 2 ^ 63 -> sum_samples (readable fs) < 2 ^ 63 -> Z.of_nat (length fs) < 2 ^ 63 ->
  exists s bad, run (settings_of ts te m rj) n fs = Ok (s, bad) /\
    let done := first_n n (filter keep (readable fs)) in
    st_done s = done /\ st_recs s = Z.of_nat (length done) /\ st_samps s = sum_samples done /\
    st_out s = concat (map c_bytes done) /\
    (bad = true <-> ~ all_good fs /\ (n < 0 \/ Z.of_nat (length (filter keep (readable fs))) < n)) /\
    (bad = false -> st_files s = Z.of_nat (length fs)).
Proof. exact run_ok. Qed.
Print Assumptions C19_run.

Example C19_instance :
  run (settings_of NSTERROR 30 (Some ([65], [Lit 65])) None) 2 ex_files =
    Ok ({| st_done := [ex_rec 65 0 10 5; ex_rec 65 21 30 7]; st_left := 0; st_recs := 2; st_samps := 12;
           st_files := 3; st_out := [65; 0; 65; 21] |}, false) /\
  run (settings_of NSTERROR 30 (Some ([65], [Lit 65])) None) 3 ex_files =
    Ok ({| st_done := [ex_rec 65 0 10 5; ex_rec 65 21 30 7]; st_left := 1; st_recs := 2; st_samps := 12;
           st_files := 1; st_out := [65; 0; 65; 21] |}, true) /\
  pattern_ok (Some ([65], [Lit 65])) /\
  Forall (fun r => c_start r <= c_end r /\ 0 <= c_cnt r) (readable ex_files) /\
  length (readable ex_files) = 4%nat.
Proof.
  split; [reflexivity|]. split; [reflexivity|]. split; [intros p t E; injection E as <- <-; repeat constructor; lia|].
  split; [|reflexivity]. repeat (constructor; [cbn; lia|]). constructor.
Qed.

(** C20: a list file contributes its lines in order, without empty lines and comments;
    lines of up to 1023 characters, the last one with or without newline. *)
Theorem C20_list : forall ls last, Forall good_line ls -> good_line last ->
  addlistfile (text_of ls last) = Ok (filter names_a_file (ls ++ [last])).
Proof. exact (fun ls last G L => list_ok ls last (length (text_of ls last)) G L (le_n _)). Qed.
Print Assumptions C20_list.

Example C20_instance :
  addlistfile [97; 98; 10; 10; 35; 99; 10; 32; 35; 10; 100] = Ok [[97; 98]; [32; 35]; [100]] /\
  text_of [[97; 98]; []; [35; 99]; [32; 35]] [100] = [97; 98; 10; 10; 35; 99; 10; 32; 35; 10; 100].
Proof. split; reflexivity. Qed.

(** Any content is processed to its end. *)
Theorem C20_total : forall content, exists l, addlistfile content = Ok l.
Proof. exact (fun c => list_total (length c) c (le_n _)). Qed.
Print Assumptions C20_total.

(** C20's proviso is needed: a line of 1024 characters becomes two names. *)
Theorem C20_long_line_refuted :
  addlistfile (repeat 97 1024 ++ [10]) = Ok [repeat 97 1023; [97]].
Proof. vm_compute. reflexivity. Qed.
Print Assumptions C20_long_line_refuted.

(** C21: the whole argument loop agrees with the reading in CliSpec.v: an option that needs
    a value takes exactly the next argument when [takes] holds, else parsing stops. *)
Theorem C21_arguments : forall args e x, reads args e x <-> process_args args = (e, x).
Proof. exact process_args_ok. Qed.
Print Assumptions C21_arguments.

Theorem C21_value : forall opt v rest,
  (takes opt v -> getoptval opt (v :: rest) = Some v) /\ (~ takes opt v -> getoptval opt (v :: rest) = None).
Proof. exact getoptval_ok. Qed.
Print Assumptions C21_value.

(** "-n 5 x @l -o - -gmin -7" and "-n -5 x". *)
Example C21_instance :
  process_args [[45; 110]; [53]; [120]; [64; 108]; [45; 111]; [45]; opt_gmin; [45; 55]] =
    ([EValue [45; 110] [53]; EFile [120]; EList [108]; EValue [45; 111] [45]; EValue opt_gmin [45; 55]], AEnd) /\
  process_args [[120]; [45; 110]; [45; 53]; [120]] = ([EFile [120]], ANoValue [45; 110]) /\
  takes opt_gmin [45; 55] /\ ~ takes [45; 110] [45; 53].
Proof.
  split; [reflexivity|]. split; [reflexivity|]. split.
  - right. right. split; [now left|]. exists [55]. split; auto. constructor; [lia|constructor].
  - intros [H|[[H _]|[[H|H] _]]]; [now apply (H [53])|discriminate|discriminate|discriminate].
Qed.

(** C21 fails as to what counts as a negative number: "-gmin -0.5" is refused although
    the option takes seconds, and "-gmin -" is accepted. *)
Theorem C21_negative_fraction_refuted :
  getoptval opt_gmin [[45; 48; 46; 53]] = None /\ getoptval opt_gmin [[45]] = Some [45].
Proof. split; reflexivity. Qed.
Print Assumptions C21_negative_fraction_refuted.

(** main() treats the -b value "-" as standard output, but it can never be given. *)
Theorem C21_binary_stdout_refuted : forall rest, getoptval [45; 98] ([45] :: rest) = None.
Proof. reflexivity. Qed.
Print Assumptions C21_binary_stdout_refuted.
