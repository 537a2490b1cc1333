(** * The inspector as a whole: what is given and what comes out. *)

From Coq Require Import String.
From Verif Require Import Base TimeStrModel RecModel RecSpec ReadModel ReadSpec TlModel BufModel CliModel CliSpec FileModel FileSpec ShowModel MainModel.
Open Scope Z_scope.
Open Scope list_scope.

(** A path of the command line, how its bytes arrive and the records it holds, with other bytes
    between and after them. *)
Record input : Type := mk_input { in_path : list Z; in_sch : schedule; in_parts : list part; in_rest : list Z }.

(** A file with at least one record, all of which can be read with right checksums (C35). *)
Definition good_input (fs : files) (stdin : list Z) (mode : ovmode) (flags : Z) (x : input) : Prop :=
  holds fs stdin flags (in_path x) (file_of (in_parts x) (in_rest x)) /\ delivers (in_sch x) /\
  Forall (ReadSpec.readable mode flags) (in_parts x) /\ bytes_ok (in_rest x) /\ junk_ok (in_parts x) (in_rest x) /\
  (has_flag flags 2 = true \/ no_junk (in_parts x) (in_rest x)) /\
  lenZ (file_of (in_parts x) (in_rest x)) < 2 ^ 63 /\ in_parts x <> [].

(** All records with their places in their files, in the order of the files. *)
Definition all_records (xs : list input) : list (Z * part) := flat_map (fun x => contents 0 (in_parts x)) xs.

(** What the filters see of a record that ends at [e]. *)
Definition seen (x : part) (e : Z) : crec :=
  Build_crec (until0 (h_sid (pt_hdr x))) (pt_time x) e (h_cnt (pt_hdr x)) (layout3 (pt_hdr x)).

(** The samples a record has: the same wherever it is in memory; an error if they cannot be
    unpacked. *)
Definition has_samples (mode : ovmode) (x : part) (d : res samples) : Prop :=
  (forall addr, unpack_data false mode addr (layout3 (pt_hdr x)) (part_head x) = d) /\
  ((exists s, d = Ok s) \/ (exists c, d = Err c)).

(** The bytes of a sample in the binary output. *)
Definition word_size (enc : Z) : nat := if enc =? 0 then 1%nat else if enc =? 5 then 8%nat else 4%nat.
Definition binary (x : part) (d : res samples) : list Z :=
  match d with Ok s => flat_map (le_bytes (word_size (h_enc (pt_hdr x)))) (sample_words s) | _ => [] end.

(** The type of the samples. *)
Definition type_of (enc : Z) : Z :=
  if enc =? 0 then 116
  else if (enc =? 1) || (enc =? 3) || (enc =? 10) || (enc =? 11) || (enc =? 16) || (enc =? 30) || (enc =? 32) then 105
  else if (enc =? 4) || (enc =? 12) || (enc =? 13) || (enc =? 14) then 102
  else if enc =? 5 then 100
  else 0.

(** The text of a record at a place (C60 says what is in it). *)
Definition text_is (n : menv) (i : mset) (d : res samples) (px : Z * part) (t : list Z) : Prop :=
  show_record (n_mode n) (n_hz n) (n_g8 n) (n_g10 n) (if i_offset i then Some (fst px) else None) None (i_details i) (i_data i)
    (type_of (h_enc (pt_hdr (snd px)))) (part_head (snd px)) d = Ok t.

Definition samples_in (l : list (Z * part)) : Z := fold_right (fun px a => h_cnt (pt_hdr (snd px)) + a) 0 l.

(** The line of totals. *)
Definition totals (files recs samps : Z) : list Z :=
  zs "Files: " ++ dec files ++ zs ", Records: " ++ dec recs ++ zs ", Samples: " ++ dec samps ++ [10].

(** What is known of each record: where it ends, whether it passes the filters, its samples and
    its text. *)
Definition record_facts (n : menv) (i : mset) (ts te : Z) (m rj : option (list Z * list tok)) (keep : part -> bool)
  (data : part -> res samples) (text : Z * part -> list Z) (px : Z * part) : Prop :=
  (exists e, SampleModel.endtime (n_mode n) (n_leaps n) (pt_time (snd px)) (h_cnt (pt_hdr (snd px))) (h_rate (pt_hdr (snd px))) = Ok e /\
     pt_time (snd px) <= e /\ (keep (snd px) = true <-> passes ts te m rj (seen (snd px) e))) /\
  has_samples (n_mode n) (snd px) (data (snd px)) /\ (keep (snd px) = true -> text_is n i (data (snd px)) px (text px)).

(** The records processed: the first of those that pass, as many as asked for. *)
Definition processed (i : mset) (keep : part -> bool) (xs : list input) : list (Z * part) :=
  first_n (i_count i) (filter (fun px => keep (snd px)) (all_records xs)).
(** The additions to the trace list succeed, with the result [k]. *)
Definition traced (n : menv) (done : list (Z * part)) (heights : list nat) (k : tlist) : Prop :=
  (length done <= length heights)%nat /\
  add_all (main_traces n) tl_init (combine (map (fun px => trec_of (part_head (snd px))) done) heights) = Ok k.

(** All of the input, with sizes that the counters can hold. *)
Definition good_run (fs : files) (stdin : list Z) (n : menv) (i : mset) (heights : list nat) (ts te : Z) (m rj : option (list Z * list tok))
  (keep : part -> bool) (data : part -> res samples) (text : Z * part -> list Z) (xs : list input) : Prop :=
  (n_hb n = false /\ i_filter i = settings_of ts te m rj /\ pattern_ok m /\ pattern_ok rj) /\
  Forall (good_input fs stdin (n_mode n) (main_flags i)) xs /\ Forall (record_facts n i ts te m rj keep data text) (all_records xs) /\
  (lenZ (all_records xs) < 2 ^ 63 /\ samples_in (all_records xs) < 2 ^ 63 /\ lenZ xs < 2 ^ 63) /\
  (i_traces i = true -> exists k, traced n (processed i keep xs) heights k).

(** What is put out for the records [done]. *)
Definition output (n : menv) (i : mset) (heights : list nat) (data : part -> res samples) (text : Z * part -> list Z) (done : list (Z * part))
  (tail : list Z) (s : vstate) : Prop :=
  v_text s = (if i_only i then [] else concat (map text done)) ++ tail /\
  st_out (v_cli s) = concat (map (fun px => layout3 (pt_hdr (snd px))) done) /\
  v_bin s = (if i_bin i then concat (map (fun px => binary (snd px) (data (snd px))) done) else []) /\
  (i_traces i = true -> exists k, v_traces s = Some k /\ traced n done heights k).

(** The same record with nothing before it. *)
Definition bare (x : part) : part := mk_part [] (pt_hdr x) (pt_time x) (pt_data x).
