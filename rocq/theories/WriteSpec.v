(** * Writing trace lists to files: specification. *)

From Verif Require Export Base RecSpec ReadSpec TlPackSpec FileModel FileSpec.
Open Scope Z_scope.

(** Records and the samples in them, one after the other: [D k c x] says what the record
    [x] is, which holds the samples [c] and is preceded by [k] samples. *)
Fixpoint in_turn (D : Z -> list Z -> part -> Prop) (k : Z) (parts : list part) (chunks : list (list Z)) : Prop :=
  match parts, chunks with
  | [], [] => True
  | x :: parts', c :: chunks' => D k c x /\ in_turn D (k + lenZ c) parts' chunks'
  | _, _ => False
  end.

(** The records written for a segment can be read and are read as its identifier, version,
    rate and samples, each with the time of its first sample; all samples are there, or one
    record without samples if there are none. *)
Definition written_as (mode : ovmode) (flags : Z) (recip : Z -> Z) (leaps : list Z) (o : popt) (t : tid) (s : seg) (parts : list part) : Prop :=
  let m := TlPackSpec.wanted o t s in
  Forall (fun x => ReadSpec.readable mode flags x /\ pt_junk x = []) parts /\
  (s_data s = [] -> exists x crc, parts = [x] /\
     part_rec x = mk_msr (hdrlen m) false false 3 0 (t_sid t) (s_start s) (rate_of recip m) 0 (t_pub t) 0 crc (extra_text o) 0 None) /\
  (s_data s <> [] -> exists q chunks, s_hz s = DFin q /\ concat chunks = s_data s /\
     in_turn (fun k c x => c <> [] /\ exists len st crc datalen, len <= maxlen m /\ starts_at (s_start s) leaps q k st /\
       part_rec x = mk_msr len false (is_steim (encoding_of m)) 3 0 (t_sid t) st (rate_of recip m) (encoding_of m) (t_pub t) (lenZ c) crc
                           (extra_text o) datalen (Some (SInt c))) 0 parts chunks).

(** The list is as before. *)
Definition kept (k k' : tlist) : Prop := exists ids ids', tl_ids k = Ok ids /\ tl_ids k' = Ok ids' /\
  Forall2 (fun t t' => same_entry t t' /\ tid_segs t' = tid_segs t) ids ids'.

(** What is in the file before: nothing, or with [overwrite] false what it holds. *)
Definition starts_with (fs : files) (overwrite : bool) (path old : list Z) : Prop :=
  if overwrite then old = [] else fs path = Some old \/ (fs path = None /\ old = []).

(** Every write takes all bytes of its record. *)
Definition writes_all (wrote : nat -> nat) : Prop := forall i, 10485760 <= Z.of_nat (wrote i).
