(** * Reading a stream, stated on the bytes of the file by position, without buffers. *)

From Verif Require Export Base RecSpec ReadModel.
Open Scope Z_scope.

(** The start of a version 2 header: sequence number, quality indicator, blank, hour,
    minute and second. *)
Definition signature2 (r : list Z) : Prop :=
  (forall i, (i < 6)%nat -> 48 <= nth i r 0 <= 57 \/ nth i r 0 = 32 \/ nth i r 0 = 0) /\
  In (nth 6 r 0) [68; 82; 81; 77] /\ In (nth 7 r 0) [32; 0] /\
  nth 24 r 0 <= 23 /\ nth 25 r 0 <= 59 /\ nth 26 r 0 <= 60.

(** The length of the version 3 record at the start of [r]. *)
Definition length3 (r : list Z) : Z := 40 + stated_lengths r.

(** Deliveries: a read for [size] bytes with [remaining] left in the input delivers at
    most that many; the end of the stream is only reported when nothing is left, and
    otherwise at least one byte arrives. *)
Definition delivers (sch : schedule) : Prop :=
  forall k size remaining, 0 < size -> 0 <= remaining ->
    let (n, e) := sch k size remaining in
    0 <= n <= size /\ n <= remaining /\ (e = true -> n = remaining) /\ (e = false -> 0 < n).

(** fread of a regular file: as many as asked for if there are as many, else all and
    the end of the file. *)
Definition whole_reads : schedule :=
  fun _ size remaining => if size <=? remaining then (size, false) else (remaining, true).
(** One byte at a time. *)
Definition byte_reads : schedule :=
  fun _ _ remaining => if remaining =? 0 then (0, true) else (1, false).

(** The flags records are parsed with: data unpacking is left for later when records
    are selected. *)
Definition later (g : rconf) : bool := has_flag (g_flags g) 1 && (match g_select g with Some _ => true | None => false end).
Definition parse_flags (g : rconf) : Z := if later g then Z.ldiff (g_flags g) 1 else g_flags g.
Definition selected (g : rconf) (m : msr) : bool := match g_select g with Some s => s m | None => true end.

(** A whole record at the start of [r]: version 3, with a supported length that is
    there, and what parsing these bytes gives at any address. *)
Definition record_at (g : rconf) (r : list Z) (x : res parsed) : Prop :=
  signature3 r /\ length3 r <= 10485760 /\ length3 r <= lenZ r /\
  forall addr, parse (g_unpack2 g) false (g_mode g) addr (parse_flags g) (firstn (Z.to_nat (length3 r)) r) = x.

(** No record at the start of [r], and the code for it: no header of either version; a
    length that is not supported; a record that does not parse. *)
Definition no_record (g : rconf) (r : list Z) (c : Z) : Prop :=
  (~ signature3 r /\ ~ signature2 r /\ c = -2) \/
  (signature3 r /\ 10485760 < length3 r < 2 ^ 32 /\ c = -4) \/
  record_at g r (Err c).

Definition with_data (m : msr) (d : samples) : msr :=
  mk_msr (m_reclen m) (m_swaph m) (m_swapp m) (m_fver m) (m_flags m) (m_sid m) (m_start m) (m_rate m) (m_enc m)
         (m_pub m) (m_cnt m) (m_crc m) (m_extra m) (m_datalen m) (Some d).

(** The record delivered: with its samples if unpacking was left for later. *)
Definition delivered (g : rconf) (r : list Z) (m : msr) (x : res msr) : Prop :=
  if later g && (0 <? m_cnt m)
  then forall addr, (let! d := unpack_data false (g_mode g) addr (firstn (Z.to_nat (length3 r)) r) m in Ok (with_data m d)) = x
  else x = Ok m.

(** Reading from position [p], where the input still holds [r] and [n] records were
    returned before: the records with their positions, then the final return code (or
    undefined behaviour).  [last] is the last position of the byte range, 0 for none. *)
Inductive reads (g : rconf) (last : Z) : Z -> list Z -> Z -> list (Z * msr) -> res Z -> Prop :=
| rd_limit p r n : last <> 0 -> last + 1 - p < 40 -> reads g last p r n [] (Ok 1)
| rd_short p r n : (last = 0 \/ 40 <= last + 1 - p) -> lenZ r < 40 ->
    reads g last p r n [] (Ok (if n =? 0 then -2 else 1))
| rd_stop p r n c : (last = 0 \/ 40 <= last + 1 - p) -> 40 <= lenZ r -> no_record g r c ->
    has_flag (g_flags g) 2 = false -> reads g last p r n [] (Ok c)
| rd_skip p r n c l f : (last = 0 \/ 40 <= last + 1 - p) -> 40 <= lenZ r -> no_record g r c ->
    has_flag (g_flags g) 2 = true -> reads g last (p + 1) (skipn 1 r) n l f -> reads g last p r n l f
| rd_cut p r n : (last = 0 \/ 40 <= last + 1 - p) -> 40 <= lenZ r -> signature3 r ->
    lenZ r < length3 r <= 10485760 -> reads g last p r n [] (Ok 1)
| rd_other p r n m l f : (last = 0 \/ 40 <= last + 1 - p) -> record_at g r (Ok (PRec m)) -> selected g m = false ->
    reads g last (p + length3 r) (skipn (Z.to_nat (length3 r)) r) n l f -> reads g last p r n l f
| rd_record p r n m m' l f : (last = 0 \/ 40 <= last + 1 - p) -> record_at g r (Ok (PRec m)) -> selected g m = true ->
    delivered g r m (Ok m') ->
    reads g last (p + length3 r) (skipn (Z.to_nat (length3 r)) r) (n + 1) l f -> reads g last p r n ((p, m') :: l) f
| rd_undecoded p r n m c : (last = 0 \/ 40 <= last + 1 - p) -> record_at g r (Ok (PRec m)) -> selected g m = true ->
    delivered g r m (Err c) -> reads g last p r n [] (Ok (-1))
| rd_ub p r n u : (last = 0 \/ 40 <= last + 1 - p) -> record_at g r (UB u) -> reads g last p r n [] (UB u)
| rd_ub_data p r n m u : (last = 0 \/ 40 <= last + 1 - p) -> record_at g r (Ok (PRec m)) -> selected g m = true ->
    delivered g r m (UB u) -> reads g last p r n [] (UB u).

(** The result of reading all. *)
Definition outcome (l : list (Z * msr)) (f : res Z) : res (list (Z * msr) * Z) := let! c := f in Ok (l, c).

(** A stream just opened at [start]. *)
Definition opened (file : list Z) (start last : Z) : stream := mk_stream [] 0 start 0 last file false O.

(** Files with no version 2 header and no version 3 header whose lengths are too large
    for 32 bits. *)
Definition plain (file : list Z) : Prop :=
  forall i, 40 <= lenZ (skipn i file) ->
    ~ signature2 (skipn i file) /\ (signature3 (skipn i file) -> length3 (skipn i file) < 2 ^ 32).

(** ** Files of records *)

(** A record in a file: bytes before it that are not part of a record, its fields, its
    start time and its samples (None if they are not asked for). *)
Record part := mk_part { pt_junk : list Z; pt_hdr : hdr; pt_time : Z; pt_data : option samples }.

Fixpoint file_of (parts : list part) (rest : list Z) : list Z :=
  match parts with
  | [] => rest
  | x :: parts' => pt_junk x ++ layout3 (pt_hdr x) ++ file_of parts' rest
  end.

(** The records with their positions. *)
Fixpoint contents (p : Z) (parts : list part) : list (Z * part) :=
  match parts with
  | [] => []
  | x :: parts' =>
    (p + lenZ (pt_junk x), x) :: contents (p + lenZ (pt_junk x) + lenZ (layout3 (pt_hdr x))) parts'
  end.

(** No header starts in the first [n] bytes. *)
Definition no_headers (n : nat) (r : list Z) : Prop :=
  forall i, (i < n)%nat -> ~ signature3 (skipn i r) /\ ~ signature2 (skipn i r).
Fixpoint junk_ok (parts : list part) (rest : list Z) : Prop :=
  match parts with
  | [] => no_headers (length rest) rest
  | x :: parts' => no_headers (length (pt_junk x)) (file_of parts rest) /\ junk_ok parts' rest
  end.
(** Nothing between the records, and less than a header after them. *)
Definition no_junk (parts : list part) (rest : list Z) : Prop :=
  Forall (fun x => pt_junk x = []) parts /\ lenZ rest < 40.

(** A record that can be read: supported, with an identifier shorter than 64 bytes, a
    valid date, when checked the right checksum, and when asked for samples that can be
    decoded wherever the record is in memory. *)
Definition readable (mode : ovmode) (flags : Z) (x : part) : Prop :=
  let h := pt_hdr x in
  bytes_ok (pt_junk x) /\ hdr_ok h /\ lenZ (h_sid h) < 64 /\ (has_flag flags 4 = true -> h_crc h = crc3 h) /\
  time2nstime mode (h_year h) (h_day h) (h_hour h) (h_min h) (h_sec h) (h_nsec h) = Ok (pt_time x) /\
  pt_time x <> NSTERROR /\
  match pt_data x with
  | None => has_flag flags 1 = false \/ h_cnt h = 0
  | Some d => has_flag flags 1 = true /\ 0 < h_cnt h /\
              forall addr, unpack_data false mode addr (layout3 h) (rec_of false (pt_time x) h None) = Ok d
  end.

(** What is returned for it. *)
Definition part_rec (x : part) : msr := rec_of false (pt_time x) (pt_hdr x) (pt_data x).
Definition part_head (x : part) : msr := rec_of false (pt_time x) (pt_hdr x) None.

(** The records selected, with their positions. *)
Definition expected (g : rconf) (p : Z) (parts : list part) : list (Z * msr) :=
  map (fun px => (fst px, part_rec (snd px))) (filter (fun px => selected g (part_head (snd px))) (contents p parts)).

(** ** Path suffixes *)

Definition digits (l : list Z) : Prop := Forall (fun c => 48 <= c <= 57) l.
Fixpoint value (l : list Z) : Z :=
  match l with [] => 0 | c :: l' => (c - 48) * 10 ^ lenZ l' + value l' end.

(** The characters after the '@' of a range, with the digits of its two numbers (20 at
    most): "START", "START-END" or "-END". *)
Definition range_text (t a b : list Z) : Prop :=
  digits a /\ digits b /\ lenZ a <= 20 /\ lenZ b <= 20 /\ ((t = a /\ b = []) \/ t = a ++ 45 :: b).

(** A record [m] read at position [p] of the data: the result of parsing bytes found
    there, possibly with the samples added. *)
Definition read_at (g : rconf) (data : list Z) (p : Z) (m : msr) : Prop :=
  exists k addr flags m0,
    parse (g_unpack2 g) (g_hb g) (g_mode g) addr flags (firstn k (skipn (Z.to_nat p) data)) = Ok (PRec m0) /\
    (m = m0 \/ exists d, m = with_data m0 d).

(** The offset a number gives: as an unsigned 64-bit number, saturating, then taken as
    signed; 0 without digits. *)
Definition offset_of (l : list Z) : Z := swrap 64 (Z.min (value l) (2 ^ 64 - 1)).
