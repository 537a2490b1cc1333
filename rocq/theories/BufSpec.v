(** * Reading a buffer into a trace list and unpacking record lists: specification. *)

From Verif Require Export Base RecSpec ReadSpec DataSpec TlSpec BufModel.
Open Scope Z_scope.

(** ** Record lists *)

(** The record of [p] is in memory, or all of it in its file. *)
Definition bytes_at (p : rptr) (rec : list Z) : Prop :=
  lenZ rec = m_reclen (p_msr p) /\
  match p_src p with
  | SBuf mem _ => exists tail, mem = rec ++ tail
  | SFile data => exists tail, data = rec ++ tail
  | SNone => False
  end.
(** The 16-bit and 32-bit integers of its payload are at even addresses and at multiples
    of 4 (a file is read into an aligned buffer). *)
Definition data_aligned (p : rptr) : Prop :=
  let a := (match p_src p with SBuf _ addr => addr | _ => 0 end) + p_off p in
  (m_enc (p_msr p) = 1 -> a mod 2 = 0) /\ (m_enc (p_msr p) = 3 -> a mod 4 = 0).

(** The entry [p] stands for a record whose samples are [d]: there are none, or the
    record is where [p] says, msr3_unpack_data gives [d] for it (at some address), and
    the payload is swapped if the header is. *)
Definition entry_holds (hb : bool) (mode : ovmode) (p : rptr) (d : samples) : Prop :=
  let m := p_msr p in
  (m_cnt m = 0 /\ d = SInt []) \/
  (0 < m_cnt m /\ 0 <= m_enc m < 256 /\ (m_swaph m = true -> m_swapp m = true) /\
   exists rec ext a, bytes_at p rec /\ payload_at hb rec m (p_off p) ext /\ 0 <= p_off p /\ 0 <= ext /\ p_off p + ext <= m_reclen m /\
     unpack_data hb mode a rec m = Ok d).

(** The size and type of the decoded samples of an encoding. *)
Definition type_of (enc : Z) : Z :=
  match enc with 0 => 116 | 4 | 12 | 13 | 14 => 102 | 5 => 100 | _ => 105 end.

(** ** The same list without samples *)

Definition bare_rec (r : trec) : trec := mk_trec (r_sid r) (r_pub r) (r_start r) (r_rate r) (r_cnt r) 0 [].
Definition bare_seg (s : seg) : seg :=
  mk_seg (s_start s) (s_end s) (s_hz s) (s_cnt s) 0 [] (map (fun x => (bare_rec (fst x), snd x)) (s_recs s)).
(** Tolerances that do not look at the samples. *)
Definition blind (f : conf) : Prop :=
  match f_ttol f with Some x => forall r, x (bare_rec r) = x r | None => True end /\
  match f_rtol f with Some x => forall r, x (bare_rec r) = x r | None => True end.

(** The lists [k] and [k'] have the same identifiers with the same segments, in [k']
    without samples. *)
Definition same_without_samples (k k' : tlist) : Prop :=
  forall ids, tl_ids k = Ok ids -> exists ids', tl_ids k' = Ok ids' /\
    Forall2 (fun t t' => t_sid t' = t_sid t /\ t_pub t' = t_pub t /\ t_early t' = t_early t /\ t_late t' = t_late t /\ t_num t' = t_num t /\
                         forall segs, tid_segs t = Ok segs -> tid_segs t' = Ok (map bare_seg segs)) ids ids'.

(** ** Buffers *)

(** The records read: all but a last one of exactly 40 bytes with nothing behind it. *)
Definition all_read (parts : list part) (rest : list Z) : Prop :=
  forall front x, parts = front ++ [x] -> 40 < lenZ (layout3 (pt_hdr x)) + lenZ rest.

(** What follows the records: at most 40 bytes, or a record that is not complete. *)
Definition ends (rest : list Z) : Prop :=
  lenZ rest <= 40 \/ (signature3 rest /\ lenZ rest < length3 rest <= 10485760).

(** The entry made for the record [x] at position [pos] of the buffer. *)
Definition entry_for (addr : Z) (buffer : list Z) (px : Z * part) (p : rptr) : Prop :=
  p_msr p = part_head (snd px) /\ p_src p = SBuf (skipn (Z.to_nat (fst px)) buffer) ((addr + fst px) mod 8) /\
  p_off p = 40 + lenZ (until0 (h_sid (pt_hdr (snd px)))) + lenZ (h_extra (pt_hdr (snd px))).

(** What is no record, and the code returned for it: no header of either version, a
    length that is not supported, a wrong checksum (when checked). *)
Definition stops (flags : Z) (rest : list Z) (c : Z) : Prop :=
  40 < lenZ rest /\
  ((~ signature3 rest /\ ~ signature2 rest /\ c = -2) \/
   (signature3 rest /\ 10485760 < length3 rest < 2 ^ 32 /\ c = -4) \/
   (exists h tail, rest = layout3 h ++ tail /\ hdr_ok h /\ lenZ (h_sid h) < 64 /\ bytes_ok tail /\
      has_flag flags 4 = true /\ h_crc h <> crc3 h /\ c = -7)).

(** The encodings that can be decoded. *)
Definition known_encoding (enc : Z) : Prop := In enc [0; 1; 3; 4; 5; 10; 11; 12; 13; 14; 16; 30; 32].
Definition total (ps : list rptr) : Z := sum (map (fun p => m_cnt (p_msr p)) ps).
(** An entry that cannot be added to samples of type [type]: its samples are of another
    type or in an encoding that is not known; its file is too short; it has no place. *)
Definition unusable (type : Z) (p : rptr) : Prop :=
  0 < m_cnt (p_msr p) /\ 0 <= m_enc (p_msr p) < 256 /\
  (~ known_encoding (m_enc (p_msr p)) \/ type_of (m_enc (p_msr p)) <> type \/
   match p_src p with SBuf _ _ => False | SFile data => lenZ data < m_reclen (p_msr p) | SNone => True end).

(** The entry [p] is that of the record [x] of a segment, which is one of the [parts] of
    the buffer. *)
Definition entry_of (addr : Z) (buffer : list Z) (parts : list part) (x : trec * Z) (p : rptr) : Prop :=
  exists px, In px (contents 0 parts) /\ entry_for addr buffer px p /\ fst x = trec_of (part_rec (snd px)).
(** The same records, samples not asked for. *)
Definition undecoded (x : part) : part := mk_part (pt_junk x) (pt_hdr x) (pt_time x) None.
(** The settings without unpacking. *)
Definition b_undecoded (b : bconf) : bconf :=
  mk_bconf (b_hb b) (b_mode b) (b_addr b) (b_leaps b) (b_ttol b) (b_rtol b) (b_split b) (Z.ldiff (b_flags b) 1) (b_select b) (b_unpack2 b).
