(** * The miniSEED 3 record layout, stated on its own. *)

From Verif Require Export Base CrcSpec RecModel.
Open Scope Z_scope.

(** The fields of a record.  [h_rate] is the 64-bit pattern of the sample rate. *)
Record hdr := mk_hdr {
  h_flags : Z; h_nsec : Z; h_year : Z; h_day : Z; h_hour : Z; h_min : Z; h_sec : Z;
  h_enc : Z; h_rate : Z; h_cnt : Z; h_crc : Z; h_pub : Z;
  h_sid : list Z; h_extra : list Z; h_payload : list Z }.

Definition lenZ {A} (l : list A) : Z := Z.of_nat (length l).

(** The 40 fixed bytes (all multi-byte fields little-endian) and the whole record. *)
Definition fixed3 (h : hdr) : list Z :=
  [77; 83; 3; h_flags h] ++ le_bytes 4 (h_nsec h) ++ le_bytes 2 (h_year h) ++ le_bytes 2 (h_day h)
  ++ [h_hour h; h_min h; h_sec h; h_enc h] ++ le_bytes 8 (h_rate h) ++ le_bytes 4 (h_cnt h)
  ++ le_bytes 4 (h_crc h) ++ [h_pub h; lenZ (h_sid h)] ++ le_bytes 2 (lenZ (h_extra h))
  ++ le_bytes 4 (lenZ (h_payload h)).
Definition layout3 (h : hdr) : list Z := fixed3 h ++ h_sid h ++ h_extra h ++ h_payload h.

(** The fields fit their places and the record is one the library supports. *)
Definition hdr_ok (h : hdr) : Prop :=
  in_u 8 (h_flags h) /\ in_u 32 (h_nsec h) /\ in_u 16 (h_year h) /\ in_u 16 (h_day h) /\
  0 <= h_hour h <= 23 /\ 0 <= h_min h <= 59 /\ 0 <= h_sec h <= 60 /\ in_u 8 (h_enc h) /\
  in_u 64 (h_rate h) /\ in_u 32 (h_cnt h) /\ in_u 32 (h_crc h) /\ in_u 8 (h_pub h) /\
  bytes_ok (h_sid h) /\ lenZ (h_sid h) < 256 /\ bytes_ok (h_extra h) /\ lenZ (h_extra h) < 65536 /\
  bytes_ok (h_payload h) /\ lenZ (layout3 h) <= 10485760.

(** The checksum the format prescribes: over the record with the field zero. *)
Definition with_crc (h : hdr) (c : Z) : hdr :=
  mk_hdr (h_flags h) (h_nsec h) (h_year h) (h_day h) (h_hour h) (h_min h) (h_sec h) (h_enc h)
         (h_rate h) (h_cnt h) c (h_pub h) (h_sid h) (h_extra h) (h_payload h).
Definition crc3 (h : hdr) : Z := crc32c (layout3 (with_crc h 0)) 0.

(** What a parsed record holds: the header fields, the start time [start] of the
    calendar fields, and which parts are in the other byte order than the host (the
    header is little-endian, Steim payloads are big-endian, others little-endian). *)
Definition rec_of (hb : bool) (start : Z) (h : hdr) (d : option samples) : msr :=
  mk_msr (lenZ (layout3 h)) hb (if (h_enc h =? 10) || (h_enc h =? 11) then negb hb else hb) 3
         (h_flags h) (until0 (h_sid h)) start (h_rate h) (h_enc h) (h_pub h) (h_cnt h) (h_crc h)
         (h_extra h) (lenZ (h_payload h)) d.

(** The signature of a version 3 record, and the lengths stated in the fixed header
    (identifier, extra headers, payload). *)
Definition signature3 (buf : list Z) : Prop :=
  nth 0 buf 0 = 77 /\ nth 1 buf 0 = 83 /\ nth 2 buf 0 = 3 /\
  nth 12 buf 0 <= 23 /\ nth 13 buf 0 <= 59 /\ nth 14 buf 0 <= 60.
Definition stated_lengths (buf : list Z) : Z :=
  le_val (firstn 1 (skipn 33 buf)) + le_val (firstn 2 (skipn 34 buf)) + le_val (firstn 4 (skipn 36 buf)).
