(** * Specification notions for unpacking the samples of a record. *)

From Verif Require Export Base RecModel RecSpec.
Open Scope Z_scope.

(** No access outside an object and an ordinary end; integer overflow in the Steim
    decoders (C03) is undefined behaviour of another kind. *)
Definition inside {A} (mode : ovmode) (r : res A) : Prop :=
  match r with
  | Ok _ => True
  | Err c => c < 0
  | UB SignedOverflow => mode = Strict
  | UB _ | Fuel => False
  end.

(** Bytes of one encoded sample, for the encodings with a fixed width: text, 16 and 32 bit
    integers, floats, doubles, GEOSCOPE 24 bit, GEOSCOPE gain ranged, CDSN, SRO, DWWSSN. *)
Definition sample_bytes (enc : Z) : option Z :=
  match enc with
  | 0 => Some 1 | 1 => Some 2 | 3 => Some 4 | 4 => Some 4 | 5 => Some 8
  | 12 => Some 3 | 13 => Some 2 | 14 => Some 2 | 16 => Some 2 | 30 => Some 2 | 32 => Some 2
  | _ => None
  end.
(** Bytes of one decoded sample. *)
Definition decoded_bytes (enc : Z) : Z := match enc with 0 => 1 | 5 => 8 | _ => 4 end.
(** The encodings for which the library computes the payload size from the sample count. *)
Definition sized (enc : Z) : bool := match enc with 0 | 1 | 3 | 4 | 5 => true | _ => false end.

(** Where a record's header puts the payload. *)
Definition payload_at (hb : bool) (rec : list Z) (m : msr) (off ext : Z) : Prop :=
  (m_fver m = 3 /\ off = 40 + lenZ (m_sid m) + lenZ (m_extra m) /\ ext = m_datalen m)
  \/ (m_fver m = 2 /\ rd hb (m_swaph m) 2 44 rec = Ok off /\ ext = m_reclen m - off).

(** The number of payload bytes the decoder can read: everything to the end of the record
    when the payload is aligned for the decoded samples, otherwise a copy of the payload,
    whose size is that of the samples when that is smaller, taken modulo 2^16. *)
Definition available (addr : Z) (m : msr) (off ext need : Z) : Z :=
  if (addr + off) mod decoded_bytes (m_enc m) =? 0 then m_reclen m - off
  else if sized (m_enc m) && (need <? ext) then need mod 65536 else ext.

(** The record can be unpacked at all. *)
Definition unpackable (m : msr) (off : Z) : Prop :=
  1 <= m_cnt m < 2 ^ 31 /\ 40 <= m_reclen m <= 10485760 /\ 40 <= off < m_reclen m.

(** The header is consistent: the samples stated fit in the payload stated. *)
Definition consistent (h : hdr) : Prop :=
  match sample_bytes (h_enc h) with Some w => h_cnt h * w <= lenZ (h_payload h) | None => True end.
(** The payload is not larger than the samples, or the samples take less than 64 KiB, or
    there is nothing to copy. *)
Definition not_truncated (addr : Z) (h : hdr) : Prop :=
  match sample_bytes (h_enc h) with
  | Some w => h_cnt h * w = lenZ (h_payload h) \/ h_cnt h * w < 65536 \/ sized (h_enc h) = false
              \/ (addr + 40 + lenZ (until0 (h_sid h)) + lenZ (h_extra h)) mod decoded_bytes (h_enc h) = 0
  | None => True
  end.
