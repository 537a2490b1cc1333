(** * Specification vocabulary for packing version 3 records. *)

From Verif Require Export Base SteimSpec CrcSpec RecModel RecSpec.
Open Scope Z_scope.

(** A series of samples of the type that goes with an encoding: text bytes, integers
    that fit, bit patterns of floats.  For the Steim encodings the differences must be
    computable under the overflow behaviour [mode] (see [compressible]). *)
Definition packable (mode : ovmode) (enc type : Z) (src : list Z) : Prop :=
  (enc = 0 /\ (type = 116 \/ type = 97) /\ bytes_ok src) \/
  (enc = 1 /\ type = 105 /\ Forall (in_s 16) src) \/
  (enc = 3 /\ type = 105 /\ Forall (in_s 32) src) \/
  (enc = 4 /\ type = 102 /\ Forall (in_u 32) src) \/
  (enc = 5 /\ type = 100 /\ Forall (in_u 64) src) \/
  ((enc = 10 \/ enc = 11) /\ type = 105 /\ compressible mode src).

(** The smallest payload that holds a sample. *)
Definition min_payload (enc : Z) : Z :=
  if enc =? 0 then 1 else if enc =? 1 then 2 else if (enc =? 3) || (enc =? 4) then 4
  else if enc =? 5 then 8 else 64.

(** Steim-2 stores differences of at most 30 bits. *)
Definition storable (enc : Z) (src : list Z) : Prop :=
  enc = 11 -> Forall fits30 (stored_diffs 0 src).

(** The samples and the rest of a list of records, described one after the other:
    [D k c r] says what record [r] is, which holds the samples [c] and is preceded by
    [k] samples in earlier records. *)
Fixpoint described (D : Z -> list Z -> list Z -> Prop) (k : Z) (recs chunks : list (list Z)) : Prop :=
  match recs, chunks with
  | [], [] => True
  | r :: rs, c :: cs => D k c r /\ described D (k + lenZ c) rs cs
  | _, _ => False
  end.

(** ** The record handed to the packer *)

(** Record length and encoding with their defaults (reclen and encoding -1). *)
Definition maxlen (m : msr) : Z := if m_reclen m <? 0 then 4096 else m_reclen m.
Definition encoding_of (m : msr) : Z := uwrap 8 (if m_enc m <? 0 then 11 else m_enc m).

(** The rate stored in the record: rates between 0 and 1 (their bit patterns lie
    between those of 0.0 and 1.0) are stored as a negative period. *)
Definition rate_of (recip : Z -> Z) (m : msr) : Z :=
  if (0 <? m_rate m) && (m_rate m <? 0x3FF0000000000000) then recip (m_rate m) else m_rate m.

(** The fields fit their places. *)
Definition msr_ok (recip : Z -> Z) (m : msr) : Prop :=
  in_u 8 (m_flags m) /\ in_s 64 (m_start m) /\ in_u 64 (rate_of recip m) /\ in_u 8 (m_pub m) /\
  bytes_ok (m_sid m) /\ lenZ (m_sid m) < 256 /\ bytes_ok (m_extra m) /\ lenZ (m_extra m) < 65536.
Definition hdrlen (m : msr) : Z := 40 + lenZ (m_sid m) + lenZ (m_extra m).
Definition reclen_ok (m : msr) : Prop := m_reclen m = -1 \/ 40 <= m_reclen m <= 10485760.

(** A start time a record can hold and the parser accepts: from 1678 on, and not the
    instant 1902-01-01T00:00:00 whose value is the error code. *)
Definition readable_time (t : Z) : Prop := in_s 64 t /\ -9214560000000000000 <= t /\ t <> NSTERROR.

(** The start time of a record preceded by [k] samples. *)
Definition record_time (nexttime : Z -> Z) (m : msr) (k : Z) : Z := if k =? 0 then m_start m else nexttime k.

(** Record [r] parses, with checksum validation and data unpacking, to the header of
    [m], the start time for [k] preceding samples, and the samples [c]. *)
Definition read_back (unpack2 : list Z -> Z -> res msr) (mode : ovmode) (addr : Z) (recip nexttime : Z -> Z)
           (m : msr) (k : Z) (c r : list Z) : Prop :=
  exists crc datalen,
    parse unpack2 false mode addr 5 r =
    Ok (PRec (mk_msr (lenZ r) false (is_steim (encoding_of m)) 3 (m_flags m) (m_sid m) (record_time nexttime m k)
                     (rate_of recip m) (encoding_of m) (m_pub m) (lenZ c) crc (m_extra m) datalen (Some (SInt c)))).
