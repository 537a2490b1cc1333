(** * Specification notions for repacking a record as version 3. *)

From Verif Require Export Base RecModel RecSpec PackSpec DataSpec.
Open Scope Z_scope.

(** A Steim payload as encoders make it: at least one frame in use, the first byte of a
    frame in use (the codes of its first words) is not zero, and frames without data,
    whose code words are zero, come last. *)
Definition frames_then_padding (p : list Z) : Prop :=
  exists g, (1 <= g)%nat /\ (forall k, (k < g)%nat -> nth (64 * k) p 0 <> 0)
    /\ (forall k i, (g <= k)%nat -> (i < 4)%nat -> nth (64 * k + i) p 0 = 0).

(** How much of a payload of [ext] bytes is taken over: all of it, except that a payload
    larger than its samples is cut to their size modulo 2^16, and that whole frames may be
    dropped from the end of a Steim payload. *)
Definition kept (enc cnt ext size : Z) : Prop :=
  match sample_bytes enc with
  | Some w => size = if sized enc && (cnt * w <? ext) then (cnt * w) mod 65536 else ext
  | None => if is_steim enc then 0 <= size <= ext /\ (ext - size) mod 64 = 0 else size = ext
  end.

(** The payload holds the samples stated and is not cut short of them. *)
Definition holds_samples (m : msr) (ext : Z) : Prop :=
  match sample_bytes (m_enc m) with
  | Some w => m_cnt m * w <= ext /\ (sized (m_enc m) = true -> m_cnt m * w = ext \/ m_cnt m * w < 65536)
  | None => True
  end.

(** The byte order of payloads in version 3, on a little-endian host: Steim frames
    big-endian, everything else little-endian; text has no order. *)
Definition version3_order (m : msr) : Prop := m_enc m = 0 \/ m_swapp m = is_steim (m_enc m).

(** What the repacked record parses to. *)
Definition repacked (recip : Z -> Z) (m : msr) (size crc : Z) (d : option samples) : msr :=
  mk_msr (hdrlen m + size) false (is_steim (encoding_of m)) 3 (m_flags m) (m_sid m) (m_start m)
         (rate_of recip m) (encoding_of m) (m_pub m) (m_cnt m) crc (m_extra m) size d.

(** A record that can be repacked: the fields fit their places, the identifier and the
    start time can be read back. *)
Definition repackable (recip : Z -> Z) (m : msr) : Prop :=
  msr_ok recip m /\ lenZ (m_sid m) < 64 /\ Forall (fun b => b <> 0) (m_sid m) /\
  readable_time (m_start m) /\ 0 <= m_cnt m < 2 ^ 31 /\ 40 <= m_reclen m <= 10485760.
