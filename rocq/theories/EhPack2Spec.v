(** * What version 2 records with extra headers read back as. *)

From Coq Require Import String QArith.
From Verif Require Export EhPackSpec.
Open Scope Z_scope.

(** The header of one record of a series: its start, its number of samples, the data offset. *)
Definition with_data (h : hdr2) (t cnt off : Z) : hdr2 :=
  mk_hdr2 (f_seq h) (f_quality h) (f_reserved h) (f_sta h) (f_loc h) (f_chan h) (f_net h) (btime_at t) cnt (f_fact h) (f_mult h)
          (f_act h) (f_io h) (f_dq h) (f_nblk h) (f_corr h) off.

(** Where the data of a record begin: after the header, at a multiple of 64 for the Steim
    encodings. *)
Definition data_begin (enc hl : Z) : Z := if is_steim enc then (hl + 63) / 64 * 64 else hl.

(** Compressed samples are read back if the data begin before the middle of the record and a
    frame, others in records of up to 65536 bytes. *)
Definition readable_at (m : msr) (hl : Z) : Prop :=
  if is_steim (encoding_of m) then 2 * data_begin (encoding_of m) hl + 64 <= maxlen m else maxlen m <= 65536.

(** Record [r] parses, with the data, to the fields of [m], the extra headers of [h] and [bs],
    the start time for [i] preceding samples, and the samples [c]. *)
Definition read_backx (J : json) (hb : bool) (mode : ovmode) (addr : Z) (nexttime : Z -> Z) (m : msr) (h : hdr2) (bs : list (blk * list Z))
           (i : Z) (c r : list Z) : Prop :=
  exists rate datalen, rate_back (m_rate m) rate /\
    parse (unpack2 J hb mode addr 1) hb mode addr 1 r =
    Ok (PRec (mk_msr (maxlen m) (negb hb) (negb hb) 2 (m_flags m mod 8) (m_sid m)
                     (tenths (record_time nexttime m i) + micros (m_start m) * 1000)
                     rate (encoding_of m) (version_of (f_quality h)) (lenZ c) 0 (extra_text J h bs) datalen (Some (SInt c)))).
