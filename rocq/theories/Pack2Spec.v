(** * Specification vocabulary for packing version 2 records. *)

From Coq Require Import String QArith.
From Verif Require Export Base ConvSpec RecSpec PackSpec V2RecSpec Pack2Model.
Open Scope Z_scope.

(** ** What is packed *)

(** A code of at most [n] characters that an identifier and a version 2 header can hold. *)
Definition code_ok (n : Z) (s : list Z) : Prop :=
  lenZ s <= n /\ Forall (fun c => 1 <= c <= 127 /\ c <> 32 /\ c <> 95 /\ c <> 58) s.
Definition band_ok (c : Z) : Prop := 1 <= c <= 127 /\ c <> 95 /\ c <> 58.
(** The codes of network, station, location and the three of the channel. *)
Record codes := mk_codes { k_net : list Z; k_sta : list Z; k_loc : list Z; k_band : Z; k_source : Z; k_sub : Z }.
Definition codes_ok (k : codes) : Prop :=
  code_ok 2 (k_net k) /\ code_ok 5 (k_sta k) /\ code_ok 2 (k_loc k) /\
  band_ok (k_band k) /\ band_ok (k_source k) /\ band_ok (k_sub k).
Definition codes_sid (k : codes) : list Z :=
  sid_text (k_net k) (k_sta k) (k_loc k) [k_band k; 95; k_source k; 95; k_sub k].

(** Record lengths of version 2: the powers of two from 128 on. *)
Definition reclen2_ok (n : Z) : Prop := exists e, 7 <= e <= 17 /\ n = 2 ^ e.

(** The microseconds of the start time that its 0.1 milliseconds leave. *)
Definition micros (t : Z) : Z := t / 1000 mod 100.
Definition tenths (t : Z) : Z := t / 100000 * 100000.

(** A time that a version 2 header can hold and that is recognized on a host of byte
    order [hb] (true for big-endian): see C43 for the dates left out. *)
Definition dated (hb : bool) (t : Z) : Prop :=
  let d := day_at (t / 86400000000000) in
  in_s 64 t /\ 1678 <= d_year d <= 2261 /\
  (if hb then 1900 <= d_year d <= 2100 else ~ (In (d_year d) [1800; 2056] /\ In (d_yday d) [1; 256; 257])) /\
  tenths t <> NSTERROR.

(** What is handed to the packer: codes in the identifier, a length of version 2, a rate
    that is a number. *)
Definition sendable (m : msr) (k : codes) : Prop :=
  codes_ok k /\ m_sid m = codes_sid k /\ reclen2_ok (maxlen m) /\ in_s 64 (m_start m) /\
  0 <= m_rate m < 2 ^ 64 /\ exists x, dval (m_rate m) = DFin x.

(** Not read back are samples of a fixed size in records of more than 65536 bytes, and
    Steim compressed ones in records of 256 bytes unless there is a blockette 1001. *)
Definition readable (m : msr) : Prop :=
  if is_steim (encoding_of m) then maxlen m <> 256 \/ micros (m_start m) <> 0 else maxlen m <= 65536.

(** ** What the records are *)

Definition fill (n : Z) (s : list Z) : list Z := s ++ repeat 32 (Z.to_nat (n - lenZ s)).
Definition btime_at (t : Z) : btime :=
  mk_btime (t / 86400000000000) (t / 3600000000000 mod 24) (t / 60000000000 mod 60) (t / 1000000000 mod 60) 0
           (t mod 1000000000 / 100000).
Definition flag (v : Z) (i w : Z) : Z := if Z.testbit v i then w else 0.
Definition version_char (pub : Z) : Z := match pub with 1 => 82 | 3 => 81 | 4 => 77 | _ => 68 end.
Definition version2 (pub : Z) : Z := match pub with 1 => 1 | 3 => 3 | 4 => 4 | _ => 2 end.

(** The header of a record that starts at [t] with [cnt] samples, the data at [off]. *)
Definition hdr_of (m : msr) (k : codes) (factor multiplier nblk t cnt off : Z) : hdr2 :=
  mk_hdr2 (repeat 48 6) (version_char (m_pub m)) 32 (fill 5 (k_sta k)) (fill 2 (k_loc k)) (k_band k, k_source k, k_sub k)
          (fill 2 (k_net k)) (btime_at t) cnt factor multiplier (flag (m_flags m) 0 1) (flag (m_flags m) 2 32)
          (flag (m_flags m) 1 128) nblk 0 off.
(** Its blockettes: 1000, 1001 with the microseconds [us] unless they are 0, 100 with the
    rate [w] if there is one. *)
Definition blks_of (enc e us : Z) (w : option Z) : list (blk * list Z) :=
  (B1000 enc 1 e 0, []) :: (if us =? 0 then [] else [(B1001 0 us 0 0, [])])
  ++ match w with Some w => [(B100 w [0; 0; 0; 0], [])] | None => [] end.

(** The rate in samples per second of a rate or negative period [r]. *)
Definition hertz (r : Q) : Q := if Qlt_le_dec r 0 then (- / r)%Q else r.

(** ** What they read back as *)

(** The rate [b] read for the rate [r] (patterns): the float nearest to it, or one that
    differs by little more than 0.0001 samples per second. *)
Definition rate_back (r b : Z) : Prop :=
  (exists w, nearest_float r w /\ same_value w b) \/
  exists x v, dval r = DFin x /\ dval b = DFin v /\
    (Qabs.Qabs (v - hertz x) <= (1 # 10000) + (hertz x + 1) * (1 # 2 ^ 48))%Q.

(** The extra headers of a record with a blockette 1001. *)
Definition quality0 : list Z := chars "{""FDSN"":{""Time"":{""Quality"":0}}}"%string.

(** Record [r] parses on a host of byte order [hb], with the data, to the header of [m],
    the start time for [k] preceding samples, and the samples [c]. *)
Definition read_back2 (J : json) (hb : bool) (mode : ovmode) (addr : Z) (nexttime : Z -> Z) (m : msr) (k : Z) (c r : list Z) : Prop :=
  exists rate datalen, rate_back (m_rate m) rate /\
    parse (unpack2 J hb mode addr 1) hb mode addr 1 r =
    Ok (PRec (mk_msr (maxlen m) (negb hb) (negb hb) 2 (m_flags m mod 8) (m_sid m)
                     (tenths (record_time nexttime m k) + micros (m_start m) * 1000)
                     rate (encoding_of m) (version2 (m_pub m)) (lenZ c) 0
                     (if micros (m_start m) =? 0 then [] else quality0) datalen (Some (SInt c)))).
