(** * Specification notions for packing a trace list. *)

From Verif Require Export Base TlModel RecModel RecSpec PackSpec Pack2Spec SampleSpec TlPackModel.
Open Scope Z_scope.

(** ** What is asked for *)

(** The encoding: text and floating point samples have one each, integers the one given. *)
Definition encoding_for (o : popt) (type : Z) : Z :=
  match type with 116 => 0 | 102 => 4 | 100 => 5 | _ => o_encoding o end.

(** The record to be made of a segment, before it is split. *)
Definition wanted (o : popt) (t : tid) (s : seg) : msr :=
  {| m_reclen := o_reclen o; m_swaph := false; m_swapp := false; m_fver := 0; m_flags := 0; m_sid := t_sid t; m_start := s_start s;
     m_rate := dbits (s_hz s); m_enc := encoding_for o (s_type s); m_pub := t_pub t; m_cnt := s_cnt s; m_crc := 0;
     m_extra := extra_text o; m_datalen := 0; m_data := None |}.

(** ** What is done with a segment *)

(** The records made, the number of samples in them, the segment afterwards. *)
Record outcome := mk_out { x_recs : list (list Z); x_ret : Z; x_tot : Z; x_seg : seg }.

(** What is left of a segment when [tot] samples have been packed: with MSF_MAINTAINMSTL
    all of it, otherwise the other samples and the time of the first of them. *)
Definition left (leaps : list Z) (flags : Z) (s : seg) (tot : Z) (s' : seg) : Prop :=
  if has_flag flags 512 || (tot =? 0) then s' = s
  else s_data s' = skipn (Z.to_nat tot) (s_data s) /\ s_cnt s' = s_cnt s - tot /\ s_end s' = s_end s /\ s_hz s' = s_hz s
    /\ s_type s' = s_type s /\ s_recs s' = s_recs s
    /\ (if tot =? lenZ (s_data s) then s_start s' = s_end s
        else exists q, s_hz s = DFin q /\ starts_at (s_start s) leaps q tot (s_start s')).

(** The segment has been packed as version 3: each record parses to the identifier,
    version, rate and samples, starting when its first sample does; together they have the
    first [x_tot] samples, with MSF_FLUSHDATA all.  A segment without samples gives a header. *)
Definition packed3 (u : list Z -> Z -> res msr) (mode : ovmode) (addr : Z) (recip : Z -> Z) (leaps : list Z) (o : popt) (t : tid) (s : seg) (x : outcome) : Prop :=
  let m := wanted o t s in
  x_ret x = lenZ (x_recs x) /\ 0 <= x_tot x <= lenZ (s_data s) /\ (has_flag (o_flags o) 64 = true -> x_tot x = lenZ (s_data s)) /\
  left leaps (o_flags o) s (x_tot x) (x_seg x) /\
  (s_data s = [] -> exists r crc, x_recs x = [r] /\
     parse u false mode addr 5 r =
     Ok (PRec (mk_msr (hdrlen m) false false 3 0 (t_sid t) (s_start s) (rate_of recip m) 0 (t_pub t) 0 crc (extra_text o) 0 None))) /\
  (s_data s <> [] -> exists q chunks, s_hz s = DFin q /\ concat chunks = firstn (Z.to_nat (x_tot x)) (s_data s) /\
     described (fun k c r => c <> [] /\ lenZ r <= maxlen m /\ exists st crc datalen, starts_at (s_start s) leaps q k st /\
        parse u false mode addr 5 r =
        Ok (PRec (mk_msr (lenZ r) false (is_steim (encoding_of m)) 3 0 (t_sid t) st (rate_of recip m) (encoding_of m) (t_pub t) (lenZ c) crc
                         (extra_text o) datalen (Some (SInt c))))) 0 (x_recs x) chunks).

(** The same for version 2, where times, rates and publication versions are those that
    such a record can hold (see C44). *)
Definition packed2 (J : json) (hb : bool) (mode : ovmode) (addr : Z) (leaps : list Z) (o : popt) (t : tid) (s : seg) (x : outcome) : Prop :=
  let m := wanted o t s in
  let extra := if micros (s_start s) =? 0 then [] else quality0 in
  x_ret x = lenZ (x_recs x) /\ 0 <= x_tot x <= lenZ (s_data s) /\ (has_flag (o_flags o) 64 = true -> x_tot x = lenZ (s_data s)) /\
  left leaps (o_flags o) s (x_tot x) (x_seg x) /\
  (s_data s = [] -> exists r rate datalen, x_recs x = [r] /\ lenZ r = maxlen m /\ rate_back (dbits (s_hz s)) rate /\
     parse (unpack2 J hb mode addr 1) hb mode addr 1 r =
     Ok (PRec (mk_msr (maxlen m) (negb hb) (negb hb) 2 0 (t_sid t) (tenths (s_start s) + micros (s_start s) * 1000) rate 0
                      (version2 (t_pub t)) 0 0 extra datalen None))) /\
  (s_data s <> [] -> exists q chunks, s_hz s = DFin q /\ concat chunks = firstn (Z.to_nat (x_tot x)) (s_data s) /\
     described (fun k c r => c <> [] /\ lenZ r = maxlen m /\ exists st rate datalen, starts_at (s_start s) leaps q k st /\ rate_back (dbits (s_hz s)) rate /\
        parse (unpack2 J hb mode addr 1) hb mode addr 1 r =
        Ok (PRec (mk_msr (maxlen m) (negb hb) (negb hb) 2 0 (t_sid t) (tenths st + micros (s_start s) * 1000) rate (encoding_of m)
                         (version2 (t_pub t)) (lenZ c) 0 extra datalen (Some (SInt c))))) 0 (x_recs x) chunks).

(** ** What can be packed *)

(** Options and memory: a permitted length, extra headers of less than 64 KiB. *)
Definition good_call (e : penv) (o : popt) : Prop :=
  (forall b, in_u 64 (e_recip e b)) /\ bytes_ok (e_alloc e) /\ (o_reclen o = -1 \/ 40 <= o_reclen o <= 10485760) /\
  (if o_reclen o <? 0 then 4096 else o_reclen o) <= lenZ (e_alloc e) /\
  bytes_ok (extra_text o) /\ Forall (fun b => b <> 0) (extra_text o) /\ lenZ (extra_text o) < 65536.

(** The same for version 2. *)
Definition good_call2 (e : penv) (o : popt) : Prop :=
  (64 <= length (e_stack e))%nat /\ (o_reclen o = -1 \/ 40 <= o_reclen o <= 10485760) /\
  reclen2_ok (if o_reclen o <? 0 then 4096 else o_reclen o) /\
 (if o_reclen o <? 0 then 4096 else o_reclen o) <= lenZ (e_alloc e) /\ extra_text o = [].
Definition good_id2 (t : tid) : Prop := exists k, codes_ok k /\ t_sid t = codes_sid k.

(** An identifier of at most 63 characters. *)
Definition good_id (t : tid) : Prop :=
  bytes_ok (t_sid t) /\ lenZ (t_sid t) < 64 /\ Forall (fun b => b <> 0) (t_sid t) /\ in_u 8 (t_pub t).

(** A segment with a positive rate that is a double, samples of a type that goes with the
    encoding, a time span of at most 73 years that starts after 1902. *)
Definition ready3 (mode2 : ovmode) (e : penv) (o : popt) (t : tid) (s : seg) : Prop :=
  let m := wanted o t s in
  (exists x q, rnd64 x = Some q /\ s_hz s = DFin q /\ (0 < q)%Q /\ (exact_span (lenZ (s_data s)) q <= inject_Z (2 ^ 61))%Q) /\
  NSTERROR < s_start s <= 2 ^ 62 /\ 0 <= s_cnt s < 2 ^ 63 /\
  packable (e_mode e) (encoding_of m) (s_type s) (s_data s) /\ packable mode2 (encoding_of m) (s_type s) (s_data s) /\
  storable (encoding_of m) (s_data s) /\ lenZ (s_data s) < 2 ^ 31 /\ lenZ (s_data s) < Z.of_nat (e_fuel e) /\
  hdrlen m + min_payload (encoding_of m) <= maxlen m.

(** The same for version 2: samples that fit a record, a rate for which factor and
    multiplier exist, dates that are recognized on the host of byte order [hb2]. *)
Definition ready2 (hb2 : bool) (mode2 : ovmode) (e : penv) (o : popt) (t : tid) (s : seg) : Prop :=
  let m := wanted o t s in
  (exists x q, rnd64 x = Some q /\ s_hz s = DFin q /\ (0 < q)%Q /\ (exact_span (lenZ (s_data s)) q <= inject_Z (2 ^ 61))%Q /\
     forall k st, 0 <= k <= lenZ (s_data s) -> starts_at (s_start s) (e_leaps e) q k st -> dated hb2 st) /\
  NSTERROR < s_start s <= 2 ^ 62 /\ 0 <= s_cnt s < 2 ^ 63 /\
  packable (e_mode e) (encoding_of m) (s_type s) (s_data s) /\ packable mode2 (encoding_of m) (s_type s) (s_data s) /\
  storable (encoding_of m) (s_data s) /\ lenZ (s_data s) < 65536 /\ lenZ (s_data s) < Z.of_nat (e_fuel e) /\
  readable m /\ (is_steim (encoding_of m) = true -> 128 < maxlen m) /\
  exists f, genfactmult (e_mode e) (sampratehz (dbits (s_hz s))) = Ok f.

(** The same entry with other segments. *)
Definition same_entry (t t' : tid) : Prop :=
  t_sid t' = t_sid t /\ t_pub t' = t_pub t /\ t_early t' = t_early t /\ t_late t' = t_late t /\ t_num t' = t_num t /\
  t_first t' = t_first t /\ t_last t' = t_last t /\ t_fresh t' = t_fresh t.

(** What a call yields from the outcomes for all segments, entry after entry. *)
Definition total (f : outcome -> Z) (xss : list (list outcome)) : Z := fold_right (fun x a => f x + a) 0 (concat xss).
Definition yields (ids : list tid) (o : popt) (xss : list (list outcome)) (r : packed) : Prop :=
  p_recs r = concat (map x_recs (concat xss)) /\ p_ret r = total x_ret xss /\
  exists k' ids', p_done r = Some (total x_tot xss, k') /\ tl_ids k' = Ok ids' /\ Forall2 same_entry ids ids' /\
    Forall2 (fun t' xs => tid_segs t' = Ok (map x_seg xs)) ids' xss.
