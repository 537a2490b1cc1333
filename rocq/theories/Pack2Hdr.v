(** * The header of a packed version 2 record. *)

From Coq Require Import String.
From Verif Require Import Base BaseLemmas TimeModel TimeSpec TimeProof StrModel StrSpec StrProof RecModel RecSpec RecProof PackModel PackSpec PackProof
  V2Model V2RecSpec V2RecProof V2RecParse Pack2Model Pack2Spec.
Open Scope Z_scope.

Lemma be_ord hb n v : be hb n v = ord true n v.
Proof. unfold be, st. rewrite gswap_host_bytes. destruct hb; reflexivity. Qed.

(** ** Fields of a fixed length *)

Lemma two (l : list Z) : lenZ l = 2 -> exists a b, l = [a; b].
Proof. unfold lenZ. destruct l as [|a [|b [|c l]]]; cbn [length]; try lia. eauto. Qed.
Lemma five (l : list Z) : lenZ l = 5 -> exists a b c d e, l = [a; b; c; d; e].
Proof. unfold lenZ. destruct l as [|a [|b [|c [|d [|e [|f l]]]]]]; cbn [length]; try lia. eauto 6. Qed.

Lemma lenZ_fill n s : lenZ s <= n -> lenZ (fill n s) = n.
Proof. intros L. pose proof (lenZ_nonneg s). unfold fill. rewrite lenZ_app. unfold lenZ in *. rewrite repeat_length. lia. Qed.

Lemma before_nul_text s r : text s -> before_nul (s ++ 0 :: r) = s.
Proof. induction 1 as [|c s H T IH]; cbn [app before_nul]; [reflexivity|]. destruct (Z.eqb_spec c 0); [lia|]. now rewrite IH. Qed.
Lemma before_nul_all s : text s -> before_nul s = s.
Proof. induction 1 as [|c s H T IH]; cbn [before_nul]; [reflexivity|]. destruct (Z.eqb_spec c 0); [lia|]. now rewrite IH. Qed.

Lemma put_open_in B R off s n : Forall (fun c => 1 <= c <= 127) s -> lenZ s <= n -> 0 <= off -> off + n <= lenZ B ->
  put_open off (s ++ [0]) n (B ++ R) = Ok (upd (Z.to_nat off) (fill n s) B ++ R).
Proof.
  intros T L O H. pose proof (lenZ_nonneg s). unfold put_open.
  assert (T' : text s) by (eapply Forall_impl; [|exact T]; cbn; lia).
  rewrite sliceZ_ok by (rewrite ?lenZ_app; pose proof (lenZ_nonneg R); lia). cbn [bind].
  set (d := firstn (Z.to_nat n) (skipn (Z.to_nat off) (B ++ R))).
  assert (Ld : length d = Z.to_nat n) by (subst d; rewrite firstn_length, skipn_length, app_length; unfold lenZ in *; lia).
  assert (V : visible (s ++ [0]) n = s).
  { unfold visible. destruct (Z.eq_dec n (lenZ s)) as [->|N].
    - unfold lenZ. rewrite Nat2Z.id, firstn_app, firstn_all, Nat.sub_diag. cbn [firstn]. rewrite app_nil_r. now apply before_nul_all.
    - rewrite firstn_all2 by (rewrite app_length; unfold lenZ in *; cbn [length]; lia). now apply before_nul_text. }
  rewrite (strncpopen_ok d (s ++ [0]) n s).
  - cbn [bind]. replace (s ++ repeat 32 (Z.to_nat n - length s) ++ skipn (Z.to_nat n) d) with (fill n s).
    2:{ rewrite skipn_all2 by lia. rewrite app_nil_r. unfold fill. f_equal. f_equal. unfold lenZ in *. lia. }
    apply put_in; [exact O|rewrite lenZ_fill by exact L; exact H].
  - apply Forall_app. split; [eapply Forall_impl; [|exact T]; unfold byte_ok; cbn; lia|constructor; [unfold byte_ok; lia|constructor]].
  - right. apply in_or_app. right. left. reflexivity.
  - rewrite V. apply longest_self, ascii_wf, T.
  - rewrite Ld. lia.
Qed.

Lemma put_open_b B R off s n : Forall (fun c => 1 <= c <= 127) s -> lenZ s <= n -> (0 <=? off) && (off + n <=? lenZ B) = true ->
  put_open off (s ++ [0]) n (B ++ R) = Ok (upd (Z.to_nat off) (fill n s) B ++ R).
Proof. intros T L H. apply put_open_in; auto; lia. Qed.

(** ** The first 48 bytes *)

Lemma version_char_is pub : quality_of pub = version_char pub.
Proof.
  unfold quality_of, version_char. destruct pub as [|p|p]; try reflexivity.
  destruct p as [p|p|]; [destruct p; reflexivity|destruct p as [p|p|]; [reflexivity|destruct p; reflexivity|reflexivity]|reflexivity].
Qed.

Lemma code_ascii n s : code_ok n s -> Forall (fun c => 1 <= c <= 127) s /\ lenZ s <= n.
Proof. intros [L F]. split; [|exact L]. eapply Forall_impl; [|exact F]. cbn. lia. Qed.

Lemma fixed_part {A} (K : list Z -> res A) hb m k f mu nblk t R : codes_ok k ->
  (let! b := put 0 [48; 48; 48; 48; 48; 48] (repeat 0 48 ++ R) in
   let! b := put 6 [quality_of (m_pub m); 32] b in
   let! b := put_open 8 (k_sta k ++ [0]) 5 b in
   let! b := put_open 13 (k_loc k ++ [0]) 2 b in
   let! b := put_open 15 ([k_band k; k_source k; k_sub k] ++ [0]) 3 b in
   let! b := put_open 18 (k_net k ++ [0]) 2 b in
   let! b := put_time2 hb (fields_of t) b in
   let! b := put 27 [0] b in
   let! b := put 30 [0; 0] b in
   let! b := put 32 (be hb 2 f) b in
   let! b := put 34 (be hb 2 mu) b in
   let! b := put 36 [flag (m_flags m) 0 1; flag (m_flags m) 2 32; flag (m_flags m) 1 128; nblk] b in
   let! b := put 40 [0; 0; 0; 0; 0; 0] b in
   let! b := put 46 (be hb 2 48) b in K b) = K (fixed2 true (hdr_of m k f mu nblk t 0 0) 48 ++ R).
Proof.
  intros (Kn & Ks & Kl & Kb & Ko & Ku). apply code_ascii in Kn, Ks, Kl. destruct Kn as [Tn Ln], Ks as [Ts Ls], Kl as [Tl Ll].
  destruct (five _ (lenZ_fill _ _ Ls)) as (s0 & s1 & s2 & s3 & s4 & Es). destruct (two _ (lenZ_fill _ _ Ll)) as (l0 & l1 & El).
  destruct (two _ (lenZ_fill _ _ Ln)) as (n0 & n1 & En).
  rewrite put_in_b by reflexivity. cbn [bind]. rewrite put_in_b by reflexivity. cbn [bind].
  rewrite put_open_b; [|exact Ts|exact Ls|reflexivity]. rewrite Es. cbn [bind].
  rewrite put_open_b; [|exact Tl|exact Ll|reflexivity]. rewrite El. cbn [bind].
  rewrite put_open_b; [|unfold band_ok in *; repeat constructor; lia|cbn; lia|reflexivity]. cbn [bind].
  rewrite put_open_b; [|exact Tn|exact Ln|reflexivity]. rewrite En. cbn [bind].
  unfold fields_of, put_time2. rewrite !be_ord.
  do 13 (rewrite put_in_b by reflexivity; cbn [bind]). f_equal.
  rewrite version_char_is. unfold fixed2, hdr_of. cbn [f_seq f_quality f_reserved f_sta f_loc f_chan f_net f_start f_cnt f_fact f_mult f_act f_io f_dq f_nblk f_corr f_data].
  rewrite Es, El, En. unfold btime_bytes, btime_at. cbn [b_day b_hour b_min b_sec b_unused b_fract].
  reflexivity.
Qed.

(** ** The whole header *)

Lemma pow_cases e : 7 <= e <= 17 -> e = 7 \/ e = 8 \/ e = 9 \/ e = 10 \/ e = 11 \/ e = 12 \/ e = 13 \/ e = 14 \/ e = 15 \/ e = 16 \/ e = 17.
Proof. lia. Qed.

Lemma exp_is e : 7 <= e <= 17 -> exp_loop 64 1 1 (2 ^ e) = Ok e /\ Z.land (2 ^ e) (2 ^ e - 1) = 0 /\ 128 <= 2 ^ e <= 131072.
Proof.
  intros H. destruct (pow_cases e H) as [->|[->|[->|[->|[->|[->|[->|[->|[->|[->| ->]]]]]]]]]]; (split; [reflexivity|]); (split; [reflexivity|]); split; discriminate.
Qed.

(** The blockette 100, when there is one. *)
Definition rate_blk (m : msr) (f mu : Z) : option Z :=
  if dlt d_1em4 (dabs (dsub (sampratehz (m_rate m)) (nomsamprate f mu))) then Some (double_to_float (m_rate m)) else None.
Definition hlen (us : Z) (w : option Z) : Z := 56 + (if us =? 0 then 0 else 8) + match w with Some _ => 12 | None => 0 end.

Lemma chain_len enc e us w : lenZ (chain_bytes true 48 (blks_of enc e us w)) = hlen us w - 48.
Proof.
  unfold blks_of, hlen. destruct (us =? 0), w; cbn [app chain_bytes]; rewrite !lenZ_app, !lenZ_ord; cbn [blk_body]; rewrite ?lenZ_app, ?lenZ_ord; unfold lenZ; cbn [length]; lia.
Qed.

Lemma micros_is t : swrap 8 (t mod 1000000000 / 1000 - t mod 1000000000 / 100000 * 100) = micros t /\ 0 <= micros t < 100.
Proof.
  unfold micros. assert (E : t mod 1000000000 / 1000 - t mod 1000000000 / 100000 * 100 = t / 1000 mod 100) by lia.
  rewrite E. pose proof (Z.mod_pos_bound (t / 1000) 100 ltac:(lia)). split; [|lia]. unfold swrap. rewrite Z.mod_small by lia.
  replace (t / 1000 mod 100 <? 2 ^ (8 - 1)) with true by lia. reflexivity.
Qed.

Lemma sid_codes stack k : codes_ok k -> (64 <= length stack)%nat -> exists o,
  sid2nslc (codes_sid k) (mk_nslc (Some stack) (Some stack) (Some stack) (Some stack)) = Ok o /\
  let arr o := match o with Some b => text_of b | None => UB NullDeref end in
  arr (o_net o) = Ok (k_net k) /\ arr (o_sta o) = Ok (k_sta k) /\ arr (o_loc o) = Ok (k_loc k) /\ arr (o_chan o) = Ok [k_band k; k_source k; k_sub k].
Proof.
  intros (Kn & Ks & Kl & Kb & Ko & Ku) L.
  assert (P : forall n s, code_ok n s -> plain_code s /\ lenZ s <= n).
  { intros n s [Ls F]. split; [|exact Ls]. unfold plain_code, text. rewrite Forall_forall in F. split; [|split].
    - apply Forall_forall. intros x I. specialize (F x I). lia.
    - intros I. specialize (F _ I). lia.
    - intros I. specialize (F _ I). lia. }
  apply P in Kn, Ks, Kl. destruct Kn as [Pn Ln], Ks as [Ps Ls], Kl as [Pl Ll]. unfold band_ok in *.
  destruct (sid2nslc_ok [] (k_net k) (k_sta k) (k_loc k) [k_band k; 95; k_source k; 95; k_sub k] [k_band k; k_source k; k_sub k]
              (mk_nslc (Some stack) (Some stack) (Some stack) (Some stack))) as (o & E & Sn & Ss & Sl & Sc).
  - left. reflexivity.
  - exact Pn.
  - exact Ps.
  - exact Pl.
  - unfold text. repeat constructor; lia.
  - cbn [In]. lia.
  - cbn [count_char]. repeat match goal with |- context [?a =? ?b] => destruct (Z.eqb_spec a b) end; lia.
  - left. constructor.
  - cbn [o_net StrProof.fits]. unfold lenZ in *. lia.
  - cbn [o_sta StrProof.fits]. unfold lenZ in *. lia.
  - cbn [o_loc StrProof.fits]. unfold lenZ in *. lia.
  - cbn [o_chan StrProof.fits length]. lia.
  - exists o. split; [exact E|]. cbv zeta. cbn [o_net o_sta o_loc o_chan] in *.
    assert (G : forall a s, text s -> StrProof.stored (Some stack) a s -> match a with Some b => text_of b | None => UB NullDeref end = Ok s).
    { intros a s T S. destruct a as [b|]; [|destruct S]. cbn [StrProof.stored] in S. unfold holds_string in S. rewrite S. now apply text_of_ok. }
    split; [apply G; [apply Pn|exact Sn]|]. split; [apply G; [apply Ps|exact Ss]|]. split; [apply G; [apply Pl|exact Sl]|].
    apply G; [unfold text; repeat constructor; lia|exact Sc].
Qed.

Lemma header2_ok hb mode stack m k f mu e R : codes_ok k -> m_sid m = codes_sid k -> (64 <= length stack)%nat ->
  7 <= e <= 17 -> maxlen m = 2 ^ e -> in_s 64 (m_start m) -> genfactmult mode (sampratehz (m_rate m)) = Ok (f, mu) ->
  lenZ R = maxlen m - 48 ->
  let us := micros (m_start m) in let w := rate_blk m f mu in
  let bs := blks_of (encoding_of m) e us w in
  pack_header2 hb mode stack m (repeat 0 48 ++ R) =
  Ok (layout2 true (hdr_of m k f mu (lenZ bs) (m_start m) 0 0) [] bs (skipn (Z.to_nat (hlen us w - 48)) R), hlen us w).
Proof.
  intros K S St E M T G LR us w bs. destruct (exp_is e E) as (X1 & X2 & X3).
  unfold pack_header2. cbv zeta. fold (maxlen m). fold (encoding_of m). rewrite M.
  replace ((2 ^ e <? 128) || (MAXRECLEN <? 2 ^ e)) with false by (unfold MAXRECLEN; lia). rewrite X1, X2. cbn [Z.eqb negb bind].
  destruct (sid_codes stack k K St) as (o & Eo & An & As & Al & Ac). rewrite S, Eo. cbn [bind]. rewrite An, As, Al, Ac. cbn [bind].
  pose proof K as ((Ln & _) & (Ls & _) & (Ll & _) & _). 
  replace ((2 <? Z.of_nat (length (k_net k))) || (5 <? Z.of_nat (length (k_sta k))) || (2 <? Z.of_nat (length (k_loc k))) || negb (Z.of_nat (length [k_band k; k_source k; k_sub k]) =? 3)) with false
    by (unfold lenZ in *; cbn [length]; lia).
  rewrite nstime2time_ok by exact T. unfold fields_of at 1. cbv iota. rewrite G. cbn [bind].
  destruct (micros_is (m_start m)) as [Mi Mr]. rewrite Mi. fold us. fold us in Mr.
  set (with100 := dlt d_1em4 _).
  assert (W : w = if with100 then Some (double_to_float (m_rate m)) else None) by reflexivity.
  set (nblk := 1 + (if negb (us =? 0) then 1 else 0) + (if with100 then 1 else 0)).
  assert (Nb : nblk = lenZ bs) by (subst nblk bs; unfold blks_of; rewrite W; unfold lenZ; destruct (us =? 0), with100; reflexivity).
  refine (eq_trans (fixed_part _ hb m k f mu nblk (m_start m) R K) _). rewrite !be_ord. clearbody nblk. subst nblk.
  set (h := hdr_of m k f mu (lenZ bs) (m_start m) 0 0). set (F := fixed2 true h 48).
  assert (LF : lenZ F = 48).
  { subst F h. unfold fixed2, hdr_of. cbn [f_seq f_quality f_reserved f_sta f_loc f_chan f_net f_start f_cnt f_fact f_mult f_act f_io f_dq f_nblk f_corr f_data].
    unfold btime_bytes. rewrite !lenZ_app, !lenZ_ord, !lenZ_fill by assumption. unfold lenZ. cbn [length]. rewrite repeat_length. cbn. lia. }
  assert (Us : uwrap 8 us = us mod 256) by reflexivity. rewrite Us.
  assert (Ue : uwrap 8 e = e) by (unfold uwrap; rewrite Z.mod_small by lia; reflexivity). rewrite Ue.
  unfold layout2. change (48 + lenZ (@nil Z)) with 48. cbn [app]. fold h.
  assert (Go : forall n bytes (A X : list Z), lenZ A = n -> lenZ bytes <= lenZ X -> put n bytes (A ++ X) = Ok ((A ++ bytes) ++ skipn (length bytes) X)).
  { intros n bytes A X LA LX. rewrite <- (firstn_skipn (length bytes) X) at 1. rewrite put_mid; [now rewrite <- app_assoc|auto|].
    rewrite firstn_length. unfold lenZ in *. lia. }
  assert (Sk : forall n1 n2 (X : list Z), skipn n1 (skipn n2 X) = skipn (n2 + n1) X) by (intros; rewrite skipn_skipn; f_equal; lia).
  assert (Lo : forall n v, length (ord true n v) = n) by (intros n v; pose proof (lenZ_ord true n v); unfold lenZ in *; lia).
  subst bs. unfold blks_of, hlen. rewrite W. clear W. unfold b100_bytes. rewrite !be_ord.
  rewrite Go; [|exact LF|rewrite !lenZ_app, !lenZ_ord; unfold lenZ in *; cbn [length]; lia]. cbn [bind].
  destruct (us =? 0); cbn [negb orb app bind]; destruct with100; cbn [app bind chain_bytes].
  all: repeat (rewrite Go; [|unfold lenZ in *; do 3 (rewrite ?app_length, ?Lo; cbn [length]); lia|unfold lenZ in *; do 3 (rewrite ?skipn_length, ?app_length, ?Lo; cbn [length]); lia]; cbn [bind]).
  all: do 3 (rewrite ?Sk, ?app_length, ?Lo; cbn [length Nat.add app]); unfold blk_size; cbn [blk_body blk_type app]; rewrite <- ?app_assoc; cbn [app].
  all: reflexivity.
Qed.
