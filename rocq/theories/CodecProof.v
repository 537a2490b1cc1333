(** * Proofs about the fixed-width and legacy codecs. *)

From Verif Require Import Base BaseLemmas SteimModel SteimProof FloatSpec FloatLemmas CodecModel CodecSpec.
Open Scope Z_scope.

(** ** Generic round trip *)

Lemma enc_loop_spec w f : 1 <= w ->
  (forall x, Z.of_nat (length (f x)) = w) ->
  forall samples cap, 0 <= cap ->
    let n := Z.min (Z.of_nat (length samples)) (cap / w) in
    enc_loop w f cap samples = (n, concat (map f (firstn (Z.to_nat n) samples))).
Proof.
  intros Hw Hf samples. induction samples as [|x t IH]; intros cap Hc; cbn zeta.
  - cbn [enc_loop length]. rewrite Z.min_l by (apply Z.div_pos; lia). reflexivity.
  - cbn [enc_loop length]. destruct (Z.leb_spec w cap) as [Hle|Hgt].
    + rewrite (IH (cap - w)) by lia.
      replace ((cap - w) / w) with (cap / w - 1).
      2:{ replace (cap - w) with (cap + (-1) * w) by lia. rewrite Z.div_add by lia. lia. }
      assert (1 <= cap / w) by (apply Z.div_le_lower_bound; lia).
      f_equal; [lia|].
      replace (Z.to_nat (Z.min (Z.of_nat (S (length t))) (cap / w)))
        with (S (Z.to_nat (Z.min (Z.of_nat (length t)) (cap / w - 1)))) by lia.
      reflexivity.
    + rewrite (Z.div_small cap w) by lia. rewrite Z.min_r by lia. reflexivity.
Qed.

Lemma concat_len {A} (f : A -> list Z) w l :
  (forall x, length (f x) = w) -> length (concat (map f l)) = (w * length l)%nat.
Proof. intros H. induction l; simpl; [lia|]. rewrite app_length, H, IHl. lia. Qed.

Lemma concat_ok {A} (f : A -> list Z) l : (forall x, bytes_ok (f x)) -> bytes_ok (concat (map f l)).
Proof. intros H. induction l; simpl; [constructor|]. apply Forall_app; split; [apply H|apply IHl]. Qed.

Lemma slice_app {A} (a b : list A) n : length a = n -> slice 0 n (a ++ b) = Ok a.
Proof.
  intros <-. unfold slice. rewrite app_length. cbn [Nat.add].
  destruct (Nat.leb_spec (length a) (length a + length b)); [|lia].
  rewrite skipn_O, firstn_app_exact; auto.
Qed.

(** The decoder loop over stored words: whatever [g] the words mean. *)
Lemma dec_loop_series {A B} (wi : nat) wo (f : list Z -> res A) (g : B -> list Z) (v : B -> A) ws :
  (forall x, In x ws -> length (g x) = wi /\ f (g x) = Ok (v x)) ->
  0 <= wo ->
  forall ocap tail, wo * Z.of_nat (length ws) <= ocap ->
    dec_loop wi wo f (length ws) ocap (concat (map g ws) ++ tail) = Ok (map v ws).
Proof.
  intros H Hwo. induction ws as [|x ws IH]; intros ocap tail Ho; [reflexivity|].
  cbn [length dec_loop map concat]. destruct (H x (or_introl eq_refl)) as [Hl Hx].
  cbn [length] in Ho. destruct (Z.leb_spec wo ocap); [|nia].
  rewrite <- app_assoc, slice_app by auto. cbn [bind]. rewrite Hx. cbn [bind].
  rewrite skipn_app_exact by auto. rewrite IH; auto; [|nia].
  intros y Hy. apply H. now right.
Qed.

Lemma decode_fixed_series {A B} (wi : nat) wo minout (f : list Z -> res A) (g : B -> list Z) (v : B -> A) ws
      ocap tail :
  (forall x, In x ws -> length (g x) = wi /\ f (g x) = Ok (v x)) ->
  1 <= wo -> minout <= wo -> wo * Z.of_nat (length ws) <= ocap -> Z.of_nat (length ws) < 2 ^ 32 ->
  decode_fixed wi wo minout f (concat (map g ws) ++ tail) (Z.of_nat (length ws)) ocap = Ok (map v ws).
Proof.
  intros H Hwo Hm Ho Hn. unfold decode_fixed.
  destruct (Z.eqb_spec (Z.of_nat (length ws)) 0) as [E|E].
  { destruct ws; [reflexivity|simpl in E; lia]. }
  destruct (Z.ltb_spec ocap minout); [nia|].
  destruct (Z.leb_spec (2 ^ 32) (Z.of_nat (length ws))); [lia|].
  rewrite Nat2Z.id. apply dec_loop_series; auto. lia.
Qed.

(** Same when decoding a prefix of what was stored. *)
Lemma concat_firstn_split {A} (g : A -> list Z) k ws :
  concat (map g ws) = concat (map g (firstn k ws)) ++ concat (map g (skipn k ws)).
Proof. rewrite <- concat_app, <- map_app, firstn_skipn. reflexivity. Qed.

Lemma fixed_roundtrip (we : nat) wo minout (f : Z -> list Z) (h : list Z -> res Z) samples cap :
  (1 <= we)%nat -> 1 <= wo -> minout <= wo ->
  (forall x, length (f x) = we) -> (forall x, bytes_ok (f x)) ->
  (forall x, In x samples -> h (f x) = Ok x) ->
  samples <> [] -> 1 <= cap ->
  exists n bytes,
    encode_fixed (Z.of_nat we) f samples cap = Ok (n, bytes) /\
    n = Z.min (Z.of_nat (length samples)) (cap / Z.of_nat we) /\
    Z.of_nat (length bytes) = Z.of_nat we * n /\ Z.of_nat (length bytes) <= cap /\ bytes_ok bytes /\
    forall tail k ocap, 0 <= k <= n -> wo * k <= ocap -> k < 2 ^ 32 ->
      decode_fixed we wo minout h (bytes ++ tail) k ocap = Ok (firstn (Z.to_nat k) samples).
Proof.
  intros Hwe Hwo Hm Hl Hok Hh Hne Hcap.
  assert (Hd : 0 <= cap / Z.of_nat we) by (apply Z.div_pos; lia).
  pose proof (enc_loop_spec (Z.of_nat we) f ltac:(lia) ltac:(intros; rewrite Hl; auto) samples cap ltac:(lia)) as E.
  cbn zeta in E. set (n := Z.min (Z.of_nat (length samples)) (cap / Z.of_nat we)) in *.
  exists n, (concat (map f (firstn (Z.to_nat n) samples))).
  assert (Ln : length (firstn (Z.to_nat n) samples) = Z.to_nat n) by (rewrite firstn_length; lia).
  split. { unfold encode_fixed. destruct samples; [congruence|]. destruct (Z.eqb_spec cap 0); [lia|]. now rewrite E. }
  split; [reflexivity|].
  assert (LB : Z.of_nat (length (concat (map f (firstn (Z.to_nat n) samples)))) = Z.of_nat we * n).
  { rewrite (concat_len f we) by auto. rewrite Ln. lia. }
  split; [exact LB|]. split.
  { rewrite LB. assert (Z.of_nat we * (cap / Z.of_nat we) <= cap) by (apply Z.mul_div_le; lia). nia. }
  split; [apply concat_ok; auto|].
  intros tail k ocap Hk Ho Hk32.
  rewrite (concat_firstn_split f (Z.to_nat k) (firstn (Z.to_nat n) samples)).
  rewrite firstn_firstn. replace (Nat.min (Z.to_nat k) (Z.to_nat n)) with (Z.to_nat k) by lia.
  rewrite <- app_assoc.
  assert (Lk : Z.of_nat (length (firstn (Z.to_nat k) samples)) = k) by (rewrite firstn_length; lia).
  pose proof (decode_fixed_series we wo minout h f (fun x => x) (firstn (Z.to_nat k) samples) ocap
    (concat (map f (skipn (Z.to_nat k) (firstn (Z.to_nat n) samples))) ++ tail)) as D.
  rewrite Lk, map_id in D. apply D; auto.
  intros x Hx. split; auto. apply Hh. eapply In_firstn; eauto.
Qed.

Lemma swrap_uwrap w v : 1 <= w -> in_s w v -> swrap w (v mod 2 ^ w) = v.
Proof. intros. rewrite swrap_mod by lia. now apply swrap_id. Qed.

Lemma swrap16_st x : in_s 16 x -> swrap 16 (swrap 16 x mod 2 ^ 16) = x.
Proof. intros. rewrite (swrap_id 16 x) by (auto; lia). apply swrap_uwrap; auto. lia. Qed.

(** ** The four binary formats *)

Definition fixed_rt (enc : list Z -> Z -> res (Z * list Z)) (dec : list Z -> Z -> Z -> res (list Z))
           (we wo : Z) (samples : list Z) (cap : Z) : Prop :=
  exists n bytes,
    enc samples cap = Ok (n, bytes) /\
    n = Z.min (Z.of_nat (length samples)) (cap / we) /\
    Z.of_nat (length bytes) = we * n /\ Z.of_nat (length bytes) <= cap /\ bytes_ok bytes /\
    forall tail k ocap, 0 <= k <= n -> wo * k <= ocap -> k < 2 ^ 32 ->
      dec (bytes ++ tail) k ocap = Ok (firstn (Z.to_nat k) samples).

Lemma int16_roundtrip hb1 sw1 hb2 sw2 samples cap :
  xorb hb1 sw1 = xorb hb2 sw2 -> samples <> [] -> Forall (in_s 16) samples -> 1 <= cap ->
  fixed_rt (encode_int16 hb1 sw1) (decode_int16 hb2 sw2) 2 4 samples cap.
Proof.
  intros Hx Hne HF Hc. apply (fixed_roundtrip 2 4 4); auto; try lia.
  - intros. apply st_length.
  - intros. apply st_ok.
  - intros x Hin. rewrite (ld_st hb1 sw1 hb2 sw2) by auto. change (8 * Z.of_nat 2) with 16. f_equal.
    apply swrap16_st. rewrite Forall_forall in HF. auto.
Qed.

Lemma int32_roundtrip hb1 sw1 hb2 sw2 samples cap :
  xorb hb1 sw1 = xorb hb2 sw2 -> samples <> [] -> Forall (in_s 32) samples -> 1 <= cap ->
  fixed_rt (encode_int32 hb1 sw1) (decode_int32 hb2 sw2) 4 4 samples cap.
Proof.
  intros Hx Hne HF Hc. apply (fixed_roundtrip 4 4 4); auto; try lia.
  - intros. apply st_length.
  - intros. apply st_ok.
  - intros x Hin. rewrite (ld_st hb1 sw1 hb2 sw2) by auto. change (8 * Z.of_nat 4) with 32. f_equal.
    apply swrap_uwrap; [lia|]. rewrite Forall_forall in HF. auto.
Qed.

Lemma float32_roundtrip hb1 sw1 hb2 sw2 samples cap :
  xorb hb1 sw1 = xorb hb2 sw2 -> samples <> [] -> Forall (in_u 32) samples -> 1 <= cap ->
  fixed_rt (encode_float32 hb1 sw1) (decode_float32 hb2 sw2) 4 4 samples cap.
Proof.
  intros Hx Hne HF Hc. apply (fixed_roundtrip 4 4 4); auto; try lia.
  - intros. apply st_length.
  - intros. apply st_ok.
  - intros x Hin. rewrite (ld_st hb1 sw1 hb2 sw2) by auto. change (8 * Z.of_nat 4) with 32. f_equal.
    apply (uwrap_id 32). rewrite Forall_forall in HF. auto.
Qed.

Lemma float64_roundtrip hb1 sw1 hb2 sw2 samples cap :
  xorb hb1 sw1 = xorb hb2 sw2 -> samples <> [] -> Forall (in_u 64) samples -> 1 <= cap ->
  fixed_rt (encode_float64 hb1 sw1) (decode_float64 hb2 sw2) 8 8 samples cap.
Proof.
  intros Hx Hne HF Hc. apply (fixed_roundtrip 8 8 8); auto; try lia.
  - intros. apply st_length.
  - intros. apply st_ok.
  - intros x Hin. rewrite (ld_st hb1 sw1 hb2 sw2) by auto. change (8 * Z.of_nat 8) with 64. f_equal.
    apply (uwrap_id 64). rewrite Forall_forall in HF. auto.
Qed.

Lemma text_roundtrip samples cap :
  samples <> [] -> bytes_ok samples -> 1 <= cap ->
  exists n bytes, encode_text samples cap = Ok (n, bytes) /\
    n = Z.min (Z.of_nat (length samples)) cap /\ Z.of_nat (length bytes) = n /\
    forall tail k ocap, 0 <= k <= n -> k <= ocap ->
      decode_text (bytes ++ tail) k ocap = Ok (firstn (Z.to_nat k) samples).
Proof.
  intros Hne HF Hc. unfold encode_text. destruct samples as [|x t] eqn:E; [congruence|]. rewrite <- E in *.
  destruct (Z.eqb_spec cap 0) as [Ec|Ec]; [lia|].
  set (n := if Z.of_nat (length samples) <? cap then Z.of_nat (length samples) else cap).
  assert (Hn : n = Z.min (Z.of_nat (length samples)) cap)
    by (unfold n; destruct (Z.ltb_spec (Z.of_nat (length samples)) cap); lia).
  exists n, (firstn (Z.to_nat n) samples). split; [reflexivity|]. split; [exact Hn|].
  split; [rewrite firstn_length; lia|].
  intros tail k ocap Hk Ho. unfold decode_text.
  destruct (Z.eqb_spec k 0) as [->|]; [reflexivity|].
  destruct (Z.ltb_spec ocap k); [lia|].
  unfold sliceZ. destruct (Z.leb_spec 0 0); [|lia]. destruct (Z.leb_spec 0 k); [|lia]. cbn [andb].
  rewrite app_length, firstn_length.
  destruct (Z.leb_spec (0 + k) (Z.of_nat (Nat.min (Z.to_nat n) (length samples) + length tail))); [|lia].
  change (Z.to_nat 0) with 0%nat. rewrite skipn_O, firstn_app, firstn_firstn, firstn_length.
  replace (Nat.min (Z.to_nat k) (Z.to_nat n)) with (Z.to_nat k) by lia.
  replace (Z.to_nat k - Nat.min (Z.to_nat n) (length samples))%nat with 0%nat by lia.
  rewrite firstn_O, app_nil_r. reflexivity.
Qed.

(** ** Legacy words *)

Lemma data_bytes_st be n v : data_bytes be n v = host_bytes be n v.
Proof. reflexivity. Qed.

Lemma ld_data hb sw n v : in_u (8 * Z.of_nat n) v -> ld hb sw (data_bytes (xorb hb sw) n v) = v.
Proof.
  intros H. unfold ld. rewrite gswap_host_val, data_bytes_st, host_val_bytes. apply (uwrap_id _ _ H).
Qed.

Lemma data_bytes_length be n v : length (data_bytes be n v) = n.
Proof. rewrite data_bytes_st. apply host_bytes_length. Qed.

Definition cdsn_u (sint : Z) : Z :=
  let mantissa := Z.land sint 0x3FFF in
  let gainrange := Z.shiftr (Z.land sint 0xC000) 14 in
  let mult := if gainrange =? 0 then 0 else if gainrange =? 1 then 2
              else if gainrange =? 2 then 4 else 7 in
  swrap 32 (uwrap 32 (Z.shiftl (uwrap 32 (swrap 32 (mantissa - 0x1FFF))) mult)).

Lemma mask_shift u mask k j : 0 <= k -> 0 <= j -> mask = Z.shiftl (2 ^ j - 1) k ->
  Z.shiftr (Z.land u mask) k = (u / 2 ^ k) mod 2 ^ j.
Proof.
  intros Hk Hj ->. rewrite Z.shiftr_land, Z.shiftr_shiftl_l, Z.sub_diag, Z.shiftl_0_r by lia.
  rewrite land_ones_mod by lia. now rewrite Z.shiftr_div_pow2.
Qed.

Lemma swrap_uwrap_mul w v : 1 <= w -> in_s w v -> swrap w (uwrap w v) = v.
Proof. intros Hw H. unfold uwrap. rewrite swrap_mod by lia. now apply swrap_id. Qed.

Lemma cdsn_u_ok u : in_u 16 u -> cdsn_u u = cdsn_value u.
Proof.
  intros H. unfold in_u in H. change (2 ^ 16) with 65536 in H. unfold cdsn_u, cdsn_value, cdsn_mult.
  rewrite (mask_shift u 0xC000 14 2) by (lia || reflexivity).
  change 0x3FFF with (2 ^ 14 - 1). rewrite land_ones_mod by lia.
  change (2 ^ 14) with 16384. change (2 ^ 2) with 4.
  rewrite (Z.mod_small (u / 16384) 4) by lia.
  assert (0 <= u mod 16384 < 16384) by lia.
  rewrite (swrap_id 32 (u mod 16384 - 8191)) by (unfold in_s; lia).
  set (m := u mod 16384 - 8191) in *.
  assert (E : forall k, 0 <= k <= 7 -> swrap 32 (uwrap 32 (Z.shiftl (uwrap 32 m) k)) = m * 2 ^ k).
  { intros k Hk. rewrite Z.shiftl_mul_pow2 by lia. unfold uwrap at 1.
    rewrite swrap_mod by lia. unfold uwrap.
    rewrite <- (swrap_mod 32 (m mod 2 ^ 32 * 2 ^ k)) by lia. rewrite Z.mul_mod_idemp_l by lia.
    rewrite swrap_mod by lia. apply swrap_id; [lia|].
    assert (2 ^ k <= 2 ^ 7) by (apply Z.pow_le_mono_r; lia). assert (0 < 2 ^ k) by (apply pow2_pos; lia).
    change (2 ^ 7) with 128 in *. unfold in_s. change (2 ^ (32 - 1)) with 2147483648. nia. }
  destruct (Z.eqb_spec (u / 16384) 0); [apply E; lia|].
  destruct (Z.eqb_spec (u / 16384) 1); [apply E; lia|].
  destruct (Z.eqb_spec (u / 16384) 2); apply E; lia.
Qed.

Definition sro_u (sint : Z) : res Z :=
  let mantissa := sub_complement 0x7FF (Z.land sint 0x0FFF) in
  let gainrange := Z.shiftr (Z.land sint 0xF000) 12 in
  let exponent := (-1) * (gainrange + 0) + 10 in
  if (exponent <? 0) || (10 <? exponent) then Err (-1)
  else Ok (swrap 32 (uwrap 64 (mantissa * uwrap 64 (Z.shiftl 1 exponent)))).

Lemma sro_u_ok u : in_u 16 u -> sro_u u = if u / 4096 <=? 10 then Ok (sro_value u) else Err (-1).
Proof.
  intros H. unfold in_u in H. change (2 ^ 16) with 65536 in H. unfold sro_u, sro_value.
  rewrite (mask_shift u 0xF000 12 4) by (lia || reflexivity).
  change 0x0FFF with (2 ^ 12 - 1). rewrite land_ones_mod by lia.
  change (2 ^ 12) with 4096. change (2 ^ 4) with 16.
  rewrite (Z.mod_small (u / 4096) 16) by lia.
  assert (C : sub_complement 0x7FF (u mod 4096) = twos 12 (u mod 4096)).
  { unfold sub_complement, twos. assert (0 <= u mod 4096 < 4096) by lia.
    rewrite (uwrap_id 64) by (split; lia). change (2 ^ (12 - 1)) with 2048. change (2 ^ 12) with 4096.
    destruct (Z.ltb_spec 0x7FF (u mod 4096)), (Z.ltb_spec (u mod 4096) 2048); try lia.
    rewrite swrap_id; [lia|lia|]. unfold in_s. lia. }
  rewrite C.
  assert (T : -2048 <= twos 12 (u mod 4096) < 2048).
  { unfold twos. change (2 ^ (12 - 1)) with 2048. change (2 ^ 12) with 4096.
    destruct (Z.ltb_spec (u mod 4096) 2048); lia. }
  replace (-1 * (u / 4096 + 0) + 10) with (10 - u / 4096) by lia.
  destruct (Z.ltb_spec (10 - u / 4096) 0); cbn [orb].
  { destruct (Z.leb_spec (u / 4096) 10); [lia|reflexivity]. }
  destruct (Z.ltb_spec 10 (10 - u / 4096)); [lia|].
  destruct (Z.leb_spec (u / 4096) 10); [|lia]. f_equal.
  set (k := 10 - u / 4096) in *. rewrite Z.shiftl_1_l.
  assert (0 < 2 ^ k) by (apply pow2_pos; lia).
  assert (2 ^ k <= 2 ^ 10) by (apply Z.pow_le_mono_r; lia). change (2 ^ 10) with 1024 in *.
  rewrite (uwrap_id 64 (2 ^ k)) by (split; lia).
  unfold uwrap. rewrite <- swrap_mod by lia.
  rewrite <- Znumtheory.Zmod_div_mod; [|lia|lia|exists (2 ^ 32); reflexivity].
  rewrite swrap_mod by lia. apply swrap_id; [lia|].
  unfold in_s. change (2 ^ (32 - 1)) with 2147483648. nia.
Qed.

Lemma dwwssn_u_ok u : in_u 16 u -> sub_complement 0x7FFF u = dwwssn_value u.
Proof.
  intros [H1 H2]. unfold sub_complement, dwwssn_value, twos.
  rewrite (uwrap_id 64) by (split; lia). change (2 ^ (16 - 1)) with 32768. change (2 ^ 16) with 65536 in *.
  destruct (Z.ltb_spec 0x7FFF u), (Z.ltb_spec u 32768); try lia.
  rewrite swrap_id; [lia|lia|]. unfold in_s. lia.
Qed.

Definition geo16_u (mask u : Z) : spec_float :=
  let sint := swrap 16 u in
  let mantissa := Z.land sint 0x0FFF in
  let gainrange := Z.shiftr (Z.land (uwrap 64 sint) mask) 12 in
  let exp2val := uwrap 64 (Z.shiftl 1 gainrange) in
  to_float (SFdiv 53 1024 (to_double (mantissa - 2048)) (to_double exp2val)).

Lemma to_double_exact i : Z.abs i < 2 ^ 53 -> sf_is (to_double i) (dyadic i 0).
Proof.
  intros H. unfold to_double. apply binary_normalize_exact; try lia.
  - change (SpecFloat.emin 53 1024) with (-1074). lia.
  - exists 0. lia.
Qed.

(** Rounding to float keeps a value that a float can represent. *)
Lemma to_float_exact x m e : Z.abs m < 2 ^ 24 -> -149 <= e -> e + 24 <= 128 ->
  sf_is x (dyadic m e) -> sf_is (to_float x) (dyadic m e).
Proof.
  intros Hm He1 He2 D.
  destruct x as [s|s| |s p e']; cbn [sf_is to_float] in *; try contradiction; [exact D|].
  change (if s then Z.neg p else Z.pos p) with (sf_int s p).
  apply binary_normalize_exact; try lia.
  - change (SpecFloat.emin 24 128) with (-149). lia.
  - destruct (dyadic_eq_inv _ _ _ _ D) as (k & K1 & K2 & E). exists k. repeat split; lia.
Qed.

(** (float)(double)i is exact for 24-bit integers. *)
Lemma to_float_double_exact i : Z.abs i < 2 ^ 24 -> sf_is (to_float (to_double i)) (inject_Z i).
Proof.
  intros H. apply sf_is_proper with (q1 := dyadic i 0).
  - unfold dyadic. cbn. now rewrite Z.mul_1_r.
  - apply to_float_exact; try lia. apply to_double_exact. lia.
Qed.

Definition norm53 (x : spec_float) : bool :=
  match x with
  | S754_zero _ => true
  | S754_finite s p e => (Z.pos (digits2_pos p) =? 53) && (-60 <=? e) && (e <=? 60)
  | _ => false
  end.

Lemma to_double_norm m : 0 <= m < 4096 -> norm53 (to_double (m - 2048)) = true.
Proof. apply (sweep_below 12 (fun m => norm53 (to_double (m - 2048)))). vm_compute. reflexivity. Qed.

Lemma to_double_pow2 g : 0 <= g < 16 -> to_double (2 ^ g) = S754_finite false (Z.to_pos (2 ^ 52)) (g - 52).
Proof.
  intros H. assert (C : g = 0 \/ g = 1 \/ g = 2 \/ g = 3 \/ g = 4 \/ g = 5 \/ g = 6 \/ g = 7 \/ g = 8 \/
    g = 9 \/ g = 10 \/ g = 11 \/ g = 12 \/ g = 13 \/ g = 14 \/ g = 15) by lia.
  repeat (destruct C as [->|C]; [reflexivity|]). subst g. reflexivity.
Qed.

Lemma SFdiv_pow2 x m g : norm53 x = true -> Z.abs m < 2 ^ 53 -> sf_is x (dyadic m 0) -> 0 <= g < 16 ->
  sf_is (SFdiv 53 1024 x (to_double (2 ^ g))) (dyadic m (- g)).
Proof.
  intros N Hm D Hg. rewrite to_double_pow2 by lia.
  destruct x as [s|s| |s p e]; try discriminate.
  - cbn [SFdiv sf_is] in *. unfold dyadic in *. destruct (0 <=? - g); cbn in *; unfold Qeq in *; cbn in *; lia.
  - cbn [norm53] in N. cbn [sf_is] in D. unfold SFdiv, SFdiv_core_binary, Zdigits2.
    change (Z.pos (Z.to_pos (2 ^ 52))) with (2 ^ 52).
    change (Z.pos (digits2_pos (Z.to_pos (2 ^ 52)))) with 53.
    replace (Z.pos (digits2_pos p)) with 53 by lia.
    assert (Hp : 2 ^ 52 <= Z.pos p < 2 ^ 53).
    { pose proof (digits2_log2 p). pose proof (Z.log2_spec (Z.pos p)).
      replace (Z.log2 (Z.pos p)) with 52 in * by lia. lia. }
    replace (Z.min (fexp 53 1024 (53 + e - (53 + (g - 52)))) (e - (g - 52))) with (e - g - 1)
      by (unfold fexp, emin; lia).
    replace (e - (g - 52) - (e - g - 1)) with 53 by lia.
    cbv zeta. rewrite Z.shiftl_mul_pow2 by lia.
    assert (Q : Z.div_eucl (Z.pos p * 2 ^ 53) (2 ^ 52) = (Z.pos (2 * p), 0)).
    { pose proof (Z_div_mod_full (Z.pos p * 2 ^ 53) (2 ^ 52)) as R.
      destruct (Z.div_eucl (Z.pos p * 2 ^ 53) (2 ^ 52)) as [q r].
      destruct R as [R1 R2]; [lia|]. unfold Remainder in R2. f_equal; lia. }
    rewrite Q. change (new_location (2 ^ 52) 0) with loc_Exact.
    rewrite xorb_false_r.
    destruct (dyadic_eq_inv _ _ _ _ D) as (k & K1 & K2 & E).
    assert (P : exists m0, m = (if s then - m0 else m0) /\ 0 < m0 /\ Z.pos p * 2 ^ (e - k) = m0 * 2 ^ (0 - k)).
    { pose proof (pow2_pos (0 - k)). pose proof (pow2_pos (e - k)). unfold sf_int in E.
      destruct s; [exists (- m)|exists m]; repeat split; nia. }
    destruct P as (m0 & -> & Pm & Pe).
    apply binary_round_aux_exact; try lia.
    + destruct s; lia.
    + unfold emin. lia.
    + unfold canon_e, emin. pose proof (digits2_log2 (2 * p)) as L. cbn [digits2_pos Pos.mul] in L.
      change (Z.pos (2 * p)) with (Z.pos p~0). rewrite Pos2Z.inj_succ in L. lia.
    + exists (k - g - 1). repeat split; try lia.
      replace (e - g - 1 - (k - g - 1)) with (e - k) by lia.
      replace (- g - (k - g - 1)) with ((0 - k) + 1) by lia.
      rewrite Z.pow_add_r by lia. lia.
Qed.

Lemma geo16_val mask j u : in_u 16 u -> 0 <= j <= 4 -> mask = Z.shiftl (2 ^ j - 1) 12 ->
  sf_is (geo16_u mask u) (dyadic (u mod 4096 - 2048) (- ((u / 4096) mod 2 ^ j))).
Proof.
  intros H Hj Hmask. unfold geo16_u.
  assert (E1 : Z.land (swrap 16 u) 0x0FFF = u mod 4096).
  { change 0x0FFF with (2 ^ 12 - 1). rewrite land_ones_mod by lia. change (2 ^ 12) with 4096.
    unfold swrap, in_u in *. change (2 ^ 16) with 65536 in *. change (2 ^ (16 - 1)) with 32768.
    destruct (Z.ltb_spec (u mod 65536) 32768); lia. }
  assert (E2 : (uwrap 64 (swrap 16 u) / 4096) mod 2 ^ j = (u / 4096) mod 2 ^ j).
  { assert (X : (uwrap 64 (swrap 16 u) / 4096) mod 16 = (u / 4096) mod 16).
    { unfold uwrap, swrap, in_u in *. change (2 ^ 16) with 65536 in *. change (2 ^ (16 - 1)) with 32768.
      change (2 ^ 64) with 18446744073709551616.
      destruct (Z.ltb_spec (u mod 65536) 32768); lia. }
    assert (J : (2 ^ j | 16)). { exists (2 ^ (4 - j)). rewrite <- Z.pow_add_r by lia. replace (4 - j + j) with 4 by lia. reflexivity. }
    pose proof (pow2_pos j).
    rewrite (Znumtheory.Zmod_div_mod (2 ^ j) 16 (_ / _)), X by (lia || exact J).
    rewrite <- (Znumtheory.Zmod_div_mod (2 ^ j) 16) by (lia || exact J). reflexivity. }
  rewrite E1, (mask_shift _ mask 12 j) by (lia || exact Hmask). change (2 ^ 12) with 4096. rewrite E2.
  assert (G : 0 <= (u / 4096) mod 2 ^ j < 16).
  { assert (2 ^ j <= 2 ^ 4) by (apply Z.pow_le_mono_r; lia). change (2 ^ 4) with 16 in *. pose proof (pow2_pos j).
    pose proof (Z.mod_pos_bound (u / 4096) (2 ^ j)). lia. }
  set (g := (u / 4096) mod 2 ^ j) in *. rewrite Z.shiftl_1_l.
  rewrite (uwrap_id 64 (2 ^ g)).
  2:{ pose proof (pow2_pos g). assert (2 ^ g < 2 ^ 64) by (apply Z.pow_lt_mono_r; lia). split; lia. }
  assert (0 <= u mod 4096 < 4096) by lia.
  apply to_float_exact; try lia.
  apply SFdiv_pow2; try lia.
  - now apply to_double_norm.
  - apply to_double_exact. lia.
Qed.

Lemma dyadic_neg m g : 0 <= g -> Qeq (dyadic m (- g)) (Qmake m (Z.to_pos (2 ^ g))).
Proof.
  intros H. unfold dyadic. destruct (Z.leb_spec 0 (- g)).
  - replace g with 0 by lia. cbn. unfold Qeq. cbn. lia.
  - rewrite Z.opp_involutive. reflexivity.
Qed.

Lemma geo163_ok u : in_u 16 u -> sf_is (geo16_u 0x7000 u) (geoscope163_value u).
Proof.
  intros H. unfold geoscope163_value. eapply sf_is_proper; [|apply (geo16_val _ 3); [exact H|lia|reflexivity]].
  apply dyadic_neg. pose proof (Z.mod_pos_bound (u / 4096) (2 ^ 3)). lia.
Qed.

Lemma geo164_ok u : in_u 16 u -> sf_is (geo16_u 0xf000 u) (geoscope164_value u).
Proof.
  intros H. unfold geoscope164_value. eapply sf_is_proper; [|apply (geo16_val _ 4); [exact H|lia|reflexivity]].
  unfold in_u in H. change (2 ^ 16) with 65536 in H. change (2 ^ 4) with 16.
  rewrite (Z.mod_small (u / 4096) 16) by lia. apply dyadic_neg. lia.
Qed.

Lemma geo24_ok hb sw u : xorb hb sw = true -> in_u 24 u ->
  exists x, geoscope24_word hb sw (data_bytes true 3 u) = Ok x /\ sf_is x (geoscope24_value u).
Proof.
  intros Hx Hu. eexists. split; [reflexivity|].
  assert (E : host_val hb (if sw then [(u mod 256); (u / 256 mod 256); (u / 256 / 256 mod 256); 0]
                  else [0; u / 256 / 256 mod 256; u / 256 mod 256; u mod 256]) = u).
  { destruct hb, sw; try discriminate; unfold host_val, be_val; cbn [rev app le_val]; unfold in_u in Hu; change (2 ^ 24) with 16777216 in Hu; lia. }
  cbn in E |- *. rewrite E.
  unfold in_u in Hu. change (2 ^ 24) with 16777216 in Hu.
  rewrite (swrap_id 32 u) by (unfold in_s; lia).
  assert (C : sub_complement 8388607 u = twos 24 u).
  { unfold sub_complement, twos. rewrite (uwrap_id 64) by (split; lia).
    change (2 ^ (24 - 1)) with 8388608. change (2 ^ 24) with 16777216.
    destruct (Z.ltb_spec 8388607 u), (Z.ltb_spec u 8388608); try lia.
    rewrite swrap_id; [lia|lia|]. unfold in_s. lia. }
  rewrite C. apply to_float_double_exact. unfold twos.
  change (2 ^ (24 - 1)) with 8388608. change (2 ^ 24) with 16777216.
  destruct (Z.ltb_spec u 8388608); lia.
Qed.

(** ** Series *)

Lemma decode_fixed_rel {A} (wi : nat) wo minout (f : list Z -> res A) (g : Z -> list Z) (R : A -> Z -> Prop) ws ocap tail :
  (forall x, In x ws -> length (g x) = wi /\ exists a, f (g x) = Ok a /\ R a x) ->
  1 <= wo -> minout <= wo -> wo * Z.of_nat (length ws) <= ocap -> Z.of_nat (length ws) < 2 ^ 32 ->
  exists outs, decode_fixed wi wo minout f (concat (map g ws) ++ tail) (Z.of_nat (length ws)) ocap = Ok outs /\
    Forall2 R outs ws.
Proof.
  intros H Hwo Hm Ho Hn. unfold decode_fixed.
  destruct (Z.eqb_spec (Z.of_nat (length ws)) 0) as [E|E].
  { destruct ws; [exists []; split; [reflexivity|constructor]|simpl in E; lia]. }
  destruct (Z.ltb_spec ocap minout); [nia|].
  destruct (Z.leb_spec (2 ^ 32) (Z.of_nat (length ws))); [lia|].
  rewrite Nat2Z.id. clear E H0 H1 Hn Hm. revert ocap tail Ho.
  induction ws as [|x ws IH]; intros ocap tail Ho; [exists []; split; [reflexivity|constructor]|].
  cbn [length dec_loop map concat]. destruct (H x (or_introl eq_refl)) as [Hl (a & Hx & Ha)].
  cbn [length] in Ho. destruct (Z.leb_spec wo ocap); [|nia].
  rewrite <- app_assoc, slice_app by auto. cbn [bind]. rewrite Hx. cbn [bind].
  rewrite skipn_app_exact by auto.
  destruct (IH ltac:(intros y Hy; apply H; now right) (ocap - wo) tail ltac:(nia)) as (outs & E & F).
  rewrite E. exists (a :: outs). split; [reflexivity|constructor; auto].
Qed.

Section Series.
  Variables (hb sw : bool) (us tail : list Z) (ocap : Z).
  Hypothesis Hu : Forall (in_u 16) us.
  Hypothesis Hn : Z.of_nat (length us) < 2 ^ 32.
  Hypothesis Ho : 4 * Z.of_nat (length us) <= ocap.
  Let input := series_bytes (xorb hb sw) 2 us ++ tail.
  Let cnt := Z.of_nat (length us).

  Lemma Hin u : In u us -> in_u 16 u.
  Proof. rewrite Forall_forall in Hu. auto. Qed.

  Lemma cdsn_series : decode_cdsn hb sw input cnt ocap = Ok (map cdsn_value us).
  Proof.
    apply decode_fixed_series; auto; try lia. intros u H. split; [apply data_bytes_length|].
    unfold cdsn_word. rewrite ld_data by (apply Hin; auto).
    f_equal. apply cdsn_u_ok. apply Hin; auto.
  Qed.

  Lemma dwwssn_series : decode_dwwssn hb sw input cnt ocap = Ok (map dwwssn_value us).
  Proof.
    apply decode_fixed_series; auto; try lia. intros u H. split; [apply data_bytes_length|].
    unfold dwwssn_word. rewrite ld_data by (apply Hin; auto).
    f_equal. apply dwwssn_u_ok. apply Hin; auto.
  Qed.

  Lemma sro_series : Forall sro_defined us -> decode_sro hb sw input cnt ocap = Ok (map sro_value us).
  Proof.
    intros HD. rewrite Forall_forall in HD.
    apply decode_fixed_series; auto; try lia. intros u H. split; [apply data_bytes_length|].
    unfold sro_word. rewrite ld_data by (apply Hin; auto).
    change (sro_u u = Ok (sro_value u)). rewrite sro_u_ok by (apply Hin; auto).
    specialize (HD u H). unfold sro_defined in HD. destruct (Z.leb_spec (u / 4096) 10); [reflexivity|lia].
  Qed.

  Lemma sro_series_err : ~ Forall sro_defined us -> decode_sro hb sw input cnt ocap = Err (-1).
  Proof.
    unfold input, cnt, decode_sro, decode_fixed, series_bytes. intros HD.
    destruct (Z.eqb_spec (Z.of_nat (length us)) 0) as [E|E].
    { exfalso. apply HD. destruct us; [constructor|simpl in E; lia]. }
    destruct (Z.ltb_spec ocap 1); [lia|].
    destruct (Z.leb_spec (2 ^ 32) (Z.of_nat (length us))); [lia|].
    rewrite Nat2Z.id. pose proof Hu as Hu'. pose proof Ho as Ho'. revert HD Hu' Ho'. clear.
    revert ocap tail. induction us as [|u us' IH]; intros ocap tail HD Hu Ho.
    { exfalso. apply HD. constructor. }
    inversion Hu; subst.
    cbn [length dec_loop map concat] in *. destruct (Z.leb_spec 4 ocap); [|lia].
    rewrite <- app_assoc, slice_app by apply data_bytes_length. cbn [bind].
    unfold sro_word at 1. rewrite ld_data by auto.
    change (bind (sro_u u) (fun v => let! r := dec_loop 2 4 (sro_word hb sw) (length us') (ocap - 4)
       (skipn 2 (data_bytes (xorb hb sw) 2 u ++ concat (map (data_bytes (xorb hb sw) 2) us') ++ tail)) in Ok (v :: r)) = Err (-1)).
    rewrite sro_u_ok by auto. destruct (Z.leb_spec (u / 4096) 10); [|reflexivity]. cbn [bind].
    rewrite skipn_app_exact by (rewrite data_bytes_length; auto).
    rewrite IH; auto; lia.
  Qed.

  Lemma geoscope163_series : exists outs,
    decode_geoscope 13 hb sw input cnt ocap = Ok outs /\ Forall2 (fun x u => sf_is x (geoscope163_value u)) outs us.
  Proof.
    destruct (decode_fixed_rel 2 4 1 (geoscope16_word 0x7000 hb sw) (data_bytes (xorb hb sw) 2)
                (fun x u => sf_is x (geoscope163_value u)) us ocap tail) as (outs & E & F); auto; try lia.
    { intros u H. split; [apply data_bytes_length|]. eexists. split; [reflexivity|].
      rewrite ld_data by (apply Hin; auto). apply geo163_ok. apply Hin; auto. }
    exists outs. split; auto. unfold decode_geoscope, cnt, input in *.
    destruct (Z.eqb_spec (Z.of_nat (length us)) 0) as [E0|E0].
    - unfold decode_fixed in E. rewrite E0 in E. cbn in E. congruence.
    - destruct (Z.eqb_spec ocap 0); [lia|]. exact E.
  Qed.

  Lemma geoscope164_series : exists outs,
    decode_geoscope 14 hb sw input cnt ocap = Ok outs /\ Forall2 (fun x u => sf_is x (geoscope164_value u)) outs us.
  Proof.
    destruct (decode_fixed_rel 2 4 1 (geoscope16_word 0xf000 hb sw) (data_bytes (xorb hb sw) 2)
                (fun x u => sf_is x (geoscope164_value u)) us ocap tail) as (outs & E & F); auto; try lia.
    { intros u H. split; [apply data_bytes_length|]. eexists. split; [reflexivity|].
      rewrite ld_data by (apply Hin; auto). apply geo164_ok. apply Hin; auto. }
    exists outs. split; auto. unfold decode_geoscope, cnt, input in *.
    destruct (Z.eqb_spec (Z.of_nat (length us)) 0) as [E0|E0].
    - unfold decode_fixed in E. rewrite E0 in E. cbn in E. congruence.
    - destruct (Z.eqb_spec ocap 0); [lia|]. exact E.
  Qed.
End Series.

Lemma geoscope24_series hb sw us tail ocap :
  xorb hb sw = true -> Forall (in_u 24) us -> Z.of_nat (length us) < 2 ^ 32 ->
  4 * Z.of_nat (length us) <= ocap ->
  exists outs,
    decode_geoscope 12 hb sw (series_bytes true 3 us ++ tail) (Z.of_nat (length us)) ocap = Ok outs /\
    Forall2 (fun x u => sf_is x (geoscope24_value u)) outs us.
Proof.
  intros Hx Hu Hn Ho. rewrite Forall_forall in Hu.
  destruct (decode_fixed_rel 3 4 1 (geoscope24_word hb sw) (data_bytes true 3)
              (fun x u => sf_is x (geoscope24_value u)) us ocap tail) as (outs & E & F); auto; try lia.
  { intros u H. split; [apply data_bytes_length|]. apply geo24_ok; auto. }
  exists outs. split; auto. unfold decode_geoscope.
  destruct (Z.eqb_spec (Z.of_nat (length us)) 0) as [E0|E0].
  - unfold decode_fixed in E. rewrite E0 in E. cbn in E. congruence.
  - destruct (Z.eqb_spec ocap 0); [lia|]. exact E.
Qed.
