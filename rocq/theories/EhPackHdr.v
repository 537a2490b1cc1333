(** * The whole version 2 header of a record with extra headers. *)

From Coq Require Import String QArith Qabs Lqa.
From Verif Require Import Base BaseLemmas TimeModel TimeSpec TimeProof StrModel RecModel RecSpec RecProof PackModel PackSpec PackProof ConvSpec ConvProof
  EhModel EhSpec EhProof V2Model V2RecSpec V2RecProof V2RecParse V2Rate Pack2Model Pack2Spec Pack2Hdr Pack2Rate
  EhPackModel EhPackSpec EhPackFields EhPackBody EhPackProof.
Open Scope Z_scope.
Open Scope list_scope.

(** ** Quality and flags *)

Lemma quality_spec root j pub : root_is root j -> sound j -> quality_for j pub (quality_at root pub) /\ In (quality_at root pub) [68; 82; 81; 77].
Proof.
  intros R S. unfold quality_at, quality_for. rewrite version_char_is.
  assert (V : In (version_char pub) [68; 82; 81; 77]) by (unfold version_char; destruct pub as [|[[|[]|]|[|[]|]|]|]; cbn [In]; tauto).
  pose proof (str_spec _ _ "/FDSN/DataQuality" ["FDSN"%string; "DataQuality"%string] R ltac:(nm) S) as H.
  destruct (str_at root "/FDSN/DataQuality") as [s|].
  - destruct H as [T _]. destruct ((hd 0 s =? 68) || (hd 0 s =? 82) || (hd 0 s =? 81) || (hd 0 s =? 77)) eqn:E.
    + assert (I : In (hd 0 s) [68; 82; 81; 77]) by (cbn [In]; lia). split; [|exact I]. left. exists s. auto.
    + split; [|exact V]. right. split; [|reflexivity]. intros s' T'. rewrite <- (text_fun _ _ _ _ T T'). cbn [In]. lia.
  - split; [|exact V]. right. split; [|reflexivity]. intros s T. destruct (H s T).
Qed.

Lemma positive_spec b : dlt dzero (dval b) = true <-> positive b.
Proof.
  unfold positive. split.
  - unfold dzero. destruct (dval b) as [q|s|] eqn:E; [intros H; exists q; left; split; [reflexivity|now apply dlt_fin]| |discriminate].
    destruct s; [discriminate|]. intros _. exists 0%Q. right. reflexivity.
  - intros (q & [[-> H]|E]); [now apply dlt_fin|]. rewrite E. reflexivity.
Qed.
Lemma negative_spec b : dlt (dval b) dzero = true <-> negative b.
Proof.
  unfold negative. split.
  - unfold dzero. destruct (dval b) as [q|s|] eqn:E; [intros H; exists q; left; split; [reflexivity|now apply dlt_fin]| |discriminate].
    destruct s; [|discriminate]. intros _. exists 0%Q. right. reflexivity.
  - intros (q & [[-> H]|E]); [now apply dlt_fin|]. rewrite E. reflexivity.
Qed.

Lemma near_sign i q : (Qabs (q - inject_Z i) <= inject_Z (Z.abs i) * (1 # 2 ^ 52))%Q -> ((0 < q)%Q <-> 0 < i) /\ ((q < 0)%Q <-> i < 0).
Proof.
  intros H. change (1 # 2 ^ 52)%Q with (1 # 4503599627370496)%Q in H. apply Qabs_Qle_condition in H. destruct H as [H1 H2].
  destruct (Z.lt_trichotomy i 0) as [C|[C|C]].
  - rewrite (Z.abs_neq i) in * by lia. rewrite inject_Z_opp in *. assert (inject_Z i < 0)%Q by (change 0%Q with (inject_Z 0); rewrite <- Zlt_Qlt; exact C).
    split; split; intros; try lia; lra.
  - subst i. change (inject_Z (Z.abs 0)) with 0%Q in *. change (inject_Z 0) with 0%Q in *. split; split; intros; try lia; lra.
  - rewrite (Z.abs_eq i) in * by lia. assert (0 < inject_Z i)%Q by (change 0%Q with (inject_Z 0); rewrite <- Zlt_Qlt; exact C).
    split; split; intros; try lia; lra.
Qed.

(** Two patterns of the same number have the same sign. *)
Lemma number_sign j ks b b' : has_number j ks b -> has_number j ks b' -> (positive b -> positive b') /\ (negative b -> negative b').
Proof.
  intros (v & A & N) (v' & A' & N'). pose proof (at_fun _ _ _ _ A A') as <-.
  destruct N as [->|(i & q & -> & _ & D & B)], N' as [E|(i' & q' & E & _ & D' & B')]; try discriminate.
  - injection E as <-. auto.
  - injection E as <-. destruct (near_sign _ _ B) as [P1 P2], (near_sign _ _ B') as [P1' P2']. unfold positive, negative. rewrite D, D'. split.
    + intros (x & [[X H]|X]); [|discriminate]. injection X as <-. exists q'. left. split; [reflexivity|]. tauto.
    + intros (x & [[X H]|X]); [|discriminate]. injection X as <-. exists q'. left. split; [reflexivity|]. tauto.
Qed.

Lemma both_signs b : positive b -> negative b -> False.
Proof. intros (q & [[E H]|E]) (q' & [[E' H']|E']); rewrite E in E'; try discriminate; injection E' as <-; lra. Qed.

Section Flags.
Context (root : option jv) (j : jv) (R : root_is root j) (S : sound j).

Lemma set_bit p a b : zs p = written (map zs (fdsn a b)) -> bool_at root p = true <-> is_set j (fdsn a b).
Proof. intros E. apply bool_spec; [exact R|]. split; [exact E|discriminate]. Qed.

Lemma act_spec flags : let a := act_at root flags in in_u 8 a /\
    bit_for a 0 (Z.testbit flags 0 = true) /\ bit_for a 1 (exists b, has_number j (fdsn "Time" "Correction") b) /\
    bit_for a 2 (is_set j (fdsn "Event" "Begin")) /\ bit_for a 3 (is_set j (fdsn "Event" "End")) /\
    bit_for a 4 (exists b, has_number j (fdsn "Time" "LeapSecond") b /\ positive b) /\
    bit_for a 5 (exists b, has_number j (fdsn "Time" "LeapSecond") b /\ negative b) /\
    bit_for a 6 (is_set j (fdsn "Event" "InProgress")) /\ bit_for a 7 False.
Proof.
  cbv zeta.
  assert (Nl : names_ "/FDSN/Time/LeapSecond" (fdsn "Time" "LeapSecond")) by nm.
  assert (Nc : names_ "/FDSN/Time/Correction" (fdsn "Time" "Correction")) by nm.
  pose proof (num_spec _ _ _ _ R Nl S) as Hl. pose proof (num_spec _ _ _ _ R Nc S) as Hc.
  set (co := match num_at root "/FDSN/Time/Correction" with Some _ => true | None => false end).
  set (lp := match num_at root "/FDSN/Time/LeapSecond" with Some b => dlt dzero (dval b) | None => false end).
  set (ln := match num_at root "/FDSN/Time/LeapSecond" with Some b => dlt (dval b) dzero | None => false end).
  assert (Ex : lp && ln = false).
  { unfold lp, ln. destruct (num_at root "/FDSN/Time/LeapSecond") as [b|]; [|reflexivity].
    destruct (dlt dzero (dval b)) eqn:P, (dlt (dval b) dzero) eqn:N; try reflexivity. apply positive_spec in P. apply negative_spec in N. destruct (both_signs _ P N). }
  assert (E : act_at root flags = on (Z.testbit flags 0) 1 + on co 2 + on (bool_at root "/FDSN/Event/Begin") 4 + on (bool_at root "/FDSN/Event/End") 8
              + on lp 16 + on ln 32 + on (bool_at root "/FDSN/Event/InProgress") 64 + on false 128).
  { unfold act_at. fold co. fold lp in Ex. clear -Ex. unfold lp, ln in *. destruct (num_at root "/FDSN/Time/LeapSecond") as [b|]; [|cbn [on]; lia].
    destruct (dlt dzero (dval b)), (dlt (dval b) dzero); try discriminate; cbn [on]; lia. }
  rewrite E. destruct (bits8 (Z.testbit flags 0) co (bool_at root "/FDSN/Event/Begin") (bool_at root "/FDSN/Event/End") lp ln (bool_at root "/FDSN/Event/InProgress") false)
    as (B0 & B1 & B2 & B3 & B4 & B5 & B6 & B7 & Br).
  split; [exact Br|]. split; [eapply bit_of; [exact B0|tauto]|].
  split. { eapply bit_of; [exact B1|]. unfold co. destruct (num_at root "/FDSN/Time/Correction") as [b|]; [split; [intros _; exists b; apply Hc|reflexivity]|].
           split; [discriminate|]. intros [b Hb]. destruct (no_number_has _ _ _ Hc Hb). }
  split; [eapply bit_of; [exact B2|now apply set_bit]|]. split; [eapply bit_of; [exact B3|now apply set_bit]|].
  split. { eapply bit_of; [exact B4|]. unfold lp. destruct (num_at root "/FDSN/Time/LeapSecond") as [b|].
           - rewrite positive_spec. split; [intros P; exists b; split; [apply Hl|exact P]|]. intros (b' & Hb & P). now apply (number_sign _ _ _ _ Hb (proj1 Hl)).
           - split; [discriminate|]. intros (b & Hb & _). destruct (no_number_has _ _ _ Hl Hb). }
  split. { eapply bit_of; [exact B5|]. unfold ln. destruct (num_at root "/FDSN/Time/LeapSecond") as [b|].
           - rewrite negative_spec. split; [intros P; exists b; split; [apply Hl|exact P]|]. intros (b' & Hb & P). now apply (number_sign _ _ _ _ Hb (proj1 Hl)).
           - split; [discriminate|]. intros (b & Hb & _). destruct (no_number_has _ _ _ Hl Hb). }
  split; [eapply bit_of; [exact B6|now apply set_bit]|]. now apply bit_no.
Qed.

Lemma io_spec flags : let io := io_at root flags in in_u 8 io /\
    bit_for io 0 (is_set j (fdsn "Flags" "StationVolumeParityError")) /\ bit_for io 1 (is_set j (fdsn "Flags" "LongRecordRead")) /\
    bit_for io 2 (is_set j (fdsn "Flags" "ShortRecordRead")) /\ bit_for io 3 (is_set j (fdsn "Flags" "StartOfTimeSeries")) /\
    bit_for io 4 (is_set j (fdsn "Flags" "EndOfTimeSeries")) /\ bit_for io 5 (Z.testbit flags 2 = true) /\
    bit_for io 6 False /\ bit_for io 7 False.
Proof.
  cbv zeta.
  assert (E : io_at root flags = on (bool_at root "/FDSN/Flags/StationVolumeParityError") 1 + on (bool_at root "/FDSN/Flags/LongRecordRead") 2
     + on (bool_at root "/FDSN/Flags/ShortRecordRead") 4 + on (bool_at root "/FDSN/Flags/StartOfTimeSeries") 8
     + on (bool_at root "/FDSN/Flags/EndOfTimeSeries") 16 + on (Z.testbit flags 2) 32 + on false 64 + on false 128) by (unfold io_at; cbn [on]; lia).
  rewrite E. edestruct (bits8) as (B0 & B1 & B2 & B3 & B4 & B5 & B6 & B7 & Br).
  split; [exact Br|]. do 5 (split; [eapply bit_of; [eassumption|now apply set_bit]|]). split; [eapply bit_of; [exact B5|tauto]|]. split; now apply bit_no.
Qed.

Lemma dq_spec flags : let dq := dq_at root flags in in_u 8 dq /\
    bit_for dq 0 (is_set j (fdsn "Flags" "AmplifierSaturation")) /\ bit_for dq 1 (is_set j (fdsn "Flags" "DigitizerClipping")) /\
    bit_for dq 2 (is_set j (fdsn "Flags" "Spikes")) /\ bit_for dq 3 (is_set j (fdsn "Flags" "Glitches")) /\
    bit_for dq 4 (is_set j (fdsn "Flags" "MissingData")) /\ bit_for dq 5 (is_set j (fdsn "Flags" "TelemetrySyncError")) /\
    bit_for dq 6 (is_set j (fdsn "Flags" "FilterCharging")) /\ bit_for dq 7 (Z.testbit flags 1 = true).
Proof.
  cbv zeta. unfold dq_at. edestruct (bits8) as (B0 & B1 & B2 & B3 & B4 & B5 & B6 & B7 & Br).
  split; [exact Br|]. do 7 (split; [eapply bit_of; [eassumption|now apply set_bit]|]). eapply bit_of; [exact B7|tauto].
Qed.
End Flags.

(** ** The fixed header *)

Definition hdr_with (m : msr) (k : codes) (q a io dq corr f mu nblk : Z) : hdr2 :=
  mk_hdr2 (repeat 48 6) q 32 (fill 5 (k_sta k)) (fill 2 (k_loc k)) (k_band k, k_source k, k_sub k)
          (fill 2 (k_net k)) (btime_at (m_start m)) 0 f mu a io dq nblk corr 0.

Lemma fixed_part_x {A} (K : list Z -> res A) hb m k q a io dq corr f mu R : codes_ok k ->
  (let! b := put 0 [48; 48; 48; 48; 48; 48] (repeat 0 48 ++ R) in
   let! b := put 6 [q; 32] b in
   let! b := put_open 8 (k_sta k ++ [0]) 5 b in
   let! b := put_open 13 (k_loc k ++ [0]) 2 b in
   let! b := put_open 15 ([k_band k; k_source k; k_sub k] ++ [0]) 3 b in
   let! b := put_open 18 (k_net k ++ [0]) 2 b in
   let! b := put_time2 hb (fields_of (m_start m)) b in
   let! b := put 27 [0] b in
   let! b := put 30 [0; 0] b in
   let! b := put 32 (be hb 2 f) b in
   let! b := put 34 (be hb 2 mu) b in
   let! b := put 36 [a; io; dq; 1] b in
   let! b := put 40 (be hb 4 corr ++ [0; 0]) b in
   let! b := put 46 (be hb 2 48) b in K b) = K (fixed2 true (hdr_with m k q a io dq corr f mu 1) 48 ++ R).
Proof.
  intros (Kn & Ks & Kl & Kb & Ko & Ku). apply code_ascii in Kn, Ks, Kl. destruct Kn as [Tn Ln], Ks as [Ts Ls], Kl as [Tl Ll].
  destruct (five _ (lenZ_fill _ _ Ls)) as (s0 & s1 & s2 & s3 & s4 & Es). destruct (two _ (lenZ_fill _ _ Ll)) as (l0 & l1 & El).
  destruct (two _ (lenZ_fill _ _ Ln)) as (n0 & n1 & En).
  rewrite put_in_b by reflexivity. cbn [bind]. rewrite put_in_b by reflexivity. cbn [bind].
  rewrite put_open_b; [|exact Ts|exact Ls|reflexivity]. rewrite Es. cbn [bind].
  rewrite put_open_b; [|exact Tl|exact Ll|reflexivity]. rewrite El. cbn [bind].
  rewrite put_open_b; [|unfold band_ok in *; repeat constructor; lia|cbn; lia|reflexivity]. cbn [bind].
  rewrite put_open_b; [|exact Tn|exact Ln|reflexivity]. rewrite En. cbn [bind].
  unfold fields_of, put_time2. rewrite !be_ord.
  do 13 (rewrite put_in_b by reflexivity; cbn [bind]). f_equal.
  unfold fixed2, hdr_with. cbn [f_seq f_quality f_reserved f_sta f_loc f_chan f_net f_start f_cnt f_fact f_mult f_act f_io f_dq f_nblk f_corr f_data].
  rewrite Es, El, En. unfold btime_bytes, btime_at. cbn [b_day b_hour b_min b_sec b_unused b_fract].
  reflexivity.
Qed.

Lemma hdr_sized m k q a io dq corr f mu n : codes_ok k -> sized (hdr_with m k q a io dq corr f mu n).
Proof.
  intros ((Ln & _) & (Ls & _) & (Ll & _) & _). unfold sized, hdr_with. cbn [f_seq f_sta f_loc f_net].
  split; [reflexivity|]. split; [now apply lenZ_fill|]. split; now apply lenZ_fill.
Qed.

Lemma first_stands hb m k q a io dq corr f mu e enc L R : codes_ok k -> 0 <= e < 256 -> lenZ R = L - 48 -> 128 <= L ->
  exists b, put 48 (be hb 2 1000 ++ [0; 0] ++ [enc; 1; uwrap 8 e; 0]) (fixed2 true (hdr_with m k q a io dq corr f mu 1) 48 ++ R) = Ok b /\
    stands (hdr_with m k q a io dq corr f mu 0) L R (mk_pst b 56 50 1) [B1000 enc 1 e 0].
Proof.
  intros K He LR HL. assert (Ue : uwrap 8 e = e) by (unfold uwrap; now rewrite Z.mod_small by lia). rewrite Ue, be_ord.
  set (F := fixed2 true (hdr_with m k q a io dq corr f mu 1) 48).
  assert (LF : lenZ F = 48) by (apply fixed_len, hdr_sized, K).
  set (body := ord true 2 1000 ++ [0; 0] ++ [enc; 1; e; 0]). assert (Lb : List.length body = 8%nat) by reflexivity.
  assert (Er : F ++ R = F ++ firstn 8 R ++ skipn 8 R) by now rewrite firstn_skipn.
  rewrite Er, put_mid; [|lia|rewrite firstn_length, Lb; unfold lenZ in LR; lia].
  eexists. split; [reflexivity|]. constructor; cbn [q_buf q_written q_next q_count]; try reflexivity; try discriminate.
  change (sizes [B1000 enc 1 e 0]) with 8. lia.
Qed.

(** ** The header *)

Lemma doc_root rd m j : doc_of rd m j -> exists root, root_is root j /\
  (match m_extra m with [] => Ok None | x => match rd x with Some j => Ok (Some j) | None => Err (-1) end end) = Ok root.
Proof.
  intros [[E ->]|[N E]].
  - rewrite E. exists None. split; [right; auto|reflexivity].
  - exists (Some j). split; [left; reflexivity|]. destruct (m_extra m); [congruence|]. now rewrite E.
Qed.

Lemma adds_one h L R hb b : sized h -> lenZ R = L - 48 -> forall st bs, stands h L R st bs -> 48 + sizes bs + blk_size b <= L ->
  forall type len body, type = blk_type b -> len = blk_size b -> body = blk_body true b ->
  exists st', add_blk hb type len (Ok body) st = Ok st' /\ stands h L R st' (bs ++ [b]).
Proof. intros Sz LR st bs S H type len body -> -> ->. now apply add_ok. Qed.

Lemma header2x_ok rd hb mode stack m k f mu e R j : codes_ok k -> m_sid m = codes_sid k -> (64 <= List.length stack)%nat ->
  7 <= e <= 17 -> maxlen m = 2 ^ e -> in_s 64 (m_start m) -> genfactmult mode (sampratehz (m_rate m)) = Ok (f, mu) ->
  lenZ R = maxlen m - 48 -> doc_of rd m j -> document_ok j ->
  exists h bs, header_says j m k f mu h /\ f_nblk h = lenZ bs mod 256 /\ in_s 32 (f_corr h) /\
    blockettes_say j (encoding_of m) e (micros (m_start m)) (rate_blk m f mu) bs /\
    pack_header2x rd hb mode stack (maxlen m) m (repeat 0 48 ++ R) =
    (if header_size bs <=? maxlen m then Ok (layout2 true h [] bs (skipn (Z.to_nat (header_size bs - 48)) R), header_size bs) else Err (-1)).
Proof.
  intros K S St E M T G LR Dj Dok. destruct (exp_is e E) as (X1 & X2 & X3). destruct (doc_root _ _ _ Dj) as (root & Rt & Er).
  pose proof Dok as (Sj & Cj & _).
  destruct (quality_spec root j (m_pub m) Rt Sj) as [Hq _].
  destruct (act_spec root j Rt Sj (m_flags m)) as (A8 & A). destruct (io_spec root j Rt (m_flags m)) as (I8 & Io). destruct (dq_spec root j Rt (m_flags m)) as (D8 & Dq).
  destruct (corr_spec root j Rt Sj Cj) as (corr & Ec & Ic & Hc).
  set (q := quality_at root (m_pub m)) in *. set (a := act_at root (m_flags m)) in *. set (io := io_at root (m_flags m)) in *. set (dq := dq_at root (m_flags m)) in *.
  set (h0 := hdr_with m k q a io dq corr f mu 0). set (L := maxlen m) in *.
  assert (Sz : sized h0) by now apply hdr_sized.
  assert (HL : 128 <= L <= 131072) by (rewrite M; exact X3).
  destruct (first_stands hb m k q a io dq corr f mu e (encoding_of m) L R K ltac:(lia) LR ltac:(lia)) as (b0 & Eb0 & S0). fold h0 in S0.
  destruct (micros_is (m_start m)) as [Mi Mr]. set (us := micros (m_start m)) in *.
  (* blockette 1001 *)
  assert (Nq : names_ "/FDSN/Time/Quality" ["FDSN"%string; "Time"%string; "Quality"%string]) by nm.
  pose proof (uint_spec _ _ _ _ Rt Nq) as Uq. destruct (upto_spec _ _ _ _ 255 Rt Nq ltac:(lia)) as [Hup Rup].
  set (tq := f_upto 255 (uint_at root "/FDSN/Time/Quality")) in *.
  set (w1 := negb (us =? 0) || match uint_at root "/FDSN/Time/Quality" with Some _ => true | None => false end).
  set (b1 := if w1 then [B1001 tq us 0 0] else []).
  assert (W1 : w1 = true <-> us <> 0 \/ exists u, has_count j ["FDSN"%string; "Time"%string; "Quality"%string] u).
  { unfold w1. destruct (uint_at root "/FDSN/Time/Quality") as [u|].
    - rewrite orb_true_r. split; [intros _; right; eauto|reflexivity].
    - rewrite orb_false_r. split; [intros; left; lia|]. intros [H|[u H]]; [lia|destruct (Uq u H)]. }
  assert (S1 : exists st1, (match uint_at root "/FDSN/Time/Quality" with
                    | Some q => add_blk hb 1001 8 (Ok [f_upto 255 (Some q); uwrap 8 us; 0; 0]) (mk_pst b0 56 50 1)
                    | None => if us =? 0 then Ok (mk_pst b0 56 50 1) else add_blk hb 1001 8 (Ok [0; uwrap 8 us; 0; 0]) (mk_pst b0 56 50 1)
                    end) = Ok st1 /\ stands h0 L R st1 (B1000 (encoding_of m) 1 e 0 :: b1)).
  { unfold b1, w1, tq. destruct (uint_at root "/FDSN/Time/Quality") as [u|].
    - rewrite orb_true_r. apply (adds_one h0 L R hb (B1001 (f_upto 255 (Some u)) us 0 0) Sz LR _ _ S0); try reflexivity.
      change (sizes [B1000 (encoding_of m) 1 e 0]) with 8. change (blk_size _) with 8. lia.
    - rewrite orb_false_r. destruct (us =? 0); cbn [negb]; [eauto|].
      apply (adds_one h0 L R hb (B1001 0 us 0 0) Sz LR _ _ S0); try reflexivity.
      change (sizes [B1000 (encoding_of m) 1 e 0]) with 8. change (blk_size _) with 8. lia. }
  destruct S1 as (st1 & E1 & S1).
  assert (Z1 : sizes (B1000 (encoding_of m) 1 e 0 :: b1) <= 16) by (unfold b1; destruct w1; cbv; discriminate).
  (* blockette 100 *)
  set (b2 := match rate_blk m f mu with Some w => [B100 w [0; 0; 0; 0]] | None => [] end).
  assert (S2 : exists st2, (if dlt d_1em4 (dabs (dsub (sampratehz (m_rate m)) (nomsamprate f mu)))
                    then add_blk hb 100 12 (Ok (be hb 4 (double_to_float (m_rate m)) ++ [0; 0; 0; 0])) st1 else Ok st1) = Ok st2 /\
                 stands h0 L R st2 ((B1000 (encoding_of m) 1 e 0 :: b1) ++ b2)).
  { unfold b2, rate_blk. destruct (dlt d_1em4 _); [|rewrite app_nil_r; eauto]. rewrite be_ord.
    apply (adds_one h0 L R hb (B100 (double_to_float (m_rate m)) [0; 0; 0; 0]) Sz LR _ _ S1); try reflexivity.
    change (blk_size _) with 12. lia. }
  destruct S2 as (st2 & E2 & S2).
  (* entries *)
  destruct (entries_add hb mode h0 L R root j Sz LR ltac:(lia) Rt Dok) as (xs & Xs & Ax).
  specialize (Ax st2 _ S2).
  set (all := ((B1000 (encoding_of m) 1 e 0 :: b1) ++ b2) ++ xs) in *.
  set (bs := bare all). set (h := with_count h0 (lenZ bs mod 256)).
  assert (Lbs : lenZ bs = lenZ all) by (unfold bs, bare, lenZ; now rewrite map_length).
  assert (Hs : header_size bs = 48 + sizes all) by (unfold header_size, bs; now rewrite chainf_0, chainf_len).
  exists h, bs. split.
  { exists q, a, io, dq, corr, (lenZ bs mod 256). split; [reflexivity|]. split; [exact Hq|]. do 3 (split; [assumption|]).
    split; [unfold in_u; apply Z.mod_pos_bound; lia|]. tauto. }
  split; [reflexivity|]. split; [exact Ic|]. split.
  { exists tq, xs. split; [exact Hup|]. split; [exact Xs|]. unfold bs, bare, all, b1, b2. destruct w1.
    - left. split; [exact (proj1 W1 eq_refl)|reflexivity].
    - right. split; [|reflexivity]. split.
      + destruct (Z.eq_dec us 0) as [H|H]; [exact H|]. discriminate (proj2 W1 (or_introl H)).
      + intros u H. discriminate (proj2 W1 (or_intror (ex_intro _ u H))). }
  unfold pack_header2x. cbv zeta. fold (maxlen m). fold (encoding_of m). fold L. rewrite M.
  replace ((2 ^ e <? 128) || (MAXRECLEN <? 2 ^ e)) with false by (unfold MAXRECLEN; lia). rewrite X1, X2. cbn [Z.eqb negb bind].
  destruct (sid_codes stack k K St) as (o & Eo & An & As & Al & Ac). rewrite S, Eo. cbn [bind]. rewrite An, As, Al, Ac. cbn [bind].
  pose proof K as ((Ln & _) & (Ls & _) & (Ll & _) & _).
  replace ((2 <? Z.of_nat (List.length (k_net k))) || (5 <? Z.of_nat (List.length (k_sta k))) || (2 <? Z.of_nat (List.length (k_loc k))) || negb (Z.of_nat (List.length [k_band k; k_source k; k_sub k]) =? 3)) with false
    by (unfold lenZ in *; cbn [List.length]; lia).
  rewrite nstime2time_ok by exact T. unfold fields_of at 1. cbv iota. rewrite G. cbn [bind]. rewrite Er. cbn [bind]. rewrite Mi. fold us. rewrite Ec.
  refine (eq_trans (fixed_part_x _ hb m k q a io dq corr f mu R K) _).
  rewrite Eb0. cbn [bind].
  rewrite E1. cbn [bind]. rewrite E2. cbn [bind]. rewrite <- M. fold L. rewrite Hs.
  replace (48 + sizes ((B1000 (encoding_of m) 1 e 0 :: b1) ++ b2) + sizes xs) with (48 + sizes all) in Ax by (unfold all; rewrite (sizes_app (_ ++ _)); lia).
  destruct (48 + sizes all <=? L).
  - destruct Ax as (st3 & E3 & S3). destruct S3 as [_ Sb Sw _ _ _]. fold all in Sb, Sw.
    assert (E3' : (let! st := each_at root "/FDSN/Time/Exception" (add_exception L hb mode root) st2 in
      let! st := each_at root "/FDSN/Event/Detection" (add_detection L hb mode) st in
      let! st := each_at root "/FDSN/Calibration/Sequence" (add_calibration L hb mode) st in Ok (q_buf st, q_written st)) = Ok (q_buf st3, q_written st3)).
    { revert E3. destruct (each_at root "/FDSN/Time/Exception" _ _) as [s| | |]; cbn [bind]; try discriminate.
      destruct (each_at root "/FDSN/Event/Detection" _ _) as [s'| | |]; cbn [bind]; try discriminate. intros ->. reflexivity. }
    rewrite E3', Sb, Sw. f_equal. f_equal. unfold layout2. change (48 + lenZ (@nil Z)) with 48. cbn [app]. unfold bs. rewrite chainf_0.
    unfold h. fold bs. rewrite Lbs. f_equal. f_equal. f_equal. lia.
  - revert Ax. destruct (each_at root "/FDSN/Time/Exception" _ _) as [s|c|u|]; cbn [bind]; try congruence.
    destruct (each_at root "/FDSN/Event/Detection" _ _) as [s'| | |]; cbn [bind]; try congruence. intros ->. reflexivity.
Qed.
