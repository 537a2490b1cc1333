(** * Proofs about packing version 3 records. *)

From Verif Require Import Base BaseLemmas SteimModel SteimSpec SteimProof SteimFrames CodecModel CodecProof CrcModel
  CrcSpec CrcProof TimeModel TimeSpec TimeProof RecModel RecSpec RecProof PackModel PackSpec PackData.
Open Scope Z_scope.

(** ** Writing into the buffer *)

Definition upd (off : nat) (bs B : list Z) : list Z := firstn off B ++ bs ++ skipn (off + length bs) B.

Lemma put_in B R off bs : 0 <= off -> off + lenZ bs <= lenZ B ->
  put off bs (B ++ R) = Ok (upd (Z.to_nat off) bs B ++ R).
Proof.
  intros H0 H. unfold put. unfold lenZ in *. rewrite app_length.
  replace ((0 <=? off) && (off + Z.of_nat (length bs) <=? Z.of_nat (length B + length R))) with true by lia.
  unfold upd. rewrite firstn_app, skipn_app.
  replace (Z.to_nat off - length B)%nat with 0%nat by lia.
  replace (Z.to_nat off + length bs - length B)%nat with 0%nat by lia.
  cbn [firstn skipn]. rewrite app_nil_r, <- !app_assoc. reflexivity.
Qed.

Lemma put_in_b B R off bs : (0 <=? off) && (off + lenZ bs <=? lenZ B) = true ->
  put off bs (B ++ R) = Ok (upd (Z.to_nat off) bs B ++ R).
Proof. intros H. apply put_in; lia. Qed.

Lemma upd_len off bs B : (off + length bs <= length B)%nat -> length (upd off bs B) = length B.
Proof. intros H. unfold upd. rewrite !app_length, firstn_length, skipn_length. lia. Qed.

Lemma put_mid off bs (a x c : list Z) : off = lenZ a -> length x = length bs -> put off bs (a ++ x ++ c) = Ok (a ++ bs ++ c).
Proof.
  intros -> L. unfold put. unfold lenZ. rewrite !app_length.
  replace ((0 <=? Z.of_nat (length a)) && (Z.of_nat (length a) + Z.of_nat (length bs) <=? Z.of_nat (length a + (length x + length c)))) with true by lia.
  rewrite Nat2Z.id. rewrite firstn_app_exact by reflexivity. f_equal. f_equal. f_equal.
  rewrite app_assoc. apply skipn_app_exact. rewrite app_length. lia.
Qed.

(** The fixed header with the three fields written last as raw bytes. *)
Definition raw3 (flags : Z) (t : Z * Z * Z * Z * Z * Z) (enc rate : Z) (cb crcb : list Z) (pub sl el : Z) (dlb : list Z) : list Z :=
  let '(year, day, hour, min, sec, nsec) := t in
  [77; 83; 3; flags] ++ le_bytes 4 nsec ++ le_bytes 2 year ++ le_bytes 2 day
  ++ [hour; min; sec; enc] ++ le_bytes 8 rate ++ cb ++ crcb ++ [pub; sl] ++ le_bytes 2 el ++ dlb.

Lemma raw3_len flags t enc rate cb crcb pub sl el dlb : length cb = 4%nat -> length crcb = 4%nat -> length dlb = 4%nat ->
  length (raw3 flags t enc rate cb crcb pub sl el dlb) = 40%nat.
Proof.
  intros A B C. destruct t as [[[[[year day] hour] min] sec] nsec]. unfold raw3. rewrite !app_length, !le_bytes_length, A, B, C. reflexivity.
Qed.

Lemma four (l : list Z) : length l = 4%nat -> exists a b c d, l = [a; b; c; d].
Proof. destruct l as [|a [|b [|c [|d [|]]]]]; intros H; try discriminate H. eauto. Qed.

Lemma put_time_raw hb t t' flags enc rate cb crcb pub sl el dlb R : length cb = 4%nat -> length crcb = 4%nat -> length dlb = 4%nat ->
  put_time hb t' (raw3 flags t enc rate cb crcb pub sl el dlb ++ R) = Ok (raw3 flags t' enc rate cb crcb pub sl el dlb ++ R).
Proof.
  intros A B C. destruct t as [[[[[year day] hour] min] sec] nsec]. destruct t' as [[[[[year' day'] hour'] min'] sec'] nsec'].
  destruct (four _ A) as (? & ? & ? & ? & ->), (four _ B) as (? & ? & ? & ? & ->), (four _ C) as (? & ? & ? & ? & ->).
  unfold put_time. rewrite !st_le.
  do 5 (rewrite put_in_b by reflexivity; cbn [bind]). rewrite put_in_b by reflexivity. reflexivity.
Qed.

Lemma forty (l : list Z) : length l = 40%nat -> exists a0 a1 a2 a3 a4 a5 a6 a7 a8 a9 b0 b1 b2 b3 b4 b5 b6 b7 b8 b9
  c0 c1 c2 c3 c4 c5 c6 c7 c8 c9 d0 d1 d2 d3 d4 d5 d6 d7 d8 d9, l = [a0; a1; a2; a3; a4; a5; a6; a7; a8; a9; b0; b1; b2; b3; b4; b5; b6; b7; b8; b9;
  c0; c1; c2; c3; c4; c5; c6; c7; c8; c9; d0; d1; d2; d3; d4; d5; d6; d7; d8; d9].
Proof.
  intros H. do 40 (destruct l as [|? l]; [discriminate H|]). destruct l; [|discriminate H]. repeat eexists.
Qed.

Lemma put_sid (B sid J : list Z) : length B = 40%nat -> (length sid <= length J)%nat ->
  put 40 sid (B ++ J) = Ok (B ++ sid ++ skipn (length sid) J).
Proof.
  intros HB HJ. rewrite <- (firstn_skipn (length sid) J) at 1. apply put_mid.
  - unfold lenZ. now rewrite HB.
  - rewrite firstn_length. lia.
Qed.

Lemma header3_ok recip hb m B J t : length B = 40%nat -> 40 <= maxlen m <= 10485760 -> lenZ (m_sid m) <= 255 ->
  lenZ (m_sid m) + lenZ (m_extra m) <= lenZ J -> nstime2time (m_start m) = Ok t ->
  pack_header3 recip hb m (B ++ J) =
  Ok (raw3 (m_flags m) t (encoding_of m) (rate_of recip m) (firstn 4 (skipn 24 B)) (firstn 4 (skipn 28 B)) (m_pub m)
        (lenZ (m_sid m)) (lenZ (m_extra m)) (firstn 4 (skipn 36 B)) ++ m_sid m ++ m_extra m ++ skipn (length (m_sid m) + length (m_extra m)) J,
      40 + lenZ (m_sid m) + lenZ (m_extra m)).
Proof.
  intros HB Hm Hs HJ Ht. unfold pack_header3, rate_below_one. fold (maxlen m). fold (encoding_of m). fold (rate_of recip m).
  fold (lenZ (m_sid m)). fold (lenZ (m_extra m)). unfold MINRECLEN, MAXRECLEN.
  replace ((maxlen m <? 40) || (10485760 <? maxlen m)) with false by lia.
  fold (lenZ (B ++ J)). rewrite lenZ_app. replace (lenZ B) with 40 by (unfold lenZ; now rewrite HB).
  replace (40 + lenZ J <? 40 + lenZ (m_sid m) + lenZ (m_extra m)) with false by lia.
  rewrite Ht. replace (255 <? lenZ (m_sid m)) with false by lia.
  assert (Us : uwrap 8 (lenZ (m_sid m)) = lenZ (m_sid m)) by (apply uwrap_id; unfold in_u; pose proof (lenZ_nonneg (m_sid m)); lia).
  rewrite Us, !st_le. clear Us.
  assert (X : forall s ex J' : list Z, (length s + length ex <= length J')%nat ->
    (let! b := put 0 [77; 83; 3; m_flags m] (B ++ J') in
     let! b0 := put_time hb t b in
     let! b1 := put 15 [encoding_of m] b0 in
     let! b2 := put 16 (le_bytes 8 (rate_of recip m)) b1 in
     let! b3 := put 32 [m_pub m; lenZ (m_sid m)] b2 in
     let! b4 := put 34 (le_bytes 2 (lenZ (m_extra m))) b3 in
     put 40 s b4) =
     Ok (raw3 (m_flags m) t (encoding_of m) (rate_of recip m) (firstn 4 (skipn 24 B)) (firstn 4 (skipn 28 B)) (m_pub m)
        (lenZ (m_sid m)) (lenZ (m_extra m)) (firstn 4 (skipn 36 B)) ++ s ++ skipn (length s) J')).
  { intros s ex J' HJ'. destruct (forty B HB) as (a0 & a1 & a2 & a3 & a4 & a5 & a6 & a7 & a8 & a9 & b0 & b1 & b2 & b3 & b4 & b5 & b6 & b7 & b8 & b9 & c0 & c1 & c2 & c3 & c4 & c5 & c6 & c7 & c8 & c9 & d0 & d1 & d2 & d3 & d4 & d5 & d6 & d7 & d8 & d9 & ->).
    destruct t as [[[[[year day] hour] min] sec] nsec].
    generalize (lenZ (m_sid m)), (lenZ (m_extra m)), (rate_of recip m), (encoding_of m). intros z1 z2 z3 z4.
    unfold put_time. rewrite !st_le. 
    repeat (rewrite put_in_b by reflexivity; cbn [bind]).
    rewrite put_sid by (try reflexivity; lia). reflexivity. }
  unfold lenZ in HJ. specialize (X (m_sid m) (m_extra m) J ltac:(lia)).
  destruct (put 0 [77; 83; 3; m_flags m] (B ++ J)) as [x1| | |]; cbn [bind] in X |- *; try discriminate X.
  destruct (put_time hb t x1) as [x2| | |]; cbn [bind] in X |- *; try discriminate X.
  destruct (put 15 [encoding_of m] x2) as [x3| | |]; cbn [bind] in X |- *; try discriminate X.
  destruct (put 16 (le_bytes 8 (rate_of recip m)) x3) as [x4| | |]; cbn [bind] in X |- *; try discriminate X.
  destruct (put 32 [m_pub m; lenZ (m_sid m)] x4) as [x5| | |]; cbn [bind] in X |- *; try discriminate X.
  destruct (put 34 (le_bytes 2 (lenZ (m_extra m))) x5) as [x6| | |]; cbn [bind] in X |- *; try discriminate X.
  rewrite X. cbn [bind].
  assert (R40 : forall cb crcb dlb, length cb = 4%nat -> length crcb = 4%nat -> length dlb = 4%nat ->
     lenZ (raw3 (m_flags m) t (encoding_of m) (rate_of recip m) cb crcb (m_pub m) (lenZ (m_sid m)) (lenZ (m_extra m)) dlb) = 40)
    by (intros; unfold lenZ at 1; now rewrite raw3_len).
  match goal with |- context [raw3 ?a ?b ?c ?d ?e ?f ?g ?h ?i ?j] => set (F := raw3 a b c d e f g h i j) end.
  assert (F40 : lenZ F = 40) by (apply R40; rewrite firstn_length, skipn_length; lia). clearbody F.
  assert (Y : (if 0 <? lenZ (m_extra m) then put (40 + lenZ (m_sid m)) (m_extra m) (F ++ m_sid m ++ skipn (length (m_sid m)) J)
               else Ok (F ++ m_sid m ++ skipn (length (m_sid m)) J)) =
              Ok (F ++ m_sid m ++ m_extra m ++ skipn (length (m_sid m) + length (m_extra m)) J)).
  { rewrite Nat.add_comm. rewrite <- skipn_skipn. set (K := skipn (length (m_sid m)) J).
    assert (LK : (length (m_extra m) <= length K)%nat) by (subst K; rewrite skipn_length; lia). clearbody K.
    destruct (0 <? lenZ (m_extra m)) eqn:E0.
    - rewrite app_assoc. rewrite <- (firstn_skipn (length (m_extra m)) K) at 1.
      rewrite put_mid; [now rewrite <- app_assoc|rewrite lenZ_app; lia|rewrite firstn_length; lia].
    - destruct (m_extra m); [reflexivity|discriminate E0]. }
  rewrite Y. reflexivity.
Qed.

(** ** Sealing a record *)

Definition out_hdr (recip : Z -> Z) (m : msr) (enc : Z) (t : Z * Z * Z * Z * Z * Z) (cnt crc : Z) (payload : list Z) : hdr :=
  let '(year, day, hour, min, sec, nsec) := t in
  mk_hdr (m_flags m) nsec year day hour min sec enc (rate_of recip m) cnt crc (m_pub m) (m_sid m) (m_extra m) payload.

Definition out_rec (recip : Z -> Z) (m : msr) (enc : Z) (t : Z * Z * Z * Z * Z * Z) (cnt : Z) (payload : list Z) : hdr :=
  let h := out_hdr recip m enc t cnt 0 payload in with_crc h (crc3 h).

Lemma out_fixed recip m enc t cnt crc payload :
  fixed3 (out_hdr recip m enc t cnt crc payload) =
  raw3 (m_flags m) t enc (rate_of recip m) (le_bytes 4 cnt) (le_bytes 4 crc) (m_pub m) (lenZ (m_sid m)) (lenZ (m_extra m)) (le_bytes 4 (lenZ payload)).
Proof. destruct t as [[[[[year day] hour] min] sec] nsec]. reflexivity. Qed.

Lemma out_with_crc recip m enc t cnt crc crc' payload :
  with_crc (out_hdr recip m enc t cnt crc payload) crc' = out_hdr recip m enc t cnt crc' payload.
Proof. destruct t as [[[[[year day] hour] min] sec] nsec]. reflexivity. Qed.

Lemma put_crc recip m enc t cnt crc crc' payload R :
  put 28 (le_bytes 4 crc') (fixed3 (out_hdr recip m enc t cnt crc payload) ++ R) = Ok (fixed3 (out_hdr recip m enc t cnt crc' payload) ++ R).
Proof.
  destruct t as [[[[[year day] hour] min] sec] nsec]. rewrite put_in_b; reflexivity.
Qed.

Lemma out_layout recip m enc t cnt crc payload :
  layout3 (out_hdr recip m enc t cnt crc payload) = fixed3 (out_hdr recip m enc t cnt crc payload) ++ m_sid m ++ m_extra m ++ payload.
Proof. destruct t as [[[[[year day] hour] min] sec] nsec]. reflexivity. Qed.

Lemma seal_ok hb addr recip m enc t cnt cb crcb dlb payload rest : 0 <= addr < 4 ->
  length cb = 4%nat -> length crcb = 4%nat -> length dlb = 4%nat -> in_u 32 cnt ->
  hdr_ok (out_hdr recip m enc t cnt 0 payload) -> bytes_ok rest ->
  seal hb addr cnt (lenZ payload) (40 + lenZ (m_sid m) + lenZ (m_extra m) + lenZ payload)
    (raw3 (m_flags m) t enc (rate_of recip m) cb crcb (m_pub m) (lenZ (m_sid m)) (lenZ (m_extra m)) dlb ++ m_sid m ++ m_extra m ++ payload ++ rest) =
  Ok (layout3 (out_rec recip m enc t cnt payload) ++ rest).
Proof.
  intros Ha A B C Hc H Hr. unfold seal. rewrite !st_le. rewrite (uwrap_id 32 cnt) by auto.
  assert (X : (let! b := put 24 (le_bytes 4 cnt) (raw3 (m_flags m) t enc (rate_of recip m) cb crcb (m_pub m) (lenZ (m_sid m)) (lenZ (m_extra m)) dlb ++ m_sid m ++ m_extra m ++ payload ++ rest) in
     let! b := put 36 (le_bytes 4 (lenZ payload)) b in put 28 [0; 0; 0; 0] b) =
     Ok (fixed3 (out_hdr recip m enc t cnt 0 payload) ++ m_sid m ++ m_extra m ++ payload ++ rest)).
  { rewrite out_fixed. destruct t as [[[[[year day] hour] min] sec] nsec].
    destruct (four _ A) as (? & ? & ? & ? & ->), (four _ B) as (? & ? & ? & ? & ->), (four _ C) as (? & ? & ? & ? & ->).
    generalize (lenZ payload), (m_sid m ++ m_extra m ++ payload ++ rest). intros z R.
    generalize (lenZ (m_sid m)), (lenZ (m_extra m)), (rate_of recip m). intros z1 z2 z3.
    repeat (rewrite put_in_b by reflexivity; cbn [bind]). reflexivity. }
  match type of X with bind ?p _ = _ => destruct p as [x1| | |]; cbn [bind] in X |- *; try discriminate X end.
  match type of X with bind ?p _ = _ => destruct p as [x2| | |]; cbn [bind] in X |- *; try discriminate X end.
  rewrite X. cbn [bind].
  assert (L : fixed3 (out_hdr recip m enc t cnt 0 payload) ++ m_sid m ++ m_extra m ++ payload ++ rest =
              layout3 (out_hdr recip m enc t cnt 0 payload) ++ rest) by (rewrite out_layout, <- !app_assoc; reflexivity).
  rewrite L. replace (40 + lenZ (m_sid m) + lenZ (m_extra m) + lenZ payload) with (lenZ (layout3 (out_hdr recip m enc t cnt 0 payload))).
  2:{ rewrite layout3_len. destruct t as [[[[[year day] hour] min] sec] nsec]. reflexivity. }
  rewrite crc_of_layout by (auto; lia). cbn [bind]. rewrite <- L. rewrite st_le, put_crc.
  replace (crc32c (layout3 (out_hdr recip m enc t cnt 0 payload)) 0) with (crc3 (out_hdr recip m enc t cnt 0 payload))
    by (unfold crc3; now rewrite out_with_crc).
  unfold out_rec. rewrite out_with_crc. rewrite out_layout, <- !app_assoc. reflexivity.
Qed.

(** ** The record loop *)

Definition fields_at (t : Z) : Z * Z * Z * Z * Z * Z :=
  match nstime2time t with Ok f => f | _ => (0, 0, 0, 0, 0, 0) end.

Lemma fields_at_ok t : in_s 64 t -> nstime2time t = Ok (fields_at t).
Proof. intros H. unfold fields_at. destruct (fields_range t H) as (y & d & h & mi & s & ns & E & _). now rewrite E. Qed.

Lemma out_hdr_ok recip m enc t cnt crc payload : msr_ok recip m -> in_u 8 enc -> in_s 64 t -> in_u 32 cnt -> in_u 32 crc ->
  bytes_ok payload -> 40 + lenZ (m_sid m) + lenZ (m_extra m) + lenZ payload <= 10485760 ->
  hdr_ok (out_hdr recip m enc (fields_at t) cnt crc payload).
Proof.
  intros M He Ht Hc Hr Hp L. destruct (fields_range t Ht) as (y & d & h & mi & s & ns & E & Hy & (Hd & Hh & Hm & Hs & Hn)).
  unfold fields_at. rewrite E. unfold hdr_ok. rewrite layout3_len. unfold out_hdr.
  cbn [h_flags h_nsec h_year h_day h_hour h_min h_sec h_enc h_rate h_cnt h_crc h_pub h_sid h_extra h_payload].
  unfold msr_ok in M. assert (year_len y <= 366) by (unfold year_len; destruct (gleap y); lia).
  unfold in_u in *. intuition lia.
Qed.

Lemma crc3_range h : hdr_ok h -> in_u 32 (crc3 h).
Proof. intros H. unfold crc3. apply crc32c_range; [apply layout3_ok, with_crc_ok; auto; unfold in_u; lia|unfold in_u; lia]. Qed.

Section Loop.
  Variables (recip nexttime : Z -> Z) (hb : bool) (m1 m2 : ovmode) (m : msr) (type : Z) (src : list Z)
            (cap maxsamples : Z) (flush : bool).
  Let enc := encoding_of m.
  Let off := 40 + lenZ (m_sid m) + lenZ (m_extra m).
  Hypothesis M : msr_ok recip m.
  Hypothesis P1 : packable m1 enc type src.
  Hypothesis P2 : packable m2 enc type src.
  Hypothesis Hnum : lenZ src < 2 ^ 32.
  Hypothesis Hcap : 0 <= cap.
  Hypothesis Hmax : 0 <= maxsamples.
  Hypothesis Hoff : off + cap <= 10485760.
  Hypothesis Hnext : forall k, in_s 64 (nexttime k).

  Definition rectime (k : Z) : Z := if k =? 0 then m_start m else nexttime k.

  Fixpoint emit (k : Z) (cs : list (Z * list Z)) : list (list Z) :=
    match cs with
    | [] => []
    | (n, p) :: r => layout3 (out_rec recip m enc (fields_at (rectime k)) n p) :: emit (k + n) r
    end.

  Fixpoint chunks_ok (k : Z) (cs : list (Z * list Z)) : Prop :=
    match cs with
    | [] => True
    | (n, p) :: r => payload_of m2 enc (skipn (Z.to_nat k) src) cap n p /\ chunks_ok (k + n) r
    end.

  Fixpoint total_of (cs : list (Z * list Z)) : Z :=
    match cs with [] => 0 | (n, _) :: r => n + total_of r end.

  Definition loop_post (k : Z) (r : res (list (list Z) * Z * bool)) : Prop :=
    match r with
    | Ok (recs, tot, ok) => exists cs, recs = emit k cs /\ chunks_ok k cs /\ tot = k + total_of cs /\ tot <= lenZ src /\
        (ok = true -> flush = true -> tot = lenZ src) /\ (ok = true -> flush = false -> lenZ src - tot <= maxsamples) /\
        (ok = true \/ (tot < lenZ src /\ ~ (min_payload enc <= cap /\ storable enc (skipn (Z.to_nat tot) src))))
    | Fuel => True
    | _ => False
    end.

  Lemma in_s_rectime k : in_s 64 (rectime k).
  Proof. unfold rectime. destruct (k =? 0); [unfold msr_ok in M; tauto|apply Hnext]. Qed.

  Lemma loop_ok fuel : forall k rest cb crcb dlb,
    length cb = 4%nat -> length crcb = 4%nat -> length dlb = 4%nat ->
    0 <= k < lenZ src -> lenZ rest = cap -> bytes_ok rest -> 
    let r := pack_loop fuel hb m1 nexttime enc type src off cap maxsamples flush
      (raw3 (m_flags m) (fields_at (rectime k)) enc (rate_of recip m) cb crcb (m_pub m) (lenZ (m_sid m)) (lenZ (m_extra m)) dlb
       ++ m_sid m ++ m_extra m ++ rest) k in
    loop_post k r /\ (lenZ src - k < Z.of_nat fuel -> r <> Fuel).
  Proof.
    assert (Mc : 0 <= lenZ src) by apply lenZ_nonneg.
    assert (Henc : in_u 8 enc) by (subst enc; unfold encoding_of; apply uwrap_range; lia).
    induction fuel as [|fuel IH]; intros k rest cb crcb dlb A B C Hk Lr Br; cbn [pack_loop].
    { cbv zeta. split; [exact I|]. lia. }
    cbv zeta. fold (lenZ src).
    destruct ((maxsamples <? lenZ src - k) || flush) eqn:Go.
    2:{ split; [|discriminate]. exists []. cbn [emit chunks_ok total_of]. destruct flush; [rewrite orb_true_r in Go; discriminate|].
        repeat split; try lia; try discriminate. }
    assert (Ec : lenZ src - k <= uwrap 64 (swrap 32 (lenZ src - k))).
    { unfold swrap, uwrap. rewrite (Z.mod_small (lenZ src - k) (2 ^ 32)) by lia. destruct (lenZ src - k <? 2 ^ (32 - 1)) eqn:E.
      - rewrite Z.mod_small by lia. lia.
      - replace (lenZ src - k - 2 ^ 32) with (lenZ src - k - 2 ^ 32 + 2 ^ 64 + (-1) * 2 ^ 64) by lia.
        rewrite Z.mod_add by lia. rewrite Z.mod_small by lia. lia. }
    assert (Ef : firstn (Z.to_nat (uwrap 64 (swrap 32 (lenZ src - k)))) (skipn (Z.to_nat k) src) = skipn (Z.to_nat k) src).
    { apply firstn_all2. rewrite skipn_length. unfold lenZ in *. lia. }
    rewrite Ef. clear Ef Ec.
    assert (Hne : skipn (Z.to_nat k) src <> []).
    { intros E. apply (f_equal (@length Z)) in E. rewrite skipn_length in E. cbn [length] in E. unfold lenZ in Hk. lia. }
    assert (Hkn : (Z.to_nat k < length src)%nat) by (unfold lenZ in Hk; lia).
    assert (Lk : lenZ (skipn (Z.to_nat k) src) = lenZ src - k) by (unfold lenZ; rewrite skipn_length; lia).
    destruct (pack_data_ok hb m1 m2 enc type (skipn (Z.to_nat k) src) cap) as [[E N]|(n & p & E & Pp)].
    { now apply packable_skipn. }
    { now apply packable_skipn. }
    { exact Hne. }
    { exact Hcap. }
    { rewrite E. split; [|discriminate]. exists []. cbn [emit chunks_ok total_of]. rewrite Z.add_0_r.
      repeat split; try lia; try discriminate. right. split; [lia|exact N]. }
    rewrite E. clear E. pose proof Pp as (Pn & Pb & Pk & _). rewrite Lk in Pn.
    assert (Bnd : lenZ (m_sid m) >= 0 /\ lenZ (m_extra m) >= 0) by (pose proof (lenZ_nonneg (m_sid m)); pose proof (lenZ_nonneg (m_extra m)); lia).
    assert (Hh : hdr_ok (out_hdr recip m enc (fields_at (rectime k)) n 0 p)).
    { apply out_hdr_ok; [exact M|exact Henc|apply in_s_rectime|unfold in_u; lia|unfold in_u; lia|exact Pk|subst off; lia]. }
    assert (R0 : lenZ (raw3 (m_flags m) (fields_at (rectime k)) enc (rate_of recip m) cb crcb (m_pub m) (lenZ (m_sid m)) (lenZ (m_extra m)) dlb) = 40)
      by (unfold lenZ at 1; now rewrite raw3_len).
    assert (Put : put off p (raw3 (m_flags m) (fields_at (rectime k)) enc (rate_of recip m) cb crcb (m_pub m) (lenZ (m_sid m)) (lenZ (m_extra m)) dlb
       ++ m_sid m ++ m_extra m ++ rest) = Ok (raw3 (m_flags m) (fields_at (rectime k)) enc (rate_of recip m) cb crcb (m_pub m) (lenZ (m_sid m)) (lenZ (m_extra m)) dlb
       ++ m_sid m ++ m_extra m ++ p ++ skipn (length p) rest)).
    { set (F := raw3 _ _ _ _ _ _ _ _ _ _) in *. clearbody F.
      rewrite <- (firstn_skipn (length p) rest) at 1.
      replace (F ++ m_sid m ++ m_extra m ++ firstn (length p) rest ++ skipn (length p) rest)
        with ((F ++ m_sid m ++ m_extra m) ++ firstn (length p) rest ++ skipn (length p) rest) by (now rewrite <- !app_assoc).
      rewrite put_mid; [now rewrite <- !app_assoc| |].
      - rewrite !lenZ_app. subst off. lia.
      - rewrite firstn_length. unfold lenZ in *. lia. }
    rewrite Put. clear Put. cbn [bind].
    assert (Brest : bytes_ok (skipn (length p) rest)) by now apply Forall_skipn.
    pose proof (seal_ok hb 0 recip m enc (fields_at (rectime k)) n cb crcb dlb p (skipn (length p) rest) ltac:(lia) A B C ltac:(unfold in_u; lia) Hh Brest) as Sl.
    fold (lenZ p). fold off in Sl. rewrite Sl. clear Sl. cbn [bind].
    set (h := out_rec recip m enc (fields_at (rectime k)) n p).
    assert (Lh : lenZ (layout3 h) = off + lenZ p).
    { subst h. rewrite layout3_len. unfold out_rec. rewrite out_with_crc. unfold out_hdr. destruct (fields_at (rectime k)) as [[[[[? ?] ?] ?] ?] ?]. reflexivity. }
    assert (Rec : firstn (Z.to_nat (off + lenZ p)) (layout3 h ++ skipn (length p) rest) = layout3 h).
    { apply firstn_app_exact. unfold lenZ in Lh at 1. lia. }
    rewrite Rec. clear Rec.
    destruct (lenZ src <=? k + n) eqn:Fin.
    { split; [|discriminate]. exists [(n, p)]. cbn [emit chunks_ok total_of].
      split; [reflexivity|]. split; [split; [exact Pp|exact I]|]. split; [lia|]. split; [lia|]. split; [intros; lia|]. split; [intros; lia|]. left; reflexivity. }
    rewrite (fields_at_ok (nexttime (k + n)) (Hnext _)).
    assert (Lay : layout3 h ++ skipn (length p) rest =
       raw3 (m_flags m) (fields_at (rectime k)) enc (rate_of recip m) (le_bytes 4 n) (le_bytes 4 (crc3 (out_hdr recip m enc (fields_at (rectime k)) n 0 p)))
         (m_pub m) (lenZ (m_sid m)) (lenZ (m_extra m)) (le_bytes 4 (lenZ p)) ++ m_sid m ++ m_extra m ++ (p ++ skipn (length p) rest)).
    { subst h. unfold out_rec. rewrite out_with_crc, out_layout, out_fixed. now rewrite <- !app_assoc. }
    rewrite Lay. rewrite put_time_raw by apply le_bytes_length. cbn [bind].
    assert (Rt : nexttime (k + n) = rectime (k + n)) by (unfold rectime; replace (k + n =? 0) with false by lia; reflexivity).
    rewrite Rt.
    assert (Lq : lenZ (p ++ skipn (length p) rest) = cap).
    { rewrite lenZ_app. unfold lenZ in *. rewrite skipn_length. lia. }
    assert (Bq : bytes_ok (p ++ skipn (length p) rest)) by (apply Forall_app; split; assumption).
    specialize (IH (k + n) (p ++ skipn (length p) rest) (le_bytes 4 n) (le_bytes 4 (crc3 (out_hdr recip m enc (fields_at (rectime k)) n 0 p)))
                  (le_bytes 4 (lenZ p)) (le_bytes_length _ _) (le_bytes_length _ _) (le_bytes_length _ _) ltac:(lia) Lq Bq).
    cbv zeta in IH.
    match type of IH with loop_post _ ?x /\ _ => destruct x as [[[recs tot] ok]|c|u|] end; cbn [bind].
    - destruct IH as [(cs & -> & Ck & Et & Etl & F1 & F2 & F3) _]. split; [|discriminate].
      exists ((n, p) :: cs). cbn [emit chunks_ok total_of]. split; [reflexivity|]. split; [split; assumption|].
      split; [lia|]. split; [lia|]. auto.
    - destruct IH as [[] _].
    - destruct IH as [[] _].
    - split; [exact I|]. intros Hf. destruct IH as [_ IH]. exfalso. apply IH; [lia|reflexivity].
  Qed.
End Loop.

(** ** Reading the records back *)

Lemma packable_enc m enc type src : packable m enc type src ->
  encoding_sizetype enc <> None /\ (is_steim enc = true -> fixed_bytes enc = None) /\ samplesize type <> 0 /\ in_u 8 enc.
Proof.
  intros P. unfold packable in P.
  destruct P as [(-> & B & C)|[(-> & -> & C)|[(-> & -> & C)|[(-> & -> & C)|[(-> & -> & C)|([-> | ->] & -> & C)]]]]];
    try (destruct B as [-> | ->]); repeat split; try discriminate; try (intros; discriminate); unfold in_u; lia.
Qed.

Lemma out_rec_parse u m2 addr recip m type enc src cap t n p : msr_ok recip m -> lenZ (m_sid m) < 64 ->
  Forall (fun b => b <> 0) (m_sid m) -> Forall (fun b => b <> 0) (m_extra m) ->
  packable m2 enc type src -> payload_of m2 enc src cap n p -> n < 2 ^ 31 ->
  40 + lenZ (m_sid m) + lenZ (m_extra m) + cap <= 10485760 -> readable_time t ->
  exists crc, parse u false m2 addr 5 (layout3 (out_rec recip m enc (fields_at t) n p)) =
    Ok (PRec (mk_msr (lenZ (layout3 (out_rec recip m enc (fields_at t) n p))) false (is_steim enc) 3 (m_flags m) (m_sid m) t
                     (rate_of recip m) enc (m_pub m) n crc (m_extra m) (lenZ p) (Some (SInt (firstn (Z.to_nat n) src))))).
Proof.
  intros M Hs Ns Ne Pk Pp Hn Hcap (T1 & T2 & T3).
  destruct (packable_enc _ _ _ _ Pk) as (E1 & E2 & _ & E3).
  pose proof Pp as (Pn & Pb & Pbk & _).
  assert (H0 : hdr_ok (out_hdr recip m enc (fields_at t) n 0 p)) by (apply out_hdr_ok; auto; try (unfold in_u; lia); lia).
  pose proof (crc3_range _ H0) as Cr.
  set (c := crc3 (out_hdr recip m enc (fields_at t) n 0 p)) in *.
  assert (H1 : hdr_ok (out_hdr recip m enc (fields_at t) n c p)) by (rewrite <- (out_with_crc recip m enc (fields_at t) n 0 c p); now apply with_crc_ok).
  assert (Ec : crc3 (out_hdr recip m enc (fields_at t) n c p) = c).
  { unfold crc3. rewrite out_with_crc. subst c. unfold crc3. now rewrite out_with_crc. }
  unfold out_rec. rewrite out_with_crc. fold c. clearbody c. exists c.
  set (h := out_hdr recip m enc (fields_at t) n c p) in *.
  destruct (epoch_cal_epoch m2 t T1 T2) as (y & d & ho & mi & s & ns & Ef & _ & _ & Et).
  assert (F : h = mk_hdr (m_flags m) ns y d ho mi s enc (rate_of recip m) n c (m_pub m) (m_sid m) (m_extra m) p)
    by (subst h; unfold fields_at; rewrite Ef; reflexivity).
  clearbody h. rewrite <- (app_nil_r (layout3 h)) at 1. rewrite parse_complete by (auto; constructor).
  rewrite unpack3_eq by (auto; constructor). 
  assert (U : unpack_data false m2 addr (layout3 h) (rec_of false t h None) = Ok (SInt (firstn (Z.to_nat (h_cnt h)) src))).
  { apply (unpack_data_layout false m2 addr h t src cap); auto; rewrite F; cbn [h_sid h_extra h_payload h_cnt h_enc]; auto. }
  replace (64 <=? lenZ (h_sid h)) with false by (rewrite F; cbn [h_sid]; lia).
  replace (h_crc h =? crc3 h) with true by (rewrite Ec, F; cbn [h_crc]; lia). cbn [negb]. rewrite andb_false_r.
  replace (time2nstime m2 (h_year h) (h_day h) (h_hour h) (h_min h) (h_sec h) (h_nsec h)) with (Ok t : res Z) by (rewrite F; symmetry; exact Et).
  cbn [bind]. unfold finish3. replace (t =? NSTERROR) with false by lia. change (has_flag 5 1) with true.
  replace (0 <? h_cnt h) with true by (rewrite F; cbn [h_cnt]; lia). cbn [andb]. rewrite U. cbn [bind].
  unfold rec_of. rewrite until0_id by (rewrite F; exact Ns).
  replace (h_cnt h) with n by (rewrite F; reflexivity). rewrite F.
  cbn [h_flags h_rate h_enc h_pub h_cnt h_crc h_extra h_payload].
  unfold is_steim. destruct ((enc =? 10) || (enc =? 11)); reflexivity.
Qed.

(** ** msr3_pack *)

Lemma pack_ok fuel recip nexttime hb m1 m2 alloc m type src flags :
  msr_ok recip m -> packable m1 (encoding_of m) type src -> packable m2 (encoding_of m) type src ->
  src <> [] -> lenZ src < 2 ^ 32 -> (forall k, in_s 64 (nexttime k)) ->
  bytes_ok alloc -> maxlen m <= lenZ alloc ->
  let cap := maxlen m - hdrlen m in
  let r := msr3_pack fuel recip nexttime hb m1 alloc m type src flags in
  match r with
  | Ok (recs, tot, ok) => exists cs, recs = emit recip nexttime m 0 cs /\ chunks_ok m2 m src cap 0 cs /\ tot = total_of cs /\ tot <= lenZ src /\
      (cs <> [] -> reclen_ok m /\ hdrlen m + cap <= 10485760) /\
      (ok = true -> has_flag flags 64 = true -> tot = lenZ src) /\
      (ok = true \/ tot < lenZ src /\ ~ (reclen_ok m /\ min_payload (encoding_of m) <= cap /\ storable (encoding_of m) src))
  | Fuel => True
  | _ => False
  end /\ (lenZ src < Z.of_nat fuel -> r <> Fuel).
Proof.
  intros M P1 P2 Hne Hnum Hnext Ba La cap. cbv zeta.
  assert (L1 : 1 <= lenZ src) by (destruct src; [congruence|unfold lenZ; cbn [length]; lia]).
  assert (Zero : forall ok : bool, ok = false -> ~ (reclen_ok m /\ min_payload (encoding_of m) <= cap /\ storable (encoding_of m) src) ->
    (exists cs, @nil (list Z) = emit recip nexttime m 0 cs /\ chunks_ok m2 m src cap 0 cs /\ 0 = total_of cs /\ 0 <= lenZ src /\
      (cs <> [] -> reclen_ok m /\ hdrlen m + cap <= 10485760) /\
      (ok = true -> has_flag flags 64 = true -> 0 = lenZ src) /\
      (ok = true \/ 0 < lenZ src /\ ~ (reclen_ok m /\ min_payload (encoding_of m) <= cap /\ storable (encoding_of m) src)))).
  { intros ok -> N. exists []. cbn [emit chunks_ok total_of]. repeat split; try congruence; try lia. right. split; [lia|exact N]. }
  unfold msr3_pack. unfold MINRECLEN, MAXRECLEN.
  destruct (negb (m_reclen m =? -1) && ((m_reclen m <? 40) || (10485760 <? m_reclen m))) eqn:Rl.
  { split; [|discriminate]. apply Zero; [reflexivity|]. unfold reclen_ok. lia. }
  assert (Rok : reclen_ok m) by (unfold reclen_ok; lia).
  assert (Mx : 40 <= maxlen m <= 10485760) by (unfold maxlen; destruct Rok as [-> |]; [cbn; lia|]; destruct (m_reclen m <? 0) eqn:?; lia).
  unfold pack3. fold (maxlen m). fold (encoding_of m). fold (lenZ (m_sid m)). fold (lenZ (m_extra m)). fold (hdrlen m).
  assert (Mp : 1 <= min_payload (encoding_of m)).
  { unfold min_payload. repeat match goal with |- context [if ?c then _ else _] => destruct c end; lia. }
  destruct (maxlen m <? hdrlen m) eqn:Hl.
  { split; [|discriminate]. apply Zero; [reflexivity|]. subst cap. lia. }
  destruct (packable_enc _ _ _ _ P1) as (_ & _ & Sz & _).
  assert (B0 : length (repeat 0 40) = 40%nat) by (apply repeat_length).
  set (J := skipn 40 (firstn (Z.to_nat (maxlen m)) alloc)).
  assert (LJ : lenZ J = maxlen m - 40).
  { subst J. unfold lenZ in *. rewrite skipn_length, firstn_length. lia. }
  assert (BJ : bytes_ok J) by (subst J; now apply Forall_skipn, Forall_firstn). clearbody J.
  pose proof M as (_ & Ms & _ & _ & _ & Msl & _ & _).
  rewrite (header3_ok recip hb m (repeat 0 40) J _ B0 Mx ltac:(lia) ltac:(unfold hdrlen in Hl; lia) (fields_at_ok _ Ms)).
  fold (hdrlen m). destruct src as [|x src0] eqn:Esrc; [congruence|]. rewrite <- Esrc in *. 
  replace (samplesize type =? 0) with false by lia.
  set (mxs := if encoding_of m =? 10 then _ else _).
  assert (Hmx : 0 <= mxs).
  { subst mxs. pose proof (uwrap_range 32 ((maxlen m - hdrlen m) / 64 * 60) ltac:(lia)). pose proof (uwrap_range 32 ((maxlen m - hdrlen m) / 64 * 105) ltac:(lia)).
    unfold in_u in *. destruct (encoding_of m =? 10); [lia|]. destruct (encoding_of m =? 11); [lia|].
    apply Z.div_pos; [lia|]. unfold samplesize in *. repeat match goal with |- context [if ?c then _ else _] => destruct c end; lia. }
  clearbody mxs.
  pose proof (loop_ok recip nexttime hb m1 m2 m type src cap mxs (has_flag flags MSF_FLUSHDATA) M P1 P2 Hnum ltac:(subst cap; lia) Hmx
    ltac:(subst cap; unfold hdrlen in *; lia) Hnext fuel 0 (skipn (length (m_sid m) + length (m_extra m)) J)
    (firstn 4 (skipn 24 (repeat 0 40))) (firstn 4 (skipn 28 (repeat 0 40))) (firstn 4 (skipn 36 (repeat 0 40)))
    eq_refl eq_refl eq_refl ltac:(lia)) as Lp.
  change (rectime nexttime m 0) with (m_start m) in Lp. fold (hdrlen m) in Lp. fold cap.
  specialize (Lp ltac:(unfold lenZ in *; rewrite skipn_length; subst cap; unfold hdrlen, lenZ in *; lia) (Forall_skipn _ _ _ BJ)).
  cbv zeta in Lp.
  match type of Lp with loop_post _ _ _ _ _ _ _ _ _ ?x /\ _ => destruct x as [[[recs tot] ok]|c|u|] end.
  - destruct Lp as [(cs & E1 & E2 & E3 & E4 & E5 & E6 & E7) Lf]. split; [|discriminate].
    exists cs. split; [exact E1|]. split; [exact E2|]. split; [lia|]. split; [exact E4|].
    split; [intros _; split; [exact Rok|subst cap; lia]|]. split; [exact E5|].
    destruct E7 as [E7|(E7 & E8)]; [left; exact E7|right; split; [exact E7|]].
    intros (_ & Q1 & Q2). apply E8. split; [exact Q1|now apply storable_skipn].
  - destruct Lp as [[] _].
  - destruct Lp as [[] _].
  - split; [exact I|]. destruct Lp as [_ Lf]. intros. apply Lf. lia.
Qed.

(** ** The records described *)

Fixpoint chunk_list (src : list Z) (k : Z) (cs : list (Z * list Z)) : list (list Z) :=
  match cs with
  | [] => []
  | (n, _) :: r => firstn (Z.to_nat n) (skipn (Z.to_nat k) src) :: chunk_list src (k + n) r
  end.

Lemma total_nonneg m2 m src cap cs : forall k, chunks_ok m2 m src cap k cs -> 0 <= total_of cs.
Proof.
  induction cs as [|[n p] cs IH]; intros k C; cbn [total_of]; [lia|]. cbn [chunks_ok] in C.
  destruct C as [(Pn & _) C]. specialize (IH _ C). lia.
Qed.

Lemma chunk_concat m2 m src cap cs : forall k, 0 <= k -> chunks_ok m2 m src cap k cs ->
  concat (chunk_list src k cs) = firstn (Z.to_nat (total_of cs)) (skipn (Z.to_nat k) src).
Proof.
  induction cs as [|[n p] cs IH]; intros k Hk C; cbn [chunk_list total_of concat]; [reflexivity|]. cbn [chunks_ok] in C.
  destruct C as [(Pn & _) C]. rewrite IH by (auto; lia). pose proof (total_nonneg _ _ _ _ _ _ C).
  replace (Z.to_nat (k + n)) with (Z.to_nat n + Z.to_nat k)%nat by lia. rewrite <- skipn_skipn.
  set (l := skipn (Z.to_nat k) src). replace (Z.to_nat (n + total_of cs)) with (Z.to_nat n + Z.to_nat (total_of cs))%nat by lia.
  rewrite <- (firstn_skipn (Z.to_nat n) l) at 3. rewrite firstn_app, firstn_firstn.
  rewrite firstn_length. unfold lenZ in Pn. fold l in Pn.
  replace (Nat.min (Z.to_nat n + Z.to_nat (total_of cs)) (Z.to_nat n)) with (Z.to_nat n) by lia. f_equal. f_equal. lia.
Qed.

Lemma described_impl (D D' : Z -> list Z -> list Z -> Prop) : (forall k c r, D k c r -> D' k c r) ->
  forall recs chunks k, described D k recs chunks -> described D' k recs chunks.
Proof.
  intros H. induction recs as [|r rs IH]; intros [|c cs] k Hd; cbn [described] in *; try tauto.
  destruct Hd as [Hd Hr]. split; [now apply H|now apply IH].
Qed.

Lemma emit_described u addr recip nexttime m2 m type src cap cs : msr_ok recip m -> lenZ (m_sid m) < 64 ->
  Forall (fun b => b <> 0) (m_sid m) -> Forall (fun b => b <> 0) (m_extra m) ->
  packable m2 (encoding_of m) type src -> lenZ src < 2 ^ 31 -> (cs <> [] -> hdrlen m + cap <= 10485760) ->
  (forall k, 0 <= k < lenZ src -> readable_time (record_time nexttime m k)) ->
  forall k, 0 <= k -> chunks_ok m2 m src cap k cs ->
  described (fun k c r => c <> [] /\ lenZ r <= hdrlen m + cap /\ read_back u m2 addr recip nexttime m k c r)
            k (emit recip nexttime m k cs) (chunk_list src k cs).
Proof.
  intros M Hs Ns Ne Pk Hn Hcap Ht. induction cs as [|[n p] cs IH]; intros k Hk C; cbn [emit chunk_list described]; [exact I|].
  cbn [chunks_ok] in C. destruct C as [Pp C]. pose proof Pp as (Pn & Pb & _).
  assert (Lk : lenZ (skipn (Z.to_nat k) src) = Z.max 0 (lenZ src - k)) by (unfold lenZ; rewrite skipn_length; lia).
  assert (Lc : lenZ (firstn (Z.to_nat n) (skipn (Z.to_nat k) src)) = n) by (unfold lenZ in *; rewrite firstn_length; lia).
  specialize (Hcap ltac:(discriminate)).
  split.
  - split; [intros E; rewrite E in Lc; unfold lenZ in Lc; cbn [length] in Lc; lia|].
    change (rectime nexttime m k) with (record_time nexttime m k).
    assert (Lr : lenZ (layout3 (out_rec recip m (encoding_of m) (fields_at (record_time nexttime m k)) n p)) = hdrlen m + lenZ p).
    { rewrite layout3_len. unfold out_rec. rewrite out_with_crc. unfold out_hdr. destruct (fields_at _) as [[[[[? ?] ?] ?] ?] ?]. reflexivity. }
    split; [lia|].
    destruct (out_rec_parse u m2 addr recip m type (encoding_of m) (skipn (Z.to_nat k) src) cap (record_time nexttime m k) n p) as [crc E]; auto; try lia.
    + apply packable_skipn; [exact Pk|]. unfold lenZ in *. lia.
    + apply Ht. lia.
    + unfold read_back. exists crc, (lenZ p). rewrite E, Lc. reflexivity.
  - rewrite Lc. apply IH; auto; lia.
Qed.

Lemma pack_roundtrip fuel recip nexttime hb m1 m2 alloc m type src flags u addr recs tot ok :
  msr_ok recip m -> lenZ (m_sid m) < 64 -> Forall (fun b => b <> 0) (m_sid m) -> Forall (fun b => b <> 0) (m_extra m) ->
  packable m1 (encoding_of m) type src -> packable m2 (encoding_of m) type src -> src <> [] -> lenZ src < 2 ^ 31 ->
  (forall k, in_s 64 (nexttime k)) -> (forall k, 0 <= k < lenZ src -> readable_time (record_time nexttime m k)) ->
  bytes_ok alloc -> maxlen m <= lenZ alloc ->
  msr3_pack fuel recip nexttime hb m1 alloc m type src flags = Ok (recs, tot, ok) ->
  exists chunks, concat chunks = firstn (Z.to_nat tot) src /\ 0 <= tot <= lenZ src /\
    described (fun k c r => c <> [] /\ lenZ r <= maxlen m /\ read_back u m2 addr recip nexttime m k c r) 0 recs chunks.
Proof.
  intros M Hs Ns Ne P1 P2 Hne Hn Hx Ht Ba La E.
  pose proof (pack_ok fuel recip nexttime hb m1 m2 alloc m type src flags M P1 P2 Hne ltac:(lia) Hx Ba La) as K. cbv zeta in K.
  rewrite E in K. destruct K as [(cs & -> & C & -> & Hl & Hc & _) _].
  exists (chunk_list src 0 cs). pose proof (total_nonneg _ _ _ _ _ _ C).
  split; [rewrite (chunk_concat _ _ _ _ _ 0 ltac:(lia) C); reflexivity|]. split; [lia|].
  eapply described_impl; [|eapply (emit_described u addr recip nexttime m2 m type src _ cs M Hs Ns Ne P2 Hn); [intros H0; exact (proj2 (Hc H0))|exact Ht|lia|exact C]].
  intros k c r (A & B & D). split; [exact A|]. split; [lia|exact D].
Qed.

Lemma pack_flush fuel recip nexttime hb m1 alloc m type src flags :
  msr_ok recip m -> packable m1 (encoding_of m) type src -> src <> [] -> lenZ src < 2 ^ 32 -> (forall k, in_s 64 (nexttime k)) ->
  bytes_ok alloc -> maxlen m <= lenZ alloc -> has_flag flags 64 = true -> lenZ src < Z.of_nat fuel ->
  reclen_ok m -> hdrlen m + min_payload (encoding_of m) <= maxlen m -> storable (encoding_of m) src ->
  exists recs, msr3_pack fuel recip nexttime hb m1 alloc m type src flags = Ok (recs, lenZ src, true).
Proof.
  intros M P1 Hne Hn Hx Ba La F Hf R Hp St.
  pose proof (pack_ok fuel recip nexttime hb m1 m1 alloc m type src flags M P1 P1 Hne ltac:(lia) Hx Ba La) as K. cbv zeta in K.
  destruct (msr3_pack fuel recip nexttime hb m1 alloc m type src flags) as [[[recs tot] ok]|c|u|].
  - destruct K as [(cs & _ & _ & _ & _ & _ & K1 & [-> |(_ & N)]) _].
    + exists recs. rewrite K1; auto.
    + exfalso. apply N. repeat split; auto; lia.
  - destruct K as [[] _].
  - destruct K as [[] _].
  - destruct K as [_ K]. exfalso. now apply K.
Qed.

Lemma pack_terminates fuel recip nexttime hb m1 alloc m type src flags :
  msr_ok recip m -> packable m1 (encoding_of m) type src -> src <> [] -> lenZ src < 2 ^ 32 -> (forall k, in_s 64 (nexttime k)) ->
  bytes_ok alloc -> maxlen m <= lenZ alloc -> lenZ src < Z.of_nat fuel ->
  exists recs tot ok, msr3_pack fuel recip nexttime hb m1 alloc m type src flags = Ok (recs, tot, ok) /\
    (has_flag flags 64 = true -> tot = lenZ src \/ ok = false).
Proof.
  intros M P1 Hne Hn Hx Ba La Hf.
  pose proof (pack_ok fuel recip nexttime hb m1 m1 alloc m type src flags M P1 P1 Hne ltac:(lia) Hx Ba La) as K. cbv zeta in K.
  destruct (msr3_pack fuel recip nexttime hb m1 alloc m type src flags) as [[[recs tot] ok]|c|u|].
  - destruct K as [(cs & _ & _ & _ & _ & _ & K1 & _) _]. exists recs, tot, ok. split; [reflexivity|].
    intros F. destruct ok; [left; auto|right; reflexivity].
  - destruct K as [[] _].
  - destruct K as [[] _].
  - destruct K as [_ K]. exfalso. now apply K.
Qed.

(** ** Records without samples *)

Lemma pack_empty fuel recip nexttime hb m1 alloc m type flags : msr_ok recip m -> bytes_ok alloc -> maxlen m <= lenZ alloc ->
  reclen_ok m -> hdrlen m <= maxlen m ->
  msr3_pack fuel recip nexttime hb m1 alloc m type [] flags =
  Ok ([layout3 (out_rec recip m 0 (fields_at (m_start m)) 0 [])], 0, true).
Proof.
  intros M Ba La R Hl. unfold msr3_pack. unfold MINRECLEN, MAXRECLEN.
  replace (negb (m_reclen m =? -1) && ((m_reclen m <? 40) || (10485760 <? m_reclen m))) with false by (unfold reclen_ok in R; lia).
  assert (Mx : 40 <= maxlen m <= 10485760) by (unfold maxlen; destruct R as [-> |]; [cbn; lia|]; destruct (m_reclen m <? 0) eqn:?; lia).
  unfold pack3. fold (maxlen m). fold (lenZ (m_sid m)). fold (lenZ (m_extra m)). fold (hdrlen m).
  replace (maxlen m <? hdrlen m) with false by lia.
  assert (B0 : length (repeat 0 40) = 40%nat) by (apply repeat_length).
  set (J := skipn 40 (firstn (Z.to_nat (maxlen m)) alloc)).
  assert (LJ : lenZ J = maxlen m - 40).
  { subst J. unfold lenZ in *. rewrite skipn_length, firstn_length. lia. }
  assert (BJ : bytes_ok J) by (subst J; now apply Forall_skipn, Forall_firstn). clearbody J.
  pose proof M as (_ & Ms & _ & _ & _ & Msl & _ & _).
  rewrite (header3_ok recip hb m (repeat 0 40) J _ B0 Mx ltac:(lia) ltac:(unfold hdrlen in Hl; lia) (fields_at_ok _ Ms)).
  fold (hdrlen m). set (rest := skipn (length (m_sid m) + length (m_extra m)) J).
  assert (Br : bytes_ok rest) by (subst rest; now apply Forall_skipn). clearbody rest.
  assert (X : (let! b := put 15 [0] (raw3 (m_flags m) (fields_at (m_start m)) (encoding_of m) (rate_of recip m) (firstn 4 (skipn 24 (repeat 0 40)))
       (firstn 4 (skipn 28 (repeat 0 40))) (m_pub m) (lenZ (m_sid m)) (lenZ (m_extra m)) (firstn 4 (skipn 36 (repeat 0 40))) ++ m_sid m ++ m_extra m ++ rest) in
     put 28 [0; 0; 0; 0] b) = Ok (fixed3 (out_hdr recip m 0 (fields_at (m_start m)) 0 0 []) ++ m_sid m ++ m_extra m ++ rest)).
  { rewrite out_fixed. destruct (fields_at (m_start m)) as [[[[[year day] hour] min] sec] nsec].
    generalize (m_sid m ++ m_extra m ++ rest). intros r0.
    generalize (lenZ (m_sid m)), (lenZ (m_extra m)), (rate_of recip m), (encoding_of m). intros z1 z2 z3 z4.
    repeat (rewrite put_in_b by reflexivity; cbn [bind]). reflexivity. }
  match type of X with bind ?p _ = _ => destruct p as [x1| | |]; cbn [bind] in X |- *; try discriminate X end.
  rewrite X. cbn [bind]. clear X x1.
  set (h := out_hdr recip m 0 (fields_at (m_start m)) 0 0 []).
  assert (Hh : hdr_ok h).
  { apply out_hdr_ok; auto; try (unfold in_u; lia); [constructor|]. unfold hdrlen in Hl. unfold lenZ at 3. cbn [length]. lia. }
  assert (L : fixed3 h ++ m_sid m ++ m_extra m ++ rest = layout3 h ++ rest).
  { subst h. rewrite out_layout, <- !app_assoc. reflexivity. }
  assert (Ll : lenZ (layout3 h) = hdrlen m).
  { rewrite layout3_len. subst h. unfold out_hdr. destruct (fields_at (m_start m)) as [[[[[? ?] ?] ?] ?] ?]. cbn [h_sid h_extra h_payload].
    unfold hdrlen, lenZ. cbn [length]. lia. }
  rewrite L, <- Ll. rewrite crc_of_layout by (auto; lia). cbn [bind]. rewrite <- L, st_le. subst h. rewrite put_crc.
  unfold out_rec. rewrite out_with_crc.
  replace (crc32c (layout3 (out_hdr recip m 0 (fields_at (m_start m)) 0 0 [])) 0) with (crc3 (out_hdr recip m 0 (fields_at (m_start m)) 0 0 []))
    by (unfold crc3; now rewrite out_with_crc).
  cbn [bind]. rewrite Ll. set (c := crc3 _).
  replace (fixed3 (out_hdr recip m 0 (fields_at (m_start m)) 0 c []) ++ m_sid m ++ m_extra m ++ rest)
    with (layout3 (out_hdr recip m 0 (fields_at (m_start m)) 0 c []) ++ rest) by (rewrite out_layout, <- !app_assoc; reflexivity).
  rewrite firstn_app_exact; [reflexivity|].
  assert (Ll2 : lenZ (layout3 (out_hdr recip m 0 (fields_at (m_start m)) 0 c [])) = hdrlen m).
  { rewrite layout3_len. unfold out_hdr. destruct (fields_at (m_start m)) as [[[[[? ?] ?] ?] ?] ?]. cbn [h_sid h_extra h_payload].
    unfold hdrlen, lenZ. cbn [length]. lia. }
  rewrite <- Ll2. unfold lenZ. lia.
Qed.

Lemma pack_empty_parse fuel recip nexttime hb m1 m2 alloc m type flags u addr : msr_ok recip m -> bytes_ok alloc -> maxlen m <= lenZ alloc ->
  reclen_ok m -> hdrlen m <= maxlen m -> lenZ (m_sid m) < 64 -> Forall (fun b => b <> 0) (m_sid m) -> readable_time (m_start m) ->
  exists r crc, msr3_pack fuel recip nexttime hb m1 alloc m type [] flags = Ok ([r], 0, true) /\
    parse u false m2 addr 5 r =
    Ok (PRec (mk_msr (hdrlen m) false false 3 (m_flags m) (m_sid m) (m_start m) (rate_of recip m) 0 (m_pub m) 0 crc (m_extra m) 0 None)).
Proof.
  intros M Ba La R Hl Hs Ns (T1 & T2 & T3). rewrite pack_empty by auto.
  assert (Mx : maxlen m <= 10485760) by (unfold maxlen; destruct R as [-> |]; [cbn; lia|]; destruct (m_reclen m <? 0) eqn:?; lia).
  eexists. exists (crc3 (out_hdr recip m 0 (fields_at (m_start m)) 0 0 [])). split; [reflexivity|].
  assert (H0 : hdr_ok (out_hdr recip m 0 (fields_at (m_start m)) 0 0 [])).
  { apply out_hdr_ok; auto; try (unfold in_u; lia); [constructor|]. unfold hdrlen in Hl. unfold lenZ at 3. cbn [length]. lia. }
  pose proof (crc3_range _ H0) as Cr.
  unfold out_rec. rewrite out_with_crc.
  set (c := crc3 (out_hdr recip m 0 (fields_at (m_start m)) 0 0 [])) in *.
  assert (H1 : hdr_ok (out_hdr recip m 0 (fields_at (m_start m)) 0 c [])) by (rewrite <- (out_with_crc recip m 0 (fields_at (m_start m)) 0 0 c []); now apply with_crc_ok).
  assert (Ec : crc3 (out_hdr recip m 0 (fields_at (m_start m)) 0 c []) = c).
  { unfold crc3. rewrite out_with_crc. subst c. unfold crc3. now rewrite out_with_crc. }
  clearbody c. set (h := out_hdr recip m 0 (fields_at (m_start m)) 0 c []) in *.
  destruct (epoch_cal_epoch m2 (m_start m) T1 T2) as (y & d & ho & mi & s & ns & Ef & _ & _ & Et).
  assert (F : h = mk_hdr (m_flags m) ns y d ho mi s 0 (rate_of recip m) 0 c (m_pub m) (m_sid m) (m_extra m) [])
    by (subst h; unfold fields_at; rewrite Ef; reflexivity).
  clearbody h. rewrite <- (app_nil_r (layout3 h)) at 1. rewrite parse_complete by (auto; constructor).
  rewrite unpack3_eq by (auto; constructor). 
  replace (64 <=? lenZ (h_sid h)) with false by (rewrite F; cbn [h_sid]; lia).
  replace (h_crc h =? crc3 h) with true by (rewrite Ec, F; cbn [h_crc]; lia). cbn [negb]. rewrite andb_false_r.
  replace (time2nstime m2 (h_year h) (h_day h) (h_hour h) (h_min h) (h_sec h) (h_nsec h)) with (Ok (m_start m) : res Z) by (rewrite F; symmetry; exact Et).
  cbn [bind]. unfold finish3. replace (m_start m =? NSTERROR) with false by lia.
  replace (0 <? h_cnt h) with false by (rewrite F; cbn [h_cnt]; lia). rewrite andb_false_r. cbn [bind].
  unfold rec_of. rewrite until0_id by (rewrite F; exact Ns). rewrite layout3_len. rewrite F.
  cbn [h_flags h_rate h_enc h_pub h_cnt h_crc h_extra h_payload h_sid]. unfold hdrlen. change (lenZ (@nil Z)) with 0. rewrite Z.add_0_r. reflexivity.
Qed.

(** ** 2^32 samples: the count given to the encoder is 0 and the loop does not advance *)

Lemma loop_stuck recip nexttime hb m1 m src off cap mxs : msr_ok recip m -> (forall k, in_s 64 (nexttime k)) ->
  lenZ src = 2 ^ 32 -> off = hdrlen m -> 4 <= cap -> off + cap <= 10485760 ->
  forall fuel t rest cb crcb dlb, in_s 64 t -> length cb = 4%nat -> length crcb = 4%nat -> length dlb = 4%nat -> lenZ rest = cap -> bytes_ok rest ->
  pack_loop fuel hb m1 nexttime 3 105 src off cap mxs true
    (raw3 (m_flags m) (fields_at t) 3 (rate_of recip m) cb crcb (m_pub m) (lenZ (m_sid m)) (lenZ (m_extra m)) dlb
       ++ m_sid m ++ m_extra m ++ rest) 0 = Fuel.
Proof.
  intros M Hx Hn Eo Hc Ho. induction fuel as [|fuel IH]; intros t rest cb crcb dlb Ht A B C Lr Br; cbn [pack_loop]; [reflexivity|].
  rewrite orb_true_r. fold (lenZ src). rewrite Hn. rewrite Z.sub_0_r.
  change (uwrap 64 (swrap 32 (2 ^ 32))) with 0. change (Z.to_nat 0) with 0%nat. cbn [firstn skipn].
  replace (pack_data hb hb m1 3 105 [] cap) with (Ok (0, []) : res (Z * list Z)).
  2:{ unfold pack_data. cbn [Z.eqb Pos.eqb negb orb]. replace (cap <? 4) with false by lia. reflexivity. }
  assert (R0 : lenZ (raw3 (m_flags m) (fields_at t) 3 (rate_of recip m) cb crcb (m_pub m) (lenZ (m_sid m)) (lenZ (m_extra m)) dlb) = 40)
    by (unfold lenZ at 1; now rewrite raw3_len).
  assert (Put : forall F : list Z, lenZ F = 40 -> put off [] (F ++ m_sid m ++ m_extra m ++ rest) = Ok (F ++ m_sid m ++ m_extra m ++ rest)).
  { intros F LF. replace (F ++ m_sid m ++ m_extra m ++ rest) with ((F ++ m_sid m ++ m_extra m) ++ [] ++ rest) at 1 by (cbn [app]; now rewrite <- !app_assoc).
    rewrite put_mid; [cbn [app]; now rewrite <- !app_assoc| |reflexivity]. rewrite !lenZ_app. rewrite Eo. unfold hdrlen. lia. }
  rewrite Put by exact R0. cbn [bind].
  assert (Hh : hdr_ok (out_hdr recip m 3 (fields_at t) 0 0 [])).
  { apply out_hdr_ok; [exact M|unfold in_u; lia|exact Ht|unfold in_u; lia|unfold in_u; lia|constructor|].
    change (lenZ (@nil Z)) with 0. unfold hdrlen in Eo. lia. }
  pose proof (seal_ok hb 0 recip m 3 (fields_at t) 0 cb crcb dlb [] rest ltac:(lia) A B C ltac:(unfold in_u; lia) Hh Br) as Sl.
  change (Z.of_nat (length (@nil Z))) with 0. change (lenZ (@nil Z)) with 0 in Sl. fold (hdrlen m) in Sl. rewrite <- Eo in Sl. cbn [app] in Sl.
  rewrite Sl. clear Sl. cbn [bind]. change (2 ^ 32 <=? 0 + 0) with false. cbv iota.
  rewrite (fields_at_ok (nexttime (0 + 0)) (Hx _)).
  assert (Lay : layout3 (out_rec recip m 3 (fields_at t) 0 []) ++ rest =
       raw3 (m_flags m) (fields_at t) 3 (rate_of recip m) (le_bytes 4 0) (le_bytes 4 (crc3 (out_hdr recip m 3 (fields_at t) 0 0 [])))
         (m_pub m) (lenZ (m_sid m)) (lenZ (m_extra m)) (le_bytes 4 0) ++ m_sid m ++ m_extra m ++ rest).
  { unfold out_rec. rewrite out_with_crc, out_layout, out_fixed. rewrite <- !app_assoc. reflexivity. }
  rewrite Lay. rewrite put_time_raw by apply le_bytes_length. cbn [bind]. change (0 + 0) with 0.
  rewrite IH; [reflexivity|apply Hx|apply le_bytes_length..|exact Lr|exact Br].
Qed.

Lemma pack_stuck fuel recip nexttime hb m1 alloc m src flags : msr_ok recip m -> (forall k, in_s 64 (nexttime k)) ->
  lenZ src = 2 ^ 32 -> encoding_of m = 3 -> reclen_ok m -> hdrlen m + 4 <= maxlen m -> has_flag flags 64 = true ->
  bytes_ok alloc -> maxlen m <= lenZ alloc ->
  msr3_pack fuel recip nexttime hb m1 alloc m 105 src flags = Fuel.
Proof.
  intros M Hx Hn Ee R Hp F Ba La. unfold msr3_pack. unfold MINRECLEN, MAXRECLEN.
  replace (negb (m_reclen m =? -1) && ((m_reclen m <? 40) || (10485760 <? m_reclen m))) with false by (unfold reclen_ok in R; lia).
  assert (Mx : 40 <= maxlen m <= 10485760) by (unfold maxlen; destruct R as [-> |]; [cbn; lia|]; destruct (m_reclen m <? 0) eqn:?; lia).
  unfold pack3. fold (maxlen m). fold (encoding_of m). fold (lenZ (m_sid m)). fold (lenZ (m_extra m)). fold (hdrlen m).
  replace (maxlen m <? hdrlen m) with false by lia.
  assert (B0 : length (repeat 0 40) = 40%nat) by (apply repeat_length).
  set (J := skipn 40 (firstn (Z.to_nat (maxlen m)) alloc)).
  assert (LJ : lenZ J = maxlen m - 40).
  { subst J. unfold lenZ in *. rewrite skipn_length, firstn_length. lia. }
  assert (BJ : bytes_ok J) by (subst J; now apply Forall_skipn, Forall_firstn). clearbody J.
  pose proof M as (_ & Ms & _ & _ & _ & Msl & _ & _).
  rewrite (header3_ok recip hb m (repeat 0 40) J _ B0 Mx ltac:(lia) ltac:(unfold hdrlen in Hp; lia) (fields_at_ok _ Ms)).
  fold (hdrlen m). destruct src as [|x src0] eqn:Esrc; [discriminate Hn|]. rewrite <- Esrc in *.
  change (samplesize 105 =? 0) with false. cbv iota. rewrite Ee. unfold MSF_FLUSHDATA. rewrite F.
  apply loop_stuck; auto; try lia.
  - unfold lenZ in *. rewrite skipn_length. unfold hdrlen, lenZ in *. lia.
  - now apply Forall_skipn.
Qed.
