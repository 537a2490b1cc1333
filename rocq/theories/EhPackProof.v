(** * The version 2 header of a record with extra headers. *)

From Coq Require Import String QArith.
From Verif Require Import Base BaseLemmas TimeModel TimeSpec TimeProof StrModel RecModel RecSpec RecProof PackModel PackSpec PackProof ConvSpec
  EhModel EhSpec EhProof V2Model V2RecSpec V2RecProof V2RecParse Pack2Model Pack2Spec Pack2Hdr EhPackModel EhPackSpec EhPackFields EhPackBody.
Open Scope Z_scope.
Open Scope list_scope.

(** ** Chains *)

(** A chain whose last link is [fin]. *)
Fixpoint chainf (at_ : Z) (bs : list blk) (fin : Z) : list Z :=
  match bs with
  | [] => []
  | b :: bs' =>
    ord true 2 (blk_type b) ++ ord true 2 (match bs' with [] => fin | _ => at_ + blk_size b end) ++ blk_body true b
    ++ chainf (at_ + blk_size b) bs' fin
  end.
Definition sizes (bs : list blk) : Z := fold_right (fun b a => blk_size b + a) 0 bs.
Definition bare (bs : list blk) : list (blk * list Z) := map (fun b => (b, [])) bs.

Lemma size_pos b : 4 <= blk_size b.
Proof. unfold blk_size. pose proof (lenZ_nonneg (blk_body true b)). lia. Qed.
Lemma sizes_nonneg bs : 0 <= sizes bs.
Proof. induction bs as [|b bs IH]; cbn [sizes fold_right]; [lia|]. pose proof (size_pos b). unfold sizes in IH. lia. Qed.
Lemma sizes_app a b : sizes (a ++ b) = sizes a + sizes b.
Proof. unfold sizes. induction a as [|x a IH]; cbn [app fold_right]; [lia|]. rewrite IH. lia. Qed.
Lemma sizes_one b : sizes [b] = blk_size b.
Proof. unfold sizes. cbn [fold_right]. lia. Qed.

Lemma bare_nil bs A (x y : A) : match bare bs with [] => x | _ => y end = match bs with [] => x | _ => y end.
Proof. destruct bs; reflexivity. Qed.
Lemma chainf_0 : forall bs at_, chain_bytes true at_ (bare bs) = chainf at_ bs 0.
Proof.
  induction bs as [|b bs IH]; intros at_; [reflexivity|]. cbn [bare map chain_bytes chainf]. fold (bare bs). rewrite IH.
  unfold lenZ at 1 2. cbn [List.length app Z.of_nat]. rewrite Z.add_0_r. destruct bs; reflexivity.
Qed.
Lemma chainf_len : forall bs at_ fin, lenZ (chainf at_ bs fin) = sizes bs.
Proof.
  induction bs as [|b bs IH]; intros at_ fin; [reflexivity|]. cbn [chainf]. rewrite !lenZ_app, !lenZ_ord, IH. unfold sizes. cbn [fold_right]. unfold blk_size. lia.
Qed.
Lemma chainf_snoc : forall bs b at_ fin, bs <> [] ->
  chainf at_ (bs ++ [b]) fin = chainf at_ bs (at_ + sizes bs) ++ ord true 2 (blk_type b) ++ ord true 2 fin ++ blk_body true b.
Proof.
  induction bs as [|x bs IH]; intros b at_ fin N; [congruence|]. destruct bs as [|y bs].
  - cbn [app chainf]. rewrite !app_nil_r, sizes_one. rewrite <- !app_assoc. reflexivity.
  - change ((x :: y :: bs) ++ [b]) with (x :: ((y :: bs) ++ [b])). cbn [chainf]. change (y :: bs ++ [b]) with ((y :: bs) ++ [b]).
    fold (chainf (at_ + blk_size x) ((y :: bs) ++ [b]) fin).
    rewrite IH by discriminate. replace (at_ + sizes (x :: y :: bs)) with (at_ + blk_size x + sizes (y :: bs)) by (unfold sizes; cbn [fold_right]; lia).
    cbn [app]. rewrite <- !app_assoc. cbn [chainf]. rewrite <- !app_assoc. reflexivity.
Qed.

(** Where the last blockette begins. *)
Definition lastoff (bs : list blk) : Z := 48 + sizes (removelast bs).
Lemma chainf_last : forall bs at_, bs <> [] -> exists pre suf, lenZ pre = sizes (removelast bs) + 2 /\
  forall fin, chainf at_ bs fin = pre ++ ord true 2 fin ++ suf.
Proof.
  induction bs as [|b bs IH]; intros at_ N; [congruence|]. destruct bs as [|y bs].
  - exists (ord true 2 (blk_type b)), (blk_body true b). split; [rewrite lenZ_ord; reflexivity|]. intros fin. cbn [chainf]. now rewrite app_nil_r.
  - destruct (IH (at_ + blk_size b) ltac:(discriminate)) as (pre & suf & L & E).
    exists (ord true 2 (blk_type b) ++ ord true 2 (at_ + blk_size b) ++ blk_body true b ++ pre), suf. split.
    + rewrite !lenZ_app, !lenZ_ord, L. change (removelast (b :: y :: bs)) with (b :: removelast (y :: bs)). unfold sizes. cbn [fold_right]. unfold blk_size. lia.
    + intros fin. cbn [chainf]. rewrite <- !app_assoc. do 3 f_equal. apply E.
Qed.

(** ** The count in the fixed header *)

Definition with_count (h : hdr2) (n : Z) : hdr2 :=
  mk_hdr2 (f_seq h) (f_quality h) (f_reserved h) (f_sta h) (f_loc h) (f_chan h) (f_net h) (f_start h) (f_cnt h) (f_fact h) (f_mult h)
          (f_act h) (f_io h) (f_dq h) n (f_corr h) (f_data h).
Definition sized (h : hdr2) : Prop := lenZ (f_seq h) = 6 /\ lenZ (f_sta h) = 5 /\ lenZ (f_loc h) = 2 /\ lenZ (f_net h) = 2.

Lemma lenZ_btime t : lenZ (btime_bytes true t) = 10.
Proof. unfold btime_bytes. rewrite !lenZ_app, !lenZ_ord. reflexivity. Qed.

Lemma fixed_count h : sized h -> exists A B, lenZ A = 39 /\ lenZ B = 8 /\ forall n, fixed2 true (with_count h n) 48 = A ++ [n] ++ B.
Proof.
  intros (L1 & L2 & L3 & L4). destruct (f_chan h) as [[a b] c] eqn:Ec.
  exists (f_seq h ++ [f_quality h; f_reserved h] ++ f_sta h ++ f_loc h ++ [a; b; c] ++ f_net h
  ++ btime_bytes true (f_start h) ++ ord true 2 (f_cnt h) ++ ord true 2 (f_fact h) ++ ord true 2 (f_mult h)
  ++ [f_act h; f_io h; f_dq h]), (ord true 4 (f_corr h) ++ ord true 2 (f_data h) ++ ord true 2 48).
  split; [rewrite !lenZ_app, !lenZ_ord, lenZ_btime, L1, L2, L3, L4; reflexivity|]. split; [rewrite !lenZ_app, !lenZ_ord; reflexivity|].
  intros n. unfold fixed2, with_count. cbn [f_seq f_quality f_reserved f_sta f_loc f_chan f_net f_start f_cnt f_fact f_mult f_act f_io f_dq f_nblk f_corr f_data].
  rewrite Ec. rewrite <- !app_assoc. reflexivity.
Qed.
Lemma fixed_len h : sized h -> lenZ (fixed2 true h 48) = 48.
Proof.
  intros S. destruct (fixed_count h S) as (A & B & La & Lb & E). replace h with (with_count h (f_nblk h)) by (destruct h; reflexivity).
  rewrite E, !lenZ_app, La, Lb. reflexivity.
Qed.

(** ** States *)

(** A record of [L] bytes with these blockettes so far. *)
Record stands (h : hdr2) (L : Z) (R : list Z) (st : pst) (bs : list blk) : Prop := mk_stands {
  sd_some : bs <> [];
  sd_buf : q_buf st = fixed2 true (with_count h (lenZ bs mod 256)) 48 ++ chainf 48 bs 0 ++ skipn (Z.to_nat (sizes bs)) R;
  sd_written : q_written st = 48 + sizes bs;
  sd_next : q_next st = lastoff bs + 2;
  sd_count : q_count st = lenZ bs mod 256;
  sd_fits : 48 + sizes bs <= L }.

Lemma ord2_mod v : ord true 2 (uwrap 16 v) = ord true 2 v.
Proof. unfold ord, be_bytes, uwrap. cbn [le_bytes rev app]. f_equal; [|f_equal]; lia. Qed.

Lemma lastoff_snoc bs b : lastoff (bs ++ [b]) = 48 + sizes bs.
Proof. unfold lastoff. now rewrite removelast_last. Qed.
Lemma lenZ_snoc {A} (l : list A) x : lenZ (l ++ [x]) = lenZ l + 1.
Proof. rewrite lenZ_app. reflexivity. Qed.

Lemma add_ok hb h L R st bs b : sized h -> lenZ R = L - 48 -> stands h L R st bs -> 48 + sizes bs + blk_size b <= L ->
  exists st', add_blk hb (blk_type b) (blk_size b) (Ok (blk_body true b)) st = Ok st' /\ stands h L R st' (bs ++ [b]).
Proof.
  intros Sz LR [N Eb Ew En Ec Ef] F. pose proof (sizes_nonneg bs) as P. pose proof (size_pos b) as Pb.
  unfold add_blk. cbv zeta. rewrite Eb, Ew, En, Ec, !be_ord, ord2_mod.
  destruct (chainf_last bs 48 N) as (pre & suf & Lp & Ech). destruct (fixed_count h Sz) as (A & B & La & Lb & Efx).
  set (X := skipn (Z.to_nat (sizes bs)) R). rewrite (Ech 0), Efx.
  replace ((A ++ [lenZ bs mod 256] ++ B) ++ (pre ++ ord true 2 0 ++ suf) ++ X) with ((A ++ [lenZ bs mod 256] ++ B ++ pre) ++ ord true 2 0 ++ (suf ++ X))
    by (rewrite <- !app_assoc; reflexivity).
  rewrite put_mid; [cbn [bind]|rewrite !lenZ_app, La, Lb, Lp; unfold lastoff, lenZ; cbn [List.length]; lia|reflexivity].
  replace ((A ++ [lenZ bs mod 256] ++ B ++ pre) ++ ord true 2 (48 + sizes bs) ++ suf ++ X) with (A ++ [lenZ bs mod 256] ++ (B ++ pre ++ ord true 2 (48 + sizes bs) ++ suf ++ X))
    by (rewrite <- !app_assoc; reflexivity).
  rewrite put_mid; [cbn [bind]|lia|reflexivity].
  set (body := ord true 2 (blk_type b) ++ [0; 0] ++ blk_body true b).
  assert (Lbody : lenZ body = blk_size b) by (unfold body; rewrite !lenZ_app, lenZ_ord; unfold blk_size, lenZ; cbn [List.length]; lia).
  assert (LX : lenZ X = L - 48 - sizes bs) by (unfold X, lenZ in *; rewrite skipn_length; lia).
  rewrite <- (firstn_skipn (List.length body) X).
  set (count := uwrap 8 (lenZ bs mod 256 + 1)).
  replace (A ++ [count] ++ B ++ pre ++ ord true 2 (48 + sizes bs) ++ suf ++ firstn (List.length body) X ++ skipn (List.length body) X)
    with ((A ++ [count] ++ B ++ (pre ++ ord true 2 (48 + sizes bs) ++ suf)) ++ firstn (List.length body) X ++ skipn (List.length body) X) by (rewrite <- !app_assoc; reflexivity).
  rewrite <- Ech.
  rewrite put_mid; [cbn [bind]|rewrite !lenZ_app, La, Lb, chainf_len; unfold lenZ; cbn [List.length]; lia|rewrite firstn_length; unfold lenZ in *; lia].
  eexists. split; [reflexivity|].
  assert (Ecount : count = lenZ (bs ++ [b]) mod 256) by (unfold count, uwrap; rewrite lenZ_snoc; pose proof (lenZ_nonneg bs); change (2 ^ 8) with 256; lia).
  constructor; cbn [q_buf q_written q_next q_count].
  - now destruct bs.
  - rewrite Efx, chainf_snoc by exact N. rewrite Ecount.
    assert (Esk : skipn (List.length body) X = skipn (Z.to_nat (sizes (bs ++ [b]))) R).
    { unfold X. rewrite skipn_skipn. f_equal. rewrite sizes_app, sizes_one. unfold lenZ in Lbody. lia. }
    rewrite Esk. unfold body. rewrite <- !app_assoc. reflexivity.
  - rewrite sizes_app, sizes_one. lia.
  - rewrite lastoff_snoc. lia.
  - exact Ecount.
  - rewrite sizes_app, sizes_one. lia.
Qed.

(** [f] adds the blockettes [xs], or fails when there is no room for them. *)
Definition adds (h : hdr2) (L : Z) (R : list Z) (f : pst -> res pst) (xs : list blk) : Prop :=
  forall st bs, stands h L R st bs ->
    if 48 + sizes bs + sizes xs <=? L then exists st', f st = Ok st' /\ stands h L R st' (bs ++ xs) else f st = Err (-1).

Lemma adds_nil h L R f : (forall st, f st = Ok st) -> adds h L R f [].
Proof.
  intros F st bs S. change (sizes []) with 0. rewrite Z.add_0_r. replace (48 + sizes bs <=? L) with true by (pose proof (sd_fits _ _ _ _ _ S); lia).
  exists st. rewrite app_nil_r. auto.
Qed.
Lemma adds_then h L R f g xs ys : adds h L R f xs -> adds h L R g ys -> adds h L R (fun st => let! st := f st in g st) (xs ++ ys).
Proof.
  intros F G st bs S. specialize (F st bs S). pose proof (sizes_nonneg ys). rewrite sizes_app.
  destruct (Z.leb_spec (48 + sizes bs + sizes xs) L).
  - destruct F as (st1 & -> & S1). cbn [bind]. specialize (G _ _ S1). rewrite sizes_app in G.
    replace (48 + (sizes bs + sizes xs) + sizes ys) with (48 + sizes bs + (sizes xs + sizes ys)) in G by lia. rewrite <- app_assoc in G. exact G.
  - rewrite F. replace (48 + sizes bs + (sizes xs + sizes ys) <=? L) with false by lia. reflexivity.
Qed.
Lemma adds_eq h L R f g xs : (forall st, f st = g st) -> adds h L R f xs -> adds h L R g xs.
Proof. intros E A st bs S. rewrite <- E. now apply A. Qed.

Lemma fits_ok h L R st bs n : stands h L R st bs -> L < 2 ^ 32 -> EhPackModel.fits L st n = (48 + sizes bs + n <=? L).
Proof.
  intros S HL. unfold EhPackModel.fits. rewrite (sd_written _ _ _ _ _ S). pose proof (sd_fits _ _ _ _ _ S). pose proof (sizes_nonneg bs).
  unfold uwrap. rewrite Z.mod_small by lia. destruct (Z.ltb_spec (L - (48 + sizes bs)) n), (Z.leb_spec (48 + sizes bs + n) L); try lia; reflexivity.
Qed.

Lemma checked_adds hb h L R type len body b : sized h -> lenZ R = L - 48 -> L < 2 ^ 32 -> type = blk_type b -> len = blk_size b -> body = Ok (blk_body true b) ->
  adds h L R (checked L hb type len body) [b].
Proof.
  intros Sz LR HL -> -> -> st bs S. unfold checked. rewrite (fits_ok _ _ _ _ _ _ S HL), sizes_one.
  destruct (Z.leb_spec (48 + sizes bs + blk_size b) L); [|reflexivity]. now apply add_ok.
Qed.

(** ** Sizes of the entries *)

Ltac sz := unfold blk_size; cbn [blk_body]; rewrite !lenZ_app, ?lenZ_ord, ?lenZ_btime;
  repeat rewrite label_len by (eapply label_for_len; [|eassumption]; lia); unfold lenZ; cbn [List.length]; lia.

Lemma size_exc j v b : excepts j v b -> blk_size b = 200 /\ blk_type b = 500.
Proof. intros H. destruct H. split; [sz|reflexivity]. Qed.
Lemma snr_len v snr : detection_ok v ->
  (exists n, at_ v ["MEDSNR"%string] (JArr (map JInt n)) /\ snr = n ++ repeat 0 (6 - List.length n)) \/
    ((forall l, ~ at_ v ["MEDSNR"%string] (JArr l)) /\ snr = repeat 0 6) -> lenZ snr = 6.
Proof.
  intros [_ D] [(n & A & ->)|[_ ->]]; [|reflexivity]. destruct (D _ A) as (n' & E & Ln & _).
  assert (Ll : List.length n = List.length n') by (rewrite <- (map_length JInt n), E, map_length; reflexivity).
  unfold lenZ. rewrite app_length, repeat_length. lia.
Qed.
Lemma size_det v b : detection_ok v -> detects v b -> blk_size b = if blk_type b =? 201 then 60 else 52.
Proof.
  intros D H. destruct H; cbn [blk_type].
  - change (200 =? 201) with false. sz.
  - change (201 =? 201) with true. assert (Ls : lenZ snr = 6) by (eapply snr_len; eassumption).
    unfold blk_size; cbn [blk_body]; rewrite !lenZ_app, ?lenZ_ord, ?lenZ_btime, Ls. rewrite label_len by (eapply label_for_len; [|eassumption]; lia). unfold lenZ; cbn [List.length]; lia.
Qed.
Lemma size_cal v b : begun v b -> blk_size b = match blk_type b with 300 | 310 => 60 | 320 => 64 | _ => 28 end.
Proof. intros H. destruct H; cbn [blk_type]; sz. Qed.
Lemma size_end t : blk_size (B395 t [0; 0]) = 16.
Proof. unfold blk_size. cbn [blk_body]. rewrite lenZ_app, lenZ_btime. reflexivity. Qed.

(** ** Entries *)

Section Entries.
Context (hb : bool) (mode : ovmode) (h : hdr2) (L : Z) (R : list Z) (Sz : sized h) (LR : lenZ R = L - 48) (HL : L < 2 ^ 32).

Lemma exception_adds root j v : root_is root j -> sound j -> sound v -> exception_ok v ->
  exists b, excepts j v b /\ adds h L R (add_exception L hb mode root v) [b].
Proof.
  intros Rt Sj S E. destruct (body500_ok hb mode root j v Rt Sj S E) as (b & Eb & X). exists b. split; [exact X|].
  destruct (size_exc _ _ _ X) as [Hs Ht]. now apply checked_adds.
Qed.
Lemma detection_adds v : sound v -> detection_ok v -> exists b, detects v b /\ adds h L R (add_detection L hb mode v) [b].
Proof.
  intros S D. pose proof (word_spec _ _ "/Type" ["Type"%string] "MURDOCK" (root_some v) ltac:(nm) S) as W.
  unfold add_detection. destruct (says_ (Some v) "/Type" "MURDOCK").
  - destruct (body201_ok hb mode v S D (proj1 W eq_refl)) as (b & Eb & X & T). exists b. split; [exact X|].
    pose proof (size_det _ _ D X) as Hs. rewrite T in Hs. now apply checked_adds.
  - destruct (body200_ok hb mode v S D) as (b & Eb & X & T). { intros C. apply W in C. discriminate. }
    exists b. split; [exact X|]. pose proof (size_det _ _ D X) as Hs. rewrite T in Hs. now apply checked_adds.
Qed.

Lemma end_adds v : sound v -> (no_text v ["EndTime"%string] -> adds h L R (add_end L hb mode v) []) /\
  (forall t, has_time v ["EndTime"%string] t -> adds h L R (add_end L hb mode v) [B395 (btime_at t) [0; 0]]).
Proof.
  intros S. pose proof (str_spec _ _ "/EndTime" ["EndTime"%string] (root_some v) ltac:(nm) S) as H. split.
  - intros N. apply adds_nil. intros st. unfold add_end. destruct (str_at (Some v) "/EndTime") as [s|]; [destruct (N _ (proj1 H))|reflexivity].
  - intros t T. pose proof (body395_ok hb mode v t S T) as Eb. destruct T as (s & T & _).
    unfold add_end. destruct (str_at (Some v) "/EndTime") as [s'|]; [|destruct (H s T)]. apply checked_adds; auto.
Qed.

Lemma known_adds v : sound v -> calibration_ok v -> (exists t, has_time v ["BeginTime"%string] t) -> known_type v ->
  exists b, begun v b /\ adds h L R (fun st => match str_at (Some v) "/Type" with
    | Some s => if caseless (zs "STEP") s then checked L hb 300 60 (body300 hb mode v) st
       else if caseless (zs "SINE") s then checked L hb 310 60 (body310 hb mode v) st
       else if caseless (zs "PSEUDORANDOM") s then checked L hb 320 64 (body320 hb mode v) st
       else if caseless (zs "GENERIC") s then checked L hb 390 28 (body390 hb mode v) st
       else Err (-1)
    | None => Ok st end) [b].
Proof.
  intros S C T K. pose proof (root_some v) as V.
  pose proof (fun w => word_spec _ _ "/Type" ["Type"%string] w V ltac:(nm) S) as W. unfold says_ in W.
  destruct (str_at (Some v) "/Type") as [s|].
  2:{ exfalso. destruct K as [K|[K|[K|K]]]; apply W in K; discriminate. }
  destruct (caseless (zs "STEP") s) eqn:E1.
  { destruct (body300_ok hb mode v S C T (proj1 (W _) E1)) as (b & Eb & X & Ty). exists b. split; [exact X|].
    pose proof (size_cal _ _ X) as Hs. rewrite Ty in Hs. now apply checked_adds. }
  destruct (caseless (zs "SINE") s) eqn:E2.
  { destruct (body310_ok hb mode v S C T (proj1 (W _) E2)) as (b & Eb & X & Ty). exists b. split; [exact X|].
    pose proof (size_cal _ _ X) as Hs. rewrite Ty in Hs. now apply checked_adds. }
  destruct (caseless (zs "PSEUDORANDOM") s) eqn:E3.
  { destruct (body320_ok hb mode v S C T (proj1 (W _) E3)) as (b & Eb & X & Ty). exists b. split; [exact X|].
    pose proof (size_cal _ _ X) as Hs. rewrite Ty in Hs. now apply checked_adds. }
  destruct (caseless (zs "GENERIC") s) eqn:E4.
  { destruct (body390_ok hb mode v S C T (proj1 (W _) E4)) as (b & Eb & X & Ty). exists b. split; [exact X|].
    pose proof (size_cal _ _ X) as Hs. rewrite Ty in Hs. now apply checked_adds. }
  exfalso. destruct K as [K|[K|[K|K]]]; apply W in K; congruence.
Qed.

Lemma calibration_adds v : sound v -> calibration_ok v -> exists xs, calibrates v xs /\ adds h L R (add_calibration L hb mode v) xs.
Proof.
  intros S C. pose proof C as (K & E & _). destruct (end_adds v S) as [E0 E1].
  pose proof (str_spec _ _ "/Type" ["Type"%string] (root_some v) ltac:(nm) S) as Ht.
  destruct K as [[K T]|[K [t T]]].
  - destruct (known_adds v S C T K) as (b & X & Ab).
    assert (Eq : forall st, (let! st := (match str_at (Some v) "/Type" with
    | Some s => if caseless (zs "STEP") s then checked L hb 300 60 (body300 hb mode v) st
       else if caseless (zs "SINE") s then checked L hb 310 60 (body310 hb mode v) st
       else if caseless (zs "PSEUDORANDOM") s then checked L hb 320 64 (body320 hb mode v) st
       else if caseless (zs "GENERIC") s then checked L hb 390 28 (body390 hb mode v) st
       else Err (-1)
    | None => Ok st end) in add_end L hb mode v st) = add_calibration L hb mode v st).
    { intros st. unfold add_calibration. destruct (str_at (Some v) "/Type") as [s|] eqn:Es; [reflexivity|]. exfalso.
      destruct K as [K|[K|[K|K]]]; destruct K as (s & Ts & _); destruct (Ht s Ts). }
    destruct E as [E|[t E]].
    + exists [b]. split; [now apply ca_begun|]. eapply adds_eq; [exact Eq|]. change [b] with ([b] ++ []). apply adds_then; [exact Ab|now apply E0].
    + exists [b; B395 (btime_at t) [0; 0]]. split; [now apply ca_both|]. eapply adds_eq; [exact Eq|]. change [b; B395 (btime_at t) [0; 0]] with ([b] ++ [B395 (btime_at t) [0; 0]]).
      apply adds_then; [exact Ab|now apply E1].
  - exists [B395 (btime_at t) [0; 0]]. split; [now apply ca_end|]. specialize (E1 t T). intros st bs Sd. specialize (E1 st bs Sd).
    unfold add_calibration. destruct (str_at (Some v) "/Type") as [s|]; [destruct (K s (proj1 Ht))|].
    assert (G : exists w, doc_get (Some v) (zs "/EndTime") = Some w).
    { rewrite (get_root _ _ "/EndTime" ["EndTime"%string] (root_some v)) by nm. destruct T as (s & T & _). exists (JStr s). apply look_spec. exact T. }
    destruct G as [w ->]. rewrite (fits_ok _ _ _ _ _ _ Sd HL). rewrite sizes_one, size_end in E1 |- *.
    destruct (Z.leb_spec (48 + sizes bs + 16) L); [exact E1|reflexivity].
Qed.

Lemma each_adds (P : jv -> Prop) (rel : jv -> list blk -> Prop) f l :
  (forall v, In v l -> P v -> exists xs, rel v xs /\ adds h L R (f v) xs) -> Forall P (filter is_obj l) ->
  exists xss, Forall2 rel (filter is_obj l) xss /\ adds h L R (each f l) (concat xss).
Proof.
  induction l as [|v l IH]; intros H F.
  - exists []. split; [constructor|]. apply adds_nil. reflexivity.
  - cbn [filter] in *. assert (H' : forall v, In v l -> P v -> exists xs, rel v xs /\ adds h L R (f v) xs) by (intros w I; apply H; now right).
    destruct (is_obj v) eqn:Ev.
    + inversion F as [|v' l' Pv Fl]; subst. destruct (IH H' Fl) as (xss & F2 & A). destruct (H v (or_introl eq_refl) Pv) as (xs & Rv & Av).
      exists (xs :: xss). split; [constructor; assumption|]. cbn [concat]. eapply adds_eq; [|apply (adds_then _ _ _ (f v) (each f l)); eassumption].
      intros st. destruct v; try discriminate. reflexivity.
    + destruct (IH H' F) as (xss & F2 & A). exists xss. split; [exact F2|]. eapply adds_eq; [|exact A]. intros st. destruct v; try discriminate; reflexivity.
Qed.

Lemma each_at_adds (P : jv -> Prop) (rel : jv -> list blk -> Prop) f root j p ks :
  root_is root j -> names_ p ks -> sound j -> (forall v, sound v -> P v -> exists xs, rel v xs /\ adds h L R (f v) xs) ->
  (forall l, objects j ks l -> Forall P l) ->
  exists l xss, objects j ks l /\ Forall2 rel l xss /\ adds h L R (each_at root p f) (concat xss).
Proof.
  intros Rt N S H F. unfold each_at. rewrite (get_root _ _ _ _ Rt N).
  assert (No : (forall a, ~ at_ j ks (JArr a)) -> (forall st, match look j (map zs ks) with Some (JArr l) => each f l st | _ => Ok st end = Ok st) ->
    exists l xss, objects j ks l /\ Forall2 rel l xss /\ adds h L R (fun st => match look j (map zs ks) with Some (JArr l) => each f l st | _ => Ok st end) (concat xss)).
  { intros Na E. exists [], []. split; [right; auto|]. split; [constructor|]. apply adds_nil. exact E. }
  destruct (look j (map zs ks)) as [w|] eqn:E.
  - apply look_spec in E. assert (Na : (forall l, w <> JArr l) -> forall a, ~ at_ j ks (JArr a)) by (intros D a A; apply (D a), (at_fun _ _ _ _ E A)).
    destruct w as [|b|i|b|s|l|l]; try (apply No; [apply Na; discriminate|reflexivity]).
    assert (O : objects j ks (filter is_obj l)) by (left; exists l; auto).
    pose proof (sound_at _ _ _ E S) as Sl. inversion Sl as [| | | | |l' Fl|]; subst. rewrite Forall_forall in Fl.
    destruct (each_adds P rel f l) as (xss & F2 & A); [intros v I; apply H; now apply Fl|exact (F _ O)|].
    exists (filter is_obj l), xss. split; [exact O|]. split; [exact F2|exact A].
  - apply No; [|reflexivity]. intros a A. exact (proj1 (look_none _ _) E _ A).
Qed.
End Entries.

Lemma objects_fun j ks l l' : objects j ks l -> objects j ks l' -> l = l'.
Proof.
  intros [(a & A & ->)|[N ->]] [(b & B & ->)|[N' ->]]; try reflexivity.
  - pose proof (at_fun _ _ _ _ A B). congruence.
  - destruct (N' _ A).
  - destruct (N _ B).
Qed.

Lemma forall2_one (rel : jv -> blk -> Prop) l xss : Forall2 (fun v xs => exists b, rel v b /\ xs = [b]) l xss -> Forall2 rel l (concat xss).
Proof. induction 1 as [|v xs l xss (b & Rb & ->) F IH]; cbn [concat app]; constructor; assumption. Qed.

(** All entries one after the other. *)
Lemma entries_add hb mode h L R root j : sized h -> lenZ R = L - 48 -> L < 2 ^ 32 -> root_is root j -> document_ok j ->
  exists xs, entries_say j xs /\
    adds h L R (fun st =>
      let! st := each_at root "/FDSN/Time/Exception" (add_exception L hb mode root) st in
      let! st := each_at root "/FDSN/Event/Detection" (add_detection L hb mode) st in
      each_at root "/FDSN/Calibration/Sequence" (add_calibration L hb mode) st) xs.
Proof.
  intros Sz LR HL Rt (S & _ & He & Hd & Hc).
  destruct (each_at_adds h L R exception_ok (fun v xs => exists b, excepts j v b /\ xs = [b]) (add_exception L hb mode root) root j "/FDSN/Time/Exception"
              ["FDSN"%string; "Time"%string; "Exception"%string] Rt ltac:(nm) S) as (es & xe & Oe & Fe & Ae).
  { intros v Sv Ev. destruct (exception_adds hb mode h L R Sz LR HL root j v Rt S Sv Ev) as (b & X & A). eauto. }
  { exact He. }
  destruct (each_at_adds h L R detection_ok (fun v xs => exists b, detects v b /\ xs = [b]) (add_detection L hb mode) root j "/FDSN/Event/Detection"
              ["FDSN"%string; "Event"%string; "Detection"%string] Rt ltac:(nm) S) as (ds & xd & Od & Fd & Ad).
  { intros v Sv Ev. destruct (detection_adds hb mode h L R Sz LR HL v Sv Ev) as (b & X & A). eauto. }
  { exact Hd. }
  destruct (each_at_adds h L R calibration_ok calibrates (add_calibration L hb mode) root j "/FDSN/Calibration/Sequence"
              ["FDSN"%string; "Calibration"%string; "Sequence"%string] Rt ltac:(nm) S) as (cs & xc & Oc & Fc & Ac).
  { intros v Sv Ev. apply (calibration_adds hb mode h L R Sz LR HL v Sv Ev). }
  { exact Hc. }
  exists (concat xe ++ concat xd ++ concat xc). split.
  - exists es, ds, cs, (concat xe), (concat xd), xc. do 3 (split; [assumption|]). split; [now apply forall2_one|]. split; [now apply forall2_one|]. split; [exact Fc|reflexivity].
  - apply (adds_then h L R (each_at root "/FDSN/Time/Exception" (add_exception L hb mode root))); [exact Ae|].
    apply (adds_then h L R (each_at root "/FDSN/Event/Detection" (add_detection L hb mode))); assumption.
Qed.
