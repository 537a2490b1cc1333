(** * Proofs about the printing of records. *)
From Coq Require Import String Lia.
From Verif Require Import Base BaseLemmas TimeModel TimeStrModel TimeStrSpec TimeStrProof RecModel SampleModel RawModel ShowModel ShowSpec.
From Verif Require DblModel.
Open Scope Z_scope.
Open Scope list_scope.

(** ** Numbers *)

Lemma digits_app : forall base a b acc, digits base acc (a ++ b) = match digits base acc a with Some x => digits base x b | None => None end.
Proof.
  intros base. induction a as [|c a IH]; intros b acc; cbn; [reflexivity|].
  destruct (digit c); [|reflexivity]. destruct (z <? base); [apply IH|reflexivity].
Qed.
Lemma digits_pad : forall w v acc, 0 <= v < 10 ^ Z.of_nat w -> digits 10 acc (pad w v) = Some (acc * 10 ^ Z.of_nat w + v).
Proof.
  induction w as [|w IH]; intros v acc H.
  - cbn [pad digits]. change (10 ^ Z.of_nat 0) with 1 in *. f_equal. lia.
  - cbn [pad]. rewrite digits_app, IH by (apply div10_range; exact H). cbn [digits].
    unfold digit. replace ((48 <=? v mod 10 + 48) && (v mod 10 + 48 <=? 57))%bool with true by lia.
    replace (v mod 10 + 48 - 48 <? 10) with true by lia. f_equal. rewrite pow10_S. lia.
Qed.
Definition decimal (c : Z) : Prop := c = 45 \/ 48 <= c <= 57.
Lemma pad_decimal : forall w v, Forall decimal (pad w v).
Proof.
  induction w as [|w IH]; intros v; cbn [pad]; [constructor|].
  apply Forall_app. split; [apply IH|]. constructor; [|constructor]. unfold decimal. lia.
Qed.
Lemma dec_decimal : forall v, Forall decimal (dec v).
Proof.
  intros v. unfold dec. destruct (v <? 0); [|apply pad_decimal].
  constructor; [left; reflexivity | apply pad_decimal].
Qed.
Lemma ndig_up : forall f v, (1 <= ndig f v <= S f)%nat.
Proof. induction f as [|f IH]; intros v; cbn [ndig]; [lia|]. destruct (v <? 10); [lia|]. specialize (IH (v / 10)). lia. Qed.
Lemma dec_nonempty : forall v, dec v <> [].
Proof.
  intros v H. unfold dec in H. destruct (v <? 0); [discriminate|].
  pose proof (pad_length (ndig 20 v) v) as L. rewrite H in L. pose proof (ndig_up 20 v). change (length (@nil Z)) with 0%nat in L. lia.
Qed.
Lemma natural_pad : forall w v, (1 <= w)%nat -> 0 <= v < 10 ^ Z.of_nat w -> natural 10 (pad w v) = Some v.
Proof.
  intros w v W H. pose proof (pad_length w v) as L. unfold natural.
  destruct (pad w v) eqn:E; [cbn in L; lia|]. rewrite <- E, digits_pad by exact H. reflexivity.
Qed.
Lemma number_dec : forall v, in_s 64 v -> number (dec v) = Some v.
Proof.
  intros v H. unfold in_s in H. change (2 ^ (64 - 1)) with 9223372036854775808 in H.
  assert (B : forall u, 0 <= u <= 9223372036854775808 -> natural 10 (pad (ndig 20 u) u) = Some u /\ hd 0 (pad (ndig 20 u) u) <> 45).
  { intros u U. destruct (ndig_ok 20 u) as (A & C & _).
    { change (10 ^ Z.of_nat 21) with 1000000000000000000000. lia. }
    split; [apply natural_pad; [exact A|lia]|].
    pose proof (pad_digits (ndig 20 u) u ltac:(lia)) as F. destruct (pad (ndig 20 u) u); [cbn; lia|].
    inversion F as [|? ? D _]; subst. cbn. unfold is_digit in D. lia. }
  unfold dec. destruct (Z.ltb_spec v 0) as [C|C].
  - destruct (B (- v)) as (E & _); [lia|]. cbn [number]. rewrite E. cbn. f_equal. lia.
  - destruct (B v) as (E & D); [lia|]. unfold number. destruct (pad (ndig 20 v) v) as [|c t] eqn:P; [discriminate|].
    cbn in D. destruct c as [|p|p]; [exact E| |exact E].
    do 6 (destruct p as [p|p|]; try exact E). elim D. reflexivity.
Qed.
Lemma dec_short : forall v w, (1 <= w <= 20)%nat -> - 10 ^ Z.of_nat w < v < 10 ^ Z.of_nat w -> (length (dec v) <= S w)%nat.
Proof.
  intros v w W H. destruct (Z_lt_le_dec v 0) as [C|C].
  - rewrite dec_neg by exact C. destruct (dec_length (- v) w) as (k & K & E & _); [lia|exact W|]. rewrite E. cbn. rewrite pad_length. lia.
  - destruct (dec_length v w) as (k & K & E & _); [lia|exact W|]. rewrite E, pad_length. lia.
Qed.

(** hexadecimal *)
Lemma hexdigit_ok : forall d, 0 <= d < 16 -> digit (hexdigit d) = Some d /\ 32 < hexdigit d.
Proof.
  intros d H. unfold hexdigit, digit. destruct (Z.ltb_spec d 10) as [C|C].
  - replace ((48 <=? 48 + d) && (48 + d <=? 57))%bool with true by lia. split; [f_equal; lia | lia].
  - replace ((48 <=? 55 + d) && (55 + d <=? 57))%bool with false by lia.
    replace ((65 <=? 55 + d) && (55 + d <=? 70))%bool with true by lia. split; [f_equal; lia | lia].
Qed.
Lemma hex_ok : forall f v, 0 <= v < 16 ^ Z.of_nat f -> (1 <= f)%nat ->
  digits 16 0 (hex f v) = Some v /\ hex f v <> [] /\ Forall (fun c => 32 < c) (hex f v) /\ (length (hex f v) <= f)%nat.
Proof.
  induction f as [|f IH]; intros v H F; [lia|]. cbn [hex].
  destruct (hexdigit_ok (v mod 16) ltac:(lia)) as (D & D').
  rewrite Nat2Z.inj_succ, Z.pow_succ_r in H by lia.
  destruct (Z.ltb_spec v 16) as [C|C].
  - cbn [app digits length]. rewrite D. replace (v mod 16 <? 16) with true by lia.
    split; [f_equal; lia|]. split; [discriminate|]. split; [constructor; [exact D'|constructor]|lia].
  - assert (1 <= f)%nat as F' by (destruct f; [cbn in H; lia | lia]).
    destruct (IH (v / 16)) as (E & N & A & L); [lia|exact F'|].
    rewrite digits_app, E. cbn [digits]. rewrite D. replace (v mod 16 <? 16) with true by lia.
    split; [f_equal; lia|]. split; [destruct (hex f (v / 16)); discriminate|]. split; [|rewrite app_length; cbn; lia].
    apply Forall_app. split; [exact A|]. constructor; [exact D'|constructor].
Qed.

(** ** Pieces, lines and words *)

Lemma pieces_some : forall c t, exists p ps, pieces c t = p :: ps.
Proof. intros c t. destruct t as [|x t]; cbn; [eauto|]. destruct (x =? c); [eauto|]. destruct (pieces c t); eauto. Qed.
Lemma pieces_cut : forall c a b, ~ In c a -> pieces c (a ++ c :: b) = a :: pieces c b.
Proof.
  intros c. induction a as [|x a IH]; intros b N; cbn [app pieces].
  - rewrite Z.eqb_refl. reflexivity.
  - destruct (Z.eqb_spec x c) as [->|D]; [elim N; left; reflexivity|].
    rewrite IH by (intro I; apply N; right; exact I). reflexivity.
Qed.
Lemma pieces_one : forall c a, ~ In c a -> pieces c a = [a].
Proof.
  intros c. induction a as [|x a IH]; intros N; cbn [pieces]; [reflexivity|].
  destruct (Z.eqb_spec x c) as [->|D]; [elim N; left; reflexivity|].
  rewrite IH by (intro I; apply N; right; exact I). reflexivity.
Qed.
Lemma lines_cut : forall a b, ~ In 10 a -> lines (a ++ 10 :: b) = a :: lines b.
Proof.
  intros a b N. unfold lines. rewrite pieces_cut by exact N. destruct (pieces_some 10 b) as (p & ps & ->). reflexivity.
Qed.
Lemma ended_cut : forall a b, ~ In 10 a -> ended b -> ended (a ++ 10 :: b).
Proof.
  intros a b N E. unfold ended in *. rewrite pieces_cut by exact N. destruct (pieces_some 10 b) as (p & ps & P). rewrite P in *. exact E.
Qed.
Lemma ended_nil : ended [].
Proof. reflexivity. Qed.
Lemma lines_nil : lines [] = [].
Proof. reflexivity. Qed.

(** blanks are skipped *)
Lemma words_blanks : forall k t, words (repeat 32 k ++ t) = words t.
Proof.
  intros k t. induction k as [|k IH]; [reflexivity|]. cbn [repeat app]. unfold words in *. cbn [pieces]. cbn. exact IH.
Qed.
Lemma words_cut : forall b t, ~ In 32 b -> b <> [] -> words (b ++ 32 :: t) = b :: words t.
Proof.
  intros b t N E. unfold words. rewrite pieces_cut by exact N. cbn. destruct b; [elim E; reflexivity|reflexivity].
Qed.
Lemma words_nil : words [] = [].
Proof. reflexivity. Qed.

Lemma flush_blanks : forall k t, flush (repeat 32 k ++ t) = flush t.
Proof. intros k t. induction k as [|k IH]; [reflexivity|exact IH]. Qed.
Lemma flush_body : forall b, Forall (fun c => 32 < c /\ c <> 44) b -> flush b = b.
Proof.
  intros b F. destruct F as [|c b (C & _) _]; [reflexivity|]. cbn. destruct c as [|p|p]; try reflexivity.
  do 6 (destruct p as [p|p|]; try reflexivity; try (cbn in C; lia)).
Qed.

(** ** Cutting *)

Lemma starts_app : forall s t, starts s (s ++ t) = Some t.
Proof. induction s as [|a s IH]; intros t; cbn; [reflexivity|]. rewrite Z.eqb_refl. apply IH. Qed.
Lemma cut_ok : forall s0 s a b, ~ In s0 a -> cut (s0 :: s) (a ++ (s0 :: s) ++ b) = Some (a, b).
Proof.
  intros s0 s. induction a as [|c a IH]; intros b N.
  - cbn [app]. unfold cut; fold cut. cbn [starts]. rewrite Z.eqb_refl, starts_app. reflexivity.
  - assert (c <> s0) by (intros ->; apply N; left; reflexivity).
    cbn [app]. unfold cut; fold cut. cbn [starts]. destruct (Z.eqb_spec s0 c) as [E|E]; [subst; elim H; reflexivity|].
    change (s0 :: s ++ b) with ((s0 :: s) ++ b). rewrite IH by (intro I; apply N; right; exact I). reflexivity.
Qed.
Lemma before_ok : forall s0 s a, ~ In s0 a -> before (s0 :: s) (a ++ s0 :: s) = Some a.
Proof.
  intros s0 s a N. unfold before. pose proof (cut_ok s0 s a [] N) as E. rewrite app_nil_r in E. rewrite E. reflexivity.
Qed.
Lemma not_in_dec : forall c v, ~ decimal c -> ~ In c (dec v).
Proof. intros c v N I. apply N. exact (proj1 (Forall_forall _ _) (dec_decimal v) c I). Qed.

(** ** The time string *)

Lemma zs_dec0 : forall w v, Forall (fun c => 32 <= c) (dec0 w v).
Proof.
  intros w v. unfold dec0. apply Forall_app. split.
  - apply Forall_forall. intros c I. apply repeat_spec in I. lia.
  - eapply Forall_impl; [|apply dec_decimal]. intros c [->|]; lia.
Qed.
Lemma zs_decs : forall w v, Forall (fun c => 32 <= c) (decs w v).
Proof.
  intros w v. unfold decs. apply Forall_app. split.
  - apply Forall_forall. intros c I. apply repeat_spec in I. lia.
  - eapply Forall_impl; [|apply dec_decimal]. intros c [->|]; lia.
Qed.
Lemma forall_firstn : forall A (P : A -> Prop) n l, Forall P l -> Forall P (firstn n l).
Proof. intros A P n l F. rewrite <- (firstn_skipn n l) in F. apply Forall_app in F. exact (proj1 F). Qed.

Lemma time_text : forall t s, nstime2timestr t ISOMONTHDAY_DOY_Z NANO_MICRO = Ok (Some s) ->
  (length s <= 36)%nat /\ Forall (fun c => 32 <= c) s.
Proof.
  intros t s. unfold nstime2timestr. cbn [needs_calendar is_z].
  set (isec := if ((t <? 0) && negb (swrap 32 (t - Z.quot t NSTMODULUS * NSTMODULUS) =? 0))%bool then _ else _).
  destruct (gmtime64 isec) as [[tm|] | | |]; try discriminate. cbn [bind].
  set (ns := if ((t <? 0) && negb (swrap 32 (t - Z.quot t NSTMODULUS * NSTMODULUS) =? 0))%bool then _ else _).
  cbn [sub_digits].
  assert (A : forall dg n, (dg = 6 \/ dg = 9)%nat -> Forall (fun c => 32 <= c) (sub_text dg n)).
  { intros dg n [-> | ->]; cbn [sub_text]; (constructor; [lia|apply zs_dec0]). }
  assert (B : forall dg, (dg = 6 \/ dg = 9)%nat ->
    (let z := zs "Z" in
      let plus := match dg with O => 0%nat | _ => S dg end in
      let year := decs 4 (tm_year tm + 1900) in
      let hms := dec0 2 (tm_hour tm) ++ zs ":" ++ dec0 2 (tm_min tm) ++ zs ":" ++ dec0 2 (tm_sec tm)
                 ++ sub_text dg ns in
      let date := year ++ zs "-" ++ dec0 2 (tm_mon tm + 1) ++ zs "-" ++ dec0 2 (tm_mday tm) in
      let ex := (26 + plus)%nat in
      let (stored, printed) := snprintf (S ex) (date ++ zs "T" ++ hms ++ z ++ zs " (" ++ dec0 3 (tm_yday tm + 1) ++ zs ")") in
      if (Z.of_nat ex =? 0) || ((0 <? Z.of_nat ex) && negb (printed =? Z.of_nat ex)) then Ok None
      else Ok (Some stored)) = Ok (Some s) -> (length s <= 36)%nat /\ Forall (fun c => 32 <= c) s).
  { intros dg D. cbv zeta. unfold snprintf.
    destruct (_ || _)%bool; [discriminate|]. intros H.
    assert (J : forall x, @Ok (option (list Z)) (Some x) = Ok (Some s) -> s = x) by congruence.
    apply J in H. clear J. rewrite H. clear H.
    split.
    - rewrite firstn_length. etransitivity; [apply Nat.le_min_l|]. destruct D as [-> | ->]; cbn; lia.
    - apply forall_firstn. repeat rewrite <- app_assoc.
      pose proof zs_dec0 as D0. pose proof zs_decs as Ds. pose proof (A dg ns D) as Dt.
      assert (L1 : Forall (fun c => 32 <= c) (zs "-")) by (cbn; repeat constructor; lia).
      assert (L2 : Forall (fun c => 32 <= c) (zs "T")) by (cbn; repeat constructor; lia).
      assert (L3 : Forall (fun c => 32 <= c) (zs ":")) by (cbn; repeat constructor; lia).
      assert (L4 : Forall (fun c => 32 <= c) (zs "Z")) by (cbn; repeat constructor; lia).
      assert (L5 : Forall (fun c => 32 <= c) (zs " (")) by (cbn; repeat constructor; lia).
      assert (L6 : Forall (fun c => 32 <= c) (zs ")")) by (cbn; repeat constructor; lia).
      generalize dependent (sub_text dg ns). intros st Dt.
      rewrite !Forall_app. repeat split; try apply D0; try apply Ds; assumption. }
  destruct (ns - Z.quot ns 1000 * 1000 =? 0).
  - intros H. apply (B 6%nat); [left; reflexivity|]. exact H.
  - intros H. apply (B 9%nat); [right; reflexivity|]. exact H.
Qed.

(** ** The summary line *)

Lemma forall_not_in : forall c (P : Z -> Prop) t, ~ P c -> Forall P t -> ~ In c t.
Proof. intros c P t N F I. apply N. exact (proj1 (Forall_forall _ _) F c I). Qed.
Lemma not_in_app : forall (c : Z) a b, ~ In c a -> ~ In c b -> ~ In c (a ++ b).
Proof. intros c a b A B I. apply in_app_or in I. tauto. Qed.
Lemma plain_not : forall c w t, plain w t -> c <= 32 \/ c = 44 -> ~ In c t.
Proof. intros c w t (_ & _ & F) C. apply (forall_not_in c (fun c => 32 < c /\ c <> 44)); [lia|exact F]. Qed.

Ltac lit := let H := fresh in intro H; cbn in H; repeat (destruct H as [H|H]; [discriminate|]); exact H.
Ltac nodec := apply not_in_dec; unfold decimal; lia.

Lemma say_ok : forall t, (length t <= 199)%nat -> say t = t.
Proof. intros t H. unfold say. apply firstn_all2. exact H. Qed.

Lemma small_dec : forall v w, (1 <= w <= 19)%nat -> - 10 ^ Z.of_nat w < v < 10 ^ Z.of_nat w -> (length (dec v) <= S w)%nat.
Proof. intros v w W H. apply dec_short; [lia|exact H]. Qed.
Lemma dec_pub : forall v, in_u 8 v -> (length (dec v) <= 4)%nat.
Proof. intros v H. unfold in_u in H. change (2 ^ 8) with 256 in H. apply (small_dec v 3); [lia|]. change (10 ^ Z.of_nat 3) with 1000. lia. Qed.
Lemma dec_int : forall v, in_s 32 v -> (length (dec v) <= 11)%nat.
Proof. intros v H. unfold in_s in H. change (2 ^ (32 - 1)) with 2147483648 in H. apply (small_dec v 10); [lia|]. change (10 ^ Z.of_nat 10) with 10000000000. lia. Qed.
Lemma dec_long : forall v, in_s 64 v -> (length (dec v) <= 20)%nat.
Proof.
  intros v H. unfold in_s in H. change (2 ^ (64 - 1)) with 9223372036854775808 in H. apply (small_dec v 19); [lia|].
  change (10 ^ Z.of_nat 19) with 10000000000000000000. lia.
Qed.

Lemma summary : forall mode hz m details, header_fits m -> plain 20 (hz (sampratehz (m_rate m))) -> details <= 0 ->
  exists out line pub len cnt time, msr_print hz m details = Ok out /\ lines out = [line] /\ ended out /\
    fields 5 (zs ", ") line = Some [m_sid m; pub; len; cnt ++ zs " samples"; hz (sampratehz (m_rate m)) ++ zs " Hz"; time] /\
    number pub = Some (m_pub m) /\ number len = Some (m_reclen m) /\ number cnt = Some (m_cnt m) /\
    mdtimestr2nstime mode time = Ok (m_start m).
Proof.
  intros mode hz m details ((S1 & S2 & S3) & (H1 & H2 & H3 & H4 & H5) & _ & (T1 & T2)) Hz D.
  destruct (md_roundtrip mode (m_start m) ISOMONTHDAY_DOY_Z NANO_MICRO T1 T2) as (time & Et & Rt).
  { cbn. tauto. }
  destruct (time_text _ _ Et) as (Lt & Ct).
  unfold msr_print. rewrite Et. cbn [bind]. destruct (Z.ltb_spec 0 details) as [C|C]; [lia|]. clear C.
  set (g := hz (sampratehz (m_rate m))) in *.
  set (line := m_sid m ++ zs ", " ++ dec (m_pub m) ++ zs ", " ++ dec (m_reclen m) ++ zs ", " ++ (dec (m_cnt m) ++ zs " samples") ++ zs ", "
               ++ (g ++ zs " Hz") ++ zs ", " ++ time).
  assert (say (m_sid m ++ zs ", " ++ dec (m_pub m) ++ zs ", " ++ dec (m_reclen m) ++ zs ", " ++ dec (m_cnt m) ++ zs " samples, "
               ++ g ++ zs " Hz, " ++ time ++ [10]) = line ++ [10]) as ->.
  { rewrite say_ok.
    - unfold line. change (zs " samples, ") with (zs " samples" ++ zs ", "). change (zs " Hz, ") with (zs " Hz" ++ zs ", ").
      repeat rewrite <- app_assoc. reflexivity.
    - repeat rewrite app_length. pose proof (dec_pub _ H1). pose proof (dec_int _ H2). pose proof (dec_long _ H4).
      destruct Hz as (Lg & _).
      change (length (zs ", ")) with 2%nat. change (length (zs " samples, ")) with 10%nat. change (length (zs " Hz, ")) with 5%nat.
      change (length [10]) with 1%nat. lia. }
  exists (line ++ [10]), line, (dec (m_pub m)), (dec (m_reclen m)), (dec (m_cnt m)), time.
  assert (Nl : ~ In 10 line).
  { unfold line. repeat apply not_in_app; try exact S2; try (nodec); try lit.
    - apply (plain_not 10 20 g Hz). lia.
    - apply (forall_not_in 10 (fun c => 32 <= c)); [lia|exact Ct]. }
  split; [reflexivity|]. split; [exact (lines_cut line [] Nl)|]. split; [exact (ended_cut line [] Nl ended_nil)|].
  split.
  - unfold line. cbn [fields]. 
    change (zs ", ") with [44; 32].
    rewrite cut_ok by exact S3. rewrite cut_ok by nodec. rewrite cut_ok by nodec.
    rewrite cut_ok by (apply not_in_app; [nodec|lit]).
    rewrite cut_ok by (apply not_in_app; [apply (plain_not 44 20 g Hz); lia|lit]). reflexivity.
  - repeat split.
    + apply number_dec. unfold in_u, in_s in *. change (2 ^ 8) with 256 in H1. change (2 ^ (64 - 1)) with 9223372036854775808. lia.
    + apply number_dec. unfold in_s in *. change (2 ^ (32 - 1)) with 2147483648 in H2. change (2 ^ (64 - 1)) with 9223372036854775808. lia.
    + apply number_dec. exact H4.
    + rewrite Rt. f_equal. unfold floor_to, resolution. lia.
Qed.

(** ** The detailed print *)

Definition line_out (t : list Z) : list Z := t ++ [10].
Lemma lines_out : forall ts rest, Forall (fun t => ~ In 10 t) ts -> lines (concat (map line_out ts) ++ rest) = ts ++ lines rest.
Proof.
  induction ts as [|t ts IH]; intros rest F; [reflexivity|]. inversion F; subst. cbn [map concat app]. unfold line_out at 1.
  repeat rewrite <- app_assoc. cbn [app]. rewrite lines_cut by assumption. rewrite IH by assumption. reflexivity.
Qed.
Lemma lookup_app : forall label a b, lookup label (a ++ b) = match lookup label a with Some v => Some v | None => lookup label b end.
Proof.
  intros label. induction a as [|l a IH]; intros b; cbn [app lookup]; [reflexivity|].
  destruct (cut (zs ": ") (flush l)) as [[x y]|]; [|apply IH]. destruct (list_eq_dec Z.eq_dec x label); [reflexivity|apply IH].
Qed.

Definition flag_list (b : Z) : list (list Z) :=
  (zs "                  flags: [" ++ (bitd b 128 ++ bitd b 64 ++ bitd b 32 ++ bitd b 16
       ++ bitd b 8 ++ bitd b 4 ++ bitd b 2 ++ bitd b 1) ++ zs "] 8 bits") ::
  concat (map (fun p => if Z.land b (fst p) =? 0 then [] else [zs "                         " ++ snd p])
    [(1, zs "[Bit 0] Calibration signals present"); (2, zs "[Bit 1] Time tag is questionable"); (4, zs "[Bit 2] Clock locked");
     (8, zs "[Bit 3] Undefined bit set"); (16, zs "[Bit 4] Undefined bit set"); (32, zs "[Bit 5] Undefined bit set");
     (64, zs "[Bit 6] Undefined bit set"); (128, zs "[Bit 7] Undefined bit set")]).
Lemma concat_lines_app : forall a b, concat (map line_out (a ++ b)) = concat (map line_out a) ++ concat (map line_out b).
Proof. intros a b. rewrite map_app, concat_app. reflexivity. Qed.
Lemma bitd_one : forall b k, bitd b k = [48] \/ bitd b k = [49].
Proof. intros b k. unfold bitd. destruct (Z.land b k =? 0); [left|right]; reflexivity. Qed.
Lemma flag_line_out : forall b k t, (length t <= 100)%nat ->
  flag_line b k t = concat (map line_out (if Z.land b k =? 0 then [] else [zs "                         " ++ t])).
Proof.
  intros b k t L. unfold flag_line. destruct (Z.land b k =? 0); [reflexivity|].
  rewrite say_ok; [unfold line_out; cbn [map concat]; rewrite app_nil_r, <- app_assoc; reflexivity|].
  repeat rewrite app_length. change (length (zs "                         ")) with 25%nat. change (length [10]) with 1%nat. lia.
Qed.
Lemma flag_lines_out : forall b, flag_lines b = concat (map line_out (flag_list b)).
Proof.
  intros b. unfold flag_lines, flag_list. cbn [map concat fst snd].
  repeat rewrite concat_lines_app. repeat rewrite flag_line_out by (cbn; lia).
  assert (say (zs "                  flags: [" ++ bitd b 128 ++ bitd b 64 ++ bitd b 32 ++ bitd b 16
       ++ bitd b 8 ++ bitd b 4 ++ bitd b 2 ++ bitd b 1 ++ zs "] 8 bits" ++ [10])
    = line_out (zs "                  flags: [" ++ (bitd b 128 ++ bitd b 64 ++ bitd b 32 ++ bitd b 16
       ++ bitd b 8 ++ bitd b 4 ++ bitd b 2 ++ bitd b 1) ++ zs "] 8 bits")) as ->.
  { unfold line_out. rewrite say_ok.
    - repeat rewrite <- app_assoc. reflexivity.
    - repeat rewrite app_length. change (length (zs "                  flags: [")) with 26%nat. change (length (zs "] 8 bits")) with 8%nat.
      change (length [10]) with 1%nat.
      assert (forall k, length (bitd b k) = 1%nat) as B by (intros k; destruct (bitd_one b k) as [-> | ->]; reflexivity).
      rewrite !B. lia. }
  cbn [map concat]. repeat rewrite app_nil_r. reflexivity.
Qed.
Lemma flag_list_plain : forall b, Forall (fun t => ~ In 10 t) (flag_list b).
Proof.
  intros b. unfold flag_list. constructor.
  - assert (forall k, ~ In 10 (bitd b k)) as B by (intros k; destruct (bitd_one b k) as [-> | ->]; lit).
    repeat apply not_in_app; try apply B; lit.
  - cbn [map concat fst snd]. rewrite !Forall_app. repeat split; try constructor;
      match goal with |- Forall _ (if ?c then _ else _) => destruct c; constructor; try constructor; apply not_in_app; lit end.
Qed.

(** All the lines of a detailed print. *)
Definition detail_list (m : msr) (g time : list Z) (details : Z) : list (list Z) :=
  [m_sid m ++ zs ", version " ++ dec (m_pub m) ++ zs ", " ++ dec (m_reclen m) ++ zs " bytes (format: " ++ dec (m_fver m) ++ zs ")";
   zs "             start time: " ++ time;
   zs "      number of samples: " ++ dec (m_cnt m);
   zs "       sample rate (Hz): " ++ g]
  ++ (if 1 <? details then flag_list (m_flags m) else [])
  ++ [zs "                    CRC: 0x" ++ hex 8 (m_crc m);
      zs "    extra header length: " ++ dec (Z.of_nat (length (m_extra m))) ++ zs " bytes";
      zs "    data payload length: " ++ dec (m_datalen m) ++ zs " bytes";
      zs "       payload encoding: " ++ encodingstr (uwrap 8 (m_enc m)) ++ zs " (val: " ++ dec (m_enc m) ++ zs ")"].

Lemma encodingstr_text : forall e, (length (encodingstr e) <= 40)%nat /\ ~ In 10 (encodingstr e) /\
  forall t, cut (zs " (val: ") (encodingstr e ++ zs " (val: " ++ t) = Some (encodingstr e, t).
Proof.
  intros e. unfold encodingstr.
  repeat match goal with |- context [if ?c then _ else _] => destruct c end;
    (split; [cbn; lia|split; [lit|intros t; reflexivity]]).
Qed.

Lemma say_line : forall t u, u = t ++ [10] -> (length t <= 198)%nat -> say u = line_out t.
Proof. intros t u -> H. unfold line_out. apply say_ok. rewrite app_length. cbn. lia. Qed.
Ltac lens := repeat rewrite app_length;
  repeat match goal with |- context [length (zs ?s)] => let n := eval vm_compute in (length (zs s)) in change (length (zs s)) with n end.
Ltac one t := match goal with |- context [say ?u] =>
  replace (say u) with (line_out t) by (symmetry; apply say_line; [repeat rewrite <- app_assoc; reflexivity | lens; lia]) end.

Lemma detail_out : forall hz m details time, header_fits m -> plain 20 (hz (sampratehz (m_rate m))) -> 0 < details ->
  nstime2timestr (m_start m) ISOMONTHDAY_DOY_Z NANO_MICRO = Ok (Some time) ->
  exists extra, (details < 2 \/ m_extra m = [] -> extra = []) /\
    msr_print hz m details = Ok (concat (map line_out (detail_list m (hz (sampratehz (m_rate m))) time details)) ++ extra).
Proof.
  intros hz m details time ((S1 & S2 & S3) & (H1 & H2 & H3 & H4 & H5) & (E1 & E2 & E3 & E4) & _) Hz D Et.
  destruct (time_text _ _ Et) as (Lt & Ct).
  unfold msr_print. rewrite Et. cbn [bind]. destruct (Z.ltb_spec 0 details) as [C|C]; [|lia]. clear C.
  set (g := hz (sampratehz (m_rate m))) in *.
  assert (exists extra, (details < 2 \/ m_extra m = [] -> extra = []) /\
    (if (1 <? details) && (0 <? Z.of_nat (length (m_extra m))) then
       let! e := eh_print (m_extra m) (Z.of_nat (length (m_extra m))) 16 in
       Ok (say (zs "          extra headers:" ++ [10]) ++ e)
     else Ok []) = Ok extra) as (extra & Nx & Ex).
  { destruct ((1 <? details) && (0 <? Z.of_nat (length (m_extra m))))%bool eqn:B.
    - apply andb_prop in B as [B1 B2]. apply Z.ltb_lt in B1, B2.
      unfold eh_print. destruct (Z.eqb_spec (Z.of_nat (length (m_extra m))) 0) as [Z0|_]; [lia|].
      unfold sliceZ. match goal with |- context [if ?c then _ else _] => replace c with true by lia end. cbn [bind].
      eexists. split; [|reflexivity]. intros [? | X]; [lia|]. rewrite X in B2. cbn in B2. lia.
    - eexists. split; [reflexivity|reflexivity]. }
  rewrite Ex. cbn [bind]. exists extra. split; [exact Nx|].
  f_equal. unfold detail_list. rewrite !concat_lines_app.
  assert (F : (if 1 <? details then flag_lines (m_flags m) else []) = concat (map line_out (if 1 <? details then flag_list (m_flags m) else []))).
  { destruct (1 <? details); [apply flag_lines_out|reflexivity]. }
  rewrite F. set (fl := concat (map line_out (if 1 <? details then flag_list (m_flags m) else []))).
  pose proof (dec_pub _ H1). pose proof (dec_int _ H2). pose proof (dec_pub _ H3). pose proof (dec_long _ H4).
  assert (length (dec (Z.of_nat (length (m_extra m)))) <= 11)%nat.
  { apply dec_int. unfold in_s. change (2 ^ (32 - 1)) with 2147483648. change (2 ^ 16) with 65536 in E1. lia. }
  assert (length (dec (m_datalen m)) <= 11)%nat.
  { apply dec_int. unfold in_s. change (2 ^ (32 - 1)) with 2147483648. change (2 ^ 31) with 2147483648 in E2. lia. }
  assert (length (dec (m_enc m)) <= 11)%nat.
  { apply dec_int. unfold in_s in *. change (2 ^ (32 - 1)) with 2147483648. change (2 ^ (16 - 1)) with 32768 in E3. lia. }
  destruct (hex_ok 8 (m_crc m)) as (_ & _ & _ & Lh); [exact H5|lia|].
  destruct (encodingstr_text (uwrap 8 (m_enc m))) as (Le & _).
  destruct Hz as (Lg & _).
  one (m_sid m ++ zs ", version " ++ dec (m_pub m) ++ zs ", " ++ dec (m_reclen m) ++ zs " bytes (format: " ++ dec (m_fver m) ++ zs ")").
  one (zs "             start time: " ++ time).
  one (zs "      number of samples: " ++ dec (m_cnt m)).
  one (zs "       sample rate (Hz): " ++ g).
  one (zs "                    CRC: 0x" ++ hex 8 (m_crc m)).
  one (zs "    extra header length: " ++ dec (Z.of_nat (length (m_extra m))) ++ zs " bytes").
  one (zs "    data payload length: " ++ dec (m_datalen m) ++ zs " bytes").
  one (zs "       payload encoding: " ++ encodingstr (uwrap 8 (m_enc m)) ++ zs " (val: " ++ dec (m_enc m) ++ zs ")").
  cbn [map concat]. rewrite !app_nil_r. repeat rewrite <- app_assoc. reflexivity.
Qed.

Lemma detail_plain : forall m g time details, header_fits m -> plain 20 g -> Forall (fun c => 32 <= c) time ->
  Forall (fun t => ~ In 10 t) (detail_list m g time details).
Proof.
  intros m g time details ((S1 & S2 & S3) & (H1 & H2 & H3 & H4 & H5) & (E1 & E2 & E3 & E4) & _) Hz Ct.
  assert (~ In 10 time) as Nt by (apply (forall_not_in 10 (fun c => 32 <= c)); [lia|exact Ct]).
  assert (~ In 10 g) as Ng by (apply (plain_not 10 20 g Hz); lia).
  assert (~ In 10 (hex 8 (m_crc m))) as Nh.
  { destruct (hex_ok 8 (m_crc m)) as (_ & _ & Fh & _); [exact H5|lia|]. apply (forall_not_in 10 (fun c => 32 < c)); [lia|exact Fh]. }
  destruct (encodingstr_text (uwrap 8 (m_enc m))) as (_ & Ne & _).
  unfold detail_list. revert Nh. generalize (hex 8 (m_crc m)). intros hx Nh. rewrite !Forall_app. split; [|split].
  - repeat (apply Forall_cons; [repeat apply not_in_app; first [assumption|nodec|lit]|]); apply Forall_nil.
  - destruct (1 <? details); [apply flag_list_plain|constructor].
  - repeat (apply Forall_cons; [repeat apply not_in_app; first [assumption|nodec|lit]|]); apply Forall_nil.
Qed.

(** no label of a flag line *)
Lemma flag_lookup : forall label b, label <> zs "flags" -> lookup label (flag_list b) = None.
Proof.
  intros label b N. unfold flag_list.
  assert (forall s rest, lookup label ((zs "                  flags: [" ++ s) :: rest) = lookup label rest) as H.
  { intros s rest. cbn [lookup]. change (cut (zs ": ") (flush (zs "                  flags: [" ++ s))) with (Some (zs "flags", zs "[" ++ s)).
    cbv iota beta. destruct (list_eq_dec Z.eq_dec (zs "flags") label); [subst; elim N; reflexivity|reflexivity]. }
  rewrite H. clear H. cbn [map concat fst snd].
  assert (forall k t rest, (forall r, lookup label ((zs "                         " ++ t) :: r) = lookup label r) ->
    lookup label ((if Z.land b k =? 0 then [] else [zs "                         " ++ t]) ++ rest) = lookup label rest) as H.
  { intros k t rest E. destruct (Z.land b k =? 0); [reflexivity|]. cbn [app]. apply E. }
  repeat (rewrite H by (intros r; reflexivity)). reflexivity.
Qed.

Lemma lookup_step : forall label l a b rest, cut (zs ": ") (flush l) = Some (a, b) -> a <> label -> lookup label (l :: rest) = lookup label rest.
Proof. intros label l a b rest E N. cbn [lookup]. rewrite E. destruct (list_eq_dec Z.eq_dec a label); [contradiction|reflexivity]. Qed.
Lemma lookup_here : forall label l b rest, cut (zs ": ") (flush l) = Some (label, b) -> lookup label (l :: rest) = Some b.
Proof. intros label l b rest E. cbn [lookup]. rewrite E. destruct (list_eq_dec Z.eq_dec label label); [reflexivity|contradiction]. Qed.

Lemma all_bytes : forall (P : Z -> bool), forallb P (map Z.of_nat (seq 0 256)) = true -> forall b, 0 <= b < 256 -> P b = true.
Proof.
  intros P H b B. rewrite forallb_forall in H. apply H. apply in_map_iff. exists (Z.to_nat b). split; [lia|]. apply in_seq. lia.
Qed.
Lemma bits_ok : forall b, 0 <= b < 256 ->
  natural 2 (bitd b 128 ++ bitd b 64 ++ bitd b 32 ++ bitd b 16 ++ bitd b 8 ++ bitd b 4 ++ bitd b 2 ++ bitd b 1) = Some b.
Proof.
  intros b B.
  pose proof (all_bytes (fun b => match natural 2 (bitd b 128 ++ bitd b 64 ++ bitd b 32 ++ bitd b 16 ++ bitd b 8 ++ bitd b 4 ++ bitd b 2 ++ bitd b 1)
                                  with Some v => v =? b | None => false end)) as A.
  specialize (A ltac:(vm_compute; reflexivity) b B). cbv beta in A. destruct (natural 2 _); [|discriminate]. f_equal. lia.
Qed.
Lemma flags_read : forall b rest, 0 <= b < 256 -> read read_bits (lookup (zs "flags") (flag_list b ++ rest)) = Some b.
Proof.
  intros b rest B. unfold flag_list. cbn [app].
  rewrite (lookup_here _ _ (zs "[" ++ (bitd b 128 ++ bitd b 64 ++ bitd b 32 ++ bitd b 16 ++ bitd b 8 ++ bitd b 4 ++ bitd b 2 ++ bitd b 1) ++ zs "] 8 bits")) by reflexivity.
  cbn [read]. unfold read_bits.
  assert (forall x, starts (zs "[") (zs "[" ++ x) = Some x) as -> by reflexivity.
  change (zs "] 8 bits") with (93 :: zs " 8 bits"). rewrite before_ok; [cbn [read]; apply bits_ok; exact B|].
  assert (forall k, ~ In 93 (bitd b k)) as C by (intros k; destruct (bitd_one b k) as [-> | ->]; lit).
  repeat apply not_in_app; apply C.
Qed.

Lemma details : forall mode hz m details, header_fits m -> plain 20 (hz (sampratehz (m_rate m))) -> 0 < details ->
  exists out first ls time enc, msr_print hz m details = Ok out /\ lines out = first :: ls /\ (m_extra m = [] -> ended out) /\
    read_first first = Some (m_sid m, Some (m_pub m), Some (m_reclen m), Some (m_fver m)) /\
    lookup (zs "start time") ls = Some time /\ mdtimestr2nstime mode time = Ok (m_start m) /\
    read number (lookup (zs "number of samples") ls) = Some (m_cnt m) /\
    lookup (zs "sample rate (Hz)") ls = Some (hz (sampratehz (m_rate m))) /\
    read (natural 16) (read (after (zs "0x")) (lookup (zs "CRC") ls)) = Some (m_crc m) /\
    read number (read (before (zs " bytes")) (lookup (zs "extra header length") ls)) = Some (Z.of_nat (length (m_extra m))) /\
    read number (read (before (zs " bytes")) (lookup (zs "data payload length") ls)) = Some (m_datalen m) /\
    lookup (zs "payload encoding") ls = Some enc /\ read_encoding enc = Some (encodingstr (m_enc m mod 256), Some (m_enc m)) /\
    (if 1 <? details then read read_bits (lookup (zs "flags") ls) = Some (m_flags m) else lookup (zs "flags") ls = None).
Proof.
  intros mode hz m details Hf Hz D. pose proof Hf as ((S1 & S2 & S3) & (H1 & H2 & H3 & H4 & H5) & (E1 & E2 & E3 & E4) & (T1 & T2)).
  destruct (md_roundtrip mode (m_start m) ISOMONTHDAY_DOY_Z NANO_MICRO T1 T2) as (time & Et & Rt).
  { cbn. tauto. }
  destruct (time_text _ _ Et) as (Lt & Ct).
  destruct (detail_out hz m details time Hf Hz D Et) as (extra & Nx & Eo).
  set (g := hz (sampratehz (m_rate m))) in *.
  pose proof (detail_plain m g time details Hf Hz Ct) as Pl.
  pose proof (lines_out (detail_list m g time details) extra Pl) as Lo.
  eexists _, _, _, time, _. split; [exact Eo|]. split.
  { rewrite Lo. unfold detail_list. rewrite <- !app_assoc. cbn [app]. reflexivity. }
  split.
  { intros X. rewrite (Nx (or_intror X)), app_nil_r. clear - Pl. induction Pl as [|t ts H _ IH]; [reflexivity|].
    cbn [map concat]. unfold line_out at 1. rewrite <- app_assoc. cbn [app]. apply ended_cut; [exact H|exact IH]. }
  assert (N64 : forall v, - 2 ^ 32 <= v < 2 ^ 32 -> number (dec v) = Some v).
  { intros v H. apply number_dec. unfold in_s. change (2 ^ (64 - 1)) with 9223372036854775808. change (2 ^ 32) with 4294967296 in H. lia. }
  unfold in_u, in_s in H1, H2, H3, E3, E4. change (2 ^ 8) with 256 in *. change (2 ^ (32 - 1)) with 2147483648 in *.
  change (2 ^ 16) with 65536 in *. change (2 ^ 31) with 2147483648 in *. change (2 ^ (16 - 1)) with 32768 in *. change (2 ^ 32) with 4294967296 in N64.
  split.
  { unfold read_first. change (zs ", version ") with (44 :: zs " version "). rewrite cut_ok by exact S3.
    change (zs ", ") with [44; 32]. rewrite cut_ok by nodec.
    change (zs " bytes (format: ") with (32 :: zs "bytes (format: "). rewrite cut_ok by nodec.
    change (zs ")") with [41]. pose proof (cut_ok 41 [] (dec (m_fver m)) []) as Cf. cbn [app] in Cf. rewrite Cf by nodec.
    cbn [read]. rewrite !N64 by lia. reflexivity. }
  assert (F0 : forall label rest, label <> zs "flags" ->
    lookup label ((if 1 <? details then flag_list (m_flags m) else []) ++ rest) = lookup label rest).
  { intros label rest N. rewrite lookup_app. destruct (1 <? details); [rewrite flag_lookup by exact N|]; reflexivity. }
  assert (Skip : forall label rest, label <> zs "start time" -> label <> zs "number of samples" -> label <> zs "sample rate (Hz)" ->
    lookup label ((zs "             start time: " ++ time) :: (zs "      number of samples: " ++ dec (m_cnt m)) :: (zs "       sample rate (Hz): " ++ g) :: rest)
    = lookup label rest).
  { intros label rest N1 N2 N3.
    rewrite (lookup_step _ _ (zs "start time") time) by (first [reflexivity | intro X; apply N1; symmetry; exact X]).
    rewrite (lookup_step _ _ (zs "number of samples") (dec (m_cnt m))) by (first [reflexivity | intro X; apply N2; symmetry; exact X]).
    rewrite (lookup_step _ _ (zs "sample rate (Hz)") g) by (first [reflexivity | intro X; apply N3; symmetry; exact X]).
    reflexivity. }
  split; [apply lookup_here; reflexivity|].
  split; [rewrite Rt; f_equal; unfold floor_to, resolution; lia|].
  split.
  { rewrite (lookup_step _ _ (zs "start time") time) by (first [reflexivity | discriminate]).
    rewrite (lookup_here _ _ (dec (m_cnt m))) by reflexivity. cbn [read]. apply number_dec. exact H4. }
  split.
  { rewrite (lookup_step _ _ (zs "start time") time) by (first [reflexivity | discriminate]).
    rewrite (lookup_step _ _ (zs "number of samples") (dec (m_cnt m))) by (first [reflexivity | discriminate]).
    apply lookup_here. reflexivity. }
  destruct (hex_ok 8 (m_crc m)) as (Hd & Hn & _); [exact H5|lia|].
  split.
  { rewrite Skip, F0 by discriminate.
    rewrite (lookup_here _ _ (zs "0x" ++ hex 8 (m_crc m))) by reflexivity. cbn [read]. unfold after. rewrite starts_app. cbn [read].
    unfold natural. destruct (hex 8 (m_crc m)); [elim Hn; reflexivity|exact Hd]. }
  split.
  { rewrite Skip, F0 by discriminate. cbn [app].
    rewrite (lookup_step _ _ (zs "CRC") (zs "0x" ++ hex 8 (m_crc m))) by (first [reflexivity | discriminate]).
    rewrite (lookup_here _ _ (dec (Z.of_nat (length (m_extra m))) ++ zs " bytes")) by reflexivity. cbn [read].
    change (zs " bytes") with (32 :: zs "bytes"). rewrite before_ok by nodec. cbn [read]. apply N64. lia. }
  split.
  { rewrite Skip, F0 by discriminate. cbn [app].
    rewrite (lookup_step _ _ (zs "CRC") (zs "0x" ++ hex 8 (m_crc m))) by (first [reflexivity | discriminate]).
    rewrite (lookup_step _ _ (zs "extra header length") (dec (Z.of_nat (length (m_extra m))) ++ zs " bytes")) by (first [reflexivity | discriminate]).
    rewrite (lookup_here _ _ (dec (m_datalen m) ++ zs " bytes")) by reflexivity. cbn [read].
    change (zs " bytes") with (32 :: zs "bytes"). rewrite before_ok by nodec. cbn [read]. apply N64. lia. }
  split.
  { rewrite Skip, F0 by discriminate. cbn [app].
    rewrite (lookup_step _ _ (zs "CRC") (zs "0x" ++ hex 8 (m_crc m))) by (first [reflexivity | discriminate]).
    rewrite (lookup_step _ _ (zs "extra header length") (dec (Z.of_nat (length (m_extra m))) ++ zs " bytes")) by (first [reflexivity | discriminate]).
    rewrite (lookup_step _ _ (zs "data payload length") (dec (m_datalen m) ++ zs " bytes")) by (first [reflexivity | discriminate]).
    apply (lookup_here _ _ (encodingstr (uwrap 8 (m_enc m)) ++ zs " (val: " ++ dec (m_enc m) ++ zs ")")). reflexivity. }
  split.
  { unfold read_encoding. destruct (encodingstr_text (uwrap 8 (m_enc m))) as (_ & _ & Ce). rewrite Ce.
    change (zs ")") with [41]. pose proof (cut_ok 41 [] (dec (m_enc m)) []) as Cf. cbn [app] in Cf. rewrite Cf by nodec.
    cbn [read]. rewrite N64 by lia. reflexivity. }
  rewrite Skip by discriminate. destruct (1 <? details) eqn:Dt.
  - apply flags_read. lia.
  - rewrite Z.ltb_ge in Dt. cbn [app].
    rewrite (lookup_step _ _ (zs "CRC") (zs "0x" ++ hex 8 (m_crc m))) by (first [reflexivity | discriminate]).
    rewrite (lookup_step _ _ (zs "extra header length") (dec (Z.of_nat (length (m_extra m))) ++ zs " bytes")) by (first [reflexivity | discriminate]).
    rewrite (lookup_step _ _ (zs "data payload length") (dec (m_datalen m) ++ zs " bytes")) by (first [reflexivity | discriminate]).
    rewrite (lookup_step _ _ (zs "payload encoding") (encodingstr (uwrap 8 (m_enc m)) ++ zs " (val: " ++ dec (m_enc m) ++ zs ")")) by (first [reflexivity | discriminate]).
    assert (D2 : details < 2) by lia. rewrite (Nx (or_introl D2)). reflexivity.
Qed.

(** the flags that are explained *)
Lemma land_bit : forall b k, 0 <= k -> (Z.land b (2 ^ k) =? 0) = negb (Z.testbit b k).
Proof.
  intros b k K. destruct (Z.testbit b k) eqn:T; cbn [negb].
  - apply Z.eqb_neq. intros E. apply (f_equal (fun x => Z.testbit x k)) in E.
    rewrite Z.land_spec, T, Z.pow2_bits_true, Z.bits_0 in E by exact K. discriminate.
  - apply Z.eqb_eq. apply Z.bits_inj. intros i. rewrite Z.land_spec, Z.bits_0.
    destruct (Z.eq_dec i k) as [->|N]; [rewrite T; reflexivity|]. rewrite Z.pow2_bits_false by lia. apply andb_false_r.
Qed.
Lemma flags_named : forall b, flat_map bit_named (flag_list b) = filter (Z.testbit b) [0; 1; 2; 3; 4; 5; 6; 7].
Proof.
  intros b. unfold flag_list. cbn [flat_map].
  assert (forall s, bit_named (zs "                  flags: [" ++ s) = []) as -> by (intros s; reflexivity).
  cbn [map concat fst snd app]. rewrite !flat_map_app.
  assert (forall k t n, 0 <= k -> bit_named (zs "                         " ++ t) = [n] ->
     flat_map bit_named (if Z.land b (2 ^ k) =? 0 then [] else [zs "                         " ++ t]) = if Z.testbit b k then [n] else []) as H.
  { intros k t n K E. rewrite land_bit by exact K. destruct (Z.testbit b k); cbn [negb flat_map]; [rewrite E|]; reflexivity. }
  change 1 with (2 ^ 0) at 1.
  rewrite (H 0 _ 0) by (first [lia | reflexivity]).
  change 2 with (2 ^ 1) at 1. rewrite (H 1 _ 1) by (first [lia | reflexivity]).
  change (Z.land b 4) with (Z.land b (2 ^ 2)). rewrite (H 2 _ 2) by (first [lia | reflexivity]).
  change (Z.land b 8) with (Z.land b (2 ^ 3)). rewrite (H 3 _ 3) by (first [lia | reflexivity]).
  change (Z.land b 16) with (Z.land b (2 ^ 4)). rewrite (H 4 _ 4) by (first [lia | reflexivity]).
  change (Z.land b 32) with (Z.land b (2 ^ 5)). rewrite (H 5 _ 5) by (first [lia | reflexivity]).
  change (Z.land b 64) with (Z.land b (2 ^ 6)). rewrite (H 6 _ 6) by (first [lia | reflexivity]).
  change (Z.land b 128) with (Z.land b (2 ^ 7)). rewrite (H 7 _ 7) by (first [lia | reflexivity]).
  cbn [filter flat_map]. 
  destruct (Z.testbit b 0), (Z.testbit b 1), (Z.testbit b 2), (Z.testbit b 3), (Z.testbit b 4), (Z.testbit b 5), (Z.testbit b 6), (Z.testbit b 7); reflexivity.
Qed.
Lemma explained : forall hz m details, header_fits m -> plain 20 (hz (sampratehz (m_rate m))) -> 0 < details ->
  details < 2 \/ m_extra m = [] ->
  exists out, msr_print hz m details = Ok out /\
    flat_map bit_named (tl (lines out)) = if 1 <? details then filter (Z.testbit (m_flags m)) [0; 1; 2; 3; 4; 5; 6; 7] else [].
Proof.
  intros hz m details Hf Hz D Nx. pose proof Hf as (_ & _ & _ & (T1 & T2)).
  destruct (md_roundtrip Wrap (m_start m) ISOMONTHDAY_DOY_Z NANO_MICRO T1 T2) as (time & Et & _).
  { cbn. tauto. }
  destruct (time_text _ _ Et) as (Lt & Ct).
  destruct (detail_out hz m details time Hf Hz D Et) as (extra & Ex & Eo). specialize (Ex Nx). subst extra.
  eexists. split; [exact Eo|]. rewrite lines_out by (apply detail_plain; assumption).
  unfold detail_list. rewrite lines_nil, app_nil_r. cbn [app tl flat_map].
  assert (forall s r, bit_named (zs "             start time: " ++ s) ++ r = r) as -> by (intros; reflexivity).
  assert (forall s r, bit_named (zs "      number of samples: " ++ s) ++ r = r) as -> by (intros; reflexivity).
  assert (forall s r, bit_named (zs "       sample rate (Hz): " ++ s) ++ r = r) as -> by (intros; reflexivity).
  rewrite flat_map_app. cbn [flat_map].
  assert (forall s r, bit_named (zs "                    CRC: 0x" ++ s) ++ r = r) as -> by (intros; reflexivity).
  assert (forall s r, bit_named (zs "    extra header length: " ++ s) ++ r = r) as -> by (intros; reflexivity).
  assert (forall s r, bit_named (zs "    data payload length: " ++ s) ++ r = r) as -> by (intros; reflexivity).
  assert (forall s r, bit_named (zs "       payload encoding: " ++ s) ++ r = r) as -> by (intros; reflexivity).
  rewrite app_nil_r. destruct (1 <? details); [apply flags_named|reflexivity].
Qed.

(** ** Samples *)

Definition cell (t : list Z) : list Z := t ++ zs "  ".

Lemma words_cells : forall ts, Forall (fun t => exists w, padded w t) ts -> words (concat (map cell ts)) = map flush ts.
Proof.
  induction ts as [|t ts IH]; intros F; [reflexivity|]. inversion F as [|? ? (w & _ & k & b & -> & N & B) F']; subst.
  cbn [map concat]. unfold cell at 1. rewrite <- !app_assoc. rewrite words_blanks.
  assert (forall x, zs "  " ++ x = 32 :: repeat 32 1 ++ x) as -> by reflexivity.
  rewrite words_cut; [| |exact N].
  - rewrite words_blanks, IH by exact F'. rewrite flush_blanks, flush_body by exact B. reflexivity.
  - apply (forall_not_in 32 (fun c => 32 < c /\ c <> 44)); [lia|exact B].
Qed.
Lemma cells_line : forall ts, Forall (fun t => exists w, padded w t) ts -> ~ In 10 (concat (map cell ts)).
Proof.
  induction ts as [|t ts IH]; intros F; [intros []|]. inversion F as [|? ? (w & _ & k & b & -> & N & B) F']; subst.
  cbn [map concat]. unfold cell at 1. repeat apply not_in_app.
  - intros I. apply repeat_spec in I. discriminate.
  - apply (forall_not_in 10 (fun c => 32 < c /\ c <> 44)); [lia|exact B].
  - lit.
  - apply IH. exact F'.
Qed.

Fixpoint row_list {A} (k : nat) (l : list A) : list (list A) :=
  match k with O => [] | S k => firstn 6 l :: row_list k (skipn 6 l) end.

Section Cells.
  Variables (mode : ovmode) (g8 g10 : sample -> list Z) (stype : Z) (s : samples) (ts : list (list Z)).
  Hypothesis each : forall i, (i < length ts)%nat -> show_sample mode g8 g10 stype s (Z.of_nat i) = Ok (cell (nth i ts [])).

  Lemma cols : forall col i, show_cols col mode g8 g10 stype s (Z.of_nat (length ts)) (Z.of_nat i)
    = Ok (concat (map cell (firstn col (skipn i ts))), Z.of_nat (Nat.max i (Nat.min (length ts) (i + col)))).
  Proof.
    induction col as [|col IH]; intros i; cbn [show_cols].
    - cbn [firstn map concat]. do 3 f_equal. lia.
    - destruct (Z.ltb_spec (Z.of_nat i) (Z.of_nat (length ts))) as [C|C].
      + rewrite each by lia. cbn [bind]. replace (Z.of_nat i + 1) with (Z.of_nat (S i)) by lia. rewrite IH. cbn [bind].
        destruct (skipn i ts) as [|t r] eqn:K.
        { pose proof (skipn_length i ts) as L. rewrite K in L. cbn in L. lia. }
        assert (skipn (S i) ts = r) as ->.
        { replace (S i) with (1 + i)%nat by lia. rewrite <- (Nat.add_comm i 1). 
          assert (forall (l : list (list Z)) a b, skipn (a + b) l = skipn b (skipn a l)) as Sk.
          { clear. intros l a. revert l. induction a as [|a IH]; intros l b; [reflexivity|]. destruct l; [cbn; rewrite skipn_nil; reflexivity|]. cbn. apply IH. }
          rewrite Sk, K. reflexivity. }
        assert (nth i ts [] = t) as ->.
        { rewrite <- (firstn_skipn i ts) at 1. rewrite app_nth2 by (rewrite firstn_length; lia). rewrite firstn_length.
          replace (i - Nat.min i (length ts))%nat with 0%nat by lia. rewrite K. reflexivity. }
        cbn [firstn map concat]. do 3 f_equal. lia.
      + rewrite IH. rewrite skipn_all2 by lia. rewrite !firstn_nil. do 3 f_equal. lia.
  Qed.

  Lemma rows : forall k i, exists out,
    show_lines k false mode g8 g10 stype s (Z.of_nat (length ts)) (Z.of_nat i) = Ok out /\
    out = concat (map line_out (map (fun row => concat (map cell row)) (row_list k (skipn i ts)))).
  Proof.
    induction k as [|k IH]; intros i; cbn [show_lines row_list]; [eexists; split; reflexivity|].
    rewrite cols. cbn [bind].
    set (i' := Nat.max i (Nat.min (length ts) (i + 6))).
    destruct (IH i') as (out & E & Eo). rewrite E. cbn [bind]. eexists. split; [reflexivity|].
    rewrite Eo. cbn [map concat]. f_equal. do 4 f_equal.
    assert (forall (l : list (list Z)) a b, skipn (a + b) l = skipn b (skipn a l)) as Sk.
    { clear. intros l a. revert l. induction a as [|a IH]; intros l b; [reflexivity|]. destruct l; [cbn; rewrite skipn_nil; reflexivity|]. cbn. apply IH. }
    rewrite <- Sk. unfold i'. destruct (Nat.le_gt_cases (i + 6) (length ts)) as [C|C].
    - f_equal. lia.
    - rewrite !skipn_all2 by lia. reflexivity.
  Qed.
  Lemma first_row : forall k, exists out,
    show_lines (S k) true mode g8 g10 stype s (Z.of_nat (length ts)) 0 = Ok out /\
    out = line_out (concat (map cell (firstn 6 ts))).
  Proof.
    intros k. cbn [show_lines]. change 0 with (Z.of_nat 0). rewrite (cols 6 0). cbn [bind]. eexists. split; reflexivity.
  Qed.
End Cells.

Lemma row_list_in : forall A k (l : list A) row x, In row (row_list k l) -> In x row -> In x l.
Proof.
  induction k as [|k IH]; intros l row x R X; [destruct R|]. cbn [row_list] in R. rewrite <- (firstn_skipn 6 l). apply in_or_app.
  destruct R as [<-|R]; [left; exact X|right; exact (IH _ _ _ R X)].
Qed.
Lemma row_list_map : forall A B (f : A -> B) k l, row_list k (map f l) = map (map f) (row_list k l).
Proof. induction k as [|k IH]; intros l; [reflexivity|]. cbn [row_list map]. rewrite firstn_map, skipn_map, IH. reflexivity. Qed.

Lemma grouped_more : forall A f f' (l : list A), (length l <= f)%nat -> (length l <= f')%nat -> grouped f 6 l = grouped f' 6 l.
Proof.
  induction f as [|f IH]; intros f' l L L'.
  - destruct l; [destruct f'; reflexivity | cbn in L; lia].
  - destruct l as [|x l]; [destruct f'; reflexivity|]. destruct f' as [|f']; [cbn in L'; lia|].
    cbn [grouped]. f_equal. apply IH; rewrite skipn_length; cbn [length] in *; lia.
Qed.
Lemma row_list_grouped : forall A k (l : list A), k = (length l / 6 + 1)%nat ->
  row_list k l = grouped (length l) 6 l ++ (if (length l mod 6 =? 0)%nat then [[]] else []).
Proof.
  intros A. induction k as [|k IH]; intros l E; [lia|]. cbn [row_list].
  destruct (Nat.lt_ge_cases (length l) 6) as [C|C].
  - rewrite Nat.div_small in E by exact C. assert (k = 0)%nat as -> by lia. cbn [row_list].
    rewrite firstn_all2 by lia. destruct l as [|x l]; [reflexivity|].
    rewrite Nat.mod_small by exact C. change (length (x :: l)) with (S (length l)). cbn [grouped Nat.eqb].
    rewrite firstn_all2 by lia. rewrite skipn_all2 by lia. destruct (length l); reflexivity.
  - destruct l as [|x l]; [cbn in C; lia|]. set (y := x :: l) in *. 
    assert (length (skipn 6 y) = length y - 6)%nat as Ls by apply skipn_length.
    assert (length y = length (skipn 6 y) + 1 * 6)%nat as Ly by lia.
    rewrite IH.
    2: { rewrite Ly in E. rewrite Nat.div_add in E by lia. lia. }
    assert (length y mod 6 = length (skipn 6 y) mod 6)%nat as -> by (rewrite Ly at 1; apply Nat.mod_add; lia).
    rewrite app_comm_cons. f_equal.
    assert (grouped (length y) 6 y = firstn 6 y :: grouped (length l) 6 (skipn 6 y)) as -> by reflexivity.
    f_equal. apply grouped_more; [lia|]. unfold y in *. cbn [length] in *. lia.
Qed.

Lemma all_rows : forall ts k, Forall (fun t => exists w, padded w t) ts ->
  map words (lines (concat (map line_out (map (fun row => concat (map cell row)) (row_list k ts))))) = map (map flush) (row_list k ts) /\
  ended (concat (map line_out (map (fun row => concat (map cell row)) (row_list k ts)))).
Proof.
  intros ts k F.
  assert (Fr : Forall (fun row => Forall (fun t => exists w, padded w t) row) (row_list k ts)).
  { apply Forall_forall. intros row R. apply Forall_forall. intros t T. apply (proj1 (Forall_forall _ _) F). exact (row_list_in _ _ _ _ _ R T). }
  assert (Fn : Forall (fun t => ~ In 10 t) (map (fun row => concat (map cell row)) (row_list k ts))).
  { apply Forall_forall. intros t T. apply in_map_iff in T as (row & <- & R). apply cells_line. exact (proj1 (Forall_forall _ _) Fr row R). }
  split.
  - pose proof (lines_out _ [] Fn) as L. rewrite app_nil_r, lines_nil, app_nil_r in L. rewrite L, map_map.
    apply map_ext_in. intros row R. apply words_cells. exact (proj1 (Forall_forall _ _) Fr row R).
  - clear - Fn. induction Fn as [|t l H _ IH]; [reflexivity|]. cbn [map concat]. unfold line_out at 1. rewrite <- app_assoc. cbn [app].
    apply ended_cut; assumption.
Qed.

(** All samples (-D) and the first six (-d), whose texts are [ts]. *)
Lemma shown_all : forall mode g8 g10 stype unpacked s ts, 0 < unpacked -> stype <> 116 ->
  samples_len s = Z.of_nat (length ts) -> Z.of_nat (length ts) < 2 ^ 31 ->
  (forall i, (i < length ts)%nat -> show_sample mode g8 g10 stype s (Z.of_nat i) = Ok (cell (nth i ts []))) ->
  Forall (fun t => exists w, padded w t) ts ->
  (exists out, show_samples mode g8 g10 false stype unpacked s = Ok out /\ ended out /\
     map words (lines out) = map (map flush) (grouped (length ts) 6 ts) ++ (if (length ts mod 6 =? 0)%nat then [[]] else [])) /\
  (exists out, show_samples mode g8 g10 true stype unpacked s = Ok out /\ ended out /\ map words (lines out) = [map flush (firstn 6 ts)]).
Proof.
  intros mode g8 g10 stype unpacked s ts U T L B Each F.
  assert (Q : forall first, show_samples mode g8 g10 first stype unpacked s =
     show_lines (length ts / 6 + 1) first mode g8 g10 stype s (Z.of_nat (length ts)) 0).
  { intros first. unfold show_samples. destruct (Z.leb_spec unpacked 0); [lia|]. destruct (Z.eqb_spec stype 116); [contradiction|].
    rewrite L. f_equal. change (2 ^ 31) with 2147483648 in B.
    rewrite Z.quot_div_nonneg by lia.
    assert (swrap 32 (Z.of_nat (length ts) / 6 + 1) = Z.of_nat (length ts) / 6 + 1) as ->.
    { unfold swrap. change (2 ^ 32) with 4294967296. change (2 ^ (32 - 1)) with 2147483648.
      rewrite Z.mod_small by lia. destruct (Z.ltb_spec (Z.of_nat (length ts) / 6 + 1) 2147483648); lia. }
    rewrite Z2Nat.inj_add by lia. f_equal. rewrite <- (Nat2Z.id (length ts / 6)). f_equal. rewrite Nat2Z.inj_div. reflexivity. }
  split.
  - destruct (rows mode g8 g10 stype s ts Each (length ts / 6 + 1) 0) as (out & E & Eo). cbn [skipn] in Eo.
    exists out. rewrite Q. split; [exact E|]. rewrite Eo. destruct (all_rows ts (length ts / 6 + 1) F) as (W & En). split; [exact En|].
    rewrite W, (row_list_grouped _ _ ts eq_refl), map_app. f_equal. destruct (_ =? 0)%nat; reflexivity.
  - rewrite Nat.add_comm in Q. cbn [Nat.add] in Q.
    destruct (first_row mode g8 g10 stype s ts Each (length ts / 6)) as (out & E & Eo).
    exists out. rewrite Q. split; [exact E|]. rewrite Eo. unfold line_out.
    assert (F6 : Forall (fun t => exists w, padded w t) (firstn 6 ts)) by (apply forall_firstn; exact F).
    pose proof (cells_line _ F6) as N.
    rewrite lines_cut by exact N. split; [apply ended_cut; [exact N|reflexivity]|].
    cbn [map]. rewrite words_cells by exact F6. reflexivity.
Qed.

Lemma padded_decs : forall v, in_s 32 v -> padded 12 (decs 10 v) /\ flush (decs 10 v) = dec v.
Proof.
  intros v H. pose proof (dec_int v H) as L. unfold decs.
  assert (Forall (fun c => 32 < c /\ c <> 44) (dec v)) as F by (eapply Forall_impl; [|apply dec_decimal]; intros c [->|]; lia).
  split.
  - split; [rewrite app_length, repeat_length; lia|]. exists (10 - length (dec v))%nat, (dec v).
    split; [reflexivity|]. split; [apply dec_nonempty|exact F].
  - rewrite flush_blanks. apply flush_body. exact F.
Qed.

Lemma nth_error_getZ : forall A (l : list A) i x, nth_error l i = Some x -> getZ (Z.of_nat i) l = Ok x.
Proof. intros A l i x E. unfold getZ. destruct (Z.leb_spec 0 (Z.of_nat i)); [|lia]. rewrite Nat2Z.id, E. reflexivity. Qed.
Lemma say_cell : forall t, (length t <= 197)%nat -> say (t ++ zs "  ") = cell t.
Proof. intros t H. unfold cell. apply say_ok. rewrite app_length. change (length (zs "  ")) with 2%nat. lia. Qed.
Lemma offset_ok : forall mode i n w, (i < n)%nat -> 0 <= w <= 8 -> Z.of_nat n * 8 < 2 ^ 31 -> exists v, sarith mode 32 (Z.of_nat i * w) = Ok v.
Proof.
  intros mode i n w I W N. eexists. rewrite sarith_ok; [reflexivity|]. unfold in_s. change (2 ^ (32 - 1)) with 2147483648. change (2 ^ 31) with 2147483648 in N. nia.
Qed.

Lemma integers : forall mode g8 g10 unpacked l, 0 < unpacked -> Forall (in_s 32) l -> Z.of_nat (length l) * 8 < 2 ^ 31 ->
  (exists out, show_samples mode g8 g10 false 105 unpacked (SInt l) = Ok out /\ ended out /\
     map (fun t => map number (words t)) (lines out) = map (map Some) (grouped (length l) 6 l) ++ (if (length l mod 6 =? 0)%nat then [[]] else [])) /\
  (exists out, show_samples mode g8 g10 true 105 unpacked (SInt l) = Ok out /\ ended out /\
     map (fun t => map number (words t)) (lines out) = [map Some (firstn 6 l)]).
Proof.
  intros mode g8 g10 unpacked l U F N.
  destruct (shown_all mode g8 g10 105 unpacked (SInt l) (map (decs 10) l)) as ((o1 & E1 & N1 & W1) & (o2 & E2 & N2 & W2)).
  - exact U.
  - discriminate.
  - cbn. rewrite map_length. reflexivity.
  - rewrite map_length. lia.
  - intros i I. rewrite map_length in I. unfold show_sample.
    destruct (offset_ok mode i (length l) (samplesize 105) I) as (v & ->); [cbn; lia|exact N|]. cbn [bind Z.eqb Pos.eqb].
    destruct (nth_error l i) as [x|] eqn:X; [|apply nth_error_None in X; lia].
    unfold sample_at. rewrite (nth_error_getZ _ _ _ _ X). cbn [bind].
    assert (in_s 32 x) as Sx by (apply (proj1 (Forall_forall _ _) F); apply (nth_error_In _ i); exact X).
    rewrite say_cell by (destruct (padded_decs x Sx) as ((? & _) & _); lia). f_equal. f_equal.
    symmetry. apply (nth_error_nth (map (decs 10) l) i). rewrite nth_error_map, X. reflexivity.
  - apply Forall_forall. intros t T. apply in_map_iff in T as (x & <- & X). exists 12%nat. apply padded_decs. exact (proj1 (Forall_forall _ _) F x X).
  - rewrite map_length in W1.
    assert (R : forall r, (forall x, In x r -> In x l) -> map number (map flush (map (decs 10) r)) = map Some r).
    { intros r Hr. rewrite !map_map. apply map_ext_in. intros x X.
      assert (in_s 32 x) as Sx by (apply (proj1 (Forall_forall _ _) F); exact (Hr x X)).
      destruct (padded_decs x Sx) as (_ & ->). apply number_dec. unfold in_s in *. change (2 ^ (64 - 1)) with 9223372036854775808. change (2 ^ (32 - 1)) with 2147483648 in Sx. lia. }
    split.
    + exists o1. split; [exact E1|]. split; [exact N1|].
      rewrite <- (map_map words (map number)), W1, map_app. f_equal; [|destruct (_ =? 0)%nat; reflexivity].
      assert (G : forall f k, grouped f k (map (decs 10) l) = map (map (decs 10)) (grouped f k l)).
      { clear. intros f k. revert l. induction f as [|f IH]; intros l; [reflexivity|]. destruct l as [|x l]; [reflexivity|].
        cbn [grouped map]. rewrite <- IH. change (decs 10 x :: map (decs 10) l) with (map (decs 10) (x :: l)).
        rewrite firstn_map, skipn_map. reflexivity. }
      rewrite G, !map_map. apply map_ext_in. intros r Hr. apply R. intros x X.
      clear - Hr X. revert Hr. generalize (length l) as f. intros f. revert l. induction f as [|f IH]; intros l Hr; [destruct Hr|].
      destruct l as [|y l]; [destruct Hr|]. cbn [grouped] in Hr. rewrite <- (firstn_skipn 6 (y :: l)). apply in_or_app.
      destruct Hr as [<-|Hr]; [left; exact X|right; exact (IH _ Hr)].
    + exists o2. split; [exact E2|]. split; [exact N2|].
      rewrite <- (map_map words (map number)), W2. cbn [map]. rewrite firstn_map. f_equal. apply R.
      intros x X. rewrite <- (firstn_skipn 6 l). apply in_or_app. left; exact X.
Qed.

(** Floating point samples: the texts [g8] or [g10] give. *)
Lemma sample_list_at : forall s i x, nth_error (sample_list s) i = Some x -> sample_at s (Z.of_nat i) = Ok x.
Proof.
  intros s i x E. destruct s as [l|l]; cbn [sample_list sample_at] in *; rewrite nth_error_map in E;
    (destruct (nth_error l i) as [y|] eqn:Y; [|discriminate]); rewrite (nth_error_getZ _ _ _ _ Y); cbn [bind option_map] in *; injection E as <-; reflexivity.
Qed.
Lemma sample_list_length : forall s, samples_len s = Z.of_nat (length (sample_list s)).
Proof. intros [l|l]; cbn; rewrite map_length; reflexivity. Qed.

Lemma floats : forall mode g8 g10 unpacked stype s, 0 < unpacked -> stype = 102 \/ stype = 100 -> samples_len s * 8 < 2 ^ 31 ->
  let g := if stype =? 102 then g8 else g10 in
  Forall (fun v => padded 100 (g v)) (sample_list s) ->
  (exists out, show_samples mode g8 g10 false stype unpacked s = Ok out /\ ended out /\
     map words (lines out) = map (map (fun v => flush (g v))) (grouped (length (sample_list s)) 6 (sample_list s))
                             ++ (if (length (sample_list s) mod 6 =? 0)%nat then [[]] else [])) /\
  (exists out, show_samples mode g8 g10 true stype unpacked s = Ok out /\ ended out /\
     map words (lines out) = [map (fun v => flush (g v)) (firstn 6 (sample_list s))]).
Proof.
  intros mode g8 g10 unpacked stype s U T N g F. rewrite sample_list_length in N.
  destruct (shown_all mode g8 g10 stype unpacked s (map g (sample_list s))) as ((o1 & E1 & N1 & W1) & (o2 & E2 & N2 & W2)).
  - exact U.
  - destruct T; lia.
  - rewrite map_length. apply sample_list_length.
  - rewrite map_length. lia.
  - intros i I. rewrite map_length in I. unfold show_sample.
    destruct (offset_ok mode i (length (sample_list s)) (samplesize stype) I) as (v & ->); [destruct T as [-> | ->]; cbn; lia|exact N|]. cbn [bind].
    destruct (nth_error (sample_list s) i) as [x|] eqn:X; [|apply nth_error_None in X; lia].
    assert (P : padded 100 (g x)) by (apply (proj1 (Forall_forall _ _) F); apply (nth_error_In _ i); exact X).
    assert (nth i (map g (sample_list s)) [] = g x) as -> by (apply nth_error_nth; rewrite nth_error_map, X; reflexivity).
    destruct T as [-> | ->]; cbn [Z.eqb Pos.eqb]; rewrite (sample_list_at _ _ _ X); cbn [bind]; unfold g in *; cbn [Z.eqb Pos.eqb] in *;
      rewrite say_cell by (destruct P; lia); reflexivity.
  - apply Forall_forall. intros t Ht. apply in_map_iff in Ht as (x & <- & X). exists 100%nat. exact (proj1 (Forall_forall _ _) F x X).
  - rewrite map_length in W1. split.
    + exists o1. split; [exact E1|]. split; [exact N1|]. rewrite W1. f_equal.
      assert (G : forall f k l, grouped f k (map g l) = map (map g) (grouped f k l)).
      { clear. intros f k. induction f as [|f IH]; intros l; [reflexivity|]. destruct l as [|x l]; [reflexivity|].
        cbn [grouped map]. rewrite <- IH. change (g x :: map g l) with (map g (x :: l)).
        rewrite firstn_map, skipn_map. reflexivity. }
      rewrite G, map_map. apply map_ext. intros r. apply map_map.
    + exists o2. split; [exact E2|]. split; [exact N2|]. rewrite W2, firstn_map, map_map. reflexivity.
Qed.

(** ** Text *)

Lemma text_upto_plain : forall n l, (n <= length l)%nat -> ~ In 0 l -> text_upto n l = Ok (firstn n l).
Proof.
  induction n as [|n IH]; intros l L N; [reflexivity|]. destruct l as [|c l]; [cbn in L; lia|]. cbn [text_upto firstn].
  destruct (Z.eqb_spec c 0) as [->|C]; [elim N; left; reflexivity|].
  rewrite IH; [reflexivity | cbn in L; lia | intro I; apply N; right; exact I].
Qed.
Lemma text_shown : forall fuel l, (length l < fuel)%nat -> l <> [] -> ~ In 0 l ->
  show_text fuel l (Z.of_nat (length l)) = Ok (if Z.of_nat (length l) mod 199 =? 0 then l else l ++ [10]).
Proof.
  induction fuel as [|fuel IH]; intros l L E N; [lia|]. cbn [show_text].
  destruct (Z.ltb_spec 199 (Z.of_nat (length l))) as [C|C].
  - rewrite text_upto_plain by (first [lia | exact N]). cbn [bind].
    assert (Z.of_nat (length l) - 199 = Z.of_nat (length (skipn 199 l))) as -> by (rewrite skipn_length; lia).
    rewrite IH.
    + cbn [bind]. rewrite say_ok by (rewrite firstn_length; lia). f_equal.
      assert (Z.of_nat (length (skipn 199 l)) mod 199 = Z.of_nat (length l) mod 199) as ->.
      { rewrite skipn_length. replace (Z.of_nat (length l - 199)) with (Z.of_nat (length l) + (-1) * 199) by lia. apply Z.mod_add. lia. }
      destruct (Z.of_nat (length l) mod 199 =? 0); [|rewrite app_assoc]; rewrite firstn_skipn; reflexivity.
    + rewrite skipn_length. lia.
    + intros X. apply (f_equal (@length Z)) in X. rewrite skipn_length in X. cbn [length] in X. lia.
    + intros I. apply N. rewrite <- (firstn_skipn 199 l). apply in_or_app. right; exact I.
  - destruct (Z.ltb_spec 0 (Z.of_nat (length l))) as [D|D].
    2: { destruct l; [elim E; reflexivity | cbn in D; lia]. }
    rewrite Nat2Z.id, text_upto_plain by (first [lia | exact N]). cbn [bind]. rewrite firstn_all. f_equal.
    destruct (Z.eqb_spec (Z.of_nat (length l) mod 199) 0) as [M|M].
    + assert (length l = 199)%nat as L1.
      { destruct (Z.eq_dec (Z.of_nat (length l)) 199) as [Q|Q]; [lia|]. rewrite Z.mod_small in M by lia. lia. }
      unfold say. rewrite firstn_app, L1, Nat.sub_diag, firstn_all2 by lia. cbn. apply app_nil_r.
    + apply say_ok. rewrite app_length. change (length [10]) with 1%nat.
      destruct (Z.eq_dec (Z.of_nat (length l)) 199) as [Q|Q]; [rewrite Q in M; elim M; reflexivity|lia].
Qed.
Lemma texts : forall mode g8 g10 first unpacked l, 0 < unpacked -> l <> [] -> ~ In 0 l -> Z.of_nat (length l) < 2 ^ 31 ->
  show_samples mode g8 g10 first 116 unpacked (SInt l)
  = Ok (zs "Text Data:" ++ [10] ++ l ++ (if Z.of_nat (length l) mod 199 =? 0 then [] else [10])).
Proof.
  intros mode g8 g10 first unpacked l U E N B. unfold show_samples. destruct (Z.leb_spec unpacked 0); [lia|].
  cbn [Z.eqb Pos.eqb samples_len]. change (2 ^ 31) with 2147483648 in B.
  assert (swrap 32 (Z.of_nat (length l)) = Z.of_nat (length l)) as ->.
  { unfold swrap. change (2 ^ 32) with 4294967296. change (2 ^ (32 - 1)) with 2147483648.
    rewrite Z.mod_small by lia. destruct (Z.ltb_spec (Z.of_nat (length l)) 2147483648); lia. }
  rewrite Nat2Z.id, text_shown by (first [lia | assumption]). cbn [bind]. f_equal.
  destruct (_ =? 0); [rewrite app_nil_r|]; reflexivity.
Qed.

(** ** One record *)
Lemma encodings_named : Forall (fun p => forall w, In w (snd p) -> mentions (encodingstr (fst p)) w) encoding_words /\
  forall e, ~ In e [0; 1; 2; 3; 4; 5; 10; 11; 12; 13; 14; 15; 16; 17; 18; 19; 30; 31; 32; 33] -> encodingstr e = zs "Unknown".
Proof.
  split.
  - unfold encoding_words. repeat (apply Forall_cons; [intros w W; cbn in W; unfold mentions;
      repeat (destruct W as [<-|W]; [vm_compute; discriminate|]); destruct W|]). apply Forall_nil.
  - intros e N. unfold encodingstr.
    repeat match goal with |- context [if ?c then _ else _] =>
      destruct c eqn:?Q; [exfalso; apply N; apply Z.eqb_eq in Q; rewrite Q; cbn; tauto|clear Q] end. reflexivity.
Qed.

Lemma record_shown : forall mode hz g8 g10 offset details stype m s printdata h d, 0 <= offset < 10 ^ 9 ->
  msr_print hz m details = Ok h -> show_samples mode g8 g10 (printdata =? 1) stype (samples_len s) s = Ok d -> printdata <> 0 ->
  show_record mode hz g8 g10 None None details printdata stype m (Ok s) = Ok (h ++ d) /\
  show_record mode hz g8 g10 None None details printdata stype m (Err MS_GENERROR) = Ok h /\
  show_record mode hz g8 g10 None None details 0 stype m (Ok s) = Ok h /\
  exists o out, show_record mode hz g8 g10 (Some offset) None details printdata stype m (Ok s) = Ok out /\ out = o ++ h ++ d /\
    option_map (fun p => number (fst p)) (cut (zs " ") out) = Some (Some offset) /\ words o = [dec offset] /\ length o = 10%nat.
Proof.
  intros mode hz g8 g10 offset details stype m s printdata h d O H D P.
  unfold show_record. rewrite H. cbn [bind]. destruct (Z.eqb_spec printdata 0) as [Q|_]; [contradiction|]. rewrite D. cbn [bind].
  split; [reflexivity|]. split; [rewrite app_nil_r; reflexivity|]. split; [cbn; rewrite app_nil_r; reflexivity|].
  eexists _, _. split; [reflexivity|]. split; [reflexivity|].
  assert (length (dec offset) <= 9)%nat as L.
  { destruct (dec_length offset 9) as (k & K & E & _); [exact O|lia|]. rewrite E, pad_length. lia. }
  assert (say (decl 10 offset) = dec offset ++ 32 :: repeat 32 (9 - length (dec offset))) as ->.
  { rewrite say_ok by (unfold decl; rewrite app_length, repeat_length; lia).
    unfold decl. replace (10 - length (dec offset))%nat with (S (9 - length (dec offset))) by lia. reflexivity. }
  split; [|split].
  - rewrite <- app_assoc. change (zs " ") with [32].
    change (dec offset ++ (32 :: repeat 32 (9 - length (dec offset))) ++ h ++ d) with (dec offset ++ [32] ++ (repeat 32 (9 - length (dec offset)) ++ h ++ d)).
    rewrite cut_ok by nodec. cbn [option_map fst]. f_equal. apply number_dec. unfold in_s. change (2 ^ (64 - 1)) with 9223372036854775808. change (10 ^ 9) with 1000000000 in O. lia.
  - rewrite words_cut by (first [nodec | apply dec_nonempty]). rewrite <- (app_nil_r (repeat 32 _)), words_blanks. reflexivity.
  - rewrite app_length. cbn [length]. rewrite repeat_length. lia.
Qed.
