(** * Proofs about the raw record dumps. *)

From Verif Require Import Base BaseLemmas StrModel StrSpec StrProof RecModel RecSpec RecProof V2Model V2Spec V2Proof
  RawModel RawSpec.
Open Scope Z_scope.

(** ** Reads *)

Lemma ld_num hb sw w : ld hb sw w = num (xorb hb sw) w.
Proof. unfold ld, host_val, gswap_if, gswap, num, be_val. destruct hb, sw; cbn [xorb]; rewrite ?rev_involutive; reflexivity. Qed.

Lemma rd_num hb sw (n : Z) off rec : 0 <= off -> 0 <= n -> off + n <= lenZ rec ->
  rd hb sw n off rec = Ok (bytes_at (xorb hb sw) rec off (Z.to_nat n)).
Proof. intros. unfold rd. rewrite sliceZ_ok by lia. cbn [bind]. now rewrite ld_num. Qed.

Lemma nth_byte big rec off : 0 <= off < lenZ rec -> bytes_at big rec off 1 = nth (Z.to_nat off) rec 0.
Proof.
  intros H. unfold bytes_at. unfold lenZ in H.
  assert (E : firstn 1 (skipn (Z.to_nat off) rec) = [nth (Z.to_nat off) rec 0]).
  { assert (L : (Z.to_nat off < length rec)%nat) by lia. revert L. generalize (Z.to_nat off) as k. clear H.
    intros k. revert rec. induction k as [|k IH]; intros [|x r] L; cbn in *; try lia; [reflexivity|].
    apply IH. lia. }
  rewrite E. unfold num, be_val. cbn. destruct big; lia.
Qed.

Lemma get_num big rec off : 0 <= off < lenZ rec -> getZ off rec = Ok (bytes_at big rec off 1).
Proof. intros H. rewrite nth_byte by exact H. apply getZ_nth. exact H. Qed.

Lemma upto_shown n l : (n <= length l)%nat -> text_upto n l = Ok (shown (firstn n l)).
Proof.
  revert l. induction n as [|n IH]; intros [|c l] H; cbn in *; try lia; try reflexivity.
  destruct (c =? 0); [reflexivity|]. rewrite IH by lia. reflexivity.
Qed.

Lemma prec_shown p off rec : 0 <= p -> 0 <= off -> off + p <= lenZ rec ->
  text_prec p off rec = Ok (shown (firstn (Z.to_nat p) (skipn (Z.to_nat off) rec))).
Proof.
  intros. unfold text_prec. replace (p <? 0) with false by lia. apply upto_shown. rewrite skipn_length. unfold lenZ in *. lia.
Qed.

Lemma skip_skip {A} a b (l : list A) : skipn a (skipn b l) = skipn (b + a) l.
Proof. rewrite skipn_skipn. f_equal. lia. Qed.

Lemma skip_at {A} off k (l : list A) : 0 <= off -> skipn k (skipn (Z.to_nat off) l) = skipn (Z.to_nat (off + Z.of_nat k)) l.
Proof. intros. rewrite skip_skip. f_equal. lia. Qed.

(** ** Layouts *)

(** The fields of the manual at consecutive positions. *)
Fixpoint flat (pos : Z) (fs : list sfield) : list fld :=
  match fs with
  | [] => []
  | SUns level n :: r => mk_fld Uns level (Z.of_nat n) pos :: flat (pos + Z.of_nat n) r
  | SSgn n :: r => mk_fld Sgn 1 (Z.of_nat n) pos :: flat (pos + Z.of_nat n) r
  | STxt n :: r => mk_fld Txt 1 (Z.of_nat n) pos :: flat (pos + Z.of_nat n) r
  | STime :: r => tm pos ++ flat (pos + 10) r
  end.
Definition width (f : sfield) : Z :=
  match f with SUns _ n => Z.of_nat n | SSgn n => Z.of_nat n | STxt n => Z.of_nat n | STime => 10 end.
Definition total (fs : list sfield) : Z := fold_right (fun f n => width f + n) 0 fs.

Lemma total_nonneg fs : 0 <= total fs.
Proof. induction fs as [|f r IH]; cbn; [lia|]. fold (total r). destruct f; cbn [width]; lia. Qed.

Lemma show_uns hb sw rec o l n p : 0 <= o + p -> 0 <= n -> o + p + n <= lenZ rec ->
  show hb sw rec o (mk_fld Uns l n p) = Ok (INum (bytes_at (xorb hb sw) rec (o + p) (Z.to_nat n))).
Proof. intros. unfold show. cbn [f_kind f_n f_rel]. rewrite rd_num by lia. reflexivity. Qed.

Lemma show_flat hb sw rec o details fs : 0 <= o -> forall pos, 0 <= pos -> o + pos + total fs <= lenZ rec ->
  show_all hb sw rec o details (flat pos fs) = Ok (seed_items (xorb hb sw) details fs (skipn (Z.to_nat (o + pos)) rec)).
Proof.
  intros Ho. induction fs as [|f r IH]; intros pos Hp L; [reflexivity|].
  cbn [total fold_right] in L. fold (total r) in L. pose proof (total_nonneg r).
  destruct f as [level n|n|n|]; cbn [width] in L; cbn [flat seed_items].
  - cbn [show_all f_min]. rewrite skip_at by lia. rewrite <- Z.add_assoc.
    destruct (Z.ltb_spec details level); destruct (Z.leb_spec level details); try lia; [apply IH; lia|].
    rewrite show_uns by lia. cbn [bind]. rewrite IH by lia. cbn [bind]. rewrite Nat2Z.id. reflexivity.
  - cbn [show_all f_min]. rewrite skip_at by lia. rewrite <- Z.add_assoc.
    destruct (Z.ltb_spec details 1); destruct (Z.leb_spec 1 details); try lia; [apply IH; lia|].
    unfold show. cbn [f_kind f_n f_rel]. rewrite rd_num by lia. cbn [bind]. rewrite IH by lia. cbn [bind]. rewrite Nat2Z.id. reflexivity.
  - cbn [show_all f_min]. rewrite skip_at by lia. rewrite <- Z.add_assoc.
    destruct (Z.ltb_spec details 1); destruct (Z.leb_spec 1 details); try lia; [apply IH; lia|].
    unfold show. cbn [f_kind f_n f_rel]. rewrite prec_shown by lia. cbn [bind]. rewrite IH by lia. cbn [bind]. rewrite Nat2Z.id. reflexivity.
  - unfold tm, un. cbn [app show_all f_min].
    change (skipn 10 (skipn (Z.to_nat (o + pos)) rec)) with (skipn (Z.to_nat 10) (skipn (Z.to_nat (o + pos)) rec)).
    rewrite skip_at by lia. replace (o + pos + Z.of_nat (Z.to_nat 10)) with (o + (pos + 10)) by lia.
    destruct (Z.ltb_spec details 1); destruct (Z.leb_spec 1 details); try lia; [apply IH; lia|].
    rewrite !show_uns by lia. cbn [bind]. rewrite IH by lia. cbn [bind values map app].
    unfold bytes_at. rewrite !skip_skip.
    repeat match goal with |- context [Z.to_nat (o + (pos + ?k))] =>
      replace (Z.to_nat (o + (pos + k))) with (Z.to_nat (o + pos) + Z.to_nat k)%nat by lia end.
    rewrite <- !Nat.add_assoc. reflexivity.
Qed.

(** The types. *)
Definition known_types : list Z := [100; 200; 201; 300; 310; 320; 390; 395; 400; 405; 500; 1000; 1001; 2000].

Lemma other_type type : ~ In type known_types ->
  recognized type = false /\ blkt_fields type = [] /\ seed_blockette type = [] /\ blockette_size type = None
  /\ (forall big rec off, assumed big rec type off = 0) /\ (forall big rec off, needed big rec type off = 4).
Proof.
  intros H.
  assert (R : recognized type = false).
  { unfold recognized. fold known_types. destruct (existsb (Z.eqb type) known_types) eqn:E; [|reflexivity].
    apply existsb_exists in E as (x & Hx & E). apply Z.eqb_eq in E. subst x. contradiction. }
  split; [exact R|].
  assert (F : forall x, In x known_types -> (type =? x) = false).
  { intros x Hx. apply Z.eqb_neq. intros ->. contradiction. }
  split.
  { unfold blkt_fields. rewrite !F by (cbn; tauto). reflexivity. }
  assert (B : blockette_size type = None /\ seed_blockette type = [] /\ (forall big rec off, assumed big rec type off = 0)
              /\ (forall big rec off, needed big rec type off = 4)).
  { clear R F. unfold known_types in H.
    destruct type as [|p|p]; [repeat split| |repeat split].
    do 11 (destruct p as [p|p|]; try (repeat split; fail); try (exfalso; apply H; cbn; tauto)). }
  tauto.
Qed.

Lemma type_cases type : In type known_types \/ ~ In type known_types.
Proof. destruct (in_dec Z.eq_dec type known_types); tauto. Qed.

Lemma fields_flat type : blkt_fields type = flat 4 (seed_blockette type).
Proof.
  destruct (type_cases type) as [H|H].
  - unfold known_types in H. cbn [In] in H. repeat (destruct H as [<-|H]; [reflexivity|]). destruct H.
  - destruct (other_type type H) as (_ & -> & -> & _). reflexivity.
Qed.

Lemma fields_total big rec type off : 4 + total (seed_blockette type) <= needed big rec type off.
Proof.
  destruct (type_cases type) as [H|H].
  - unfold known_types in H. cbn [In] in H.
    repeat (destruct H as [<-|H]; [cbn -[Z.max bytes_at]; lia|]). destruct H.
  - destruct (other_type type H) as (_ & _ & -> & _ & _ & ->). cbn. lia.
Qed.

Lemma needed_4 big rec type off : 4 <= needed big rec type off.
Proof. pose proof (fields_total big rec type off). pose proof (total_nonneg (seed_blockette type)). lia. Qed.

Lemma blktlen_assumed hb sw rec type off : 0 <= off -> off + (if type =? 2000 then 6 else 4) <= lenZ rec ->
  blktlen hb sw type off rec = Ok (assumed (xorb hb sw) rec type off).
Proof.
  intros Ho L. destruct (type_cases type) as [H|H].
  - unfold known_types in H. cbn [In] in H.
    repeat (destruct H as [<-|H]; [try reflexivity; cbn in L; unfold blktlen; cbn [Z.eqb Pos.eqb]; rewrite rd_num by lia; reflexivity|]).
    destruct H.
  - destruct (other_type type H) as (_ & _ & _ & _ & A & _). rewrite A.
    assert (F : forall x, In x known_types -> (type =? x) = false).
    { intros x Hx. apply Z.eqb_neq. intros ->. contradiction. }
    unfold blktlen. rewrite !F by (cbn; tauto). reflexivity.
Qed.

(** ** Counting *)

Lemma broken_cons b l : broken (b :: l) = err (negb b) + broken l.
Proof. unfold broken, err, lenZ. cbn [filter]. destruct (negb b); cbn [length]; lia. Qed.

Lemma broken_nil : broken [] = 0.
Proof. reflexivity. Qed.

Lemma err_ext a b : a = b -> err a = err b.
Proof. now intros ->. Qed.

Lemma nth_bytes_ok rec k : bytes_ok rec -> 0 <= nth k rec 0 < 256.
Proof.
  intros B. destruct (nth_in_or_default k rec 0) as [H | ->]; [|lia]. exact (proj1 (Forall_forall _ _) B _ H).
Qed.

(** ** One blockette *)

Definition len_after (rec : list Z) (n : Z) (b : Z * Z) : Z :=
  if snd b =? 1000 then swrap 32 (2 ^ nth (Z.to_nat (fst b + 6)) rec 0) else n.

Lemma raw_blkt_ok hb sw rec limit type off details len :
  bytes_ok rec -> limit <= lenZ rec -> 0 <= off -> printable (xorb hb sw) rec limit type off ->
  raw_blkt hb sw rec type off details len =
  Ok (broken (tl (blockette_rules (xorb hb sw) rec (off, type))), len_after rec len (off, type),
      seed_items (xorb hb sw) details (seed_blockette type) (skipn (Z.to_nat (off + 4)) rec)
      ++ (if (type =? 2000) && (2 <=? details)
          then [IText (firstn 169 (shown (firstn (Z.to_nat (bytes_at (xorb hb sw) rec (off + 6) 2 - 15)) (skipn (Z.to_nat (off + 15)) rec))))]
          else [])).
Proof.
  intros B L Ho (P1 & P2 & P3). unfold raw_blkt, len_after. cbn [fst snd].
  pose proof (fields_total (xorb hb sw) rec type off) as F.
  rewrite fields_flat.
  assert (E : (if type =? 1000 then raw1000 rec off
               else if type =? 2000 then let! _ := getZ (off + 12) rec in Ok (0, len)
               else Ok (err (negb (recognized type)), len))
              = Ok (broken (tl (blockette_rules (xorb hb sw) rec (off, type))), if type =? 1000 then swrap 32 (2 ^ nth (Z.to_nat (off + 6)) rec 0) else len)).
  { cbn [blockette_rules tl]. rewrite !broken_cons, broken_nil.
    destruct (Z.eqb_spec type 1000) as [->|N1].
    - cbn [needed] in P1. cbn in P1. specialize (P2 eq_refl). unfold raw1000.
      rewrite !(get_num false) by lia. cbn [bind]. rewrite !nth_byte by lia.
      pose proof (nth_bytes_ok rec (Z.to_nat (off + 4)) B). pose proof (nth_bytes_ok rec (Z.to_nat (off + 5)) B).
      pose proof (nth_bytes_ok rec (Z.to_nat (off + 6)) B).
      replace (32 <=? nth (Z.to_nat (off + 6)) rec 0) with false by lia.
      f_equal. f_equal.
      + cbn [blockette_size negb]. unfold within. cbn [negb orb].
        set (x := nth (Z.to_nat (off + 4)) rec 0) in *. set (y := nth (Z.to_nat (off + 5)) rec 0) in *. clearbody x y.
        unfold err. repeat match goal with |- context [?a <=? ?b] => destruct (Z.leb_spec a b) end;
        repeat match goal with |- context [?a =? ?b] => destruct (Z.eqb_spec a b) end; cbn; try reflexivity; lia.
      + set (e := nth (Z.to_nat (off + 6)) rec 0) in *. clearbody e. rewrite Z.shiftl_1_l. f_equal.
        unfold uwrap. apply Z.mod_small. split; [apply Z.pow_nonneg; lia|apply Z.pow_lt_mono_r; lia].
    - destruct (Z.eqb_spec type 2000) as [->|N2].
      + cbn [needed] in P1. rewrite (get_num false) by lia. reflexivity.
      + destruct (type_cases type) as [H|H].
        * unfold known_types in H. cbn [In] in H. repeat (destruct H as [<-|H]; [try reflexivity; lia|]). destruct H.
        * destruct (other_type type H) as (-> & _ & _ & -> & _).
          assert (N3 : (type =? 405) = false) by (apply Z.eqb_neq; intros ->; apply H; cbn; tauto). rewrite N3. reflexivity. }
  rewrite E. cbn [bind]. rewrite show_flat by lia. cbn [bind].
  destruct (Z.eqb_spec type 2000) as [->|N2]; cbn [andb].
  - unfold raw2000. specialize (P3 eq_refl). cbn [needed] in P1.
    destruct (Z.ltb_spec details 2); destruct (Z.leb_spec 2 details); try lia; [reflexivity|].
    rewrite rd_num by lia. cbn [bind]. change (Z.to_nat 2) with 2%nat. rewrite prec_shown by lia. reflexivity.
  - reflexivity.
Qed.

(** ** The chain *)

Definition end_from (big : bool) (rec : list Z) (e : Z) (l : list (Z * Z)) (cut : option Z) : Z :=
  match cut with
  | Some o => o + assumed big rec (bytes_at big rec o 2) o - 1
  | None => fold_left (fun _ b => fst b + assumed big rec (snd b) (fst b) - 1) l e
  end.

Lemma num_nonneg big w : bytes_ok w -> 0 <= num big w.
Proof.
  intros B. assert (P : forall l, bytes_ok l -> 0 <= le_val l).
  { induction 1 as [|x l X Y IH]; cbn [le_val]; [lia|]. unfold byte_ok in X. lia. }
  unfold num, be_val. destruct big; apply P; [now apply Forall_rev|exact B].
Qed.

Lemma at_nonneg big rec off n : bytes_ok rec -> 0 <= bytes_at big rec off n.
Proof. intros B. apply num_nonneg. apply Forall_firstn, Forall_skipn, B. Qed.

Lemma visits_chain hb sw rec limit details off l cut :
  bytes_ok rec -> limit <= lenZ rec -> visits (xorb hb sw) rec limit off l cut -> 0 <= off ->
  forall fuel st, (length l < fuel)%nat ->
  raw_chain fuel hb sw rec limit details off st =
  Ok (mk_rawst (w_ret st + fold_right (fun b n => broken (blockette_rules (xorb hb sw) rec b) + n) 0 l
                + err (match cut with Some _ => true | None => false end))
               (w_cnt st + lenZ l) (fold_left (len_after rec) l (w_len st))
               (end_from (xorb hb sw) rec (w_end st) l cut)
               (match cut with Some o => o | None => final (xorb hb sw) rec off l end)
               (w_items st ++ flat_map (blockette_items (xorb hb sw) details rec) l
                ++ match cut with
                   | Some o => seed_items (xorb hb sw) details [SUns 1 2; SUns 1 2] (skipn (Z.to_nat o) rec)
                   | None => [] end)).
Proof.
  intros B L V. set (big := xorb hb sw) in *.
  assert (Hd : forall off l, 0 <= off -> off + 4 <= limit ->
    (if details <? 1 then [] else [INum (bytes_at big rec off 2); INum (bytes_at big rec (off + 2) 2)]) ++ seed_items big details l (skipn (Z.to_nat (off + 4)) rec)
    = seed_items big details ([SUns 1 2; SUns 1 2] ++ l) (skipn (Z.to_nat off) rec)).
  { intros o fs Ho H4. cbn [app seed_items]. rewrite !skip_at by lia.
    replace (o + Z.of_nat 2 + Z.of_nat 2) with (o + 4) by lia.
    destruct (Z.ltb_spec details 1); destruct (Z.leb_spec 1 details); try lia; reflexivity. }
  induction V as [off E|off type N Lt L4 -> Cut|off type next l cut N Lt L4 -> -> P Fit V IH]; intros Ho fuel st Hf;
    destruct fuel as [|fuel]; try (cbn in Hf; lia); cbn [raw_chain].
  - replace (negb (off =? 0) && (off <? limit)) with false.
    + cbn [length fold_right fold_left flat_map app final end_from lenZ]. unfold lenZ. cbn. rewrite !Z.add_0_r, app_nil_r. reflexivity.
    + symmetry. destruct E as [->|E]; [reflexivity|]. apply andb_false_intro2. lia.
  - replace (negb (off =? 0) && (off <? limit)) with true by lia.
    assert (L4' : off + 4 <= limit) by (destruct (bytes_at big rec off 2 =? 2000); lia).
    rewrite !rd_num by lia. cbn [bind]. change (Z.to_nat 2) with 2%nat. fold big.
    rewrite blktlen_assumed by lia. fold big. cbn [bind].
    replace (limit <? off + assumed big rec (bytes_at big rec off 2) off - 1) with true by lia.
    replace (assumed big rec (bytes_at big rec off 2) off =? 0) with false by lia.
    cbn [err fold_right fold_left flat_map app end_from]. unfold lenZ at 1. cbn [length].
    specialize (Hd off [] Ho L4'). cbn [seed_items app] in Hd. rewrite app_nil_r in Hd. rewrite Hd. cbn [seed_items app].
    f_equal. f_equal; lia.
  - replace (negb (off =? 0) && (off <? limit)) with true by lia.
    set (type := bytes_at big rec off 2) in *. set (next := bytes_at big rec (off + 2) 2) in *.
    assert (L6 : off + (if type =? 2000 then 6 else 4) <= lenZ rec).
    { destruct (Z.eqb_spec type 2000) as [E|]; [|lia]. destruct P as (P & _). rewrite E in P. cbn [needed] in P. lia. }
    rewrite !rd_num by lia. cbn [bind]. change (Z.to_nat 2) with 2%nat. fold big. fold type. fold next.
    rewrite blktlen_assumed by lia. fold big. cbn [bind].
    replace (limit <? off + assumed big rec type off - 1) with false by lia.
    rewrite (raw_blkt_ok hb sw rec limit) by (assumption || lia). cbn [bind]. fold big.
    assert (Nn : 0 <= next) by (apply at_nonneg, B).
    replace (if negb (next =? 0) && (next <=? off + assumed big rec type off - 1) then 0 else next)
      with (if next <? off + assumed big rec type off then 0 else next).
    2:{ destruct (Z.ltb_spec next (off + assumed big rec type off)); destruct (Z.eqb_spec next 0);
        destruct (Z.leb_spec next (off + assumed big rec type off - 1)); cbn; lia. }
    rewrite IH; [|destruct (next <? off + assumed big rec type off); lia|cbn in Hf; lia].
    cbn [w_ret w_cnt w_len w_end w_off w_items fold_right fold_left flat_map final].
    f_equal. fold next. f_equal.
    + cbn [blockette_rules tl]. rewrite !broken_cons, negb_involutive. lia.
    + unfold lenZ. cbn [length]. lia.
    + pose proof (Hd off (seed_blockette type) Ho ltac:(lia)) as Q. fold type next in Q.
      unfold blockette_items at 2. rewrite <- Q. rewrite <- !app_assoc. reflexivity.
Qed.

Lemma end_last big rec l cut : end_from big rec (-1) l cut = last_byte big rec l cut.
Proof.
  unfold end_from, last_byte. destruct cut as [o|]; [reflexivity|].
  destruct (rev l) as [|[o type] r] eqn:E.
  - apply (f_equal (@rev _)) in E. rewrite rev_involutive in E. subst l. reflexivity.
  - apply (f_equal (@rev _)) in E. rewrite rev_involutive in E. cbn in E. subst l. rewrite fold_left_app. reflexivity.
Qed.

(** ** ms_parse_raw2 *)

Lemma fixed_values big rec : 48 <= lenZ rec ->
  values big widths2 rec =
  map (fun k => nth k rec 0) (seq 0 20)
  ++ [bytes_at big rec 20 2; bytes_at big rec 22 2; nth 24 rec 0; nth 25 rec 0; nth 26 rec 0; nth 27 rec 0;
      bytes_at big rec 28 2; bytes_at big rec 30 2; bytes_at big rec 32 2; bytes_at big rec 34 2; nth 36 rec 0;
      nth 37 rec 0; nth 38 rec 0; nth 39 rec 0; bytes_at big rec 40 4; bytes_at big rec 44 2; bytes_at big rec 46 2].
Proof.
  intros L. assert (N : forall k, (k < 48)%nat -> num big (firstn 1 (skipn k rec)) = nth k rec 0).
  { intros k Hk. pose proof (nth_byte big rec (Z.of_nat k) ltac:(lia)) as E. unfold bytes_at in E. rewrite Nat2Z.id in E. exact E. }
  unfold widths2. cbn [repeat app values seq map].
  repeat (rewrite skip_skip; cbn [Nat.add]).
  change (num big (firstn 1 rec)) with (num big (firstn 1 (skipn 0 rec))).
  rewrite !N by lia. reflexivity.
Qed.

Lemma fail_bytes t off n rec : 0 <= off -> 0 <= n -> off + n <= lenZ rec ->
  bytes_fail t off n rec = Ok (err (negb (forallb t (map (fun k => nth k rec 0) (seq (Z.to_nat off) (Z.to_nat n)))))).
Proof.
  intros Ho Hn L. unfold bytes_fail. rewrite sliceZ_ok by lia. cbn [bind]. do 4 f_equal.
  assert (Q : forall k o (r : list Z), (o + k <= length r)%nat -> firstn k (skipn o r) = map (fun k => nth k r 0) (seq o k)).
  { clear. induction k as [|k IH]; intros o r H; [reflexivity|].
    destruct (skipn o r) as [|x r'] eqn:E.
    - apply (f_equal (@length _)) in E. rewrite skipn_length in E. cbn in E. lia.
    - cbn [firstn seq map]. f_equal.
      + rewrite <- (firstn_skipn o r) at 1. rewrite app_nth2; rewrite firstn_length; [|lia].
        replace (o - Nat.min o (length r))%nat with 0%nat by lia. now rewrite E.
      + rewrite <- IH by lia. f_equal. change (S o) with (1 + o)%nat.
        replace (1 + o)%nat with (o + 1)%nat by lia. rewrite <- skip_skip, E. reflexivity. }
  rewrite Q; [reflexivity|unfold lenZ in L; lia].
Qed.

Lemma rules_header big rec y d h m s f ns nb doff boff k t2 t3 :
  bytes_ok rec ->
  y = bytes_at big rec 20 2 -> d = bytes_at big rec 22 2 -> h = nth 24 rec 0 -> m = nth 25 rec 0 -> s = nth 26 rec 0 ->
  f = bytes_at big rec 28 2 -> ns = bytes_at big rec 30 2 -> nb = nth 39 rec 0 -> doff = bytes_at big rec 44 2 ->
  boff = bytes_at big rec 46 2 -> k = (fun i => nth i rec 0) ->
  t2 = (fun b => (b =? 68) || (b =? 82) || (b =? 81) || (b =? 77)) ->
  t3 = (fun b => (b =? 32) || (b =? 0)) -> 48 <= lenZ rec ->
  err (negb (forallb digit (map k (seq 0 6)))) + err (negb (forallb t2 (map k (seq 6 1))))
  + err (negb (forallb t3 (map k (seq 7 1)))) + err (negb (forallb code_char (map k (seq 8 5))))
  + err (negb (forallb code_char (map k (seq 13 2)))) + err (negb (forallb code_char (map k (seq 15 3))))
  + err (negb (forallb code_char (map k (seq 18 2))))
  + err ((y <? 1900) || (2100 <? y)) + err ((d <? 1) || (366 <? d)) + err (23 <? h) + err (59 <? m) + err (60 <? s)
  + err (9999 <? f) + err (20000 <? ns) + err ((0 <? ns) && (0 <? nb) && (doff <=? boff))
  = broken (rules2 (values big widths2 rec)).
Proof.
  intros B -> -> -> -> -> -> -> -> -> -> -> -> -> L.
  rewrite fixed_values by exact L. cbn [seq map app rules2].
  rewrite !broken_cons, broken_nil.
  repeat match goal with |- context [bytes_at big rec ?o ?n] =>
    let H := fresh in pose proof (at_nonneg big rec o n B) as H; let x := fresh "x" in set (x := bytes_at big rec o n) in *; clearbody x end.
  assert (P : forall i, 0 <= nth i rec 0) by (intros i; apply nth_bytes_ok, B).
  pose proof (P 24%nat). pose proof (P 25%nat). pose proof (P 26%nat). pose proof (P 39%nat).
  set (h := nth 24 rec 0) in *. set (m := nth 25 rec 0) in *. set (s := nth 26 rec 0) in *. set (nb := nth 39 rec 0) in *. clearbody h m s nb.
  rewrite !Z.add_assoc, Z.add_0_r.
  assert (AC : code_char = alnum_or_space) by reflexivity. rewrite AC.
  assert (DG : digit = within 48 57) by reflexivity. rewrite DG.
  cbn [forallb existsb]. rewrite ?andb_true_r, ?orb_false_r, ?orb_assoc.
  repeat (apply f_equal2; [|]); try (apply err_ext); try reflexivity;
    unfold within; rewrite ?negb_andb, ?negb_orb, ?negb_involutive, ?Z.leb_antisym, ?Z.ltb_antisym, ?negb_involutive; try reflexivity; lia.
Qed.

Lemma sw_order hb swapflag rec : 48 <= lenZ rec ->
  exists sw, (if swapflag =? -1
              then let! y := rd hb false 2 20 rec in let! d := rd hb false 2 22 rec in Ok (negb (valid_yearday y d))
              else Ok false) = Ok sw /\ xorb hb sw = record_order hb swapflag rec.
Proof.
  intros L. unfold record_order. destruct (swapflag =? -1); cbn [andb].
  - rewrite !rd_num by lia. cbn [bind]. change (Z.to_nat 2) with 2%nat. rewrite !xorb_false_r. eexists. split; [reflexivity|].
    unfold valid_yearday, within. rewrite <- andb_assoc. destruct (_ && (_ && _)) ; destruct hb; reflexivity.
  - eexists. split; [reflexivity|]. apply xorb_false_r.
Qed.

Lemma cut_inside big rec limit off l o : visits big rec limit off l (Some o) -> o < limit.
Proof.
  intros V. remember (Some o) as c eqn:Ec. induction V; try discriminate; [injection Ec as <-; lia|auto].
Qed.

(** The function up to the chain. *)
Lemma raw2_start fuel hb rec maxreclen details swapflag : bytes_ok rec -> 48 <= maxreclen <= lenZ rec ->
  exists sw, xorb hb sw = record_order hb swapflag rec /\
  parse_raw2 fuel hb (Some rec) maxreclen details swapflag =
  let big := record_order hb swapflag rec in
  let boff := bytes_at big rec 46 2 in
  let doff := bytes_at big rec 44 2 in
  let nsamp := bytes_at big rec 30 2 in
  let nblk := nth 39 rec 0 in
  let retval := broken (rules2 (values big widths2 rec)) in
  let items := seed_items big details seed_fixed rec in
  if (46 <? boff) && (boff <? maxreclen) then
    let! st := raw_chain fuel hb sw rec maxreclen details boff (mk_rawst retval 0 (-1) (-1) boff items) in
    Ok (mk_raw (w_ret st + err (maxreclen <? w_off st)
                    + err (negb (w_len st =? 0) && (w_len st <? doff))
                    + err (negb (w_len st =? 0) && (w_len st <? boff))
                    + err (negb (nsamp =? 0) && (doff <=? w_end st))
                    + err (negb (nblk =? w_cnt st)))
                   (w_items st) [])
  else Ok (mk_raw retval items []).
Proof.
  intros B L. destruct (sw_order hb swapflag rec ltac:(lia)) as (sw & Esw & Ex). exists sw. split; [exact Ex|].
  unfold parse_raw2. replace (maxreclen <? 48) with false by lia.
  destruct (recordsid_any rec B ltac:(lia)) as (d & n & ->). cbn [bind]. rewrite Esw. cbn [bind].
  rewrite !fail_bytes by lia. cbn [bind]. rewrite !rd_num by lia. rewrite !(get_num false) by lia. cbn [bind].
  rewrite !nth_byte by lia. rewrite Ex. set (big := record_order hb swapflag rec) in *.
  assert (FF : fixed_fields = flat 0 seed_fixed) by reflexivity. rewrite FF.
  rewrite show_flat by (cbn; lia). rewrite Ex. cbn [bind]. rewrite Z.add_0_r. change (skipn (Z.to_nat 0) rec) with rec.
  cbv zeta.
  repeat match goal with |- context [Z.to_nat (Zpos ?p)] =>
    let v := eval cbv in (Z.to_nat (Zpos p)) in change (Z.to_nat (Zpos p)) with v end.
  change (Z.to_nat 0) with 0%nat.
  rewrite (rules_header big rec _ _ _ _ _ _ _ _ _ _ _ _ _ B eq_refl eq_refl eq_refl eq_refl eq_refl eq_refl eq_refl eq_refl eq_refl eq_refl eq_refl eq_refl eq_refl ltac:(lia)).
  reflexivity.
Qed.

Lemma raw2_ok fuel hb rec maxreclen details swapflag l cut : bytes_ok rec -> 48 <= maxreclen <= lenZ rec ->
  46 < bytes_at (record_order hb swapflag rec) rec 46 2 < maxreclen ->
  visits (record_order hb swapflag rec) rec maxreclen (bytes_at (record_order hb swapflag rec) rec 46 2) l cut ->
  (length l < fuel)%nat ->
  let big := record_order hb swapflag rec in
  parse_raw2 fuel hb (Some rec) maxreclen details swapflag =
  Ok (mk_raw (broken (rules2 (values big widths2 rec))
              + fold_right (fun b n => broken (blockette_rules big rec b) + n) 0 l
              + broken (chain_rules big rec maxreclen (bytes_at big rec 46 2) l cut))
             (seed_items big details seed_fixed rec ++ flat_map (blockette_items big details rec) l
              ++ match cut with
                 | Some o => seed_items big details [SUns 1 2; SUns 1 2] (skipn (Z.to_nat o) rec)
                 | None => [] end) []).
Proof.
  intros B L R V F. destruct (raw2_start fuel hb rec maxreclen details swapflag B L) as (sw & Ex & ->).
  set (big := record_order hb swapflag rec) in *. cbv zeta.
  replace ((46 <? bytes_at big rec 46 2) && (bytes_at big rec 46 2 <? maxreclen)) with true by lia.
  clearbody big. subst big.
  rewrite (visits_chain hb sw rec maxreclen details (bytes_at (xorb hb sw) rec 46 2) l cut B ltac:(lia) V ltac:(lia) fuel _ F).
  set (big := xorb hb sw) in *. cbn [bind w_ret w_cnt w_len w_end w_off w_items].
  f_equal. f_equal.
  rewrite end_last. unfold chain_rules. rewrite !broken_cons, broken_nil.
  change (fold_left (len_after rec) l (-1)) with (stated_length rec l).
  rewrite Z.add_0_l.
  set (a := broken _). set (b := fold_right _ 0 l). set (sl := stated_length rec l). set (lb := last_byte big rec l cut).
  set (x := bytes_at big rec 44 2). set (y := bytes_at big rec 46 2). set (z := bytes_at big rec 30 2).
  rewrite !negb_orb.
  rewrite <- (Z.ltb_antisym x sl), <- (Z.ltb_antisym y sl), <- (Z.leb_antisym lb x).
  destruct cut as [o|]; cbn [negb].
  - pose proof (cut_inside _ _ _ _ _ _ V) as Ho. replace (maxreclen <? o) with false by lia. cbn [err]. lia.
  - rewrite <- Z.ltb_antisym. cbn [err]. lia.
Qed.

Lemma raw2_short fuel hb rec maxreclen details swapflag : bytes_ok rec -> 48 <= maxreclen <= lenZ rec ->
  let big := record_order hb swapflag rec in
  ~ 46 < bytes_at big rec 46 2 < maxreclen ->
  parse_raw2 fuel hb (Some rec) maxreclen details swapflag =
  Ok (mk_raw (broken (rules2 (values big widths2 rec))) (seed_items big details seed_fixed rec) []).
Proof.
  intros B L big R. destruct (raw2_start fuel hb rec maxreclen details swapflag B L) as (sw & Ex & ->).
  fold big. cbv zeta. replace ((46 <? bytes_at big rec 46 2) && (bytes_at big rec 46 2 <? maxreclen)) with false by lia. reflexivity.
Qed.

(** ** Ends *)

Definition plain {A} (r : res A) : Prop := match r with Ok _ | UB _ => True | _ => False end.

Lemma plain_bind {A B} (m : res A) (k : A -> res B) : plain m -> (forall x, m = Ok x -> plain (k x)) -> plain (bind m k).
Proof. destruct m; cbn; auto. Qed.
Lemma plain_if {A} (b : bool) (x y : res A) : plain x -> plain y -> plain (if b then x else y).
Proof. destruct b; auto. Qed.
Lemma plain_slice off n (rec : list Z) : plain (sliceZ off n rec).
Proof. unfold sliceZ. destruct (_ && _); exact I. Qed.
Lemma plain_get off (rec : list Z) : plain (getZ off rec).
Proof. unfold getZ. destruct (0 <=? off); [destruct (nth_error _ _)|]; exact I. Qed.
Lemma plain_rd hb sw n off rec : plain (rd hb sw n off rec).
Proof. unfold rd. apply plain_bind; [apply plain_slice|]. intros; exact I. Qed.
Lemma plain_upto n l : plain (text_upto n l).
Proof. revert l. induction n as [|n IH]; intros [|c l]; cbn; try exact I. destruct (c =? 0); [exact I|]. apply plain_bind; [apply IH|]. intros; exact I. Qed.
Lemma plain_text l : plain (text_of l).
Proof. induction l as [|c l IH]; cbn; try exact I. destruct (c =? 0); [exact I|]. apply plain_bind; [apply IH|]. intros; exact I. Qed.
Lemma plain_prec p off rec : plain (text_prec p off rec).
Proof. unfold text_prec. apply plain_if; [apply plain_text|apply plain_upto]. Qed.
Lemma plain_len hb sw type off rec : plain (blktlen hb sw type off rec).
Proof. unfold blktlen. repeat (apply plain_if; [first [exact I|apply plain_rd]|]). exact I. Qed.
Lemma plain_show hb sw rec o d fs : plain (show_all hb sw rec o d fs).
Proof.
  induction fs as [|f fs IH]; cbn [show_all]; [exact I|]. apply plain_if; [exact IH|].
  apply plain_bind; [|intros; apply plain_bind; [exact IH|intros; exact I]].
  unfold show. destruct (f_kind f); (apply plain_bind; [first [apply plain_rd|apply plain_prec]|intros; exact I]).
Qed.
Lemma plain_blkt hb sw rec type o d len : plain (raw_blkt hb sw rec type o d len).
Proof.
  unfold raw_blkt. apply plain_bind.
  - apply plain_if; [|apply plain_if; [apply plain_bind; [apply plain_get|intros; exact I]|exact I]].
    unfold raw1000. apply plain_bind; [apply plain_get|]. intros e _. apply plain_if; [exact I|].
    apply plain_bind; [apply plain_get|]. intros. apply plain_bind; [apply plain_get|]. intros. exact I.
  - intros [e l'] _. apply plain_bind; [apply plain_show|]. intros l _. apply plain_bind; [|intros; exact I].
    apply plain_if; [|exact I]. unfold raw2000. apply plain_if; [exact I|].
    apply plain_bind; [apply plain_rd|]. intros. apply plain_bind; [apply plain_prec|]. intros. exact I.
Qed.

Lemma rd_is hb sw n off rec v : rd hb sw n off rec = Ok v -> v = bytes_at (xorb hb sw) rec off (Z.to_nat n).
Proof.
  intros H. assert (H' := H). unfold rd, sliceZ in H'. destruct ((0 <=? off) && (0 <=? n) && _) eqn:E; [|discriminate].
  rewrite rd_num in H by (unfold lenZ; lia). congruence.
Qed.

Lemma len_is hb sw type off rec v : blktlen hb sw type off rec = Ok v -> v = assumed (xorb hb sw) rec type off.
Proof.
  destruct (type_cases type) as [H|H].
  - unfold known_types in H. cbn [In] in H.
    repeat (destruct H as [<-|H]; [cbn; first [congruence|intros E; apply rd_is in E; exact E]|]). destruct H.
  - destruct (other_type type H) as (_ & _ & _ & _ & A & _). rewrite A.
    assert (F : forall x, In x known_types -> (type =? x) = false).
    { intros x Hx. apply Z.eqb_neq. intros ->. contradiction. }
    unfold blktlen. rewrite !F by (cbn; tauto). congruence.
Qed.

Lemma follow_is big rec off next : bytes_ok rec -> next = bytes_at big rec (off + 2) 2 ->
  (if negb (next =? 0) && (next <=? off + assumed big rec (bytes_at big rec off 2) off - 1) then 0 else next) = follow big rec off.
Proof.
  intros B ->. unfold follow. pose proof (at_nonneg big rec (off + 2) 2 B).
  set (n := bytes_at big rec (off + 2) 2) in *. set (a := assumed _ _ _ _). clearbody n a.
  destruct (Z.ltb_spec n (off + a)); destruct (Z.eqb_spec n 0); destruct (Z.leb_spec n (off + a - 1)); cbn; lia.
Qed.

Lemma assumed_nonneg big rec type off : bytes_ok rec -> 0 <= assumed big rec type off.
Proof.
  intros B. destruct (type_cases type) as [H|H].
  - unfold known_types in H. cbn [In] in H. repeat (destruct H as [<-|H]; [cbn -[bytes_at]; try lia; apply at_nonneg, B|]). destruct H.
  - destruct (other_type type H) as (_ & _ & _ & _ & A & _). rewrite A. lia.
Qed.

(** One step: undefined behaviour, the end, or on with the link. *)
Lemma chain_step fuel hb sw rec limit details off st : bytes_ok rec -> off <> 0 -> off < limit ->
  (exists u, raw_chain (S fuel) hb sw rec limit details off st = UB u)
  \/ (limit < off + assumed (xorb hb sw) rec (bytes_at (xorb hb sw) rec off 2) off - 1 /\
      exists r, raw_chain (S fuel) hb sw rec limit details off st = Ok r)
  \/ (off + assumed (xorb hb sw) rec (bytes_at (xorb hb sw) rec off 2) off - 1 <= limit /\
      exists st', raw_chain (S fuel) hb sw rec limit details off st
                  = raw_chain fuel hb sw rec limit details (follow (xorb hb sw) rec off) st').
Proof.
  intros B N Lt. cbn [raw_chain]. replace (negb (off =? 0) && (off <? limit)) with true by lia.
  pose proof (plain_rd hb sw 2 off rec) as P1. destruct (rd hb sw 2 off rec) as [type| |u|] eqn:E1; try destruct P1; [|left; eexists; reflexivity].
  apply rd_is in E1. change (Z.to_nat 2) with 2%nat in E1. cbn [bind].
  pose proof (plain_rd hb sw 2 (off + 2) rec) as P2. destruct (rd hb sw 2 (off + 2) rec) as [next| |u|] eqn:E2; try destruct P2; [|left; eexists; reflexivity].
  apply rd_is in E2. change (Z.to_nat 2) with 2%nat in E2. cbn [bind].
  pose proof (plain_len hb sw type off rec) as P3. destruct (blktlen hb sw type off rec) as [len| |u|] eqn:E3; try destruct P3; [|left; eexists; reflexivity].
  apply len_is in E3. cbn [bind]. rewrite <- E1, <- E3.
  destruct (Z.ltb_spec limit (off + len - 1)); [right; left; split; [lia|eexists; reflexivity]|].
  pose proof (plain_blkt hb sw rec type off details (w_len st)) as P4.
  destruct (raw_blkt hb sw rec type off details (w_len st)) as [[[e blen] l]| |u|] eqn:E4; try destruct P4; [|left; eexists; reflexivity].
  cbn [bind]. right. right. split; [lia|]. eexists. rewrite <- (follow_is _ rec off next B E2), <- E1, <- E3. reflexivity.
Qed.

Lemma chain_fuel hb sw rec limit details : bytes_ok rec ->
  forall fuel off st, 0 <= off -> limit - off + 1 < Z.of_nat fuel -> 1 < Z.of_nat fuel ->
  raw_chain fuel hb sw rec limit details off st = Fuel ->
  exists o, reached (xorb hb sw) rec limit off o /\ stuck (xorb hb sw) rec limit o.
Proof.
  intros B. induction fuel as [|fuel IH]; intros off st Ho Hf H1 E; [lia|].
  destruct (Z.eq_dec off 0) as [->|N]; [cbn in E; discriminate|].
  destruct (Z_lt_le_dec off limit) as [Lt|Ge].
  2:{ cbn [raw_chain] in E. replace (off <? limit) with false in E by lia. rewrite andb_false_r in E. discriminate. }
  destruct (chain_step fuel hb sw rec limit details off st B N Lt) as [[u U]|[[_ [r R]]|[Fit [st' S']]]]; try congruence.
  rewrite S' in E. set (big := xorb hb sw) in *.
  pose proof (assumed_nonneg big rec (bytes_at big rec off 2) off B) as A.
  pose proof (at_nonneg big rec (off + 2) 2 B) as A2.
  unfold follow in *. destruct (Z.ltb_spec (bytes_at big rec (off + 2) 2) (off + assumed big rec (bytes_at big rec off 2) off)) as [Z0|Z1].
  - destruct fuel as [|fuel']; [lia|]. cbn in E. discriminate.
  - destruct (Z.eq_dec (bytes_at big rec (off + 2) 2) off) as [Eq|Ne].
    + exists off. split; [constructor|]. repeat split; auto. lia.
    + destruct (IH (bytes_at big rec (off + 2) 2) st') as (o & R & Sk); try lia; [exact E|].
      exists o. split; [|exact Sk]. apply reached_step; auto. unfold follow.
      replace (_ <? _) with false by lia. exact R.
Qed.

Lemma chain_stuck hb sw rec limit details off o : bytes_ok rec -> reached (xorb hb sw) rec limit off o ->
  stuck (xorb hb sw) rec limit o ->
  forall fuel st, never_ends (raw_chain fuel hb sw rec limit details off st).
Proof.
  intros B R Sk. induction R as [off|off o N Lt Fit R IH].
  - destruct Sk as (N & Lt & A & Nx). induction fuel as [|fuel IH]; intros st; [left; reflexivity|].
    destruct (chain_step fuel hb sw rec limit details off st B N Lt) as [[u U]|[[G _]|[Fit [st' S']]]].
    + right. exists u. exact U.
    + lia.
    + rewrite S'. unfold follow. rewrite Nx, A. replace (off <? off + 0) with false by lia. apply IH.
  - intros [|fuel] st; [left; reflexivity|].
    destruct (chain_step fuel hb sw rec limit details off st B N Lt) as [[u U]|[[G _]|[_ [st' S']]]].
    + right. exists u. exact U.
    + lia.
    + rewrite S'. apply IH, Sk.
Qed.

Lemma raw2_fuel fuel hb rec maxreclen details swapflag : bytes_ok rec -> 48 <= maxreclen <= lenZ rec ->
  maxreclen < Z.of_nat fuel -> parse_raw2 fuel hb (Some rec) maxreclen details swapflag = Fuel ->
  let big := record_order hb swapflag rec in
  exists o, reached big rec maxreclen (bytes_at big rec 46 2) o /\ stuck big rec maxreclen o.
Proof.
  intros B L F E big. destruct (raw2_start fuel hb rec maxreclen details swapflag B L) as (sw & Ex & E').
  rewrite E' in E. clear E'. fold big in E, Ex. cbv zeta in E. clearbody big. subst big.
  destruct ((46 <? bytes_at (xorb hb sw) rec 46 2) && (bytes_at (xorb hb sw) rec 46 2 <? maxreclen)) eqn:R; [|discriminate].
  destruct (raw_chain _ _ _ _ _ _ _ _) eqn:C; try discriminate.
  eapply chain_fuel; [exact B| | | |exact C]; lia.
Qed.

Lemma raw2_stuck fuel hb rec maxreclen details swapflag o : bytes_ok rec -> 48 <= maxreclen <= lenZ rec ->
  let big := record_order hb swapflag rec in
  46 < bytes_at big rec 46 2 -> reached big rec maxreclen (bytes_at big rec 46 2) o -> stuck big rec maxreclen o ->
  never_ends (parse_raw2 fuel hb (Some rec) maxreclen details swapflag).
Proof.
  intros B L big Lo R Sk. destruct (raw2_start fuel hb rec maxreclen details swapflag B L) as (sw & Ex & ->).
  fold big in Ex |- *. cbv zeta. clearbody big. subst big.
  assert (Hi : bytes_at (xorb hb sw) rec 46 2 < maxreclen).
  { inversion R; subst; [|assumption]. destruct Sk as (_ & H & _). exact H. }
  replace (_ && _) with true by lia.
  destruct (chain_stuck hb sw rec maxreclen details _ o B R Sk fuel
    (mk_rawst (broken (rules2 (values (xorb hb sw) widths2 rec))) 0 (-1) (-1) (bytes_at (xorb hb sw) rec 46 2)
       (seed_items (xorb hb sw) details seed_fixed rec))) as [E|[u E]]; rewrite E; cbn [bind]; [left; reflexivity|right; exists u; reflexivity].
Qed.

(** ** Safe chains are visited *)

Lemma safe_visits big rec limit : bytes_ok rec ->
  forall n off, 0 <= off -> limit - off < Z.of_nat n -> 0 < Z.of_nat n ->
  (forall o, reached big rec limit off o -> o <> 0 -> o < limit -> safe_at big rec limit o /\ ~ stuck big rec limit o) ->
  exists l cut, visits big rec limit off l cut /\ (length l <= n)%nat.
Proof.
  intros B. induction n as [|n IH]; intros off Ho Hn H0 H; [lia|].
  destruct (Z.eq_dec off 0) as [->|N]; [exists [], None; split; [constructor; auto|cbn; lia]|].
  destruct (Z_lt_le_dec off limit) as [Lt|Ge]; [|exists [], None; split; [constructor; auto|cbn; lia]].
  destruct (H off) as ((S1 & S2) & NS); [constructor|auto|auto|].
  set (type := bytes_at big rec off 2) in *.
  destruct (Z_lt_le_dec limit (off + assumed big rec type off - 1)) as [C|Fit].
  - exists [], (Some off). split; [|cbn; lia]. eapply visits_cut; eauto.
  - specialize (S2 Fit). pose proof (at_nonneg big rec (off + 2) 2 B) as A2.
    pose proof (assumed_nonneg big rec type off B) as A.
    assert (L4 : off + 4 <= limit) by (destruct (type =? 2000); lia).
    assert (Hr : forall o, reached big rec limit (follow big rec off) o -> reached big rec limit off o)
      by (intros o; apply reached_step; auto).
    assert (exists l cut, visits big rec limit (follow big rec off) l cut /\ (length l <= n)%nat) as (l & cut & V & Ll).
    { unfold follow in Hr |- *. fold type in Hr |- *. destruct (Z.ltb_spec (bytes_at big rec (off + 2) 2) (off + assumed big rec type off)) as [Z0|Z1].
      - exists [], None. split; [constructor; auto|cbn; lia].
      - assert (bytes_at big rec (off + 2) 2 <> off).
        { intros Eq. apply NS. unfold stuck. fold type. repeat split; auto. lia. }
        apply IH; try lia. intros o R. apply H. auto. }
    exists ((off, type) :: l), cut. split; [|cbn; lia]. eapply visits_one; eauto.
Qed.

(** ** mseh_print *)

Lemma squeeze_space ins a l : ins = false -> squeeze ins (repeat 32 a ++ l) = squeeze ins l.
Proof. intros ->. induction a as [|a IH]; [reflexivity|exact IH]. Qed.

Lemma logged_ok t : (length t <= 199)%nat -> logged t = t.
Proof. intros L. unfold logged. now apply firstn_all2. Qed.
Lemma level_fits (d : Z) : -103 <= d <= 93 -> (length (spaces (10 + 2 * d)) <= 197)%nat.
Proof. intros H. unfold spaces. rewrite repeat_length. lia. Qed.

Lemma squeeze_pretty l : forall ins d, Forall (fun d => -103 <= d <= 93) (levels d (marks ins l)) -> squeeze ins (pretty ins (10 + 2 * d) l) = squeeze ins l.
Proof.
  induction l as [|c l IH]; intros ins d F; [reflexivity|]. cbn [pretty]. cbn [marks] in F.
  assert (O : forall i, Forall (fun d => -103 <= d <= 93) (levels d (marks (if c =? 34 then negb i else i) l)) ->
    squeeze i (one_char c ++ pretty (if c =? 34 then negb i else i) (10 + 2 * d) l) = squeeze i (c :: l)).
  { intros i Fi. unfold one_char. cbn [squeeze]. destruct (Z.eqb_spec c 0) as [->|N].
    - cbn [app Z.eqb]. apply IH. exact Fi.
    - cbn [app squeeze]. replace (c =? 0) with false by lia. destruct (c =? 34); [now rewrite IH|].
      rewrite IH by exact Fi. reflexivity. }
  destruct (Z.eqb_spec c 34) as [->|Q].
  { cbn [Z.eqb Pos.eqb]. specialize (O ins F). cbn [Z.eqb Pos.eqb] in O. destruct (negb ins) eqn:E; cbn [negb]; exact O. }
  destruct ins; cbn [negb]; [exact (O true F)|]. cbn [levels] in F.
  replace (10 + 2 * d + 2) with (10 + 2 * (d + 1)) by lia. replace (10 + 2 * d - 2) with (10 + 2 * (d - 1)) by lia.
  destruct (Z.eqb_spec c 58) as [->|]; [cbn [app squeeze Z.eqb Pos.eqb negb andb orb]; now rewrite IH|].
  destruct (Z.eqb_spec c 44) as [->|].
  { inversion F as [|? ? F1 F2]; subst. rewrite logged_ok by (pose proof (level_fits _ F1); cbn [app length]; lia).
    cbn [app squeeze Z.eqb Pos.eqb negb andb orb]; unfold spaces; rewrite squeeze_space by reflexivity; now rewrite IH. }
  destruct (Z.eqb_spec c 123) as [->|].
  { cbn [Z.eqb Pos.eqb orb] in F. inversion F as [|? ? F1 F2]; subst. rewrite logged_ok by (pose proof (level_fits _ F1); cbn [app length]; lia).
    cbn [app squeeze Z.eqb Pos.eqb negb andb orb]. unfold spaces; rewrite squeeze_space by reflexivity; now rewrite IH. }
  destruct (Z.eqb_spec c 91) as [->|].
  { cbn [Z.eqb Pos.eqb orb] in F. inversion F as [|? ? F1 F2]; subst. rewrite logged_ok by (pose proof (level_fits _ F1); cbn [app length]; lia).
    cbn [app squeeze Z.eqb Pos.eqb negb andb orb]. unfold spaces; rewrite squeeze_space by reflexivity; now rewrite IH. }
  destruct (Z.eqb_spec c 125) as [->|].
  { cbn [Z.eqb Pos.eqb orb] in F. inversion F as [|? ? F1 F2]; subst. rewrite logged_ok by (pose proof (level_fits _ F1); cbn [app length]; rewrite app_length; cbn [length]; lia).
    cbn [app squeeze Z.eqb Pos.eqb negb andb orb]. rewrite <- app_assoc. unfold spaces; rewrite squeeze_space by reflexivity. cbn [app squeeze Z.eqb Pos.eqb negb andb orb]. now rewrite IH. }
  destruct (Z.eqb_spec c 93) as [->|].
  { cbn [Z.eqb Pos.eqb orb] in F. inversion F as [|? ? F1 F2]; subst. rewrite logged_ok by (pose proof (level_fits _ F1); cbn [app length]; rewrite app_length; cbn [length]; lia).
    cbn [app squeeze Z.eqb Pos.eqb negb andb orb]. rewrite <- app_assoc. unfold spaces; rewrite squeeze_space by reflexivity. cbn [app squeeze Z.eqb Pos.eqb negb andb orb]. now rewrite IH. }
  apply (O false). clear - F n n0 n1 n2 n3 n4. replace (c =? 123) with false in F by lia. replace (c =? 91) with false in F by lia.
  replace (c =? 125) with false in F by lia. replace (c =? 93) with false in F by lia. exact F.
Qed.

Lemma blanks_spaces n l : blanks l = 0 -> blanks (spaces n ++ l) = Z.abs n.
Proof.
  intros B. unfold spaces. assert (H : forall k, blanks (repeat 32 k ++ l) = Z.of_nat k).
  { induction k as [|k IH]; [exact B|]. cbn [repeat app blanks Z.eqb Pos.eqb]. lia. }
  rewrite H. lia.
Qed.
Lemma newlines_spaces n l : after_newlines (spaces n ++ l) = after_newlines l.
Proof. unfold spaces. induction (Z.to_nat (Z.abs n)) as [|k IH]; [reflexivity|exact IH]. Qed.

Lemma pretty_start l : forall n, ~ In 10 l -> ~ In 32 (marks false l) -> blanks (pretty false n l) = 0.
Proof.
  induction l as [|c l IH]; intros n N M; [reflexivity|]. cbn [pretty marks] in *. cbn [In] in N.
  destruct (Z.eqb_spec c 34) as [->|Q]; [reflexivity|]. cbn [negb]. cbn [In] in M.
  destruct (Z.eqb_spec c 58) as [->|]; [reflexivity|]. destruct (Z.eqb_spec c 44) as [->|]; [reflexivity|].
  destruct (Z.eqb_spec c 123) as [->|]; [reflexivity|]. destruct (Z.eqb_spec c 91) as [->|]; [reflexivity|].
  destruct (Z.eqb_spec c 125) as [->|]; [reflexivity|]. destruct (Z.eqb_spec c 93) as [->|]; [reflexivity|].
  unfold one_char. destruct (Z.eqb_spec c 0); [cbn [app]; apply IH; tauto|]. cbn [app blanks]. replace (c =? 32) with false by lia. reflexivity.
Qed.

Lemma pretty_indents l : forall ins d, ~ In 10 l -> ~ In 32 (marks ins l) -> Forall (fun d => -103 <= d <= 93) (levels d (marks ins l)) ->
  after_newlines (pretty ins (10 + 2 * d) l) = map (fun d => Z.abs (10 + 2 * d)) (levels d (marks ins l)).
Proof.
  induction l as [|c l IH]; intros ins d N M F; [reflexivity|]. cbn [pretty]. cbn [marks In] in *.
  assert (O : forall i, ~ In 32 (marks i l) -> Forall (fun d => -103 <= d <= 93) (levels d (marks i l)) ->
    after_newlines (one_char c ++ pretty i (10 + 2 * d) l) = map (fun d => Z.abs (10 + 2 * d)) (levels d (marks i l))).
  { intros i Mi Fi. unfold one_char. destruct (c =? 0); cbn [app after_newlines]; [|replace (c =? 10) with false by lia]; apply IH; tauto. }
  destruct (Z.eqb_spec c 34) as [->|Q].
  { destruct (negb ins) eqn:E; cbn [negb]; [apply O; [exact M|exact F]|].
    cbn [Z.eqb Pos.eqb]. apply O; assumption. }
  destruct ins; cbn [negb]; [apply O; assumption|]. cbn [levels In] in *.
  replace (10 + 2 * d + 2) with (10 + 2 * (d + 1)) by lia. replace (10 + 2 * d - 2) with (10 + 2 * (d - 1)) by lia.
  destruct (Z.eqb_spec c 58) as [->|]; [cbn [app after_newlines Z.eqb Pos.eqb orb map]; apply IH; tauto|].
  destruct (Z.eqb_spec c 44) as [->|].
  { inversion F as [|? ? F1 F2]; subst. rewrite logged_ok by (pose proof (level_fits _ F1); cbn [app length]; lia).
    cbn [app after_newlines Z.eqb Pos.eqb map]. rewrite newlines_spaces, blanks_spaces by (apply pretty_start; tauto). rewrite IH by tauto. reflexivity. }
  destruct (Z.eqb_spec c 123) as [->|].
  { cbn [Z.eqb Pos.eqb orb] in F. inversion F as [|? ? F1 F2]; subst. rewrite logged_ok by (pose proof (level_fits _ F1); cbn [app length]; lia).
    cbn [app after_newlines Z.eqb Pos.eqb orb map]. rewrite newlines_spaces, blanks_spaces by (apply pretty_start; tauto). rewrite IH by tauto. reflexivity. }
  destruct (Z.eqb_spec c 91) as [->|].
  { cbn [Z.eqb Pos.eqb orb] in F. inversion F as [|? ? F1 F2]; subst. rewrite logged_ok by (pose proof (level_fits _ F1); cbn [app length]; lia).
    cbn [app after_newlines Z.eqb Pos.eqb orb map]. rewrite newlines_spaces, blanks_spaces by (apply pretty_start; tauto). rewrite IH by tauto. reflexivity. }
  destruct (Z.eqb_spec c 125) as [->|].
  { cbn [Z.eqb Pos.eqb orb] in F. inversion F as [|? ? F1 F2]; subst. rewrite logged_ok by (pose proof (level_fits _ F1); cbn [app length]; rewrite app_length; cbn [length]; lia).
    cbn [app after_newlines Z.eqb Pos.eqb orb map]. rewrite <- app_assoc, newlines_spaces, blanks_spaces by reflexivity. cbn [app after_newlines Z.eqb Pos.eqb]. rewrite IH by tauto. reflexivity. }
  destruct (Z.eqb_spec c 93) as [->|].
  { cbn [Z.eqb Pos.eqb orb] in F. inversion F as [|? ? F1 F2]; subst. rewrite logged_ok by (pose proof (level_fits _ F1); cbn [app length]; rewrite app_length; cbn [length]; lia).
    cbn [app after_newlines Z.eqb Pos.eqb orb map]. rewrite <- app_assoc, newlines_spaces, blanks_spaces by reflexivity. cbn [app after_newlines Z.eqb Pos.eqb]. rewrite IH by tauto. reflexivity. }
  cbn [orb] in *. apply O; [tauto|exact F].
Qed.

Lemma interior_is (l : list Z) : interior l = firstn (length l - 2) (skipn 1 l).
Proof.
  unfold interior. destruct l as [|a l]; [reflexivity|]. cbn [tl skipn length]. rewrite removelast_firstn_len. f_equal. lia.
Qed.

Lemma eh_print_ok extra len : 0 < len <= lenZ extra ->
  exists body, eh_print extra len 10 = Ok (body ++ [10]) /\ pretty_print (interior (firstn (Z.to_nat len) extra)) body.
Proof.
  intros L. unfold eh_print. replace (len =? 0) with false by lia. rewrite sliceZ_ok by lia. cbn [bind].
  rewrite app_assoc. eexists. split; [reflexivity|]. rewrite logged_ok by (vm_compute; lia).
  assert (EI : interior (firstn (Z.to_nat len) extra) = firstn (Z.to_nat (len - 2)) (skipn 1 (firstn (Z.to_nat len) (skipn (Z.to_nat 0) extra)))).
  { rewrite interior_is. change (skipn (Z.to_nat 0) extra) with extra. do 2 f_equal. rewrite firstn_length. unfold lenZ in L. lia. }
  rewrite <- EI. clear EI. intros SH. split.
  - unfold spaces. rewrite squeeze_space by reflexivity. apply (squeeze_pretty _ false 0). exact SH.
  - intros (C1 & C2). unfold indentations. rewrite newlines_spaces, blanks_spaces by (apply pretty_start; assumption). cbn [map]. f_equal.
    apply (pretty_indents _ false 0); assumption.
Qed.

(** ** ms_parse_raw3 *)

Lemma fixed_values3 rec : 40 <= lenZ rec ->
  values false widths3 rec =
  [nth 0 rec 0; nth 1 rec 0; nth 2 rec 0; nth 3 rec 0; bytes_at false rec 4 4; bytes_at false rec 8 2;
   bytes_at false rec 10 2; nth 12 rec 0; nth 13 rec 0; nth 14 rec 0; nth 15 rec 0; bytes_at false rec 16 8;
   bytes_at false rec 24 4; bytes_at false rec 28 4; nth 32 rec 0; nth 33 rec 0; bytes_at false rec 34 2;
   bytes_at false rec 36 4].
Proof.
  intros L. assert (N : forall k, (k < 40)%nat -> num false (firstn 1 (skipn k rec)) = nth k rec 0).
  { intros k Hk. pose proof (nth_byte false rec (Z.of_nat k) ltac:(lia)) as E. unfold bytes_at in E. rewrite Nat2Z.id in E. exact E. }
  unfold widths3. cbn [values].
  repeat (rewrite skip_skip; cbn [Nat.add]).
  change (num false (firstn 1 rec)) with (num false (firstn 1 (skipn 0 rec))).
  rewrite !N by lia. reflexivity.
Qed.

Lemma raw3_refuse hb rec maxreclen details : maxreclen <= lenZ rec ->
  maxreclen < 40 \/ sid_length rec < 4 \/ maxreclen < 40 + sid_length rec ->
  parse_raw3 hb (Some rec) maxreclen details = Ok (mk_raw 1 [] []).
Proof.
  intros L H. unfold parse_raw3, MINRECLEN. destruct (Z.ltb_spec maxreclen 40); [reflexivity|].
  rewrite (get_num false) by lia. cbn [bind]. rewrite nth_byte by lia. change (Z.to_nat 33) with 33%nat. fold (sid_length rec).
  destruct (Z.ltb_spec (sid_length rec) 4); [reflexivity|]. replace (maxreclen <? 40 + sid_length rec) with true by lia. reflexivity.
Qed.

Lemma raw3_ok hb rec maxreclen details : bytes_ok rec -> maxreclen <= lenZ rec ->
  4 <= sid_length rec -> 40 + sid_length rec <= maxreclen ->
  let v := values false widths3 rec in
  exists text,
  parse_raw3 hb (Some rec) maxreclen details =
  Ok (mk_raw (broken (rules3 v)) (if 1 <=? details then printed3 v (sid_part rec) else []) text)
  /\ (if (2 <=? details) && (0 <? extra_length rec) && (40 + sid_length rec + extra_length rec <=? maxreclen)
      then exists body, text = body ++ [10] /\ pretty_print (interior (extra_part rec)) body
      else text = []).
Proof.
  intros B L S4 Hs v. unfold parse_raw3, MINRECLEN. replace (maxreclen <? 40) with false by lia.
  rewrite (get_num false) by lia. cbn [bind]. rewrite nth_byte by lia. change (Z.to_nat 33) with 33%nat. fold (sid_length rec).
  replace (sid_length rec <? 4) with false by lia. replace (maxreclen <? 40 + sid_length rec) with false by lia.
  rewrite prec_shown by lia. cbn [bind]. rewrite !(get_num false) by lia. rewrite !rd_num by lia. cbn [bind].
  rewrite !nth_byte by lia. rewrite xorb_nilpotent.
  change (Z.to_nat 2) with 2%nat. change (Z.to_nat 4) with 4%nat. change (Z.to_nat 8) with 8%nat.
  assert (Ev : v = values false widths3 rec) by reflexivity. rewrite fixed_values3 in Ev by lia.
  set (ns := bytes_at false rec 4 4) in *. set (y := bytes_at false rec 8 2) in *. set (d := bytes_at false rec 10 2) in *.
  assert (0 <= ns) by (apply at_nonneg, B). assert (0 <= y) by (apply at_nonneg, B). assert (0 <= d) by (apply at_nonneg, B).
  assert (P : forall i, 0 <= nth i rec 0) by (intros i; apply nth_bytes_ok, B).
  pose proof (P 12%nat). pose proof (P 13%nat). pose proof (P 14%nat).
  match goal with |- context [mk_raw ?r _ _] => assert (Ec : r = broken (rules3 v)) end.
  { rewrite Ev. cbn [rules3]. rewrite !broken_cons, broken_nil.
    change (Z.to_nat 0) with 0%nat. change (Z.to_nat 1) with 1%nat. change (Z.to_nat 12) with 12%nat.
    change (Z.to_nat 13) with 13%nat. change (Z.to_nat 14) with 14%nat.
    set (h := nth 12 rec 0) in *. set (mi := nth 13 rec 0) in *. set (se := nth 14 rec 0) in *.
    rewrite !Z.add_assoc, Z.add_0_r.
    repeat (apply f_equal2; [|]); try (apply err_ext); try reflexivity;
      unfold within; rewrite ?negb_andb, ?Z.leb_antisym, ?negb_involutive; try reflexivity; lia. }
  assert (El : bytes_at false rec 34 2 = extra_length rec) by reflexivity. rewrite El.
  pose proof (at_nonneg false rec 34 2 B) as E0. rewrite El in E0.
  set (items := if details <? 1 then _ else _).
  assert (Ei : items = Ok (if 1 <=? details then printed3 v (sid_part rec) else [])).
  { subst items. rewrite Ev. destruct (Z.ltb_spec details 1); destruct (Z.leb_spec 1 details); try lia; reflexivity. }
  rewrite Ei. cbn [bind]. rewrite Ec. clear Ec Ei items.
  replace (1 <? details) with (2 <=? details) by lia.
  destruct ((2 <=? details) && (0 <? extra_length rec) && (40 + sid_length rec + extra_length rec <=? maxreclen)) eqn:G.
  - destruct (eh_print_ok (skipn (Z.to_nat (40 + sid_length rec)) rec) (extra_length rec)) as (body & -> & Sq).
    { unfold lenZ in *. rewrite skipn_length. lia. }
    cbn [bind]. eexists. split; [reflexivity|]. exists body. split; [reflexivity|exact Sq].
  - cbn [bind]. eexists. split; [reflexivity|reflexivity].
Qed.

(** ** No undefined behaviour *)

Lemma follow_nonneg big rec off : bytes_ok rec -> 0 <= follow big rec off.
Proof. intros B. unfold follow. pose proof (at_nonneg big rec (off + 2) 2 B). destruct (_ <? _); [reflexivity|assumption]. Qed.

Lemma safe_no_ub hb sw rec limit details : bytes_ok rec -> limit <= lenZ rec ->
  forall fuel off st, 0 <= off ->
  (forall o, reached (xorb hb sw) rec limit off o -> o <> 0 -> o < limit -> safe_at (xorb hb sw) rec limit o) ->
  ~ is_ub (raw_chain fuel hb sw rec limit details off st).
Proof.
  intros B L. set (big := xorb hb sw). induction fuel as [|fuel IH]; intros off st Ho H; [intros [u U]; discriminate|].
  cbn [raw_chain]. destruct (negb (off =? 0) && (off <? limit)) eqn:G; [|intros [u U]; discriminate].
  destruct (H off) as (S1 & S2); [constructor|lia|lia|]. set (type := bytes_at big rec off 2) in *.
  rewrite !rd_num by (destruct (type =? 2000); lia). cbn [bind]. change (Z.to_nat 2) with 2%nat. fold big. fold type.
  rewrite blktlen_assumed by lia. fold big. cbn [bind].
  destruct (Z.ltb_spec limit (off + assumed big rec type off - 1)) as [C|Fit]; [intros [u U]; discriminate|].
  rewrite (raw_blkt_ok hb sw rec limit) by (auto || lia). cbn [bind].
  assert (F : (if negb (bytes_at big rec (off + 2) 2 =? 0) && (bytes_at big rec (off + 2) 2 <=? off + assumed big rec type off - 1) then 0 else bytes_at big rec (off + 2) 2) = follow big rec off)
    by (apply follow_is; [exact B|reflexivity]).
  rewrite F. apply IH.
  - apply follow_nonneg, B.
  - intros o R. apply H. apply reached_step; auto; lia.
Qed.

Lemma raw2_safe fuel hb rec maxreclen details swapflag : bytes_ok rec -> 48 <= maxreclen <= lenZ rec ->
  let big := record_order hb swapflag rec in
  (forall o, reached big rec maxreclen (bytes_at big rec 46 2) o -> o <> 0 -> o < maxreclen -> safe_at big rec maxreclen o) ->
  ~ is_ub (parse_raw2 fuel hb (Some rec) maxreclen details swapflag).
Proof.
  intros B L big H. destruct (raw2_start fuel hb rec maxreclen details swapflag B L) as (sw & Ex & ->).
  fold big in Ex |- *. cbv zeta. clearbody big. subst big.
  destruct (_ && _) eqn:R; [|intros [u U]; discriminate].
  pose proof (safe_no_ub hb sw rec maxreclen details B ltac:(lia) fuel (bytes_at (xorb hb sw) rec 46 2)
    (mk_rawst (broken (rules2 (values (xorb hb sw) widths2 rec))) 0 (-1) (-1) (bytes_at (xorb hb sw) rec 46 2)
       (seed_items (xorb hb sw) details seed_fixed rec)) ltac:(lia) H) as N.
  destruct (raw_chain _ _ _ _ _ _ _ _) eqn:E; cbn [bind]; intros [u' U']; try discriminate. apply N. eexists; reflexivity.
Qed.

(** ** How far the reads go *)

Definition shift_only {A} (r : res A) : Prop := match r with Ok _ | Fuel => True | UB u => u = BadShift | Err _ => False end.

Lemma needed_excess big rec type off : bytes_ok rec -> 4 + total (seed_blockette type) <= assumed big rec type off + 192
  /\ (type = 2000 -> total (seed_blockette type) = 11).
Proof.
  intros B. split; [|intros ->; reflexivity]. destruct (type_cases type) as [H|H].
  - unfold known_types in H. cbn [In] in H.
    repeat (destruct H as [<-|H]; [cbn -[bytes_at]; try lia; pose proof (at_nonneg big rec (off + 4) 2 B); lia|]). destruct H.
  - destruct (other_type type H) as (_ & _ & -> & _ & -> & _). cbn. lia.
Qed.

Lemma chain_extent hb sw rec limit details : bytes_ok rec -> limit + 193 <= lenZ rec -> details <= 1 ->
  forall fuel off st, 0 <= off -> shift_only (raw_chain fuel hb sw rec limit details off st).
Proof.
  intros B L D. set (big := xorb hb sw). induction fuel as [|fuel IH]; intros off st Ho; [exact I|].
  cbn [raw_chain]. destruct (negb (off =? 0) && (off <? limit)) eqn:G; [|exact I].
  rewrite !rd_num by lia. cbn [bind]. change (Z.to_nat 2) with 2%nat. fold big. set (type := bytes_at big rec off 2).
  rewrite blktlen_assumed by (destruct (type =? 2000); lia). fold big. cbn [bind].
  destruct (Z.ltb_spec limit (off + assumed big rec type off - 1)) as [C|Fit]; [exact I|].
  destruct (needed_excess big rec type off B) as [X X2]. pose proof (total_nonneg (seed_blockette type)).
  assert (E : shift_only (raw_blkt hb sw rec type off details (w_len st))).
  { unfold raw_blkt. rewrite fields_flat. rewrite show_flat by lia. cbn [bind].
    assert (T : (if type =? 2000 then raw2000 hb sw rec off details else Ok []) = Ok []).
    { destruct (type =? 2000); [|reflexivity]. unfold raw2000. replace (details <? 2) with true by lia. reflexivity. }
    rewrite T. cbn [bind].
    destruct (Z.eqb_spec type 1000) as [E1|].
    - unfold raw1000. rewrite E1 in Fit. cbn in Fit. rewrite !(get_num false) by lia. cbn [bind].
      destruct (32 <=? _); [reflexivity|exact I].
    - destruct (Z.eqb_spec type 2000); [|exact I]. rewrite (get_num false) by lia. exact I. }
  destruct (raw_blkt hb sw rec type off details (w_len st)) as [[[e blen] l]| |u|]; try exact E.
  cbn [bind]. apply IH. pose proof (at_nonneg big rec (off + 2) 2 B). match goal with |- 0 <= (if ?b then _ else _) => destruct b end; [reflexivity|assumption].
Qed.

Lemma raw2_extent fuel hb rec maxreclen details swapflag : bytes_ok rec -> 48 <= maxreclen -> maxreclen + 193 <= lenZ rec ->
  details <= 1 -> shift_only (parse_raw2 fuel hb (Some rec) maxreclen details swapflag).
Proof.
  intros B L L2 D. destruct (raw2_start fuel hb rec maxreclen details swapflag B ltac:(lia)) as (sw & Ex & ->).
  cbv zeta. destruct (_ && _) eqn:R; [|exact I].
  pose proof (chain_extent hb sw rec maxreclen details B L2 D fuel (bytes_at (record_order hb swapflag rec) rec 46 2)
    (mk_rawst (broken (rules2 (values (record_order hb swapflag rec) widths2 rec))) 0 (-1) (-1) (bytes_at (record_order hb swapflag rec) rec 46 2)
       (seed_items (record_order hb swapflag rec) details seed_fixed rec)) ltac:(lia)) as N.
  destruct (raw_chain _ _ _ _ _ _ _ _); exact N.
Qed.

(** ** Records by the layout *)

Lemma values_app big w ws (a r : list Z) : length a = w -> values big (w :: ws) (a ++ r) = num big a :: values big ws r.
Proof. intros <-. cbn [values]. rewrite firstn_app_exact, skipn_app_exact by reflexivity. reflexivity. Qed.

Lemma num_le n v : in_u (8 * Z.of_nat n) v -> num false (le_bytes n v) = v.
Proof. intros H. unfold num. rewrite le_val_le_bytes. apply Z.mod_small. exact H. Qed.

Lemma layout_values h : hdr_ok h -> lenZ (h_payload h) < 2 ^ 32 ->
  values false widths3 (layout3 h) =
  [77; 83; 3; h_flags h; h_nsec h; h_year h; h_day h; h_hour h; h_min h; h_sec h; h_enc h; h_rate h; h_cnt h; h_crc h;
   h_pub h; lenZ (h_sid h); lenZ (h_extra h); lenZ (h_payload h)].
Proof.
  intros (H1 & H2 & H3 & H4 & H5 & H6 & H7 & H8 & H9 & H10 & H11 & H12 & _ & H13 & _ & H14 & _) HP.
  unfold layout3, fixed3, widths3. rewrite <- !app_assoc.
  assert (C : forall w ws x (r : list Z), w = 1%nat -> values false (w :: ws) (x :: r) = x :: values false ws r).
  { intros w ws x r ->. cbn [values firstn skipn num le_val]. f_equal. lia. }
  assert (V : forall w ws v (r : list Z), in_u (8 * Z.of_nat w) v -> values false (w :: ws) (le_bytes w v ++ r) = v :: values false ws r).
  { intros w ws v r H. rewrite values_app by apply le_bytes_length. now rewrite num_le. }
  unfold in_u in *. pose proof (lenZ_nonneg (h_extra h)). pose proof (lenZ_nonneg (h_payload h)).
  cbn [app]. rewrite !C by reflexivity. rewrite !V by (unfold in_u; cbn in *; lia).
  cbn [app]. rewrite !C by reflexivity. rewrite !V by (unfold in_u; cbn in *; lia).
  cbn [app]. rewrite !C by reflexivity. rewrite !V by (unfold in_u; cbn in *; lia). reflexivity.
Qed.

Lemma layout_dump hb h details : hdr_ok h -> 4 <= lenZ (h_sid h) -> 1900 <= h_year h <= 2100 -> 1 <= h_day h <= 366 ->
  h_nsec h <= 999999999 ->
  exists text,
  parse_raw3 hb (Some (layout3 h)) (lenZ (layout3 h)) details =
  Ok (mk_raw 0 (if 1 <=? details
                then IText (firstn 189 (shown (h_sid h))) ::
                     map INum [77; 83; h_flags h; h_year h; h_day h; h_hour h; h_min h; h_sec h; h_nsec h; h_rate h;
                               h_enc h; h_pub h; h_cnt h; h_crc h; lenZ (h_sid h); lenZ (h_extra h); lenZ (h_payload h)]
                else []) text)
  /\ (if (2 <=? details) && (0 <? lenZ (h_extra h))
      then exists body, text = body ++ [10] /\ pretty_print (interior (h_extra h)) body
      else text = []).
Proof.
  intros H S4 Y D N.
  assert (HH := H). destruct HH as (H1 & H2 & H3 & H4 & H5 & H6 & H7 & H8 & H9 & H10 & H11 & H12 & HS & H13 & HE & H14 & HPB & HL).
  assert (L40 : length (fixed3 h) = 40%nat).
  { unfold fixed3. rewrite !app_length. cbn [length]. rewrite !le_bytes_length. reflexivity. }
  assert (LL : lenZ (layout3 h) = 40 + lenZ (h_sid h) + lenZ (h_extra h) + lenZ (h_payload h)).
  { unfold layout3, lenZ. rewrite !app_length, L40. lia. }
  pose proof (lenZ_nonneg (h_extra h)). pose proof (lenZ_nonneg (h_payload h)).
  assert (HP : lenZ (h_payload h) < 2 ^ 32) by lia.
  assert (LE : forall n v, bytes_ok (le_bytes n v)) by (intros n; induction n as [|n IH]; intros v; cbn [le_bytes]; constructor; [unfold byte_ok; lia|apply IH]).
  assert (BL : bytes_ok (layout3 h)).
  { unfold layout3, fixed3, bytes_ok. rewrite !Forall_app. unfold in_u in *.
    repeat split; try apply LE; try assumption; repeat (constructor; [unfold byte_ok; cbn in *; lia|]); constructor. }
  pose proof (layout_values h H HP) as V. assert (V' := V). rewrite fixed_values3 in V' by lia.
  assert (Es : sid_length (layout3 h) = lenZ (h_sid h)) by (unfold sid_length; congruence).
  assert (Ee : extra_length (layout3 h) = lenZ (h_extra h)) by (change (extra_length (layout3 h)) with (bytes_at false (layout3 h) 34 2); congruence).
  clear V'.
  destruct (raw3_ok hb (layout3 h) (lenZ (layout3 h)) details BL ltac:(lia) ltac:(lia) ltac:(lia)) as (text & E & T).
  cbv zeta in E. rewrite V in E. exists text.
  assert (Sp : sid_part (layout3 h) = h_sid h).
  { unfold sid_part. rewrite Es. unfold layout3. rewrite skipn_app_exact by exact L40.
    unfold lenZ. rewrite Nat2Z.id. apply firstn_app_exact. reflexivity. }
  assert (Ep : extra_part (layout3 h) = h_extra h).
  { unfold extra_part. rewrite Es, Ee. unfold layout3. rewrite app_assoc.
    rewrite skipn_app_exact by (rewrite app_length, L40; unfold lenZ; lia).
    unfold lenZ. rewrite Nat2Z.id. apply firstn_app_exact. reflexivity. }
  rewrite Es, Ee, Ep in T. rewrite Sp in E. split.
  - rewrite E. f_equal. f_equal. cbn [rules3]. rewrite !broken_cons, broken_nil. unfold within, in_u in *. cbn in H2.
    replace (1900 <=? h_year h) with true by lia. replace (h_year h <=? 2100) with true by lia.
    replace (1 <=? h_day h) with true by lia. replace (h_day h <=? 366) with true by lia.
    replace (0 <=? h_hour h) with true by lia. replace (h_hour h <=? 23) with true by lia.
    replace (0 <=? h_min h) with true by lia. replace (h_min h <=? 59) with true by lia.
    replace (0 <=? h_sec h) with true by lia. replace (h_sec h <=? 60) with true by lia.
    replace (0 <=? h_nsec h) with true by lia. replace (h_nsec h <=? 999999999) with true by lia. reflexivity.
  - replace (40 + lenZ (h_sid h) + lenZ (h_extra h) <=? lenZ (layout3 h)) with true in T by lia. rewrite andb_true_r in T. exact T.
Qed.
