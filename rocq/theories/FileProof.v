(** * Proofs about reading a file into a trace list. *)

From Verif Require Import Base BaseLemmas RecModel RecSpec RecProof DataSpec DataProof ReadModel ReadSpec ReadProof RangeProof
  TlModel TlSpec BufModel BufSpec BufProof BufRead BareProof BufUnpack FileModel FileSpec.
From Verif Require SelSpec SelProof.
From Coq Require Import ZifyBool.
Open Scope Z_scope.

(** ** Names *)

Lemma starts_as_iff prefix : forall s, starts_as prefix s = true <-> exists x y, s = x ++ y /\ Forall2 (fun c b => c = lower b) prefix x.
Proof.
  induction prefix as [|a prefix IH]; intros s; cbn [starts_as].
  - split; [intros _; exists [], s; split; [reflexivity|constructor]|reflexivity].
  - destruct s as [|b s]; [split; [discriminate|]|].
    + intros (x & y & E & F). inversion F; subst. discriminate.
    + rewrite andb_true_iff, IH, Z.eqb_eq. split.
      * intros [-> (x & y & -> & F)]. exists (b :: x), y. split; [reflexivity|constructor; auto].
      * intros (x & y & E & F). inversion F as [|? b' ? x' Hb F']; subst. cbn [app] in E. injection E as -> ->. split; [reflexivity|]. exists x', y. auto.
Qed.

Lemma lower_other c b : ~ 97 <= c <= 122 -> c = lower b -> b = c.
Proof. unfold lower. intros H E. destruct ((65 <=? b) && (b <=? 90)) eqn:X; lia. Qed.

Lemma no_scheme path : ~ has_colon path -> has_scheme path = false.
Proof.
  induction path as [|c path IH]; intros H; [reflexivity|]. cbn [has_scheme]. apply orb_false_iff. split.
  - destruct (starts_as _ _) eqn:E; [|reflexivity]. apply starts_as_iff in E. destruct E as (x & y & E & F). exfalso.
    inversion F as [|? x1 ? l1 H1 F1]; subst. inversion F1 as [|? x2 ? l2 H2 F2]; subst. inversion F2 as [|? x3 ? l3 H3 F3]; subst. inversion F3; subst.
    apply lower_other in H1, H2, H3; try lia. subst. apply H. exists [], y. exact E.
  - apply IH. intros (a & b & E). apply H. exists (c :: a), b. cbn. now rewrite E.
Qed.

Lemma local_plain path : ~ has_colon path -> local_name path = Some path.
Proof.
  intros H. unfold local_name. rewrite (no_scheme _ H). destruct (starts_as _ _) eqn:E; [|reflexivity]. exfalso.
  apply starts_as_iff in E. destruct E as (x & y & E & F).
  do 4 (let c := fresh "c" in let l := fresh "l" in let G := fresh "G" in inversion F as [|? c ? l ? G]; subst; clear F; rename G into F).
  inversion F as [|? x1 ? l1 K1 F1]; subst. inversion F1 as [|? x2 ? l2' K2 F2]; subst. inversion F2 as [|? x3 ? l3 K3 F3]; subst. inversion F3; subst.
  apply lower_other in K1, K2, K3; try lia. subst. apply H. exists [c; c0; c1; c2], y. reflexivity.
Qed.

Lemma F2len {A B} (R : A -> B -> Prop) : forall l m, Forall2 R l m -> length l = length m.
Proof. induction 1; cbn; congruence. Qed.

Lemma local_scheme scheme name : file_scheme scheme ->
  local_name (scheme ++ name) = Some name.
Proof.
  intros F. unfold file_scheme in F. unfold local_name. replace (starts_as _ _) with true.
  - f_equal. assert (L : length scheme = 7%nat) by (rewrite <- (F2len _ _ _ F); reflexivity). rewrite <- L. now apply skipn_app_exact.
  - symmetry. apply starts_as_iff. exists scheme, name. split; [reflexivity|].
    repeat match goal with F : Forall2 _ (_ :: _) _ |- _ => inversion F; subst; clear F | F : Forall2 _ [] _ |- _ => inversion F; subst; clear F end.
    repeat (apply Forall2_cons; [match goal with |- ?c = lower ?s => match goal with H : s = c \/ _ |- _ => destruct H as [->|[? ->]]; solve [reflexivity | lia] end end|]).
    constructor.
Qed.

Lemma yes_scheme path : has_colon path -> has_scheme path = true.
Proof.
  intros (a & b & ->). induction a as [|c a IH]; [reflexivity|]. cbn [app has_scheme]. apply orb_true_iff. right. exact IH.
Qed.

Lemma lower_is c b : c = lower b -> b = c \/ (97 <= c <= 122 /\ b = c - 32).
Proof. unfold lower. destruct ((65 <=? b) && (b <=? 90)) eqn:X; lia. Qed.

Lemma local_url path : has_colon path -> (forall scheme name, path = scheme ++ name -> ~ file_scheme scheme) -> local_name path = None.
Proof.
  intros H N. unfold local_name. rewrite (yes_scheme _ H). destruct (starts_as _ _) eqn:E; [|reflexivity]. exfalso.
  apply starts_as_iff in E. destruct E as (x & y & -> & F). apply (N x y eq_refl). unfold file_scheme.
  clear - F. induction F; constructor; [now apply lower_is|assumption].
Qed.

Lemma match_minus {X} (path : list Z) (x y : X) : path <> [45] -> (match path with [45] => x | _ => y end) = y.
Proof.
  intros N. destruct path as [|c [|c' p']]; try reflexivity;
    repeat match goal with |- context [match ?x with _ => _ end] => is_var x; destruct x end; try reflexivity; congruence.
Qed.

Lemma scheme_minus scheme name : file_scheme scheme -> scheme ++ name <> [45].
Proof. intros F X. apply (f_equal (@length Z)) in X. rewrite app_length, <- (F2len _ _ _ F) in X. cbn in X. lia. Qed.

(** Nothing is opened. *)
Lemma read_nothing fs stdin x sch path k heights : nothing fs (g_flags (t_read x)) path ->
  read_tracelist fs stdin x sch path k heights = Ok (-1, Some k, []).
Proof.
  assert (ST : forall p, no_range (g_flags (t_read x)) p -> lenZ p < 512 -> stored_path (g_flags (t_read x)) p = Ok (p, 0, 0))
    by (intros p N L; apply stored_unchanged; [exact L|unfold no_range in N; tauto]).
  unfold read_tracelist. intros [p R L N C E|name scheme R L F E|p R L C F]; rewrite ST by assumption; cbn [bind].
  - rewrite (match_minus _ _ _ N), (local_plain _ C), E. reflexivity.
  - rewrite (match_minus _ _ _ (scheme_minus _ _ F)), (local_scheme _ _ F), E. reflexivity.
  - rewrite match_minus, (local_url _ C F); [reflexivity|]. intros ->. destruct C as (a & b & X). destruct a as [|? [|]]; discriminate.
Qed.

(** What is opened. *)
Lemma holds_opens fs stdin flags path data : holds fs stdin flags path data ->
  exists p a b, stored_path flags path = Ok (p, a, b) /\
    (match path with
     | [45] => Some stdin
     | _ => match local_name p with Some n => fs n | None => None end
     end) = Some data /\ open_stream flags path data = Ok (p, opened data 0 0).
Proof.
  assert (OP : forall path data, stored_path flags path = Ok (path, 0, 0) -> open_stream flags path data = Ok (path, opened data 0 0)).
  { intros p d E. unfold open_stream. rewrite E. cbn [bind]. unfold opened. destruct p as [|c [|c' p']]; try reflexivity; cbn [Z.ltb Z.compare];
      repeat match goal with |- context [match ?x with _ => _ end] => is_var x; destruct x end; reflexivity. }
  assert (ND : forall (path : list Z) (x y : option (list Z)), path <> [45] -> (match path with [45] => x | _ => y end) = y).
  { intros p x y N. destruct p as [|c [|c' p']]; try reflexivity;
      repeat match goal with |- context [match ?x with _ => _ end] => is_var x; destruct x end; try reflexivity; congruence. }
  intros H. destruct H as [path data R L N S F|name scheme data R L S F|].
  - assert (E : stored_path flags path = Ok (path, 0, 0)) by (apply stored_unchanged; [exact L|unfold no_range in R; tauto]).
    exists path, 0, 0. split; [exact E|]. split; [|auto]. rewrite ND by exact N. now rewrite (local_plain _ S).
  - assert (E : stored_path flags (scheme ++ name) = Ok (scheme ++ name, 0, 0)) by (apply stored_unchanged; [exact L|unfold no_range in R; tauto]).
    exists (scheme ++ name), 0, 0. split; [exact E|]. split; [|auto]. rewrite ND.
    + now rewrite (local_scheme _ _ S).
    + now apply scheme_minus.
  - assert (E : stored_path flags [45] = Ok ([45], 0, 0)).
    { apply stored_unchanged; [cbn; lia|]. left. intros pre t a b X. destruct pre as [|c pre]; cbn in X; [discriminate|]. injection X as _ X. destruct pre; discriminate. }
    exists [45], 0, 0. split; [exact E|]. split; [reflexivity|auto].
Qed.

(** ** The loop *)

(** Without a record list: what [read_all] returns is added. *)
Lemma rt_all x sch named : has_flag (g_flags (t_read x)) 256 = false ->
  forall calls q l c k heights ptrs k', read_all calls (t_read x) sch q = Ok (l, c) -> (length l <= length heights)%nat ->
  add_all (t_conf x) k (combine (map (fun pm => trec_of (snd pm)) l) heights) = Ok k' ->
  rt_loop calls x sch named q k heights ptrs = Ok (if c =? 1 then 0 else c, Some k', ptrs).
Proof.
  intros F8. induction calls as [|calls IH]; intros q l c k heights ptrs k' E Hl A; [discriminate|]. cbn [read_all rt_loop] in *.
  destruct (read_msr (t_read x) sch q) as [[[rc om] q']| | |]; try discriminate. cbn [bind] in *. destruct om as [m|].
  - destruct (read_all calls (t_read x) sch q') as [[l' c']| | |] eqn:E'; try discriminate. injection E as <- <-.
    destruct heights as [|h heights]; [cbn in Hl; lia|]. cbn [map combine snd] in A. cbn [add_all] in A. cbn [hd tl].
    destruct (add_msr (t_conf x) k (trec_of m) h) as [k1| | |]; try discriminate. cbn [bind] in A.
    unfold MSF_RECORDLIST. rewrite F8. apply (IH q' l' c' k1 heights ptrs k' E'); [cbn in Hl; lia|exact A].
  - injection E as <- <-. cbn in A. injection A as <-. reflexivity.
Qed.

Lemma read_any fs stdin x sch path k heights name a b data name' q l c k' : has_flag (g_flags (t_read x)) 256 = false ->
  stored_path (g_flags (t_read x)) path = Ok (name, a, b) ->
  (path = [45] /\ data = stdin \/ path <> [45] /\ exists n, local_name name = Some n /\ fs n = Some data) ->
  open_stream (g_flags (t_read x)) path data = Ok (name', q) ->
  read_all (S (length data)) (t_read x) sch q = Ok (l, c) -> (length l <= length heights)%nat ->
  add_all (t_conf x) k (combine (map (fun pm => trec_of (snd pm)) l) heights) = Ok k' ->
  read_tracelist fs stdin x sch path k heights = Ok (if c =? 1 then 0 else c, Some k', []).
Proof.
  intros F8 S I O R Hl A. unfold read_tracelist. rewrite S. cbn [bind].
  replace (match path with [45] => Some stdin | _ => match local_name name with Some n => fs n | None => None end end) with (Some data).
  - rewrite O. cbn [bind]. now apply (rt_all x sch (fs path) F8 _ _ l).
  - destruct I as [(-> & ->)|(N & n & L & F)]; [reflexivity|]. now rewrite (match_minus _ _ _ N), L, F.
Qed.

(** With or without. *)
Lemma rt_reads x sch named (off : msr -> Z) : g_hb (t_read x) = false -> delivers sch ->
  forall l q p r n c calls k heights ptrs k', at_pos 0 q p r n -> 0 <= n -> reads (t_read x) 0 p r n l (Ok c) -> (length l < calls)%nat ->
  Forall (fun pm => 0 <= m_reclen (snd pm) /\ forall rec, lenZ rec = m_reclen (snd pm) -> exists size, data_bounds false rec (snd pm) = Ok (off (snd pm), size)) l ->
  (length l <= length heights)%nat ->
  add_all (t_conf x) k (combine (map (fun pm => trec_of (snd pm)) l) heights) = Ok k' ->
  rt_loop calls x sch named q k heights ptrs =
    Ok (if c =? 1 then 0 else c, Some k',
        ptrs ++ if has_flag (g_flags (t_read x)) 256 then map (fun pm => mk_rptr (no_data (snd pm)) (place named (fst pm)) (off (snd pm))) l else []).
Proof.
  intros HB HD. induction l as [|[p0 m] l IH]; intros q p r n c calls k heights ptrs k' A N R C D Hl AA; destruct calls as [|calls]; try (cbn in C; lia);
    cbn [rt_loop]; unfold read_msr.
  all: pose proof (loop_reads (t_read x) sch 0 HB HD ltac:(lia) (read_fuel q) q 0 p r n _ (Ok c) A ltac:(lia) R) as X.
  all: assert (F : 2 * lenZ (q_rest q) + 2 * lenZ r + (if 0 <? 0 then 0 else 1) < Z.of_nat (read_fuel q)).
  1, 3: destruct A as (_ & _ & _ & _ & _ & <- & _); unfold read_fuel, lenZ; rewrite app_length, skipn_length; cbn [Z.ltb Z.compare]; lia.
  all: specialize (X F); clear F; cbn [call_gives] in X.
  - destruct X as (q' & [-> | (L0 & _)]); [|lia]. cbn [bind]. cbn in AA. injection AA as <-. cbn [map]. destruct (has_flag _ 256); now rewrite app_nil_r.
  - destruct X as (q' & r' & -> & O' & A' & R'). cbn [bind]. destruct heights as [|h heights]; [cbn in Hl; lia|]. cbn [map combine snd add_all] in AA. cbn [hd tl].
    destruct (add_msr (t_conf x) k (trec_of m) h) as [k1| | |]; try discriminate. cbn [bind] in AA.
    inversion_clear D as [|? ? [M0 Dm] Dl]. cbn [snd fst map] in *.
    assert (P : q_pos q' - m_reclen m = p0) by (destruct A' as (-> & _); lia). rewrite P, HB. unfold MSF_RECORDLIST.
    destruct (has_flag (g_flags (t_read x)) 256) eqn:F8.
    + destruct (Dm (last_record q' m)) as (size & ->).
      { unfold last_record, lenZ. rewrite firstn_length, skipn_length. unfold at_pos, lenZ in A'. lia. }
      rewrite (IH q' _ _ _ c calls k1 heights _ k' A' ltac:(lia) R' ltac:(cbn in C; lia) Dl ltac:(cbn in Hl; lia) AA).
      now rewrite <- app_assoc.
    + rewrite (IH q' _ _ _ c calls k1 heights _ k' A' ltac:(lia) R' ltac:(cbn in C; lia) Dl ltac:(cbn in Hl; lia) AA). reflexivity.
Qed.

(** ** Files of records *)

Lemma bounds_any x d rec : hdr_ok (pt_hdr x) -> lenZ rec = lenZ (layout3 (pt_hdr x)) ->
  exists size, data_bounds false rec (rec_of false (pt_time x) (pt_hdr x) d) =
  Ok (40 + lenZ (until0 (h_sid (pt_hdr x))) + lenZ (h_extra (pt_hdr x)), size).
Proof.
  intros H LR. set (h := pt_hdr x) in *. unfold data_bounds. cbn [rec_of m_fver m_sid m_extra m_datalen m_enc m_cnt Z.eqb Pos.eqb bind].
  fold (lenZ (until0 (h_sid h))) (lenZ (h_extra h)). pose proof (until0_le (h_sid h)). pose proof (lenZ_nonneg (until0 (h_sid h))). pose proof (lenZ_nonneg (h_extra h)).
  pose proof (layout3_len h) as L. pose proof (lenZ_nonneg (h_payload h)).
  assert (M : lenZ (layout3 h) <= 10485760) by (unfold hdr_ok in H; tauto).
  rewrite uwrap_id by (unfold in_u; lia).
  match goal with |- context [if (?s mod 64 =? 0) && _ then _ else _] => set (s1 := s) end.
  destruct ((s1 mod 64 =? 0) && is_steim (h_enc h)) eqn:E; [|eauto].
  assert (S1 : s1 = lenZ (h_payload h)).
  { unfold s1, fixed_bytes. unfold is_steim in E. assert (h_enc h = 10 \/ h_enc h = 11) as [Q|Q] by lia; rewrite Q; reflexivity. }
  destruct (trim_ok rec (S (length rec)) s1) as (s & Es & _); [lia|lia|unfold lenZ in *; lia|]. rewrite Es. cbn [bind]. eauto.
Qed.

Definition head_off (m : msr) : Z := 40 + lenZ (m_sid m) + lenZ (m_extra m).

Lemma expected_bounds g : forall parts p, Forall (readable (g_mode g) (g_flags g)) parts ->
  Forall (fun pm => 0 <= m_reclen (snd pm) /\ forall rec, lenZ rec = m_reclen (snd pm) -> exists size, data_bounds false rec (snd pm) = Ok (head_off (snd pm), size))
         (expected g p parts).
Proof.
  unfold expected. induction parts as [|x parts IH]; intros p R; cbn [contents filter map]; [constructor|]. inversion_clear R as [|? ? Rx Rp].
  destruct (selected g (part_head (snd _))); cbn [map]; [|now apply IH]. constructor; [|now apply IH]. cbn [fst snd].
  assert (H : hdr_ok (pt_hdr x)) by (unfold readable in Rx; tauto). split; [cbn [part_rec rec_of m_reclen]; apply lenZ_nonneg|].
  intros rec L. destruct (bounds_any x (pt_data x) rec H L) as (size & E). exists size. exact E.
Qed.

Lemma expected_combine g (want : part -> bool) p parts : Forall (fun x => selected g (part_head x) = want x) parts ->
  map (fun pm : Z * msr => trec_of (snd pm)) (expected g p parts) = map (fun x => trec_of (part_rec x)) (filter want parts).
Proof.
  intros W. unfold expected. revert p. induction W as [|x parts Wx W IH]; intros p; cbn [contents filter map]; [reflexivity|]. cbn [snd]. rewrite Wx.
  destruct (want x); cbn [map fst snd]; now rewrite IH.
Qed.

Lemma expected_length g p parts : length (expected g p parts) = length (filter (fun x => selected g (part_head x)) parts).
Proof.
  unfold expected. revert p. induction parts as [|x parts IH]; intros p; cbn [contents filter map]; [reflexivity|]. cbn [snd].
  destruct (selected g (part_head x)); cbn [map length]; now rewrite IH.
Qed.

Lemma entries_made g named : forall parts p,
  Forall2 (file_entry named) (filter (fun px => selected g (part_head (snd px))) (contents p parts))
    (map (fun pm => mk_rptr (no_data (snd pm)) (place named (fst pm)) (head_off (snd pm))) (expected g p parts)).
Proof.
  unfold expected. induction parts as [|x parts IH]; intros p; cbn [contents filter map]; [constructor|]. cbn [snd].
  destruct (selected g (part_head x)); [|apply IH]. cbn [map fst snd]. constructor; [|apply IH]. repeat split.
Qed.

Lemma read_list fs stdin x sch path parts rest k heights k' : let g := t_read x in
  g_hb g = false -> delivers sch -> holds fs stdin (g_flags g) path (file_of parts rest) ->
  Forall (readable (g_mode g) (g_flags g)) parts -> bytes_ok rest -> junk_ok parts rest ->
  has_flag (g_flags g) 2 = true \/ no_junk parts rest -> lenZ (file_of parts rest) < 2 ^ 63 ->
  let wanted := filter (fun x => selected g (part_head x)) parts in
  (length wanted <= length heights)%nat ->
  add_all (t_conf x) k (combine (map (fun x => trec_of (part_rec x)) wanted) heights) = Ok k' ->
  exists ptrs, read_tracelist fs stdin x sch path k heights = Ok (if lenZ wanted =? 0 then -2 else 0, Some k', ptrs) /\
    if has_flag (g_flags g) 256
    then Forall2 (file_entry (fs path)) (filter (fun px => selected g (part_head (snd px))) (contents 0 parts)) ptrs
    else ptrs = [].
Proof.
  intros g HB HD H R B J F L wanted Hl A. destruct (holds_opens _ _ _ _ _ H) as (p & a & b & E1 & E2 & E3).
  unfold read_tracelist. fold g. rewrite E1. cbn [bind]. rewrite E2, E3. cbn [bind].
  assert (BT : bytes_ok (file_of parts rest)).
  { apply bytes_file; [|exact B]. eapply Forall_impl; [|exact R]. intros y Hy. unfold readable in Hy. tauto. }
  pose proof (reads_file g parts rest 0 0 ltac:(lia) R B J F) as RD.
  pose proof (reads_count _ _ _ _ _ _ _ BT RD) as RC.
  assert (AT : at_pos 0 (opened (file_of parts rest) 0 0) 0 (file_of parts rest) 0) by (apply opened_at; [exact BT|lia|lia]).
  rewrite (rt_reads x sch (fs path) head_off HB HD _ _ _ _ _ _ (S (length (file_of parts rest))) k heights [] k' AT ltac:(lia) RD).
  - eexists. split.
    + f_equal. f_equal. f_equal. unfold lenZ, wanted. rewrite (expected_length g 0 parts). cbn [Z.add]. now destruct (Z.of_nat (length (filter _ parts)) =? 0).
    + cbn [app]. fold g. destruct (has_flag (g_flags g) 256); [apply entries_made|reflexivity].
  - lia.
  - now apply expected_bounds.
  - rewrite expected_length. exact Hl.
  - rewrite (expected_combine g (fun x => selected g (part_head x))); [exact A|]. apply Forall_forall. reflexivity.
Qed.

(** ** Without samples, and unpacked later *)

Lemma flag2_off f : has_flag (Z.ldiff f 1) 2 = has_flag f 2.
Proof. unfold has_flag. rewrite Z.ldiff_land, <- !Z.land_assoc. reflexivity. Qed.
Lemma flag8_off f : has_flag (Z.ldiff f 1) 8 = has_flag f 8.
Proof. unfold has_flag. rewrite Z.ldiff_land, <- !Z.land_assoc. reflexivity. Qed.

Lemma holds_off fs stdin f path data : holds fs stdin f path data -> holds fs stdin (Z.ldiff f 1) path data.
Proof.
  intros [p d N L P S E|n s d N L F E|].
  - apply h_file; auto. unfold no_range in *. now rewrite flag8_off.
  - apply h_scheme; auto. unfold no_range in *. now rewrite flag8_off.
  - apply h_stdin.
Qed.

Lemma junk_undecoded rest : forall parts, junk_ok parts rest -> junk_ok (map undecoded parts) rest.
Proof.
  induction parts as [|x parts IH]; cbn [map junk_ok]; [auto|]. intros [A B]. split; [|auto].
  change (file_of (undecoded x :: map undecoded parts) rest) with (file_of (map undecoded (x :: parts)) rest). rewrite file_undecoded. exact A.
Qed.

Lemma no_junk_undecoded rest parts : no_junk parts rest -> no_junk (map undecoded parts) rest.
Proof. intros [A B]. split; [|exact B]. clear B. induction A; constructor; auto. Qed.

Lemma file_entries_same named l l' ps qs : Forall2 (file_entry named) l ps -> Forall2 (file_entry named) l' qs ->
  l' = map (fun px => (fst px, undecoded (snd px))) l -> ps = qs.
Proof.
  intros F. revert l' qs. induction F as [|px p l ps H F IH]; intros l' qs G E; cbn [map] in E; subst l'; inversion G as [|? q ? qs' H' G' X Y]; subst; [reflexivity|].
  f_equal; [|eapply IH; eauto]. destruct H as (A1 & A2 & A3), H' as (B1 & B2 & B3). destruct p, q; cbn in *. unfold part_head in *. cbn in *. congruence.
Qed.

Lemma file_deferred fs stdin x sch path parts rest heights k : let g := t_read x in
  g_hb g = false -> delivers sch -> holds fs stdin (g_flags g) path (file_of parts rest) -> has_flag (g_flags g) 256 = true -> blind (t_conf x) ->
  Forall (readable (g_mode g) (g_flags g)) parts -> bytes_ok rest -> junk_ok parts rest ->
  has_flag (g_flags g) 2 = true \/ no_junk parts rest -> lenZ (file_of parts rest) < 2 ^ 63 ->
  (length parts <= length heights)%nat ->
  add_all (t_conf x) tl_init (combine (map (fun x => trec_of (part_rec x)) (filter (fun x => selected g (part_head x)) parts)) heights) = Ok k ->
  exists c ptrs k', read_tracelist fs stdin x sch path tl_init heights = Ok (c, Some k, ptrs) /\
    read_tracelist fs stdin (t_undecoded x) sch path tl_init heights = Ok (c, Some k', ptrs) /\ same_without_samples k k'.
Proof.
  intros g HB HD H F8 Bl R B J F L Hh A. set (w := fun x => selected g (part_head x)) in *.
  assert (FL : forall l : list part, (length (filter w l) <= length l)%nat).
  { induction l as [|a l IH]; cbn; [lia|]. destruct (w a); cbn; lia. }
  pose proof (FL parts) as FLp.
  destruct (read_list fs stdin x sch path parts rest tl_init heights k HB HD H R B J F L ltac:(fold g; fold w; lia) A) as (ptrs & R1 & P1). fold g in R1, P1. rewrite F8 in P1.
  destruct (added_bare _ _ _ Bl A) as (k' & A' & Sm).
  assert (FM : filter w (map undecoded parts) = map undecoded (filter w parts)) by apply (BufUnpack.filter_map undecoded w).
  destruct (read_list fs stdin (t_undecoded x) sch path (map undecoded parts) rest tl_init heights k') as (ptrs' & R2 & P2); cbn [t_undecoded t_read g_undecoded g_hb g_flags g_mode]; fold g.
  - exact HB.
  - exact HD.
  - rewrite file_undecoded. now apply holds_off.
  - clear - R. induction R; constructor; auto using readable_undecoded.
  - exact B.
  - now apply junk_undecoded.
  - rewrite flag2_off. destruct F; [left; assumption|right; now apply no_junk_undecoded].
  - now rewrite file_undecoded.
  - change (fun y => selected (g_undecoded g) (part_head y)) with w. rewrite FM, map_length. lia.
  - change (fun y => selected (g_undecoded g) (part_head y)) with w. rewrite FM, map_map. replace (t_conf (t_undecoded x)) with (t_conf x).
    2:{ unfold t_conf, MSF_RECORDLIST. cbn [t_undecoded t_read g_undecoded g_mode g_flags t_leaps t_ttol t_rtol t_split]. now rewrite flag256_off. }
    rewrite <- A'. f_equal. rewrite <- combine_map. f_equal. rewrite map_map. apply map_ext. apply bare_trec.
  - cbn [t_undecoded t_read g_undecoded g_hb g_flags g_mode] in R2, P2. fold g in R2, P2.
    change (fun y => selected (g_undecoded g) (part_head y)) with w in R2. rewrite flag256_off, F8 in P2.
    assert (ptrs = ptrs') as <-.
    { eapply file_entries_same; [exact P1|exact P2|]. rewrite contents_undecoded.
      apply (BufUnpack.filter_map (fun px : Z * part => (fst px, undecoded (snd px))) (fun px => w (snd px))). }
    eexists _, ptrs, k'. split; [exact R1|]. split; [|exact Sm]. rewrite R2. rewrite FM. unfold lenZ. now rewrite map_length.
Qed.

Lemma file_unpacked (x : tconf) (fs : files) path parts rest heights want k ids t segs s ps al null0 : let g := t_read x in g_mode g = Strict ->
  has_flag (g_flags g) 1 = true -> has_flag (g_flags g) 256 = true -> fs path = Some (file_of parts rest) ->
  Forall (readable (g_mode g) (g_flags g)) parts -> Forall (fun x => 0 < h_cnt (pt_hdr x)) parts -> Forall valid_height heights ->
  add_all (t_conf x) tl_init (combine (map (fun x => trec_of (part_rec x)) (filter want parts)) heights) = Ok k ->
  tl_ids k = Ok ids -> In t ids -> tid_segs t = Ok segs -> In s segs -> s_cnt s < 2 ^ 60 ->
  Forall2 (file_entry_of (fs path) parts) (s_recs s) ps -> (al = true -> Forall data_aligned ps) ->
  unpack_recordlist false (g_mode g) al null0 (bare_seg s) None (Some ps) = Ok (s_cnt s, s_data s, seg_samples (bare_seg s) (s_type s) (s_data s)).
Proof.
  intros g St F1 F8 E R J V A Ei It Es Is C60 G Al. rewrite St in *.
  apply (parts_unpacked (t_conf x) (g_flags g) parts rest heights want k ids t segs); auto.
  rewrite E in G. clear - G. induction G as [|x p L ps (px & I & (E1 & E2 & E3) & Ex) G IH]; constructor; [|exact IH]. exists px. split; [exact I|]. split; [|exact Ex].
  split; [exact E1|]. split; [right; exact E2|exact E3].
Qed.

(** ** A time window *)
Lemma window_selects mode leaps a b x e : endtime mode leaps (pt_time x) (h_cnt (pt_hdr x)) (h_rate (pt_hdr x)) = Ok e ->
  ~ SelSpec.open (pt_time x) -> ~ SelSpec.open e -> pt_time x <= e -> SelSpec.wellformed_window (a, b) ->
  (select_by mode leaps (timewin_selection a b) (part_head x) = true <-> SelSpec.overlaps (pt_time x) e (a, b)).
Proof.
  intros E O1 O2 L W. assert (PT : GlobSpec.pat_text [42] [GlobSpec.Star]) by (apply GlobSpec.pt_star; constructor).
  assert (WF : SelSpec.wellformed (timewin_selection a b)).
  { constructor; [|constructor]. cbn. split; [|split; [constructor; [exact W|constructor]|lia]]. exists [GlobSpec.Star]. split; [exact PT|]. intros c [X|[]]; discriminate. }
  unfold select_by. change (m_start (part_head x)) with (pt_time x). change (m_cnt (part_head x)) with (h_cnt (pt_hdr x)). change (m_rate (part_head x)) with (h_rate (pt_hdr x)).
  rewrite E. cbn [bind].
  destruct (SelProof.matchselect_ok (timewin_selection a b) (m_sid (part_head x)) (pt_time x) e (m_pub (part_head x)) WF O1 O2 L) as (r & -> & R).
  destruct r as [[en w]|].
  - split; [intros _|reflexivity]. destruct R as (I & _ & R). destruct I as [<-|[]]. cbn [SelModel.s_win] in R. destruct w as [w|]; [|discriminate].
    destruct R as ([<-|[]] & R). exact R.
  - split; [discriminate|]. intros OV. exfalso. apply R. exists {| SelModel.s_pat := [42]; SelModel.s_win := [(a, b)]; SelModel.s_ver := 0 |}. split; [left; reflexivity|].
    split; [|split; [left; reflexivity|right; exists (a, b); split; [left; reflexivity|exact OV]]].
    exists [GlobSpec.Star]. split; [exact PT|]. split; [intros c [X|[]]; discriminate|]. cbn [SelModel.s_pat]. generalize (m_sid (part_head x)). intros l.
    rewrite <- (app_nil_r l). apply GlobSpec.m_star. constructor.
Qed.

Lemma window_list (fs : files) stdin (x : tconf) sch path parts rest (k : tlist) heights (k' : tlist) (keep : part -> bool) a b : let g := t_read x in
  g_hb g = false -> delivers sch -> holds fs stdin (g_flags g) path (file_of parts rest) ->
  Forall (readable (g_mode g) (g_flags g)) parts -> bytes_ok rest -> junk_ok parts rest ->
  has_flag (g_flags g) 2 = true \/ no_junk parts rest -> lenZ (file_of parts rest) < 2 ^ 63 -> SelSpec.wellformed_window (a, b) ->
  Forall (fun p => exists e, endtime (g_mode g) (t_leaps x) (pt_time p) (h_cnt (pt_hdr p)) (h_rate (pt_hdr p)) = Ok e /\
    ~ SelSpec.open (pt_time p) /\ ~ SelSpec.open e /\ pt_time p <= e /\ (keep p = true <-> SelSpec.overlaps (pt_time p) e (a, b))) parts ->
  let wanted := filter keep parts in
  (length wanted <= length heights)%nat ->
  add_all (t_conf x) k (combine (map (fun x => trec_of (part_rec x)) wanted) heights) = Ok k' ->
  exists ptrs, read_timewin fs stdin x sch path a b k heights = Ok (if lenZ wanted =? 0 then -2 else 0, Some k', ptrs) /\
    if has_flag (g_flags g) 256
    then Forall2 (file_entry (fs path)) (filter (fun px => keep (snd px)) (contents 0 parts)) ptrs
    else ptrs = [].
Proof.
  intros g HB D H R BR J NJ L W K wanted LW A. unfold read_timewin.
  assert (SE : forall p, In p parts -> selected (t_read (with_window x a b)) (part_head p) = keep p).
  { intros p I. rewrite Forall_forall in K. destruct (K p I) as (e & E & O1 & O2 & LE & IFF).
    unfold selected. cbn [with_window t_read g_select]. apply Bool.eq_iff_eq_true. rewrite IFF. now apply window_selects. }
  assert (FE : filter (fun x0 => selected (t_read (with_window x a b)) (part_head x0)) parts = wanted) by (apply filter_ext_in; exact SE).
  assert (FC : filter (fun px => selected (t_read (with_window x a b)) (part_head (snd px))) (contents 0 parts) = filter (fun px => keep (snd px)) (contents 0 parts)).
  { apply filter_ext_in. intros px I. apply SE. clear -I. revert I. generalize 0. induction parts as [|p parts IH]; intros z I; [destruct I|].
    destruct I as [<-|I]; [left; reflexivity|right; eapply IH; exact I]. }
  pose proof (read_list fs stdin (with_window x a b) sch path parts rest k heights k') as RL. cbv zeta in RL. rewrite FE, FC in RL. apply RL; assumption.
Qed.
