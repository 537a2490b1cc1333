(** * Proofs about unpacking record lists. *)

From Verif Require Import Base BaseLemmas RecModel RecSpec RecProof DataSpec DataProof ReadModel ReadSpec ReadProof
  TlModel TlSpec TlIds BufModel BufSpec BufProof BufRead BareProof.
From Coq Require Import ZifyBool Permutation.
Open Scope Z_scope.

Lemma known_sizetype e : known_encoding e <-> encoding_sizetype e = Some (decoded_bytes e, type_of e).
Proof.
  split.
  - intros H. cbn in H. repeat (destruct H as [<-|H]; [reflexivity|]). contradiction.
  - unfold encoding_sizetype, known_encoding.
    repeat match goal with |- (if ?c then _ else _) = _ -> _ => destruct c eqn:?C end; intros; try discriminate; cbn; lia.
Qed.

Lemma unknown_sizetype e : ~ known_encoding e -> encoding_sizetype e = None.
Proof.
  intros H. destruct (encoding_sizetype e) as [[s t]|] eqn:E; [|reflexivity]. exfalso. apply H, known_sizetype.
  destruct (sizetype_type _ _ _ E) as [-> ->]. exact E.
Qed.

Lemma decoded_small e : 1 <= decoded_bytes e <= 8.
Proof. unfold decoded_bytes. repeat match goal with |- context [match ?x with _ => _ end] => destruct x end; lia. Qed.

Lemma holds_count hb mode p d : entry_holds hb mode p d -> lenZ (sample_words d) = m_cnt (p_msr p) /\ 0 <= m_cnt (p_msr p).
Proof.
  intros [[C ->]|(C & _ & _ & rec & ext & a & _ & _ & _ & _ & _ & U)]; [rewrite C; cbn; lia|]. rewrite words_len, (unpack_count _ _ _ _ _ _ U C). lia.
Qed.

Lemma holds_total hb mode ps ds : Forall2 (entry_holds hb mode) ps ds -> lenZ (concat (map sample_words ds)) = total ps /\ 0 <= total ps.
Proof.
  unfold total. induction 1 as [|p d ps ds H _ [IH1 IH2]]; cbn [map concat sum fold_right]; [split; [reflexivity|lia]|]. fold (sum (map (fun p => m_cnt (p_msr p)) ps)).
  rewrite lenZ_app. destruct (holds_count _ _ _ _ H). lia.
Qed.

Lemma unpack_list hb mode al null0 s out p ps ds :
  Forall2 (entry_holds hb mode) (p :: ps) ds -> (al = true -> Forall data_aligned (p :: ps)) ->
  known_encoding (m_enc (p_msr p)) ->
  Forall (fun q => 0 < m_cnt (p_msr q) -> type_of (m_enc (p_msr q)) = type_of (m_enc (p_msr p))) (p :: ps) ->
  s_cnt s = total (p :: ps) -> s_cnt s < 2 ^ 60 ->
  match out with Some cap => s_cnt s * decoded_bytes (m_enc (p_msr p)) <= cap | None => s_data s = [] /\ 0 < s_cnt s end ->
  unpack_recordlist hb mode al null0 s out (Some (p :: ps)) =
    Ok (s_cnt s, concat (map sample_words ds),
        seg_samples s (if 0 <? s_cnt s then type_of (m_enc (p_msr p)) else s_type s)
                    (match out with Some _ => s_data s | None => concat (map sample_words ds) end)).
Proof.
  intros F A Kn T C C60 O. unfold unpack_recordlist.
  assert (Ke : 0 <= m_enc (p_msr p) < 256) by (cbn in Kn; lia). rewrite (uwrap_id 8) by (unfold in_u; lia).
  pose proof (proj1 (known_sizetype _) Kn) as Es. rewrite Es.
  destruct (holds_total _ _ _ _ F) as [L L0]. pose proof (decoded_small (m_enc (p_msr p))) as D.
  assert (P : 0 <= s_cnt s * decoded_bytes (m_enc (p_msr p)) < 2 ^ 63) by (rewrite C in *; nia).
  rewrite sarith_ok by (unfold in_s; lia). cbn [bind]. rewrite uwrap_id by (unfold in_u; lia).
  rewrite (url_ok hb mode al _ _ _ Es _ ds _ F A T).
  2:{ unfold mul_sum. fold (total (p :: ps)). rewrite <- C. lia. }
  fold (lenZ (concat (map sample_words ds))). rewrite L, <- C.
  destruct out as [cap|].
  - replace (cap <? s_cnt s * decoded_bytes (m_enc (p_msr p))) with false by lia. reflexivity.
  - destruct O as [-> O]. replace (s_cnt s * decoded_bytes (m_enc (p_msr p)) =? 0) with false by nia. reflexivity.
Qed.

Lemma unpack_small hb mode al null0 s cap p ps : known_encoding (m_enc (p_msr p)) -> 0 <= s_cnt s < 2 ^ 60 ->
  cap < s_cnt s * decoded_bytes (m_enc (p_msr p)) ->
  unpack_recordlist hb mode al null0 s (Some cap) (Some (p :: ps)) = Ok (-1, [], s).
Proof.
  intros Kn C O. unfold unpack_recordlist. assert (Ke : 0 <= m_enc (p_msr p) < 256) by (cbn in Kn; lia). rewrite (uwrap_id 8) by (unfold in_u; lia).
  rewrite (proj1 (known_sizetype _) Kn). pose proof (decoded_small (m_enc (p_msr p))) as D.
  assert (P : 0 <= s_cnt s * decoded_bytes (m_enc (p_msr p)) < 2 ^ 63) by nia.
  rewrite sarith_ok by (unfold in_s; lia). cbn [bind]. rewrite uwrap_id by (unfold in_u; lia).
  replace (cap <? s_cnt s * decoded_bytes (m_enc (p_msr p))) with true by lia. reflexivity.
Qed.

Lemma url_unusable hb mode al size type e0 q tail : encoding_sizetype e0 = Some (size, type) -> unusable type q -> forall ps ds room,
  Forall2 (entry_holds hb mode) ps ds -> (al = true -> Forall data_aligned ps) ->
  Forall (fun p => 0 < m_cnt (p_msr p) -> type_of (m_enc (p_msr p)) = type) ps ->
  mul_sum size ps <= room < 2 ^ 64 ->
  url_loop hb mode al size type room (ps ++ q :: tail) = Err (-1).
Proof.
  intros E0 (Qc & Qe & Q) ps ds room F A T R.
  revert ds room F A T R. induction ps as [|p ps IH]; intros ds room F A T R.
  - cbn [app url_loop]. destruct (Z.eqb_spec (m_cnt (p_msr q)) 0); [lia|]. rewrite (uwrap_id 8) by (unfold in_u; lia).
    destruct (encoding_sizetype (m_enc (p_msr q))) as [[s t]|] eqn:E; [|reflexivity]. destruct (sizetype_type _ _ _ E) as [Et Es].
    destruct (Z.eqb_spec t type) as [Y|N]; [|reflexivity]. cbn [negb]. destruct Q as [Q|[Q|Q]].
    + exfalso. apply Q, known_sizetype. rewrite <- Et, <- Es. exact E.
    + congruence.
    + unfold rp_input. destruct (p_src q) as [|data|]; [contradiction| |reflexivity]. fold (lenZ data).
      replace (lenZ data <? m_reclen (p_msr q)) with true by lia. reflexivity.
  - inversion F as [|? d ? ds' H F' X Y]; subst. inversion_clear T as [|? ? Tp Ts].
    assert (A' : al = true -> Forall data_aligned ps) by (intros W; specialize (A W); now inversion_clear A).
    assert (A1 : al = true -> Forall data_aligned [p]) by (intros W; specialize (A W); inversion_clear A; auto).
    assert (S0 : 1 <= size <= 8) by (destruct (sizetype_type _ _ _ E0) as [_ ->]; apply decoded_small).
    destruct (holds_count _ _ _ _ H) as [Hl Hc]. destruct (holds_total _ _ _ _ F') as [_ G]. unfold total in G.
    unfold mul_sum in R. cbn [map sum fold_right] in R. fold (sum (map (fun p => m_cnt (p_msr p)) ps)) in R.
    pose proof (url_ok hb mode al size type e0 E0 [p] [d] room (Forall2_cons _ _ H (Forall2_nil _)) A1 (Forall_cons _ Tp (Forall_nil _))) as One.
    assert (CS : 0 <= m_cnt (p_msr p) * size) by nia. assert (GS : 0 <= sum (map (fun p => m_cnt (p_msr p)) ps) * size) by nia.
    specialize (One ltac:(unfold mul_sum; cbn [map sum fold_right]; lia)).
    cbn [app]. cbn [url_loop] in One |- *. destruct (m_cnt (p_msr p) =? 0) eqn:Z0.
    + apply (IH ds' room); auto. unfold mul_sum. lia.
    + destruct (encoding_sizetype (uwrap 8 (m_enc (p_msr p)))) as [[? t]|]; [|discriminate]. destruct (negb (t =? type)); [discriminate|].
      destruct (rp_input p) as [[i a]| | |]; cbn [bind] in One |- *; try discriminate.
      destruct (al && _); [discriminate|]. destruct (decode_data _ _ _ _ _ _ _ _) as [d'| | |] eqn:Ed; try discriminate.
      rewrite (decode_count _ _ _ _ _ _ _ _ _ Ed), uwrap_id by (unfold in_u; lia). rewrite (IH ds' (room - m_cnt (p_msr p) * size)); auto. unfold mul_sum. lia.
Qed.

Lemma unpack_unusable hb mode al null0 s out p ps q tail ds :
  Forall2 (entry_holds hb mode) ps ds -> (al = true -> Forall data_aligned ps) ->
  known_encoding (m_enc (p_msr p)) -> (exists l, ps ++ q :: tail = p :: l) -> unusable (type_of (m_enc (p_msr p))) q ->
  Forall (fun q => 0 < m_cnt (p_msr q) -> type_of (m_enc (p_msr q)) = type_of (m_enc (p_msr p))) ps ->
  total ps <= s_cnt s < 2 ^ 60 ->
  unpack_recordlist hb mode al null0 s out (Some (ps ++ q :: tail)) = Ok (-1, [], s).
Proof.
  intros F A Kn (l & El) U T C. pose proof (proj1 (known_sizetype _) Kn) as Es.
  assert (Ke : 0 <= m_enc (p_msr p) < 256) by (cbn in Kn; lia). pose proof (decoded_small (m_enc (p_msr p))) as D.
  destruct (holds_total _ _ _ _ F) as [_ L0].
  assert (P : 0 <= s_cnt s * decoded_bytes (m_enc (p_msr p)) < 2 ^ 63) by nia.
  pose proof (url_unusable hb mode al _ _ _ q tail Es U ps ds (s_cnt s * decoded_bytes (m_enc (p_msr p))) F A T) as X.
  rewrite El in *. unfold unpack_recordlist. rewrite (uwrap_id 8) by (unfold in_u; lia). rewrite Es.
  rewrite sarith_ok by (unfold in_s; lia). cbn [bind]. rewrite uwrap_id by (unfold in_u; lia).
  rewrite X. 2:{ unfold mul_sum. fold (total ps). nia. }
  match goal with |- (if ?c then _ else _) = _ => destruct c end; reflexivity.
Qed.

(** ** From a buffer *)

Lemma in_contents x : forall parts p pos, In (pos, x) (contents p parts) ->
  In x parts /\ p <= pos /\ forall rest, exists front tail, file_of parts rest = front ++ layout3 (pt_hdr x) ++ tail /\ lenZ front = pos - p.
Proof.
  induction parts as [|y parts IH]; intros p pos H; cbn [contents] in H; [contradiction|]. cbn [In] in H. pose proof (lenZ_nonneg (pt_junk y)).
  destruct H as [[= <- ->]|H].
  - split; [left; reflexivity|]. split; [lia|]. intros rest. exists (pt_junk x), (file_of parts rest). cbn [file_of]. split; [reflexivity|lia].
  - destruct (IH _ _ H) as (I1 & I2 & I3). pose proof (lenZ_nonneg (layout3 (pt_hdr y))). split; [right; exact I1|]. split; [lia|].
    intros rest. destruct (I3 rest) as (front & tail & E & L). exists (pt_junk y ++ layout3 (pt_hdr y) ++ front), tail. cbn [file_of].
    split; [rewrite E, <- !app_assoc; reflexivity|rewrite !lenZ_app; lia].
Qed.

(** An entry that points at its record, in memory or in the file. *)
Definition points (data : list Z) (px : Z * part) (p : rptr) : Prop :=
  p_msr p = part_head (snd px) /\
  ((exists a, p_src p = SBuf (skipn (Z.to_nat (fst px)) data) a) \/ p_src p = SFile (skipn (Z.to_nat (fst px)) data)) /\
  p_off p = 40 + lenZ (until0 (h_sid (pt_hdr (snd px)))) + lenZ (h_extra (pt_hdr (snd px))).

Lemma part_entry mode flags parts rest pos x d p : Forall (readable mode flags) parts ->
  In (pos, x) (contents 0 parts) -> pt_data x = Some d -> points (file_of parts rest) (pos, x) p -> entry_holds false mode p d.
Proof.
  intros R I Dx (E1 & E2 & E3). cbn [fst snd] in *. destruct (in_contents x parts 0 pos I) as (Ix & P0 & Fr). destruct (Fr rest) as (front & tail & Ef & Lf).
  rewrite Forall_forall in R. specialize (R _ Ix). destruct R as (_ & H & _ & _ & _ & _ & DD). rewrite Dx in DD. destruct DD as (_ & C & U).
  assert (L : lenZ (layout3 (pt_hdr x)) = 40 + lenZ (h_sid (pt_hdr x)) + lenZ (h_extra (pt_hdr x)) + lenZ (h_payload (pt_hdr x))) by (rewrite layout3_len; lia).
  pose proof (until0_le (h_sid (pt_hdr x))). pose proof (lenZ_nonneg (until0 (h_sid (pt_hdr x)))). pose proof (lenZ_nonneg (h_extra (pt_hdr x))). pose proof (lenZ_nonneg (h_payload (pt_hdr x))).
  right. rewrite E1. unfold part_head. cbn [rec_of m_cnt m_enc m_swaph m_swapp m_reclen]. split; [exact C|]. split; [unfold hdr_ok, in_u in H; lia|]. split; [discriminate|].
  exists (layout3 (pt_hdr x)), (lenZ (h_payload (pt_hdr x))), 0. rewrite E3. split.
  - unfold bytes_at. rewrite E1. split; [reflexivity|]. assert (Es : skipn (Z.to_nat pos) (file_of parts rest) = layout3 (pt_hdr x) ++ tail).
    { rewrite Ef. replace (Z.to_nat pos) with (length front) by (unfold lenZ in Lf; lia). apply skipn_app_exact. reflexivity. }
    destruct E2 as [(a & ->)| ->]; exists tail; exact Es.
  - split; [left; repeat split; reflexivity|]. split; [lia|]. split; [lia|]. split; [lia|]. apply U.
Qed.

Lemma flag256_off a : has_flag (Z.ldiff a 1) 256 = has_flag a 256.
Proof. unfold has_flag. rewrite Z.ldiff_land, <- !Z.land_assoc. reflexivity. Qed.

Lemma entry_unique addr buffer px p q : entry_for addr buffer px p -> entry_for addr buffer px q -> p = q.
Proof. intros (A1 & A2 & A3) (B1 & B2 & B3). destruct p, q; cbn in *; congruence. Qed.

Lemma entries_same addr buffer l l' ps qs : Forall2 (entry_for addr buffer) l ps -> Forall2 (entry_for addr buffer) l' qs ->
  l' = map (fun px => (fst px, undecoded (snd px))) l -> ps = qs.
Proof.
  intros F. revert l' qs. induction F as [|px p l ps H F IH]; intros l' qs G E; cbn [map] in E; subst l'; inversion G as [|? q ? qs' H' G' X Y]; subst; [reflexivity|].
  f_equal; [|eapply IH; eauto]. destruct H as (A1 & A2 & A3), H' as (B1 & B2 & B3). destruct p, q; cbn in *. unfold part_head in *. cbn in *. congruence.
Qed.

Lemma contents_undecoded : forall parts p, contents p (map undecoded parts) = map (fun px => (fst px, undecoded (snd px))) (contents p parts).
Proof. induction parts as [|x parts IH]; intros p; cbn [map contents]; [reflexivity|]. cbn [undecoded pt_junk pt_hdr fst snd]. now rewrite IH. Qed.

Lemma file_undecoded rest : forall parts, file_of (map undecoded parts) rest = file_of parts rest.
Proof. induction parts as [|x parts IH]; cbn [map file_of undecoded pt_junk pt_hdr]; [reflexivity|now rewrite IH]. Qed.

Lemma filter_map {A B} (f : A -> B) (w : B -> bool) l : filter w (map f l) = map f (filter (fun x => w (f x)) l).
Proof. induction l as [|a l IH]; cbn; [reflexivity|]. destruct (w (f a)); cbn; now rewrite IH. Qed.

Lemma readable_undecoded mode flags x : readable mode flags x -> readable mode (Z.ldiff flags 1) (undecoded x).
Proof.
  intros (R1 & R2 & R3 & R4 & R5 & R6 & _). unfold readable, undecoded. cbn [pt_junk pt_hdr pt_time pt_data]. pose proof (has_flag_off flags) as [H1 H4].
  rewrite H1, H4. auto 10.
Qed.

Lemma all_undecoded parts rest : all_read parts rest -> all_read (map undecoded parts) rest.
Proof.
  intros A front y E. destruct (exists_last (l := parts)) as (fr & x & ->).
  - intros ->. destruct front; discriminate.
  - rewrite map_app in E. cbn [map] in E. apply app_inj_tail in E as [_ <-]. exact (A fr x eq_refl).
Qed.

Lemma bare_trec x : trec_of (part_rec (undecoded x)) = bare_rec (trec_of (part_rec x)).
Proof. unfold part_rec, undecoded, trec_of, bare_rec. cbn [pt_data pt_hdr pt_time rec_of m_data]. destruct (pt_data x); reflexivity. Qed.

Lemma combine_map {A B C} (f : A -> B) (l : list A) (h : list C) : combine (map f l) h = map (fun x => (f (fst x), snd x)) (combine l h).
Proof. revert h. induction l as [|a l IH]; intros [|c h]; cbn; try reflexivity. now rewrite IH. Qed.

Lemma without_samples b parts rest want heights k : b_hb b = false -> bytes_ok rest -> ends rest -> has_flag (b_flags b) 256 = true ->
  blind (b_conf b) ->
  Forall (readable (b_mode b) (b_flags b)) parts -> Forall (fun x => pt_junk x = []) parts -> all_read parts rest ->
  Forall (fun x => b_selected b (part_head x) = Ok (want (part_head x))) parts -> (length parts <= length heights)%nat ->
  add_all (b_conf b) tl_init (combine (map (fun x => trec_of (part_rec x)) (filter (fun x => want (part_head x)) parts)) heights) = Ok k ->
  exists n ptrs k', readbuffer b tl_init (file_of parts rest) heights = Ok (n, Some k, ptrs) /\
    readbuffer (b_undecoded b) tl_init (file_of parts rest) heights = Ok (n, Some k', ptrs) /\ same_without_samples k k'.
Proof.
  intros HB B E F8 Bl R J AR W Hh A. set (w := fun x => want (part_head x)) in *.
  assert (FL : forall l : list part, (length (filter w l) <= length l)%nat).
  { induction l as [|a l IH]; cbn; [lia|]. destruct (w a); cbn; lia. }
  pose proof (FL parts) as FLp.
  destruct (read_buffer b parts rest w tl_init heights k HB B E R J AR W ltac:(lia) A) as (ptrs & R1 & P1). rewrite F8 in P1.
  destruct (added_bare _ _ _ Bl A) as (k' & A' & Sm).
  assert (FM : filter w (map undecoded parts) = map undecoded (filter w parts)) by apply (filter_map undecoded w).
  destruct (read_buffer (b_undecoded b) (map undecoded parts) rest w tl_init heights k' HB B E) as (ptrs' & R2 & P2).
  - cbn [b_undecoded b_mode b_flags]. clear - R. induction R; constructor; auto using readable_undecoded.
  - clear - J. induction J; constructor; auto.
  - now apply all_undecoded.
  - clear - W. induction W; constructor; auto.
  - rewrite FM, map_length. lia.
  - rewrite FM, map_map. replace (b_conf (b_undecoded b)) with (b_conf b).
    2:{ unfold b_conf, MSF_RECORDLIST. cbn [b_undecoded b_mode b_leaps b_ttol b_rtol b_split b_flags]. now rewrite flag256_off. }
    rewrite <- A'. f_equal. rewrite <- combine_map. f_equal. rewrite map_map. apply map_ext. apply bare_trec.
  - rewrite file_undecoded in R2, P2. cbn [b_undecoded b_flags b_addr] in P2. rewrite flag256_off, F8 in P2.
    assert (ptrs = ptrs') as <-.
    { eapply entries_same; [exact P1|exact P2|]. rewrite contents_undecoded.
      rewrite (filter_map (fun px : Z * part => (fst px, undecoded (snd px))) (fun px => w (snd px))). reflexivity. }
    exists (lenZ (filter w parts)), ptrs, k'. split; [exact R1|]. split; [|exact Sm]. rewrite R2. rewrite FM. unfold lenZ. now rewrite map_length.
Qed.

Lemma filter_given mode flags (w : part -> bool) parts heights : Forall (readable mode flags) parts -> Forall valid_height heights ->
  given (combine (map (fun x => trec_of (part_rec x)) (filter w parts)) heights).
Proof.
  intros R V. unfold given. apply Forall_forall. intros [r h] I. pose proof (in_combine_l _ _ _ _ I) as I1. pose proof (in_combine_r _ _ _ _ I) as I2.
  rewrite Forall_forall in V. split; [apply V; exact I2|]. apply in_map_iff in I1 as (x & <- & Ix). apply filter_In in Ix as [Ix _].
  rewrite Forall_forall in R. specialize (R _ Ix). assert (H : hdr_ok (pt_hdr x)) by (unfold readable in R; tauto).
  cbn [fst]. unfold trec_of, part_rec. cbn [rec_of m_data]. destruct (pt_data x); cbn [r_pub rec_of m_pub]; unfold hdr_ok, in_u in H; lia.
Qed.

(** A segment of the list made of decoded records. *)
Lemma segment_unpacked f hb mode al null0 s L ps ds type : f_mode f = Strict -> made f s L -> Forall2 (entry_holds hb mode) ps ds ->
  Forall2 (fun x pd => r_data (fst x) = sample_words (snd pd) /\ r_type (fst x) = type_of (m_enc (p_msr (fst pd))) /\ r_cnt (fst x) = m_cnt (p_msr (fst pd)) /\
                       0 < m_cnt (p_msr (fst pd)) /\ known_encoding (m_enc (p_msr (fst pd)))) L (combine ps ds) ->
  (al = true -> Forall data_aligned ps) -> s_cnt s < 2 ^ 60 -> type = s_type s ->
  unpack_recordlist hb mode al null0 (bare_seg s) None (Some ps) = Ok (s_cnt s, s_data s, seg_samples (bare_seg s) type (s_data s)).
Proof.
  intros St M F G A C60 ->. destruct M as [(x0 & L' & EL & _) _ Md (z & Mc & Mz) _ Mt (xh & Ih & _ & Ht) _ _]. rewrite (Mz St) in Mc.
  destruct ps as [|p ps]; [inversion F; subst; cbn in G; inversion G; subst; discriminate|].
  assert (Dt : s_data s = concat (map sample_words ds) /\ s_cnt s = total (p :: ps) /\
               Forall (fun q => 0 < m_cnt (p_msr q) /\ known_encoding (m_enc (p_msr q)) /\ type_of (m_enc (p_msr q)) = s_type s) (p :: ps)).
  { rewrite Md, Mc. clear - F G Mt. unfold total. rewrite Z.mul_0_l, Z.add_0_r. generalize dependent ds. generalize dependent L. induction (p :: ps) as [|q qs IH]; intros L Mt ds F G.
    - inversion F; subst. cbn in G. inversion G; subst. cbn. repeat split; constructor.
    - inversion F as [|? d ? ds' Hq F' X Y]; subst. cbn [combine] in G. inversion G as [|x ? L1 ? Hx G' X Y]; subst. cbn [fst snd] in Hx. destruct Hx as (H1 & H2 & H3 & H4 & H5).
      inversion_clear Mt as [|? ? Mx Ms]. destruct (IH _ Ms ds' F' G') as (I1 & I2 & I3). cbn [map concat sum fold_right]. rewrite I1, H1, H3. split; [reflexivity|].
      split; [unfold sum in I2; lia|]. constructor; [|exact I3]. split; [exact H4|]. split; [exact H5|]. rewrite <- H2. apply Mx. rewrite H1.
      intros N. destruct (holds_count _ _ _ _ Hq) as [Hl _]. rewrite N in Hl. cbn in Hl. lia. }
  destruct Dt as (Dd & Dc & Df). inversion_clear Df as [|? ? Dp Ds]. destruct Dp as (D1 & D2 & D3).
  assert (P : 0 < s_cnt s).
  { assert (Z0 : 0 <= total ps) by (inversion F as [|? ? ? ? _ F' X Y]; subst; exact (proj2 (holds_total _ _ _ _ F'))). rewrite Dc. unfold total in *. cbn [map sum fold_right]. unfold sum in Z0. lia. }
  pose proof (unpack_list hb mode al null0 (bare_seg s) None p ps ds F A D2) as U. cbn [bare_seg s_cnt s_data] in U.
  rewrite U; [|constructor; [reflexivity|eapply Forall_impl; [|exact Ds]; cbn beta; intros q (_ & _ & Hq) _; congruence]|exact Dc|exact C60|split; [reflexivity|exact P]].
  replace (0 <? s_cnt s) with true by lia. rewrite D3, Dd. reflexivity.
Qed.

Lemma unpack_known hb mode a rec m d : unpack_data hb mode a rec m = Ok d -> 0 < m_cnt m -> 0 <= m_enc m < 256 -> known_encoding (m_enc m).
Proof.
  unfold unpack_data. intros E P He. destruct (Z.leb_spec (m_cnt m) 0); [lia|]. destruct (m_reclen m <? 0); [discriminate|].
  destruct (_ || _); [discriminate|]. destruct (2 ^ 31 - 1 <? m_cnt m); [discriminate|].
  match type of E with bind ?x _ = _ => destruct x as [[o s]| | |] end; cbn [bind] in E; try discriminate.
  destruct (_ || _); [discriminate|]. replace (m_enc m <? 0) with false in E by lia. rewrite (uwrap_id 8) in E by (unfold in_u; lia).
  destruct (encoding_sizetype (m_enc m)) as [[ss t]|] eqn:Es; [|discriminate]. apply known_sizetype.
  destruct (sizetype_type _ _ _ Es) as [<- <-]. exact Es.
Qed.

Lemma parts_unpacked f flags parts rest heights want k ids t segs s ps al null0 : f_mode f = Strict -> f_keep f = true -> has_flag flags 1 = true ->
  Forall (readable Strict flags) parts -> Forall (fun x => 0 < h_cnt (pt_hdr x)) parts -> Forall valid_height heights ->
  add_all f tl_init (combine (map (fun x => trec_of (part_rec x)) (filter want parts)) heights) = Ok k ->
  tl_ids k = Ok ids -> In t ids -> tid_segs t = Ok segs -> In s segs -> s_cnt s < 2 ^ 60 ->
  Forall2 (fun x p => exists px, In px (contents 0 parts) /\ points (file_of parts rest) px p /\ fst x = trec_of (part_rec (snd px))) (s_recs s) ps ->
  (al = true -> Forall data_aligned ps) ->
  unpack_recordlist false Strict al null0 (bare_seg s) None (Some ps) = Ok (s_cnt s, s_data s, seg_samples (bare_seg s) (s_type s) (s_data s)).
Proof.
  intros St F8 F1 R J V A Ei It Es Is C60 G Al.
  destruct (all_conserved _ _ _ (filter_given _ _ want parts heights R V) A) as (ids' & gss & (Hi & _ & _ & HF & _) & _). rewrite Ei in Hi. injection Hi as <-.
  assert (exists L, made f s L) as [L M].
  { clear - HF It Es Is. induction HF as [|t' gs ids gss ((segs' & Wf & Fm) & _) HF IH]; [contradiction|]. destruct It as [->|It]; [|auto].
    destruct Wf as (_ & E' & _). rewrite Es in E'. injection E' as <-. clear - Fm Is. induction Fm as [|s' L segs gs Hm Fm IH]; [contradiction|].
    destruct Is as [->|Is]; [eauto|auto]. }
  assert (EL : s_recs s = L) by (destruct M as [_ _ _ _ Mr _ _ _ _]; rewrite Mr, F8; reflexivity).
  rewrite EL in G.
  assert (X : exists ds, Forall2 (entry_holds false Strict) ps ds /\
    Forall2 (fun x pd => r_data (fst x) = sample_words (snd pd) /\ r_type (fst x) = type_of (m_enc (p_msr (fst pd))) /\ r_cnt (fst x) = m_cnt (p_msr (fst pd)) /\
                       0 < m_cnt (p_msr (fst pd)) /\ known_encoding (m_enc (p_msr (fst pd)))) L (combine ps ds)).
  { clear - G R J F1. induction G as [|x p L ps ([pos y] & Iy & En & Ex) G (ds & I1 & I2)]; [exists []; split; constructor|].
    destruct (in_contents y parts 0 pos Iy) as (Iy' & _ & _). pose proof R as R'. rewrite Forall_forall in R', J. specialize (R' _ Iy'). specialize (J _ Iy').
    cbn [snd] in Ex. destruct (pt_data y) as [d|] eqn:Ed.
    2:{ unfold readable in R'. rewrite Ed in R'. destruct R' as (_ & _ & _ & _ & _ & _ & [D|D]); [congruence|lia]. }
    exists (d :: ds). pose proof (part_entry _ _ _ rest pos y d p R Iy Ed En) as Hd. split; [constructor; assumption|]. cbn [combine]. constructor; [|exact I2].
    cbn [fst snd]. destruct En as (E1 & _ & _). cbn [snd] in E1. rewrite E1, Ex. unfold trec_of, part_rec, part_head. cbn [rec_of m_data m_enc m_cnt]. rewrite Ed. cbn [r_data r_type r_cnt].
    assert (Ke : 0 <= h_enc (pt_hdr y) < 256) by (destruct R' as (_ & H & _); unfold hdr_ok, in_u in H; lia).
    assert (Kn : known_encoding (h_enc (pt_hdr y))).
    { unfold readable in R'. rewrite Ed in R'. destruct R' as (_ & _ & _ & _ & _ & _ & _ & C & U). exact (unpack_known _ _ _ _ _ _ (U 0) C Ke). }
    unfold used_encoding. cbn [rec_of m_enc]. replace (h_enc (pt_hdr y) <? 0) with false by lia. rewrite (uwrap_id 8) by (unfold in_u; lia).
    rewrite (proj1 (known_sizetype _) Kn). split; [reflexivity|]. split; [reflexivity|]. split; [reflexivity|]. split; [tauto|exact Kn]. }
  destruct X as (ds & X1 & X2). apply (segment_unpacked f false Strict al null0 s L ps ds (s_type s) St M X1 X2 Al C60 eq_refl).
Qed.

Lemma buffer_unpacked b parts rest heights want k ids t segs s ps al null0 : b_hb b = false -> b_mode b = Strict ->
  has_flag (b_flags b) 1 = true -> has_flag (b_flags b) 256 = true ->
  Forall (readable (b_mode b) (b_flags b)) parts -> Forall (fun x => pt_junk x = [] /\ 0 < h_cnt (pt_hdr x)) parts -> Forall valid_height heights ->
  add_all (b_conf b) tl_init (combine (map (fun x => trec_of (part_rec x)) (filter want parts)) heights) = Ok k ->
  tl_ids k = Ok ids -> In t ids -> tid_segs t = Ok segs -> In s segs -> s_cnt s < 2 ^ 60 ->
  Forall2 (entry_of (b_addr b) (file_of parts rest) parts) (s_recs s) ps -> (al = true -> Forall data_aligned ps) ->
  unpack_recordlist false (b_mode b) al null0 (bare_seg s) None (Some ps) = Ok (s_cnt s, s_data s, seg_samples (bare_seg s) (s_type s) (s_data s)).
Proof.
  intros HB St F1 F8 R J V A Ei It Es Is C60 G Al. rewrite St in *.
  apply (parts_unpacked (b_conf b) (b_flags b) parts rest heights want k ids t segs); auto.
  - eapply Forall_impl; [|exact J]. cbn beta. tauto.
  - clear - G. induction G as [|x p L ps (px & I & (E1 & E2 & E3) & Ex) G IH]; constructor; [|exact IH]. exists px. split; [exact I|]. split; [|exact Ex].
    split; [exact E1|]. split; [left; eexists; exact E2|exact E3].
Qed.

(** ** The same records as from a file *)

Lemma expected_records g : forall parts p, map snd (expected g p parts) = map part_rec (filter (fun x => selected g (part_head x)) parts).
Proof.
  induction parts as [|x parts IH]; intros p; unfold expected in *; cbn [contents filter map snd]; [reflexivity|].
  destruct (selected g (part_head x)); cbn [map snd]; now rewrite IH.
Qed.

Lemma same_as_file b g sch parts rest : b_hb b = false -> g_hb g = false -> g_mode g = b_mode b -> g_flags g = b_flags b -> delivers sch ->
  Forall (readable (b_mode b) (b_flags b)) parts -> bytes_ok rest -> junk_ok parts rest -> no_junk parts rest -> all_read parts rest ->
  Forall (fun x => b_selected b (part_head x) = Ok (selected g (part_head x))) parts -> lenZ (file_of parts rest) < 2 ^ 63 ->
  exists l c, read_all (S (length (file_of parts rest))) g sch (opened (file_of parts rest) 0 0) = Ok (l, c) /\
    forall k heights k', (length l <= length heights)%nat ->
      add_all (b_conf b) k (combine (map (fun x => trec_of (snd x)) l) heights) = Ok k' ->
      exists ptrs, readbuffer b k (file_of parts rest) heights = Ok (lenZ l, Some k', ptrs).
Proof.
  intros HB HG GM GF D R B JO NJ AR W L. exists (expected g 0 parts). eexists. split.
  - apply file_read; auto. rewrite GM, GF. exact R.
  - intros k heights k' Hh A. pose proof (expected_records g parts 0) as X.
    assert (LX : length (expected g 0 parts) = length (filter (fun x => selected g (part_head x)) parts)).
    { rewrite <- (map_length snd), X, map_length. reflexivity. }
    rewrite <- (map_map snd trec_of), X, map_map in A. rewrite LX in Hh.
    destruct (read_buffer b parts rest (fun x => selected g (part_head x)) k heights k' HB B) as (ptrs & E & _); auto.
    + left. unfold no_junk in NJ. lia.
    + unfold no_junk in NJ. tauto.
    + exists ptrs. rewrite E. unfold lenZ. now rewrite LX.
Qed.
