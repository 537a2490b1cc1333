(** * Termination of version 2 parsing, and the search for a record length. *)

From Coq Require Import String.
From Verif Require Import Base BaseLemmas SteimModel CodecModel StrModel RecModel RecSpec RecProof DataSpec DataProof
  V2Model V2Spec V2Proof.
Open Scope Z_scope.

Definition nf {A} (r : res A) : Prop := r <> Fuel.

Lemma nf_bind {A B} (r : res A) (k : A -> res B) : nf r -> (forall x, r = Ok x -> nf (k x)) -> nf (bind r k).
Proof. unfold nf. intros H K. destruct r; cbn [bind]; auto; discriminate. Qed.
Lemma nf_ok {A} (x : A) : nf (Ok x). Proof. discriminate. Qed.
Lemma nf_err {A} c : nf (@Err A c). Proof. discriminate. Qed.
Lemma nf_ub {A} u : nf (@UB A u). Proof. discriminate. Qed.
Lemma nf_if {A} (b : bool) (x y : res A) : nf x -> nf y -> nf (if b then x else y).
Proof. destruct b; auto. Qed.
Lemma nf_sliceZ {A} o n (l : list A) : nf (sliceZ o n l).
Proof. unfold sliceZ. destruct (_ && _); discriminate. Qed.
Lemma nf_slice {A} o n (l : list A) : nf (slice o n l).
Proof. unfold slice. destruct (_ <=? _)%nat; discriminate. Qed.
Lemma nf_getZ {A} i (l : list A) : nf (getZ i l).
Proof. unfold getZ. destruct (0 <=? i); [destruct (nth_error _ _)|]; discriminate. Qed.
Lemma nf_setZ {A} i (v : A) l : nf (setZ i v l).
Proof. unfold setZ. destruct (_ && _); discriminate. Qed.
Lemma nf_rd h s n o b : nf (rd h s n o b).
Proof. unfold rd. apply nf_bind; [apply nf_sliceZ|]. intros; apply nf_ok. Qed.
Lemma nf_sarith m w v : nf (sarith m w v).
Proof. unfold sarith. destruct (in_sb w v); [discriminate|]. destruct m; discriminate. Qed.

Create HintDb nfdb.
#[local] Hint Resolve nf_ok nf_err nf_ub nf_sliceZ nf_slice nf_getZ nf_setZ nf_rd nf_sarith : nfdb.

Ltac nfs :=
  repeat (cbv zeta;
    first
    [ progress (eauto 1 with nfdb)
    | apply nf_bind; [|intros ? _]
    | apply nf_if
    | match goal with
      | |- nf (let (_, _) := ?p in _) => destruct p
      | |- nf (match ?p with (_, _) => _ end) => destruct p
      | |- nf (match ?l with [] => _ | _ :: _ => _ end) => destruct l
      | |- nf (match ?l with O => _ | S _ => _ end) => destruct l
      | |- nf (match ?l with Some _ => _ | None => _ end) => destruct l
      end ]).

(** ** Decoders *)

Lemma nf_dec_loop {A} wi wo (f : list Z -> res A) k : (forall w, nf (f w)) -> forall ocap input, nf (dec_loop wi wo f k ocap input).
Proof. intros H. induction k as [|k IH]; intros; cbn [dec_loop]; nfs; auto. Qed.

Lemma nf_fixed {A} wi wo mo (f : list Z -> res A) input cnt ocap : (forall w, nf (f w)) -> cnt < 2 ^ 32 ->
  nf (decode_fixed wi wo mo f input cnt ocap).
Proof.
  intros H C. unfold decode_fixed. apply nf_if; [apply nf_ok|]. apply nf_if; [apply nf_err|].
  destruct (Z.leb_spec (2 ^ 32) cnt); [lia|]. now apply nf_dec_loop.
Qed.

Lemma nf_dec_words d dmax : (forall c w, nf (d c w)) -> forall ws ctl widx acc, nf (dec_words d dmax ctl widx acc ws).
Proof. intros H. induction ws as [|w ws IH]; intros; cbn [dec_words]; nfs; auto. Qed.

Lemma nf_apply m ds : forall need ocap last, nf (apply_diffs m need ocap last ds).
Proof. induction ds as [|d ds IH]; intros; cbn [apply_diffs]; nfs; auto. Qed.

Lemma nf_dec_frames d dmax hb sw m frames : (forall c w, nf (d hb sw c w)) ->
  forall input need ocap last, nf (dec_frames d dmax hb sw m frames input need ocap last).
Proof.
  intros H. induction frames as [|f IH]; intros; cbn [dec_frames]; nfs; auto using nf_dec_words, nf_apply.
Qed.

Lemma nf_s1 hb sw c w : nf (s1_diffs hb sw c w).
Proof. unfold s1_diffs. nfs. Qed.
Lemma nf_s2 hb sw c w : nf (s2_diffs hb sw c w).
Proof. unfold s2_diffs. nfs. Qed.

Lemma nf_steim d dmax hb sw m input len cnt ocap : (forall c w, nf (d hb sw c w)) -> nf (steim_decode d dmax hb sw m input len cnt ocap).
Proof. intros H. unfold steim_decode. nfs; auto using nf_dec_words, nf_apply, nf_dec_frames. Qed.

Lemma nf_decode hb sw mode input inlen enc cnt outsize : cnt < 2 ^ 32 -> nf (decode_data hb sw mode input inlen enc cnt outsize).
Proof.
  intros C. unfold decode_data. apply nf_if; [apply nf_ok|]. cbv zeta. apply nf_if; [apply nf_err|].
  apply nf_bind; [|intros; nfs].
  unfold decode_int16, decode_int32, decode_float32, decode_float64, decode_geoscope, decode_cdsn, decode_sro, decode_dwwssn.
  apply nf_if. { apply nf_bind; [apply nf_sliceZ|intros; apply nf_ok]. }
  do 4 (apply nf_if; [apply nf_bind; [apply nf_fixed; [intros; apply nf_ok|exact C]|intros; apply nf_ok]|]).
  apply nf_if. { apply nf_bind; [apply nf_steim, nf_s1|]. intros [l b] _. apply nf_ok. }
  apply nf_if. { apply nf_bind; [apply nf_steim, nf_s2|]. intros [l b] _. apply nf_ok. }
  apply nf_if.
  { apply nf_bind; [|intros; apply nf_ok]. apply nf_if; [apply nf_ok|]. apply nf_if; [apply nf_err|].
    apply nf_if. { apply nf_fixed; [|exact C]. intros w. unfold geoscope24_word. destruct w as [|? [|? [|? [|]]]]; discriminate. }
    apply nf_if. { apply nf_fixed; [|exact C]. intros w. apply nf_ok. }
    apply nf_if. { apply nf_fixed; [|exact C]. intros w. apply nf_ok. } apply nf_err. }
  apply nf_if. { apply nf_bind; [apply nf_fixed; [intros; apply nf_ok|exact C]|intros; apply nf_ok]. }
  apply nf_if.
  { apply nf_bind; [apply nf_fixed; [intros w; unfold sro_word; cbv zeta; apply nf_if; [apply nf_err|apply nf_ok]|exact C]|intros; apply nf_ok]. }
  apply nf_if. { apply nf_bind; [apply nf_fixed; [intros; apply nf_ok|exact C]|intros; apply nf_ok]. }
  apply nf_err.
Qed.

Lemma nf_trim rec n : forall size, (1 <= n)%nat -> (size <= lenZ rec -> size < Z.of_nat n) -> nf (trim_frames n rec size).
Proof.
  induction n as [|n IH]; intros size N H; [lia|]. cbn [trim_frames]. destruct (Z.ltb_spec 0 size); [|apply nf_ok].
  unfold sliceZ. destruct (_ && _) eqn:G; [|discriminate]. cbn [bind]. destruct (forallb _ _); [|apply nf_ok].
  unfold lenZ in *. apply IH; lia.
Qed.

Lemma nf_bounds hb rec m : nf (data_bounds hb rec m).
Proof.
  unfold data_bounds. apply nf_bind; [nfs|]. intros [off size] _. cbv zeta. apply nf_if; [|apply nf_ok].
  apply nf_bind; [|intros; apply nf_ok]. apply nf_trim; [lia|]. unfold lenZ. lia.
Qed.

Lemma nf_unpack_data hb mode addr rec m : nf (unpack_data hb mode addr rec m).
Proof.
  unfold unpack_data. apply nf_if; [apply nf_ok|]. apply nf_if; [apply nf_err|]. apply nf_if; [apply nf_err|].
  destruct (Z.ltb_spec (2 ^ 31 - 1) (m_cnt m)); [apply nf_err|].
  apply nf_bind.
  { pose proof (nf_bounds hb rec m) as H0. unfold nf in *. destruct (data_bounds hb rec m); auto; discriminate. }
  intros [off size] _. apply nf_if; [apply nf_err|]. cbv zeta. destruct (encoding_sizetype _) as [[ss t]|]; [|apply nf_err].
  apply nf_bind; [nfs|]. intros. apply nf_decode. lia.
Qed.

(** ** Texts *)

Lemma nf_utf8 str : forall o m s l, nf (utf8_loop str o m s l).
Proof. induction str as [|b str IH]; intros; cbn [utf8_loop]; [apply nf_ub|]. unfold utf8_step. nfs; auto. Qed.
Lemma nf_clean n src : forall d s i, nf (clean_loop n src d s i).
Proof. induction n as [|n IH]; intros; cbn [clean_loop]; nfs; auto. Qed.
Lemma nf_tail n src : forall d p, nf (tail_loop n src d p).
Proof. induction n as [|n IH]; intros; cbn [tail_loop]; nfs; auto. Qed.
Lemma nf_strncpclean d s n : nf (strncpclean d s n).
Proof. unfold strncpclean, utf8length_int. nfs; auto using nf_utf8, nf_clean. Qed.
Lemma nf_strncpcleantail d s n : nf (strncpcleantail d s n).
Proof. unfold strncpcleantail, utf8length_int. nfs; auto using nf_utf8, nf_tail. Qed.
Lemma nf_text_of m : nf (text_of m).
Proof. induction m as [|c m IH]; cbn [text_of]; nfs. Qed.
Lemma nf_puts n s : forall st, nf (sid_puts n s st).
Proof. induction s as [|c s IH]; intros; cbn [sid_puts]; [apply nf_ok|]. apply nf_bind; [unfold sid_put; nfs|]. auto. Qed.
Lemma nf_put n c st : nf (sid_put n c st).
Proof. unfold sid_put. nfs. Qed.
Lemma nf_prefix s : forall p b, nf (sid_prefix s p b).
Proof. induction s as [|c s IH]; intros; cbn [sid_prefix]; nfs; auto. Qed.
Lemma nf_xchan a b : nf (seedchan2xchan a b).
Proof. unfold seedchan2xchan. nfs. Qed.
Lemma nf_nslc2sid a b c d e f : nf (nslc2sid a b c d e f).
Proof.
  unfold nslc2sid. apply nf_if; [apply nf_ok|].
  repeat (apply nf_bind; [auto using nf_prefix, nf_puts, nf_put|intros ? _]).
  - pose proof (nf_xchan (cstr f) (repeat 0 6)). unfold nf in *. destruct (seedchan2xchan _ _); auto; discriminate.
  - nfs.
Qed.
Lemma nf_recordsid a b c : nf (recordsid a b c).
Proof.
  unfold recordsid. do 3 (apply nf_bind; [apply nf_strncpclean|intros [? ?] _]).
  do 3 (apply nf_bind; [apply nf_getZ|intros ? _]). do 4 (apply nf_bind; [apply nf_text_of|intros ? _]). apply nf_nslc2sid.
Qed.
#[local] Hint Resolve nf_recordsid nf_unpack_data : nfdb.

(** ** Blockettes *)

Lemma nf_time m y d h i s n : nf (time2nstime m y d h i s n).
Proof. unfold time2nstime, time2nstime_int. nfs. Qed.
Lemma nf_btime hb sw m o rec : nf (btime_or_fail hb sw m o rec).
Proof. unfold btime_or_fail, btime2nstime. nfs; auto using nf_time. Qed.
Lemma nf_text cap o n rec : nf (text_field cap o n rec).
Proof. unfold text_field. apply nf_bind; [apply nf_strncpcleantail|]. intros [? ?] _. apply nf_ok. Qed.
Lemma nf_add J o st : nf (add_op J o st).
Proof. unfold add_op. nfs. Qed.
#[local] Hint Resolve nf_time nf_btime nf_text nf_add : nfdb.

Lemma nf_blockette J hb sw mode rec type o st : nf (blockette J hb sw mode rec type o st).
Proof.
  unfold blockette, blk200, blk201, blk300, blk310, blk320, blk390, blk395, blk500, blk1000, blk1001.
  repeat (apply nf_if; [nfs|]). apply nf_ok.
Qed.

Lemma nf_blktlen hb sw t o rec : nf (blktlen hb sw t o rec).
Proof. unfold blktlen. nfs. Qed.

Lemma nf_blockettes J hb sw mode rec reclen : bytes_ok rec ->
  forall fuel off st, 0 <= off -> (1 <= fuel)%nat -> (0 < off -> reclen - off < Z.of_nat fuel) ->
  nf (blockettes fuel J hb sw mode rec reclen off st).
Proof.
  intros B. induction fuel as [|fuel IH]; intros off st O F1 F; [lia|]. cbn [blockettes].
  destruct (negb (off =? 0) && (off <? reclen) && (off <? MAXRECLEN)) eqn:G; [|apply nf_ok].
  specialize (F ltac:(lia)).
  apply nf_bind; [apply nf_rd|]. intros type _. apply nf_bind; [apply nf_rd|]. intros next En.
  apply nf_bind; [apply nf_blktlen|]. intros len EL. pose proof (blktlen_nonneg _ _ _ _ _ _ B EL) as LN.
  pose proof (rd_nonneg _ _ _ _ _ _ B En) as N0.
  destruct (Z.eqb_spec len 0); [apply nf_ok|]. destruct (Z.ltb_spec reclen (off + len)); [apply nf_ok|].
  apply nf_bind; [apply nf_blockette|]. intros st2 _. cbv zeta.
  destruct (negb (next =? 0) && (next <? off + len)) eqn:G1; [apply IH; lia|].
  destruct (negb (next =? 0) && (reclen <? next)) eqn:G2; apply IH; lia.
Qed.

Lemma nf_unpack2 J hb mode addr flags rec reclen : bytes_ok rec -> nf (unpack2 J hb mode addr flags rec reclen).
Proof.
  intros B. unfold unpack2. apply nf_if; [apply nf_bind; [apply nf_recordsid|]; intros; apply nf_err|].
  assert (V : nf (valid2_at 0 rec)). { unfold valid2_at, nf. cbn [all_at]. nfs. }
  apply nf_bind; [exact V|]. intros v _. apply nf_if; [apply nf_bind; [apply nf_recordsid|]; intros; apply nf_err|].
  apply nf_bind; [apply nf_rd|]. intros y _. apply nf_bind; [apply nf_rd|]. intros d _. cbv zeta.
  set (sw := negb _). apply nf_bind; [apply nf_recordsid|]. intros [sid ?] _.
  do 8 (apply nf_bind; [nfs|intros ? _]). apply nf_bind; [apply nf_rd|]. intros off Eo.
  apply nf_bind. { apply nf_blockettes; [exact B|exact (rd_nonneg _ _ _ _ _ _ B Eo)|lia|lia]. }
  intros st _. nfs.
Qed.

(** ** Search for the record length *)

Lemma nf_detect_loop hb sw buf : bytes_ok buf -> forall fuel off, 0 <= off -> (1 <= fuel)%nat -> (47 < off -> lenZ buf - off + 2 <= Z.of_nat fuel) ->
  nf (detect2_loop fuel hb sw buf off).
Proof.
  intros B. induction fuel as [|fuel IH]; intros off O F1 F; [lia|]. cbn [detect2_loop]. cbv zeta. fold (lenZ buf).
  destruct (negb (off =? 0) && (47 <? off) && (off <=? lenZ buf)) eqn:G; [|apply nf_ok].
  apply nf_bind; [apply nf_rd|]. intros type _. apply nf_bind; [apply nf_rd|]. intros next En.
  pose proof (rd_nonneg _ _ _ _ _ _ B En) as N0. apply nf_if; [nfs|].
  destruct (negb (next =? 0) && _) eqn:G1; [apply nf_err|]. apply IH; lia.
Qed.

Lemma nf_valid2 p buf : nf (valid2_at p buf).
Proof. unfold valid2_at. cbn [all_at]. nfs. Qed.
Lemma nf_valid3 buf : nf (valid3 buf).
Proof. unfold valid3. cbn [all_at]. nfs. Qed.

Lemma nf_scan buf : forall fuel pos, (1 <= fuel)%nat -> (pos <= lenZ buf -> lenZ buf - pos < Z.of_nat fuel) ->
  nf (detect2_scan fuel buf pos).
Proof.
  induction fuel as [|fuel IH]; intros pos F1 F; [lia|]. cbn [detect2_scan]. fold (lenZ buf).
  destruct (Z.ltb_spec (pos + 48) (lenZ buf)); [|apply nf_ok]. apply nf_bind; [apply nf_valid2|]. intros v _.
  apply nf_if; [apply nf_ok|]. apply IH; lia.
Qed.

Lemma nf_detect hb buf : bytes_ok buf -> nf (detect hb buf).
Proof.
  intros B. unfold detect. apply nf_if; [apply nf_ok|]. apply nf_bind; [apply nf_valid3|]. intros v3 _.
  apply nf_if; [unfold detect3; nfs|]. apply nf_bind; [apply nf_valid2|]. intros v2 _. apply nf_if; [|apply nf_ok].
  apply nf_bind; [|intros; apply nf_ok]. unfold detect2.
  apply nf_bind; [apply nf_rd|]. intros y _. apply nf_bind; [apply nf_rd|]. intros d _. cbv zeta. set (sw := negb _).
  apply nf_bind; [apply nf_rd|]. intros off Eo. pose proof (rd_nonneg _ _ _ _ _ _ B Eo) as O.
  assert (S : nf (detect2_scan (Datatypes.S (length buf)) buf 64)). { apply nf_scan; unfold lenZ; lia. }
  pose proof (nf_detect_loop hb sw buf B (Datatypes.S (length buf)) off O ltac:(lia) ltac:(unfold lenZ; lia)) as L.
  destruct (detect2_loop _ _ _ _ _) as [[l|]| | |]; try discriminate; [| |now destruct L].
  - apply nf_if; [apply nf_bind; [exact S|intros; apply nf_ok]|apply nf_ok].
  - apply nf_bind; [exact S|intros; apply nf_ok].
Qed.

Lemma nf_parse J hb mode addr flags buf : bytes_ok buf -> valid2_at 0 buf = Ok true ->
  nf (parse (unpack2 J hb mode addr flags) hb mode addr flags buf).
Proof.
  intros B V. unfold parse. apply nf_bind; [now apply nf_detect|]. intros [fver l] E. cbv zeta.
  assert (F3 : fver = 3 -> False).
  { intros ->. unfold detect in E. destruct (_ <? MINRECLEN); [discriminate|]. rewrite valid3_not2, V in E by exact V. cbn [bind] in E.
    destruct (detect2 hb buf); discriminate. }
  repeat (apply nf_if; [apply nf_ok || apply nf_err|]).
  destruct (Z.eqb_spec fver 3); [now destruct F3|]. apply nf_if; [|apply nf_err].
  apply nf_bind; [now apply nf_unpack2|intros; apply nf_ok].
Qed.

(** ** Memory after the buffer *)

Lemma loop_mem hb sw buf : forall fuel off, detect2_loop fuel hb sw buf off = detect2_mem fuel hb sw buf (lenZ buf) off.
Proof.
  induction fuel as [|fuel IH]; intros off; [reflexivity|]. cbn [detect2_loop detect2_mem]. cbv zeta. fold (lenZ buf).
  destruct (_ && _ && _); [|reflexivity]. destruct (rd hb sw 2 off buf); [|reflexivity..]. cbn [bind].
  destruct (rd hb sw 2 (off + 2) buf); [|reflexivity..]. cbn [bind]. now rewrite IH.
Qed.

Lemma scan_mem buf : forall fuel pos, detect2_scan fuel buf pos = detect2_scan_mem fuel buf (lenZ buf) pos.
Proof.
  induction fuel as [|fuel IH]; intros pos; [reflexivity|]. cbn [detect2_scan detect2_scan_mem]. fold (lenZ buf).
  destruct (_ <? _); [|reflexivity]. destruct (valid2_at pos buf); [|reflexivity..]. cbn [bind]. now rewrite IH.
Qed.

Lemma detect_mem_eq hb buf : detect_mem hb buf (lenZ buf) = detect hb buf.
Proof.
  unfold detect_mem, detect. fold (lenZ buf). destruct (lenZ buf <? MINRECLEN); [reflexivity|]. cbv zeta.
  destruct (valid3 buf) as [v3| | |]; [|reflexivity..]. cbn [bind]. destruct v3; [reflexivity|].
  destruct (valid2_at 0 buf) as [v2| | |]; [|reflexivity..]. cbn [bind]. destruct v2; [|reflexivity]. cbn [negb]. unfold detect2.
  destruct (rd hb false 2 20 buf) as [y| | |]; [|reflexivity..]. cbn [bind].
  destruct (rd hb false 2 22 buf) as [d| | |]; [|reflexivity..]. cbn [bind]. cbv zeta.
  destruct (rd hb _ 2 46 buf) as [o| | |]; [|reflexivity..]. cbn [bind].
  rewrite <- loop_mem, <- scan_mem. unfold lenZ. rewrite Nat2Z.id.
  destruct (detect2_loop _ _ _ _ _) as [[l|]| | |]; [|cbn [bind]|reflexivity..].
  - destruct (l =? -1); [|reflexivity]. destruct (detect2_scan _ _ _); reflexivity.
  - destruct (detect2_scan _ _ _); reflexivity.
Qed.

Lemma parse_mem_eq J hb mode addr flags buf :
  parse_mem J hb mode addr flags buf (lenZ buf) = parse (unpack2 J hb mode addr flags) hb mode addr flags buf.
Proof. unfold parse_mem, parse. rewrite detect_mem_eq. reflexivity. Qed.

Definition shift_only (u : ub) : Prop := u = BadShift.

Lemma loop_slack hb sw mem n : bytes_ok mem -> n + 4 <= lenZ mem ->
  forall fuel off, 0 <= off -> (1 <= fuel)%nat -> (47 < off -> n - off + 2 <= Z.of_nat fuel) ->
  ends shift_only (detect2_mem fuel hb sw mem n off).
Proof.
  intros B L. induction fuel as [|fuel IH]; intros off O F1 F; [lia|]. cbn [detect2_mem].
  destruct (negb (off =? 0) && (47 <? off) && (off <=? n)) eqn:G; [|exact I].
  destruct (rd_get hb sw 2 off mem) as (type & Et); [lia|lia|lia|]. rewrite Et. cbn [bind].
  destruct (rd_get hb sw 2 (off + 2) mem) as (next & En); [lia|lia|lia|]. rewrite En. cbn [bind].
  pose proof (rd_nonneg _ _ _ _ _ _ B En) as N0.
  destruct ((type =? 1000) && (off + 8 <=? n)) eqn:G1.
  - destruct (getZ_get mem (off + 6)) as (e & E); [lia|]. rewrite E. cbn [bind]. destruct (64 <=? e); [reflexivity|exact I].
  - destruct (negb (next =? 0) && _) eqn:G2; [reflexivity|]. apply IH; lia.
Qed.

Lemma scan_slack mem n : n <= lenZ mem -> forall fuel pos, 0 <= pos -> (1 <= fuel)%nat -> (pos <= n -> n - pos < Z.of_nat fuel) ->
  exists o, detect2_scan_mem fuel mem n pos = Ok o /\ match o with Some p => 0 <= p < n | None => True end.
Proof.
  intros L. induction fuel as [|fuel IH]; intros pos P0 F1 F; [lia|]. cbn [detect2_scan_mem].
  destruct (Z.ltb_spec (pos + 48) n); [|exists None; auto].
  destruct (valid2_get pos mem) as (v & ->); [lia|lia|]. cbn [bind]. destruct v; [exists (Some pos); split; [reflexivity|lia]|].
  apply IH; lia.
Qed.

Lemma detect_slack hb mem n : bytes_ok mem -> n + 4 <= lenZ mem -> 48 <= lenZ mem -> ends shift_only (detect_mem hb mem n).
Proof.
  intros B L L2. unfold detect_mem, MINRECLEN. destruct (Z.ltb_spec n 40); [exact I|]. cbv zeta.
  destruct (all_at_get [(0, fun b => b =? 77); (1, fun b => b =? 83); (2, fun b => b =? 3);
          (12, fun b => b <=? 23); (13, fun b => b <=? 59); (14, fun b => b <=? 60)] 0 mem (lenZ mem)) as (v3 & E3).
  { intros o t J. cbn [In] in J. repeat (destruct J as [J|J]; [injection J as <- _; lia|]). destruct J. } { reflexivity. }
  fold (valid3 mem) in E3. rewrite E3. cbn [bind]. destruct v3.
  { apply ends_bind; [|intros; exact I]. unfold detect3. repeat rstep. exact I. }
  destruct (valid2_get 0 mem) as (v2 & ->); [lia|lia|]. cbn [bind]. destruct v2; cbn [negb]; [|exact I].
  rstep; rstep. cbv zeta. match goal with |- context [rd hb ?s 2 46 mem] => set (sw := s) end.
  destruct (rd_get hb sw 2 46 mem) as (off & Eo); [lia|lia|lia|]. rewrite Eo. cbn [bind].
  pose proof (rd_nonneg _ _ _ _ _ _ B Eo) as O.
  destruct (scan_slack mem n ltac:(lia) (S (Z.to_nat n)) 64 ltac:(lia) ltac:(lia) ltac:(lia)) as (s & ES & _).
  pose proof (loop_slack hb sw mem n B L (S (Z.to_nat n)) off O ltac:(lia) ltac:(lia)) as H1.
  destruct (detect2_mem _ _ _ _ _ _) as [[l|]| | |]; try exact H1; rewrite ?ES; cbn [bind]; [destruct (l =? -1)| |]; exact I.
Qed.

Lemma parse_slack J hb mode addr flags mem n : bytes_ok mem -> 0 <= n -> n + 193 <= lenZ mem -> valid2_at 0 mem = Ok true ->
  has_flag flags MSF_UNPACKDATA = false ->
  ends (no_outside_read mode) (parse_mem J hb mode addr flags mem n).
Proof.
  intros B N0 L V NF. unfold parse_mem.
  assert (D : ends (no_outside_read mode) (detect_mem hb mem n)).
  { eapply ends_weaken; [|apply detect_slack; [exact B|lia|lia]]. intros u ->. right; now left. }
  apply ends_bind; [exact D|]. intros [fver l] E. cbv zeta.
  assert (F3 : fver <> 3).
  { intros ->. unfold detect_mem in E. destruct (_ <? MINRECLEN); [discriminate|]. rewrite valid3_not2, V in E by exact V. cbn [bind negb] in E.
    destruct (rd hb false 2 20 mem); [|discriminate..]. cbn [bind] in E. destruct (rd hb false 2 22 mem); [|discriminate..]. cbn [bind] in E. cbv zeta in E.
    destruct (rd hb _ 2 46 mem); [|discriminate..]. cbn [bind] in E.
    destruct (detect2_mem _ _ _ _ _ _) as [[x|]| | |]; [destruct (x =? -1); [destruct (detect2_scan_mem _ _ _ _)|]|destruct (detect2_scan_mem _ _ _ _)| | |]; discriminate. }
  match goal with |- context [if ?c then n else l] => set (reclen := if c then n else l) end.
  destruct (Z.ltb_spec reclen 0); [reflexivity|]. destruct (Z.eqb_spec reclen 0); [exact I|].
  destruct ((reclen <? MINRECLEN) || (MAXRECLEN <? reclen)); [reflexivity|].
  destruct (Z.ltb_spec n reclen); [exact I|]. destruct (Z.eqb_spec fver 3); [contradiction|].
  destruct (fver =? 2); [|reflexivity]. apply ends_bind; [|intros; exact I]. apply swapped_slack; auto; lia.
Qed.
