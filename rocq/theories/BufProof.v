(** * Proofs about reading buffers and unpacking record lists. *)

From Verif Require Import Base BaseLemmas SteimModel CodecModel RecModel RecSpec RecProof DataSpec DataProof BufModel BufSpec.
Open Scope Z_scope.

(** ** Decoders given more input *)

Lemma slice_longer {A} n (i t : list A) w : slice 0 n i = Ok w -> slice 0 n (i ++ t) = Ok w /\ skipn n (i ++ t) = skipn n i ++ t.
Proof.
  unfold slice. cbn [Nat.add skipn]. destruct (Nat.leb_spec n (length i)) as [L|L]; [|discriminate]. intros [= <-].
  rewrite app_length. destruct (Nat.leb_spec n (length i + length t)); [|lia]. rewrite firstn_app, skipn_app.
  replace (n - length i)%nat with 0%nat by lia. cbn [firstn skipn]. rewrite app_nil_r. auto.
Qed.

Lemma dec_loop_longer {A} wi wo (f : list Z -> res A) t : forall k ocap i l, dec_loop wi wo f k ocap i = Ok l ->
  dec_loop wi wo f k ocap (i ++ t) = Ok l.
Proof.
  induction k as [|k IH]; intros ocap i l; cbn [dec_loop]; [auto|]. destruct (wo <=? ocap); [|auto].
  destruct (slice 0 wi i) as [w| | |] eqn:E; cbn [bind]; try discriminate. destruct (slice_longer _ _ t _ E) as [-> ->]. cbn [bind].
  destruct (f w); cbn [bind]; try discriminate.
  destruct (dec_loop wi wo f k (ocap - wo) (skipn wi i)) eqn:E2; cbn [bind]; try discriminate. rewrite (IH _ _ _ E2). auto.
Qed.

Lemma decode_fixed_longer {A} wi wo mo (f : list Z -> res A) i t cnt ocap l : decode_fixed wi wo mo f i cnt ocap = Ok l ->
  decode_fixed wi wo mo f (i ++ t) cnt ocap = Ok l.
Proof.
  unfold decode_fixed. destruct (cnt =? 0); [auto|]. destruct (ocap <? mo); [discriminate|]. destruct (2 ^ 32 <=? cnt); [discriminate|].
  apply dec_loop_longer.
Qed.

Lemma dec_frames_longer df dmax hb sw m t : forall f f' i need ocap last l, dec_frames df dmax hb sw m f i need ocap last = Ok l ->
  need <= lenZ l -> (f <= f')%nat -> dec_frames df dmax hb sw m f' (i ++ t) need ocap last = Ok l.
Proof.
  induction f as [|f IH]; intros f' i need ocap last l E C F.
  - cbn in E. injection E as <-. cbn in C. destruct f' as [|f']; [reflexivity|]. cbn [dec_frames]. destruct (Z.leb_spec need 0); [reflexivity|lia].
  - destruct f' as [|f']; [lia|]. cbn [dec_frames] in E |- *. destruct (need <=? 0); [exact E|].
    destruct (slice 0 64 i) as [fr| | |] eqn:Es; cbn [bind] in E; try discriminate. destruct (slice_longer _ _ t _ Es) as [-> ->]. cbn [bind].
    destruct (frame_words fr) as [|w0 ws]; [discriminate|].
    destruct (dec_words _ _ _ _ _ _) as [ds| | |]; cbn [bind] in E |- *; try discriminate.
    destruct (apply_diffs _ _ _ _ _) as [outs| | |]; cbn [bind] in E |- *; try discriminate.
    match type of E with bind ?x _ = _ => destruct x as [r| | |] eqn:Er end; cbn [bind] in E; try discriminate. injection E as <-.
    rewrite (IH f' _ _ _ _ _ Er); [reflexivity| |lia]. rewrite lenZ_app in C. unfold lenZ in *. lia.
Qed.

Lemma steim_longer df dmax hb sw m i t n n' cnt ocap l b : steim_decode df dmax hb sw m i n cnt ocap = Ok (l, b) -> lenZ l = cnt ->
  0 < cnt -> n <= n' -> steim_decode df dmax hb sw m (i ++ t) n' cnt ocap = Ok (l, b).
Proof.
  intros E C P N. unfold steim_decode in *. assert (D : (Z.to_nat (n / 64) <= Z.to_nat (n' / 64))%nat) by lia.
  destruct (Z.to_nat (n / 64)) as [|f]; [injection E as <- <-; cbn in C; lia|]. destruct (Z.to_nat (n' / 64)) as [|f']; [lia|].
  destruct (ocap =? 0); [discriminate|]. destruct (ocap <? _); [discriminate|]. destruct (cnt <=? 0); [discriminate|].
  destruct (slice 0 64 i) as [fr| | |] eqn:Es; cbn [bind] in E; try discriminate. destruct (slice_longer _ _ t _ Es) as [-> ->]. cbn [bind].
  destruct (frame_words fr) as [|w0 [|w1 [|w2 ws]]]; try discriminate. destruct (ocap / 4 <=? 0); [discriminate|].
  destruct (dec_words _ _ _ _ _ _) as [ds| | |]; cbn [bind] in E |- *; try discriminate.
  destruct (apply_diffs _ _ _ _ _) as [outs| | |]; cbn [bind] in E |- *; try discriminate.
  match type of E with bind ?x _ = _ => destruct x as [r| | |] eqn:Er end; cbn [bind] in E; try discriminate. injection E as <- <-.
  rewrite (dec_frames_longer _ _ _ _ _ t f f' _ _ _ _ _ Er); [reflexivity| |lia].
  unfold lenZ in *. cbn [length] in C. rewrite app_length in C. lia.
Qed.

Lemma decode_longer hb sw mode i t n n' enc cnt out out' d : decode_data hb sw mode i n enc cnt out = Ok d -> 0 < cnt ->
  n <= n' -> uwrap 64 (cnt * match encoding_sizetype enc with Some (s, _) => s | None => 0 end) <= out' ->
  decode_data hb sw mode (i ++ t) n' enc cnt out' = Ok d.
Proof.
  intros E P N O. unfold decode_data in *. destruct (Z.eqb_spec cnt 0); [lia|].
  set (ds := uwrap 64 _) in *. destruct (out <? ds); [discriminate|]. destruct (Z.ltb_spec out' ds); [lia|].
  assert (F1 : forall wi wo mo f, (let! l := decode_fixed wi wo mo f i cnt ds in Ok (SInt l)) = Ok d -> (let! l := decode_fixed wi wo mo f (i ++ t) cnt ds in Ok (SInt l)) = Ok d).
  { intros wi wo mo f X. destruct (decode_fixed wi wo mo f i cnt ds) eqn:Y; cbn [bind] in X; try discriminate.
    rewrite (decode_fixed_longer _ _ _ _ _ t _ _ _ Y). exact X. }
  assert (F2 : forall wi wo mo f, (let! l := decode_fixed wi wo mo f i cnt ds in Ok (SFlt l)) = Ok d -> (let! l := decode_fixed wi wo mo f (i ++ t) cnt ds in Ok (SFlt l)) = Ok d).
  { intros wi wo mo f X. destruct (decode_fixed wi wo mo f i cnt ds) eqn:Y; cbn [bind] in X; try discriminate.
    rewrite (decode_fixed_longer _ _ _ _ _ t _ _ _ Y). exact X. }
  assert (F3 : forall df dmax, (let! (l, _) := steim_decode df dmax hb sw mode i n cnt ds in Ok (SInt l)) = Ok d -> samples_len d = cnt ->
     (let! (l, _) := steim_decode df dmax hb sw mode (i ++ t) n' cnt ds in Ok (SInt l)) = Ok d).
  { intros df dmax X Y. destruct (steim_decode df dmax hb sw mode i n cnt ds) as [[l b]| | |] eqn:Z; cbn [bind] in X; try discriminate.
    injection X as <-. rewrite (steim_longer _ _ _ _ _ _ t _ n' _ _ _ _ Z); auto. }
  match type of E with bind ?x _ = _ => destruct x as [s| | |] eqn:Es end; cbn [bind] in E; try discriminate.
  destruct (Z.eqb_spec (samples_len s) cnt) as [Ls|]; [|discriminate]. injection E as <-.
  match goal with |- bind ?x _ = _ => assert (X : x = Ok s); [|rewrite X; cbn [bind]; rewrite Ls, Z.eqb_refl; reflexivity] end.
  repeat match type of Es with (if ?c then _ else _) = _ => destruct c eqn:?Hc end; try discriminate; eauto.
  - unfold sliceZ in *. destruct ((0 <=? 0) && (0 <=? cnt) && (0 + cnt <=? Z.of_nat (length i))) eqn:B; cbn [bind] in Es; [|discriminate].
    rewrite app_length. destruct ((0 <=? 0) && (0 <=? cnt) && (0 + cnt <=? Z.of_nat (length i + length t))) eqn:B2; [|lia]. cbn [bind] in *.
    rewrite <- Es. cbn [skipn Z.to_nat]. rewrite firstn_app. replace (Z.to_nat cnt - length i)%nat with 0%nat by lia. cbn [firstn].
    rewrite app_nil_r. reflexivity.
  - unfold decode_geoscope in *. destruct (cnt =? 0); [exact Es|]. destruct (ds =? 0); [discriminate|].
    destruct (enc =? 12); [eauto|]. destruct (enc =? 13); [eauto|]. destruct (enc =? 14); [eauto|]. discriminate.
Qed.

(** ** Unpacking a record list *)

Lemma decode_count hb sw mode i n enc cnt out d : decode_data hb sw mode i n enc cnt out = Ok d -> samples_len d = cnt.
Proof.
  unfold decode_data. destruct (Z.eqb_spec cnt 0) as [->|]; [intros [= <-]; reflexivity|].
  destruct (out <? _); [discriminate|]. match goal with |- bind ?x _ = _ -> _ => destruct x as [s| | |] end; cbn [bind]; try discriminate.
  destruct (Z.eqb_spec (samples_len s) cnt); [|discriminate]. now intros [= <-].
Qed.

Lemma words_len d : lenZ (sample_words d) = samples_len d.
Proof. destruct d; cbn; [reflexivity|]. unfold lenZ. now rewrite map_length. Qed.

(** What [unpack_data] decodes. *)
Lemma unpack_decodes hb mode a rec m d off ext : unpack_data hb mode a rec m = Ok d -> 0 < m_cnt m -> 0 <= m_enc m < 256 ->
  lenZ rec = m_reclen m -> payload_at hb rec m off ext -> 0 <= off -> 0 <= ext -> off + ext <= m_reclen m ->
  40 <= off < m_reclen m /\ m_cnt m < 2 ^ 31 /\ exists size i t ssize ty, 0 <= size <= ext /\ skipn (Z.to_nat off) rec = i ++ t /\
    encoding_sizetype (m_enc m) = Some (ssize, ty) /\
    decode_data hb (m_swapp m) mode i size (m_enc m) (m_cnt m) (m_cnt m * ssize) = Ok d.
Proof.
  intros E P Henc L Pay Off X0 X. unfold unpack_data, MINRECLEN, MAXRECLEN in E. destruct (Z.leb_spec (m_cnt m) 0); [lia|].
  destruct (Z.ltb_spec (m_reclen m) 0); [discriminate|]. destruct ((m_reclen m <? 40) || (10485760 <? m_reclen m)) eqn:E1; [discriminate|].
  destruct (Z.ltb_spec (2 ^ 31 - 1) (m_cnt m)); [discriminate|].
  destruct (bounds_ok hb rec m off ext) as (size & Eb & Hs & _); try assumption; try lia. rewrite Eb in E. cbn [bind] in E.
  destruct ((off <? 40) || (m_reclen m <=? off)) eqn:E2; [discriminate|]. destruct (Z.ltb_spec (m_enc m) 0); [lia|].
  rewrite (uwrap_id 8 (m_enc m)) in E by (unfold in_u; lia).
  destruct (encoding_sizetype (m_enc m)) as [[ssize ty]|] eqn:Ee; [|discriminate]. split; [lia|]. split; [lia|].
  match type of E with bind ?x _ = _ => destruct x as [i| | |] eqn:Ei end; cbn [bind] in E; try discriminate.
  exists size, i. change (Z.of_nat (length rec)) with (lenZ rec) in Ei.
  destruct ((a + off) mod ssize =? 0).
  - rewrite sliceZ_ok in Ei by lia. injection Ei as <-. exists [], ssize, ty. rewrite app_nil_r. repeat split; try lia; auto.
    rewrite firstn_all2; [reflexivity|]. rewrite skipn_length. unfold lenZ in *. lia.
  - rewrite sliceZ_ok in Ei by lia. injection Ei as <-. exists (skipn (Z.to_nat size) (skipn (Z.to_nat off) rec)), ssize, ty.
    rewrite firstn_skipn. repeat split; try lia; auto.
Qed.

Lemma entry_input p rec : bytes_at p rec -> 0 <= p_off p <= m_reclen (p_msr p) ->
  exists t a, rp_input p = Ok (skipn (Z.to_nat (p_off p)) rec ++ t, a) /\
    a = (match p_src p with SBuf _ addr => addr | _ => 0 end) + p_off p.
Proof.
  intros (L & H) O. unfold rp_input. pose proof (lenZ_nonneg rec) as Lr. destruct (p_src p) as [mem addr|data|]; [| |contradiction]; destruct H as [t ->].
  - exists t, (addr + p_off p). split; [|reflexivity]. change (Z.of_nat (length (rec ++ t))) with (lenZ (rec ++ t)).
    pose proof (lenZ_app rec t) as La. pose proof (lenZ_nonneg t). rewrite sliceZ_ok by lia. cbn [bind]. do 3 f_equal.
    rewrite firstn_all2 by (rewrite skipn_length; unfold lenZ in *; lia). rewrite skipn_app.
    replace (Z.to_nat (p_off p) - length rec)%nat with 0%nat by (unfold lenZ in *; lia). reflexivity.
  - exists [], (p_off p). split; [|lia]. change (Z.of_nat (length (rec ++ t))) with (lenZ (rec ++ t)).
    pose proof (lenZ_app rec t) as La. pose proof (lenZ_nonneg t). destruct (Z.ltb_spec (lenZ (rec ++ t)) (m_reclen (p_msr p))); [lia|].
    rewrite sliceZ_ok by lia. cbn [bind]. do 3 f_equal. rewrite app_nil_r, skipn_app.
    replace (Z.to_nat (p_off p) - length rec)%nat with 0%nat by (unfold lenZ in *; lia). cbn [skipn]. rewrite firstn_app.
    rewrite skipn_length. replace (Z.to_nat (m_reclen (p_msr p) - p_off p) - (length rec - Z.to_nat (p_off p)))%nat with 0%nat by (unfold lenZ in *; lia).
    cbn [firstn]. rewrite app_nil_r. apply firstn_all2. rewrite skipn_length. unfold lenZ in *. lia.
Qed.

Definition mul_sum (size : Z) (ps : list rptr) : Z := sum (map (fun p => m_cnt (p_msr p)) ps) * size.

Lemma sizetype_type enc : forall s t, encoding_sizetype enc = Some (s, t) -> t = type_of enc /\ s = decoded_bytes enc.
Proof.
  intros s t. unfold encoding_sizetype, type_of, decoded_bytes.
  repeat match goal with |- (if ?c then _ else _) = _ -> _ => destruct c eqn:?C end; intros [= <- <-].
  - assert (enc = 0) by lia. subst. auto.
  - assert (H : enc = 1 \/ enc = 3 \/ enc = 10 \/ enc = 11 \/ enc = 16 \/ enc = 30 \/ enc = 32) by lia.
    destruct H as [->|[->|[->|[->|[->|[->| ->]]]]]]; auto.
  - assert (H : enc = 4 \/ enc = 12 \/ enc = 13 \/ enc = 14) by lia. destruct H as [->|[->|[->| ->]]]; auto.
  - assert (enc = 5) by lia. subst. auto.
Qed.

Lemma type_size e1 e2 s1 s2 t : encoding_sizetype e1 = Some (s1, t) -> encoding_sizetype e2 = Some (s2, t) -> s1 = s2.
Proof.
  unfold encoding_sizetype. repeat match goal with |- context [if ?c then _ else _] => destruct c end; congruence.
Qed.

Lemma url_ok hb mode al size type e0 : encoding_sizetype e0 = Some (size, type) -> forall ps ds room,
  Forall2 (entry_holds hb mode) ps ds -> (al = true -> Forall data_aligned ps) ->
  Forall (fun p => 0 < m_cnt (p_msr p) -> type_of (m_enc (p_msr p)) = type) ps ->
  mul_sum size ps <= room < 2 ^ 64 ->
  url_loop hb mode al size type room ps = Ok (concat (map sample_words ds)).
Proof.
  intros E0 ps ds room F. revert room. induction F as [|p d ps ds H F IH]; intros room A T R; [reflexivity|].
  cbn [url_loop map concat]. inversion_clear T as [|? ? Tp Ts].
  assert (A' : al = true -> Forall data_aligned ps) by (intros Q; specialize (A Q); now inversion_clear A).
  assert (S0 : 1 <= size <= 8) by (destruct (sizetype_type _ _ _ E0) as [_ ->]; unfold decoded_bytes; repeat match goal with |- context [match ?x with _ => _ end] => destruct x end; lia).
  assert (G : forall ps' ds', Forall2 (entry_holds hb mode) ps' ds' -> 0 <= mul_sum size ps').
  { unfold mul_sum. induction 1 as [|q e ps' ds' Hq _ IHq]; cbn [map sum fold_right]; [lia|]. unfold sum in IHq.
    assert (0 <= m_cnt (p_msr q)) by (destruct Hq as [[Hq _]|[Hq _]]; lia). nia. }
  specialize (G _ _ F). unfold mul_sum in R, G. cbn [map sum fold_right] in R. fold (sum (map (fun p => m_cnt (p_msr p)) ps)) in R.
  destruct H as [[C ->]|(C & Henc & Sw & rec & ext & a & Hb & Pay & Off & X0 & X & U)].
  - rewrite C. cbn [Z.eqb sample_words app]. apply IH; auto. unfold mul_sum. lia.
  - destruct (Z.eqb_spec (m_cnt (p_msr p)) 0); [lia|]. rewrite (uwrap_id 8) by (unfold in_u; lia).
    destruct (unpack_decodes _ _ _ _ _ _ _ _ U C Henc (proj1 Hb) Pay Off X0 X) as (O & C31 & sz & i & t & ss & ty & Hsz & Ei & Ee & D).
    rewrite Ee. specialize (Tp C). destruct (sizetype_type _ _ _ Ee) as [Ty _]. assert (ty = type) by congruence. subst ty. rewrite H, Z.eqb_refl. cbn [negb].
    rewrite H in Ee. assert (ss = size) by (eapply type_size; eauto). subst ss.
    destruct (entry_input p rec Hb ltac:(lia)) as (t' & ad & Ein & Ead). rewrite Ein. cbn [bind].
    assert (Al : al && negb (ad mod alignment (m_enc (p_msr p)) =? 0) = false).
    { destruct al; [|reflexivity]. specialize (A eq_refl). inversion_clear A as [|? ? Ap _]. unfold data_aligned in Ap. rewrite <- Ead in Ap.
      unfold alignment. destruct (Z.eqb_spec (m_enc (p_msr p)) 1) as [Q|]; [rewrite (proj1 Ap Q); reflexivity|].
      destruct (Z.eqb_spec (m_enc (p_msr p)) 3) as [Q|]; [rewrite (proj2 Ap Q); reflexivity|]. rewrite Z.mod_1_r. reflexivity. }
    rewrite Al. replace (m_swaph (p_msr p) || m_swapp (p_msr p)) with (m_swapp (p_msr p)) by (destruct (m_swaph (p_msr p)); [now rewrite Sw|reflexivity]).
    rewrite (uwrap_id 64 (m_reclen (p_msr p) - p_off p)).
    2:{ unfold unpack_data, MAXRECLEN in U. destruct (m_cnt (p_msr p) <=? 0) eqn:Q; [lia|]. destruct (m_reclen (p_msr p) <? 0); [discriminate|].
        destruct ((m_reclen (p_msr p) <? MINRECLEN) || (10485760 <? m_reclen (p_msr p))) eqn:Q2; [discriminate|]. unfold in_u. lia. }
    assert (CS : 0 <= m_cnt (p_msr p) * size <= 8 * 2 ^ 31) by nia.
    assert (RM : 0 <= room - m_cnt (p_msr p) * size < 2 ^ 64) by lia.
    rewrite Ei, <- app_assoc. rewrite (decode_longer _ _ _ _ (t ++ t') _ (m_reclen (p_msr p) - p_off p) _ _ _ room _ D C ltac:(lia)).
    2:{ rewrite Ee. rewrite uwrap_id by (unfold in_u; lia). lia. }
    rewrite (decode_count _ _ _ _ _ _ _ _ _ D). rewrite uwrap_id by (unfold in_u; lia). rewrite IH; auto. unfold mul_sum. lia.
Qed.
