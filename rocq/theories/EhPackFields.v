(** * Fields of a version 2 header with extra headers. *)

From Coq Require Import String QArith Qabs Lqa.
From Verif Require Import Base BaseLemmas TimeModel TimeSpec TimeProof TimeStrModel DateSpec DateProof StrModel StrSpec StrProof
  RecModel RecSpec RecProof PackModel PackSpec PackProof PackData ConvSpec ConvProof GapProof V2Rate
  EhModel EhSpec EhProof V2Model V2RecSpec V2RecProof V2RecParse Pack2Model Pack2Spec Pack2Hdr EhPackModel EhPackSpec.
Open Scope Z_scope.
Open Scope list_scope.

(** ** Queries *)

Definition root_is (root : option jv) (j : jv) : Prop := root = Some j \/ (root = None /\ j = JObj []).

Lemma look_root root j ks : root_is root j -> ks <> [] -> doc_get root (written ks) = look j ks.
Proof.
  intros [->|[-> ->]] N; [apply doc_get_look|]. destruct ks as [|k ks]; [congruence|]. rewrite look_obj. reflexivity.
Qed.

(** The pointer [p] is written for the keys [ks]. *)
Definition names_ (p : string) (ks : list string) : Prop := zs p = written (map zs ks) /\ ks <> [].

Lemma get_root root j p ks : root_is root j -> names_ p ks -> doc_get root (zs p) = look j (map zs ks).
Proof. intros R [-> N]. apply look_root; [exact R|]. destruct ks; [congruence|discriminate]. Qed.

Lemma sound_at j ks v : at_path j ks v -> sound j -> sound v.
Proof.
  induction 1 as [v|l k v ks w F A IH|l k i v ks w I N A IH]; intros S; [exact S| |]; apply IH; inversion S; subst.
  - destruct F as (a & b & -> & _). apply (H0 k). apply in_or_app. right. left. reflexivity.
  - apply nth_error_In in N. rewrite Forall_forall in H0. now apply H0.
Qed.
Lemma sound_ascii j ks s : has_text j ks s -> sound j -> Forall (fun c => 1 <= c <= 127) s.
Proof. intros H S. apply (sound_at _ _ _ H) in S. now inversion S. Qed.

Lemma ascii_until0 s : Forall (fun c => 1 <= c <= 127) s -> until0 s = s.
Proof. intros F. apply until0_id. eapply Forall_impl; [|exact F]. cbn. lia. Qed.

Lemma str_spec root j p ks : root_is root j -> names_ p ks -> sound j ->
  match str_at root p with Some s => has_text j ks s /\ Forall (fun c => 1 <= c <= 127) s | None => no_text j ks end.
Proof.
  intros R N S. unfold str_at. rewrite (get_root _ _ _ _ R N).
  destruct (look j (map zs ks)) as [v|] eqn:E.
  - apply look_spec in E. assert (X : forall s, v <> JStr s -> ~ at_ j ks (JStr s)) by (intros s V A; apply V, (at_fun _ _ _ _ E A)).
    destruct v; try (intros s A; exact (X s ltac:(discriminate) A)).
    pose proof (sound_ascii _ _ _ E S) as F. rewrite ascii_until0 by exact F. split; assumption.
  - intros s A. exact (proj1 (look_none _ _) E _ A).
Qed.

Lemma uint_spec root j p ks : root_is root j -> names_ p ks ->
  match uint_at root p with Some u => has_count j ks u | None => forall u, ~ has_count j ks u end.
Proof.
  intros R N. unfold uint_at. rewrite (get_root _ _ _ _ R N).
  destruct (look j (map zs ks)) as [v|] eqn:E.
  - apply look_spec in E. destruct v as [|b|i|b|s|l|l]; try (intros u [A _]; pose proof (at_fun _ _ _ _ E A); discriminate).
    destruct (Z.leb_spec 0 i); [split; assumption|]. intros u [A P]. pose proof (at_fun _ _ _ _ E A). assert (i = u) by congruence. lia.
  - intros u [A _]. exact (proj1 (look_none _ _) E _ A).
Qed.

Lemma bool_spec root j p ks : root_is root j -> names_ p ks -> (bool_at root p = true <-> is_set j ks).
Proof.
  intros R N. unfold bool_at, is_set, at_. rewrite (get_root _ _ _ _ R N). rewrite <- look_spec.
  destruct (look j (map zs ks)) as [v|]; [|split; discriminate]. destruct v; (split; [congruence|]); try discriminate. now intros [= ->].
Qed.

Lemma bits64_of i : - 2 ^ 63 <= i < 2 ^ 64 -> in_u 64 (dbits (dofz i)) /\ exists q, dval (dbits (dofz i)) = DFin q /\
  (Qabs (q - inject_Z i) <= inject_Z (Z.abs i) * (1 # 2 ^ 52))%Q.
Proof.
  intros H. unfold dofz, drnd.
  destruct (Z.eq_dec i 0) as [->|Ni].
  { split; [vm_compute; split; congruence|]. eexists. split; [vm_compute; reflexivity|]. vm_compute. discriminate. }
  assert (A : (inject_Z 1 <= Qabs (inject_Z i) <= inject_Z (2 ^ 64))%Q).
  { rewrite Zabs_Qabs || idtac. replace (Qabs (inject_Z i)) with (inject_Z (Z.abs i)) by reflexivity. rewrite <- !Zle_Qle. lia. }
  destruct (drnd_near (inject_Z i)) as (v & E & B).
  { right. split; [eapply Qle_trans; [|apply A]; vm_compute; discriminate|eapply Qle_trans; [apply A|]; vm_compute; discriminate]. }
  unfold drnd in E. destruct (rnd64 (inject_Z i)) as [v'|] eqn:Rn; [|discriminate]. injection E as <-.
  destruct (dbits_value _ _ Rn) as (U & q & D & Q). split; [exact U|]. exists q. split; [exact D|]. rewrite Q.
  eapply Qle_trans; [exact B|]. replace (Qabs (inject_Z i)) with (inject_Z (Z.abs i)) by reflexivity.
  assert (0 <= inject_Z (Z.abs i))%Q by (change 0%Q with (inject_Z 0); rewrite <- Zle_Qle; lia).
  change (1 # 2 ^ 52)%Q with (1 # 4503599627370496)%Q. lra.
Qed.

Lemma num_spec root j p ks : root_is root j -> names_ p ks -> sound j ->
  match num_at root p with Some b => has_number j ks b /\ in_u 64 b | None => no_number j ks end.
Proof.
  intros R N S. unfold num_at. rewrite (get_root _ _ _ _ R N).
  destruct (look j (map zs ks)) as [v|] eqn:E.
  - apply look_spec in E. pose proof (sound_at _ _ _ E S) as Sv.
    destruct v as [|b|i|b|s|l|l]; cbn [num_of]; try (intros w x A; pose proof (at_fun _ _ _ _ E A); subst w; split; discriminate).
    + inversion Sv as [| |i' Hi| | | |]; subst. destruct (bits64_of i Hi) as (U & q & D & B). split; [|exact U]. exists (JInt i). split; [exact E|]. right. exists i, q. auto.
    + inversion Sv; subst. split; [|assumption]. exists (JReal b). split; [exact E|]. left. reflexivity.
  - intros v b A. destruct (proj1 (look_none _ _) E _ A).
Qed.

Lemma no_number_has j ks b : no_number j ks -> ~ has_number j ks b.
Proof. intros N (v & A & [->|(i & q & -> & _)]); [apply (proj1 (N _ b A))|apply (proj2 (N _ i A))]; reflexivity. Qed.

(** ** Words *)

Lemma caseless_spec : forall w s, caseless w s = true <-> exists a r, s = a ++ r /\ map upper a = w.
Proof.
  induction w as [|c w IH]; intros s.
  - split; [intros _; exists [], s; split; reflexivity|reflexivity].
  - destruct s as [|d s]; cbn [caseless].
    + split; [discriminate|]. intros ([|x a] & r & E & M); discriminate.
    + rewrite andb_true_iff, IH. fold (upper d). split.
      * intros (E & a & r & -> & <-). exists (d :: a), r. split; [reflexivity|]. cbn [map]. f_equal. lia.
      * intros ([|x a] & r & E & M); [discriminate|]. injection E as <- ->. injection M as <- <-. split; [lia|]. eauto.
Qed.

Lemma begins_spec w s : caseless (zs w) s = true <-> begins w s.
Proof. apply caseless_spec. Qed.

Lemma text_fun j ks s s' : has_text j ks s -> has_text j ks s' -> s = s'.
Proof. intros A B. pose proof (at_fun _ _ _ _ A B). congruence. Qed.

Lemma word_spec root j p ks w : root_is root j -> names_ p ks -> sound j -> (says_ root p w = true <-> has_word j ks w).
Proof.
  intros R N S. unfold says_. pose proof (str_spec _ _ _ _ R N S) as H. destruct (str_at root p) as [s|].
  - rewrite begins_spec. split; [intros B; exists s; split; [apply H|exact B]|]. intros (s' & T & B).
    rewrite (text_fun _ _ _ _ (proj1 H) T). exact B.
  - split; [discriminate|]. intros (s & T & _). destruct (H s T).
Qed.

(** ** Texts *)

Lemma visible_ascii s n : Forall (fun c => 1 <= c <= 127) s -> 0 <= n -> visible (s ++ [0]) n = firstn (Z.to_nat n) s.
Proof.
  intros F N. unfold visible. assert (T : text s) by (eapply Forall_impl; [|exact F]; cbn; lia).
  destruct (Z_le_gt_dec n (lenZ s)) as [L|L].
  - rewrite firstn_app. replace (Z.to_nat n - List.length s)%nat with 0%nat by (unfold lenZ in L; lia). cbn [firstn]. rewrite app_nil_r.
    apply before_nul_all. now apply Forall_firstn.
  - rewrite !firstn_all2 by (rewrite ?app_length; unfold lenZ in L; cbn [List.length]; lia). now apply before_nul_text.
Qed.

Lemma open_spec root j p ks n : root_is root j -> names_ p ks -> sound j -> 0 <= n ->
  exists l, f_open n (str_at root p) = Ok (label_bytes n l) /\ label_for n j ks l.
Proof.
  intros R N S Hn. pose proof (str_spec _ _ _ _ R N S) as H. destruct (str_at root p) as [s|]; cbn [f_open].
  - destruct H as [T F]. exists (mk_label (firstn (Z.to_nat n) s) 32). split; [|left; eauto].
    rewrite (strncpopen_ok _ (s ++ [0]) n (firstn (Z.to_nat n) s)).
    + cbn [bind]. unfold label_bytes. cbn [l_text l_fill]. rewrite skipn_all2 by (rewrite repeat_length; lia). rewrite app_nil_r.
      f_equal. f_equal. f_equal. unfold lenZ. lia.
    + unfold bytes_ok; rewrite Forall_app. split; [eapply Forall_impl; [|exact F]; unfold byte_ok; cbn; lia|]. repeat constructor; lia.
    + right. apply in_or_app. right. left. reflexivity.
    + rewrite visible_ascii by assumption. apply longest_self, ascii_wf. now apply Forall_firstn.
    + rewrite repeat_length. lia.
  - exists (mk_label [] 0). split; [|right; auto]. unfold label_bytes. cbn [l_text l_fill app]. unfold lenZ. cbn [List.length]. rewrite Z.sub_0_r. reflexivity.
Qed.

(** ** Numbers *)

Lemma float_spec root j p ks hb : root_is root j -> names_ p ks -> sound j ->
  exists w, f_float hb (num_at root p) = ord true 4 w /\ float_for j ks w /\ in_u 32 w.
Proof.
  intros R N S. pose proof (num_spec _ _ _ _ R N S) as H. destruct (num_at root p) as [b|]; cbn [f_float].
  - destruct H as [T U]. pose proof (double_float b U) as D. exists (double_to_float b). rewrite be_ord. split; [reflexivity|].
    split; [left; eauto|]. apply D.
  - exists 0. split; [reflexivity|]. split; [right; auto|]. unfold in_u. lia.
Qed.

Lemma upto_spec root j p ks max : root_is root j -> names_ p ks -> 0 <= max -> let u := f_upto max (uint_at root p) in
  upto_for max j ks u /\ 0 <= u <= max.
Proof.
  intros R N M. cbv zeta. pose proof (uint_spec _ _ _ _ R N) as H. destruct (uint_at root p) as [u|]; cbn [f_upto].
  - destruct (Z.leb_spec u max).
    + split; [left; split; assumption|]. destruct H. lia.
    + split; [|lia]. right. split; [|reflexivity]. intros n [A P]. destruct H as [A' P']. pose proof (at_fun _ _ _ _ A A'). assert (n = u) by congruence. lia.
  - split; [|lia]. right. split; [|reflexivity]. intros n A. destruct (H n A).
Qed.

Lemma ten_thousand : exists c, dofz 10000 = DFin c /\ (c == 10000)%Q.
Proof. eexists. split; [vm_compute; reflexivity|reflexivity]. Qed.
Lemma half_is : dhalf = DFin (1 # 2)%Q.
Proof. reflexivity. Qed.

Lemma trunc_near q : (Qabs (inject_Z (qtrunc q) - q) < 1)%Q.
Proof.
  destruct q as [n d]. unfold qtrunc. cbn [Qnum Qden]. apply Qabs_Qlt_condition.
  pose proof (Z.quot_rem n (Z.pos d) ltac:(lia)) as E. pose proof (Z.rem_bound_abs n (Z.pos d) ltac:(lia)) as B.
  unfold Qlt, Qminus, Qplus, Qopp, inject_Z. cbn [Qnum Qden]. rewrite !Z.mul_1_r. nia.
Qed.

Lemma drnd_small x : (Qabs x <= inject_Z (2 ^ 33))%Q -> exists v, drnd x = DFin v /\ (Qabs (v - x) <= Qabs x * E53 + (1 # 10 ^ 40))%Q.
Proof. intros H. apply drnd_any. eapply Qle_trans; [exact H|]. vm_compute. discriminate. Qed.

(** Nearly [10000 q + 1/2]. *)
Lemma scaled_near b q : dval b = DFin q -> (Qabs (inject_Z 10000 * q) <= inject_Z (2 ^ 32 - 1))%Q ->
  exists z, scaled b = DFin z /\ (Qabs (z - (inject_Z 10000 * q + (1 # 2))) <= 1 # 2 ^ 20)%Q.
Proof.
  intros D H. destruct ten_thousand as (c & Ec & Qc). unfold scaled. rewrite D, Ec, half_is. cbn [dmul].
  change (2 ^ 32 - 1) with 4294967295 in H. change (1 # 2 ^ 20)%Q with (1 # 1048576)%Q.
  assert (X : (Qabs (q * c) <= 4294967295)%Q).
  { setoid_replace (q * c)%Q with (inject_Z 10000 * q)%Q; [exact H|]. rewrite Qc. change (inject_Z 10000) with 10000%Q. ring. }
  destruct (drnd_small (q * c)) as (v & Ev & Bv); [eapply Qle_trans; [exact X|vm_compute; discriminate]|]. rewrite Ev. cbn [dadd].
  change (10 ^ 40)%positive with 10000000000000000000000000000000000000000%positive in Bv.
  assert (Bv' : (Qabs (v - q * c) <= 4294967295 * E53 + (1 # 10000000000000000000000000000000000000000))%Q) by lra.
  apply Qabs_Qle_condition in X. apply Qabs_Qle_condition in Bv'. destruct X as [X1 X2], Bv' as [B1 B2]. clear Bv.
  assert (Y : (Qabs (v + (1 # 2)) <= 4294967295 + (1 # 2) + (1 # 1000000))%Q) by (apply Qabs_Qle_condition; split; lra).
  destruct (drnd_small (v + (1 # 2))) as (z & Ez & Bz); [eapply Qle_trans; [exact Y|vm_compute; discriminate]|]. exists z. split; [exact Ez|].
  change (10 ^ 40)%positive with 10000000000000000000000000000000000000000%positive in Bz.
  assert (Bz' : (Qabs (z - (v + (1 # 2))) <= (4294967295 + (1 # 2) + (1 # 1000000)) * E53 + (1 # 10000000000000000000000000000000000000000))%Q) by lra.
  apply Qabs_Qle_condition in Bz'. destruct Bz' as [C1 C2]. clear Bz Y.
  assert (W : (inject_Z 10000 * q == q * c)%Q) by (rewrite Qc; change (inject_Z 10000) with 10000%Q; ring).
  apply Qabs_Qle_condition. split; lra.
Qed.
Lemma added_near b q : dval b = DFin q -> (0 <= q <= inject_Z (2 ^ 32 - 1))%Q ->
  exists z, dadd (dval b) dhalf = DFin z /\ (Qabs (z - (q + (1 # 2))) <= 1 # 2 ^ 20)%Q.
Proof.
  intros D H. rewrite D, half_is. cbn [dadd]. change (2 ^ 32 - 1) with 4294967295 in H. change (inject_Z 4294967295) with 4294967295%Q in H.
  destruct H as [H1 H2]. assert (Y : (Qabs (q + (1 # 2)) <= 4294967295 + (1 # 2))%Q) by (apply Qabs_Qle_condition; split; lra).
  destruct (drnd_small (q + (1 # 2))) as (z & Ez & Bz); [eapply Qle_trans; [exact Y|vm_compute; discriminate]|]. exists z. split; [exact Ez|].
  change (10 ^ 40)%positive with 10000000000000000000000000000000000000000%positive in Bz. change (1 # 2 ^ 20)%Q with (1 # 1048576)%Q.
  eapply Qle_trans; [exact Bz|]. lra.
Qed.

Lemma to_uint_near x z : (0 <= x <= inject_Z (2 ^ 32 - 1))%Q -> (Qabs (z - (x + (1 # 2))) <= 1 # 2 ^ 20)%Q ->
  exists u, to_uint 32 (DFin z) = Ok u /\ in_u 32 u /\ (Qabs (inject_Z u - x) <= (1 # 2) + (1 # 2 ^ 20))%Q.
Proof.
  intros [X1 X2] H. change (1 # 2 ^ 20)%Q with (1 # 1048576)%Q in *. change (2 ^ 32 - 1) with 4294967295 in X2. change (inject_Z 4294967295) with 4294967295%Q in X2.
  apply Qabs_Qle_condition in H. destruct H as [H1 H2].
  destruct (SampleProof.trunc_bounds z ltac:(lra)) as [T1 T2]. set (u := qtrunc z) in *. exists u.
  assert (U : 0 <= u < 2 ^ 32).
  { split.
    - assert (inject_Z (-1) < inject_Z u)%Q by (change (inject_Z (-1)) with (-(1))%Q; lra). rewrite <- Zlt_Qlt in H. lia.
    - rewrite Zlt_Qlt. change (inject_Z (2 ^ 32)) with 4294967296%Q. lra. }
  split; [cbn [to_uint]; fold u; replace (in_ub 32 u) with true by (unfold in_ub; lia); reflexivity|]. split; [exact U|].
  apply Qabs_Qle_condition. split; lra.
Qed.

Lemma in_range_num root j p ks k b : root_is root j -> names_ p ks -> sound j -> in_range k j ks -> num_at root p = Some b ->
  exists q, has_number j ks b /\ dval b = DFin q /\ (0 <= inject_Z k * q <= inject_Z (2 ^ 32 - 1))%Q.
Proof.
  intros R N S I E. pose proof (num_spec _ _ _ _ R N S) as H. rewrite E in H. destruct H as [H _].
  destruct (I b H) as (q & D & B). eauto.
Qed.

Lemma scaled_spec root j p ks hb : root_is root j -> names_ p ks -> sound j -> in_range 10000 j ks ->
  exists u, f_scaled hb (num_at root p) = Ok (ord true 4 u) /\ rounded_for 10000 j ks u /\ in_u 32 u.
Proof.
  intros R N S I. pose proof (num_spec _ _ _ _ R N S) as H. pose proof (fun b => in_range_num root j p ks 10000 b R N S I) as X.
  destruct (num_at root p) as [b|]; cbn [f_scaled].
  - destruct (X b eq_refl) as (q & Hn & D & B).
    destruct (scaled_near b q D) as (z & E & Z1). { rewrite Qabs_pos; apply B. }
    destruct (to_uint_near _ _ B Z1) as (u & Eu & U & Q). rewrite E, Eu. cbn [bind]. rewrite be_ord. exists u. split; [reflexivity|]. split; [|exact U].
    left. exists b, q. split; [exact Hn|]. split; [exact D|]. split; [exact Q|exact U].
  - exists 0. split; [reflexivity|]. split; [right; auto|]. unfold in_u. lia.
Qed.
Lemma round_spec root j p ks hb : root_is root j -> names_ p ks -> sound j -> in_range 1 j ks ->
  exists u, f_round hb (num_at root p) = Ok (ord true 4 u) /\ rounded_for 1 j ks u /\ in_u 32 u.
Proof.
  intros R N S I. pose proof (num_spec _ _ _ _ R N S) as H. pose proof (fun b => in_range_num root j p ks 1 b R N S I) as X.
  destruct (num_at root p) as [b|]; cbn [f_round].
  - destruct (X b eq_refl) as (q & Hn & D & B). change (inject_Z 1) with 1%Q in B. rewrite Qmult_1_l in B.
    destruct (added_near b q D B) as (z & E & Z1).
    destruct (to_uint_near _ _ B Z1) as (u & Eu & U & Q). rewrite E, Eu. cbn [bind]. rewrite be_ord. exists u. split; [reflexivity|]. split; [|exact U].
    left. exists b, q. split; [exact Hn|]. split; [exact D|]. split; [|exact U]. unfold rounds. change (inject_Z 1) with 1%Q. rewrite Qmult_1_l. exact Q.
  - exists 0. split; [reflexivity|]. split; [right; auto|]. unfold in_u. lia.
Qed.

Lemma corr_spec root j : root_is root j -> sound j -> correction_ok j ->
  exists c, corr_at root = Ok c /\ in_s 32 c /\
    ((exists b v, has_number j (fdsn "Time" "Correction") b /\ dval b = DFin v /\ corrects v c) \/ no_number j (fdsn "Time" "Correction") /\ c = 0).
Proof.
  intros R S I. unfold corr_at.
  assert (N : names_ "/FDSN/Time/Correction" (fdsn "Time" "Correction")) by (split; [reflexivity|discriminate]).
  pose proof (num_spec _ _ _ _ R N S) as H. destruct (num_at root "/FDSN/Time/Correction") as [b|].
  - destruct H as [H _]. destruct (I b H) as (q & D & B1 & B2).
    change (inject_Z (- 2 ^ 31 + 1)) with (- (2147483647))%Q in B1. change (inject_Z (2 ^ 31 - 2)) with 2147483646%Q in B2.
    destruct (scaled_near b q D) as (z & E & Zb). { apply Qabs_Qle_condition. change (inject_Z (2 ^ 32 - 1)) with 4294967295%Q. split; lra. }
    rewrite E. cbn [to_int]. pose proof (trunc_near z) as T. pose proof (SampleProof.trunc_bounds z) as Tp. set (u := qtrunc z) in *.
    change (1 # 2 ^ 20)%Q with (1 # 1048576)%Q in *. apply Qabs_Qle_condition in Zb. apply Qabs_Qlt_condition in T. destruct Zb as [Z1 Z2], T as [T1 T2].
    assert (U : - 2 ^ 31 <= u < 2 ^ 31).
    { split.
      - assert (inject_Z (- 2 ^ 31 - 1) < inject_Z u)%Q by (change (inject_Z (- 2 ^ 31 - 1)) with (- (2147483649))%Q; lra). rewrite <- Zlt_Qlt in H0. lia.
      - rewrite Zlt_Qlt. change (inject_Z (2 ^ 31)) with 2147483648%Q. lra. }
    replace (in_sb 32 u) with true by (unfold in_sb; lia). exists u. split; [reflexivity|]. split; [unfold in_s; lia|]. left. exists b, q. split; [exact H|]. split; [exact D|].
    unfold corrects. destruct (Qlt_le_dec q 0) as [C|C].
    + apply Qabs_Qle_condition. change (1 # 2 ^ 20)%Q with (1 # 1048576)%Q. split; lra.
    + unfold rounds. apply Qabs_Qle_condition. change (1 # 2 ^ 20)%Q with (1 # 1048576)%Q. change (inject_Z 10000) with 10000%Q in *. destruct (Tp ltac:(lra)) as [P1 P2]. split; lra.
  - exists 0. split; [reflexivity|]. split; [unfold in_s; lia|]. right. auto.
Qed.

(** ** Times *)

Lemma time_spec root j p ks hb mode t : root_is root j -> names_ p ks -> sound j -> has_time j ks t ->
  f_btime hb mode (str_at root p) = Ok (btime_bytes true (btime_at t), t mod 1000000000) /\ in_s 64 t.
Proof.
  intros R N S (s & T & y & r & h & mi & sec & ns & n & Hd & L & Nm & Y & C & Et & I & Ne).
  pose proof (str_spec _ _ _ _ R N S) as H. destruct (str_at root p) as [s'|]; [|destruct (H s T)].
  destruct H as [T' _]. rewrite (text_fun _ _ _ _ T' T). cbn [f_btime]. subst t. split; [|exact I].
  rewrite (dates_ok mode s y r h mi sec ns n Hd L Nm Y C I). cbn [bind]. set (t := epoch_ns n h mi sec ns) in *.
  replace (t =? NSTERROR) with false by lia. rewrite nstime2time_ok by exact I. unfold fields_of. rewrite !be_ord. reflexivity.
Qed.
