(** * C58: channels with gaps are recovered from their records.
    Vocabulary: SpanSpec.v, TlSpec.v (trace lists). *)

From Coq Require Import Permutation.
From Verif Require Import Base TlModel TlSpec PropTl SpanSpec SpanProof.
Open Scope Z_scope.

(** ** C58 *)

(** Records of any number of channels, each with stretches of data that are tiled up to [d]
    (less than a quarter of the sample period) and where no record of one stretch continues
    another one by less than about half a sample period, added in any order with healing and
    the default tolerances: one entry for each channel, in order, and in it one segment for
    each stretch, made of its records in order. *)
Theorem C58_channels : forall f chs rs, let all := map fst (concat (map (@concat _) chs)) in
  f_mode f = Strict -> f_heal f = true -> f_ttol f = None -> f_rtol f = None ->
  Forall (fun c => exists p d, one_rate f p (concat c) /\ stretches p ((p + 1) / 2) d c /\ 0 <= d /\ 4 * d + 4 < p) chs ->
  ForallOrdPairs (other_channel f) chs ->
  (forall r r', In r all -> In r' all -> r_sid r = r_sid r' -> r_data r <> [] -> r_type r' = r_type r /\ known_type (r_type r) = true) ->
  sum (map r_cnt all) < 2 ^ 63 -> Permutation (map fst rs) all -> given rs ->
  exists k, add_all f tl_init rs = Ok k /\ recovered f k chs.
Proof. exact chans_default. Qed.
Print Assumptions C58_channels.

(** The same for any tolerances, as far as the records of a channel have one period and one
    tolerance and their rates are taken for each other, whenever the records are added. *)
Theorem C58_any_tolerance : forall f chs, f_mode f = Strict -> f_heal f = true -> ForallOrdPairs (other_channel f) chs ->
  Forall (fun c => exists p tol d, alike f p tol (concat c) /\ stretches p tol d c /\ 0 <= d <= tol /\ 2 * d + tol < p) chs ->
  forall rs k, Permutation (map fst rs) (map fst (concat (map (@concat _) chs))) -> given rs -> add_all f tl_init rs = Ok k -> recovered f k chs.
Proof. exact chans_of_all. Qed.
Print Assumptions C58_any_tolerance.

(** So the order in which the records are added, and the heights drawn, do not matter: the
    lists have the same entries and the same segments. *)
Theorem C58_order : forall f chs rs rs' k k', f_mode f = Strict -> f_heal f = true -> ForallOrdPairs (other_channel f) chs ->
  Forall (fun c => exists p tol d, alike f p tol (concat c) /\ stretches p tol d c /\ 0 <= d <= tol /\ 2 * d + tol < p) chs ->
  Forall (fun c => exists rate type, Forall (fun x => r_rate (fst x) = rate /\ r_type (fst x) = type) (concat c)) chs ->
  Permutation (map fst rs) (map fst (concat (map (@concat _) chs))) -> Permutation (map fst rs') (map fst rs) -> given rs -> given rs' ->
  add_all f tl_init rs = Ok k -> add_all f tl_init rs' = Ok k' -> same_entries k k'.
Proof.
  intros f chs rs rs' k k' HM HH HO HC HR P P' G G' E E'. apply (recovered_same f k k' chs HM HC HR).
  - exact (chans_of_all f chs HM HH HO HC rs k P G E).
  - exact (chans_of_all f chs HM HH HO HC rs' k' (Permutation_trans P' P) G' E').
Qed.
Print Assumptions C58_order.

(** Channel A with two stretches, channel B with one. *)
Definition chan_a : channel := [[(rec1 65 1 0 [1; 2; 3], 2000000000); (rec1 65 1 3 [4], 3000000000)]; [(rec1 65 1 6 [5; 6], 7000000000)]].
Definition chan_b : channel := [[(rec1 66 1 3 [9], 3000000000)]].
Definition mixed : list (trec * nat) :=
  [(rec1 65 1 6 [5; 6], 1%nat); (rec1 66 1 3 [9], 2%nat); (rec1 65 1 3 [4], 1%nat); (rec1 65 1 0 [1; 2; 3], 1%nat)].
Example C58_instance :
  (forall c, In c [chan_a; chan_b] -> one_rate plain 1000000000 (concat c) /\ stretches 1000000000 500000000 0 c) /\
  ForallOrdPairs (other_channel plain) [chan_a; chan_b] /\
  Permutation (map fst mixed) (map fst (concat (map (@concat _) [chan_a; chan_b]))) /\ given mixed /\
  view (add_all plain tl_init mixed) = Ok [([65], 1, 2, 0, 7000000000, [(0, 3000000000, 4, [1; 2; 3; 4]); (6000000000, 7000000000, 2, [5; 6])]);
                                           ([66], 1, 1, 3000000000, 3000000000, [(3000000000, 3000000000, 1, [9])])].
Proof.
  assert (R : forall sid L, (forall x, In x L -> exists t d, x = (rec1 sid 1 t d, (t + Z.of_nat (length d) - 1) * 1000000000) /\ 0 <= t < 10 /\ (length d = 1 \/ length d = 2 \/ length d = 3)%nat) ->
    one_rate plain 1000000000 L).
  { intros sid L H. split; [|split].
    - apply Forall_forall. intros x Hx. destruct (H x Hx) as (t & d & -> & Ht & Hd). cbn [fst]. split.
      + eexists. split; [vm_compute; reflexivity|]. split; [vm_compute; discriminate|]. split; [vm_compute; discriminate|]. unfold rec1. cbn [r_cnt r_start].
        split; [destruct Hd as [->|[->| ->]]; vm_compute; discriminate|]. split; [lia|destruct Hd as [->|[->| ->]]; lia].
      + assert (C : In t [0; 1; 2; 3; 4; 5; 6; 7; 8; 9]) by (cbn; lia). unfold timed, rec_end, rec1. cbn [fst snd r_start r_cnt r_rate].
        destruct Hd as [->|[->| ->]]; cbn in C; repeat (destruct C as [<-|C]; [vm_compute; reflexivity|]); destruct C.
    - exists 4607182418800017408, [sid]. split; [apply Forall_forall; intros x Hx; destruct (H x Hx) as (t & d & -> & _); split; reflexivity|].
      split; [vm_compute; reflexivity|]. split; [lia|]. eexists. split; [vm_compute; reflexivity|]. reflexivity.
    - discriminate. }
  assert (F : forall P : trec * Z -> Prop, P (rec1 65 1 0 [1; 2; 3], 2000000000) -> P (rec1 65 1 3 [4], 3000000000) -> P (rec1 65 1 6 [5; 6], 7000000000) -> forall x, In x (concat chan_a) -> P x).
  { intros P A B C x [<-|[<-|[<-|[]]]]; assumption. }
  split; [|split; [|split; [|split]]].
  - intros c [<-|[<-|[]]].
    + split.
      * apply (R 65). apply F; [exists 0, [1; 2; 3]|exists 3, [4]|exists 6, [5; 6]]; (split; [reflexivity|]); split; (lia || auto).
      * split; [discriminate|]. split; [repeat (constructor; [split; [discriminate|cbn; repeat split; lia]|]); constructor|].
        constructor; [|repeat constructor]. constructor; [|constructor]. intros x y [<-|[<-|[]]] [<-|[]]; unfold continues; cbn; repeat split; lia.
    + split.
      * apply (R 66). intros x [<-|[]]. exists 3, [9]. split; [reflexivity|]. split; [lia|auto].
      * split; [discriminate|]. split; [constructor; [split; [discriminate|cbn; auto]|constructor]|]. repeat constructor.
  - constructor; [|repeat constructor]. constructor; [|constructor]. intros x y [<-|[<-|[<-|[]]]] [<-|[]]; left; discriminate.
  - unfold mixed. cbn [map fst concat app chan_a chan_b]. eapply perm_trans; [apply (Permutation_app_comm [_; _] [_; _])|]. apply perm_swap.
  - unfold given, mixed, valid_height. repeat constructor; cbn; lia.
  - vm_compute. reflexivity.
Qed.
