(** * The payload of a version 2 record: big-endian, followed by zeros. *)

From Verif Require Import Base BaseLemmas SteimModel SteimSpec SteimProof SteimFrames CodecModel CodecProof
  TimeModel RecModel RecSpec RecProof PackModel PackSpec PackData PackProof.
Open Scope Z_scope.

(** As [payload_of] of PackData, in the other byte order, whatever follows in memory. *)
Definition payload2_of (m2 : ovmode) (enc : Z) (src : list Z) (cap n : Z) (bytes : list Z) : Prop :=
  1 <= n <= lenZ src /\ 1 <= lenZ bytes <= cap /\ bytes_ok bytes /\
  (is_steim enc = true -> leads bytes) /\
  (forall w, fixed_bytes enc = Some w -> lenZ bytes = w * n) /\
  (forall hb2 tail inlen, n < 2 ^ 31 -> lenZ bytes <= inlen <= lenZ (bytes ++ tail) ->
     decode_data hb2 (negb hb2) m2 (bytes ++ tail) inlen enc n
     (n * match encoding_sizetype enc with Some (s, _) => s | None => 0 end) = Ok (SInt (firstn (Z.to_nat n) src))).

Ltac fixed_case2 w rt C Hne src :=
  cbn [Z.eqb Pos.eqb negb orb];
  match goal with |- context [?cap <? _] =>
    destruct (cap <? w) eqn:Hc; [left; split; [reflexivity|intros [Hm _]; unfold min_payload in Hm; cbn [Z.eqb Pos.eqb orb] in Hm; lia]|];
    right;
    let n := fresh "n" in let bytes := fresh "bytes" in let E := fresh "E" in let En := fresh "En" in
    let Lb := fresh "Lb" in let Lc := fresh "Lc" in let Bk := fresh "Bk" in
    destruct (rt false true _ cap ltac:(match goal with |- xorb ?h _ = _ => destruct h; reflexivity end) Hne C ltac:(lia))
      as (n & bytes & E & En & Lb & Lc & Bk & _);
    exists n, bytes;
    fold (lenZ src) in *; fold (lenZ bytes) in *;
    assert (1 <= cap / w) by (apply Z.div_le_lower_bound; lia);
    split; [exact E|]; split; [lia|]; split; [lia|]; split; [assumption|]; split; [discriminate|];
    split; [intros w' [= <-]; lia|];
    intros hb2 tail inlen Hn Hi;
    let n' := fresh "n'" in let bytes' := fresh "bytes'" in let E' := fresh "E'" in let D := fresh "D" in
    destruct (rt hb2 (negb hb2) _ cap ltac:(match goal with |- xorb ?h _ = xorb ?h2 _ => destruct h, h2; reflexivity end) Hne C ltac:(lia))
      as (n' & bytes' & E' & _ & _ & _ & _ & D);
    rewrite E in E'; injection E' as <- <-;
    unfold decode_data; replace (n =? 0) with false by lia; 
    cbn [encoding_sizetype Z.eqb Pos.eqb orb is_steim];
    match goal with |- context [uwrap 64 ?x] => change (uwrap 64 x) with (x mod 2 ^ 64); rewrite (Z.mod_small x) by lia;
      replace (x <? x) with false by lia; specialize (D tail n x ltac:(lia) ltac:(lia) ltac:(lia)) end;
    rewrite D; cbn [bind]; apply decoded_ok; lia
  end.

Lemma pack_data2_ok hb m1 m2 enc type src cap : packable m1 enc type src -> packable m2 enc type src -> src <> [] -> 0 <= cap ->
  (pack_data hb (negb hb) m1 enc type src cap = Err (-1) /\ ~ (min_payload enc <= cap /\ storable enc src)) \/
  exists n bytes, pack_data hb (negb hb) m1 enc type src cap = Ok (n, bytes) /\ payload2_of m2 enc src cap n bytes.
Proof.
  intros P P2 Hne Hcap. assert (L : 1 <= lenZ src) by (destruct src; [congruence|unfold lenZ; cbn [length]; lia]).
  unfold packable in P, P2. unfold pack_data.
  destruct P as [(-> & B & C)|[(-> & -> & C)|[(-> & -> & C)|[(-> & -> & C)|[(-> & -> & C)|(A & -> & C)]]]]].
  - cbn [Z.eqb]. replace (negb (type =? 116) && negb (type =? 97)) with false by (destruct B as [->| ->]; reflexivity).
    destruct (Z.eq_dec cap 0) as [->|Hc].
    + left. split; [destruct src; [congruence|reflexivity]|]. unfold min_payload. cbn. lia.
    + right. destruct (text_roundtrip src cap Hne C ltac:(lia)) as (n & bytes & E & En & Lb & D). exists n, bytes.
      split; [exact E|]. fold (lenZ src) in *. fold (lenZ bytes) in *.
      assert (bytes_ok bytes).
      { destruct src; [congruence|]. unfold encode_text in E. destruct (cap =? 0); [discriminate|]. injection E as _ <-. now apply Forall_firstn. }
      split; [lia|]. split; [lia|]. split; [assumption|]. split; [discriminate|]. split; [intros w [= <-]; lia|].
      intros hb2 tail inlen Hn Hi. unfold decode_data. replace (n =? 0) with false by lia. cbn [encoding_sizetype Z.eqb].
      change (uwrap 64 (n * 1)) with ((n * 1) mod 2 ^ 64). rewrite Z.mod_small by lia.
      replace (n * 1 <? n * 1) with false by lia.
      specialize (D tail n n ltac:(lia) ltac:(lia)). unfold decode_text in D.
      replace (n =? 0) with false in D by lia. replace (n <? n) with false in D by lia. rewrite D. cbn [bind].
      apply decoded_ok. lia.
  - fixed_case2 2 (int16_roundtrip hb (negb hb)) C Hne src.
  - fixed_case2 4 (int32_roundtrip hb (negb hb)) C Hne src.
  - fixed_case2 4 (float32_roundtrip hb (negb hb)) C Hne src.
  - fixed_case2 8 (float64_roundtrip hb (negb hb)) C Hne src.
  - assert (C2 : compressible m2 src) by (destruct P2 as [(? & _)|[(? & _)|[(? & _)|[(? & _)|[(? & _)|?]]]]]; [lia|lia|lia|lia|lia|tauto]).
    destruct A as [-> | ->]; cbn [Z.eqb Pos.eqb negb orb].
    + destruct (cap <? 64) eqn:Hc; [left; split; [reflexivity|intros [Hm _]; unfold min_payload in Hm; cbn [Z.eqb Pos.eqb orb] in Hm; lia]|].
      right.
      destruct (steim1_lossless_lemma hb (negb hb) false true m1 m2 src cap 0 ltac:(destruct hb; reflexivity) C C2 ltac:(unfold in_s; lia) ltac:(lia))
        as (n & bytes & E & En & (g & Hg & Lg & Lc & _) & Bk & _). fold (lenZ src) in *. fold (lenZ bytes) in *.
      exists n, bytes. split; [exact E|].
      split; [lia|]. split; [unfold lenZ in *; lia|]. split; [assumption|].
      split; [intros _; eapply steim1_leads; [|exact E]; destruct hb; reflexivity|].
      split; [discriminate|]. intros hb2 tail inlen Hn Hi.
      destruct (steim1_lossless_lemma hb (negb hb) hb2 (negb hb2) m1 m2 src cap 0 ltac:(destruct hb, hb2; reflexivity) C C2 ltac:(unfold in_s; lia) ltac:(lia))
        as (n' & bytes' & E' & _ & _ & _ & D). rewrite E in E'. injection E' as <- <-.
      specialize (D tail inlen (n * 4)).
      unfold decode_data. replace (n =? 0) with false by lia. cbn [encoding_sizetype Z.eqb Pos.eqb orb is_steim].
      change (uwrap 64 (n * 4)) with ((n * 4) mod 2 ^ 64). rewrite Z.mod_small by lia.
      replace (n * 4 <? n * 4) with false by lia.
      rewrite D by (unfold lenZ in *; lia). cbn [bind]. apply decoded_ok. lia.
    + destruct (cap <? 64) eqn:Hc; [left; split; [reflexivity|intros [Hm _]; unfold min_payload in Hm; cbn [Z.eqb Pos.eqb orb] in Hm; lia]|].
      destruct (steim2_lossless_lemma hb (negb hb) false true m1 m2 src cap 0 ltac:(destruct hb; reflexivity) C C2 ltac:(unfold in_s; lia) ltac:(lia))
        as [(E & j & d & J1 & J2)|(n & bytes & E & En & (g & Hg & Lg & Lc & _) & Bk & _)].
      * left. split; [exact E|]. intros [_ S]. specialize (S eq_refl). apply nth_error_In in J1.
        rewrite Forall_forall in S. exact (J2 (S d J1)).
      * right. fold (lenZ src) in *. fold (lenZ bytes) in *.
        exists n, bytes. split; [exact E|].
        split; [lia|]. split; [unfold lenZ in *; lia|]. split; [assumption|].
        split; [intros _; eapply steim2_leads; [|exact E]; destruct hb; reflexivity|].
        split; [discriminate|]. intros hb2 tail inlen Hn Hi.
        destruct (steim2_lossless_lemma hb (negb hb) hb2 (negb hb2) m1 m2 src cap 0 ltac:(destruct hb, hb2; reflexivity) C C2 ltac:(unfold in_s; lia) ltac:(lia))
          as [(E' & _)|(n' & bytes' & E' & _ & _ & _ & _ & D)]; rewrite E in E'; [discriminate|]. injection E' as <- <-.
        specialize (D tail inlen (n * 4)).
        unfold decode_data. replace (n =? 0) with false by lia. cbn [encoding_sizetype Z.eqb Pos.eqb orb is_steim].
        change (uwrap 64 (n * 4)) with ((n * 4) mod 2 ^ 64). rewrite Z.mod_small by lia.
        replace (n * 4 <? n * 4) with false by lia.
        rewrite D by (unfold lenZ in *; lia). cbn [bind]. apply decoded_ok. lia.
Qed.

(** ** Trimming *)

(** A nonzero byte within the size is not trimmed off. *)
Lemma trim_keeps rec p : forall g fuel, (g < fuel)%nat -> 64 * Z.of_nat g <= lenZ rec -> 0 <= p < 64 * Z.of_nat g -> nth (Z.to_nat p) rec 0 <> 0 ->
  exists d, trim_frames fuel rec (64 * Z.of_nat g) = Ok (64 * Z.of_nat d) /\ p < 64 * Z.of_nat d <= 64 * Z.of_nat g.
Proof.
  induction g as [|g IH]; intros fuel F L P N; [lia|]. destruct fuel as [|fuel]; [lia|]. cbn [trim_frames].
  replace (0 <? 64 * Z.of_nat (S g)) with true by lia.
  rewrite sliceZ_ok by (unfold lenZ in *; lia). cbn [bind].
  set (fr := firstn (Z.to_nat 64) (skipn (Z.to_nat (64 * Z.of_nat (S g) - 64)) rec)).
  destruct (forallb (Z.eqb 0) fr) eqn:Fz.
  - assert (P' : p < 64 * Z.of_nat g).
    { destruct (Z.lt_ge_cases p (64 * Z.of_nat g)) as [|G]; [assumption|]. exfalso. apply N.
      assert (Nf : nth (Z.to_nat p - 64 * g) fr 0 = nth (Z.to_nat p) rec 0).
      { subst fr. rewrite nth_firstn_lt by lia. rewrite nth_skipn_add. f_equal. lia. }
      rewrite <- Nf. rewrite forallb_forall in Fz.
      assert (I : In (nth (Z.to_nat p - 64 * g) fr 0) fr).
      { apply nth_In. subst fr. rewrite firstn_length, skipn_length. unfold lenZ in L. lia. }
      specialize (Fz _ I). lia. }
    destruct (IH fuel ltac:(lia) ltac:(lia) ltac:(lia) N) as (d & E & D). exists d.
    replace (64 * Z.of_nat (S g) - 64) with (64 * Z.of_nat g) by lia. split; [exact E|lia].
  - exists (S g). split; [reflexivity|lia].
Qed.
