(** * C40: conversion of sample types.  Vocabulary: ConvSpec.v. *)

From Verif Require Import Base BaseLemmas ConvModel ConvSpec ConvProof ConvLists.
Open Scope Z_scope.

(** Integers and floats to doubles: the same values, infinities and NaNs included. *)
Theorem C40_int_double : forall pre truncate zs tail size, Forall (in_s 32) zs -> let n := Z.of_nat (length zs) in exists r,
  convertsamples pre (mk_cseg 105 n size (map (uwrap 32) zs ++ tail)) 100 truncate = Ok (mk_cseg 100 n (8 * n) (dwords r), 0) /\
  Forall2 (fun z b => 0 <= b < 2 ^ 64 /\ units64 b = Some (z * one)) zs r.
Proof. exact ints_doubles. Qed.
Print Assumptions C40_int_double.

Theorem C40_float_double : forall pre truncate l tail size, Forall (fun w => 0 <= w < 2 ^ 32) l -> let n := Z.of_nat (length l) in exists r,
  convertsamples pre (mk_cseg 102 n size (l ++ tail)) 100 truncate = Ok (mk_cseg 100 n (8 * n) (dwords r), 0) /\ Forall2 same_value l r.
Proof. exact floats_doubles. Qed.
Print Assumptions C40_float_double.

(** Integers and doubles to floats: the nearest float. *)
Theorem C40_int_float : forall pre truncate zs tail size, Forall (in_s 32) zs -> let n := Z.of_nat (length zs) in exists r,
  convertsamples pre (mk_cseg 105 n size (map (uwrap 32) zs ++ tail)) 102 truncate = Ok (mk_cseg 102 n size (r ++ tail), 0) /\
  Forall2 (fun z b => nearest_pattern units32 32 (z * one) b) zs r.
Proof. exact ints_floats. Qed.
Print Assumptions C40_int_float.

Theorem C40_double_float : forall pre truncate l tail size, Forall (fun b => 0 <= b < 2 ^ 64) l -> let n := Z.of_nat (length l) in
  exists size' mem' r,
  convertsamples pre (mk_cseg 100 n size (dwords l ++ tail)) 102 truncate = Ok (mk_cseg 102 n size' mem', 0) /\
  firstn (length l) mem' = r /\ Forall2 nearest_float l r /\
  (if pre then size' = size /\ length mem' = length (dwords l ++ tail) else size' = 4 * n /\ mem' = r).
Proof. exact doubles_floats. Qed.
Print Assumptions C40_double_float.

(** Non-negative floats and doubles to integers, when they fit: the nearest integer (one
    double below one half gives 1); without truncation an error is reported exactly when a
    sample is more than a millionth above an integer. *)
Theorem C40_to_int_partial : forall pre truncate dbl l xs tail size,
  Forall2 (fun b x => 0 <= b < 2 ^ bits_of dbl /\ units_of dbl b = Some x /\ fits_int x) l xs ->
  let n := Z.of_nat (length l) in let s := mk_cseg (if dbl then 100 else 102) n size (stored dbl l ++ tail) in
  if negb truncate && existsb lossy xs then
    exists mem', convertsamples pre s 105 truncate = Ok (mk_cseg (c_type s) n size mem', -1) /\ length mem' = length (c_mem s)
  else exists zs size' mem', convertsamples pre s 105 truncate = Ok (mk_cseg 105 n size' mem', 0) /\
    firstn (length l) mem' = map (uwrap 32) zs /\ Forall2 (fun x z => in_s 32 z /\ nearest_or_one dbl x z) xs zs /\
    (if dbl && negb pre then size' = 4 * n /\ length mem' = length l else size' = size /\ length mem' = length (c_mem s)).
Proof. exact to_integers. Qed.
Print Assumptions C40_to_int_partial.

(** Text is refused and left alone. *)
Theorem C40_text : forall pre s type truncate, c_type s <> type -> c_type s = 116 \/ c_type s = 97 \/ type = 116 \/ type = 97 ->
  convertsamples pre s type truncate = Ok (s, -1).
Proof. exact text_conv. Qed.
Print Assumptions C40_text.

(** Instances: 3.0 and 2.5 as doubles, with and without truncation; 16777217 as a float. *)
Definition d3 := 0x4008000000000000.
Definition d2_5 := 0x4004000000000000.
Example C40_instance :
  Forall2 (fun b x => 0 <= b < 2 ^ bits_of true /\ units_of true b = Some x /\ fits_int x) [d3; d2_5] [3 * one; 5 * 2 ^ 1073] /\
  convertsamples false (mk_cseg 100 2 16 (dwords [d3; d2_5])) 105 true = Ok (mk_cseg 105 2 8 [3; 3], 0) /\
  (exists mem, convertsamples false (mk_cseg 100 2 16 (dwords [d3; d2_5])) 105 false = Ok (mk_cseg 100 2 16 mem, -1)) /\
  convertsamples false (mk_cseg 105 1 4 [16777217]) 102 false = Ok (mk_cseg 102 1 4 [0x4B800000], 0) /\
  convertsamples false (mk_cseg 102 1 4 [0x4B800000]) 100 false = Ok (mk_cseg 100 1 8 [0; 0x41700000], 0).
Proof.
  split. { repeat constructor; discriminate. }
  split; [vm_compute; reflexivity|]. split; [eexists; vm_compute; reflexivity|]. split; vm_compute; reflexivity.
Qed.

(** The claim as stated is false.  One half is added to negative samples too, and the sum
    truncated towards zero (tracelist.c:1415 and 1430): every negative integer converted to
    doubles and back becomes the next integer, whether or not truncation is allowed. *)
Theorem C40_negative_refuted : forall pre truncate z tail size, - 2 ^ 31 <= z < 0 ->
  exists b, convertsamples pre (mk_cseg 105 1 size (uwrap 32 z :: tail)) 100 truncate = Ok (mk_cseg 100 1 8 (dwords [b]), 0) /\
    units64 b = Some (z * one) /\ forall pre' truncate', exists size' mem',
    convertsamples pre' (mk_cseg 100 1 8 (dwords [b])) 105 truncate' = Ok (mk_cseg 105 1 size' mem', 0) /\
    firstn 1 mem' = [uwrap 32 (z + 1)].
Proof. exact negative_back. Qed.
Print Assumptions C40_negative_refuted.

(** The loss of a negative fraction is not detected: -0.75 becomes 0. *)
Theorem C40_fraction_refuted : exists b, units64 b = Some (- (3 * 2 ^ 1072)) /\
  convertsamples false (mk_cseg 100 1 8 (dwords [b])) 105 false = Ok (mk_cseg 105 1 4 [0], 0).
Proof. exists 0xBFE8000000000000. split; vm_compute; reflexivity. Qed.
Print Assumptions C40_fraction_refuted.

(** On loss the samples before have been overwritten, the type has not changed: 3.0 has
    become a double near 2. *)
Theorem C40_unchanged_refuted : exists mem,
  convertsamples false (mk_cseg 100 2 16 (dwords [d3; d2_5])) 105 false = Ok (mk_cseg 100 2 16 mem, -1) /\
  mem = dwords [0x4008000000000003; d2_5] /\ mem <> dwords [d3; d2_5].
Proof. eexists. split; [vm_compute; reflexivity|]. split; [reflexivity|discriminate]. Qed.
Print Assumptions C40_unchanged_refuted.

(** Loss of precision is not reported by conversions to float. *)
Theorem C40_silent_refuted :
  (exists s, convertsamples false (mk_cseg 105 1 4 [16777217]) 102 false = Ok (s, 0) /\ c_type s = 102 /\ exists w, c_mem s = [w] /\ units32 w = Some (16777216 * one)) /\
  (exists s, convertsamples false (mk_cseg 100 1 8 (dwords [0x3FB999999999999A])) 102 false = Ok (s, 0) /\ c_type s = 102 /\ exists w, c_mem s = [w] /\ units32 w <> units64 0x3FB999999999999A).
Proof.
  split; eexists; (split; [vm_compute; reflexivity|]); (split; [reflexivity|]); eexists; (split; [reflexivity|]).
  - vm_compute. reflexivity.
  - vm_compute. discriminate.
Qed.
Print Assumptions C40_silent_refuted.

(** The largest double below one half becomes 1. *)
Theorem C40_half_refuted : units64 0x3FDFFFFFFFFFFFFF = Some below_half /\ 2 * below_half < one /\
  convertsamples false (mk_cseg 100 1 8 (dwords [0x3FDFFFFFFFFFFFFF])) 105 true = Ok (mk_cseg 105 1 4 [1], 0).
Proof. split; [|split]; vm_compute; reflexivity. Qed.
Print Assumptions C40_half_refuted.

(** A sample that does not fit is converted all the same, which is undefined. *)
Theorem C40_range_refuted : forall pre truncate tail size, units32 0x4F000000 = Some (2 ^ 31 * one) /\
  convertsamples pre (mk_cseg 102 1 size (0x4F000000 :: tail)) 105 truncate = UB SignedOverflow.
Proof. intros pre truncate tail size. split; [vm_compute; reflexivity|]. destruct truncate; reflexivity. Qed.
Print Assumptions C40_range_refuted.
