(** * C45: factor and multiplier represent the rate *)

From Coq Require Import QArith Qabs Lqa.
From Verif Require Import Base SampleModel DblModel V2RecSpec Pack2Model FactRate.
Open Scope Z_scope.

(** The value of the patterns in the examples. *)
Definition dvalue (r : Z) : Q := match dval r with DFin v => v | _ => 0%Q end.

(** The rate of a whole number of samples per second: that number and 1. *)
Theorem C45_whole : forall mode r v n, dval r = DFin v -> (1 <= v)%Q -> 1 <= n <= 32767 -> (Qabs (v - inject_Z n) <= 9 # 100000000)%Q ->
  genfactmult mode (sampratehz r) = Ok (n, 1) /\ (nominal n 1 == inject_Z n)%Q.
Proof. exact whole_nominal. Qed.
Print Assumptions C45_whole.
(* 100 Hz *)
Example C45_whole_100 : genfactmult Strict (sampratehz 0x4059000000000000) = Ok (100, 1) /\ (nominal 100 1 == 100)%Q.
Proof. apply (C45_whole Strict _ (dvalue 0x4059000000000000) 100); try (vm_compute; discriminate); [vm_compute; reflexivity|lia]. Qed.

(** A period of a whole number of seconds: minus that number and -1. *)
Theorem C45_whole_period : forall mode r v p, dval r = DFin v -> 2 <= p <= 32767 -> (Qabs (v + inject_Z p) <= 1 # 100000000)%Q ->
  genfactmult mode (sampratehz r) = Ok (- p, -1) /\ (nominal (- p) (-1) == / inject_Z p)%Q.
Proof. exact period_nominal. Qed.
Print Assumptions C45_whole_period.
(* 60 s *)
Example C45_whole_period_60 : genfactmult Strict (sampratehz 0xc04e000000000000) = Ok (-60, -1) /\ (nominal (-60) (-1) == / 60)%Q.
Proof. apply (C45_whole_period Strict _ (dvalue 0xc04e000000000000) 60); try (vm_compute; discriminate); [vm_compute; reflexivity|lia]. Qed.

(** Larger whole numbers are split in two factors.  The product falls short of the rate by
    less than one part in its square root; it is exact if the rate has two different
    factors that fit.  Only the largest rates may be refused, none leads to a fault. *)
Theorem C45_large_partial : forall mode r v n, 0 <= r < 2 ^ 64 -> dval r = DFin v -> (Qabs (v - inject_Z n) <= 9 # 100000000)%Q ->
  32768 <= n <= 32767 * 32767 ->
  (exists f mu, genfactmult mode (sampratehz r) = Ok (f, mu) /\ (nominal f mu == inject_Z (f * mu))%Q /\ 1 <= f <= 32767 /\ 1 <= mu <= 32767 /\
     f * mu <= n < f * mu + f /\ f * f <= n /\
     (forall a b, n = a * b -> 1 <= a < b -> b <= 32767 -> n < 32764 * 32768 -> f * mu = n))
  \/ (32764 * 32768 <= n /\ genfactmult mode (sampratehz r) = Err (-1)).
Proof. exact large_nominal. Qed.
Print Assumptions C45_large_partial.
(* 100000 Hz = 250 * 400 *)
Example C45_large_100000 : exists f mu, genfactmult Strict (sampratehz 0x40f86a0000000000) = Ok (f, mu) /\ f * mu = 100000.
Proof.
  destruct (C45_large_partial Strict 0x40f86a0000000000 (dvalue 0x40f86a0000000000) 100000) as [(f & mu & E & _ & _ & _ & _ & _ & X)|[H _]];
    [lia|vm_compute; reflexivity|vm_compute; discriminate|lia| |lia].
  exists f, mu. split; [exact E|]. apply (X 250 400); lia.
Qed.

(** Likewise for periods up to 2^28 seconds; these are never refused. *)
Theorem C45_large_period_partial : forall mode r v p, dval r = DFin v -> (Qabs (v + inject_Z p) <= 1 # 100000000)%Q -> 32768 <= p <= 2 ^ 28 ->
  exists f mu, genfactmult mode (sampratehz r) = Ok (- f, - mu) /\ (nominal (- f) (- mu) == / inject_Z (f * mu))%Q /\ 1 <= f <= 32767 /\ 1 <= mu <= 32767 /\
    f * mu <= p < f * mu + f /\ f * f <= p /\ (forall a b, p = a * b -> 1 <= a < b -> b <= 32767 -> f * mu = p).
Proof. exact large_period_nominal. Qed.
Print Assumptions C45_large_period_partial.
(* 86400 s *)
Example C45_large_period_day : exists f mu, genfactmult Strict (sampratehz 0xc0f5180000000000) = Ok (- f, - mu) /\ f * mu = 86400.
Proof.
  destruct (C45_large_period_partial Strict 0xc0f5180000000000 (dvalue 0xc0f5180000000000) 86400) as (f & mu & E & _ & _ & _ & _ & _ & X);
    [vm_compute; reflexivity|vm_compute; discriminate|lia|].
  exists f, mu. split; [exact E|]. apply (X 240 360); lia.
Qed.

(** A whole number and a unit fraction, n + 1/k, is represented as (n k + 1) / k. *)
Theorem C45_fraction : forall mode r v n k, dval r = DFin v -> 1 <= n -> 2 <= k <= 30 -> n * k + 1 < 32767 ->
  (Qabs (v - (inject_Z n + / inject_Z k)) <= 1 # 100000000000)%Q ->
  genfactmult mode (sampratehz r) = Ok (n * k + 1, - k) /\ (nominal (n * k + 1) (- k) == inject_Z n + / inject_Z k)%Q.
Proof. exact unit_nominal. Qed.
Print Assumptions C45_fraction.
(* 33.333... Hz *)
Example C45_fraction_third : genfactmult Strict (sampratehz 0x4040aaaaaaaaaaab) = Ok (100, -3) /\ (nominal 100 (-3) == 33 + / 3)%Q.
Proof. apply (C45_fraction Strict _ (dvalue 0x4040aaaaaaaaaaab) 33 3); try lia; [vm_compute; reflexivity|vm_compute; discriminate]. Qed.

Theorem C45_fraction_period : forall mode r v n k, dval r = DFin v -> 1 <= n -> 2 <= k <= 30 -> n * k + 1 < 32767 ->
  (Qabs (v + (inject_Z n + / inject_Z k)) <= 1 # 1000000000000)%Q ->
  genfactmult mode (sampratehz r) = Ok (- (n * k + 1), k) /\ (nominal (- (n * k + 1)) k == / (inject_Z n + / inject_Z k))%Q.
Proof. exact unit_period_nominal. Qed.
Print Assumptions C45_fraction_period.
(* 12.5 s *)
Example C45_fraction_period_25 : genfactmult Strict (sampratehz 0xc029000000000000) = Ok (-25, 2) /\ (nominal (-25) 2 == / (12 + / 2))%Q.
Proof. apply (C45_fraction_period Strict _ (dvalue 0xc029000000000000) 12 2); try lia; [vm_compute; reflexivity|vm_compute; discriminate]. Qed.

(** No rate: zero and zero. *)
Theorem C45_zero : forall mode r v, dval r = DFin v -> (v == 0)%Q -> genfactmult mode (sampratehz r) = Ok (0, 0).
Proof. exact rate_zero. Qed.
Print Assumptions C45_zero.
Example C45_zero_instance : genfactmult Strict (sampratehz 0) = Ok (0, 0).
Proof. apply (C45_zero Strict 0 (dvalue 0)); vm_compute; reflexivity. Qed.

(** A period handed over as it is has the factors of the rate it stands for. *)
Theorem C45_direct : forall mode r, genfactmult mode (dval r) = genfactmult mode (sampratehz r).
Proof. exact direct_rate. Qed.
Print Assumptions C45_direct.
(* 60 s *)
Example C45_direct_60 : genfactmult Strict (dval 0xc04e000000000000) = Ok (-60, -1).
Proof. rewrite C45_direct. exact (proj1 C45_whole_period_60). Qed.

(** From 2^31 Hz on the conversion to int32_t is undefined. *)
Theorem C45_conversion_refuted : forall mode r v, dval r = DFin v -> (2147483648 <= v)%Q -> genfactmult mode (sampratehz r) = UB SignedOverflow.
Proof. exact too_large. Qed.
Print Assumptions C45_conversion_refuted.
Example C45_conversion_instance : genfactmult Wrap (sampratehz 0x41e0000000000000) = UB SignedOverflow.
Proof. apply (C45_conversion_refuted Wrap _ (dvalue 0x41e0000000000000)); [vm_compute; reflexivity|vm_compute; discriminate]. Qed.

(** 76729 Hz is 277 * 277, but stored as 184 * 417 = 76728. *)
Theorem C45_square_refuted : exists r v f mu, dval r = DFin v /\ (v == inject_Z (277 * 277))%Q /\
  genfactmult Strict (sampratehz r) = Ok (f, mu) /\ f * mu < 277 * 277.
Proof. exists 0x40f2bb9000000000, (dvalue 0x40f2bb9000000000), 184, 417. split; [vm_compute; reflexivity|]. split; [vm_compute; reflexivity|]. split; [vm_compute; reflexivity|lia]. Qed.
Print Assumptions C45_square_refuted.

(** 1073610752 Hz is below the limit 32767 * 32767 tested for, and 32765 * 32766 would be
    as near to it as other rates get; it is refused. *)
Theorem C45_range_refuted : exists r v n, dval r = DFin v /\ (v == inject_Z n)%Q /\ n <= 32767 * 32767 /\ 32765 * 32766 <= n < 32765 * 32766 + 32765 /\
  genfactmult Strict (sampratehz r) = Err (-1).
Proof.
  exists 0x41cfff0000000000, (dvalue 0x41cfff0000000000), 1073610752. split; [vm_compute; reflexivity|]. split; [vm_compute; reflexivity|].
  split; [lia|]. split; [lia|vm_compute; reflexivity].
Qed.
Print Assumptions C45_range_refuted.

(** 16383.5 Hz is 32767 / 2, but stored as 16383. *)
Theorem C45_limit_refuted : exists r v, dval r = DFin v /\ (v == 32767 # 2)%Q /\ genfactmult Strict (sampratehz r) = Ok (16383, -1).
Proof. exists 0x40cfffc000000000, (dvalue 0x40cfffc000000000). split; [vm_compute; reflexivity|]. split; vm_compute; reflexivity. Qed.
Print Assumptions C45_limit_refuted.

(** The search for a fraction overflows an int for a rate between 32766 and 32767 Hz. *)
Theorem C45_overflow_refuted : exists r v, dval r = DFin v /\ (32766 < v)%Q /\ (v < 32767)%Q /\ genfactmult Strict (sampratehz r) = UB SignedOverflow.
Proof. exists 0x40dfff800000d6c0, (dvalue 0x40dfff800000d6c0). split; [vm_compute; reflexivity|]. split; [|split]; vm_compute; reflexivity. Qed.
Print Assumptions C45_overflow_refuted.
