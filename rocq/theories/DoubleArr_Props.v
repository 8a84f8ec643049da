(** Property C187: standardisation in double precision; and C181 in double precision. *)
From Coq Require Import Reals ZArith Lia Lra Psatz List Permutation.
From Flocq Require Import Core IEEE754.BinarySingleNaN IEEE754.Binary IEEE754.Bits.
From Verif Require Import Float64 Double_Model Double_Spec Double_Proofs Double_Props DoubleMse_Model DoubleMse_Proofs DoubleArr_Model DoubleArr_Proofs.
Import ListNotations.
Local Open Scope R_scope.

(** ** C187 *)
(** Without overflow the computed standardised value is the exact one up to three roundings. *)
Theorem C187_value mean std x : b64R std <> 0 -> b64fin std = true -> b64fin (b64_standardize mean std x) = true -> let z := (b64R x - b64R mean) / b64R std in
  Rabs (b64R (b64_standardize mean std x) - z) <= 3 * eps64 * Rabs z + bpow radix2 (-1075).
Proof. exact (standardize_error mean std x). Qed.
Print Assumptions C187_value.
(** The order of the data is kept, and the mean becomes exactly 0. *)
Theorem C187_monotone mean std x y : 0 < b64R std -> b64fin std = true -> b64fin (b64_standardize mean std x) = true -> b64fin (b64_standardize mean std y) = true ->
  b64R x <= b64R y -> b64R (b64_standardize mean std x) <= b64R (b64_standardize mean std y).
Proof. exact (standardize_monotone mean std x y). Qed.
Print Assumptions C187_monotone.
Theorem C187_mean mean std : b64R std <> 0 -> b64fin std = true -> b64fin (b64_standardize mean std mean) = true -> b64R (b64_standardize mean std mean) = 0.
Proof. exact (standardize_mean mean std). Qed.
Print Assumptions C187_mean.
(** Without overflow the data come back up to a few units in the last place of themselves and of their distance from the mean. *)
Theorem C187_round_trip mean std x : b64R std <> 0 -> b64fin (b64_revert mean std (b64_standardize mean std x)) = true ->
  Rabs (b64R (b64_revert mean std (b64_standardize mean std x)) - b64R x) <=
  eps64 * (5 * Rabs (b64R x - b64R mean) + Rabs (b64R x)) + bpow radix2 (-1075) * (4 * Rabs (b64R std) + 2).
Proof. intros N F. pose proof (revert_error mean std x N F) as H. unfold tiny in H. lra. Qed.
Print Assumptions C187_round_trip.
(** They do not always come back exactly. *)
Theorem C187_not_exact : exists mean std x, b64R std <> 0 /\ b64fin (b64_revert mean std (b64_standardize mean std x)) = true /\ b64R (b64_revert mean std (b64_standardize mean std x)) <> b64R x.
Proof. exists f03, f09, f09. assert (S : b64R zero64 < b64R f09) by (apply lt64_spec; reflexivity). change (b64R zero64) with 0 in S.
  assert (L : b64R f09 < b64R (b64_revert f03 f09 (b64_standardize f03 f09 f09))) by (apply lt64_spec; vm_compute; reflexivity). split; [lra|]. split; [reflexivity|lra]. Qed.
Print Assumptions C187_not_exact.
Example C187_example : b64R f09 <> 0 /\ b64fin f09 = true /\ b64fin (b64_revert f03 f09 (b64_standardize f03 f09 f1)) = true.
Proof. assert (S : b64R zero64 < b64R f09) by (apply lt64_spec; reflexivity). change (b64R zero64) with 0 in S. split; [lra|]. split; reflexivity. Qed.

(** ** C181 *)
(** If the sum of weights that are not negative and not all 0 does not overflow, the computed probabilities are numbers between 0 and 1, *)
Theorem C181_double_range weights : Forall (fun w => 0 <= b64R w) weights -> Exists (fun w => 0 < b64R w) weights -> b64fin (sum64 (left_sum weights)) = true ->
  List.length (b64_probabilities weights) = List.length weights /\ Forall (fun p => b64fin p = true /\ 0 <= b64R p <= 1) (b64_probabilities weights).
Proof. intros P E F. split; [unfold b64_probabilities; apply map_length|]. unfold b64_probabilities. apply Forall_forall. intros p I. apply in_map_iff in I. destruct I as (w & <- & I). destruct (probability_value weights P E F w I) as (A & _ & B). auto. Qed.
Print Assumptions C181_double_range.
(** and for up to a million models their sum differs from 1 by less than 2^-30; np.random.choice tolerates 2^-26. *)
Theorem C181_double_total weights : Forall (fun w => 0 <= b64R w) weights -> Exists (fun w => 0 < b64R w) weights -> b64fin (sum64 (left_sum weights)) = true ->
  (Z.of_nat (List.length weights) + 4 <= 2 ^ 20)%Z -> Rabs (fold_right Rplus 0 (map b64R (b64_probabilities weights)) - 1) <= bpow radix2 (-30).
Proof. intros P E F N. apply (probability_total weights P E F). rewrite Nat2Z.inj_add. exact N. Qed.
Print Assumptions C181_double_total.
(** A larger weight never has a smaller probability, and equal weights have equal ones. *)
Theorem C181_double_order weights i j w v p r : Forall (fun w => 0 <= b64R w) weights -> Exists (fun w => 0 < b64R w) weights -> b64fin (sum64 (left_sum weights)) = true ->
  nth_error weights i = Some w -> nth_error weights j = Some v -> nth_error (b64_probabilities weights) i = Some p -> nth_error (b64_probabilities weights) j = Some r ->
  b64R w <= b64R v -> b64R p <= b64R r.
Proof. intros P E F Hw Hv Hp Hr L. unfold b64_probabilities in Hp, Hr. rewrite (map_nth_error _ _ _ Hw) in Hp. rewrite (map_nth_error _ _ _ Hv) in Hr. inversion Hp. inversion Hr.
  destruct (probability_value weights P E F w (nth_error_In _ _ Hw)) as (_ & -> & _). destruct (probability_value weights P E F v (nth_error_In _ _ Hv)) as (_ & -> & _). destruct (weight_sum weights P E F) as [S _].
  apply rnd64_le. apply Rmult_le_compat_r; [left; apply Rinv_0_lt_compat; exact S|exact L]. Qed.
Print Assumptions C181_double_order.
(** Each probability is the exact one up to the rounding of the sum and of the quotient. *)
Theorem C181_double_value weights i w p : Forall (fun w => 0 <= b64R w) weights -> Exists (fun w => 0 < b64R w) weights -> b64fin (sum64 (left_sum weights)) = true -> (Z.of_nat (List.length weights) + 4 <= 2 ^ 20)%Z ->
  nth_error weights i = Some w -> nth_error (b64_probabilities weights) i = Some p -> let q := b64R w / fold_right Rplus 0 (map b64R weights) in Rabs (b64R p - q) <= bpow radix2 (-31) * q + bpow radix2 (-1075).
Proof. intros P E F N Hw Hp q. unfold b64_probabilities in Hp. rewrite (map_nth_error _ _ _ Hw) in Hp. inversion Hp. destruct (probability_value weights P E F w (nth_error_In _ _ Hw)) as (_ & -> & _).
  apply (probability_close weights P E F); [rewrite Nat2Z.inj_add; exact N|]. rewrite Forall_forall in P. apply P, (nth_error_In _ _ Hw). Qed.
Print Assumptions C181_double_value.
(** Weights 1, 0.3 and 0.9 *)
Example C181_double_example : let weights := [f1; f03; f09] in Forall (fun w => 0 <= b64R w) weights /\ Exists (fun w => 0 < b64R w) weights /\ b64fin (sum64 (left_sum weights)) = true.
Proof. assert (A : forall w, lt64 zero64 w = true -> b64fin w = true -> 0 < b64R w) by (intros w H G; change 0 with (b64R zero64); apply lt64_spec; auto). split; [|split].
  - repeat (apply Forall_cons; [left; apply A; reflexivity|]). constructor.
  - left. apply A; reflexivity.
  - reflexivity. Qed.
