(** Property C186: mean squared errors and the choice of a variant in double precision. *)
From Coq Require Import Reals ZArith Lia Lra Psatz List Permutation.
From Flocq Require Import Core IEEE754.BinarySingleNaN IEEE754.Binary IEEE754.Bits.
From Verif Require Import Float64 Double_Model Double_Spec Double_Proofs Double_Props DoubleMse_Model DoubleMse_Spec DoubleMse_Proofs.
Import ListNotations.
Local Open Scope R_scope.

(** ** C186 *)
(** Whatever the order of summation, the error of the computed value is that of k + 4 roundings, and underflow. *)
Theorem C186_error_bounds k a b e : computed_mse k a b e -> 0 <= b64R e /\
  below (k + 4) * exact_mse a b - above (k + 1) * bpow radix2 (-1074) <= b64R e <= above (k + 4) * exact_mse a b + above (k + 1) * bpow radix2 (-1074).
Proof. intros H. destruct (mse_bounds k a b e H) as (B & P & _). split; [exact P|]. replace (bpow radix2 (-1074)) with (2 * tiny) by (unfold tiny; change (-1074)%Z with (1 + -1075)%Z; rewrite bpow_plus; reflexivity). lra. Qed.
Print Assumptions C186_error_bounds.
(** Up to 2^20 roundings the relative error is below 2^-32. *)
Theorem C186_relative_error k a b e : computed_mse k a b e -> (Z.of_nat (k + 4) <= 2 ^ 20)%Z -> Rabs (b64R e - exact_mse a b) <= bpow radix2 (-32) * exact_mse a b + bpow radix2 (-1073).
Proof. intros H K. destruct (C186_error_bounds k a b e H) as [_ [L U]]. destruct (relative_32 k K) as [B A]. assert (M : 0 <= exact_mse a b) by (apply (mse_bounds k a b e H)).
  assert (A1 : above (k + 1) <= 2). { apply Rle_trans with (above (k + 4)); [apply above_mono; lia|]. assert (bpow radix2 (-32) <= bpow radix2 0) by (apply bpow_le; lia). simpl (bpow radix2 0) in *. lra. }
  replace (bpow radix2 (-1073)) with (2 * bpow radix2 (-1074)) by (change (-1073)%Z with (1 + -1074)%Z; rewrite bpow_plus; reflexivity). pose proof (bpow_gt_0 radix2 (-1074)). apply Rabs_le. split; nra. Qed.
Print Assumptions C186_relative_error.
(** The variant with the least computed error is also the best one exactly, up to the rounding errors. *)
Theorem C186_selection k data variants errors i : Forall2 (computed_mse k data) variants errors -> argmin64 errors = Some i ->
  exists v, nth_error variants i = Some v /\ forall w, In w variants -> below (k + 4) * exact_mse data v <= above (k + 4) * exact_mse data w + above (k + 1) * bpow radix2 (-1073).
Proof. exact (selection k data variants errors i). Qed.
Print Assumptions C186_selection.
(** Of equal errors the first one is taken, and there is a choice unless there are no variants. *)
Theorem C186_first errors : Forall (fun x => b64fin x = true) errors -> errors <> [] -> exists i y, argmin64 errors = Some i /\ nth_error errors i = Some y /\
  (forall j x, nth_error errors j = Some x -> b64R y <= b64R x) /\ (forall j x, (j < i)%nat -> nth_error errors j = Some x -> b64R y < b64R x).
Proof. exact (argmin64_ok errors). Qed.
Print Assumptions C186_first.
(** Equal arrays have the error 0, *)
Theorem C186_zero k a e : computed_mse k a a e -> b64R e = 0.
Proof. exact (mse_zero k a e). Qed.
Print Assumptions C186_zero.
(** but so have different ones whose squared differences are too small for a float. *)
Theorem C186_zero_refuted : exists a b e, computed_mse 1 a b e /\ exact_mse a b > 0 /\ b64R e = 0.
Proof. exact zero_underflow. Qed.
Print Assumptions C186_zero_refuted.

(** Arrays [0.3, 0.9] and [0.1, 1] *)
Example C186_example : exists e, computed_mse 1 [f03; f09] [f01; f1] e /\ 0 < b64R e.
Proof. eexists. split.
  - split; [discriminate|]. split; [reflexivity|]. split; [cbn; lia|]. split; [repeat constructor|]. split; [repeat constructor|].
    assert (X : forall e', e' = mean64 (Plus (Entry (square_diff64 f03 f01)) (Entry (square_diff64 f09 f1))) 2 -> b64fin e' = true /\ exists o, (depth o <= 1)%nat /\ Permutation (addends o) (squares64 [f03; f09] [f01; f1]) /\ e' = mean64 o 2).
    { intros e' ->. split; [reflexivity|]. exists (Plus (Entry (square_diff64 f03 f01)) (Entry (square_diff64 f09 f1))). split; [cbn; lia|]. split; reflexivity. }
    exact (X _ eq_refl).
  - change 0 with (b64R zero64). apply lt64_spec; reflexivity. Qed.
