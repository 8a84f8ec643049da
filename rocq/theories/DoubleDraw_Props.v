(** Property C189: uniform draws in double precision; and C157 below 1. *)
From Coq Require Import Reals ZArith Lia Lra.
From Flocq Require Import Core IEEE754.BinarySingleNaN IEEE754.Binary IEEE754.Bits.
From Verif Require Import Float64 Double_Model Double_Spec Double_Proofs Double_Props DoubleMse_Proofs DoubleDraw_Model DoubleDraw_Proofs.
Local Open Scope R_scope.

(** ** C189 *)
(** numpy's random number is at most 1 - 2^-53; if the width of the range does not overflow, the draw is a number within the range, without any tolerance, *)
Theorem C189_range lo hi u : b64fin lo = true -> b64fin hi = true -> b64fin (sub64 hi lo) = true -> b64fin u = true -> b64R lo <= b64R hi -> 0 <= b64R u <= 1 - bpow radix2 (-53) ->
  b64fin (b64_draw lo hi u) = true /\ b64R lo <= b64R (b64_draw lo hi u) <= b64R hi.
Proof. exact (draw_range lo hi u). Qed.
Print Assumptions C189_range.
(** the minimum for the random number 0, and in the order of the random numbers. *)
Theorem C189_order lo hi u v : b64fin lo = true -> b64fin hi = true -> b64fin (sub64 hi lo) = true -> b64fin u = true -> b64fin v = true -> b64R lo <= b64R hi -> 0 <= b64R u -> b64R u <= b64R v -> b64R v <= 1 - bpow radix2 (-53) ->
  b64R (b64_draw lo hi u) <= b64R (b64_draw lo hi v) /\ (b64R u = 0 -> b64R (b64_draw lo hi u) = b64R lo).
Proof. intros A B C D E F G H I. split; [apply draw_monotone; assumption|apply draw_zero; assumption]. Qed.
Print Assumptions C189_order.
(** It is the exact one up to roundings. *)
Theorem C189_value lo hi u : b64fin lo = true -> b64fin hi = true -> b64fin (sub64 hi lo) = true -> b64fin u = true -> b64R lo <= b64R hi -> 0 <= b64R u <= 1 - bpow radix2 (-53) -> let w := (b64R hi - b64R lo) * b64R u in
  Rabs (b64R (b64_draw lo hi u) - (b64R lo + w)) <= bpow radix2 (-53) * (3 * w + Rmax (Rabs (b64R lo)) (Rabs (b64R hi))) + bpow radix2 (-1075).
Proof. exact (draw_error lo hi u). Qed.
Print Assumptions C189_value.
(** The maximum, which numpy excludes in exact arithmetic, can be drawn: from 1 to the next number with the largest random number. *)
Definition f1_next : binary64 := b64_of_bits 4607182418800017409.
Definition f1_prev : binary64 := b64_of_bits 4607182418800017407.
Lemma f1_prev_value : b64R f1_prev = 1 - bpow radix2 (-53).
Proof. vm_compute. lra. Qed.
Theorem C189_maximum_reached : exists lo hi u, b64fin lo = true /\ b64fin hi = true /\ b64fin (sub64 hi lo) = true /\ b64fin u = true /\ b64R lo < b64R hi /\ 0 <= b64R u <= 1 - bpow radix2 (-53) /\ b64R (b64_draw lo hi u) = b64R hi.
Proof. exists f1, f1_next, f1_prev. repeat (split; [reflexivity|]). split; [apply lt64_spec; reflexivity|]. split; [|f_equal; apply B2FF_inj; vm_compute; reflexivity].
  rewrite f1_prev_value. pose proof eps_small as E. unfold eps64 in E. lra. Qed.
Print Assumptions C189_maximum_reached.
(** A value that is not negative, multiplied by a drawn factor, lies between its products with the limits of the factor. *)
Theorem C189_factor r lo hi u : b64fin (mul64 r lo) = true -> b64fin (mul64 r hi) = true -> b64fin (sub64 hi lo) = true -> b64fin u = true -> 0 <= b64R r -> b64R lo <= b64R hi -> 0 <= b64R u <= 1 - bpow radix2 (-53) ->
  b64fin (mul64 r (b64_draw lo hi u)) = true /\ b64R (mul64 r lo) <= b64R (mul64 r (b64_draw lo hi u)) <= b64R (mul64 r hi).
Proof. intros A B C D E F G. destruct (mul_finite _ _ A) as [_ Flo]. destruct (mul_finite _ _ B) as [_ Fhi]. destruct (draw_range lo hi u Flo Fhi C D F G) as [H I]. apply scaled_between; assumption. Qed.
Print Assumptions C189_factor.
Example C189_example : b64fin f03 = true /\ b64fin f09 = true /\ b64fin (sub64 f09 f03) = true /\ b64fin f1_prev = true /\ b64R f03 <= b64R f09 /\ 0 <= b64R f1_prev <= 1 - bpow radix2 (-53) /\
  b64fin (mul64 f1 f03) = true /\ b64fin (mul64 f1 f09) = true /\ 0 <= b64R f1.
Proof. do 4 (split; [reflexivity|]). split; [left; apply lt64_spec; reflexivity|]. split; [rewrite f1_prev_value; pose proof eps_small as E; unfold eps64 in E; lra|]. do 2 (split; [reflexivity|]). vm_compute. lra. Qed.

(** ** C157 *)
(** Only the value 1 itself can be restored to more than the maximum. *)
Theorem C157_below_one lo hi y : b64fin lo = true -> b64fin hi = true -> b64fin (sub64 hi lo) = true -> b64fin y = true -> b64R lo <= b64R hi -> 0 <= b64R y < 1 ->
  b64fin (b64_restore lo hi y) = true /\ b64R lo <= b64R (b64_restore lo hi y) <= b64R hi.
Proof. intros A B C D E [F G]. apply restore_range; auto. split; [exact F|]. unfold eps64. rewrite <- f1_prev_value.
  assert (P : b64R f1_prev = pred radix2 (FLT_exp (-1074) 53) 1). { rewrite f1_prev_value. change 1 with (bpow radix2 0). rewrite pred_bpow. reflexivity. }
  rewrite P. apply pred_ge_gt; [apply FLT_exp_valid; reflexivity|apply b64_format| |exact G]. change 1 with (bpow radix2 0). apply generic_format_bpow. unfold FLT_exp. lia. Qed.
Print Assumptions C157_below_one.
Example C157_below_one_example : b64fin f03 = true /\ b64fin f09 = true /\ b64fin (sub64 f09 f03) = true /\ b64fin f1_prev = true /\ b64R f03 <= b64R f09 /\ 0 <= b64R f1_prev < 1.
Proof. destruct C189_example as (A & B & C & D & E & [F _] & _). do 5 (split; [assumption|]). split; [exact F|]. rewrite f1_prev_value. pose proof eps_small as Q. unfold eps64 in Q. lra. Qed.
