(** Property C157: when the maximum of the labels is restored exactly. *)
From Coq Require Import Reals ZArith Lia Lra.
From Flocq Require Import Core Sterbenz IEEE754.BinarySingleNaN IEEE754.Binary IEEE754.Bits.
From Verif Require Import Float64 Double_Model Double_Spec Double_Proofs Double_Props DoubleMse_Proofs DoubleDraw_Model DoubleDraw_Proofs DoubleDraw_Props.
Local Open Scope R_scope.
#[local] Existing Instances Hp Hpe.

Section Exact.
  Context (lo hi : binary64).
  Hypothesis (Flo : b64fin lo = true) (Fhi : b64fin hi = true) (L : b64R lo <= b64R hi).
  Lemma exact_width : generic_format radix2 (FLT_exp (-1074) 53) (b64R hi - b64R lo) -> b64fin (sub64 hi lo) = true -> forall y, b64fin y = true -> b64R y = 1 ->
    b64fin (b64_restore lo hi y) = true /\ b64R (b64_restore lo hi y) = b64R hi.
  Proof. intros X Fs y Fy E. pose proof (minus_value hi lo Fhi Flo Fs) as V. assert (R : rnd64 (b64R hi - b64R lo) = b64R hi - b64R lo) by (apply round_generic; auto with typeclass_instances). rewrite R in V.
    destruct (b64_mult_finite y (sub64 hi lo) Fy Fs) as [E1 F1]; rewrite E, V, Rmult_1_l, R in *; [rewrite <- V; apply abs_B2R_lt_emax|].
    destruct (b64_plus_finite (mul64 y (sub64 hi lo)) lo F1 Flo) as [E2 F2]; rewrite E1 in *; replace (b64R hi - b64R lo + b64R lo) with (b64R hi) in * by ring; rewrite rnd_fix in *; [apply abs_B2R_lt_emax|auto]. Qed.
End Exact.
(** If the width of the range is a double number, every label from 0 to 1 is restored within the range, and 1 to the maximum exactly. *)
Theorem C157_exact_width lo hi y : b64fin lo = true -> b64fin hi = true -> b64R lo <= b64R hi -> (exists w, b64R w = b64R hi - b64R lo) -> b64fin (sub64 hi lo) = true -> b64fin y = true -> 0 <= b64R y <= 1 ->
  b64fin (b64_restore lo hi y) = true /\ b64R lo <= b64R (b64_restore lo hi y) <= b64R hi /\ (b64R y = 1 -> b64R (b64_restore lo hi y) = b64R hi).
Proof. intros A B L [w W] S F Y. assert (X : generic_format radix2 (FLT_exp (-1074) 53) (b64R hi - b64R lo)) by (rewrite <- W; apply b64_format). destruct (Req_dec (b64R y) 1) as [E|E].
  - destruct (exact_width lo hi A B X S y F E) as [G V]. rewrite V. split; [exact G|]. split; [lra|auto].
  - destruct (C157_below_one lo hi y A B S F L ltac:(lra)) as [G V]. split; [exact G|]. split; [exact V|]. intros; contradiction. Qed.
Print Assumptions C157_exact_width.
(** The width is a double number if the minimum is 0, or positive and at least half of the maximum. *)
Theorem C157_exact_ranges lo hi : b64fin lo = true -> b64fin hi = true -> b64R lo <= b64R hi -> b64R lo = 0 \/ b64R hi <= 2 * b64R lo -> b64fin (sub64 hi lo) = true /\ exists w, b64R w = b64R hi - b64R lo.
Proof. intros A B L C. assert (P : 0 <= b64R lo) by (destruct C; lra). assert (X : generic_format radix2 (FLT_exp (-1074) 53) (b64R hi - b64R lo)).
  { destruct C as [C|C]; [rewrite C, Rminus_0_r; apply b64_format|]. apply sterbenz; auto with typeclass_instances; [apply b64_format|apply b64_format|lra]. }
  assert (R : rnd64 (b64R hi - b64R lo) = b64R hi - b64R lo) by (apply round_generic; auto with typeclass_instances).
  destruct (b64_minus_finite hi lo B A) as [E F]; [rewrite R, Rabs_pos_eq by lra; pose proof (abs_B2R_lt_emax 53 1024 hi) as Q; apply Rabs_def2 in Q; lra|]. split; [exact F|]. exists (sub64 hi lo). rewrite E. exact R. Qed.
Print Assumptions C157_exact_ranges.
Example C157_exact_example : b64fin f09 = true /\ b64fin f1 = true /\ b64R f09 <= b64R f1 /\ b64R f1 <= 2 * b64R f09 /\ 0 <= b64R f1 <= 1.
Proof. split; [reflexivity|]. split; [reflexivity|]. vm_compute. lra. Qed.
