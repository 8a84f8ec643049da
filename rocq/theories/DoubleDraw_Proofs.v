(** Proofs about uniform draws in binary64 arithmetic *)
From Coq Require Import Reals ZArith Lia Lra Psatz.
From Flocq Require Import Core Relative Plus_error IEEE754.BinarySingleNaN IEEE754.Binary IEEE754.Bits.
From Verif Require Import Float64 Double_Model Double_Spec Double_Proofs DoubleMse_Proofs DoubleArr_Proofs DoubleDraw_Model.
Local Open Scope R_scope.
#[local] Existing Instances Hp Hpe.
Notation fmt := (generic_format radix2 (FLT_exp (-1074) 53)).

(** A part of the computed difference of two floats is not larger than the exact difference. *)
Lemma part_of_difference lo hi u : b64R lo <= b64R hi -> 0 <= u <= 1 - eps64 -> 0 <= rnd64 (rnd64 (b64R hi - b64R lo) * u) <= b64R hi - b64R lo.
Proof. intros L U. set (d := b64R hi - b64R lo). assert (D0 : 0 <= d) by (unfold d; lra). set (y := rnd64 d). assert (Y0 : 0 <= y) by (apply rnd64_sign; exact D0). pose proof eps_small as Es.
  split; [apply rnd64_sign; nra|]. assert (Fy : fmt y) by (apply generic_format_round; auto with typeclass_instances). assert (Ry : rnd64 y = y) by (apply round_generic; auto with typeclass_instances).
  destruct (Rle_or_lt y d) as [H|H].
  { apply Rle_trans with (rnd64 y); [apply rnd64_le; nra|rewrite Ry; exact H]. }
  assert (B : bpow radix2 (-1021) < d).
  { apply Rnot_le_lt. intros B. assert (Fd : fmt d). { unfold d, Rminus. apply FLT_format_plus_small; [reflexivity|apply b64_format|apply generic_format_opp, b64_format|]. change (b64R hi + - b64R lo) with d. rewrite Rabs_pos_eq by exact D0. exact B. }
    assert (Q : y = d) by (apply round_generic; auto with typeclass_instances). lra. }
  set (z := pred radix2 (FLT_exp (-1074) 53) y). assert (Fz : fmt z) by (apply generic_format_pred; auto with typeclass_instances). assert (Rz : rnd64 z = z) by (apply round_generic; auto with typeclass_instances).
  assert (Hz : bpow radix2 (-1022) <= z).
  { apply pred_ge_gt; auto with typeclass_instances; [apply generic_format_bpow; unfold FLT_exp; lia|]. apply Rlt_le_trans with (bpow radix2 (-1021)); [apply bpow_lt; lia|]. lra. }
  pose proof (bpow_gt_0 radix2 (-1022)) as P. assert (Zd : z <= d). { apply Rnot_lt_le. intros Q. assert (y <= z) by (rewrite <- Rz; apply rnd64_le; lra). assert (z < y) by (apply pred_lt_id; lra). lra. }
  assert (Sz : succ radix2 (FLT_exp (-1074) 53) z = y) by (apply succ_pred; auto with typeclass_instances).
  assert (Uz : y <= z + 2 * eps64 * z). { rewrite <- Sz. rewrite succ_eq_pos by lra. apply Rplus_le_compat_l. eapply Rle_trans; [apply ulp_FLT_le; auto with typeclass_instances; rewrite Rabs_pos_eq by lra; exact Hz|]. rewrite Rabs_pos_eq by lra. unfold eps64. change (1 - 53)%Z with (1 + -53)%Z. rewrite bpow_plus. simpl (bpow radix2 1). lra. }
  assert (Zy : z < y) by (apply pred_lt_id; lra).
  apply Rle_trans with z; [|exact Zd]. apply round_N_le_midp; auto with typeclass_instances. rewrite Sz. nra. Qed.

Section Draw.
  Context (lo hi u : binary64).
  Hypothesis (Flo : b64fin lo = true) (Fhi : b64fin hi = true) (Fs : b64fin (sub64 hi lo) = true) (Fu : b64fin u = true) (L : b64R lo <= b64R hi) (U : 0 <= b64R u <= 1 - eps64).
  Lemma rnd_between x : b64R lo <= x <= b64R hi -> b64R lo <= rnd64 x <= b64R hi.
  Proof. intros H. split; [rewrite <- (rnd_fix lo)|rewrite <- (rnd_fix hi)]; apply rnd64_le; lra. Qed.
  Lemma part_value : b64fin (mul64 (sub64 hi lo) u) = true /\ b64R (mul64 (sub64 hi lo) u) = rnd64 (rnd64 (b64R hi - b64R lo) * b64R u).
  Proof. pose proof (part_of_difference lo hi (b64R u) L U) as P. pose proof (minus_value hi lo Fhi Flo Fs) as V. pose proof (b64_minus_overflow hi lo Fhi Flo Fs) as O. pose proof eps_small.
    assert (Y : 0 <= rnd64 (b64R hi - b64R lo)) by (apply rnd64_sign; lra).
    assert (B : rnd64 (rnd64 (b64R hi - b64R lo) * b64R u) <= rnd64 (b64R hi - b64R lo)). { rewrite <- V at 2. rewrite <- (rnd_fix (sub64 hi lo)). rewrite V. apply rnd64_le. nra. }
    destruct (b64_mult_finite (sub64 hi lo) u Fs Fu) as [E F]; rewrite ?V in *; [rewrite Rabs_pos_eq in * by lra; lra|]. auto. Qed.
  Lemma draw_range : b64fin (b64_draw lo hi u) = true /\ b64R lo <= b64R (b64_draw lo hi u) <= b64R hi.
  Proof. destruct part_value as [F V]. pose proof (part_of_difference lo hi (b64R u) L U) as P. set (v := rnd64 (rnd64 (b64R hi - b64R lo) * b64R u)) in *. assert (R : b64R lo <= rnd64 (b64R lo + v) <= b64R hi) by (apply rnd_between; lra).
    destruct (b64_plus_finite lo (mul64 (sub64 hi lo) u) Flo F) as [E G].
    - rewrite V. pose proof (abs_B2R_lt_emax 53 1024 lo) as A. pose proof (abs_B2R_lt_emax 53 1024 hi) as B. apply Rabs_lt. apply Rabs_def2 in A, B. lra.
    - unfold b64_draw. rewrite E, G, V. auto. Qed.
  Lemma restore_range : b64fin (b64_restore lo hi u) = true /\ b64R lo <= b64R (b64_restore lo hi u) <= b64R hi.
  Proof. pose proof (part_of_difference lo hi (b64R u) L U) as P. pose proof (minus_value hi lo Fhi Flo Fs) as V. pose proof (b64_minus_overflow hi lo Fhi Flo Fs) as O. pose proof eps_small. set (v := rnd64 (rnd64 (b64R hi - b64R lo) * b64R u)) in *.
    destruct part_value as [F0 V0]. fold v in V0. assert (Bv : Rabs v < bpow radix2 1024) by (rewrite <- V0; apply abs_B2R_lt_emax). assert (R : b64R lo <= rnd64 (v + b64R lo) <= b64R hi) by (apply rnd_between; lra).
    destruct (b64_mult_finite u (sub64 hi lo) Fu Fs) as [E F]; [rewrite V, Rmult_comm; exact Bv|]. rewrite V, (Rmult_comm (b64R u)) in E. fold v in E.
    destruct (b64_plus_finite (mul64 u (sub64 hi lo)) lo F Flo) as [E' G].
    - rewrite E. pose proof (abs_B2R_lt_emax 53 1024 lo) as A. pose proof (abs_B2R_lt_emax 53 1024 hi) as B. apply Rabs_lt. apply Rabs_def2 in A, B. lra.
    - unfold b64_restore. rewrite E', G, E. auto. Qed.
End Draw.
Lemma draw_zero lo hi u : b64fin lo = true -> b64fin hi = true -> b64fin (sub64 hi lo) = true -> b64fin u = true -> b64R lo <= b64R hi -> b64R u = 0 -> b64R (b64_draw lo hi u) = b64R lo.
Proof. intros Flo Fhi Fs Fu L Z. pose proof eps_small. destruct (draw_range lo hi u Flo Fhi Fs Fu L ltac:(lra)) as [F _]. destruct (part_value lo hi u Flo Fhi Fs Fu L ltac:(lra)) as [F0 V0]. unfold b64_draw in *. rewrite (plus_value _ _ Flo F0 F), V0, Z, Rmult_0_r, rnd64_0, Rplus_0_r. apply rnd_fix. Qed.
Lemma draw_monotone lo hi u v : b64fin lo = true -> b64fin hi = true -> b64fin (sub64 hi lo) = true -> b64fin u = true -> b64fin v = true -> b64R lo <= b64R hi -> 0 <= b64R u -> b64R u <= b64R v -> b64R v <= 1 - eps64 ->
  b64R (b64_draw lo hi u) <= b64R (b64_draw lo hi v).
Proof. intros Flo Fhi Fs Fu Fv L U0 UV V1. assert (Uu : 0 <= b64R u <= 1 - eps64) by lra. assert (Uv : 0 <= b64R v <= 1 - eps64) by lra. destruct (draw_range lo hi u Flo Fhi Fs Fu L Uu) as [F _]. destruct (draw_range lo hi v Flo Fhi Fs Fv L Uv) as [G _].
  destruct (part_value lo hi u Flo Fhi Fs Fu L Uu) as [F0 V0]. destruct (part_value lo hi v Flo Fhi Fs Fv L Uv) as [G0 W0]. unfold b64_draw in *. rewrite (plus_value _ _ Flo F0 F), V0, (plus_value _ _ Flo G0 G), W0. apply rnd64_le, Rplus_le_compat_l, rnd64_le.
  apply Rmult_le_compat_l; [apply rnd64_sign; lra|exact UV]. Qed.
Lemma draw_error lo hi u : b64fin lo = true -> b64fin hi = true -> b64fin (sub64 hi lo) = true -> b64fin u = true -> b64R lo <= b64R hi -> 0 <= b64R u <= 1 - eps64 -> let w := (b64R hi - b64R lo) * b64R u in
  Rabs (b64R (b64_draw lo hi u) - (b64R lo + w)) <= eps64 * (3 * w + extent lo hi) + tiny.
Proof. intros Flo Fhi Fs Fu L U w. pose proof eps_small as Es. destruct (draw_range lo hi u Flo Fhi Fs Fu L U) as [F _]. destruct (part_value lo hi u Flo Fhi Fs Fu L U) as [F0 V0]. pose proof (part_of_difference lo hi (b64R u) L U) as P. rewrite <- V0 in P.
  unfold b64_draw in *. rewrite (plus_value _ _ Flo F0 F). destruct (rnd_sum lo (mul64 (sub64 hi lo) u)) as (e3 & H3 & ->). fold eps64 in H3.
  assert (X : Rabs (b64R lo + b64R (mul64 (sub64 hi lo) u)) <= extent lo hi). { unfold extent. set (v := b64R (mul64 (sub64 hi lo) u)) in *. pose proof (Rmax_l (Rabs (b64R lo)) (Rabs (b64R hi))). pose proof (Rmax_r (Rabs (b64R lo)) (Rabs (b64R hi))). pose proof (Rle_abs (b64R hi)). pose proof (Rle_abs (- b64R lo)) as A. rewrite Rabs_Ropp in A. apply Rabs_le. lra. }
  assert (W : 0 <= w) by (unfold w; apply Rmult_le_pos; lra).
  assert (V : Rabs (b64R (mul64 (sub64 hi lo) u) - w) <= 3 * eps64 * w + tiny).
  { rewrite V0. destruct (rnd_diff hi lo) as (e1 & H1 & ->). fold eps64 in H1. destruct (rnd_ex ((b64R hi - b64R lo) * (1 + e1) * b64R u)) as (e2 & t & H2 & T & ->).
    replace ((b64R hi - b64R lo) * (1 + e1) * b64R u * (1 + e2) + t - w) with (w * (e1 + e2 + e1 * e2) + t) by (unfold w; ring). eapply Rle_trans; [apply Rabs_triang|]. apply Rplus_le_compat; [|exact T]. rewrite Rabs_mult, (Rabs_pos_eq w W).
    rewrite Rmult_comm. apply Rmult_le_compat_r; [exact W|]. eapply Rle_trans; [apply Rabs_triang|]. eapply Rle_trans; [apply Rplus_le_compat_r, Rabs_triang|]. rewrite Rabs_mult. pose proof (Rabs_pos e1). pose proof (Rabs_pos e2). nra. }
  set (v := b64R (mul64 (sub64 hi lo) u)) in *. replace ((b64R lo + v) * (1 + e3) - (b64R lo + w)) with ((v - w) + (b64R lo + v) * e3) by ring. eapply Rle_trans; [apply Rabs_triang|]. rewrite Rabs_mult.
  assert (Rabs (b64R lo + v) * Rabs e3 <= extent lo hi * eps64) by (apply Rmult_le_compat; auto using Rabs_pos). lra. Qed.
(** Products with a factor between two factors *)
Lemma scaled_between r lo hi f : b64fin (mul64 r lo) = true -> b64fin (mul64 r hi) = true -> b64fin f = true -> 0 <= b64R r -> b64R lo <= b64R f <= b64R hi ->
  b64fin (mul64 r f) = true /\ b64R (mul64 r lo) <= b64R (mul64 r f) <= b64R (mul64 r hi).
Proof. intros F G Ff R B. destruct (mul_finite _ _ F) as [Fr _]. assert (Q : b64R (mul64 r lo) <= rnd64 (b64R r * b64R f) <= b64R (mul64 r hi)) by (rewrite (mult_value _ _ F), (mult_value _ _ G); split; apply rnd64_le, Rmult_le_compat_l; lra).
  destruct (b64_mult_finite r f Fr Ff) as [E Fm].
  - pose proof (abs_B2R_lt_emax 53 1024 (mul64 r lo)) as A. pose proof (abs_B2R_lt_emax 53 1024 (mul64 r hi)) as C. apply Rabs_lt. apply Rabs_def2 in A, C. lra.
  - rewrite E. auto. Qed.
