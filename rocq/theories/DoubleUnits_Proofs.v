(** Proofs about rescaled intensities and the units of the radiation in binary64 arithmetic *)
From Coq Require Import Reals ZArith Lia Lra Psatz List.
From Flocq Require Import Core Relative IEEE754.BinarySingleNaN IEEE754.Binary IEEE754.Bits.
From Verif Require Import Float64 Double_Model Double_Spec Double_Proofs DoubleMse_Proofs DoubleUnits_Model.
Import ListNotations.
Local Open Scope R_scope.
#[local] Existing Instances Hp Hpe.

(** ** Rescaled intensities *)
Section Rescale.
  Context (m m0 : binary64).
  Hypothesis (Pm : 0 < b64R m) (Fm0 : b64fin m0 = true) (P0 : 0 <= b64R m0).
  Lemma rescale_value x : b64fin x = true -> 0 <= b64R x <= b64R m -> b64fin (mul64 (div64 x m) m0) = true /\ 0 <= rnd64 (b64R x / b64R m) <= 1 /\ b64R (mul64 (div64 x m) m0) = rnd64 (rnd64 (b64R x / b64R m) * b64R m0) /\ 0 <= b64R (mul64 (div64 x m) m0) <= b64R m0.
  Proof. intros Fx Hx. assert (Q : 0 <= b64R x / b64R m <= 1). { split; [apply Rmult_le_pos; [lra|left; apply Rinv_0_lt_compat; exact Pm]|]. apply Rmult_le_reg_r with (b64R m); [exact Pm|]. unfold Rdiv. rewrite Rmult_assoc, Rinv_l by lra. lra. }
    assert (U : 0 <= rnd64 (b64R x / b64R m) <= 1) by (split; [apply rnd64_sign; lra|rewrite <- rnd64_1; apply rnd64_le; lra]). destruct (b64_div_finite x m) as [E F]; [lra|rewrite Rabs_pos_eq by lra; pose proof one_below_max; lra|]. rewrite Fx in F.
    assert (V : 0 <= rnd64 (rnd64 (b64R x / b64R m) * b64R m0) <= b64R m0) by (split; [apply rnd64_sign; nra|rewrite <- (rnd_fix m0) at 2; apply rnd64_le; nra]).
    destruct (b64_mult_finite (div64 x m) m0 F Fm0) as [E' F']; rewrite E in *; [|rewrite E'; auto].
    rewrite Rabs_pos_eq by lra. pose proof (abs_B2R_lt_emax 53 1024 m0) as A. apply Rabs_def2 in A. lra. Qed.
  Lemma rescale_max x : b64fin x = true -> b64R x = b64R m -> b64R (mul64 (div64 x m) m0) = b64R m0.
  Proof. intros Fx E. destruct (rescale_value x Fx ltac:(lra)) as (_ & _ & -> & _). rewrite E. unfold Rdiv. rewrite Rinv_r, rnd64_1, Rmult_1_l by lra. apply rnd_fix. Qed.
  Lemma rescale_order x y : b64fin x = true -> b64fin y = true -> 0 <= b64R x -> b64R x <= b64R y -> b64R y <= b64R m -> b64R (mul64 (div64 x m) m0) <= b64R (mul64 (div64 y m) m0).
  Proof. intros Fx Fy A B C. destruct (rescale_value x Fx ltac:(lra)) as (_ & _ & -> & _). destruct (rescale_value y Fy ltac:(lra)) as (_ & _ & -> & _). apply rnd64_le, Rmult_le_compat_r; [exact P0|]. apply rnd64_le, Rmult_le_compat_r; [left; apply Rinv_0_lt_compat; exact Pm|exact B]. Qed.
End Rescale.
Lemma div_one one x : b64R one = 1 -> b64fin x = true -> b64fin (div64 x one) = true /\ b64R (div64 x one) = b64R x.
Proof. intros E Fx. destruct (b64_div_finite x one) as [V F]; rewrite E in *; [lra|unfold Rdiv; rewrite Rinv_1, Rmult_1_r, rnd_fix; apply abs_B2R_lt_emax|]. rewrite V, F. unfold Rdiv. rewrite Rinv_1, Rmult_1_r. split; [exact Fx|apply rnd_fix]. Qed.

(** ** Energy and wavelength *)
Lemma rel x : bpow radix2 (-1022) <= Rabs x -> exists e, Rabs e <= eps64 /\ rnd64 x = x * (1 + e).
Proof. intros H. destruct (relative_error_N_FLT_ex radix2 (-1074) 53 ltac:(lia) (fun x => negb (Z.even x)) x H) as (e & E & Q). exists e. split; [|exact Q]. eapply Rle_trans; [exact E|]. right. unfold eps64. replace (/ 2) with (bpow radix2 (-1)) by (simpl; lra). rewrite <- bpow_plus. reflexivity. Qed.
Definition inside (k : Z) (x : R) : Prop := bpow radix2 (- k) <= x <= bpow radix2 k.
Lemma v12398 : 1 <= b64R f12398 <= 2. Proof. vm_compute. lra. Qed.
Lemma v1e4 : b64R f1e4 = 10000. Proof. vm_compute. lra. Qed.
Lemma inside_pos k x : inside k x -> 0 < x. Proof. intros [A _]. pose proof (bpow_gt_0 radix2 (- k)). lra. Qed.
Lemma rnd_bpow k : (-1074 <= k)%Z -> rnd64 (bpow radix2 k) = bpow radix2 k.
Proof. intros H. apply round_generic; auto with typeclass_instances. apply generic_format_bpow. unfold FLT_exp. lia. Qed.
Lemma rnd_inside i j x : (-1074 <= i)%Z -> (-1074 <= j)%Z -> bpow radix2 i <= x <= bpow radix2 j -> bpow radix2 i <= rnd64 x <= bpow radix2 j.
Proof. intros Hi Hj H. rewrite <- (rnd_bpow i Hi), <- (rnd_bpow j Hj). split; apply rnd64_le; lra. Qed.
(** The quotient and the product, both with small relative errors *)
Lemma convert_value k x : (0 <= k <= 900)%Z -> b64fin x = true -> inside k (b64R x) -> b64fin (b64_energy_to_wavelength x) = true /\ inside (k + 15) (b64R (b64_energy_to_wavelength x)) /\
  b64R (b64_energy_to_wavelength x) = rnd64 (rnd64 (b64R f12398 / b64R x) * 10000) /\
  exists e1 e2, Rabs e1 <= eps64 /\ Rabs e2 <= eps64 /\ b64R (b64_energy_to_wavelength x) = b64R f12398 / b64R x * (1 + e1) * 10000 * (1 + e2).
Proof. intros K Fx I. pose proof (inside_pos k _ I) as P. destruct I as [L U]. pose proof v12398 as A. pose proof (bpow_gt_0 radix2 (- k)) as Bk. set (a := b64R f12398) in *.
  assert (Q : bpow radix2 (- k) <= a / b64R x <= bpow radix2 (k + 1)).
  { pose proof (Rinv_le_contravar _ _ Bk L) as I1. pose proof (Rinv_le_contravar _ _ P U) as I2. rewrite <- bpow_opp in I1, I2. rewrite Z.opp_involutive in I1. rewrite bpow_plus. simpl (bpow radix2 1). unfold Rdiv. pose proof (Rinv_0_lt_compat _ P). split; nra. }
  pose proof (rnd_inside (- k) (k + 1) _ ltac:(lia) ltac:(lia) Q) as R1. assert (W : bpow radix2 (- k) <= rnd64 (a / b64R x) * 10000 <= bpow radix2 (k + 15)).
  { split; [lra|]. replace (k + 15)%Z with (k + 1 + 14)%Z by lia. rewrite (bpow_plus _ (k + 1)). simpl (bpow radix2 14). pose proof (bpow_gt_0 radix2 (k + 1)). lra. }
  pose proof (rnd_inside (- k) (k + 15) _ ltac:(lia) ltac:(lia) W) as R2. assert (Bd : forall j, (j < 1024)%Z -> bpow radix2 j < bpow radix2 1024) by (intros; apply bpow_lt; assumption).
  destruct (b64_div_finite f12398 x) as [E F]; [lra|fold a; rewrite Rabs_pos_eq by lra; specialize (Bd (k + 1)%Z ltac:(lia)); lra|]. fold a in E. change (b64fin f12398) with true in F.
  destruct (b64_mult_finite (div64 f12398 x) f1e4 F eq_refl) as [E' F']; rewrite E, v1e4 in *; [rewrite Rabs_pos_eq by lra; specialize (Bd (k + 15)%Z ltac:(lia)); lra|].
  unfold b64_energy_to_wavelength. rewrite E'. split; [exact F'|]. split; [split; [eapply Rle_trans; [|apply R2]; apply bpow_le; lia|apply R2]|]. split; [reflexivity|].
  assert (N : bpow radix2 (-1022) <= bpow radix2 (- k)) by (apply bpow_le; lia).
  destruct (rel (a / b64R x)) as (e1 & H1 & V1); [rewrite Rabs_pos_eq by lra; lra|]. destruct (rel (rnd64 (a / b64R x) * 10000)) as (e2 & H2 & V2); [rewrite Rabs_pos_eq by lra; lra|]. exists e1, e2. split; [exact H1|]. split; [exact H2|]. rewrite V2, V1. reflexivity. Qed.
Lemma convert_order k x y : (0 <= k <= 900)%Z -> b64fin x = true -> b64fin y = true -> inside k (b64R x) -> inside k (b64R y) -> b64R x <= b64R y -> b64R (b64_energy_to_wavelength y) <= b64R (b64_energy_to_wavelength x).
Proof. intros K Fx Fy I J L. pose proof (inside_pos _ _ I) as P. destruct (convert_value k x K Fx I) as (_ & _ & -> & _). destruct (convert_value k y K Fy J) as (_ & _ & -> & _). apply rnd64_le, Rmult_le_compat_r; [lra|]. apply rnd64_le. pose proof v12398. apply Rmult_le_compat_l; [lra|]. apply Rinv_le_contravar; assumption. Qed.
Lemma quotient_close e1 e2 e3 e4 : Rabs e1 <= eps64 -> Rabs e2 <= eps64 -> Rabs e3 <= eps64 -> Rabs e4 <= eps64 -> Rabs ((1 + e3) * (1 + e4) / ((1 + e1) * (1 + e2)) - 1) <= 5 * eps64.
Proof. intros A B C D. pose proof eps_small as S. apply Rabs_le_inv in A, B, C, D. set (n := (1 + e3) * (1 + e4)). set (d := (1 + e1) * (1 + e2)).
  assert (N : (1 - eps64) * (1 - eps64) <= n <= (1 + eps64) * (1 + eps64)) by (unfold n; nra). assert (M : (1 - eps64) * (1 - eps64) <= d <= (1 + eps64) * (1 + eps64)) by (unfold d; nra).
  assert (Pd : 0 < d) by nra. replace (n / d - 1) with ((n - d) / d) by (field; lra). unfold Rdiv. rewrite Rabs_mult, (Rabs_pos_eq (/ d)) by (left; apply Rinv_0_lt_compat; exact Pd). apply Rmult_le_reg_r with d; [exact Pd|]. rewrite Rmult_assoc, Rinv_l, Rmult_1_r by lra.
  apply Rabs_le. assert (4 * eps64 <= 5 * eps64 * d) by nra. split; nra. Qed.
Lemma convert_back x : b64fin x = true -> inside 500 (b64R x) -> b64fin (b64_wavelength_to_energy (b64_energy_to_wavelength x)) = true /\ Rabs (b64R (b64_wavelength_to_energy (b64_energy_to_wavelength x)) - b64R x) <= 5 * eps64 * b64R x.
Proof. intros Fx I. pose proof (inside_pos _ _ I) as P. destruct (convert_value 500 x ltac:(lia) Fx I) as (F & J & _ & e1 & e2 & H1 & H2 & E). pose proof (inside_pos _ _ J) as Pw. destruct (convert_value (500 + 15) _ ltac:(lia) F J) as (G & _ & _ & e3 & e4 & H3 & H4 & E').
  split; [exact G|]. change (b64_wavelength_to_energy (b64_energy_to_wavelength x)) with (b64_energy_to_wavelength (b64_energy_to_wavelength x)). rewrite E', E. pose proof v12398 as A. set (a := b64R f12398) in *. pose proof eps_small as S.
  assert (N : forall e, Rabs e <= eps64 -> 0 < 1 + e) by (intros e He; apply Rabs_le_inv in He; lra). pose proof (N _ H1). pose proof (N _ H2).
  replace (a / (a / b64R x * (1 + e1) * 10000 * (1 + e2)) * (1 + e3) * 10000 * (1 + e4) - b64R x) with (((1 + e3) * (1 + e4) / ((1 + e1) * (1 + e2)) - 1) * b64R x) by (field; repeat split; lra).
  rewrite Rabs_mult, (Rabs_pos_eq (b64R x)) by lra. apply Rmult_le_compat_r; [lra|]. apply quotient_close; assumption. Qed.
