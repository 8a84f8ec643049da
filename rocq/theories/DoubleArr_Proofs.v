(** Proofs about standardisation and probabilities in binary64 arithmetic *)
From Coq Require Import Reals ZArith Lia Lra Psatz List Bool Permutation.
From Flocq Require Import Core Relative IEEE754.BinarySingleNaN IEEE754.Binary IEEE754.Bits.
From Verif Require Import Float64 FloatTrain Double_Model Double_Spec Double_Proofs DoubleMse_Model DoubleMse_Spec DoubleMse_Proofs DoubleArr_Model.
Import ListNotations.
Local Open Scope R_scope.
#[local] Existing Instances Hp Hpe.

Lemma standardize_value mean std x : b64R std <> 0 -> b64fin std = true -> b64fin (b64_standardize mean std x) = true ->
  b64fin x = true /\ b64fin mean = true /\ b64R (b64_standardize mean std x) = rnd64 (rnd64 (b64R x - b64R mean) / b64R std).
Proof. intros N Fs F. unfold b64_standardize in *. pose proof (div_finite _ _ Fs F) as Fd. destruct (sub_finite _ _ Fd) as [Fx Fm]. rewrite (div_value _ _ N F), (minus_value _ _ Fx Fm Fd). auto. Qed.
Lemma standardize_mean mean std : b64R std <> 0 -> b64fin std = true -> b64fin (b64_standardize mean std mean) = true -> b64R (b64_standardize mean std mean) = 0.
Proof. intros N Fs F. destruct (standardize_value _ _ _ N Fs F) as (_ & _ & ->). rewrite Rminus_diag_eq, rnd64_0 by reflexivity. unfold Rdiv. rewrite Rmult_0_l. apply rnd64_0. Qed.
Lemma standardize_monotone mean std x y : 0 < b64R std -> b64fin std = true -> b64fin (b64_standardize mean std x) = true -> b64fin (b64_standardize mean std y) = true -> b64R x <= b64R y ->
  b64R (b64_standardize mean std x) <= b64R (b64_standardize mean std y).
Proof. intros P Fs Fx Fy L. destruct (standardize_value mean std x ltac:(lra) Fs Fx) as (_ & _ & ->). destruct (standardize_value mean std y ltac:(lra) Fs Fy) as (_ & _ & ->).
  apply rnd64_le. apply Rmult_le_compat_r; [left; apply Rinv_0_lt_compat; exact P|]. apply rnd64_le. lra. Qed.
Lemma rnd_ex x : exists e t, Rabs e <= eps64 /\ Rabs t <= tiny /\ rnd64 x = x * (1 + e) + t.
Proof. destruct (error_N_FLT radix2 (-1074) 53 ltac:(lia) (fun x => negb (Z.even x)) x) as (e & t & H1 & H2 & _ & E). exists e, t. split; [|split; [|exact E]].
  - eapply Rle_trans; [exact H1|]. right. unfold eps64. replace (/ 2) with (bpow radix2 (-1)) by (simpl; lra). rewrite <- bpow_plus. reflexivity.
  - eapply Rle_trans; [exact H2|]. right. unfold tiny. replace (/ 2) with (bpow radix2 (-1)) by (simpl; lra). rewrite <- bpow_plus. reflexivity. Qed.
Lemma standardize_error mean std x : b64R std <> 0 -> b64fin std = true -> b64fin (b64_standardize mean std x) = true -> let z := (b64R x - b64R mean) / b64R std in
  Rabs (b64R (b64_standardize mean std x) - z) <= 3 * eps64 * Rabs z + tiny.
Proof. intros N Fs F z. destruct (standardize_value _ _ _ N Fs F) as (_ & _ & ->). destruct (rnd_diff x mean) as (e & He & ->).
  replace ((b64R x - b64R mean) * (1 + e) / b64R std) with (z * (1 + e)) by (unfold z; field; exact N). destruct (rnd_ex (z * (1 + e))) as (e' & t & He' & Ht & ->).
  replace (z * (1 + e) * (1 + e') + t - z) with (z * (e + e' + e * e') + t) by ring. eapply Rle_trans; [apply Rabs_triang|]. apply Rplus_le_compat; [|exact Ht]. rewrite Rabs_mult, Rmult_comm. apply Rmult_le_compat_r; [apply Rabs_pos|].
  apply Rabs_le_inv in He, He'. fold eps64 in He. pose proof eps_small. apply Rabs_le. split; nra. Qed.

Lemma revert_error mean std x : b64R std <> 0 -> b64fin (b64_revert mean std (b64_standardize mean std x)) = true ->
  Rabs (b64R (b64_revert mean std (b64_standardize mean std x)) - b64R x) <= 5 * eps64 * Rabs (b64R x - b64R mean) + eps64 * Rabs (b64R x) + tiny * (4 * Rabs (b64R std) + 2).
Proof. intros N F. unfold b64_revert in *. destruct (add_finite _ _ F) as [Fp Fm]. destruct (mul_finite _ _ Fp) as [Fy Fs]. rewrite (plus_value _ _ Fp Fm F).
  destruct (rnd_sum (mul64 (b64_standardize mean std x) std) mean) as (e4 & H4 & ->). rewrite (mult_value _ _ Fp). destruct (standardize_value _ _ _ N Fs Fy) as (_ & _ & ->).
  destruct (rnd_diff x mean) as (e1 & H1 & ->). set (d := b64R x - b64R mean) in *. set (s := b64R std) in *. destruct (rnd_ex (d * (1 + e1) / s)) as (e2 & t2 & H2 & T2 & ->).
  destruct (rnd_ex ((d * (1 + e1) / s * (1 + e2) + t2) * s)) as (e3 & t3 & H3 & T3 & ->). fold eps64 in H1, H4. pose proof eps_small as Es. pose proof tiny_pos as Tp.
  replace ((d * (1 + e1) / s * (1 + e2) + t2) * s * (1 + e3) + t3) with (d * ((1 + e1) * (1 + e2) * (1 + e3)) + (t2 * s * (1 + e3) + t3)) by (field; exact N).
  set (f := (1 + e1) * (1 + e2) * (1 + e3)). set (t := t2 * s * (1 + e3) + t3). 
  apply Rabs_le_inv in H1, H2, H3, H4. assert (Hf : Rabs (f - 1) <= 4 * eps64). { unfold f. assert (A : Rabs (e1 + e2 + e1 * e2) <= 3 * eps64) by (apply Rabs_le; split; nra). apply Rabs_le_inv in A. apply Rabs_le. split; nra. }
  assert (Ht : Rabs t <= tiny * (2 * Rabs s + 1)). { unfold t. eapply Rle_trans; [apply Rabs_triang|]. replace (tiny * (2 * Rabs s + 1)) with (tiny * Rabs s * 2 + tiny) by ring. apply Rplus_le_compat; [|exact T3]. rewrite !Rabs_mult.
    assert (A : Rabs (1 + e3) <= 2) by (apply Rabs_le; lra). pose proof (Rabs_pos t2). pose proof (Rabs_pos s). pose proof (Rabs_pos (1 + e3)). assert (B : Rabs t2 * Rabs s <= tiny * Rabs s) by nra. assert (0 <= Rabs t2 * Rabs s) by nra. nra. }
  assert (Q : Rabs (d * (f - 1) + t) <= 4 * eps64 * Rabs d + tiny * (2 * Rabs s + 1)). { eapply Rle_trans; [apply Rabs_triang|]. apply Rplus_le_compat; [|exact Ht]. rewrite Rabs_mult. pose proof (Rabs_pos d). nra. }
  set (w := d * (f - 1) + t) in *. replace ((d * f + t + b64R mean) * (1 + e4) - b64R x) with (w + (b64R x + w) * e4) by (unfold w, d; ring).
  eapply Rle_trans; [apply Rabs_triang|]. rewrite Rabs_mult. pose proof (Rabs_triang (b64R x) w) as Tr. pose proof (Rabs_pos w). pose proof (Rabs_pos (b64R x)). pose proof (Rabs_pos d). pose proof (Rabs_pos s). assert (A4 : Rabs e4 <= eps64) by (apply Rabs_le; lra). pose proof (Rabs_pos e4). pose proof (Rabs_pos (b64R x + w)).
  assert (X : Rabs (b64R x + w) * Rabs e4 <= (Rabs (b64R x) + Rabs w) * eps64) by nra. assert (Y : Rabs w * eps64 <= Rabs w * / 1000000) by (apply Rmult_le_compat_l; lra).
  assert (0 <= eps64 * Rabs d) by nra. assert (0 <= tiny * (2 * Rabs s + 1)) by nra. nra. Qed.

(** ** Probabilities *)
Lemma left_sum_addends_aux l : forall o, addends (fold_left (fun o y => Plus o (Entry y)) l o) = (addends o ++ l)%list /\ (depth (fold_left (fun o y => Plus o (Entry y)) l o) = depth o + List.length l)%nat.
Proof. induction l as [|y l IH]; intros o; cbn [fold_left List.length]; [rewrite app_nil_r; auto|]. destruct (IH (Plus o (Entry y))) as [A B]. rewrite A, B. cbn [addends depth]. rewrite <- app_assoc, Nat.max_0_r. split; [reflexivity|lia]. Qed.
Lemma left_sum_addends l : addends (left_sum l) = l /\ (depth (left_sum l) <= List.length l)%nat.
Proof. destruct l as [|x l]; [split; [reflexivity|cbn; lia]|]. cbn [left_sum]. destruct (left_sum_addends_aux l (Entry x)) as [A B]. rewrite A, B. split; [reflexivity|cbn; lia]. Qed.
Lemma sum_above o : b64fin (sum64 o) = true -> Forall (fun x => 0 <= b64R x) (addends o) -> 0 <= b64R (sum64 o) /\ Forall (fun x => b64R x <= b64R (sum64 o)) (addends o).
Proof. induction o as [|x|a IHa b IHb]; cbn [sum64 addends]; intros F P.
  - split; [change (b64R zero64) with 0; lra|constructor].
  - inversion P; subst. split; [assumption|repeat constructor; lra].
  - destruct (add_finite _ _ F) as [Fa Fb]. apply Forall_app in P. destruct P as [Pa Pb]. destruct (IHa Fa Pa) as [A1 A2]. destruct (IHb Fb Pb) as [B1 B2]. rewrite (plus_value _ _ Fa Fb F).
    assert (La : b64R (sum64 a) <= rnd64 (b64R (sum64 a) + b64R (sum64 b))) by (rewrite <- (rnd_fix (sum64 a)) at 1; apply rnd64_le; lra).
    assert (Lb : b64R (sum64 b) <= rnd64 (b64R (sum64 a) + b64R (sum64 b))) by (rewrite <- (rnd_fix (sum64 b)) at 1; apply rnd64_le; lra).
    split; [lra|]. apply Forall_app. split; [eapply Forall_impl; [|exact A2]|eapply Forall_impl; [|exact B2]]; cbn; intros; lra. Qed.

Section Weights.
  Context (weights : list binary64).
  Hypothesis (P : Forall (fun w => 0 <= b64R w) weights) (E : Exists (fun w => 0 < b64R w) weights) (F : b64fin (sum64 (left_sum weights)) = true).
  Let s := sum64 (left_sum weights).
  Lemma weight_sum : 0 < b64R s /\ Forall (fun w => b64fin w = true /\ b64R w <= b64R s) weights.
  Proof. destruct (left_sum_addends weights) as [A _]. rewrite <- A in P. destruct (sum_above _ F P) as [_ B]. destruct (sum_bounds _ F P) as [C _]. rewrite A in *. fold s in B. split.
    - apply Exists_exists in E. destruct E as (w & I & H). rewrite Forall_forall in B. specialize (B w I). lra.
    - rewrite Forall_forall in *. auto. Qed.
  Lemma probability_value w : In w weights -> b64fin (div64 w s) = true /\ b64R (div64 w s) = rnd64 (b64R w / b64R s) /\ 0 <= b64R (div64 w s) <= 1.
  Proof. intros I. destruct weight_sum as [S0 B]. rewrite Forall_forall in B. destruct (B w I) as [Fw L]. assert (W : 0 <= b64R w) by (rewrite Forall_forall in P; auto).
    assert (Q : 0 <= b64R w / b64R s <= 1). { split; [apply Rmult_le_pos; [exact W|left; apply Rinv_0_lt_compat; exact S0]|]. apply (Rmult_le_reg_r (b64R s)); [exact S0|]. replace (b64R w / b64R s * b64R s) with (b64R w) by (field; lra). lra. }
    assert (R : 0 <= rnd64 (b64R w / b64R s) <= 1) by (rewrite <- rnd64_0, <- rnd64_1; split; apply rnd64_le; lra).
    destruct (b64_div_finite w s ltac:(lra)) as [V G]; [rewrite Rabs_pos_eq by lra; pose proof one_below_max; lra|]. rewrite V, G. auto. Qed.
  Lemma probability_total : (Z.of_nat (List.length weights + 4) <= 2 ^ 20)%Z -> Rabs (total (b64_probabilities weights) - 1) <= bpow radix2 (-30).
  Proof. intros Hn. destruct weight_sum as [S0 _]. unfold b64_probabilities. fold s. destruct (left_sum_addends weights) as [A D]. assert (P' : Forall (fun w => 0 <= b64R w) (addends (left_sum weights))) by (rewrite A; exact P).
    destruct (sum_bounds _ F P') as (_ & B1 & B2). rewrite A in B1, B2. fold s in B1, B2. set (n := List.length weights) in *. set (W := total weights) in *.
    pose proof (above_mono _ _ D) as U. pose proof (below_mono _ _ D) as L. assert (W0 : 0 <= W) by (apply total_pos; exact P).
    assert (G : forall l, (forall w, In w l -> In w weights) -> (1 - eps64) * (total l / b64R s) - INR (List.length l) * tiny <= total (map (fun w => div64 w s) l) <= (1 + eps64) * (total l / b64R s) + INR (List.length l) * tiny).
    { induction l as [|w l IH]; intros Hl; [unfold total; cbn; lra|]. specialize (IH (fun w' H => Hl w' (or_intror H))). destruct (probability_value w (Hl w (or_introl eq_refl))) as (_ & V & _).
      assert (Wp : 0 <= b64R w) by (rewrite Forall_forall in P; apply P, Hl; left; reflexivity). assert (Wq : 0 <= b64R w / b64R s) by (apply Rmult_le_pos; [exact Wp|left; apply Rinv_0_lt_compat; exact S0]).
      pose proof (rnd_bounds _ Wq) as R. unfold total in *. cbn [map fold_right List.length]. rewrite S_INR, V. rewrite Rdiv_plus_distr. lra. }
    destruct (G weights (fun w H => H)) as [G1 G2]. fold W n in G1, G2. destruct (relative_32 n Hn) as [Rb Ra].
    assert (Mb : below (n + 4) <= below n) by (apply below_mono; lia). assert (Ma : above n <= above (n + 4)) by (apply above_mono; lia).
    set (h := bpow radix2 (-32)) in *. assert (Hh : 0 < h <= / 1000). { split; [apply bpow_gt_0|]. apply Rle_trans with (bpow radix2 (-10)); [apply bpow_le; lia|]. simpl. apply Rinv_le_contravar; lra. }
    assert (X1 : (1 - h) * W <= b64R s) by nra. assert (X2 : b64R s <= (1 + h) * W) by nra. assert (Wpos : 0 < W) by nra. 
    set (r := W / b64R s) in *. assert (Er : W = r * b64R s) by (unfold r; field; lra). assert (Y1 : (1 - h) * r <= 1) by (apply (Rmult_le_reg_r (b64R s)); [exact S0|]; rewrite Er in X1; lra). assert (Y2 : 1 <= (1 + h) * r) by (apply (Rmult_le_reg_r (b64R s)); [exact S0|]; rewrite Er in X2; lra).
    assert (T : INR n * tiny <= h * / 1000). { assert (Nn : INR n <= bpow radix2 20) by (rewrite INR_IZR_INZ; change (bpow radix2 20) with (IZR (2 ^ 20)); apply IZR_le; lia). apply Rle_trans with (bpow radix2 20 * tiny); [apply Rmult_le_compat_r; [pose proof tiny_pos; lra|exact Nn]|].
      unfold tiny. rewrite <- bpow_plus. apply Rle_trans with (h * bpow radix2 (-10)); [unfold h; rewrite <- bpow_plus; apply bpow_le; lia|]. apply Rmult_le_compat_l; [lra|]. simpl. apply Rinv_le_contravar; lra. }
    assert (Eh : eps64 <= h * / 1000). { unfold eps64. apply Rle_trans with (h * bpow radix2 (-10)); [unfold h; rewrite <- bpow_plus; apply bpow_le; lia|]. apply Rmult_le_compat_l; [lra|]. simpl. apply Rinv_le_contravar; lra. }
    replace (bpow radix2 (-30)) with (4 * h) by (unfold h; change (-30)%Z with (2 + -32)%Z; rewrite bpow_plus; simpl (bpow radix2 2); lra). pose proof eps_small. assert (Yr : r <= 1 + 2 * h) by nra. assert (Yr' : 1 - h <= r) by nra. apply Rabs_le. split; nra. Qed.
  Lemma ratio_close : (Z.of_nat (List.length weights + 4) <= 2 ^ 20)%Z -> let r := total weights / b64R s in 0 < total weights /\ 1 - bpow radix2 (-32) <= r <= 1 + 3 / 2 * bpow radix2 (-32).
  Proof. intros Hn r. destruct weight_sum as [S0 _]. destruct (left_sum_addends weights) as [A D]. assert (P' : Forall (fun w => 0 <= b64R w) (addends (left_sum weights))) by (rewrite A; exact P).
    destruct (sum_bounds _ F P') as (_ & B1 & B2). rewrite A in B1, B2. fold s in B1, B2. set (n := List.length weights) in *. set (W := total weights) in *.
    pose proof (above_mono _ _ D) as U. pose proof (below_mono _ _ D) as L. assert (W0 : 0 <= W) by (apply total_pos; exact P). fold n in U, L. destruct (relative_32 n Hn) as [Rb Ra].
    assert (Mb : below (n + 4) <= below n) by (apply below_mono; lia). assert (Ma : above n <= above (n + 4)) by (apply above_mono; lia).
    set (h := bpow radix2 (-32)) in *. assert (Hh : 0 < h <= / 1000). { split; [apply bpow_gt_0|]. apply Rle_trans with (bpow radix2 (-10)); [apply bpow_le; lia|]. simpl. apply Rinv_le_contravar; lra. }
    assert (X1 : (1 - h) * W <= b64R s) by nra. assert (X2 : b64R s <= (1 + h) * W) by nra. assert (Wpos : 0 < W) by nra. split; [exact Wpos|].
    assert (Er : W = r * b64R s) by (unfold r; field; lra). assert (Y1 : (1 - h) * r <= 1) by (apply (Rmult_le_reg_r (b64R s)); [exact S0|]; rewrite Er in X1; lra). assert (Y2 : 1 <= (1 + h) * r) by (apply (Rmult_le_reg_r (b64R s)); [exact S0|]; rewrite Er in X2; lra). split; nra. Qed.
  Lemma probability_close w : (Z.of_nat (List.length weights + 4) <= 2 ^ 20)%Z -> 0 <= b64R w -> let q := b64R w / total weights in Rabs (rnd64 (b64R w / b64R s) - q) <= bpow radix2 (-31) * q + tiny.
  Proof. intros Hn Hw q. destruct weight_sum as [S0 _]. destruct (ratio_close Hn) as [Wp R]. set (r := total weights / b64R s) in *. replace (b64R w / b64R s) with (q * r) by (unfold q, r; field; lra).
    assert (Q : 0 <= q) by (apply Rmult_le_pos; [exact Hw|left; apply Rinv_0_lt_compat; exact Wp]). set (h := bpow radix2 (-32)) in *. assert (Hh : 0 < h <= / 1000). { split; [apply bpow_gt_0|]. apply Rle_trans with (bpow radix2 (-10)); [apply bpow_le; lia|]. simpl. apply Rinv_le_contravar; lra. }
    assert (Eh : eps64 <= h * / 1000). { unfold eps64. apply Rle_trans with (h * bpow radix2 (-10)); [unfold h; rewrite <- bpow_plus; apply bpow_le; lia|]. apply Rmult_le_compat_l; [lra|]. simpl. apply Rinv_le_contravar; lra. }
    replace (bpow radix2 (-31)) with (2 * h) by (unfold h; change (-31)%Z with (1 + -32)%Z; rewrite bpow_plus; simpl (bpow radix2 1); lra). pose proof eps_small.
    assert (0 <= q * r) by nra. pose proof (rnd_bounds (q * r) ltac:(assumption)) as B. assert (U : (1 + eps64) * r <= 1 + 2 * h) by nra. assert (V : 1 - 2 * h <= (1 - eps64) * r) by nra. apply Rabs_le. split; nra. Qed.
End Weights.
