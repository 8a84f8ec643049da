(** Batch counts and split sizes in IEEE double precision.
    Sources: /repo/mlreflect/training/noise_generator.py 25-26, training.py 68. *)
From Coq Require Import Reals Lra ZArith Lia.
From Flocq Require Import Core Relative.
From Verif Require Import Float64.
Local Open Scope R_scope.

Notation fexp := (FLT_exp (-1074) 53).

Lemma rnd64_INR n : (Z.of_nat n <= 2 ^ 53)%Z -> rnd64 (INR n) = INR n.
Proof. intros H. rewrite INR_IZR_INZ. unfold rnd64. apply round_generic; [auto with typeclass_instances|].
  destruct (Z.eq_dec (Z.of_nat n) (2 ^ 53)) as [->|Hn].
  - replace (IZR (2 ^ 53)) with (bpow radix2 53) by (symmetry; exact (IZR_Zpower radix2 53 ltac:(lia))). apply generic_format_bpow. unfold FLT_exp. lia.
  - apply generic_format_FLT. apply FLT_spec with (Float radix2 (Z.of_nat n) 0); [unfold F2R; simpl; ring| |simpl; lia].
    cbn [Fnum]. change (2 ^ 53)%Z with (radix2 ^ 53)%Z in *. lia. Qed.

(** [np.floor(n / bs)] is the integer quotient. *)
Lemma floor_div64 n bs : (0 < bs)%nat -> (Z.of_nat bs <= 2 ^ 53)%Z -> (Z.of_nat n < 2 ^ 53)%Z ->
  Zfloor (rnd64 (INR n / INR bs)) = Z.of_nat (n / bs).
Proof. intros Hb Hbs Hn. assert (Hbp : 0 < INR bs) by (apply lt_0_INR; exact Hb).
  pose proof (Nat.div_mod n bs ltac:(lia)) as Ed. pose proof (Nat.mod_upper_bound n bs ltac:(lia)) as Hr.
  set (q := (n / bs)%nat) in *. set (r := (n mod bs)%nat) in *.
  assert (En : INR n = INR bs * INR q + INR r) by (rewrite Ed, plus_INR, mult_INR; reflexivity).
  assert (Hrb : INR r + 1 <= INR bs) by (rewrite <- S_INR; apply le_INR; lia). pose proof (pos_INR r) as Hr0. pose proof (pos_INR q) as Hq0.
  set (x := INR n / INR bs).
  assert (Hx1 : INR q <= x). { unfold x. apply Rmult_le_reg_r with (INR bs); [exact Hbp|]. unfold Rdiv. rewrite Rmult_assoc, Rinv_l by lra. lra. }
  assert (Hx2 : x + / INR bs <= INR q + 1).
  { unfold x. apply Rmult_le_reg_r with (INR bs); [exact Hbp|]. unfold Rdiv. rewrite Rmult_plus_distr_r, Rmult_assoc, Rinv_l by lra. lra. }
  apply Zfloor_imp. rewrite <- INR_IZR_INZ. rewrite plus_IZR, <- INR_IZR_INZ. split.
  - rewrite <- (rnd64_INR q) by nia. apply rnd64_le. exact Hx1.
  - destruct n as [|n'].
    { unfold x. simpl INR at 1. unfold Rdiv. rewrite Rmult_0_l, rnd64_0. lra. }
    assert (H1n : 1 <= INR (S n')) by (change 1 with (INR 1); apply le_INR; lia).
    assert (Hxp : / INR bs <= x) by (unfold x, Rdiv; rewrite <- (Rmult_1_l (/ INR bs)) at 1; apply Rmult_le_compat_r; [apply Rlt_le, Rinv_0_lt_compat; exact Hbp|exact H1n]).
    assert (Hib : 0 < / INR bs) by (apply Rinv_0_lt_compat; exact Hbp).
    assert (Hmin : bpow radix2 (-1074 + 53 - 1) <= Rabs x).
    { rewrite Rabs_pos_eq by lra. eapply Rle_trans; [|exact Hxp]. apply Rle_trans with (bpow radix2 (-53)); [apply bpow_le; lia|].
      change (-53)%Z with (-(53))%Z. rewrite bpow_opp. apply Rinv_le; [exact Hbp|]. rewrite INR_IZR_INZ. rewrite <- (IZR_Zpower radix2 53) by lia. apply IZR_le. exact Hbs. }
    pose proof (relative_error_N_FLT radix2 (-1074) 53 ltac:(lia) (fun x => negb (Z.even x)) x Hmin) as He.
    assert (Hs : / 2 * bpow radix2 (- 53 + 1) * Rabs x < / INR bs).
    { rewrite Rabs_pos_eq by lra. unfold x, Rdiv. rewrite <- Rmult_assoc. rewrite <- (Rmult_1_l (/ INR bs)) at 2. apply Rmult_lt_compat_r; [exact Hib|].
      replace (/ 2) with (bpow radix2 (-1)) by (simpl; lra). rewrite <- bpow_plus. change (-1 + (-53 + 1))%Z with (-(53))%Z. rewrite bpow_opp.
      apply Rmult_lt_reg_l with (bpow radix2 53); [apply bpow_gt_0|]. rewrite <- Rmult_assoc, Rinv_r by (apply Rgt_not_eq, bpow_gt_0).
      rewrite Rmult_1_l, Rmult_1_r, INR_IZR_INZ, <- (IZR_Zpower radix2 53) by lia. apply IZR_lt. exact Hn. }
    change (Rabs (rnd64 x - x) <= / 2 * bpow radix2 (- 53 + 1) * Rabs x) in He. apply Rabs_le_inv in He. lra. Qed.

(** Rounding errors *)
Lemma rnd64_error x : Rabs (rnd64 x - x) <= bpow radix2 (-53) * Rabs x + bpow radix2 (-1075).
Proof. destruct (error_N_FLT radix2 (-1074) 53 ltac:(lia) (fun x => negb (Z.even x)) x) as (eps & eta & H1 & H2 & _ & E).
  change (rnd64 x = x * (1 + eps) + eta) in E. rewrite E. replace (x * (1 + eps) + eta - x) with (eps * x + eta) by ring.
  eapply Rle_trans; [apply Rabs_triang|]. rewrite Rabs_mult.
  replace (/ 2 * bpow radix2 (- (53) + 1)) with (bpow radix2 (-53)) in H1 by (replace (/ 2) with (bpow radix2 (-1)) by (simpl; lra); rewrite <- bpow_plus; reflexivity).
  replace (/ 2 * bpow radix2 (-1074)) with (bpow radix2 (-1075)) in H2 by (replace (/ 2) with (bpow radix2 (-1)) by (simpl; lra); rewrite <- bpow_plus; reflexivity).
  apply Rplus_le_compat; [apply Rmult_le_compat_r; [apply Rabs_pos|exact H1]|exact H2]. Qed.

(** [int((1 - v) * n)] is off by less than one from the exact product, before truncation. *)
Lemma train_product64 v n : 0 <= v <= 1 -> (Z.of_nat n <= 2 ^ 50)%Z -> Rabs (rnd64 (rnd64 (1 - v) * INR n) - (1 - v) * INR n) < 1.
Proof. intros Hv Hn. pose proof (pos_INR n) as Hp. set (b := bpow radix2 (-53)). set (c := bpow radix2 (-1075)).
  assert (Hb : 0 < b) by apply bpow_gt_0. assert (Hc : 0 < c) by apply bpow_gt_0.
  assert (Hcb : c <= b) by (apply bpow_le; lia).
  assert (Hnb : INR n * b <= 1 / 8).
  { replace (1 / 8) with (bpow radix2 50 * b); [|unfold b; rewrite <- bpow_plus; simpl; lra]. apply Rmult_le_compat_r; [lra|]. rewrite INR_IZR_INZ, <- (IZR_Zpower radix2 50) by lia. apply IZR_le. exact Hn. }
  assert (Hb1 : b <= 1 / 8). { replace (1/8) with (bpow radix2 (-3)) by (simpl; lra). apply bpow_le. lia. }
  pose proof (rnd64_error (1 - v)) as E1. fold b c in E1. rewrite (Rabs_pos_eq (1 - v)) in E1 by lra.
  set (w := rnd64 (1 - v)) in *. assert (Hw : 0 <= w <= 1).
  { unfold w. split; [rewrite <- rnd64_0; apply rnd64_le; lra|]. replace 1 with (rnd64 1) at 2; [apply rnd64_le; lra|]. change 1 with (INR 1). apply rnd64_INR. lia. }
  pose proof (rnd64_error (w * INR n)) as E2. fold b c in E2. rewrite (Rabs_pos_eq (w * INR n)) in E2 by (apply Rmult_le_pos; lra).
  assert (W : w * INR n <= INR n) by nra.
  assert (E2' : Rabs (rnd64 (w * INR n) - w * INR n) <= 1 / 4) by nra.
  assert (E1' : Rabs (w * INR n - (1 - v) * INR n) <= 1 / 2).
  { replace (w * INR n - (1 - v) * INR n) with ((w - (1 - v)) * INR n) by ring. rewrite Rabs_mult, (Rabs_pos_eq (INR n)) by lra. nra. }
  replace (rnd64 (w * INR n) - (1 - v) * INR n) with ((rnd64 (w * INR n) - w * INR n) + (w * INR n - (1 - v) * INR n)) by ring.
  eapply Rle_lt_trans; [apply Rabs_triang|]. lra. Qed.
