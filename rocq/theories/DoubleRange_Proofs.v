(** Proofs about the heights of profiles in binary64 arithmetic *)
From Coq Require Import Reals ZArith Lia Lra Psatz.
From Flocq Require Import Core IEEE754.BinarySingleNaN IEEE754.Binary IEEE754.Bits.
From Verif Require Import Float64 FloatTrain Double_Model Double_Spec Double_Proofs DoubleMse_Proofs DoubleRange_Model.
Local Open Scope R_scope.
#[local] Existing Instances Hp Hpe.

Definition e53 : R := / 9007199254740992.
Lemma err x B : Rabs x <= B -> Rabs (rnd64 x - x) <= e53 * (B + 1).
Proof. intros H. pose proof (rnd64_error x) as E. assert (T : bpow radix2 (-1075) <= bpow radix2 (-53)) by (apply bpow_le; lia). change (bpow radix2 (-53)) with e53 in *. assert (0 < e53) by (unfold e53; lra). nra. Qed.
Lemma below x B : Rabs x <= B -> B <= 1000000000000 -> Rabs (rnd64 x) < bpow radix2 1024.
Proof. intros H L. apply (rnd_below x 40); [lia|]. simpl. lra. Qed.
Lemma step_value : 1 / 10 <= b64R step64 <= 1 / 10 + e53.
Proof. unfold e53. vm_compute. lra. Qed.
Lemma nat_value i : (Z.of_nat i <= 2 ^ 53)%Z -> b64fin (nat64 i) = true /\ b64R (nat64 i) = INR i.
Proof. intros H. pose proof (Binary.binary_normalize_correct 53 1024 Hp Hpe mode_NE (Z.of_nat i) 0 false) as C. cbv zeta in C.
  assert (E : F2R (Float radix2 (Z.of_nat i) 0) = INR i) by (unfold F2R; cbn; rewrite Rmult_1_r; symmetry; apply INR_IZR_INZ). rewrite E in C.
  assert (B : 0 <= INR i <= bpow radix2 53) by (split; [apply pos_INR|rewrite INR_IZR_INZ; change (bpow radix2 53) with (IZR (2 ^ 53)); apply IZR_le; exact H]).
  assert (R : round radix2 (SpecFloat.fexp 53 1024) (round_mode mode_NE) (INR i) = INR i).
  { apply round_generic; auto with typeclass_instances. destruct (Z.eq_dec (Z.of_nat i) (2 ^ 53)) as [Q|Q].
    - rewrite INR_IZR_INZ, Q. change (IZR (2 ^ 53)) with (bpow radix2 53). apply generic_format_bpow. cbn. lia.
    - change (SpecFloat.fexp 53 1024) with (FLT_exp (-1074) 53). rewrite <- E. apply generic_format_FLT. exists (Float radix2 (Z.of_nat i) 0); [reflexivity|cbn [Fnum]; change (radix2 ^ 53)%Z with (2 ^ 53)%Z; lia|cbn; lia]. }
  rewrite R in C. rewrite Rlt_bool_true in C; [|rewrite Rabs_pos_eq by lra; apply Rle_lt_trans with (bpow radix2 53); [lra|apply bpow_lt; lia]]. destruct C as (C1 & C2 & _). auto. Qed.

Section Heights.
  Context (start : binary64).
  Hypothesis (Fs : b64fin start = true) (Bs : Rabs (b64R start) <= 1024).
  Let s := b64R start.
  Lemma second_value : b64fin (add64 start step64) = true /\ Rabs (b64R (add64 start step64) - (s + b64R step64)) <= e53 * 1026.
  Proof. pose proof step_value as S. assert (X : Rabs (s + b64R step64) <= 1025) by (apply Rabs_le; apply Rabs_le_inv in Bs; unfold s, e53 in *; lra). destruct (b64_plus_finite start step64 Fs eq_refl (below _ _ X ltac:(lra))) as [E F]. rewrite E. split; [exact F|]. pose proof (err _ _ X) as Y. fold s in Y |- *. lra. Qed.
  Lemma delta_value : b64fin (b64_delta start) = true /\ Rabs (b64R (b64_delta start) - 1 / 10) <= e53 * 1030.
  Proof. destruct second_value as [F V]. pose proof step_value as S. apply Rabs_le_inv in V. assert (X : Rabs (b64R (add64 start step64) - b64R start) <= 1) by (apply Rabs_le; fold s; unfold e53 in *; lra).
    destruct (b64_minus_finite (add64 start step64) start F Fs (below _ _ X ltac:(lra))) as [E G]. unfold b64_delta. rewrite E. split; [exact G|]. pose proof (err _ _ X) as Y. apply Rabs_le_inv in Y. fold s in Y |- *. apply Rabs_le. unfold e53 in *. lra. Qed.
  Lemma height_value i : (i <= 2 ^ 24)%nat -> b64fin (b64_height start i) = true /\ Rabs (b64R (b64_height start i) - (s + INR i / 10)) <= / 65536.
  Proof. intros Hi. destruct i as [|[|i]]; [|destruct second_value as [F V]; split; [exact F|]|].
    - split; [exact Fs|]. cbn. fold s. replace (s - (s + 0 / 10)) with 0 by lra. rewrite Rabs_R0. lra.
    - cbn [b64_height]. pose proof step_value as S. apply Rabs_le_inv in V. apply Rabs_le. cbn [INR]. unfold e53 in *. lra.
    - set (j := Datatypes.S (Datatypes.S i)) in *. change (b64_height start j) with (add64 start (mul64 (nat64 j) (b64_delta start))).
      assert (Hz : (Z.of_nat j <= 16777216)%Z) by (apply Nat2Z.inj_le in Hi; rewrite Nat2Z.inj_pow in Hi; exact Hi). destruct (nat_value j ltac:(lia)) as [Fj Ej]. destruct delta_value as [Fd Vd]. apply Rabs_le_inv in Vd.
      assert (J : 0 <= INR j <= 16777216) by (split; [apply pos_INR|rewrite INR_IZR_INZ; apply IZR_le; exact Hz]). set (d := b64R (b64_delta start)) in *. set (n := INR j) in *.
      assert (D : n / 10 - / 100000 <= n * d <= n / 10 + / 100000) by (unfold e53 in *; split; nra).
      assert (X : Rabs (n * d) <= 1700000) by (apply Rabs_le; lra).
      destruct (b64_mult_finite (nat64 j) (b64_delta start) Fj Fd) as [E F]; [rewrite Ej; apply (below _ _ X); lra|]. fold d in E. rewrite Ej in E. pose proof (err _ _ X) as Y. rewrite <- E in Y. apply Rabs_le_inv in Y. set (p := b64R (mul64 (nat64 j) (b64_delta start))) in *.
      pose proof (Rabs_le_inv _ _ Bs) as Bs'. fold s in Bs'. assert (Z : Rabs (s + p) <= 1800000) by (apply Rabs_le; unfold e53 in *; lra).
      destruct (b64_plus_finite start (mul64 (nat64 j) (b64_delta start)) Fs F (below _ _ Z ltac:(lra))) as [E' F']. split; [exact F'|]. pose proof (err _ _ Z) as W. fold p s in E'. rewrite E'. apply Rabs_le_inv in W. apply Rabs_le. unfold e53 in *. lra. Qed.
  Context (stop : binary64).
  Hypothesis (Ft : b64fin stop = true) (Bt : Rabs (b64R stop) <= 1048576) (L : s < b64R stop).
  Lemma count_value : 10 * (b64R stop - s) - / 1000000 <= IZR (b64_count start stop) <= 10 * (b64R stop - s) + 1 + / 1000000.
  Proof. pose proof step_value as S. pose proof (Rabs_le_inv _ _ Bs) as Bs'. pose proof (Rabs_le_inv _ _ Bt) as Bt'. fold s in Bs'. set (w := b64R stop - s) in *. assert (Wb : 0 < w <= 1049600) by (unfold w; lra). assert (X : Rabs w <= 1049600) by (apply Rabs_le; lra).
    destruct (b64_minus_finite stop start Ft Fs (below _ _ X ltac:(lra))) as [E F]. fold s w in E. pose proof (err _ _ X) as Y. rewrite <- E in Y. apply Rabs_le_inv in Y. set (v := b64R (sub64 stop start)) in *. set (t := b64R step64) in *.
    assert (I : 10 - 200 * e53 <= / t <= 10). { split; [apply Rmult_le_reg_r with t; [lra|]; rewrite Rinv_l by lra; unfold e53 in *; nra|]. replace 10 with (/ (1 / 10)) by lra. apply Rinv_le_contravar; lra. }
    assert (Q : 10 * w - / 10000000 <= v / t <= 10 * w + / 10000000). { unfold Rdiv. set (r := / t) in *. assert (Vb : Rabs v <= 1049700) by (apply Rabs_le; unfold e53 in *; lra). assert (Rb : Rabs (r - 10) <= 200 * e53) by (apply Rabs_le; unfold e53 in *; lra). pose proof (Rmult_le_compat _ _ _ _ (Rabs_pos _) (Rabs_pos _) Vb Rb) as M. rewrite <- Rabs_mult in M. apply Rabs_le_inv in M. replace (v * r) with (10 * v + v * (r - 10)) by ring. unfold e53 in *. lra. }
    assert (Z : Rabs (v / t) <= 11000000) by (apply Rabs_le; lra). destruct (b64_div_finite (sub64 stop start) step64) as [E' F']; [fold t; lra|apply (below _ _ Z); lra|]. fold v t in E'. pose proof (err _ _ Z) as W. rewrite <- E' in W. apply Rabs_le_inv in W.
    unfold b64_count. pose proof (Zceil_ub (b64R (div64 (sub64 stop start) step64))) as U. pose proof (Zceil_lb (b64R (div64 (sub64 stop start) step64))) as U'. unfold e53 in *. lra. Qed.
End Heights.
