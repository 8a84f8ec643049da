(** Properties C34 and C157: the values of normalised and restored labels in double precision. *)
From Coq Require Import Reals ZArith Lia Lra Psatz List.
From Flocq Require Import Core IEEE754.BinarySingleNaN IEEE754.Binary IEEE754.Bits.
From Verif Require Import Float64 FloatTrain Double_Model Double_Spec Double_Proofs Double_Props DoubleMse_Proofs DoubleScale_Props.
Import ListNotations.
Local Open Scope R_scope.

Lemma quotient_error z e f u : 0 <= z -> 0 <= u <= / 16 -> - u <= e <= u -> - u <= f <= u -> Rabs (z * ((1 + f) / (1 + e)) - z) <= 5 / 2 * u * z.
Proof. intros Z U E F. assert (P : 0 < 1 + e) by lra. assert (D : - (5 / 2 * u) <= (1 + f) / (1 + e) - 1 <= 5 / 2 * u).
  { assert (Q : ((1 + f) / (1 + e) - 1) * (1 + e) = f - e) by (field; lra). split; apply (Rmult_le_reg_r (1 + e)); try exact P; rewrite Q; nra. }
  replace (z * ((1 + f) / (1 + e)) - z) with (z * ((1 + f) / (1 + e) - 1)) by ring. rewrite Rabs_mult, (Rabs_pos_eq z Z), Rmult_comm. apply Rmult_le_compat_r; [exact Z|]. apply Rabs_le. exact D. Qed.

(** ** C34 *)
(** A normalised label is the exact one up to three roundings. *)
Theorem C34_double_value lo hi x : b64fin lo = true -> b64fin hi = true -> b64fin (sub64 hi lo) = true -> b64R lo < b64R hi -> b64fin x = true -> b64R lo <= b64R x <= b64R hi ->
  let z := (b64R x - b64R lo) / (b64R hi - b64R lo) in Rabs (b64R (b64_normalize lo hi x) - z) <= bpow radix2 (-51) * z + bpow radix2 (-1075).
Proof. intros Fl Fh Fs L Fx Hx z. destruct (normalize_value lo hi Fl Fh L Fs x Fx Hx) as (_ & -> & _). destruct (rnd_diff hi lo) as (e & Ee & ->). destruct (rnd_diff x lo) as (f & Ef & ->).
  pose proof (quotient_range (b64R x - b64R lo) (b64R hi - b64R lo) ltac:(lra) ltac:(lra)) as Z. fold z in Z. change (-51)%Z with (2 + -53)%Z. rewrite bpow_plus. change (bpow radix2 2) with 4.
  assert (U : bpow radix2 (-53) <= / 16) by (change (/ 16) with (bpow radix2 (-4)); apply bpow_le; lia). pose proof (bpow_gt_0 radix2 (-53)) as U0. apply Rabs_le_inv in Ee, Ef.
  replace ((b64R x - b64R lo) * (1 + f) / ((b64R hi - b64R lo) * (1 + e))) with (z * ((1 + f) / (1 + e))) by (unfold z; field; lra).
  pose proof (quotient_error z e f (bpow radix2 (-53)) ltac:(lra) ltac:(lra) Ee Ef) as Q. apply Rabs_le_inv in Q. set (w := z * ((1 + f) / (1 + e))) in *.
  assert (W : 0 <= w). { unfold w. apply Rmult_le_pos; [lra|]. apply Rmult_le_pos; [lra|]. left. apply Rinv_0_lt_compat. lra. }
  pose proof (tiny_error w W) as T. apply Rabs_le_inv in T. set (u := bpow radix2 (-53)) in *. set (t := bpow radix2 (-1075)) in *. clearbody u t w. assert (X : u * w <= u * z + u * (5 / 2 * u * z)) by (rewrite <- Rmult_plus_distr_l; apply Rmult_le_compat_l; lra).
  assert (Y : u * (5 / 2 * u * z) <= / 16 * (5 / 2 * u * z)) by (apply Rmult_le_compat_r; [nra|lra]). assert (0 <= u * z) by (apply Rmult_le_pos; lra). apply Rabs_le. lra. Qed.
Print Assumptions C34_double_value.

(** ** C157 *)
(** A restored label is the exact one up to three roundings, relative to the larger limit. *)
Theorem C157_restored_value lo hi y : moderate lo -> moderate hi -> b64R lo < b64R hi -> b64fin y = true -> 0 <= b64R y <= 1 ->
  Rabs (b64R (b64_restore lo hi y) - (b64R lo + b64R y * (b64R hi - b64R lo))) <= bpow radix2 (-50) * Rmax (Rabs (b64R lo)) (Rabs (b64R hi)) + bpow radix2 (-1073).
Proof. intros [Fl Ml] [Fh Mh] L Fy Hy. destruct (restore_value lo hi Fl Fh L Ml Mh y Fy Hy) as [_ ->]. destruct (rnd_diff hi lo) as (e & Ee & ->).
  pose proof (Rmax_l (Rabs (b64R lo)) (Rabs (b64R hi))) as A. pose proof (Rmax_r (Rabs (b64R lo)) (Rabs (b64R hi))) as B. set (M := Rmax (Rabs (b64R lo)) (Rabs (b64R hi))) in *. apply Rabs_le_inv in A, B, Ee.
  change (-50)%Z with (3 + -53)%Z. change (-1073)%Z with (2 + -1075)%Z. rewrite !bpow_plus. change (bpow radix2 3) with 8. change (bpow radix2 2) with 4.
  assert (U : bpow radix2 (-53) <= / 16) by (change (/ 16) with (bpow radix2 (-4)); apply bpow_le; lia). pose proof (bpow_gt_0 radix2 (-53)) as U0. pose proof (bpow_gt_0 radix2 (-1075)) as T0.
  set (a := b64R hi) in *. set (b := b64R lo) in *. set (c := b64R y) in *. assert (S : 0 <= c * ((a - b) * (1 + e))) by (apply Rmult_le_pos; [lra|apply Rmult_le_pos; lra]).
  pose proof (tiny_error _ S) as E1. set (p := rnd64 (c * ((a - b) * (1 + e)))) in *. pose proof (rnd64_error (p + b)) as E2. set (r := rnd64 (p + b)) in *. set (u := bpow radix2 (-53)) in *. set (t := bpow radix2 (-1075)) in *. clearbody u t p r M a b c.
  clear - A B L Hy Ee U U0 T0 S E1 E2. set (s := c * (a - b)) in *. assert (s0 : 0 <= s <= 2 * M) by (unfold s; split; [apply Rmult_le_pos; lra|]; apply Rle_trans with (1 * (a - b)); [apply Rmult_le_compat_r; lra|lra]).
  assert (sb : - M <= s + b <= M) by (unfold s; assert (0 <= (1 - c) * (M + b)) by (apply Rmult_le_pos; lra); assert (0 <= c * (M + a)) by (apply Rmult_le_pos; lra); assert (0 <= (1 - c) * (M - b)) by (apply Rmult_le_pos; lra); assert (0 <= c * (M - a)) by (apply Rmult_le_pos; lra); split; lra). replace (c * ((a - b) * (1 + e))) with (s + s * e) in * by (unfold s; ring). clearbody s. assert (M0 : 0 <= M) by lra. assert (uM : 0 <= u * M) by (apply Rmult_le_pos; lra).
  assert (V : - (2 * (u * M)) <= s * e <= 2 * (u * M)) by (split; nra). apply Rabs_le_inv in E1. assert (X : u * (s + s * e) <= 2 * (u * M) + / 8 * (u * M)) by nra. set (m := u * M) in *.
  assert (P : - (5 * m + t) <= p - s <= 5 * m + t) by lra. assert (G : Rabs (p + b) <= M + 5 * m + t) by (apply Rabs_le; lra). assert (H : u * Rabs (p + b) <= m + / 16 * (5 * m + t)).
  { apply Rle_trans with (u * (M + (5 * m + t))); [apply Rmult_le_compat_l; lra|]. rewrite Rmult_plus_distr_l. fold m. apply Rplus_le_compat_l, Rmult_le_compat_r; lra. }
  apply Rabs_le_inv in E2. replace (8 * u * M) with (8 * m) by (unfold m; ring). apply Rabs_le. split; lra. Qed.
Print Assumptions C157_restored_value.
Example C157_value_example : moderate f03 /\ moderate f09 /\ b64R f03 < b64R f09 /\ b64fin (sub64 f09 f03) = true /\ b64fin f01 = true /\ 0 <= b64R f01 <= 1.
Proof. destruct C157_example as (A & B & C & _). split; [exact A|]. split; [exact B|]. split; [exact C|]. split; [reflexivity|]. split; [reflexivity|vm_compute; lra]. Qed.
