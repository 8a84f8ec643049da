(** Properties C52 and C192: the values of normalised and rescaled curves in double precision. *)
From Coq Require Import Reals ZArith Lia Lra Psatz List.
From Flocq Require Import Core IEEE754.BinarySingleNaN IEEE754.Binary IEEE754.Bits.
From Verif Require Import Float64 FloatTrain Double_Model Double_Spec Double_Proofs Double_Props DoubleMse_Proofs DoubleUnits_Model DoubleUnits_Proofs DoubleUnits_Props.
Import ListNotations.
Local Open Scope R_scope.

Lemma tiny_error x : 0 <= x -> Rabs (rnd64 x - x) <= bpow radix2 (-53) * x + bpow radix2 (-1075).
Proof. intros H. pose proof (rnd64_error x) as E. rewrite (Rabs_pos_eq x H) in E. exact E. Qed.
Lemma quotient_range x m : 0 < m -> 0 <= x <= m -> 0 <= x / m <= 1.
Proof. intros P H. split; [apply Rmult_le_pos; [lra|left; apply Rinv_0_lt_compat; exact P]|]. apply Rmult_le_reg_r with m; [exact P|]. unfold Rdiv. rewrite Rmult_assoc, Rinv_l by lra. lra. Qed.

(** ** C52 *)
(** A normalised curve has one value for every value of the curve, and each is the exact quotient up to one rounding. *)
Theorem C52_double_value m l : In m l -> 0 < b64R m -> Forall (fun x => b64fin x = true /\ 0 <= b64R x <= b64R m) l ->
  Forall2 (fun x y => b64fin y = true /\ Rabs (b64R y - b64R x / b64R m) <= bpow radix2 (-53) * (b64R x / b64R m) + bpow radix2 (-1075)) l (b64_normalize_to m l).
Proof. intros I P A. assert (Fm : b64fin m = true) by (rewrite Forall_forall in A; apply A, I). clear I. unfold b64_normalize_to. induction A as [|x l [Fx Hx] A IH]; constructor; [|exact IH].
  destruct (normalize_to_one m x Fm Fx P Hx) as (F & _ & ->). split; [exact F|]. apply tiny_error, quotient_range; [exact P|exact Hx]. Qed.
Print Assumptions C52_double_value.

(** ** C192 *)
(** A rescaled curve has one value for every value of the curve, and each is the exact one up to two roundings. *)
Theorem C192_value m m0 l : 0 < b64R m -> b64fin m0 = true -> 0 <= b64R m0 -> Forall (fun x => b64fin x = true /\ 0 <= b64R x <= b64R m) l ->
  Forall2 (fun x y => let z := b64R x / b64R m * b64R m0 in b64fin y = true /\ Rabs (b64R y - z) <= bpow radix2 (-51) * z + bpow radix2 (-1074) * (b64R m0 + 1)) l (b64_rescale m m0 l).
Proof. intros P F P0 A. unfold b64_rescale. induction A as [|x l [Fx Hx] A IH]; constructor; [|exact IH]. destruct (rescale_value m m0 P F P0 x Fx Hx) as (G & U & -> & _). split; [exact G|].
  pose proof (quotient_range _ _ P Hx) as Q. set (q := b64R x / b64R m) in *. set (k := b64R m0) in *. set (r := rnd64 q) in *. pose proof (tiny_error q ltac:(lra)) as E. fold r in E. pose proof (tiny_error (r * k) ltac:(nra)) as E'.
  change (-51)%Z with (2 + -53)%Z. change (-1074)%Z with (1 + -1075)%Z. rewrite !bpow_plus. change (bpow radix2 2) with 4. change (bpow radix2 1) with 2.
  assert (B : bpow radix2 (-53) <= / 4) by (change (/ 4) with (bpow radix2 (-2)); apply bpow_le; lia). pose proof (bpow_gt_0 radix2 (-53)) as B0. pose proof (bpow_gt_0 radix2 (-1075)) as T0. set (u := bpow radix2 (-53)) in *. set (t := bpow radix2 (-1075)) in *.
  apply Rabs_le_inv in E, E'. assert (D : - ((u * q + t) * k) <= r * k - q * k <= (u * q + t) * k) by (split; nra). assert (W : u * (r * k) <= u * (q * k) + u * ((u * q + t) * k)) by (rewrite <- Rmult_plus_distr_l; apply Rmult_le_compat_l; lra).
  assert (K : u * ((u * q + t) * k) <= / 4 * ((u * q + t) * k)) by (apply Rmult_le_compat_r; [apply Rmult_le_pos; [|exact P0]; nra|exact B]). assert (0 <= u * (q * k)) by (apply Rmult_le_pos; [lra|apply Rmult_le_pos; lra]). assert (0 <= t * k) by (apply Rmult_le_pos; lra).
  apply Rabs_le. replace ((u * q + t) * k) with (u * (q * k) + t * k) in * by ring. lra. Qed.
Print Assumptions C192_value.
(** The hypotheses are those of [C192_example]. *)
Example C192_value_example : In f09 [f03; f09; f01] /\ 0 < b64R f09 /\ b64fin f1 = true /\ 0 <= b64R f1 /\ Forall (fun x => b64fin x = true /\ 0 <= b64R x <= b64R f09) [f03; f09; f01].
Proof. exact C192_example. Qed.
