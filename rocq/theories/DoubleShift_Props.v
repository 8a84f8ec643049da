(** Property C196: shifted q values in double precision. *)
From Coq Require Import Reals ZArith Lia Lra Psatz List.
From Flocq Require Import Core IEEE754.BinarySingleNaN IEEE754.Binary IEEE754.Bits.
From Verif Require Import Float64 Double_Model Double_Spec Double_Proofs Double_Props DoubleMse_Proofs DoubleDraw_Props DoubleUnits_Proofs DoubleShift_Model.
Import ListNotations.
Local Open Scope R_scope.

Definition finite (l : list binary64) : Prop := Forall (fun x => b64fin x = true) l.
Lemma shifted_value d q i x y : finite (b64_shifted d q) -> nth_error q i = Some x -> nth_error (b64_shifted d q) i = Some y -> b64R y = rnd64 (b64R x + b64R d) /\ exists e, Rabs e <= eps64 /\ b64R y = (b64R x + b64R d) * (1 + e).
Proof. intros F X Y. assert (Fy : b64fin y = true) by (unfold finite in F; rewrite Forall_forall in F; apply F, (nth_error_In _ i), Y). unfold b64_shifted in Y. rewrite (map_nth_error _ _ _ X) in Y. injection Y as <-. destruct (add_finite _ _ Fy) as [A B]. rewrite (plus_value _ _ A B Fy).
  split; [reflexivity|]. destruct (rnd_sum x d) as (e & H & E). exists e. split; [exact H|exact E]. Qed.

(** ** C196 *)
(** Without overflow every shifted position is the exact one up to one rounding, and positions never change their order. *)
Theorem C196_order d q i j x x' y y' : finite (b64_shifted d q) -> nth_error q i = Some x -> nth_error q j = Some x' -> nth_error (b64_shifted d q) i = Some y -> nth_error (b64_shifted d q) j = Some y' ->
  Rabs (b64R y - (b64R x + b64R d)) <= bpow radix2 (-53) * Rabs (b64R x + b64R d) /\ (b64R x <= b64R x' -> b64R y <= b64R y').
Proof. intros F X X' Y Y'. destruct (shifted_value d q i x y F X Y) as [E (e & H & V)]. destruct (shifted_value d q j x' y' F X' Y') as [E' _]. split; [|intros L; rewrite E, E'; apply rnd64_le; lra].
  rewrite V. replace ((b64R x + b64R d) * (1 + e) - (b64R x + b64R d)) with (e * (b64R x + b64R d)) by ring. rewrite Rabs_mult. apply Rmult_le_compat_r; [apply Rabs_pos|exact H]. Qed.
Print Assumptions C196_order.
(** There is one shifted position for every position, and none overflows below 2^1022. *)
Theorem C196_all d q : b64fin d = true -> Rabs (b64R d) <= bpow radix2 1022 -> finite q -> Forall (fun x => Rabs (b64R x) <= bpow radix2 1022) q ->
  List.length (b64_shifted d q) = List.length q /\ finite (b64_shifted d q).
Proof. intros Fd Bd Fq Bq. unfold b64_shifted, finite in *. split; [apply map_length|]. rewrite Forall_forall in *. intros y Hy. apply in_map_iff in Hy as (x & <- & Hx). specialize (Fq x Hx). specialize (Bq x Hx).
  apply b64_plus_finite; [exact Fq|exact Fd|]. assert (B : Rabs (b64R x + b64R d) <= bpow radix2 1023).
  { apply Rle_trans with (1 := Rabs_triang _ _). change 1023%Z with (1 + 1022)%Z. rewrite bpow_plus. change (bpow radix2 1) with 2. lra. }
  assert (P : rnd64 (bpow radix2 1023) = bpow radix2 1023) by (apply rnd_bpow; lia). assert (N : rnd64 (- bpow radix2 1023) = - bpow radix2 1023) by (unfold rnd64 in *; rewrite round_NE_opp, P; reflexivity).
  apply Rabs_le_inv in B. apply Rle_lt_trans with (bpow radix2 1023); [|apply bpow_lt; lia]. apply Rabs_le. split; [rewrite <- N|rewrite <- P]; apply rnd64_le; lra. Qed.
Print Assumptions C196_all.
(** Positions that are farther apart than the rounding errors stay different, as np.interp needs, *)
Theorem C196_strict d q i j x x' y y' m : finite (b64_shifted d q) -> nth_error q i = Some x -> nth_error q j = Some x' -> nth_error (b64_shifted d q) i = Some y -> nth_error (b64_shifted d q) j = Some y' ->
  Rabs (b64R x) <= m -> Rabs (b64R x') <= m -> bpow radix2 (-52) * (m + Rabs (b64R d)) < b64R x' - b64R x -> b64R y < b64R y'.
Proof. intros F X X' Y Y' M M' L. destruct (C196_order d q i i x x y y F X X Y Y) as [E _]. destruct (C196_order d q j j x' x' y' y' F X' X' Y' Y') as [E' _]. pose proof (Rabs_triang (b64R x) (b64R d)). pose proof (Rabs_triang (b64R x') (b64R d)).
  pose proof eps_small as S. fold eps64 in E, E'. change (-52)%Z with (1 + -53)%Z in L. rewrite bpow_plus in L. fold eps64 in L. simpl (bpow radix2 1) in L. apply Rabs_le_inv in E, E'. nra. Qed.
Print Assumptions C196_strict.
(** closer ones can fall together. *)
Theorem C196_merged : exists d x x' y y', b64R x < b64R x' /\ b64_shifted d [x; x'] = [y; y'] /\ finite [y; y'] /\ b64R y = b64R y'.
Proof. exists f1, f1, f1_next. do 2 eexists. split; [apply lt64_spec; reflexivity|]. split; [reflexivity|]. split; [repeat constructor|]. f_equal. apply B2FF_inj. vm_compute. reflexivity. Qed.
Print Assumptions C196_merged.
Example C196_example : finite (b64_shifted f01 [f03; f09]) /\ Rabs (b64R f03) <= 1 /\ Rabs (b64R f09) <= 1 /\ bpow radix2 (-52) * (1 + Rabs (b64R f01)) < b64R f09 - b64R f03.
Proof. assert (A : 0 <= b64R f03 <= 4 / 10) by (vm_compute; lra). assert (B : 8 / 10 <= b64R f09 <= 1) by (vm_compute; lra). assert (C : 0 <= b64R f01 <= 1) by (vm_compute; lra). rewrite !Rabs_pos_eq by lra. split; [repeat constructor|]. split; [lra|]. split; [lra|].
  change (bpow radix2 (-52)) with (/ 4503599627370496). lra. Qed.
Example C196_all_example : b64fin f01 = true /\ Rabs (b64R f01) <= bpow radix2 1022 /\ finite [f03; f09] /\ Forall (fun x => Rabs (b64R x) <= bpow radix2 1022) [f03; f09].
Proof. assert (B : 1 <= bpow radix2 1022) by (change 1 with (bpow radix2 0); apply bpow_le; lia). assert (V1 : 0 <= b64R f01 <= 1) by (vm_compute; lra). assert (V3 : 0 <= b64R f03 <= 1) by (vm_compute; lra). assert (V9 : 0 <= b64R f09 <= 1) by (vm_compute; lra).
  split; [reflexivity|]. split; [rewrite Rabs_pos_eq; lra|]. split; [repeat constructor|]. constructor; [rewrite Rabs_pos_eq; lra|]. constructor; [rewrite Rabs_pos_eq; lra|]. constructor. Qed.
