(** Properties C157, C158 and the double precision theorems of C15, C16, C52 and C71 *)
From Coq Require Import Reals ZArith Lia Lra List.
From Flocq Require Import Core IEEE754.BinarySingleNaN IEEE754.Binary IEEE754.Bits.
From Verif Require Import Float64 Double_Model Double_Spec Double_Proofs.
Import ListNotations.
Local Open Scope R_scope.

(** 0.3, 0.9, 1, 0.6 … as Python writes them *)
Definition f03 : binary64 := b64_of_bits 4599075939470750515.
Definition f09 : binary64 := b64_of_bits 4606281698874543309.
Definition f1 : binary64 := b64_of_bits 4607182418800017408.
Definition f01 : binary64 := b64_of_bits 4591870180066957722.

Ltac moderate_tac := split; [reflexivity|]; match goal with |- Rabs ?x <= _ => let y := eval vm_compute in x in change x with y end; simple_bound
with simple_bound := apply Rle_trans with (bpow radix2 3); [unfold F2R; simpl; try rewrite Rabs_pos_eq; try rewrite Rabs_left; lra|apply bpow_le; lia].

(** ** C157 *)
Theorem C157_at_least_minimum lo hi y : moderate lo -> moderate hi -> b64R lo < b64R hi -> b64fin y = true -> 0 <= b64R y <= 1 ->
  b64fin (b64_restore lo hi y) = true /\ b64R lo <= b64R (b64_restore lo hi y) <= b64R hi + 4 * eps64 * extent lo hi.
Proof. intros [A B] [D E] L Fy Hy. split; [apply (restore_value lo hi); assumption|]. split; [apply restore_lower; assumption|apply restore_upper; assumption]. Qed.
Print Assumptions C157_at_least_minimum.

Theorem C157_monotone lo hi y z : moderate lo -> moderate hi -> b64R lo < b64R hi -> b64fin y = true -> b64fin z = true ->
  0 <= b64R y -> b64R y <= b64R z -> b64R z <= 1 -> b64R (b64_restore lo hi y) <= b64R (b64_restore lo hi z).
Proof. intros [A B] [D E] L. apply restore_monotone; assumption. Qed.
Print Assumptions C157_monotone.

Theorem C157_round_trip lo hi x : moderate lo -> moderate hi -> b64R lo < b64R hi -> b64fin x = true -> b64R lo <= b64R x <= b64R hi ->
  Rabs (b64R (b64_restore lo hi (b64_normalize lo hi x)) - b64R x) <= bpow radix2 (-50) * extent lo hi + bpow radix2 (-1070) * (1 + extent lo hi).
Proof. intros [A B] [D E] L. apply roundtrip; assumption. Qed.
Print Assumptions C157_round_trip.

Theorem C157_minimum lo hi : moderate lo -> moderate hi -> b64R lo < b64R hi -> b64R (b64_restore lo hi (b64_normalize lo hi lo)) = b64R lo.
Proof. intros [A B] [D E] L. destruct (span_eq lo hi A D L B E) as (_ & Fs & _).
  destruct (normalize64 lo hi A D L Fs) as (N & Z & _). destruct (N lo A) as [F _]; [lra|]. apply restore_zero; assumption. Qed.
Print Assumptions C157_minimum.

(** The range from 0.3 to 0.9: the restored maximum is 0.9000000000000001. *)
Theorem C157_range_refuted : exists lo hi, moderate lo /\ moderate hi /\ b64R lo < b64R hi /\ b64R (b64_normalize lo hi hi) = 1 /\
  b64R hi < b64R (b64_restore lo hi (b64_normalize lo hi hi)).
Proof. exists f03, f09. split; [moderate_tac|]. split; [moderate_tac|]. assert (L : b64R f03 < b64R f09) by (apply lt64_spec; reflexivity).
  split; [exact L|]. split; [apply (normalize64 f03 f09 eq_refl eq_refl L eq_refl)|apply lt64_spec; reflexivity]. Qed.
Print Assumptions C157_range_refuted.

Example C157_example : moderate f03 /\ moderate f09 /\ b64R f03 < b64R f09 /\ bits_of_b64 (b64_restore f03 f09 f01) = 4600156803381319434%Z.
Proof. split; [moderate_tac|]. split; [moderate_tac|]. split; [apply lt64_spec; reflexivity|]. vm_compute. reflexivity. Qed.

(** ** C158 *)
Theorem C158_exact_at_points x0 y0 x1 y1 : b64fin x0 = true -> b64fin y0 = true -> b64fin (b64_slope x0 y0 x1 y1) = true ->
  b64fin (b64_between x0 y0 x1 y1 x0) = true /\ b64R (b64_between x0 y0 x1 y1 x0) = b64R y0.
Proof. exact (between_left x0 y0 x1 y1). Qed.
Print Assumptions C158_exact_at_points.

(** To the right of the left point the values stay on the side of the right one, and follow the order of the positions. *)
Theorem C158_sides x0 y0 x1 y1 x : no_overflow x0 y0 x1 y1 x -> b64R x0 < b64R x1 -> b64R x0 <= b64R x ->
  (b64R y0 <= b64R y1 -> b64R y0 <= b64R (b64_between x0 y0 x1 y1 x)) /\ (b64R y1 <= b64R y0 -> b64R (b64_between x0 y0 x1 y1 x) <= b64R y0).
Proof. exact (between_sides x0 y0 x1 y1 x). Qed.
Print Assumptions C158_sides.
Theorem C158_monotone x0 y0 x1 y1 x x' : no_overflow x0 y0 x1 y1 x -> no_overflow x0 y0 x1 y1 x' -> b64R x0 < b64R x1 -> b64R x <= b64R x' ->
  (b64R y0 <= b64R y1 -> b64R (b64_between x0 y0 x1 y1 x) <= b64R (b64_between x0 y0 x1 y1 x')) /\ (b64R y1 <= b64R y0 -> b64R (b64_between x0 y0 x1 y1 x') <= b64R (b64_between x0 y0 x1 y1 x)).
Proof. exact (between_monotone x0 y0 x1 y1 x x'). Qed.
Print Assumptions C158_monotone.

(** Between (0.17, -5.9) and (0.44000000000000006, -0.6) the value at 0.44 is -0.5999999999999996. *)
Theorem C158_between_refuted : exists x0 y0 x1 y1 x, b64R x0 < b64R x < b64R x1 /\ b64R y0 < b64R y1 /\ b64fin (b64_slope x0 y0 x1 y1) = true /\
  b64R y1 < b64R (b64_between x0 y0 x1 y1 x).
Proof. exists (b64_of_bits 4595292915783759299), (b64_of_bits 13841700864732535194), (b64_of_bits 4601597955262077994), (b64_of_bits 13826951575952896819), (b64_of_bits 4601597955262077993).
  repeat split; (apply lt64_spec; reflexivity) || reflexivity. Qed.
Print Assumptions C158_between_refuted.

Example C158_example : b64fin (b64_slope f03 f1 f09 f01) = true /\ no_overflow f03 f1 f09 f01 f09 /\ b64R f03 < b64R f09.
Proof. split; [reflexivity|]. split; [unfold no_overflow; repeat split|apply lt64_spec; reflexivity]. Qed.

(** ** C15 *)
Theorem C15_double_precision n f : (Z.of_nat n <= 2 ^ 53)%Z -> 0 <= f <= 1 ->
  (0 <= b64_bolster n f)%Z /\ (0 <= b64_uniform n f)%Z /\ (b64_bolster n f + b64_uniform n f + b64_bolster n f = Z.of_nat n)%Z.
Proof. intros Hn Hf. destruct (bolster_bounds n f Hn Hf) as [A B]. split; [exact A|]. split; [exact B|]. unfold b64_uniform. lia. Qed.
Print Assumptions C15_double_precision.

(** ** C16 *)
Theorem C16_double_precision lo hi v : moderate lo -> moderate hi -> moderate v -> b64R lo <= b64R hi ->
  let w := b64R (b64_fold lo hi v) in b64fin (b64_fold lo hi v) = true /\
  (b64R v < b64R lo -> b64R lo <= w /\ ((b64R lo - b64R v) * (1 + 2 * eps64) <= b64R hi - b64R lo -> w <= b64R hi)) /\
  (b64R hi < b64R v -> w <= b64R hi /\ ((b64R v - b64R hi) * (1 + 2 * eps64) <= b64R hi - b64R lo -> b64R lo <= w)) /\
  (b64R lo <= b64R v <= b64R hi -> w = b64R v).
Proof. intros [A B] [D E] [F G] L w. assert (U2 : bpow radix2 (-52) = 2 * eps64) by (unfold eps64; change (-52)%Z with (1 + -53)%Z; rewrite bpow_plus; reflexivity).
  rewrite <- U2. unfold w. destruct (Rlt_le_dec (b64R v) (b64R lo)) as [X|X]; [|destruct (Rlt_le_dec (b64R hi) (b64R v)) as [Y|Y]].
  - destruct (fold_below lo hi v A D F B G X) as (P & Q & R). repeat split; try assumption; intros; lra.
  - destruct (fold_above lo hi v A D F E G L Y) as (P & Q & R). repeat split; try assumption; intros; lra.
  - rewrite (fold_inside lo hi v A D F) by lra. repeat split; try assumption; intros; lra. Qed.
Print Assumptions C16_double_precision.

(** ** C52 *)
Theorem C52_double_precision m l : In m l -> 0 < b64R m -> Forall (fun x => b64fin x = true /\ 0 <= b64R x <= b64R m) l ->
  Forall (fun y => b64fin y = true /\ 0 <= b64R y <= 1) (b64_normalize_to m l) /\ Exists (fun y => b64R y = 1) (b64_normalize_to m l) /\
  (forall i j x x' y y', nth_error l i = Some x -> nth_error l j = Some x' -> nth_error (b64_normalize_to m l) i = Some y -> nth_error (b64_normalize_to m l) j = Some y' ->
     b64R x <= b64R x' -> b64R y <= b64R y').
Proof. exact (normalize_max m l). Qed.
Print Assumptions C52_double_precision.

(** ** C71 *)
Theorem C71_double_precision b v : b64fin b = true -> moderate v -> 0 <= b64R b <= 1 ->
  let lower := fst (b64_limits b v) in let upper := snd (b64_limits b v) in
  b64fin lower = true /\ b64fin upper = true /\ b64R lower <= b64R v <= b64R upper /\
  (bpow radix2 (-52) <= b64R b -> bpow radix2 (-900) <= Rabs (b64R v) -> b64R lower < b64R upper).
Proof. intros Fb [Fv Mv] Hb lower upper. assert (B : 1 <= bpow radix2 20) by (simpl; lra).
  destruct (limits_inside b v Fb Fv ltac:(lra) Mv) as (X & Y & Z & _). split; [exact X|]. split; [exact Y|]. split; [exact Z|].
  intros H K. apply limits_distinct; try assumption; lra. Qed.
Print Assumptions C71_double_precision.

Example double_examples : 0 <= b64R f01 <= 1 /\ moderate f09 /\ bits_of_b64 (fst (b64_limits f01 f09)) = 4605471050941616620%Z.
Proof. split; [|split; [moderate_tac|vm_compute; reflexivity]]. change (b64R f01) with (F2R (Float radix2 7205759403792794 (-56))). unfold F2R; simpl. lra. Qed.
