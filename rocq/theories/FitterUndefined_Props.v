(** Property C68: the selection for a curve with values that have no logarithm. *)
From Coq Require Import Reals Lra Lia.
From Coquelicot Require Import Complex.
From Verif Require Import Py Str Sample_Model Sample_Spec Rng Sampling_Model Sampling_Spec Sampling_Proofs Simulation_Model Interp_Model Arr Preproc_Model Preproc_Spec
  Training_Props Fitter_Model Fitter_Spec Fitter_Proofs Fitter_Props FileFitter_Spec FitterUndefined_Proofs.
Local Open Scope R_scope.

(** If the curve has a value in the trained range that is not positive, no error is defined, and the first variant is taken whatever the network predicts.
    [pick] is numpy's argmin of values that are not all finite; it is only assumed to take the first one if none of them is a number. *)
Theorem C68_undefined_shift S (g : rng S) refl1d pick cf m names s curve q o s' out : rng_ok g -> pick_ok pick -> fittable refl1d (nn_sample m) -> network_ok m names ->
  (forall l, l <> [] -> Forall (fun e => e = None) l -> pick l = 0%nat) -> valid_input curve q -> samples_ok o -> fit_curve g refl1d pick cf m s curve q o = Ok (s', out) -> o_opt_q o = true ->
  exists ds, fo_shift out = Some ds /\ Forall2 (fun c d => forall ref, interp_reflectivity (nn_q m) q c = Ok ref -> Exists not_positive ref ->
    exists s0 s1 ds', np_normal g s0 0 (1/1000) (o_nq o) = Ok (s1, d :: ds')) (curves_of curve) ds.
Proof. exact (fun G P F N Pn => shift_first g G refl1d pick P cf m names F N Pn s curve q o s' out). Qed.
Print Assumptions C68_undefined_shift.
Theorem C68_undefined_scaling S (g : rng S) refl1d pick cf m names s curve q o s' out : rng_ok g -> pick_ok pick -> fittable refl1d (nn_sample m) -> network_ok m names ->
  (forall l, l <> [] -> Forall (fun e => e = None) l -> pick l = 0%nat) -> valid_input curve q -> samples_ok o -> fit_curve g refl1d pick cf m s curve q o = Ok (s', out) -> o_opt_scale o = true ->
  exists ks lo hi, fo_scaling out = Some ks /\ nearest_window m q lo hi /\ forall i c k, nth_error (curves_of curve) i = Some c -> nth_error ks i = Some k -> Exists not_positive (part lo hi c) ->
    exists s0 s1 ks', np_normal g s0 1 (1/10) (o_ns o) = Ok (s1, k :: ks').
Proof. exact (fun G P F N Pn => scaling_first g G refl1d pick P cf m names F N Pn s curve q o s' out). Qed.
Print Assumptions C68_undefined_scaling.
(** A negative second point *)
Example C68_undefined_example : exists s' out, (forall l : list fl, l <> [] -> Forall (fun e => e = None) l -> ex_pick l = 0%nat) /\
  fit_curve wild_rng None ex_pick ex_cf ex_nn 0%nat (A1 [Some 1; Some (-1)]) [1; 2] (mkOptions 0 1 false [1/2; 1/2; 1/10] true 2 true 2 true) = Ok (s', out) /\
  Exists not_positive (part 0 2 [Some 1; Some (-1)]) /\ part 0 2 [Some 1; Some (-1)] = [Some 1; Some (-1)].
Proof. destruct (C66_succeeds_without_polishing_partial nat wild_rng None ex_pick ex_cf ex_nn ex_names 0%nat (A1 [Some 1; Some (-1)]) [1; 2] (mkOptions 0 1 false [1/2; 1/2; 1/10] true 2 true 2 true) wild_rng_ok ex_pick_ok ex_fittable ex_network) as (s' & out & E & _).
  { split; [discriminate|]. split; [discriminate|]. split; [repeat constructor|exact I]. }
  { split; intros _; simpl; lia. }
  { reflexivity. }
  exists s', out. split; [reflexivity|]. split; [exact E|]. split; [|reflexivity]. right. left. cbn. lra. Qed.
