(** Vocabulary for statements about noise. *)
From Coq Require Import Reals Lra.
From Verif Require Import Py Arr NRng Noise_Model.
Local Open Scope R_scope.

(** The curves of a one- or two-dimensional array *)
Definition curves (a : arr) : list (list fl) := match a with A1 v => [v] | A2 _ rows => rows end.

(** All entries of the array are numbers satisfying [P]. *)
Definition all_values (P : R -> Prop) (a : arr) : Prop := Forall (Forall (fun x => exists r, x = Some r /\ P r)) (curves a).

(** A usable noise level: a non-negative number or a pair of positive numbers *)
Definition usable_level (lv : level) : Prop :=
  match lv with LvNum x => 0 <= x | LvTuple [lo; hi] => 0 < lo /\ 0 < hi | _ => False end.
Definition positive_level (lv : level) : Prop :=
  match lv with LvNum x => 0 < x | LvTuple [lo; hi] => 0 < lo /\ 0 < hi | _ => False end.
(** Values that the level allows *)
Definition allowed (lv : level) (x : R) : Prop :=
  match lv with LvNum y => x = y | LvTuple [lo; hi] => Rmin lo hi <= x <= Rmax lo hi | _ => False end.
Definition highest (lv : level) : R :=
  match lv with LvNum y => y | LvTuple [lo; hi] => Rmax lo hi | _ => 0 end.

(** The noisy curve [r'] consists of normal draws around the curve [r] with standard deviation sqrt(I * k), cut at 1e-16. *)
Definition shot_noise_of {S} (g : nrng S) (r : list fl) (k : R) (r' : list fl) : Prop :=
  exists s, r' = map (option_map (Rmax (1 / 10 ^ 16))) (snd (nr_normals g s (map (fun c => (c, fsqrt (fmul c (Some k)))) r))).
(** ... of Poisson counts of rate I * k, divided by k. *)
Definition poisson_noise_of {S} (g : nrng S) (r : list fl) (k : R) (r' : list fl) : Prop :=
  exists s rates, map (fun c => fmul c (Some k)) r = map Some rates /\
    r' = map (fun n => Some (Rmax (1 / 10 ^ 16) (INR n / k))) (snd (nr_poisson g s rates)).

(** Curve by curve and spread by spread *)
Definition each_curve (P : list fl -> R -> list fl -> Prop) (a : arr) (ks : list R) (b : arr) : Prop :=
  Forall2 (fun rk r' => P (fst rk) (snd rk) r') (combine (curves a) ks) (curves b).

(** [b] is [a] with each curve multiplied by its own factor. *)
Definition scaled_by (ks : list R) (a b : arr) : Prop :=
  List.length ks = List.length (curves a) /\
  each_curve (fun r k r' => r' = map (fun x => option_map (fun v => v * k) x) r) a ks b.

(** A matrix with [n] rows of length [k] *)
Definition is_matrix {A} (n k : nat) (m : list (list A)) : Prop := List.length m = n /\ Forall (fun r => List.length r = k) m.

(** The curve [r'] is [r] with every point multiplied by its own factor between [lo] and [hi]. *)
Definition point_factors (lo hi : R) (r r' : list fl) : Prop :=
  exists us, List.length us = List.length r /\ Forall (fun u => Rmin lo hi <= u <= Rmax lo hi) us /\ List.length r' = List.length r /\
    forall i x u, nth_error r i = Some x -> nth_error us i = Some u -> nth_error r' i = Some (option_map (fun v => v * u) x).
