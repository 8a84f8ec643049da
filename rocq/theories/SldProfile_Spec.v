(** Vocabulary for statements about scattering length density profiles. *)
From Coq Require Import Reals Lra.
From Coquelicot Require Import Complex.
From Verif Require Import Py Str Sample_Model Sampling_Model Simulation_Model Simulation_Spec SldProfile_Model.
Local Open Scope R_scope.

(** The facts about the error function that are used *)
Record erf_ok (erf : R -> R) : Prop := {
  erf_bound : forall x, -1 <= erf x <= 1;
  erf_mono : forall x y, x <= y -> erf x <= erf y;
  erf_odd : forall x, erf (- x) = - erf x
}.

(** Cumulative normal distribution with standard deviation [s] *)
Definition normal_cdf (erf : R -> R) (s x : R) : R := (1 + erf (x / (s * sqrt 2))) / 2.

(** An interface: its height, its width and the SLDs below and above it *)
Record interface := mkInterface { i_height : R; i_width : R; i_below : R; i_above : R }.

(** The interfaces of a stack from bottom to top: the interface above [below] is at height [h]. *)
Fixpoint stack_interfaces (h below : R) (films : list (R * R)) (widths : list R) (amb : R) : list interface :=
  match films, widths with
  | (d, rho) :: films', w :: widths' => mkInterface h w below rho :: stack_interfaces (h + d) rho films' widths' amb
  | [], w :: _ => [mkInterface h w below amb]
  | _, [] => []
  end.

Definition total (xs : list R) : R := fold_right Rplus 0 xs.

(** The profile: substrate value plus smoothed steps *)
Definition profile_value (erf : R -> R) (sub : R) (is : list interface) (z : R) : R :=
  sub + total (map (fun i => (i_above i - i_below i) * normal_cdf erf (i_width i) (z - i_height i)) is).

(** Total contrast weighted by the tails that reach below (above) height [z] *)
Definition lower_tail (erf : R -> R) (is : list interface) (z : R) : R :=
  total (map (fun i => Rabs (i_above i - i_below i) * normal_cdf erf (i_width i) (z - i_height i)) is).
Definition upper_tail (erf : R -> R) (is : list interface) (z : R) : R :=
  total (map (fun i => Rabs (i_above i - i_below i) * (1 - normal_cdf erf (i_width i) (z - i_height i))) is).

(** The profile of row [i] of a label table *)
Definition row_profile (erf : R -> R) (T Ru Sl : cols) (i : nat) : res (list R * list (option R)) :=
  match entries i Sl with
  | sub :: rest => make_sld_profile erf (map fst (entries i T)) (removelast rest) (map fst (entries i Ru)) sub (last rest sub)
  | [] => Raise IndexError
  end.
