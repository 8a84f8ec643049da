(** Vocabulary for the decay of the reflectivity: total variation of the scattering length density. *)
From Coq Require Import Reals.
From Coquelicot Require Import Complex.
From Verif Require Import Py Cplx Reflectivity_Spec.
Local Open Scope R_scope.

(** Sum of the steps of the scattering length density from [above] down to the substrate *)
Fixpoint variation_below (above : C) (fs : list film) (sld : C) : R :=
  match fs with
  | [] => Cmod (above - sld)%C
  | f :: fs' => Cmod (above - f_sld f)%C + variation_below (f_sld f) fs' sld
  end.

(** … from the vacuum above the stack *)
Definition variation (s : stack) : R := variation_below 0 (s_films s) (s_sld s).

(** No film has a negative thickness. *)
Definition solid (s : stack) : Prop := Forall (fun f => 0 <= f_thickness f) (s_films s).

(** Critical momentum transfer of a medium with real scattering length density: below it no wave propagates. *)
Definition below_edge (q rho : R) : Prop := 0 < q /\ q * q < 16 * PI * rho.
(** Damping of the evanescent wave *)
Definition evanescence (q rho : R) : R := sqrt (4 * PI * rho - (q / 2) * (q / 2)).

(** How much of a wave comes back through a film of thickness [d] and scattering length density [rho], at most *)
Definition veil (q d : R) (rho : C) : R := (1 + 2 * (- Im (wave q rho) / Re (wave q rho))) * exp (2 * Im (wave q rho) * d).
