(** Vocabulary for statements about what a curve tells: stacks of layers that scatter in the same way.  Lengths are in Å and scattering
    length densities in 1e-6 1/Å², like the labels. *)
From Coq Require Import Reals.
From Coquelicot Require Import Complex.
From Verif Require Import Py Str Sample_Model Sampling_Model Reflectivity_Spec.
Local Open Scope R_scope.

(** Two stacks that differ in interfaces between equal materials only: a film may be cut in two at any depth, with any roughness of the cut,
    and the uppermost part of the substrate may be taken for a film. *)
Inductive indistinct : stack -> stack -> Prop :=
| ind_same s : indistinct s s
| ind_sym s s' : indistinct s s' -> indistinct s' s
| ind_trans s s' s'' : indistinct s s' -> indistinct s' s'' -> indistinct s s''
| ind_cut above d1 d2 sigma tau rho below sub_sigma sub : 0 <= Im rho ->
    indistinct (mkStack (above ++ mkFilm d1 sigma rho :: mkFilm d2 tau rho :: below) sub_sigma sub)
               (mkStack (above ++ mkFilm (d1 + d2) sigma rho :: below) sub_sigma sub)
| ind_substrate above d sigma tau rho : 0 <= Im rho ->
    indistinct (mkStack (above ++ [mkFilm d sigma rho]) tau rho) (mkStack above sigma rho).
