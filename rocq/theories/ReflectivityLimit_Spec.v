(** Vocabulary for limits of reflectivities: stacks whose parameters converge. *)
From Coq Require Import Reals List.
From Coquelicot Require Import Complex Hierarchy.
From Verif Require Import Reflectivity_Spec.
Import ListNotations.
Local Open Scope R_scope.

(** Convergence along a filter on the index type [T] (sequences, neighbourhoods of a point, …) *)
Definition tends {T} (F : (T -> Prop) -> Prop) (u : T -> R) (l : R) : Prop := filterlim u F (locally l).
Definition ctends {T} (F : (T -> Prop) -> Prop) (u : T -> C) (l : C) : Prop :=
  tends F (fun t => Re (u t)) (Re l) /\ tends F (fun t => Im (u t)) (Im l).
Definition film_tends {T} (F : (T -> Prop) -> Prop) (u : T -> film) (f : film) : Prop :=
  tends F (fun t => f_thickness (u t)) (f_thickness f) /\ tends F (fun t => f_roughness (u t)) (f_roughness f) /\
  ctends F (fun t => f_sld (u t)) (f_sld f).
(** Same number of films, each with converging parameters *)
Fixpoint films_tend {T} (F : (T -> Prop) -> Prop) (u : T -> list film) (fs : list film) : Prop :=
  match fs with
  | [] => forall t, u t = []
  | f :: fs' => exists v w, (forall t, u t = v t :: w t) /\ film_tends F v f /\ films_tend F w fs'
  end.
Definition stack_tends {T} (F : (T -> Prop) -> Prop) (u : T -> stack) (s : stack) : Prop :=
  films_tend F (fun t => s_films (u t)) (s_films s) /\ tends F (fun t => s_roughness (u t)) (s_roughness s) /\
  ctends F (fun t => s_sld (u t)) (s_sld s).
