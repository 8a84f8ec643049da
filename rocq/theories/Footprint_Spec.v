(** Vocabulary for footprints, scans and range getters. *)
From Coq Require Import Reals Lra.
From Verif Require Import Py Arr.
Local Open Scope R_scope.

(** [m] is the maximum (minimum) of [l] *)
Definition is_max (m : R) (l : list R) : Prop := In m l /\ Forall (fun x => x <= m) l.
Definition is_min (m : R) (l : list R) : Prop := In m l /\ Forall (fun x => m <= x) l.
Definition all_pos (l : list R) : Prop := Forall (fun x => 0 < x) l.
(** Full scattering angles of a reflection geometry *)
Definition scattering_angles (l : list R) : Prop := Forall (fun a => 0 < a < 360) l.
(** sine of half the scattering angle given in degrees *)
Definition sin_half (angle : R) : R := sin (angle * PI / 360).
(** The spill-over angle (degrees): the beam just covers the sample *)
Definition spill_over (beam sample angle : R) : Prop := sin_half angle = beam / sample.
(** Error function: positive for positive arguments (in addition to [erf_ok]) *)
Definition erf_positive (erf : R -> R) : Prop := forall x, 0 < x -> 0 < erf x.
(** [c] scaled by [k] *)
Definition scaled (k : R) (c : list fl) : list fl := map (fmul (Some k)) c.
(** Index [i] of [l] has the smallest distance to [v], and is the first such index *)
Definition closest (l : list R) (v : R) (i : nat) : Prop :=
  exists x, nth_error l i = Some x /\
    (forall j y, nth_error l j = Some y -> Rabs (x - v) <= Rabs (y - v)) /\
    (forall j y, (j < i)%nat -> nth_error l j = Some y -> Rabs (x - v) < Rabs (y - v)).
