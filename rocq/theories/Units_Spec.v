(** Reflectivity in the units of the labels: q in 1/Å, thickness and roughness in Å, scattering length density in 1e-6 1/Å².  There is
    no conversion of units here except the factor 1e-6 of the scattering length density. *)
From Coq Require Import Reals.
From Coquelicot Require Import Complex.
From Verif Require Import Py Str Cplx Sample_Model Sample_Spec Sampling_Model Reflectivity_Spec Simulation_Spec.
Local Open Scope R_scope.

(** Vertical wave vector in 1/Å; the absorption of 1e-50 1/Å² selects the branch of the root. *)
Definition branch : R := / 10 ^ 50.
Definition wave_label (q : R) (rho : C) : C :=
  Csqrt (RtoC (q / 2 * (q / 2)) - RtoC (4 * PI) * (RtoC (/ 10 ^ 6) * rho + (0, branch)))%C.

(** Amplitude reflected by an interface of roughness [sigma] *)
Definition interface (k k' : C) (sigma : R) : C := ((k - k') / (k + k') * Cexp (RtoC (-2 * sigma ^ 2) * k * k'))%C.

(** Parratt's recursion for films listed from top to bottom; [None] if a denominator vanishes *)
Fixpoint amplitude_below (q : R) (k : C) (fs : list film) (sigma : R) (sld : C) : option C :=
  match fs with
  | [] => Some (interface k (wave_label q sld) sigma)
  | f :: fs' =>
      match amplitude_below q (wave_label q (f_sld f)) fs' sigma sld with
      | None => None
      | Some x =>
          let r := interface k (wave_label q (f_sld f)) (f_roughness f) in
          let x := (x * Cexp (RtoC (-2 * f_thickness f) * Ci * wave_label q (f_sld f)))%C in
          if Ceq_dec (1 + r * x)%C 0 then None else Some ((r + x) / (1 + r * x))%C
      end
  end.
Definition label_amplitude (q : R) (s : stack) : option C := amplitude_below q (wave_label q 0) (s_films s) (s_roughness s) (s_sld s).

(** The stack described by row [i] of a label table.  The columns go from the substrate upwards; the last SLD is the ambient one. *)
Fixpoint films_upwards (t r : list R) (s : list C) : list film :=
  match t, r, s with
  | t0 :: t, r0 :: r, s0 :: s => mkFilm t0 r0 s0 :: films_upwards t r s
  | _, _, _ => []
  end.
Definition row_stack (T Ru Sl : cols) (i : nat) : stack :=
  let t := map fst (entries i T) in let r := map fst (entries i Ru) in let s := entries i Sl in
  mkStack (rev (films_upwards t (tl r) (tl s))) (hd 0 r) (hd (RtoC 0) s).

(** [o] is what the recursion predicts for [s] at [q]: the intensity, clipped at one *)
Definition predicted (q : R) (s : stack) (o : option R) : Prop := forall r, label_amplitude q s = Some r -> o = Some (Rmin 1 (Cmod r ^ 2)).

(** No layer of the sample amplifies, whatever values are drawn; no film has a negative thickness. *)
Definition passive_sample (smp : structure) : Prop :=
  forall l p, In l (all_layers smp) -> l_sld l = Some p -> 0 <= num_im (p_min p) <= num_im (p_max p).
Definition solid_sample (smp : structure) : Prop :=
  forall l p, In l (st_layers smp) -> l_thickness l = Some p -> 0 <= num_re (p_min p) /\ num_im (p_min p) <= num_im (p_max p).
(** Vacuum (air) above the sample *)
Definition vacuum_above (smp : structure) : Prop := exists v nm, l_sld (st_ambient smp) = Some (Const v nm) /\ num_re v = 0 /\ num_im v = 0.
