(** Vocabulary for statements about the reflectivity engine: layer stacks and the Parratt recursion. *)
From Coq Require Import Reals Lra.
From Coquelicot Require Import Complex.
From Verif Require Import Py Cplx.
Local Open Scope R_scope.

(** A film: thickness, roughness of its upper interface, scattering length density.  Stacks are listed from top to bottom. *)
Record film := mkFilm { f_thickness : R; f_roughness : R; f_sld : C }.
Record stack := mkStack { s_films : list film; s_roughness : R; s_sld : C }.

(** The arrays handed to the engine: from bottom to top *)
Definition thickness_array (s : stack) : list R := rev (map f_thickness (s_films s)).
Definition roughness_array (s : stack) : list R := s_roughness s :: rev (map f_roughness (s_films s)).
Definition sld_array (s : stack) : list C := s_sld s :: rev (map f_sld (s_films s)).

(** No layer amplifies: non-negative absorption. *)
Definition passive (s : stack) : Prop := Forall (fun f => 0 <= Im (f_sld f)) (s_films s) /\ 0 <= Im (s_sld s).

(** Vertical wave vector in a medium of the given SLD.  Like the engine we add a tiny absorption to select the branch. *)
Definition tiny : R := / 10 ^ 30.
Definition wave (q : R) (sld : C) : C := Csqrt (RtoC (q / 2) * RtoC (q / 2) - RtoC (4 * PI) * (sld + (0, tiny)))%C.

(** Amplitude of a rough interface: Fresnel coefficient with the Névot-Croce factor *)
Definition nevot_croce (k k' : C) (sigma : R) : C :=
  ((k - k') / (k + k') * Cexp (- (2) * k * k' * RtoC (sigma * sigma)))%C.

(** Parratt's recursion for the amplitude reflected by [fs] on a substrate, seen from a medium with wave vector [k];
    [None] if a denominator vanishes. *)
Fixpoint parratt (q : R) (k : C) (fs : list film) (sigma : R) (sld : C) : option C :=
  match fs with
  | [] => Some (nevot_croce k (wave q sld) sigma)
  | f :: fs' =>
      let k1 := wave q (f_sld f) in
      let r := nevot_croce k k1 (f_roughness f) in
      match parratt q k1 fs' sigma sld with
      | None => None
      | Some x =>
          let x' := (x * Cexp (- (2) * Ci * k1 * RtoC (f_thickness f)))%C in
          if Ceq_dec (1 + r * x')%C 0 then None else Some ((r + x') / (1 + r * x'))%C
      end
  end.

Definition parratt_amplitude (q : R) (s : stack) : option C :=
  parratt q (wave q 0) (s_films s) (s_roughness s) (s_sld s).

(** Intensity, clipped at one *)
Definition clipped (r : C) : R := Rmin 1 (Cmod r ^ 2).

(** No interface of the stack has an amplitude of exactly plus or minus one at [q] (such an interface has a singular matrix). *)
Fixpoint regular_below (q : R) (k : C) (fs : list film) (sigma : R) (sld : C) : Prop :=
  match fs with
  | [] => True
  | f :: fs' => let k1 := wave q (f_sld f) in
      (nevot_croce k k1 (f_roughness f) * nevot_croce k k1 (f_roughness f))%C <> 1 /\ regular_below q k1 fs' sigma sld
  end.
Definition regular (q : R) (s : stack) : Prop := regular_below q (wave q 0) (s_films s) (s_roughness s) (s_sld s).

(** All interfaces ideally smooth, thicknesses non-negative *)
Definition smooth (s : stack) : Prop :=
  Forall (fun f => f_roughness f = 0 /\ 0 <= f_thickness f) (s_films s) /\ s_roughness s = 0.
