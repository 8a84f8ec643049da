(** Vocabulary for statements about the values that the curve fitter returns. *)
From Coq Require Import Reals Lra.
From Coquelicot Require Import Complex.
From Verif Require Import Py Str Cplx Sample_Model Sample_Spec Rng Sampling_Model Reflectivity_Model Simulation_Model Simulation_Spec Interp_Model Arr
  Preproc_Model Preproc_Spec Fitter_Model Fitter_Spec.
Local Open Scope string_scope.
Local Open Scope R_scope.

(** ** Predictions *)
(** The network is given every intensity minus the saved mean, divided by the saved standard deviation. *)
Definition scaled (m : nn_model) (row : list fl) : list fl :=
  map (fun x => fdiv (fsub (fst x) (fst (snd x))) (snd (snd x))) (combine row (combine (nn_mean m) (nn_std m))).
(** The curves on the trained q values, for curves measured at [q], with the shift and the factor of the options *)
Definition on_trained_q (m : nn_model) (o : options) (q : list R) (curves ins : list (list fl)) : Prop :=
  Forall2 (fun c x => interp_reflectivity (nn_q m) (map (fun x => x + o_dq o) q) (map (fun y => fmul y (Some (o_factor o))) c) = Ok x) curves ins.
(** Output [j] of the network stands for the variable label [k]. *)
Definition output_label (s : structure) (j : nat) (k : string) : Prop :=
  exists ps, all_params s = Ok ps /\ nth_error (map pname_str (filter (fun p => negb (is_const p)) ps)) j = Some k.
(** The value that belongs to an output: 0 is the minimum of the range, 1 the maximum. *)
Definition label_value (p : param) (y : R) : C := (RtoC y * (num_C (p_max p) - num_C (p_min p)) + num_C (p_min p))%C.
(** Cell [i] of column [k] *)
Definition cell_at (f : frame) (k : string) (i : nat) : option cell := match tget (fr_cols f) k with Some c => nth_error c i | None => None end.
(** The table holds the values that belong to the outputs, with the absolute value of lengths, and the constants of the sample. *)
Definition predicted_cells (s : structure) (outs : list (list fl)) (f : frame) : Prop :=
  (forall i r j k p y, nth_error outs i = Some r -> nth_error r j = Some y -> output_label s j k -> label_param s k p -> is_const p = false ->
     (length_label s k -> cell_at f k i = Some (option_map (fun y => RtoC (Cmod (label_value p y))) y)) /\
     (~ length_label s k -> cell_at f k i = Some (option_map (label_value p) y))) /\
  (forall i k p, (i < List.length outs)%nat -> label_param s k p -> is_const p = true ->
     (length_label s k -> cell_at f k i = Some (Some (RtoC (Cmod (num_C (p_min p)))))) /\
     (~ length_label s k -> cell_at f k i = Some (Some (num_C (p_min p))))).

(** The outputs that stand for the labels [f] *)
Definition right_outputs (s : structure) (outs : list (list fl)) (f : frame) : Prop :=
  forall i r j k p y, nth_error outs i = Some r -> nth_error r j = Some y -> output_label s j k -> label_param s k p -> is_const p = false ->
    cell_at f k i = Some (option_map (label_value p) y).

(** ** Simulations *)
(** Row [i] of a table holds the numbers [t]. *)
Definition row_is (f : frame) (i : nat) (t : list (string * C)) : Prop :=
  map (fun kc => (fst kc, nth i (snd kc) None)) (fr_cols f) = map (fun kz => (fst kz, Some (snd kz) : cell)) t.
(** [c] is the curve simulated without noise for the labels [t] at the q values [q]. *)
Definition curve_of {S} (g : rng S) (refl1d : option refl1d_fun) (q : list R) (t : list (string * C)) (c : list fl) : Prop :=
  forall s, exists s', simulate_reflectivity g refl1d s q (map (fun kz => (fst kz, [snd kz])) t) (SNum 0) "refl1d" = Ok (s', [c]).

(** ** Polishing *)
(** Sum of squared differences *)
Definition sum_squares (a b : list R) : R := sum (map (fun xy => (fst xy - snd xy) ^ 2) (combine a b)).
(** Every number lies between its bounds. *)
Definition within (xs lo hi : list fl) : Prop :=
  List.length lo = List.length xs /\ List.length hi = List.length xs /\
  forall i, (i < List.length xs)%nat -> exists x a b, nth_error xs i = Some (Some x) /\ nth_error lo i = Some (Some a) /\ nth_error hi i = Some (Some b) /\ a <= x <= b.
(** ... and further away from them than scipy's tolerance of 1e-10; otherwise scipy moves the start values. *)
Definition tolerance (b : R) : R := Rmax 1 (Rabs b) / 10 ^ 10.
Definition well_within (xs lo hi : list fl) : Prop :=
  List.length lo = List.length xs /\ List.length hi = List.length xs /\
  forall i, (i < List.length xs)%nat -> exists x a b, nth_error xs i = Some (Some x) /\ nth_error lo i = Some (Some a) /\ nth_error hi i = Some (Some b) /\
    a + tolerance a < x /\ x < b - tolerance b.
(** curve_fit with bounds evaluates the function at the start values and at the result; both values are finite, the result lies within the bounds,
    and its squared residuals are not larger than those of the start values.  Empty data are refused. *)
Definition curve_fit_descends {S} (cf : @curve_fit_fun S) : Prop :=
  forall f s xs ys start lo hi s' popt, well_within start lo hi -> cf f s xs ys start lo hi = Ok (s', popt) ->
    List.length popt = List.length start /\ within popt lo hi /\
    exists s0 s0' c0 s1 s1' c1 y, f s0 start = Ok (s0', map Some c0) /\ f s1 popt = Ok (s1', map Some c1) /\ ys = map Some y /\ y <> [] /\
      List.length c0 = List.length y /\ List.length c1 = List.length y /\ sum_squares c1 y <= sum_squares c0 y.
(** Constant thicknesses and roughnesses are real numbers >= 0. *)
Definition nonneg_constants (s : structure) : Prop :=
  forall k p, label_param s k p -> length_label s k -> is_const p = true -> exists a, p_min p = Flt a /\ 0 <= a.
(** Row [i] can be polished with the fractions [fr]: every variable label is a real number whose distance to its bounds is larger than the
    tolerance, in units of the range, and the lower bound of a length is not negative. *)
Definition polishable (s : structure) (fr : list R) (params : frame) (i : nat) : Prop :=
  forall j k p f, output_label s j k -> label_param s k p -> nth_error fr j = Some f ->
    exists lo hi nm v, p = Range (Flt lo) (Flt hi) nm /\ lo < hi /\ cell_at params k i = Some (Some (RtoC v)) /\
      (let x := (v - lo) / (hi - lo) in tolerance (x - f * Rabs x) < f * Rabs x /\ tolerance (x + f * Rabs x) < f * Rabs x) /\
      (length_label s k -> f * Rabs (v - lo) <= v).
(** The same options without polishing *)
Definition without_polishing (o : options) : options :=
  mkOptions (o_dq o) (o_factor o) false (o_bounds o) (o_opt_q o) (o_nq o) (o_opt_scale o) (o_ns o) (o_sim o).
