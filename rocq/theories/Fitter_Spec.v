(** Vocabulary for statements about the curve fitter. *)
From Coq Require Import Reals Lra.
From Coquelicot Require Import Complex.
From Verif Require Import Py Str Cplx Sample_Model Sample_Spec Rng Sampling_Model Reflectivity_Model Simulation_Model Simulation_Spec Interp_Model Arr
  Preproc_Model Preproc_Spec Fitter_Model.
Local Open Scope string_scope.
Local Open Scope R_scope.

(** ** Tables *)
(** A table with [n] rows and the columns [names], in this order *)
Definition shaped (names : list string) (n : nat) (f : frame) : Prop :=
  map fst (fr_cols f) = names /\ fr_rows f = n /\ Forall (fun kc => List.length (snd kc) = n) (fr_cols f).
(** Row [i] of a table *)
Definition frame_row (f : frame) (i : nat) : list cell := map (fun kc => nth i (snd kc) None) (fr_cols f).
(** A cell that is NaN or a real number >= 0 *)
Definition nonneg_cell (c : cell) : Prop := match c with None => True | Some z => snd z = 0 /\ 0 <= fst z end.
(** The names of thicknesses and roughnesses *)
Definition length_label (s : structure) (k : string) : Prop :=
  (exists l, In l (all_layers s) /\ k = l_name l ++ "_" ++ "thickness") \/ (exists l, In l (all_layers s) /\ k = l_name l ++ "_" ++ "roughness").

(** ** Oracles *)
(** The simulation engine returns one intensity per q value; the built-in engine needs an ambient SLD of zero. *)
Definition engine_ok (refl1d : option refl1d_fun) (s : structure) : Prop :=
  match refl1d with
  | Some f => forall kz d sg rho irho, List.length (f kz d sg rho irho) = List.length kz
  | None => exists v n, l_sld (st_ambient s) = Some (Const v n) /\ num_C v = RtoC 0
  end.
(** A sample that can be simulated: at least one film layer, distinct layer names without the words "thickness" and "roughness" *)
Definition fittable (refl1d : option refl1d_fun) (s : structure) : Prop :=
  named_sample s /\ clean_names s /\ st_layers s <> [] /\ engine_ok refl1d s.
(** The network: trained on a non-empty q grid with saved statistics of that length; for a non-empty batch of curves it returns one row
    per curve with one entry per variable label. *)
Definition network_ok (m : nn_model) (names : list string) : Prop :=
  nn_q m <> [] /\ List.length (nn_mean m) = List.length (nn_q m) /\ List.length (nn_std m) = List.length (nn_q m) /\
  label_names (nn_sample m) = Ok names /\
  (exists ps, all_params (nn_sample m) = Ok ps /\ nn_out m = List.length (filter (fun p => negb (is_const p)) ps)) /\
  forall rows, rows <> [] -> Forall (fun r => List.length r = List.length (nn_q m)) rows ->
    exists out, nn_predict m rows = Ok out /\ List.length out = List.length rows /\ Forall (fun r => List.length r = nn_out m) out.
(** ... treating each curve of a batch independently of the others *)
Definition network_rowwise (m : nn_model) : Prop := exists f, forall rows, rows <> [] ->
  Forall (fun r => List.length r = List.length (nn_q m)) rows -> nn_predict m rows = Ok (map f rows).
Definition pick_ok (pick : list fl -> nat) : Prop := forall l, l <> [] -> (pick l < List.length l)%nat.

(** scipy.optimize.curve_fit with bounds: data and start values must be finite, the bounds must have one entry per start value, be
    strictly ordered and enclose the start value (ValueError); the optimum has as many entries as the start. *)
Definition enclosed (x lo hi : fl) : Prop :=
  match x, lo, hi with Some x, Some a, Some b => a <= x <= b /\ a < b | _, _, _ => False end.
Definition feasible (start lo hi : list fl) : Prop :=
  List.length lo = List.length start /\ List.length hi = List.length start /\
  forall i, (i < List.length start)%nat -> enclosed (nth i start None) (nth i lo None) (nth i hi None).
Definition curve_fit_ok {S} (cf : @curve_fit_fun S) : Prop :=
  forall f s xs ys start lo hi,
    (~ feasible start lo hi -> cf f s xs ys start lo hi = Raise ValueError) /\
    (forall s' popt, cf f s xs ys start lo hi = Ok (s', popt) -> List.length popt = List.length start).

(** As many bounds as both lists allow, and every finite start value between its bounds *)
Definition inside (n : nat) (start lo hi : list fl) : Prop :=
  List.length lo = n /\ List.length hi = n /\
  forall i x, (i < n)%nat -> nth_error start i = Some (Some x) -> exists a b, nth_error lo i = Some (Some a) /\ nth_error hi i = Some (Some b) /\ a <= x <= b.
(** The bounds of the optimisation expressed in units of the labels *)
Definition bounds_in_labels (o : out_pp) (labels : frame) (fractions : list R) (low up : frame) : Prop :=
  exists prep rem start, apply_preprocessing o (LFrame labels) = Ok (prep, rem) /\ start_values prep = Ok start /\
    restore_labels o (LArray 1 (map (fun x => [option_map RtoC x]) (lower_bounds start fractions))) = Ok low /\
    restore_labels o (LArray 1 (map (fun x => [option_map RtoC x]) (upper_bounds start fractions))) = Ok up.

(** ** Inputs *)
Definition curves_of (a : arr) : list (list fl) := match a with A1 v => [v] | A2 _ rows => rows end.
(** At least one curve, each with one intensity per q value; [q] not empty *)
Definition valid_input (a : arr) (q : list R) : Prop :=
  q <> [] /\ curves_of a <> [] /\ Forall (fun c => List.length c = List.length q) (curves_of a) /\
  match a with A1 _ => True | A2 w _ => w = List.length q end.
Definition both (o : options) : Prop := o_opt_q o = true /\ o_opt_scale o = true.
(** The numbers of samples of the requested optimisations are positive. *)
Definition samples_ok (o : options) : Prop := (o_opt_q o = true -> (1 <= o_nq o)%Z) /\ (o_opt_scale o = true -> (1 <= o_ns o)%Z).
(** The same options with both optimisations switched off *)
Definition without_optimisation (o : options) : options :=
  mkOptions (o_dq o) (o_factor o) (o_polish o) (o_bounds o) false (o_nq o) false (o_ns o) (o_sim o).

(** The same options with another q shift and factor for the input *)
Definition set_input (o : options) (dq factor : R) : options :=
  mkOptions dq factor (o_polish o) (o_bounds o) (o_opt_q o) (o_nq o) (o_opt_scale o) (o_ns o) (o_sim o).

(** ** Errors *)
(** Mean squared difference of the logarithms of two curves of positive numbers *)
Definition log_error (a b : list R) : R := avg (map (fun xy => (Interp_Model.log10 (fst xy) - Interp_Model.log10 (snd xy)) ^ 2) (combine a b)).
(** Mean squared difference *)
Definition square_error (a b : list R) : R := avg (map (fun xy => (fst xy - snd xy) ^ 2) (combine a b)).

Definition positive_row (xs : list R) : Prop := Forall (fun x => 0 < x) xs.

(** ** Selection *)
(** [i] is the first index of a smallest entry. *)
Definition first_min (l : list R) (i : nat) : Prop :=
  (i < List.length l)%nat /\ (forall j, (j < List.length l)%nat -> nth i l 0 <= nth j l 0) /\ (forall j, (j < i)%nat -> nth i l 0 < nth j l 0).

(** The variants of a curve are fitted with their own q shift and without factor, polishing or further optimisation, and are simulated. *)
Definition variant_options (dq : R) : options := mkOptions dq 1 false [5/10; 5/10; 1/10] false 1000 false 300 true.
(** [d] and [best] are the shift and the parameters chosen for [curve] among [n] random shifts: the curve is interpolated with every shift,
    the variants are fitted without further options, and the first one whose simulation has the smallest error is taken. *)
Definition shift_choice {S} (g : rng S) (fit : @fit_fun S) (m : nn_model) (q : list R) (curve : list fl) (n : Z) (d : R) (best : frame) : Prop :=
  exists s s1 shifts curves s2 out cs ref i,
    np_normal g s 0 (1/1000) n = Ok (s1, shifts) /\
    Forall2 (fun d c => interp_reflectivity (nn_q m) (map (fun x => x + d) q) curve = Ok c) shifts curves /\
    fit s1 (A2 (List.length (nn_q m)) curves) (nn_q m) (variant_options 0) = Ok (s2, out) /\ fo_refl out = Some cs /\
    interp_reflectivity (nn_q m) q curve = Ok ref /\
    nth_error shifts i = Some d /\ best = frame_slice i (fo_params out) /\
    (forall r vs, ref = map Some r -> cs = map (map Some) vs -> r <> [] -> positive_row r -> Forall positive_row vs ->
       Forall (fun v => List.length v = List.length r) vs -> first_min (map (log_error r) vs) i).

(** The part of a list between two indices *)
Definition part {A} (lo hi : nat) (l : list A) : list A := firstn (hi - lo) (skipn lo l).
(** [lo] and [hi - 1] are the indices of the q values that are nearest to the smallest and largest trained q value. *)
Definition nearest_window (m : nn_model) (q : list R) (lo hi : nat) : Prop :=
  exists qmin qmax, In qmin (nn_q m) /\ Forall (fun x => qmin <= x) (nn_q m) /\ In qmax (nn_q m) /\ Forall (fun x => x <= qmax) (nn_q m) /\
    first_min (map (fun x => Rabs (x - qmin)) q) lo /\ (1 <= hi)%nat /\ first_min (map (fun x => Rabs (x - qmax)) q) (hi - 1).
(** Likewise for [n] random scaling factors around 1, with a q shift [dq]; errors are taken between [lo] and [hi]. *)
Definition scaling_choice {S} (g : rng S) (fit : @fit_fun S) (q : list R) (lo hi : nat) (curve : list fl) (n : Z) (dq k : R) (best : frame) : Prop :=
  exists s s1 ks s2 out cs i,
    np_normal g s 1 (1/10) n = Ok (s1, ks) /\
    fit s1 (A2 (List.length curve) (map (fun k => map (fun x => fmul x (Some k)) curve) ks)) q (variant_options dq) = Ok (s2, out) /\ fo_refl out = Some cs /\
    nth_error ks i = Some k /\ best = frame_slice i (fo_params out) /\
    (forall r vs, part lo hi curve = map Some r -> map (part lo hi) cs = map (map Some) vs -> r <> [] -> List.length r = List.length (part lo hi q) ->
       positive_row r -> Forall positive_row vs -> Forall (fun v => List.length v = List.length r) vs -> first_min (map (log_error r) vs) i).
(** The q shift that belongs to curve [i]: 0 if q shifts are not optimised *)
Definition shift_at (out : fit_output) (i : nat) : option R := match fo_shift out with None => Some 0 | Some ds => nth_error ds i end.
