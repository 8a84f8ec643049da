(** Model of the curve fitter.
    Sources: /repo/mlreflect/curve_fitter/minimizer.py, /repo/mlreflect/curve_fitter/curve_fitter.py.
    The neural network and scipy's curve_fit are oracles.  q values are real numbers, intensities floats ([fl]). *)
From Coq Require Import Reals Lra.
From Coquelicot Require Import Complex.
From Verif Require Import Py Str Cplx Sample_Model Rng Sampling_Model Reflectivity_Model Simulation_Model Interp_Model Arr Preproc_Model.
Local Open Scope string_scope.
Local Open Scope R_scope.

(** ** numpy *)

(** The entries as real numbers, if all of them are finite *)
Fixpoint all_finite (l : list fl) : option (list R) :=
  match l with
  | [] => Some []
  | Some x :: l' => option_map (cons x) (all_finite l')
  | None :: _ => None
  end.

(** ndarray.argmin of real numbers: the first index of the minimum; ValueError for an empty array *)
Fixpoint argmin_from (i best : nat) (b : R) (l : list R) : nat :=
  match l with
  | [] => best
  | x :: l' => if Rlt_dec x b then argmin_from (S i) i x l' else argmin_from (S i) best b l'
  end.
Definition argmin_R (l : list R) : res nat :=
  match l with [] => Raise ValueError | x :: l' => Ok (argmin_from 1 0 x l') end.

(** ndarray.max and ndarray.min *)
Definition max_R (l : list R) : res R := match l with [] => Raise ValueError | x :: l' => Ok (fold_left Rmax l' x) end.
Definition min_R (l : list R) : res R := match l with [] => Raise ValueError | x :: l' => Ok (fold_left Rmin l' x) end.

(** np.log10: a number that is not positive has no finite logarithm. *)
Definition flog10 (x : fl) : fl :=
  match x with Some r => if Rlt_dec 0 r then Some (Interp_Model.log10 r) else None | None => None end.
Definition fabs (x : fl) : fl := option_map Rabs x.
Definition fsq (x : fl) : fl := fmul x x.

(** ** Tables *)

(** [df[i:i + 1]] for i >= 0 *)
Definition frame_slice (i : nat) (f : frame) : frame :=
  mkFrame (Nat.min 1 (fr_rows f - i)) (map (fun kc => (fst kc, firstn 1 (skipn i (snd kc)))) (fr_cols f)).
(** [pd.concat(fs).reset_index(drop=True)]: the columns of the first table, NaN where another table lacks a column; ValueError for
    no tables.  Simplification: columns that only later tables have are not added (all tables here have the same columns). *)
Definition append_frame (f f' : frame) : frame :=
  mkFrame (fr_rows f + fr_rows f')
    (map (fun kc => (fst kc, snd kc ++ match tget (fr_cols f') (fst kc) with Some c => c | None => repeat None (fr_rows f') end)%list)
         (fr_cols f)).
Definition concat_frames (fs : list frame) : res frame :=
  match fs with [] => Raise ValueError | f :: fs' => Ok (fold_left append_frame fs' f) end.

(** curve_fitter.py 188-192: [_ensure_positive_parameters] *)
Definition sign_free (name : string) : bool := contains "thickness" name || contains "roughness" name.
Definition ensure_positive (f : frame) : frame :=
  mkFrame (fr_rows f)
    (map (fun kc => (fst kc, if sign_free (fst kc) then map (option_map (fun z => RtoC (Cmod z))) (snd kc) else snd kc)) (fr_cols f)).

(** The columns of an array with [k] columns given by its rows *)
Definition columns_of (k : nat) (rows : list (list fl)) : list (list cell) :=
  map (fun j => map (fun r => option_map RtoC (nth j r None)) rows) (seq 0 k).

(** A loop that threads the state of the random number generator *)
Fixpoint mapS {S A B} (f : S -> A -> res (S * B)) (s : S) (l : list A) : res (S * list B) :=
  match l with
  | [] => Ok (s, [])
  | a :: l' => '(s, b) <- f s a ;; '(s, bs) <- mapS f s l' ;; Ok (s, b :: bs)
  end.

(** ** minimizer.py 64-70: [mean_squared_error].  [len] is the size of the first dimension; the arrays are then subtracted with
    broadcasting, and the squares averaged along the last axis. *)
Definition arr_len (a : arr) : nat := match a with A1 v => List.length v | A2 _ rows => List.length rows end.
Definition arr_sub (a b : arr) : res arr :=
  match a, b with
  | _, A1 v => row_op fsub a v
  | A1 v, _ => row_op (fun x y => fsub y x) b v
  | A2 m rows, A2 k rows' =>
      n <- bdim m k ;; Ok (A2 n (map (fun rr => bop fsub n (fst rr) (snd rr)) (combine rows rows')))
  end.
Definition mean_squared_error (a b : arr) : res (list fl) :=
  if negb (Nat.eqb (arr_len a) (arr_len b)) then Raise ValueError
  else
    e <- arr_sub a b ;;
    Ok (map (fun r => fmean (map fsq r)) (match e with A1 v => [v] | A2 _ rows => rows end)).

(** minimizer.py 27-30: [curve_variant_log_mse]; [m] is the number of columns of [variants]. *)
Definition variant_log_mse (curve : list fl) (m : nat) (variants : list (list fl)) : res (list fl) :=
  e <- row_op (fun x y => fsub y x) (A2 m (map (map flog10) variants)) (map flog10 curve) ;;
  Ok (map (fun r => fmean (map fsq r)) (match e with A1 v => [v] | A2 _ rows => rows end)).

(** ** The fitter *)

(** What a CurveFitter holds of a TrainedModel (curve_fitter.py 21-31): sample, trained q values, saved mean and standard deviation,
    and the network with [nn_out] outputs. *)
Record nn_model := mkNN {
  nn_sample : structure; nn_q : list R; nn_mean : list fl; nn_std : list fl;
  nn_out : nat; nn_predict : list (list fl) -> res (list (list fl)) }.
Definition nn_ip (m : nn_model) : ip_state := mkIp (Some (nn_mean m)) (Some (nn_std m)).
Definition nn_op (m : nn_model) : out_pp := mkOp (mkPystr "min_to_zero" true) (nn_sample m).

(** The keyword arguments of [fit_curve] (curve_fitter.py 33-35); flags are booleans. *)
Record options := mkOptions {
  o_dq : R; o_factor : R; o_polish : bool; o_bounds : list R; o_opt_q : bool; o_nq : Z; o_opt_scale : bool; o_ns : Z; o_sim : bool }.
(** The call in [_optimize_q] and, with a shift, in [_optimize_scaling] (curve_fitter.py 151-152, 170-171) *)
Definition plain_options (dq : R) : options := mkOptions dq 1 false [5/10; 5/10; 1/10] false 1000 false 300 true.

(** The returned dictionary; [None] is Python's None. *)
Record fit_output := mkOut {
  fo_refl : option (list (list fl)); fo_params : frame; fo_shift : option (list R); fo_scaling : option (list R) }.

Section Fitter.
  Context {S : Type} (g : rng S) (refl1d : option refl1d_fun).
  (** The index that argmin returns if some entry is not finite (numpy: the first NaN, if there is one; NaN and infinities are
      not distinguished here) *)
  Context (pick : list fl -> nat).
  Definition argmin (l : list fl) : res nat :=
    match l with
    | [] => Raise ValueError
    | _ => match all_finite l with Some xs => argmin_R xs | None => Ok (pick l) end
    end.

  (** scipy.optimize.curve_fit(f, xdata, ydata, p0, bounds): only the optimal parameters are used. *)
  Definition curve_fit_fun := (S -> list fl -> res (S * list fl)) -> S -> list R -> list fl -> list fl -> list fl -> list fl -> res (S * list fl).
  Context (curve_fit : curve_fit_fun).

  (** data_generator.py 107-148 on a table that may contain NaN: the curve of a row with a NaN is NaN throughout. *)
  Definition known_cols (f : frame) : cols := map (fun kc => (fst kc, map (fun c => match c with Some z => z | None => RtoC 0 end) (snd kc))) (fr_cols f).
  Definition row_known (f : frame) (i : nat) : bool :=
    forallb (fun kc => match nth i (snd kc) (Some (RtoC 0)) with Some _ => true | None => false end) (fr_cols f).
  Definition simulate_frame (s : S) (qs : list R) (f : frame) : res (S * list (list fl)) :=
    '(s, cs) <- simulate_reflectivity g refl1d s qs (known_cols f) (SNum 0) "refl1d" ;;
    Ok (s, map (fun ic => if row_known f (fst ic) then snd ic else map (fun _ => None) (snd ic)) (combine (seq 0 (List.length cs)) cs)).

  (** minimizer.py 7-15: [q_shift_variants] *)
  Definition q_shift_variants (s : S) (q_pred q_in : list R) (curve : list fl) (n : Z) (scale : R) : res (S * (list (list fl) * list R)) :=
    '(s, shifts) <- np_normal g s 0 scale n ;;
    curves <- mapM (fun d => interp_reflectivity q_pred (map (fun x => x + d) q_in) curve) shifts ;;
    Ok (s, (curves, shifts)).
  (** minimizer.py 18-24: [curve_scaling_variants] *)
  Definition curve_scaling_variants (s : S) (curve : list fl) (n : Z) (scale : R) : res (S * (list (list fl) * list R)) :=
    '(s, ks) <- np_normal g s 1 scale n ;;
    Ok (s, (map (fun k => map (fun x => fmul x (Some k)) curve) ks, ks)).

  (** minimizer.py 45-52: [fitting_model] *)
  Definition fitting_model (qs : list R) (o : out_pp) (s : S) (labels : list fl) : res (S * list fl) :=
    f <- restore_labels o (LArray 1 (map (fun x => [option_map RtoC x]) labels)) ;;
    '(s, cs) <- simulate_frame s qs f ;;
    c <- py_get cs 0 ;;
    Ok (s, map flog10 c).

  (** minimizer.py 55-61: [log_mse_loss] *)
  Definition log_mse_loss (qs : list R) (o : out_pp) (s : S) (labels data : list fl) : res (S * list fl) :=
    f <- restore_labels o (LArray 1 (map (fun x => [option_map RtoC x]) labels)) ;;
    '(s, cs) <- simulate_frame s qs f ;;
    c <- py_get cs 0 ;;
    e <- mean_squared_error (A1 (map flog10 data)) (A1 (map flog10 c)) ;;
    Ok (s, e).

  (** The start values as floats.  Simplification: a label with an imaginary part cannot be fitted (TypeError). *)
  Definition real_cell (c : cell) : res fl :=
    match c with None => Ok None | Some z => if Req_EM_T (snd z) 0 then Ok (Some (fst z)) else Raise TypeError end.
  Definition start_values (f : frame) : res (list fl) :=
    mapM (fun kc => c <- py_get (snd kc) 0 ;; real_cell c) (fr_cols f).
  (** minimizer.py 38-39: [zip] stops at the shorter list. *)
  Definition lower_bounds (start : list fl) (fractions : list R) : list fl :=
    map (fun vb => fsub (fst vb) (fmul (Some (snd vb)) (fabs (fst vb)))) (combine start fractions).
  Definition upper_bounds (start : list fl) (fractions : list R) : list fl :=
    map (fun vb => fadd (fst vb) (fmul (Some (snd vb)) (fabs (fst vb)))) (combine start fractions).

  (** minimizer.py 33-42: [least_log_mean_squares_fit] *)
  Definition least_squares (s : S) (qs : list R) (data : list fl) (labels : frame) (o : out_pp) (fractions : list R) : res (S * frame) :=
    pc <- apply_preprocessing o (LFrame labels) ;;
    start <- start_values (fst pc) ;;
    '(s, popt) <- curve_fit (fitting_model qs o) s qs (map flog10 data) start (lower_bounds start fractions) (upper_bounds start fractions) ;;
    f <- restore_labels o (LArray 1 (map (fun x => [option_map RtoC x]) popt)) ;;
    Ok (s, f).

  (** curve_fitter.py 180-186: [_interpolate_intensity] *)
  Definition interpolate_intensity (m : nn_model) (rows : list (list fl)) (q : list R) : res (list (list fl)) :=
    mapM (interp_reflectivity (nn_q m) q) rows.

  (** curve_fitter.py 116-120: the network's prediction for curves on the trained q values *)
  Definition predict_labels (m : nn_model) (rows : list (list fl)) : res frame :=
    a <- snd (standardize (nn_ip m) (A2 (List.length (nn_q m)) rows)) ;;
    out <- nn_predict m (match a with A1 v => [v] | A2 _ rows => rows end) ;;
    f <- restore_labels (nn_op m) (LArray (List.length out) (columns_of (nn_out m) out)) ;;
    Ok (ensure_positive f).

  Definition fit_fun := S -> arr -> list R -> options -> res (S * fit_output).

  (** curve_fitter.py 146-166: [_optimize_q]; [fit] is [fit_curve].  np.log10(None) raises TypeError. *)
  Definition optimize_q (fit : fit_fun) (m : nn_model) (s : S) (q_pred q_in : list R) (curve : list fl) (n : Z)
    : res (S * (R * frame * list fl)) :=
    '(s, (curves, shifts)) <- q_shift_variants s q_pred q_in curve n (1/1000) ;;
    '(s, out) <- fit s (A2 (List.length q_pred) curves) q_pred (plain_options 0) ;;
    ref <- interp_reflectivity (nn_q m) q_in curve ;;
    match fo_refl out with
    | None => Raise TypeError
    | Some cs =>
        err <- variant_log_mse ref (List.length q_pred) cs ;;
        i <- argmin err ;;
        let best := frame_slice i (fo_params out) in
        '(s, sim) <- simulate_frame s q_in best ;;
        c <- py_get sim 0 ;;
        d <- py_get shifts (Z.of_nat i) ;;
        Ok (s, (d, best, c))
    end.

  (** curve_fitter.py 168-178: [_optimize_scaling] *)
  Definition optimize_scaling (fit : fit_fun) (s : S) (q : list R) (lo hi : nat) (curve : list fl) (n : Z) (dq : R)
    : res (S * (R * frame * list fl)) :=
    '(s, (curves, ks)) <- curve_scaling_variants s curve n (1/10) ;;
    '(s, out) <- fit s (A2 (List.length curve) curves) q (plain_options dq) ;;
    match fo_refl out with
    | None => Raise TypeError
    | Some cs =>
        let cut {A} (l : list A) := py_slice l (Some (Z.of_nat lo)) (Some (Z.of_nat hi)) in
        err <- variant_log_mse (cut curve) (List.length (cut q)) (map cut cs) ;;
        i <- argmin err ;;
        c <- py_get cs (Z.of_nat i) ;;
        k <- py_get ks (Z.of_nat i) ;;
        Ok (s, (k, frame_slice i (fo_params out), c))
    end.

  (** [a[i] = c] for a two-dimensional array with rows of length [w] *)
  Definition check_row (w : nat) (x : R * frame * list fl) : res (R * frame * list fl) :=
    bind (bdim w (List.length (snd x))) (fun n => if Nat.eqb n w then Ok x else Raise ValueError).

  (** curve_fitter.py 75-144: [fit_curve] with the recursive calls passed as an argument *)
  Definition fit_core (fit : fit_fun) (m : nn_model) : fit_fun := fun s curve q o =>
    qmax <- max_R (nn_q m) ;;
    i <- argmin_R (map (fun x => Rabs (x - qmax)) q) ;;
    let hi := (i + 1)%nat in
    qmin <- min_R (nn_q m) ;;
    lo <- argmin_R (map (fun x => Rabs (x - qmin)) q) ;;
    let '(w, rows) := match curve with A1 v => (List.length v, [v]) | A2 w rows => (w, rows) end in
    interp <- interpolate_intensity m (map (map (fun x => fmul x (Some (o_factor o)))) rows) (map (fun x => x + o_dq o) q) ;;
    (* lines 83-95 *)
    '(s, shift) <-
      (if o_opt_q o then
         '(s, outs) <- mapS (fun s c => '(s, x) <- optimize_q fit m s (nn_q m) q c (o_nq o) ;; x <- check_row w x ;; Ok (s, x)) s rows ;;
         f <- concat_frames (map (fun x => snd (fst x)) outs) ;;
         Ok (s, Some (map (fun x => fst (fst x)) outs, f))
       else Ok (s, None)) ;;
    (* lines 97-113 *)
    '(s, scaling) <-
      (if o_opt_scale o then
         '(s, outs) <- mapS (fun s ic =>
             dq <- match shift with None => Ok 0 | Some (ds, _) => py_get ds (Z.of_nat (fst ic)) end ;;
             '(s, x) <- optimize_scaling fit s q lo hi (snd ic) (o_ns o) dq ;; x <- check_row w x ;; Ok (s, x))
           s (combine (seq 0 (List.length rows)) rows) ;;
         f <- concat_frames (map (fun x => snd (fst x)) outs) ;;
         Ok (s, Some (map (fun x => fst (fst x)) outs, f))
       else Ok (s, None)) ;;
    (* lines 115-120 *)
    params <- match shift, scaling with
              | Some _, Some (_, f) => Ok f
              | _, _ => predict_labels m interp
              end ;;
    (* lines 122-144 *)
    '(s, params) <-
      (if o_polish o then
         '(s, fs) <- mapS (fun s i =>
             row <- py_get rows (Z.of_nat i) ;;
             let cut {A} (l : list A) := py_slice l (Some (Z.of_nat lo)) (Some (Z.of_nat hi)) in
             least_squares s (cut q) (cut row) (frame_slice i params) (nn_op m) (o_bounds o)) s (seq 0 (List.length interp)) ;;
         f <- concat_frames fs ;;
         Ok (s, ensure_positive f)
       else Ok (s, params)) ;;
    '(s, refl) <- (if o_sim o then '(s, cs) <- simulate_frame s q params ;; Ok (s, Some cs) else Ok (s, None)) ;;
    Ok (s, mkOut refl params (option_map fst shift) (option_map fst scaling)).

  (** The calls inside [_optimize_q] and [_optimize_scaling] turn both optimisations off, so the recursion ends after one step;
      the innermost function is never called. *)
  Definition fit_plain (m : nn_model) : fit_fun := fit_core (fun _ _ _ _ => Raise RecursionError) m.
  Definition fit_curve (m : nn_model) : fit_fun := fit_core (fit_plain m) m.
End Fitter.
