(** Model of the plots of fit results and of loaded scans.
    Sources: /repo/mlreflect/curve_fitter/results.py (64-101, 151-211), /repo/mlreflect/xrrloader/dataloader/scans.py (83-95, 141-168).
    A plot is what it shows: lines with their points, labels and text.  Data of different length cannot be plotted
    (ValueError).  A method that fails shows nothing. *)
From Coq Require Import Reals.
From Verif Require Import Py Str Sample_Model Arr Footprint_Model Scan_Model Preproc_Model Simulation_Model Fitter_Model FileFitter_Model Prediction_Model.
Local Open Scope R_scope.
Local Open Scope string_scope.

(** A line: label, horizontal and vertical values *)
Record line {X Y : Type} := mkLine { ln_label : string; ln_x : list X; ln_y : list Y }.
Arguments line : clear implicits.
(** plt.plot(x, y) and plt.semilogy(x, y) *)
Definition draw {X Y} (label : string) (x : list X) (y : list Y) : res (line X Y) :=
  if Nat.eqb (List.length x) (List.length y) then Ok (mkLine X Y label x y) else Raise ValueError.

(** ** results.py *)
(** results.py 82-87 and 172-177: the unit of a parameter; [sld_unit] is the text for scattering length densities *)
Definition unit_of (sld_unit : string) (param : string) : res string :=
  if contains "thickness" param || contains "roughness" param then Ok "Å"
  else if contains "sld" param then Ok sld_unit
  else Raise ValueError.
(** [self.predicted_parameters[param]] *)
Definition column (f : frame) (param : string) : res (list cell) :=
  match tget (fr_cols f) param with Some c => Ok c | None => Raise KeyError end.
(** float() of a column with one entry: TypeError for more or fewer; of a complex number numpy takes the real part *)
Definition column_float (c : list cell) : res fl :=
  match c with [z] => Ok (option_map fst z) | _ => Raise TypeError end.

Section Text.
  (** [fmt1]: '0.1f', [show]: a number as text, [show_z]: an integer as text *)
  Context (fmt1 show : fl -> string) (show_z : Z -> string) (round6 : R -> R).

  (** results.py 79-91: [_annotate_plot]: the text *)
  Definition annotation (r : fit_result) (params : list string) : res string :=
    text <- foldM (fun text param =>
                     unit <- unit_of "x 10$^{-6}$ Å$^{-2}$" param ;;
                     c <- column (r_params r) param ;; v <- column_float c ;;
                     Ok (text ++ (param ++ ": " ++ fmt1 v ++ " " ++ unit ++ String (Ascii.ascii_of_nat 10) ""))) "" params ;;
    e <- result_mse round6 r ;; Ok (text ++ "log_mse: " ++ show e).
  (** results.py 64-77: [plot_prediction]: the two lines, the title and the text *)
  Definition plot_prediction (r : fit_result) (params : list string) : res (list (line fl fl) * string * string) :=
    data <- draw "data" (r_q r) (r_corrected r) ;;
    prediction <- draw "prediction" (r_q r) (r_refl r) ;;
    text <- annotation r params ;;
    Ok ([data; prediction],
        "Prediction of scan #" ++ show_z (r_scan r) ++ " (" ++ match r_time r with Some t => t | None => "None" end ++ ")", text).
End Text.

(** results.py 93-101: [plot_sld_profile]: height and scattering length density *)
Definition plot_sld_profile (erf : R -> R) (r : fit_result) : res (line R (option R)) :=
  p <- result_profile erf r ;; draw "" (fst p) (snd p).

(** results.py 151-187: [plot_predicted_parameter_range]: the label of the horizontal axis, and for every panel its number, the
    label of the vertical axis and the points.  plt.subplot(n, 1, i) accepts 1 <= i <= n. *)
Definition plot_parameter_range (strptime : string -> option R) (se : series) (params : list string) (x_format : string)
    : res (string * list (nat * line R cell)) :=
  ' (x, x_label) <-
    (if String.eqb x_format "time" then
       d <- delta_t strptime se ;;
       match d with Some d => Ok (d, "Time [min]") | None => Ok (map IZR (se_scan se), "Scan") end
     else Ok (map IZR (se_scan se), "Scan")) ;;
  panels <- mapM (fun ip =>
                    let '(i, param) := ip in
                    unit <- unit_of "10$^{-6}$ Å$^{-2}$" param ;;
                    c <- column (se_params se) param ;;
                    l <- draw (param ++ " [" ++ unit ++ "]") x c ;; Ok ((i + 1)%nat, l))
                 (combine (seq 0 (List.length params)) params) ;;
  Ok (x_label, panels).

(** np.linspace(0, 1, n) *)
Definition linspace01 (n : nat) : list R :=
  match n with
  | 1%nat => [0]
  | _ => map (fun i => INR i / INR (n - 1)) (seq 0 n)
  end.
(** The position in the colour map (0: one end, 1: the other) that a matplotlib colour bar shows next to the number [v], for a scale
    created with vmin = [a] and vmax = [b]: the colour bar exchanges limits in descending order and expands equal limits. *)
Definition colourbar_at (a b v : R) : R :=
  if Req_EM_T a b then 1 / 2 else (v - Rmin a b) / (Rmax a b - Rmin a b).
(** results.py 189-211: [plot_sld_profiles]: for every profile its points and its position in the colour map, and the limits of the
    colour bar *)
Definition plot_sld_profiles (erf : R -> R) (se : series) : res (list (line R (option R) * R) * (R * R)) :=
  profiles <- series_profiles erf se ;;
  first <- py_get (se_index se) 0 ;; last <- py_get (se_index se) (-1) ;;
  let colors := linspace01 (List.length profiles) in
  lines <- mapM (fun i =>
                   p <- py_get profiles (Z.of_nat i) ;; c <- py_get colors (Z.of_nat i) ;;
                   l <- draw "" (fst p) (snd p) ;; Ok (l, c)) (seq 0 (fr_rows (se_params se))) ;;
  Ok (lines, (IZR first, IZR last)).

(** ** scans.py *)
Section Scans.
  Context (erf : R -> R) (show_z : Z -> string).
  (** scans.py 83-88: [plot_raw_intensity] *)
  Definition plot_raw_intensity (s : scan) (q_min q_max : option R) : res (line fl fl) :=
    x <- get_q_range s q_min q_max ;; y <- get_raw_intensity_range s q_min q_max ;; draw "" x y.
  (** scans.py 90-95: [plot_corrected_intensity] *)
  Definition plot_corrected_intensity (s : scan) (q_min q_max : option R) : res (line fl fl) :=
    x <- get_q_range s q_min q_max ;; y <- get_corrected_intensity_range erf s q_min q_max ;; draw "" x y.
  (** scans.py 156-158 and 161-163: one scan of the series *)
  Definition draw_scan (q_min q_max : option R) (s : scan) : res (line fl fl) :=
    x <- get_q_range s q_min q_max ;; y <- get_corrected_intensity_range erf s q_min q_max ;; draw (show_z (sc_number s)) x y.
  (** scans.py 151-168: [plot_series]; None: nothing is shown *)
  Definition plot_series (l : list scan) (scan_range : option (list Z)) (q_min q_max : option R) : res (option (list (line fl fl))) :=
    match l with
    | [] => Ok None
    | _ =>
        lines <- match scan_range with
                 | None => mapM (draw_scan q_min q_max) l
                 | Some idx => mapM (fun i => s <- py_get l i ;; draw_scan q_min q_max s) idx
                 end ;;
        Ok (Some lines)
    end.
  (** scans.py 141-145: [append]; the second case is an object of another class *)
  Definition series_append {X} (l : list scan) (o : scan + X) : res (list scan) :=
    match o with inl s => Ok (l ++ [s])%list | inr _ => Raise TypeError end.
End Scans.
