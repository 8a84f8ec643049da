(** Model of the peak fits, the export and the plots of the P08 tools.
    Source: /repo/mlreflect/xrrloader/p08tools/P08ScanTools.py (449-476, 602-614, 617-1175).
    Numbers are exact; division by zero, logarithms of numbers that are not positive and everything computed from them is
    not finite.  scipy's fits are parameters.  A plot is the list of what it shows; a failing method leaves no result.
    Bare Exceptions are written as ValueError. *)
From Coq Require Import Reals Lra.
From Flocq Require Import Core.Raux.
From Verif Require Import Py Str Arr Footprint_Model Spec_Model Fio_Model P08_Model.
Local Open Scope R_scope.
Local Open Scope string_scope.

Definition fexp (a : fl) : fl := option_map exp a.
(** numpy.log10 *)
Definition flog10 (a : fl) : fl :=
  match a with Some x => if Rlt_dec 0 x then Some (ln x / ln 10) else None | None => None end.
(** x ** 2 *)
Definition fsqr (a : fl) : fl := fmul a a.

(** ** Peaks *)
(** P08ScanTools.py 1047-1048: the Gaussian with width, shift, intensity, background *)
Definition gauss_at (s m i b x : fl) : fl :=
  fadd (fmul (fdiv i (fsqrt (fmul (Some (2 * PI)) (fsqr s)))) (fexp (fmul (Some (- (1 / 2))) (fsqr (fdiv (fsub x m) s))))) b.
(** P08ScanTools.py 1028-1050: [_gauss] *)
Definition gauss (x : list fl) (params : list fl) : res (list fl) :=
  s <- py_get params 0 ;; m <- py_get params 1 ;; i <- py_get params 2 ;; b <- py_get params 3 ;;
  Ok (map (gauss_at s m i b) x).
(** P08ScanTools.py 1069: the Lorentzian with position, width, intensity, background *)
Definition lorentz_at (w g i b x : fl) : fl :=
  fadd (fdiv (fmul i (Some 1)) (fadd (fsqr (fsub (fsqr x) (fsqr w))) (fmul (fsqr g) (fsqr w)))) b.
(** P08ScanTools.py 1052-1071: [_lorentzian] *)
Definition lorentzian (x : list fl) (params : list fl) : res (list fl) :=
  w <- py_get params 0 ;; g <- py_get params 1 ;; i <- py_get params 2 ;; b <- py_get params 3 ;;
  Ok (map (lorentz_at w g i b) x).
(** P08ScanTools.py 1073-1089: [_pseudo_voigt] *)
Definition pseudo_voigt (x : list fl) (params : list fl) : res (list fl) :=
  p0 <- py_get params 0 ;; p1 <- py_get params 1 ;; p2 <- py_get params 2 ;; p3 <- py_get params 3 ;; p4 <- py_get params 4 ;;
  p5 <- py_get params 5 ;;
  g <- gauss x [p2; p0; p1; Some 0] ;; l <- lorentzian x [p0; p4; p3; Some 0] ;;
  s <- vec_op fadd g l ;; Ok (map (fun v => fadd v p5) s).
(** params[idx * k:idx * k + k] *)
Definition group (k : nat) (params : list fl) (idx : nat) : list fl :=
  py_slice params (Some (Z.of_nat (idx * k))) (Some (Z.of_nat (idx * k + k))).
(** P08ScanTools.py 962-979 and 982-1004: the sum of [nr] peaks of [k] parameters each and of the last parameter *)
Definition peak_sum (peak : list fl -> list fl -> res (list fl)) (k : nat) (x params : list fl) : res (list fl) :=
  sum <- foldM (fun result idx => p <- peak x (group k params idx ++ [Some 0])%list ;; vec_op fadd result p)
               (repeat (Some 0) (List.length x)) (seq 0 (List.length params / k)) ;;
  b <- py_get params (-1) ;; Ok (map (fun v => fadd v b) sum).
Definition multi_gauss := peak_sum gauss 3.
Definition multi_voigt := peak_sum pseudo_voigt 5.
(** P08ScanTools.py 1007-1025: [_gauss_lorentzian] *)
Definition gauss_lorentzian (x params : list fl) : res (list fl) :=
  if negb (Nat.eqb (List.length params) 7) then Raise ValueError else
  l <- lorentzian x (py_slice params (Some 0%Z) (Some 3%Z) ++ [Some 0])%list ;;
  g <- gauss x (py_slice params (Some 3%Z) (Some 6%Z) ++ [Some 0])%list ;;
  r <- vec_op fadd (repeat (Some 0) (List.length x)) l ;; r <- vec_op fadd r g ;;
  b <- py_get params (-1) ;; Ok (map (fun v => fadd v b) r).

(** ** ScanFitter *)
(** An entry of the dictionary of peaks: type and start values *)
Record peak := mkPeak { pk_type : string; pk_params : list fl }.
(** P08ScanTools.py 1158-1175: [plotCurves]: the labelled curves; "substrate" and "film" are dotted *)
Definition plot_curves (x : list fl) (ydata : list (string * list fl)) : res (list (string * string * list fl)) :=
  mapM (fun ky => if Nat.eqb (List.length (snd ky)) (List.length x)
                  then Ok (fst ky, (if String.eqb (fst ky) "substrate" || String.eqb (fst ky) "film" then ":" else "-"), snd ky)
                  else Raise ValueError) ydata.
(** P08ScanTools.py 626-631 and alike: the positions and the intensity of the region *)
Definition fit_data (s : fscan) (detector : string) (roi : list Z) : res (list fl * list fl) :=
  result <- extract_rois s [("fit_roi", roi)] ;;
  d <- match dict_get String.eqb result detector with Some d => Ok d | None => Raise KeyError end ;;
  y <- data_col d "fit_roi" ;;
  x <- py_get (f_positions s) 0 ;; _ <- py_get (f_motor_names s) 0 ;; Ok (x, y).
(** P08ScanTools.py 633-646 and 791-817: the first [k] start values of all peaks of the type, then the background of the last entry
    of the dictionary; without any entry the loop variable is not defined *)
Definition of_type (type : string) (peaks : list (string * peak)) : list (string * peak) :=
  filter (fun kp => String.eqb (pk_type (snd kp)) type) peaks.
Definition start_values (type : string) (k : nat) (peaks : list (string * peak)) : res (list fl) :=
  let params := List.concat (map (fun kp => py_slice (pk_params (snd kp)) (Some 0%Z) (Some (Z.of_nat k))) (of_type type peaks)) in
  match rev peaks with
  | [] => Raise UnboundLocalError
  | (_, p) :: _ => b <- py_get (pk_params p) (Z.of_nat k) ;; Ok (params ++ [b])%list
  end.
(** P08ScanTools.py 665-679 and 867-881: the curves of the single peaks *)
Definition add_peak_curves (curve : list fl -> list fl -> res (list fl)) (k : nat) (x p1 : list fl) (names : list string)
    (ydata : list (string * list fl)) : res (list (string * list fl)) :=
  foldM (fun d iname => b <- py_get p1 (-1) ;; c <- curve x (group k p1 (fst iname) ++ [b])%list ;; Ok (dict_set String.eqb d (snd iname) c))
        ydata (combine (seq 0 (List.length names)) names).

(** P08ScanTools.py 734: the weight of a point *)
Definition heaviside (a : fl) : fl := option_map (fun x => if Rlt_dec x 0 then 0 else 1) a.
Definition weight (p0 p1 p2 : fl) (x : fl) : fl :=
  fadd (fmul (fmul p2 (heaviside (fsub x p0))) (heaviside (fadd (fmul (Some (-1)) x) p1))) (Some 1).
(** P08ScanTools.py 655-656: errfunc of simpleFit *)
Definition simple_residual (x y p : list fl) : res (list fl) :=
  f <- multi_gauss x p ;; d <- vec_op fsub (map flog10 f) (map flog10 y) ;; Ok (map fabs d).
(** P08ScanTools.py 739-740: errfunc of gaussLorentzianFit *)
Definition gl_residual (w : list fl) (x y p : list fl) : res (list fl) :=
  p0 <- py_get w 0 ;; p1 <- py_get w 1 ;; p2 <- py_get w 2 ;;
  f <- gauss_lorentzian x p ;;
  d <- vec_op fsub (map (fun v => flog10 (fadd v (Some 1))) f) (map (fun v => flog10 (fadd v (Some 1))) y) ;;
  vec_op fmul (map (weight p0 p1 p2) x) (map fabs d).
(** P08ScanTools.py 840-845: the curve that multiVoigtFit fits, and the values that it is fitted to *)
Definition voigt_curve (x p : list fl) : res (list fl) := f <- multi_voigt x p ;; Ok (map (fun v => flog10 (fadd v (Some 1))) f).
Definition voigt_target (y : list fl) : list fl := map (fun v => flog10 (fadd v (Some (1 / 10)))) y.

Section Fits.
(** optimize.leastsq: residuals as function of the parameters, start values *)
Variable leastsq : (list fl -> res (list fl)) -> list fl -> res (list fl).
(** optimize.curve_fit: curve as function of the parameters, values, start values *)
Variable curve_fit : (list fl -> res (list fl)) -> list fl -> list fl -> res (list fl).

(** P08ScanTools.py 622-681: [simpleFit] *)
Definition simple_fit (s : fscan) (detector : string) (roi : list Z) (peaks : list (string * peak)) : res (list (string * string * list fl)) :=
  ' (x, y) <- fit_data s detector roi ;;
  params <- start_values "gauss" 3 peaks ;;
  p1 <- leastsq (simple_residual x y) params ;;
  _ <- multi_gauss x params ;;
  f <- multi_gauss x p1 ;;
  ydata <- add_peak_curves gauss 3 x p1 (map fst (of_type "gauss" peaks)) [("data", y); ("fit", f)] ;;
  plot_curves x ydata.

(** P08ScanTools.py 696-730: the start values; a second Gaussian is refused, a second Lorentzian is not (728 sets False) *)
Definition gl_step (st : list fl * list (string * peak) * bool) (kp : string * peak) : res (list fl * list (string * peak) * bool) :=
  let '(params, names, gauss_loaded) := st in
  if String.eqb (pk_type (snd kp)) "gauss" then
    if gauss_loaded then Raise ValueError else
    Ok (replace_slice 3 6 (py_slice (pk_params (snd kp)) (Some 0%Z) (Some 3%Z)) params, (names ++ [kp])%list, true)
  else if String.eqb (pk_type (snd kp)) "lorentzian" then
    b <- py_get (pk_params (snd kp)) 3 ;;
    params <- py_set (replace_slice 0 3 (py_slice (pk_params (snd kp)) (Some 0%Z) (Some 3%Z)) params) 6 b ;;
    Ok (params, (names ++ [kp])%list, gauss_loaded)
  else Ok st.
Definition gl_start (peaks : list (string * peak)) : res (list fl * list (string * peak)) :=
  if negb (Nat.eqb (List.length peaks) 2) then Raise ValueError else
  ' (params, names, _) <- foldM gl_step (repeat (Some 0) 7, [], false) peaks ;; Ok (params, names).
(** P08ScanTools.py 684-775: [gaussLorentzianFit] *)
Definition gauss_lorentzian_fit (s : fscan) (detector : string) (roi : list Z) (peaks : list (string * peak)) (weights : option (list fl))
    : res (list (string * string * list fl)) :=
  ' (x, y) <- fit_data s detector roi ;;
  ' (params, listed) <- gl_start peaks ;;
  let w := match weights with Some w => w | None => [Some 0; Some 1; Some 0] end in
  p1 <- leastsq (gl_residual w x y) params ;;
  start <- gauss_lorentzian x params ;;
  f <- gauss_lorentzian x p1 ;;
  ydata <- foldM (fun d kp =>
                    b <- py_get p1 (-1) ;;
                    c <- (if String.eqb (pk_type (snd kp)) "gauss"
                          then gauss x (py_slice p1 (Some 3%Z) (Some 6%Z) ++ [b])%list
                          else lorentzian x (py_slice p1 (Some 0%Z) (Some 3%Z) ++ [b])%list) ;;
                    Ok (dict_set String.eqb d (fst kp) c)) [("data", y); ("fit", f); ("start", start)] listed ;;
  plot_curves x ydata.

(** P08ScanTools.py 778-891: [multiVoigtFit]; None: the fit failed and nothing is shown *)
Definition multi_voigt_fit (s : fscan) (detector : string) (roi : list Z) (peaks : list (string * peak))
    : res (option (list (string * string * list fl))) :=
  ' (x, y) <- fit_data s detector roi ;;
  params <- start_values "voigt" 5 peaks ;;
  match curve_fit (voigt_curve x) (voigt_target y) params with
  | Raise _ => Ok None
  | Ok p2 =>
      before <- multi_voigt x params ;;
      f <- multi_voigt x p2 ;;
      ydata <- add_peak_curves pseudo_voigt 5 x p2 (map fst (of_type "voigt" peaks)) [("data", y); ("before_fit", before); ("log_fit", f)] ;;
      rmap Some (plot_curves x ydata)
  end.

(** optimize.curve_fit without start values for a curve with one parameter: the function gets the positions and the parameter *)
Variable curve_fit_one : (list fl -> fl -> res (list fl)) -> list fl -> list fl -> res (list fl).
(** P08ScanTools.py 927: fitfunc takes the parameters first, so it is called with the positions as parameters and the number as positions:
    [len] of a number is a TypeError (967) *)
Definition swapped_fitfunc (p : list fl) (x : fl) : res (list fl) := Raise TypeError.
(** P08ScanTools.py 905-959: [multiFit] *)
Definition multi_fit (s : fscan) (detector : string) (roi : list Z) (peaks : list (string * peak)) : res (list (string * string * list fl)) :=
  ' (x, y) <- fit_data s detector roi ;;
  params <- start_values "gauss" 3 peaks ;;
  p1 <- curve_fit_one swapped_fitfunc x y ;;
  _ <- multi_gauss x params ;;
  f <- multi_gauss x p1 ;;
  ydata <- add_peak_curves gauss 3 x p1 (map fst (of_type "gauss" peaks)) [("data", y); ("fit", f)] ;;
  plot_curves x ydata.
End Fits.

(** ** Export *)
(** P08ScanTools.py 452-458 and 1102-1108: the number of the motor with the given name, 0 if there is none *)
Definition motor_index (s : fscan) (name : option string) : nat :=
  match name with
  | None => O
  | Some n => match position n (f_motor_names s) with Some i => i | None => O end
  end.
(** P08ScanTools.py 449-476: [export2ascii]; [fmt4] and [fmt6] write "%6.4f" and "%f" *)
Definition export2ascii (fmt4 fmt6 : fl -> string) (fs : disk) (s : fscan) (detector : string) (roi : list Z) (filename : string)
    (xcol : option string) (bck : option (list Z)) : res disk :=
  let intensity name roi :=
    result <- extract_rois s [(name, roi)] ;;
    d <- match dict_get String.eqb result detector with Some d => Ok d | None => Raise KeyError end ;; data_col d name in
  y <- intensity "fit_roi" roi ;;
  y <- match bck with None => Ok y | Some b => z <- intensity "bck_int" b ;; vec_op fsub y z end ;;
  let i := Z.of_nat (motor_index s xcol) in
  x <- py_get (f_positions s) i ;; _ <- py_get (f_motor_names s) i ;;
  Ok (dict_set String.eqb fs filename (map (fun xy => fmt4 (fst xy) ++ " " ++ fmt6 (snd xy)) (combine x y))).
(** P08ScanTools.py 602-614: [writeHDF]; profiles of a line detector have too few dimensions (their stack is never empty) *)
Definition write_hdf (m : media) (filename : string) (s : fscan) : res media :=
  det <- py_get (f_detectors s) 0 ;;
  st <- match dict_get String.eqb (f_images s) det with Some st => Ok st | None => Raise KeyError end ;;
  match st with
  | S2 _ => Raise IndexError
  | S3 imgs => Ok (mkMedia (m_images m) (dict_set String.eqb (m_stacks m) filename imgs) (m_raw m))
  end.

(** ** ScanPlot *)
(** One panel: number of rows and columns of the grid, number, labels, positions and values *)
Record panel := mkPanel { pn_grid : Z; pn_number : Z; pn_ylabel : string; pn_xlabel : string; pn_x : list fl; pn_y : list fl }.
(** P08ScanTools.py 1124-1125, 1142: the area of a region *)
Definition roi_area (rois : list (string * list Z)) (key : string) : res Z :=
  r <- match dict_get String.eqb rois key with Some r => Ok r | None => Raise KeyError end ;;
  right <- py_get r 2 ;; left <- py_get r 0 ;; top <- py_get r 3 ;; bottom <- py_get r 1 ;; Ok ((right - left) * (top - bottom))%Z.
Definition divided (v : list fl) (area : Z) : list fl := map (fun a => fdiv a (Some (IZR area))) v.
(** P08ScanTools.py 1095-1155: [plotRois]; plt.subplot(k, k, n) is a ValueError unless 1 <= n <= k * k *)
Definition plot_rois (s : fscan) (detector : string) (rois : list (string * list Z)) (xcol : option string) : res (list panel) :=
  let i := Z.of_nat (motor_index s xcol) in
  x <- py_get (f_positions s) i ;; xname <- py_get (f_motor_names s) i ;;
  result <- extract_rois s rois ;;
  roi_intensity <- match dict_get String.eqb result detector with Some d => Ok d | None => Raise KeyError end ;;
  img_size <- match dict_get String.eqb (f_images s) detector with
              | Some (S3 l) => Ok (List.length l) | Some (S2 l) => Ok (List.length l) | None => Raise KeyError end ;;
  ' (background, nr_plots) <-
    match dict_get String.eqb roi_intensity "background" with
    | Some b => a <- roi_area rois "background" ;; Ok (divided b a, List.length roi_intensity - 1)%nat
    | None => Ok ([Some 0], List.length roi_intensity)
    end ;;
  let grid := Ztrunc (sqrt (INR nr_plots) + 1 / 2) in
  let keys := filter (fun k => negb (String.eqb k "background")) (sort_strings (map fst roi_intensity)) in
  mapM (fun ck =>
          let '(cnt, key) := ck in
          if negb ((1 <=? cnt)%Z && (cnt <=? grid * grid)%Z) then Raise ValueError else
          area <- (if String.eqb key "all" then Ok (Z.of_nat img_size) else roi_area rois key) ;;
          y <- data_col roi_intensity key ;;
          y <- vec_op fsub (divided y area) background ;;
          if Nat.eqb (List.length y) (List.length x) then Ok (mkPanel grid cnt key xname x y) else Raise ValueError)
       (combine (map Z.of_nat (seq 1 (List.length keys))) keys).
