(** Model of a loaded scan.
    Source: /repo/mlreflect/xrrloader/dataloader/scans.py and the static helpers of
    /repo/mlreflect/xrrloader/dataloader/reflectivity_loader.py.  Numerics as in Footprint_Model.v. *)
From Coq Require Import Reals Lra.
From Verif Require Import Py Arr Footprint_Model Interp_Model.
Local Open Scope R_scope.
Local Open Scope string_scope.

(** scans.py 27-43: the fields; plotting is not modelled *)
Record scan := mkScan {
  sc_number : Z;
  sc_angle : list fl;
  sc_raw : list fl;
  sc_wavelength : R;
  sc_beam : option R;
  sc_sample : option R;
  sc_shape : option string;
  sc_norm : option string;
  sc_time : option string }.

(** scans.py 120-124: [_replace_zeros] *)
Definition replace_zeros (l : list fl) : list fl :=
  map (fun a => match a with Some x => if Req_EM_T x 0 then Some (1 / 1000000) else Some x | None => None end) l.
(** scans.py 27-43: [__init__] *)
Definition scan_new (number : Z) (angle intensity : list fl) (wavelength : R) (beam sample : option R) (shape norm time : option string) : scan :=
  mkScan number (replace_zeros angle) intensity wavelength beam sample shape norm time.

(** scans.py 48-50: [q] *)
Definition scan_q (s : scan) : res (list fl) :=
  k <- py_div (4 * PI) (sc_wavelength s) ;; Ok (map (fun a => fmul (Some k) (fhalf_sin a)) (sc_angle s)).

Section Scan.
Variable erf : R -> R.

(** scans.py 97-101: [_correct_footprint] *)
Definition scan_correct (s : scan) : res (list fl) :=
  match sc_beam s, sc_sample s, sc_shape s with
  | Some b, Some l, Some shape => apply_footprint_correction erf (sc_raw s) (sc_angle s) b l shape
  | _, _, _ => Raise ValueError
  end.
(** scans.py 103-111: [_normalize] *)
Definition scan_normalize (norm : option string) (intensity : list fl) : res (list fl) :=
  match norm with
  | None => Ok intensity
  | Some n => if String.eqb n "max" then normalize_to_max intensity
              else if String.eqb n "first" then normalize_to_first intensity
              else Raise ValueError
  end.
(** scans.py 52-59: [corrected_intensity]; a ValueError of the correction is swallowed *)
Definition corrected_intensity (s : scan) : res (list fl) :=
  intensity <- match scan_correct s with Raise ValueError => Ok (sc_raw s) | x => x end ;;
  scan_normalize (sc_norm s) intensity.

(** np.argmin: the first NaN if there is one, otherwise the first minimum *)
Fixpoint argmin_from (best : R) (bi i : nat) (l : list fl) : nat :=
  match l with
  | [] => bi
  | None :: _ => i
  | Some x :: l' => if Rlt_dec x best then argmin_from x i (S i) l' else argmin_from best bi (S i) l'
  end.
Definition argmin (l : list fl) : res nat :=
  match l with [] => Raise ValueError | None :: _ => Ok 0%nat | Some x :: l' => Ok (argmin_from x 0 1 l') end.
(** scans.py 113-118: [_get_closest_index] *)
Definition closest_index (value : option R) (a : list fl) : res (option nat) :=
  match value with
  | None => Ok None
  | Some v => i <- argmin (map (fun x => option_map Rabs (fsub x (Some v))) a) ;; Ok (Some i)
  end.
(** scans.py 61-77: the common part of the range getters: the slice bounds *)
Definition range_bounds (s : scan) (q_min q_max : option R) : res (option nat * option nat) :=
  q <- scan_q s ;; lo <- closest_index q_min q ;; hi <- closest_index q_max q ;; Ok (lo, hi).
Definition cut {A} (b : option nat * option nat) (l : list A) : list A :=
  py_slice l (option_map Z.of_nat (fst b)) (option_map Z.of_nat (snd b)).
Definition get_raw_intensity_range (s : scan) (q_min q_max : option R) : res (list fl) :=
  b <- range_bounds s q_min q_max ;; Ok (cut b (sc_raw s)).
Definition get_corrected_intensity_range (s : scan) (q_min q_max : option R) : res (list fl) :=
  b <- range_bounds s q_min q_max ;; c <- corrected_intensity s ;; Ok (cut b c).
Definition get_q_range (s : scan) (q_min q_max : option R) : res (list fl) :=
  b <- range_bounds s q_min q_max ;; q <- scan_q s ;; Ok (cut b q).
End Scan.

(** scans.py 130-139: [ScanSeries.stats] *)
Definition fmin2 := lift2 Rmin.
Definition fmin (l : list fl) : res fl :=
  match l with [] => Raise ValueError | x :: l' => Ok (fold_left fmin2 l' x) end.
Definition scan_stats (s : scan) : res (nat * fl * fl) :=
  q <- scan_q s ;; a <- fmin q ;; q <- scan_q s ;; b <- fmax q ;; Ok (List.length (sc_angle s), a, b).
Definition series_stats (l : list scan) : res (list (nat * fl * fl)) := mapM scan_stats l.

(** ** reflectivity_loader.py *)
(** reflectivity_loader.py 29-32: [apply_attenuation] *)
Definition apply_attenuation (intensity attenuation : list fl) : res (list fl) := vec_op fmul intensity attenuation.
(** reflectivity_loader.py 35-42: [correct_discontinuities].  [i] counts the differences still to be looked at, from the
    front; the tail is rescaled in place.  An intensity array shorter than the angles is an IndexError when reached. *)
Definition scale_tail (k : nat) (factor : fl) (l : list fl) : list fl :=
  firstn k l ++ map (fun x => fmul x factor) (skipn k l).
Definition feqb (a b : fl) : bool :=
  match a, b with Some x, Some y => if Req_EM_T x y then true else false | _, _ => false end.
Definition kink_step (angle : list fl) (intensity : list fl) (i : nat) : res (list fl) :=
  a <- py_get angle (Z.of_nat i) ;; b <- py_get angle (Z.of_nat (i + 1)) ;;
  if feqb (fsub b a) (Some 0) then
    x <- py_get intensity (Z.of_nat i) ;; y <- py_get intensity (Z.of_nat (i + 1)) ;;
    Ok (scale_tail (i + 1) (fdiv x y) intensity)
  else Ok intensity.
Definition correct_discontinuities (intensity angle : list fl) : res (list fl) :=
  foldM (kink_step angle) intensity (seq 0 (List.length angle - 1)).
(** reflectivity_loader.py 45-48: [apply_normalization] (in-place division keeps the shape of the intensity) *)
Definition apply_normalization (intensity normalization : list fl) : res (list fl) :=
  n <- bdim (List.length intensity) (List.length normalization) ;;
  if Nat.eqb n (List.length intensity) then Ok (bop fdiv n intensity normalization) else Raise ValueError.
(** reflectivity_loader.py 54-60: [_trim_back], [_trim_front] *)
Definition trim_back {A} (cutoff : Z) (l : list A) : list A := py_slice l None (Some (- cutoff)%Z).
Definition trim_front {A} (cutoff : Z) (l : list A) : list A := py_slice l (Some cutoff) None.
