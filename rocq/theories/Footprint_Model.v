(** Model of footprint correction, normalisation and unit conversion.
    Source: /repo/mlreflect/xrrloader/footprint/footprint.py, /repo/mlreflect/xrrloader/footprint/normalization.py,
    /repo/mlreflect/xrrloader/dataloader/transform.py and /repo/mlreflect/training/footprint.py.
    Arrays are lists of [fl]; arithmetic is exact; "not a finite number" is one value (see Arr.v), so curves that contain an
    infinity are treated like curves that contain NaN.  Beam width, sample length, ratio, wavelength and energy are Python
    floats (dividing by a zero one raises); [erf] is scipy's error function, a parameter. *)
From Coq Require Import Reals Lra.
From Verif Require Import Py Arr NRng.
Local Open Scope R_scope.
Local Open Scope string_scope.

(** [a < b] of two floats: false if one of them is NaN *)
Definition fltb (a b : fl) : bool :=
  match a, b with Some x, Some y => if Rlt_dec x y then true else false | _, _ => false end.
(** np.arcsin of a number: NaN outside [-1, 1] *)
Definition farcsin (x : R) : fl := if Rle_dec (Rabs x) 1 then Some (asin x) else None.
(** sin(angle / 2 * pi / 180) *)
Definition half_sin (a : R) : R := sin (a / 2 * PI / 180).
Definition fhalf_sin (a : fl) : fl := option_map half_sin a.
(** 2 * x / pi * 180 *)
Definition to_degrees (x : R) : R := 2 * x / PI * 180.
(** Division of two Python floats *)
Definition py_div (a b : R) : res R := if Req_EM_T b 0 then Raise ZeroDivisionError else Ok (a / b).
(** [a op b] of two one-dimensional arrays *)
Definition vec_op (f : fl -> fl -> fl) (a b : list fl) : res (list fl) :=
  n <- bdim (List.length a) (List.length b) ;; Ok (bop f n a b).
(** np.max: NaN if there is one, ValueError for an empty array *)
Definition fmax2 := lift2 Rmax.
Definition fmax (l : list fl) : res fl :=
  match l with [] => Raise ValueError | x :: l' => Ok (fold_left fmax2 l' x) end.

Section Correction.
Variable erf : R -> R.

(** footprint.py 28 (and training/footprint.py 57, 67): the spill-over angle *)
Definition max_angle (ratio : R) : fl := option_map to_degrees (farcsin ratio).
(** footprint.py 39-40: [beam_footprint_ratio], one angle *)
Definition footprint_ratio (ratio : R) (angle : fl) : fl := fdiv (Some ratio) (fhalf_sin angle).
(** footprint.py 27-31: [box_factors], one angle *)
Definition box_factor (ratio : R) (angle : fl) : fl :=
  if fltb angle (max_angle ratio) then footprint_ratio ratio angle else Some 1.
Definition box_factors (angles : list fl) (beam_width sample_length : R) : res (list fl) :=
  ratio <- py_div beam_width sample_length ;; Ok (map (box_factor ratio) angles).
(** footprint.py 34-36: [gaussian_factors], one angle.  A ratio of zero makes the argument of erf infinite, where erf is the
    sign of that infinity, i.e. of [sample_length * sin]. *)
Definition gaussian_factor (beam_width sample_length : R) (angle : fl) : fl :=
  match fhalf_sin angle with
  | None => None
  | Some s =>
      if Req_EM_T s 0 then None
      else if Req_EM_T beam_width 0 then Some (if Rlt_dec (sample_length * s) 0 then -1 else 1)
      else fdiv (Some 1) (Some (erf (sqrt (ln 2) / (beam_width / sample_length / s))))
  end.
Definition gaussian_factors (angles : list fl) (beam_width sample_length : R) : res (list fl) :=
  _ <- py_div beam_width sample_length ;; Ok (map (gaussian_factor beam_width sample_length) angles).
(** footprint.py 18-24: [_get_factors_by_beam_shape] *)
Definition get_factors (angles : list fl) (beam_width sample_length : R) (beam_shape : string) : res (list fl) :=
  if String.eqb beam_shape "gauss" then gaussian_factors angles beam_width sample_length
  else if String.eqb beam_shape "box" then box_factors angles beam_width sample_length
  else Raise ValueError.
(** footprint.py 6-9 *)
Definition apply_footprint_correction (intensity angles : list fl) (beam_width sample_length : R) (beam_shape : string) : res (list fl) :=
  factors <- get_factors angles beam_width sample_length beam_shape ;; vec_op fmul intensity factors.
(** footprint.py 12-15 *)
Definition remove_footprint_correction (intensity angles : list fl) (beam_width sample_length : R) (beam_shape : string) : res (list fl) :=
  factors <- get_factors angles beam_width sample_length beam_shape ;; vec_op fdiv intensity factors.
End Correction.

(** normalization.py 5-6, 9-10 *)
Definition normalize_to_max (intensity : list fl) : res (list fl) :=
  m <- fmax intensity ;; Ok (map (fun x => fdiv x m) intensity).
Definition normalize_to_first (intensity : list fl) : res (list fl) :=
  match intensity with [] => Raise IndexError | x0 :: _ => Ok (map (fun x => fdiv x x0) intensity) end.

(** transform.py 5-12 (and training/footprint.py 83-89): one value *)
Definition angle_to_q (angle wavelength : R) : res R :=
  k <- py_div (4 * PI) wavelength ;; Ok (k * half_sin angle).
Definition q_to_angle (q wavelength : R) : fl := option_map to_degrees (farcsin (q * wavelength / (4 * PI))).
(** transform.py 15-22 *)
Definition energy_to_wavelength (energy : R) : res R := x <- py_div (12398 / 10000) energy ;; Ok (x * 10000).
Definition wavelength_to_energy (wavelength : R) : res R := x <- py_div (12398 / 10000) wavelength ;; Ok (x * 10000).

(** ** training/footprint.py: FootprintRescaler (float arrays) *)
(** training/footprint.py 58-61: where the angle is below the spill-over angle the intensity is replaced.  A mask of another
    length than the array is an IndexError. *)
Definition masked (f : R -> fl -> fl -> fl) (intensity angles : list fl) (ratio : R) : res (list fl) :=
  if negb (Nat.eqb (List.length intensity) (List.length angles)) then Raise IndexError
  else Ok (map (fun ia => if fltb (snd ia) (max_angle ratio) then f ratio (fst ia) (snd ia) else fst ia) (combine intensity angles)).
(** training/footprint.py 55-63 *)
Definition apply_footprint : list fl -> list fl -> R -> res (list fl) :=
  masked (fun ratio i a => fdiv (fmul i (fhalf_sin a)) (Some ratio)).
(** training/footprint.py 65-73 *)
Definition correct_footprint : list fl -> list fl -> R -> res (list fl) :=
  masked (fun ratio i a => fmul (fdiv i (fhalf_sin a)) (Some ratio)).
(** training/footprint.py 75-77 *)
Definition rescale_to_max (rescaled original : list fl) : res (list fl) :=
  m <- fmax rescaled ;; m0 <- fmax original ;; Ok (map (fun x => fmul (fdiv x m) m0) rescaled).
(** training/footprint.py 79-81 (both arrays indexed at 0) *)
Definition rescale_to_first (rescaled original : list fl) : res (list fl) :=
  match rescaled with
  | [] => Raise IndexError
  | x0 :: _ => match original with [] => Raise IndexError | y0 :: _ => Ok (map (fun x => fmul (fdiv x x0) y0) rescaled) end
  end.
(** training/footprint.py 51-53 *)
Definition swap_footprints (reflectivity theta : list fl) (true_ratio new_ratio : R) : res (list fl) :=
  a <- apply_footprint reflectivity theta true_ratio ;; b <- correct_footprint a theta new_ratio ;; rescale_to_max b reflectivity.

Record rescaler := mkRescaler { fr_curves : list (list fl); fr_ratio : R; fr_errors : list R; fr_theta : list fl }.
(** training/footprint.py 21-35: the constructor, with the curves as the rows of the two-dimensional array *)
Definition rescaler_new (curves : list (list fl)) (true_ratio : R) (errors : list R) (q : option (list R)) (wavelength : option R)
    (theta : option (list fl)) : res rescaler :=
  match q, theta with
  | None, None => Raise ValueError
  | Some _, Some _ => Raise ValueError
  | Some q, None =>
      match wavelength with
      | None => Raise ValueError
      | Some w => Ok (mkRescaler curves true_ratio errors (map (fun x => q_to_angle x w) q))
      end
  | None, Some theta => Ok (mkRescaler curves true_ratio errors theta)
  end.
(** training/footprint.py 37-49: one ratio is drawn per curve *)
Fixpoint rescale_curves {S} (g : nrng S) (r : rescaler) (s : S) (curves : list (list fl)) : res (S * list (list fl * R)) :=
  match curves with
  | [] => Ok (s, [])
  | c :: curves' =>
      ' (s, e) <- np_choice g s (fr_errors r) ;;
      c' <- swap_footprints c (fr_theta r) (fr_ratio r) (fr_ratio r * e) ;;
      ' (s, rest) <- rescale_curves g r s curves' ;;
      Ok (s, (c', fr_ratio r * e) :: rest)
  end.
Definition rescaled_reflectivity {S} (g : nrng S) (r : rescaler) (s : S) : res (S * (list (list fl) * list R)) :=
  ' (s, out) <- rescale_curves g r s (fr_curves r) ;; Ok (s, (map fst out, map snd out)).
