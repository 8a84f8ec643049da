(** Model of fitting directly from data files.
    Source: /repo/mlreflect/curve_fitter/base_fitter.py, spec_fitter.py, fio_fitter.py and results.py (the data part; plots are
    not modelled, so [plot=False] throughout).
    A method returns the new state of the fitter next to its result, because assignments made before an exception stay. *)
From Coq Require Import Reals Lra.
From Verif Require Import Py Str Sample_Model Rng Arr Footprint_Model Scan_Model Spec_Model Fio_Model P08_Model Preproc_Model Interp_Model Simulation_Model Fitter_Model.
Local Open Scope R_scope.
Local Open Scope string_scope.

(** ** results.py *)
(** results.py 17-30: [FitResult]; the table and its index are separate fields. *)
Record fit_result := mkResult {
  r_scan : Z; r_time : option string; r_corrected : list fl; r_q : list fl; r_refl : list fl; r_qpred : list R;
  r_params : frame; r_index : list Z; r_shift : option R; r_sample : structure }.
(** results.py 26-27: the index assignment fails unless the table has one row. *)
Definition fit_result_new (n : Z) (time : option string) (corrected q refl : list fl) (qpred : list R) (params : frame) (shift : option R)
    (sample : structure) : res fit_result :=
  if Nat.eqb (fr_rows params) 1 then Ok (mkResult n time corrected q refl qpred params [n] shift sample) else Raise ValueError.

(** results.py 41-44: [curve_mse]; [round6] is numpy's rounding to six decimals. *)
Definition result_mse (round6 : R -> R) (r : fit_result) : res fl :=
  e <- mean_squared_error (A1 (map flog10 (r_refl r))) (A1 (map flog10 (r_corrected r))) ;;
  py_get (map (option_map round6) e) 0.

(** results.py 37-39: [interpolated_corrected_reflectivity]; q values that are not finite are not modelled (ValueError). *)
Definition result_interp (r : fit_result) : res (list fl) :=
  match all_finite (r_q r) with None => Raise ValueError | Some qs => interp_reflectivity (r_qpred r) qs (r_corrected r) end.

(** results.py 105-116: [FitResultSeries].  Arrays of curves are lists of curves (numpy 1.18 makes object arrays of curves of
    different lengths). *)
Record series := mkSeries {
  se_list : list fit_result; se_scan : list Z; se_time : list (option string); se_corrected : list (list fl); se_q : list (list fl);
  se_refl : list (list fl); se_qpred : list (list R); se_params : frame; se_index : list Z; se_shift : list (option R); se_sample : structure }.
Definition series_new (l : list fit_result) : res series :=
  params <- concat_frames (map r_params l) ;;
  first <- py_get l 0 ;;
  Ok (mkSeries l (map r_scan l) (map r_time l) (map r_corrected l) (map r_q l) (map r_refl l) (map r_qpred l) params
        (List.concat (map r_index l)) (map r_shift l) (r_sample first)).

(** results.py 118-124: [delta_t]; [strptime] gives seconds, [None] is a ValueError. *)
Definition delta_t (strptime : string -> option R) (se : series) : res (option (list R)) :=
  if existsb (fun t => match t with None => true | Some _ => false end) (se_time se) then Ok None
  else
    ts <- mapM (fun t => match t with
                         | None => Raise TypeError
                         | Some t => match strptime t with Some x => Ok x | None => Raise ValueError end
                         end) (se_time se) ;;
    ds <- mapM (fun x => t0 <- py_get ts 0 ;; Ok ((x - t0) / 60)) ts ;;
    Ok (Some ds).
(** results.py 126-128: [curve_mse] of a series asks every result for an attribute that FitResult does not have. *)
Definition series_mse (se : series) : res (list fl) := mapM (fun r : fit_result => Raise AttributeError) (se_list se).

(** ** base_fitter.py *)
(** How the argument [reload] is given *)
Inductive reload_arg := ReloadDefault | ReloadKeyword (b : bool) | ReloadPositional (b : bool).
(** base_fitter.py 18-35: [reload_scans]; the default of every decorated method is True. *)
Definition wants_reload (a : reload_arg) : bool := match a with ReloadKeyword b => b | _ => true end.

(** The numeric arguments that all [fit] and [fit_range] methods share *)
Record fit_args := mkArgs {
  fa_front : option Z; fa_back : option Z; fa_offset : R; fa_dq : R; fa_factor : R; fa_polish : bool; fa_bounds : list R;
  fa_opt_q : bool; fa_nq : Z }.
Definition args_options (a : fit_args) (opt_scale : bool) (ns : Z) : options :=
  mkOptions (fa_dq a) (fa_factor a) (fa_polish a) (fa_bounds a) (fa_opt_q a) (fa_nq a) opt_scale ns true.

(** base_fitter.py 81-93: [set_trained_model]; [load] reads a saved model.  Returns the new pair of model and curve fitter (the
    curve fitter is determined by the model). *)
Definition set_trained_model (load : string -> res nn_model) (old : option nn_model) (model : option nn_model) (path : option string)
    : option nn_model * res unit :=
  match model, path with
  | None, None | Some _, Some _ => (old, Raise ValueError)
  | Some m, None => (Some m, Ok tt)
  | None, Some p => match load p with Ok m => (Some m, Ok tt) | Raise e => (old, Raise e) end
  end.

Section FileFitter.
  Context {S : Type} (g : rng S) (refl1d : option refl1d_fun) (pick : list fl -> nat) (cf : @curve_fit_fun S).
  Context (erf : R -> R) (to_float : string -> option fl).

  Definition add_offset (sc : scan) (x : R) : scan :=
    mkScan (sc_number sc) (map (fun a => fadd a (Some x)) (sc_angle sc)) (sc_raw sc) (sc_wavelength sc) (sc_beam sc) (sc_sample sc) (sc_shape sc)
      (sc_norm sc) (sc_time sc).
  (** [fit_output['best_q_shift']] with None allowed (spec_fitter.py 81-84, 119-122) *)
  Definition shift_or_none (o : option (list R)) : res (option R) :=
    match o with None => Ok None | Some ds => d <- py_get ds 0 ;; Ok (Some d) end.
  (** ... and without (fio_fitter.py 71): None cannot be indexed. *)
  Definition shift_or_fail (o : option (list R)) : res (option R) :=
    match o with None => Raise TypeError | Some ds => d <- py_get ds 0 ;; Ok (Some d) end.

  (** spec_fitter.py 73-94 and 112-132, fio_fitter.py 64-81: offset, fit and result of a loaded scan.  Without a trained model there
      is no curve fitter (AttributeError).  Simplification: q values that are not finite are not modelled (ValueError). *)
  Definition fit_scan (shift : option (list R) -> res (option R)) (model : option nn_model) (s : S) (sc : scan) (a : fit_args) (o : options)
      : res (S * fit_result) :=
    let sc := add_offset sc (fa_offset a) in
    match model with
    | None => Raise AttributeError
    | Some m =>
        c <- corrected_intensity erf sc ;;
        q <- scan_q sc ;;
        match all_finite q with
        | None => Raise ValueError
        | Some qs =>
            '(s, out) <- fit_curve g refl1d pick cf m s (A1 c) qs o ;;
            refl <- match fo_refl out with None => Raise TypeError | Some cs => py_get cs 0 end ;;
            d <- shift (fo_shift out) ;;
            r <- fit_result_new (sc_number sc) (sc_time sc) c q refl (map (fun x => x - fa_dq a) (nn_q m)) (fo_params out) d (nn_sample m) ;;
            Ok (s, r)
        end
    end.

  (** ** spec_fitter.py *)
  (** spec_fitter.py 174-190: the import parameters; [None] in the fitter means that they were not set. *)
  Record spec_import := mkSpecImport { si_angles : list string; si_intensity : string; si_attenuator : option string; si_division : option string }.
  (** spec_fitter.py 192-217: the footprint parameters *)
  Record spec_foot := mkSpecFoot { sp_wavelength : R; sp_sample : R; sp_beam : R; sp_shape : string; sp_norm : string }.
  (** The attributes; [sf_spec] is [_spec_loader], which does not exist before [set_file] was called. *)
  Record spec_fitter := mkSpecFitter {
    sf_model : option nn_model; sf_import : option spec_import; sf_foot : option spec_foot; sf_file : option string;
    sf_loader : option loader; sf_spec : option loader }.
  (** base_fitter.py 41-48 *)
  Definition spec_fitter_new : spec_fitter := mkSpecFitter None None None None None None.
  (** base_fitter.py 81-93, spec_fitter.py 186-190 and 211-217: the setters *)
  Definition spec_set_model (m : nn_model) (f : spec_fitter) := mkSpecFitter (Some m) (sf_import f) (sf_foot f) (sf_file f) (sf_loader f) (sf_spec f).
  Definition spec_set_import (ip : spec_import) (f : spec_fitter) := mkSpecFitter (sf_model f) (Some ip) (sf_foot f) (sf_file f) (sf_loader f) (sf_spec f).
  Definition spec_set_foot (fp : spec_foot) (f : spec_fitter) := mkSpecFitter (sf_model f) (sf_import f) (Some fp) (sf_file f) (sf_loader f) (sf_spec f).

  Context (depth : nat).
  (** [SpecLoader(file, **import_params, **footprint_params)]: missing arguments and [open(None)] are TypeErrors. *)
  Definition spec_loader_new (fs : disk) (file : option string) (ip : option spec_import) (fp : option spec_foot) : res loader :=
    match ip, fp, file with
    | Some ip, Some fp, Some file =>
        match dict_get String.eqb fs file with
        | None => Raise FileNotFoundError
        | Some lines =>
            p <- spec_parser depth lines ;;
            Ok (mkLoader p (si_angles ip) (si_intensity ip) (sp_wavelength fp) (Some (sp_beam fp)) (Some (sp_sample fp)) (Some (sp_shape fp))
                  (Some (sp_norm fp)) (si_attenuator ip) (si_division ip))
        end
    | _, _, _ => Raise TypeError
    end.
  (** spec_fitter.py 169-172: [set_file] *)
  Definition spec_set_file (fs : disk) (f : spec_fitter) (path : string) : spec_fitter * res unit :=
    match spec_loader_new fs (Some path) (sf_import f) (sf_foot f) with
    | Ok d => (mkSpecFitter (sf_model f) (sf_import f) (sf_foot f) (Some path) (sf_loader f) (Some d), Ok tt)
    | Raise e => (f, Raise e)
    end.
  (** spec_fitter.py 219-220: [_reload_loader] *)
  Definition spec_reload (fs : disk) (f : spec_fitter) : spec_fitter * res unit :=
    match spec_loader_new fs (sf_file f) (sf_import f) (sf_foot f) with
    | Ok d => (mkSpecFitter (sf_model f) (sf_import f) (sf_foot f) (sf_file f) (Some d) (sf_spec f), Ok tt)
    | Raise e => (f, Raise e)
    end.
  Definition spec_before (fs : disk) (f : spec_fitter) (r : reload_arg) : spec_fitter * res unit :=
    if wants_reload r then spec_reload fs f else (f, Ok tt).

  (** spec_fitter.py 68-100: [fit] after the reload.  The handler of KeyError asks for an attribute [_spec_file] that does not exist. *)
  Definition spec_fit_body (f : spec_fitter) (s : S) (n : Z) (a : fit_args) (opt_scale : bool) (ns : Z) : res (S * option fit_result) :=
    match sf_spec f with
    | None => Raise AttributeError
    | Some d =>
        match load_scan to_float d n (fa_front a) (fa_back a) with
        | Raise KeyError => Raise AttributeError
        | Raise e => Raise e
        | Ok sc => '(s, r) <- fit_scan shift_or_none (sf_model f) s sc a (args_options a opt_scale ns) ;; Ok (s, Some r)
        end
    end.
  Definition spec_fit (fs : disk) (f : spec_fitter) (s : S) (n : Z) (a : fit_args) (opt_scale : bool) (ns : Z) (r : reload_arg)
      : spec_fitter * res (S * option fit_result) :=
    let '(f, x) := spec_before fs f r in (f, _ <- x ;; spec_fit_body f s n a opt_scale ns).

  (** spec_fitter.py 102-145: [fit_range]; [optimize_scaling] keeps its default of [fit_curve]. *)
  Definition spec_range_body (f : spec_fitter) (s : S) (l : list Z) (a : fit_args) : res (S * series) :=
    match sf_spec f with
    | None => Raise AttributeError
    | Some d =>
        scans <- load_scans to_float d l (fa_front a) (fa_back a) ;;
        '(s, rs) <- mapS (fun s sc => fit_scan shift_or_none (sf_model f) s sc a (args_options a false 300)) s scans ;;
        se <- series_new rs ;;
        Ok (s, se)
    end.
  Definition spec_fit_range (fs : disk) (f : spec_fitter) (s : S) (l : list Z) (a : fit_args) (r : reload_arg) : spec_fitter * res (S * series) :=
    let '(f, x) := spec_before fs f r in (f, _ <- x ;; spec_range_body f s l a).

  (** The lines that [show_scans] prints: the command and the time of a scan, or that it was not found *)
  Inductive shown (A : Type) := Shown (n : Z) (a : A) | NotFound (n : Z).
  Arguments Shown {A}. Arguments NotFound {A}.
  Definition z_max (l : list Z) : res Z := match l with [] => Raise ValueError | x :: l' => Ok (fold_left Z.max l' x) end.
  Definition z_min (l : list Z) : res Z := match l with [] => Raise ValueError | x :: l' => Ok (fold_left Z.min l' x) end.
  (** spec_fitter.py 152-160, fio_fitter.py 118-126: the range of numbers *)
  Definition shown_range (keys : list Z) (lo hi : option Z) : res (list Z) :=
    m <- z_max keys ;;
    let hi := match hi with None => m | Some h => Z.min h m end in
    m <- z_min keys ;;
    let lo := match lo with None => m | Some l => Z.max l m end in
    Ok (map (fun i => (lo + Z.of_nat i)%Z) (seq 0 (Z.to_nat (hi + 1 - lo)))).
  (** spec_fitter.py 147-167: [show_scans]; a missing time is a KeyError, too.  (Every entry has a command.) *)
  Definition spec_show_body (f : spec_fitter) (lo hi : option Z) : res (list (shown (option string * string))) :=
    match sf_spec f with
    | None => Raise AttributeError
    | Some d =>
        let idx := p_index (ld_parser d) in
        r <- shown_range (map fst idx) lo hi ;;
        Ok (map (fun i => match dict_get Z.eqb idx i with
                          | Some e => match e_time e with Some t => Shown i (e_command e, t) | None => NotFound i end
                          | None => NotFound i
                          end) r)
    end.
  Definition spec_show (fs : disk) (f : spec_fitter) (lo hi : option Z) (r : reload_arg) : spec_fitter * res (list (shown (option string * string))) :=
    let '(f, x) := spec_before fs f r in (f, _ <- x ;; spec_show_body f lo hi).

  (** ** fio_fitter.py *)
  (** fio_fitter.py 139-157: the import parameters *)
  Record fio_import := mkFioImport { fi_two_theta : string; fi_roi_name : string; fi_attenuator : option string; fi_division : option string }.
  (** The defaults of FioLoader (fio_loader.py 33-36) are used if they were not set. *)
  Definition fio_default : fio_import := mkFioImport "tt" "p100k_roi1" (Some "atten_position") None.
  (** fio_fitter.py 159-182: the footprint parameters *)
  Record fio_foot := mkFioFoot { ft_sample : R; ft_beam : R; ft_shape : string; ft_norm : string }.
  Record fio_fitter := mkFioFitter {
    ff_model : option nn_model; ff_import : option fio_import; ff_foot : option fio_foot; ff_file : option string; ff_loader : option fio_loader }.
  Definition fio_fitter_new : fio_fitter := mkFioFitter None None None None None.
  (** base_fitter.py 81-93, fio_fitter.py 151-157 and 175-182: the setters *)
  Definition fio_set_model (m : nn_model) (f : fio_fitter) := mkFioFitter (Some m) (ff_import f) (ff_foot f) (ff_file f) (ff_loader f).
  Definition fio_set_import (ip : fio_import) (f : fio_fitter) := mkFioFitter (ff_model f) (Some ip) (ff_foot f) (ff_file f) (ff_loader f).
  Definition fio_set_foot (fp : fio_foot) (f : fio_fitter) := mkFioFitter (ff_model f) (ff_import f) (Some fp) (ff_file f) (ff_loader f).
  (** [FioLoader(stem, **import_params, **footprint_params)] *)
  Definition fio_loader_make (fs : disk) (file : option string) (ip : option fio_import) (fp : option fio_foot) : res fio_loader :=
    match fp, file with
    | Some fp, Some stem =>
        let ip := match ip with Some ip => ip | None => fio_default end in
        fio_loader_new to_float fs stem (ft_beam fp) (ft_sample fp) (fi_two_theta ip) (fi_roi_name ip) (ft_shape fp) (Some (ft_norm fp)) (fi_attenuator ip)
          (fi_division ip)
    | _, _ => Raise TypeError
    end.
  (** fio_fitter.py 135-137: [set_file] *)
  Definition fio_set_file (fs : disk) (f : fio_fitter) (stem : string) : fio_fitter * res unit :=
    match fio_loader_make fs (Some stem) (ff_import f) (ff_foot f) with
    | Ok d => (mkFioFitter (ff_model f) (ff_import f) (ff_foot f) (Some stem) (Some d), Ok tt)
    | Raise e => (f, Raise e)
    end.
  (** fio_fitter.py 184-185: [_reload_loader] *)
  Definition fio_reload (fs : disk) (f : fio_fitter) : fio_fitter * res unit :=
    match fio_loader_make fs (ff_file f) (ff_import f) (ff_foot f) with
    | Ok d => (mkFioFitter (ff_model f) (ff_import f) (ff_foot f) (ff_file f) (Some d), Ok tt)
    | Raise e => (f, Raise e)
    end.
  Definition fio_before (fs : disk) (f : fio_fitter) (r : reload_arg) : fio_fitter * res unit :=
    if wants_reload r then fio_reload fs f else (f, Ok tt).

  (** fio_fitter.py 54-87: [fit] after the reload.  The result None comes with the printed message; its number and kind are kept. *)
  Inductive message := NotReflectivity (n : Z) | ScanNotFound (n : Z).
  Definition fio_fit_body (fs : disk) (md : media) (f : fio_fitter) (s : S) (n : Z) (a : fit_args) (roi : option (list Z))
      : res (S * (fit_result + message)) :=
    match ff_loader f with
    | None => Raise AttributeError
    | Some d =>
        match fio_load_scan to_float fs md d n (fa_front a) (fa_back a) roi "p100k" with
        | Raise NotReflectivityScanError => Ok (s, inr (NotReflectivity n))
        | Raise KeyError | Raise FileNotFoundError => Ok (s, inr (ScanNotFound n))
        | Raise e => Raise e
        | Ok sc => '(s, r) <- fit_scan shift_or_fail (ff_model f) s sc a (args_options a false 300) ;; Ok (s, inl r)
        end
    end.
  Definition fio_fit (fs : disk) (md : media) (f : fio_fitter) (s : S) (n : Z) (a : fit_args) (roi : option (list Z)) (r : reload_arg)
      : fio_fitter * res (S * (fit_result + message)) :=
    let '(f, x) := fio_before fs f r in (f, _ <- x ;; fio_fit_body fs md f s n a roi).
  Definition results_of (l : list (fit_result + message)) : list fit_result :=
    List.concat (map (fun x => match x with inl r => [r] | inr _ => [] end) l).
  (** fio_fitter.py 89-111: [fit_range]; the inner calls do not reload. *)
  Definition fio_range_body (fs : disk) (md : media) (f : fio_fitter) (s : S) (l : list Z) (a : fit_args) (roi : option (list Z)) : res (S * series) :=
    '(s, rs) <- mapS (fun s n => fio_fit_body fs md f s n a roi) s l ;;
    se <- series_new (results_of rs) ;;
    Ok (s, se).
  Definition fio_fit_range (fs : disk) (md : media) (f : fio_fitter) (s : S) (l : list Z) (a : fit_args) (roi : option (list Z)) (r : reload_arg)
      : fio_fitter * res (S * series) :=
    let '(f, x) := fio_before fs f r in (f, _ <- x ;; fio_range_body fs md f s l a roi).
  (** fio_fitter.py 113-133: [show_scans]; the information is read from the disk in any case. *)
  Definition fio_show_body (fs : disk) (f : fio_fitter) (lo hi : option Z) : res (list (shown (option string * bool))) :=
    match ff_loader f with
    | None => Raise AttributeError
    | Some d =>
        info <- scan_info to_float fs (fl_parser d) ;;
        r <- shown_range (map fst info) lo hi ;;
        Ok (map (fun i => match dict_get Z.eqb info i with
                          | Some (_, rd, b) => Shown i (r_command rd, b)
                          | None => NotFound i
                          end) r)
    end.
  Definition fio_show (fs : disk) (f : fio_fitter) (lo hi : option Z) (r : reload_arg) : fio_fitter * res (list (shown (option string * bool))) :=
    let '(f, x) := fio_before fs f r in (f, _ <- x ;; fio_show_body fs f lo hi).
End FileFitter.
Arguments Shown {A}.
Arguments NotFound {A}.
