(** Vocabulary for statements about fitting from data files. *)
From Coq Require Import Reals Lra.
From Verif Require Import Py Str Sample_Model Rng Arr Footprint_Model Scan_Model Spec_Model Fio_Model P08_Model Preproc_Model Preproc_Spec Interp_Model Simulation_Model
  Fitter_Model Fitter_Spec FileFitter_Model.
Local Open Scope R_scope.
Local Open Scope string_scope.

(** The options that arguments of [fit] stand for; simulated curves are always requested. *)
Definition as_requested (a : fit_args) (scaling : bool) (ns : Z) : options :=
  {| o_dq := fa_dq a; o_factor := fa_factor a; o_polish := fa_polish a; o_bounds := fa_bounds a; o_opt_q := fa_opt_q a; o_nq := fa_nq a;
     o_opt_scale := scaling; o_ns := ns; o_sim := true |}.

Section Histories.
  Context {S : Type} (g : rng S) (refl1d : option refl1d_fun) (pick : list fl -> nat) (cf : @curve_fit_fun S).
  Context (erf : R -> R) (to_float : string -> option fl) (depth : nat).

  (** What can happen to a SPEC fitter: its methods are called, or the files change. *)
  Inductive spec_op :=
  | SModel (m : nn_model) | SImport (ip : spec_import) | SFoot (fp : spec_foot) | SFile (path : string) | SDisk (fs : disk)
  | SFit (s : S) (n : Z) (a : fit_args) (opt_scale : bool) (ns : Z) (r : reload_arg)
  | SRange (s : S) (l : list Z) (a : fit_args) (r : reload_arg)
  | SShow (lo hi : option Z) (r : reload_arg).
  Definition spec_step (st : disk * spec_fitter) (op : spec_op) : disk * spec_fitter :=
    let '(fs, f) := st in
    match op with
    | SModel m => (fs, spec_set_model m f)
    | SImport ip => (fs, spec_set_import ip f)
    | SFoot fp => (fs, spec_set_foot fp f)
    | SFile p => (fs, fst (spec_set_file depth fs f p))
    | SDisk fs' => (fs', f)
    | SFit s n a os ns r => (fs, fst (spec_fit g refl1d pick cf erf to_float depth fs f s n a os ns r))
    | SRange s l a r => (fs, fst (spec_fit_range g refl1d pick cf erf to_float depth fs f s l a r))
    | SShow lo hi r => (fs, fst (spec_show depth fs f lo hi r))
    end.
  Definition spec_run (st : disk * spec_fitter) (h : list spec_op) : disk * spec_fitter := fold_left spec_step h st.
  Definition sets_spec_file (op : spec_op) : bool := match op with SFile _ => true | _ => false end.

  Inductive fio_op :=
  | FModel (m : nn_model) | FImport (ip : fio_import) | FFoot (fp : fio_foot) | FFile (stem : string) | FDisk (fs : disk) (md : media)
  | FFit (s : S) (n : Z) (a : fit_args) (roi : option (list Z)) (r : reload_arg)
  | FRange (s : S) (l : list Z) (a : fit_args) (roi : option (list Z)) (r : reload_arg)
  | FShow (lo hi : option Z) (r : reload_arg).
  Definition fio_step (st : disk * media * fio_fitter) (op : fio_op) : disk * media * fio_fitter :=
    let '(fs, md, f) := st in
    match op with
    | FModel m => (fs, md, fio_set_model m f)
    | FImport ip => (fs, md, fio_set_import ip f)
    | FFoot fp => (fs, md, fio_set_foot fp f)
    | FFile p => (fs, md, fst (fio_set_file to_float fs f p))
    | FDisk fs' md' => (fs', md', f)
    | FFit s n a roi r => (fs, md, fst (fio_fit g refl1d pick cf erf to_float fs md f s n a roi r))
    | FRange s l a roi r => (fs, md, fst (fio_fit_range g refl1d pick cf erf to_float fs md f s l a roi r))
    | FShow lo hi r => (fs, md, fst (fio_show to_float fs f lo hi r))
    end.
  Definition fio_run (st : disk * media * fio_fitter) (h : list fio_op) : disk * media * fio_fitter := fold_left fio_step h st.
  Definition sets_stem (op : fio_op) : bool := match op with FFile _ => true | _ => false end.
  (** Neither [set_file] nor a method that reloads *)
  Definition fio_quiet (op : fio_op) : bool :=
    match op with
    | FFile _ => false
    | FFit _ _ _ _ r | FRange _ _ _ _ r | FShow _ _ r => match r with ReloadKeyword b => negb b | _ => false end
    | _ => true
    end.

  (** Nothing that decides what a loader contains is touched. *)
  Definition spec_same (op : spec_op) : bool := match op with SModel _ | SFit _ _ _ _ _ _ | SRange _ _ _ _ | SShow _ _ _ => true | _ => false end.
  Definition fio_same_disk (op : fio_op) : bool := match op with FDisk _ _ => false | _ => true end.

  (** The settings that were made last *)
  Fixpoint spec_last_model (h : list spec_op) (m : option nn_model) : option nn_model :=
    match h with [] => m | SModel m' :: h' => spec_last_model h' (Some m') | _ :: h' => spec_last_model h' m end.
  Fixpoint fio_last_model (h : list fio_op) (m : option nn_model) : option nn_model :=
    match h with [] => m | FModel m' :: h' => fio_last_model h' (Some m') | _ :: h' => fio_last_model h' m end.
  Fixpoint fio_last_import (h : list fio_op) (m : option fio_import) : option fio_import :=
    match h with [] => m | FImport m' :: h' => fio_last_import h' (Some m') | _ :: h' => fio_last_import h' m end.
  Fixpoint fio_last_foot (h : list fio_op) (m : option fio_foot) : option fio_foot :=
    match h with [] => m | FFoot m' :: h' => fio_last_foot h' (Some m') | _ :: h' => fio_last_foot h' m end.

  (** What a new fitter with the given settings returns right after [set_file] *)
  Definition fresh_spec_fit (fs : disk) (m : option nn_model) (ip : option spec_import) (fp : option spec_foot) (path : string)
      (s : S) (n : Z) (a : fit_args) (os : bool) (ns : Z) : res (S * option fit_result) :=
    let '(f, x) := spec_set_file depth fs (mkSpecFitter m ip fp None None None) path in
    _ <- x ;; snd (spec_fit g refl1d pick cf erf to_float depth fs f s n a os ns (ReloadKeyword false)).
  Definition fresh_fio_fit (fs : disk) (md : media) (m : option nn_model) (ip : option fio_import) (fp : option fio_foot) (stem : string)
      (s : S) (n : Z) (a : fit_args) (roi : option (list Z)) : res (S * (fit_result + message)) :=
    let '(f, x) := fio_set_file to_float fs (mkFioFitter m ip fp None None) stem in
    _ <- x ;; snd (fio_fit g refl1d pick cf erf to_float fs md f s n a roi (ReloadKeyword false)).
End Histories.

(** A result with a table of one row with the columns [names] *)
Definition result_ok (names : list string) (r : fit_result) : Prop := shaped names 1 (r_params r) /\ r_index r = [r_scan r].

(** Entry [i] of every field of a series belongs to result [i]. *)
Definition series_entry (se : series) (i : nat) (r : fit_result) : Prop :=
  nth_error (se_scan se) i = Some (r_scan r) /\ nth_error (se_time se) i = Some (r_time r) /\ nth_error (se_corrected se) i = Some (r_corrected r) /\
  nth_error (se_q se) i = Some (r_q r) /\ nth_error (se_refl se) i = Some (r_refl r) /\ nth_error (se_qpred se) i = Some (r_qpred r) /\
  nth_error (se_shift se) i = Some (r_shift r) /\ nth_error (se_index se) i = Some (r_scan r) /\ frame_row (se_params se) i = frame_row (r_params r) 0.

Definition is_ok {A} (x : res A) : bool := match x with Ok _ => true | Raise _ => false end.
(** The angles of a scan, moved by an offset *)
Definition moved (sc : scan) (x : R) : scan :=
  mkScan (sc_number sc) (map (fun a => fadd a (Some x)) (sc_angle sc)) (sc_raw sc) (sc_wavelength sc) (sc_beam sc) (sc_sample sc) (sc_shape sc)
    (sc_norm sc) (sc_time sc).
(** The numbers that a listing mentions *)
Definition listed {A} (x : shown A) : Z := match x with Shown n _ => n | NotFound n => n end.

Section Contents.
  Context {S : Type} (g : rng S) (refl1d : option refl1d_fun) (pick : list fl -> nat) (cf : @curve_fit_fun S) (erf : R -> R).
  (** The result [r] holds the corrected curve of the scan and what [fit_curve] returned for it. *)
  Definition from_fit (m : nn_model) (sc : scan) (s s' : S) (a : fit_args) (o : options) (r : fit_result) : Prop :=
    corrected_intensity erf (moved sc (fa_offset a)) = Ok (r_corrected r) /\ scan_q (moved sc (fa_offset a)) = Ok (r_q r) /\ r_scan r = sc_number sc /\ r_time r = sc_time sc /\
    r_qpred r = map (fun x => x - fa_dq a) (nn_q m) /\ r_sample r = nn_sample m /\
    exists qs out cs, all_finite (r_q r) = Some qs /\ fit_curve g refl1d pick cf m s (A1 (r_corrected r)) qs o = Ok (s', out) /\
      fo_params out = r_params r /\ fo_refl out = Some cs /\ nth_error cs 0 = Some (r_refl r).
End Contents.

(** A value without a finite logarithm *)
Definition not_positive (x : fl) : Prop := match x with Some v => (v <= 0)%R | None => True end.
