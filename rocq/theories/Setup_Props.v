(** Property C175: the order in which a file fitter is set up. *)
From Coq Require Import Reals.
From Verif Require Import Py Str Arr Rng Spec_Model Fio_Model P08_Model Fitter_Model FileFitter_Model FileFitter_Spec FileFitter_Props Fio_Props Scan_Props Spec_Props Fitter_Props Setup_Spec Setup_Proofs.
Local Open Scope string_scope.

(** ** C175 *)
(** As long as [set_file] was not called, every method raises and changes nothing, whatever happened before. *)
Theorem C175_spec_no_file S (g : rng S) refl1d pick cf erf to_float depth fs h : Forall (fun op => sets_spec_file op = false) h ->
  let st := spec_run g refl1d pick cf erf to_float depth (fs, spec_fitter_new) h in forall r,
  (forall s n a os ns, spec_fit g refl1d pick cf erf to_float depth (fst st) (snd st) s n a os ns r = (snd st, Raise (error_without_file r))) /\
  (forall s l a, spec_fit_range g refl1d pick cf erf to_float depth (fst st) (snd st) s l a r = (snd st, Raise (error_without_file r))) /\
  (forall lo hi, spec_show depth (fst st) (snd st) lo hi r = (snd st, Raise (error_without_file r))).
Proof. intros H st. destruct (spec_run_no_file g refl1d pick cf erf to_float depth h fs spec_fitter_new H eq_refl eq_refl) as [E1 E2]. exact (spec_no_file g refl1d pick cf erf to_float depth (fst st) (snd st) E1 E2). Qed.
Print Assumptions C175_spec_no_file.
Theorem C175_fio_no_file S (g : rng S) refl1d pick cf erf to_float fs md h : Forall (fun op => sets_stem op = false) h ->
  let st := fio_run g refl1d pick cf erf to_float (fs, md, fio_fitter_new) h in forall r,
  (forall s n a roi, fio_fit g refl1d pick cf erf to_float (fst (fst st)) (snd (fst st)) (snd st) s n a roi r = (snd st, Raise (error_without_file r))) /\
  (forall s n l a roi, fio_fit_range g refl1d pick cf erf to_float (fst (fst st)) (snd (fst st)) (snd st) s (n :: l) a roi r = (snd st, Raise (error_without_file r))) /\
  (forall lo hi, fio_show to_float (fst (fst st)) (snd st) lo hi r = (snd st, Raise (error_without_file r))).
Proof. intros H st. destruct (fio_run_no_file g refl1d pick cf erf to_float h fs md fio_fitter_new H eq_refl eq_refl) as [E1 E2]. exact (fio_no_file g refl1d pick cf erf to_float (fst (fst st)) (snd (fst st)) (snd st) E1 E2). Qed.
Print Assumptions C175_fio_no_file.

(** [set_file] needs the parameters first: import and footprint parameters for SPEC files, footprint parameters for FIO files. *)
Theorem C175_spec_parameters_first S (g : rng S) refl1d pick cf erf to_float depth fs h path : let st := spec_run g refl1d pick cf erf to_float depth (fs, spec_fitter_new) h in
  Forall (fun op => sets_import op = false) h \/ Forall (fun op => sets_foot op = false) h -> spec_set_file depth (fst st) (snd st) path = (snd st, Raise TypeError).
Proof. exact (spec_parameters_first g refl1d pick cf erf to_float depth fs h path). Qed.
Print Assumptions C175_spec_parameters_first.
Theorem C175_fio_parameters_first S (g : rng S) refl1d pick cf erf to_float fs md h stem : let st := fio_run g refl1d pick cf erf to_float (fs, md, fio_fitter_new) h in
  Forall (fun op => sets_fio_foot op = false) h -> fio_set_file to_float (fst (fst st)) (snd st) stem = (snd st, Raise TypeError).
Proof. exact (fio_parameters_first g refl1d pick cf erf to_float fs md h stem). Qed.
Print Assumptions C175_fio_parameters_first.

(** With them it works for every readable file; the loader then has the parameters that were set last, in whatever order they were set. *)
Theorem C175_spec_ready S (g : rng S) refl1d pick cf erf to_float depth fs h path ip fp : let st := spec_run g refl1d pick cf erf to_float depth (fs, spec_fitter_new) h in
  spec_last_import h None = Some ip -> spec_last_foot h None = Some fp ->
  match dict_get String.eqb (fst st) path with
  | None => spec_set_file depth (fst st) (snd st) path = (snd st, Raise FileNotFoundError)
  | Some lines => match spec_parser depth lines with
                  | Raise e => spec_set_file depth (fst st) (snd st) path = (snd st, Raise e)
                  | Ok index => exists f', spec_set_file depth (fst st) (snd st) path = (f', Ok tt) /\ sf_model f' = spec_last_model h None /\
                      sf_spec f' = Some (mkLoader index (si_angles ip) (si_intensity ip) (sp_wavelength fp) (Some (sp_beam fp)) (Some (sp_sample fp)) (Some (sp_shape fp)) (Some (sp_norm fp))
                        (si_attenuator ip) (si_division ip))
                  end
  end.
Proof. exact (spec_ready g refl1d pick cf erf to_float depth fs h path ip fp). Qed.
Print Assumptions C175_spec_ready.
(** For FIO files the import parameters have defaults. *)
Theorem C175_fio_ready S (g : rng S) refl1d pick cf erf to_float fs md h stem fp : let st := fio_run g refl1d pick cf erf to_float (fs, md, fio_fitter_new) h in
  let ip := match fio_last_import h None with Some ip => ip | None => mkFioImport "tt" "p100k_roi1" (Some "atten_position") None end in
  fio_last_foot h None = Some fp ->
  match fio_parser_new to_float (fst (fst st)) stem "om" "tt" with
  | Raise e => fio_set_file to_float (fst (fst st)) (snd st) stem = (snd st, Raise e)
  | Ok parser => exists f', fio_set_file to_float (fst (fst st)) (snd st) stem = (f', Ok tt) /\ ff_model f' = fio_last_model h None /\
      ff_loader f' = Some (mkFioLoader parser (fi_two_theta ip) (fi_roi_name ip) (ft_beam fp) (ft_sample fp) (ft_shape fp) (Some (ft_norm fp)) (fi_attenuator ip) (fi_division ip))
  end.
Proof. exact (fio_ready g refl1d pick cf erf to_float fs md h stem fp). Qed.
Print Assumptions C175_fio_ready.

(** Without a trained model a scan that can be loaded cannot be fitted. *)
Theorem C175_no_model S (g : rng S) refl1d pick cf erf to_float fs md f f2 d d2 s n a os ns roi sc :
  (sf_model f = None -> sf_spec f = Some d -> load_scan to_float d n (fa_front a) (fa_back a) = Ok sc -> spec_fit_body g refl1d pick cf erf to_float f s n a os ns = Raise AttributeError) /\
  (ff_model f2 = None -> ff_loader f2 = Some d2 -> fio_load_scan to_float fs md d2 n (fa_front a) (fa_back a) roi "p100k" = Ok sc -> fio_fit_body g refl1d pick cf erf to_float fs md f2 s n a roi = Raise AttributeError).
Proof. exact (conj (spec_no_model g refl1d pick cf erf to_float f d s n a os ns sc) (fio_no_model g refl1d pick cf erf to_float fs md f2 d2 s n a roi sc)). Qed.
Print Assumptions C175_no_model.

Definition ux_history : list (@spec_op nat) := [SFoot sx_foot; SShow None None ReloadDefault; SImport sx_import; SModel ex_nn; SDisk sx_disk].
Example C175_example : Forall (fun op => sets_spec_file op = false) ux_history /\ spec_last_import ux_history None = Some sx_import /\ spec_last_foot ux_history None = Some sx_foot /\
  exists f', spec_set_file 10 (fst (spec_run ex_rng None ex_pick ex_cf clip ex_float 10 ([], spec_fitter_new) ux_history)) (snd (spec_run ex_rng None ex_pick ex_cf clip ex_float 10 ([], spec_fitter_new) ux_history)) "run.spec" = (f', Ok tt).
Proof. split; [repeat constructor|]. split; [reflexivity|]. split; [reflexivity|]. eexists. reflexivity. Qed.
