(** Properties C73-C78, C80, C106-C108 and C111-C113: fitting from data files. *)
From Coq Require Import Reals Lra Sorted.
From Verif Require Import Py Str Sample_Model Sample_Spec Sample_Props Sampling_Spec Labels_Proofs Training_Props Rng Arr Footprint_Model Footprint_Spec Scan_Model Scan_Spec Scan_Proofs Scan_Props
  Spec_Model Fio_Model P08_Model SpecFile_Spec SpecLoader_Spec FioFile_Spec P08_Spec P08Scan_Spec Spec_Proofs SpecLoader_Proofs Spec_Props Fio_Proofs P08Loader_Proofs FioLoader_Proofs Fio_Props
  Preproc_Model Preproc_Spec Interp_Model Simulation_Model Fitter_Model Fitter_Spec Fitter_Proofs FitterOut_Proofs Choice_Proofs Fitter_Props
  FileFitter_Model FileFitter_Spec FileFitter_Proofs FileRange_Proofs.
Local Open Scope R_scope.
Local Open Scope string_scope.

(** ** Examples *)
(** A SPEC fitter for the file of C96, without optimisation and polishing *)
Definition sx_import := mkSpecImport ["om"; "del t"] "det" None None.
Definition sx_foot := mkSpecFoot 1 20 1 "gauss" "max".
Definition sx_disk : disk := [("run.spec", Spec_Props.ex_file)].
Definition sx_new : spec_fitter := mkSpecFitter (Some ex_nn) (Some sx_import) (Some sx_foot) None None None.
Definition sx_fitter : spec_fitter := fst (spec_set_file 10 sx_disk sx_new "run.spec").
Definition sx_scaled (k : R) (opt_q : bool) : fit_args := mkArgs None None 0 0 k false [1/2; 1/2; 1/10] opt_q 3.
Notation sx_args := (sx_scaled 1).
Lemma sx_set : spec_set_file 10 sx_disk sx_new "run.spec" = (sx_fitter, Ok tt).
Proof. reflexivity. Qed.
Lemma sx_load : exists d, sf_spec sx_fitter = Some d /\ map fst (p_index (ld_parser d)) = [5; 7]%Z /\
  load_scan ex_float d 5 None None = Ok (mkScan 5 (map Some [1; 3]) (map Some [8; 4]) 1 (Some 1) (Some 20) (Some "gauss") (Some "max") (Some "Mon Nov 16")).
Proof. destruct ex_load as (p & Hp & H). exists (mkLoader p ["om"; "del t"] "det" 1 (Some 1) (Some 20) (Some "gauss") (Some "max") None None). split.
  - unfold sx_fitter, spec_set_file, spec_loader_new. cbn [sf_import sf_foot sf_model sx_new sx_import sx_foot sx_disk dict_get]. change (String.eqb "run.spec" "run.spec") with true. cbv iota. rewrite Hp. reflexivity.
  - split; [injection Hp as <-; reflexivity|]. apply (H (mkLoader p ["om"; "del t"] "det" 1 (Some 1) (Some 20) (Some "gauss") (Some "max") None None)); reflexivity. Qed.
Lemma moved_0 A : map (fun x => x + 0) A = A.
Proof. rewrite <- (map_id A) at 2. apply map_ext. intros. lra. Qed.
Lemma sx_samples o k : samples_ok (args_options (sx_scaled k o) false 300).
Proof. split; cbn; [lia|discriminate]. Qed.
Lemma sx_fit_scaled k opt_q : exists s' r, spec_fit_body ex_rng None ex_pick ex_cf clip ex_float sx_fitter 0%nat 5 (sx_scaled k opt_q) false 300 = Ok (s', Some r).
Proof. destruct sx_load as (d & Ed & _ & El).
  destruct (scan_fits ex_rng None ex_pick ex_cf clip shift_or_none ex_nn Training_Props.ex_names 0%nat
    (mkScan 5 (map Some [1; 3]) (map Some [8; 4]) 1 (Some 1) (Some 20) (Some "gauss") (Some "max") (Some "Mon Nov 16")) (sx_scaled k opt_q) (args_options (sx_scaled k opt_q) false 300) [1; 3] [8; 4]
    ex_rng_ok ex_pick_ok ex_fittable ex_network (sx_samples opt_q k) eq_refl eq_refl clip_pos) as (s' & r & E).
  - split; cbn; intros x E; injection E as <-; lra.
  - cbn. lra.
  - reflexivity.
  - reflexivity.
  - cbn [fa_offset sx_scaled]. rewrite moved_0. repeat constructor; lra.
  - reflexivity.
  - repeat constructor; lra.
  - discriminate.
  - left. reflexivity.
  - intros [|x ds] N; [congruence|]. exists (Some x). reflexivity.
  - left. exists None. reflexivity.
  - exists s', r. unfold spec_fit_body. rewrite Ed. cbn [fa_front fa_back sx_scaled]. rewrite El. change (sf_model sx_fitter) with (Some ex_nn). rewrite E. reflexivity. Qed.

Lemma sx_fit opt_q : exists s' r, spec_fit_body ex_rng None ex_pick ex_cf clip ex_float sx_fitter 0%nat 5 (sx_args opt_q) false 300 = Ok (s', Some r).
Proof. exact (sx_fit_scaled 1 opt_q). Qed.

(** A FIO fitter for the file of C102 *)
Definition tx_foot := mkFioFoot 20 1 "gauss" "max".
Definition tx_loader : fio_loader := mkFioLoader (mkFioParser "data/x" "om" "tt") "tt" "p100k_roi1" 1 20 "gauss" (Some "max") (Some "atten_position") None.
Definition tx_new : fio_fitter := mkFioFitter (Some ex_nn) None (Some tx_foot) None None.
Definition tx_fitter : fio_fitter := mkFioFitter (Some ex_nn) None (Some tx_foot) (Some "data/x") (Some tx_loader).
Lemma tx_set : fio_set_file fx_float fx_disk tx_new "data/x" = (tx_fitter, Ok tt).
Proof. reflexivity. Qed.
Lemma tx_load det : fio_load_scan fx_float fx_disk fx_stack tx_loader 1 None None None det =
  Ok (mkScan 1 [nonzero (Some 1); nonzero (Some 3)] [Some (5 * 2); Some (7 * 3)] (12380 / 12380) (Some 1) (Some 20) (Some "gauss") (Some "max") None).
Proof. eapply (C102_loaded_partial fx_float fx_disk fx_stack tx_loader 1 fx_file [] fx_comments fx_params fx_columns fx_lines fx_names fx_motors fx_rois fx_rows
    "a2scan om 1 2 tt 1 2 1 1" "a2scan" "om" "1" "2" "tt" ["1"; "2"; "1"; "1"] _ 12380 (map Some [5 * 2; 7 * 3]));
    [reflexivity|exact fx_layout|exact fx_table|exact fx_block|..].
  - repeat constructor; cbn; intuition discriminate.
  - repeat constructor; cbn; intuition discriminate.
  - exact fx_numbers.
  - repeat constructor.
  - discriminate.
  - reflexivity.
  - left. reflexivity.
  - exact (proj1 C99_example).
  - left. reflexivity.
  - right. left. reflexivity.
  - left. reflexivity.
  - right. left. reflexivity.
  - intros rois. apply only_pilatus with (x := S3 [fx_picture1; fx_picture2]).
    + intros d [<-|[<-|[<-|[]]]]; cbn; intuition discriminate.
    + left. reflexivity.
    + reflexivity.
    + apply (C64_all_present_partial fx_stack "data" "x_00001" "p100k" 2 2 [1%N; 2%N]).
      * intros path im [H|[H|[]]]; injection H as <- <-; split; repeat constructor.
      * intros path im [H|[H|[]]]; injection H as <- <-; reflexivity.
      * reflexivity.
      * discriminate.
      * repeat constructor.
  - left. reflexivity.
  - lra.
  - right. left. reflexivity.
  - do 3 right. left. reflexivity.
  - reflexivity.
  - split; [do 4 right; left; reflexivity|]. exact (no_kinks (map Some [5 * 2; 7 * 3]) (map Some [1; 3]) fx_angles). Qed.
Lemma tx_scan_fits shift opt_q : (forall ds, ds <> [] -> exists d, shift (Some ds) = Ok d) -> (exists d, shift None = Ok d) \/ opt_q = true ->
  exists s' r, fit_scan ex_rng None ex_pick ex_cf clip shift (Some ex_nn) 0%nat
    (mkScan 1 [nonzero (Some 1); nonzero (Some 3)] [Some (5 * 2); Some (7 * 3)] (12380 / 12380) (Some 1) (Some 20) (Some "gauss") (Some "max") None)
    (sx_args opt_q) (args_options (sx_args opt_q) false 300) = Ok (s', r).
Proof. intros H1 H2. apply (scan_fits ex_rng None ex_pick ex_cf clip shift ex_nn Training_Props.ex_names 0%nat
    (mkScan 1 [nonzero (Some 1); nonzero (Some 3)] [Some (5 * 2); Some (7 * 3)] (12380 / 12380) (Some 1) (Some 20) (Some "gauss") (Some "max") None)
    (sx_args opt_q) (args_options (sx_args opt_q) false 300) [1; 3] [5 * 2; 7 * 3]
    ex_rng_ok ex_pick_ok ex_fittable ex_network (sx_samples opt_q 1) eq_refl eq_refl clip_pos).
  - split; cbn; intros x E; injection E as <-; lra.
  - cbn. lra.
  - unfold nonzero. cbn [sc_angle map]. destruct (Req_EM_T 1 0); [lra|]. destruct (Req_EM_T 3 0); [lra|]. reflexivity.
  - reflexivity.
  - cbn [fa_offset sx_scaled]. rewrite moved_0. repeat constructor; lra.
  - reflexivity.
  - repeat constructor; lra.
  - discriminate.
  - left. reflexivity.
  - exact H1.
  - exact H2. Qed.
Lemma tx_fit : exists s' r, fio_fit_body ex_rng None ex_pick ex_cf clip fx_float fx_disk fx_stack tx_fitter 0%nat 1 (sx_args true) None = Ok (s', inl r).
Proof. destruct (tx_scan_fits shift_or_fail true) as (s' & r & E); [intros [|x ds] N; [congruence|exists (Some x); reflexivity]|right; reflexivity|].
  exists s', r. unfold fio_fit_body. change (ff_loader tx_fitter) with (Some tx_loader). cbv iota. cbn [fa_front fa_back sx_scaled]. rewrite tx_load.
  change (ff_model tx_fitter) with (Some ex_nn). rewrite E. reflexivity. Qed.

(** ** C73 *)
(** Right after [set_file], and as long as neither the file nor the parameters change, every fit uses the file. *)
Theorem C73_unchanged_partial S (g : rng S) refl1d pick cf erf to_float depth fs f path f' h s n a os ns r :
  spec_set_file depth fs f path = (f', Ok tt) -> Forall (fun op => spec_same op = true) h ->
  let st := spec_run g refl1d pick cf erf to_float depth (fs, f') h in
  snd (spec_fit g refl1d pick cf erf to_float depth (fst st) (snd st) s n a os ns r) =
  fresh_spec_fit g refl1d pick cf erf to_float depth (fst st) (sf_model (snd st)) (sf_import (snd st)) (sf_foot (snd st)) path s n a os ns.
Proof. exact (spec_unchanged g refl1d pick cf erf to_float depth fs f path f' h s n a os ns r). Qed.
Print Assumptions C73_unchanged_partial.
(** In every history, the file and the parameters at the last [set_file] decide the outcome. *)
Theorem C73_old_data_refuted S (g : rng S) refl1d pick cf erf to_float depth fs f path f' h s n a os ns :
  spec_set_file depth fs f path = (f', Ok tt) -> Forall (fun op => sets_spec_file op = false) h ->
  let st := spec_run g refl1d pick cf erf to_float depth (fs, f') h in forall r, is_ok (snd (spec_before depth (fst st) (snd st) r)) = true ->
  snd (spec_fit g refl1d pick cf erf to_float depth (fst st) (snd st) s n a os ns r) =
  fresh_spec_fit g refl1d pick cf erf to_float depth fs (spec_last_model h (sf_model f)) (sf_import f) (sf_foot f) path s n a os ns.
Proof. exact (spec_set_file_fixes g refl1d pick cf erf to_float depth fs f path f' h s n a os ns). Qed.
Print Assumptions C73_old_data_refuted.
(** The example file is replaced by one without scan 5. *)
Definition sx_disk2 : disk := [("run.spec", ["#S 7 ct"; "#L om  det"; "3 3"])].
Lemma sx_fresh2 s a os ns : fresh_spec_fit ex_rng None ex_pick ex_cf clip ex_float 10 sx_disk2 (Some ex_nn) (Some sx_import) (Some sx_foot) "run.spec" s 5 a os ns = Raise NotReflectivityScanError.
Proof. reflexivity. Qed.
Theorem C73_witness_refuted : exists fs fs' f path f' s' r,
  spec_set_file 10 fs f path = (f', Ok tt) /\ is_ok (snd (spec_before 10 fs' f' (ReloadKeyword true))) = true /\
  snd (spec_fit ex_rng None ex_pick ex_cf clip ex_float 10 fs' f' 0%nat 5 (sx_args false) false 300 (ReloadKeyword true)) = Ok (s', Some r) /\
  fresh_spec_fit ex_rng None ex_pick ex_cf clip ex_float 10 fs' (sf_model f') (sf_import f') (sf_foot f') path 0%nat 5 (sx_args false) false 300 = Raise NotReflectivityScanError.
Proof. destruct (sx_fit false) as (s' & r & E). exists sx_disk, sx_disk2, sx_new, "run.spec", sx_fitter, s', r. split; [exact sx_set|]. split; [reflexivity|]. split; [|apply sx_fresh2].
  refine (eq_trans (spec_reload_no_effect ex_rng None ex_pick ex_cf clip ex_float 10 sx_disk2 sx_fitter 0%nat 5 (sx_args false) false 300 (ReloadKeyword true) _) E). reflexivity. Qed.
Print Assumptions C73_witness_refuted.
Example C73_example : exists s' r, spec_set_file 10 sx_disk sx_new "run.spec" = (sx_fitter, Ok tt) /\
  snd (spec_fit ex_rng None ex_pick ex_cf clip ex_float 10 sx_disk sx_fitter 0%nat 5 (sx_args false) false 300 ReloadDefault) = Ok (s', Some r).
Proof. destruct (sx_fit false) as (s' & r & E). exists s', r. split; [exact sx_set|].
  refine (eq_trans (spec_reload_no_effect ex_rng None ex_pick ex_cf clip ex_float 10 sx_disk sx_fitter 0%nat 5 (sx_args false) false 300 ReloadDefault _) E). reflexivity. Qed.

(** ** C74 *)
(** With [reload=True] a fit is the same as that of a new fitter with the present files and parameters. *)
Theorem C74_reload S (g : rng S) refl1d pick cf erf to_float fs md f stem f' h s n a roi r :
  fio_set_file to_float fs f stem = (f', Ok tt) -> Forall (fun op => sets_stem op = false) h -> r <> ReloadKeyword false ->
  let '(fs', md', f1) := fio_run g refl1d pick cf erf to_float (fs, md, f') h in
  snd (fio_fit g refl1d pick cf erf to_float fs' md' f1 s n a roi r) =
  fresh_fio_fit g refl1d pick cf erf to_float fs' md' (fio_last_model h (ff_model f)) (fio_last_import h (ff_import f)) (fio_last_foot h (ff_foot f)) stem s n a roi.
Proof. exact (fio_history_reloads g refl1d pick cf erf to_float fs md f stem f' h s n a roi r). Qed.
Print Assumptions C74_reload.
(** Without reloading, the parameters are those of the last load (the model is the present one). *)
Theorem C74_parameters_kept S (g : rng S) refl1d pick cf erf to_float st h s n a roi : Forall (fun op => fio_quiet op = true) h ->
  let '(fs', md', f1) := fio_run g refl1d pick cf erf to_float st h in
  snd (fio_fit g refl1d pick cf erf to_float fs' md' f1 s n a roi (ReloadKeyword false)) =
  snd (fio_fit g refl1d pick cf erf to_float fs' md' (mkFioFitter (fio_last_model h (ff_model (snd st))) (ff_import (snd st)) (ff_foot (snd st)) (ff_file (snd st)) (ff_loader (snd st)))
    s n a roi (ReloadKeyword false)).
Proof. exact (fio_history_quiet g refl1d pick cf erf to_float st h s n a roi). Qed.
Print Assumptions C74_parameters_kept.
(** As long as the files do not change, the data are those of the last load, too. *)
Theorem C74_data_kept_partial S (g : rng S) refl1d pick cf erf to_float fs md f stem f' h s n a roi :
  fio_set_file to_float fs f stem = (f', Ok tt) -> Forall (fun op => fio_quiet op = true) h -> Forall (fun op => fio_same_disk op = true) h ->
  let '(fs', md', f1) := fio_run g refl1d pick cf erf to_float (fs, md, f') h in
  snd (fio_fit g refl1d pick cf erf to_float fs' md' f1 s n a roi (ReloadKeyword false)) =
  fresh_fio_fit g refl1d pick cf erf to_float fs md (fio_last_model h (ff_model f)) (ff_import f) (ff_foot f) stem s n a roi.
Proof. exact (fio_unchanged g refl1d pick cf erf to_float fs md f stem f' h s n a roi). Qed.
Print Assumptions C74_data_kept_partial.
(** Otherwise they are not: the file of the scan is deleted after the load. *)
Theorem C74_data_kept_refuted : exists fs md f stem f' s' r,
  fio_set_file fx_float fs f stem = (f', Ok tt) /\
  fresh_fio_fit ex_rng None ex_pick ex_cf clip fx_float fs md (ff_model f) (ff_import f) (ff_foot f) stem 0%nat 1 (sx_args true) None = Ok (s', inl r) /\
  snd (fio_fit ex_rng None ex_pick ex_cf clip fx_float [] md f' 0%nat 1 (sx_args true) None (ReloadKeyword false)) = Ok (0%nat, inr (ScanNotFound 1)).
Proof. destruct tx_fit as (s' & r & E). exists fx_disk, fx_stack, tx_new, "data/x", tx_fitter, s', r. split; [exact tx_set|]. split; [exact E|reflexivity]. Qed.
Print Assumptions C74_data_kept_refuted.
Example C74_example : exists s' r, snd (fio_fit ex_rng None ex_pick ex_cf clip fx_float fx_disk fx_stack tx_fitter 0%nat 1 (sx_args true) None ReloadDefault) = Ok (s', inl r).
Proof. destruct tx_fit as (s' & r & E). exists s', r. exact E. Qed.

(** ** C75 *)
Theorem C75_fio_file_missing S (g : rng S) refl1d pick cf erf to_float fs md f d s n a roi : ff_loader f = Some d -> dict_get String.eqb fs (scan_path (fl_parser d) n) = None ->
  fio_fit_body g refl1d pick cf erf to_float fs md f s n a roi = Ok (s, inr (ScanNotFound n)).
Proof. exact (fun Ed H => fio_fit_missing g refl1d pick cf erf to_float fs md f d s n a roi FileNotFoundError Ed (fio_missing to_float fs md d n _ _ roi "p100k" H)). Qed.
Print Assumptions C75_fio_file_missing.
Theorem C75_fio_not_loaded S (g : rng S) refl1d pick cf erf to_float fs md f d s n a roi e : ff_loader f = Some d ->
  fio_load_scan to_float fs md d n (fa_front a) (fa_back a) roi "p100k" = Raise e ->
  fio_fit_body g refl1d pick cf erf to_float fs md f s n a roi =
  match e with NotReflectivityScanError => Ok (s, inr (NotReflectivity n)) | KeyError | FileNotFoundError => Ok (s, inr (ScanNotFound n)) | e => Raise e end.
Proof. exact (fio_fit_missing g refl1d pick cf erf to_float fs md f d s n a roi e). Qed.
Print Assumptions C75_fio_not_loaded.
(** SpecFitter raises for a number that is not in the file, ... *)
Theorem C75_spec_refuted S (g : rng S) refl1d pick cf erf to_float f d s n a os ns : sf_spec f = Some d -> dict_get Z.eqb (p_index (ld_parser d)) n = None ->
  spec_fit_body g refl1d pick cf erf to_float f s n a os ns = Raise NotReflectivityScanError.
Proof. exact (fun Ed H => spec_missing g refl1d pick cf erf to_float f d s n a os ns Ed (Spec_Props.C58_missing to_float d n _ _ H)). Qed.
Print Assumptions C75_spec_refuted.
(** ... for a scan without a date, ... *)
Theorem C75_spec_no_date_refuted S (g : rng S) refl1d pick cf erf to_float f d s n a os ns : sf_spec f = Some d -> load_scan to_float d n (fa_front a) (fa_back a) = Raise KeyError ->
  spec_fit_body g refl1d pick cf erf to_float f s n a os ns = Raise AttributeError.
Proof. exact (spec_key g refl1d pick cf erf to_float f d s n a os ns). Qed.
Print Assumptions C75_spec_no_date_refuted.
(** ... and never returns None. *)
Theorem C75_spec_never_none_refuted S (g : rng S) refl1d pick cf erf to_float depth fs f s n a os ns r s' :
  snd (spec_fit g refl1d pick cf erf to_float depth fs f s n a os ns r) <> Ok (s', None).
Proof. exact (spec_fit_never_none g refl1d pick cf erf to_float depth fs f s n a os ns r s'). Qed.
Print Assumptions C75_spec_never_none_refuted.
Example C75_example : fio_fit_body ex_rng None ex_pick ex_cf clip fx_float fx_disk fx_stack tx_fitter 0%nat 2 (sx_args true) None = Ok (0%nat, inr (ScanNotFound 2)) /\
  spec_fit_body ex_rng None ex_pick ex_cf clip ex_float sx_fitter 0%nat 6 (sx_args true) false 300 = Raise NotReflectivityScanError.
Proof. split; reflexivity. Qed.

(** ** C76 *)
Theorem C76_spec_shift S (g : rng S) refl1d pick cf erf to_float f s n a os ns s' r : spec_fit_body g refl1d pick cf erf to_float f s n a os ns = Ok (s', Some r) ->
  (r_shift r = None <-> fa_opt_q a = false).
Proof. exact (spec_shift_iff g refl1d pick cf erf to_float f s n a os ns s' r). Qed.
Print Assumptions C76_spec_shift.
(** FioFitter never returns a result without q optimisation. *)
Theorem C76_fio_refuted S (g : rng S) refl1d pick cf erf to_float fs md f s n a roi s' r : fa_opt_q a = false ->
  fio_fit_body g refl1d pick cf erf to_float fs md f s n a roi <> Ok (s', inl r).
Proof. exact (fio_no_result g refl1d pick cf erf to_float fs md f s n a roi s' r). Qed.
Print Assumptions C76_fio_refuted.
(** It raises a TypeError for every scan that could be fitted. *)
Theorem C76_fio_error_refuted S (g : rng S) refl1d pick cf erf to_float fs md f d s n a roi m sc s' r : fa_opt_q a = false -> ff_loader f = Some d -> ff_model f = Some m ->
  fio_load_scan to_float fs md d n (fa_front a) (fa_back a) roi "p100k" = Ok sc ->
  fit_scan g refl1d pick cf erf shift_or_none (Some m) s sc a (as_requested a false 300) = Ok (s', r) ->
  fio_fit_body g refl1d pick cf erf to_float fs md f s n a roi = Raise TypeError.
Proof. exact (fio_fails_where_spec_fits g refl1d pick cf erf to_float fs md f d s n a roi m sc s' r). Qed.
Print Assumptions C76_fio_error_refuted.
Example C76_example : exists s' r, spec_fit_body ex_rng None ex_pick ex_cf clip ex_float sx_fitter 0%nat 5 (sx_args false) false 300 = Ok (s', Some r) /\ r_shift r = None.
Proof. destruct (sx_fit false) as (s' & r & E). exists s', r. split; [exact E|]. apply (C76_spec_shift _ _ _ _ _ _ _ _ _ _ _ _ _ _ _ E). reflexivity. Qed.
Example C76_fio_example : fio_fit_body ex_rng None ex_pick ex_cf clip fx_float fx_disk fx_stack tx_fitter 0%nat 1 (sx_args false) None = Raise TypeError.
Proof. destruct (tx_scan_fits shift_or_none false) as (s' & r & E); [intros [|x ds] N; [congruence|exists (Some x); reflexivity]|left; exists None; reflexivity|].
  exact (C76_fio_error_refuted _ ex_rng None ex_pick ex_cf clip fx_float fx_disk fx_stack tx_fitter tx_loader 0%nat 1 (sx_args false) None ex_nn _ s' r eq_refl eq_refl eq_refl (tx_load "p100k") E). Qed.

(** ** C77 *)
Theorem C77_one_source load old m p : set_trained_model load old (Some m) None = (Some m, Ok tt) /\
  set_trained_model load old None (Some p) = match load p with Ok m' => (Some m', Ok tt) | Raise e => (old, Raise e) end.
Proof. exact (conj eq_refl eq_refl). Qed.
Print Assumptions C77_one_source.
Theorem C77_none_or_both load old m p : set_trained_model load old None None = (old, Raise ValueError) /\ set_trained_model load old (Some m) (Some p) = (old, Raise ValueError).
Proof. exact (conj eq_refl eq_refl). Qed.
Print Assumptions C77_none_or_both.
Theorem C77_accepted load old model path new : set_trained_model load old model path = (new, Ok tt) ->
  exists m, new = Some m /\ (model = Some m /\ path = None \/ model = None /\ exists p, path = Some p /\ load p = Ok m).
Proof. exact (set_model_ok load old model path new). Qed.
Print Assumptions C77_accepted.
Theorem C77_refused load old model path new e : set_trained_model load old model path = (new, Raise e) -> new = old.
Proof. exact (set_model_refused load old model path new e). Qed.
Print Assumptions C77_refused.
Example C77_example : set_trained_model (fun _ => Ok ex_nn) None None (Some "model.h5") = (Some ex_nn, Ok tt) /\
  set_trained_model (fun _ => Ok ex_nn) None (Some ex_nn) (Some "model.h5") = (None, Raise ValueError).
Proof. split; reflexivity. Qed.

(** ** C78 *)
Theorem C78_spec_order S (g : rng S) refl1d pick cf erf to_float f d s l a s' se : sf_spec f = Some d -> spec_range_body g refl1d pick cf erf to_float f s l a = Ok (s', se) ->
  let kept := filter (fun n => is_ok (load_scan to_float d n (fa_front a) (fa_back a))) l in
  se_scan se = kept /\ se_index se = kept /\ kept <> [] /\
  Forall2 (fun n r => exists s1 s2, spec_fit_body g refl1d pick cf erf to_float f s1 n a false 300 = Ok (s2, Some r)) kept (se_list se).
Proof. exact (spec_range_order g refl1d pick cf erf to_float f d s l a s' se). Qed.
Print Assumptions C78_spec_order.
Theorem C78_fio_order S (g : rng S) refl1d pick cf erf to_float fs md f d s l a roi s' se : ff_loader f = Some d -> fio_range_body g refl1d pick cf erf to_float fs md f s l a roi = Ok (s', se) ->
  let kept := filter (fun n => is_ok (fio_load_scan to_float fs md d n (fa_front a) (fa_back a) roi "p100k")) l in
  se_scan se = kept /\ se_index se = kept /\ kept <> [] /\
  Forall2 (fun n r => exists s1 s2, snd (fio_fit g refl1d pick cf erf to_float fs md f s1 n a roi (ReloadKeyword false)) = Ok (s2, inl r)) kept (se_list se).
Proof. exact (fio_range_order g refl1d pick cf erf to_float fs md f d s l a roi s' se). Qed.
Print Assumptions C78_fio_order.
Theorem C78_spec_aligned S (g : rng S) refl1d pick cf erf to_float f names s l a s' se : rng_ok g -> pick_ok pick -> curve_fit_ok cf ->
  (forall m, sf_model f = Some m -> fittable refl1d (nn_sample m) /\ network_ok m names) -> samples_ok (as_requested a false 300) -> NoDup names ->
  spec_range_body g refl1d pick cf erf to_float f s l a = Ok (s', se) ->
  forall i r, nth_error (se_list se) i = Some r -> series_entry se i r.
Proof. exact (spec_range_aligned g refl1d pick cf erf to_float f names s l a s' se). Qed.
Print Assumptions C78_spec_aligned.
Theorem C78_fio_aligned S (g : rng S) refl1d pick cf erf to_float fs md f names s l a roi s' se : rng_ok g -> pick_ok pick -> curve_fit_ok cf ->
  (forall m, ff_model f = Some m -> fittable refl1d (nn_sample m) /\ network_ok m names) -> samples_ok (as_requested a false 300) -> NoDup names ->
  fio_range_body g refl1d pick cf erf to_float fs md f s l a roi = Ok (s', se) ->
  forall i r, nth_error (se_list se) i = Some r -> series_entry se i r.
Proof. exact (fio_range_aligned g refl1d pick cf erf to_float fs md f names s l a roi s' se). Qed.
Print Assumptions C78_fio_aligned.
(** A range without a single fit is an error. *)
Theorem C78_spec_empty_refuted S (g : rng S) refl1d pick cf erf to_float f d s l a : sf_spec f = Some d ->
  (forall n, In n l -> load_scan to_float d n (fa_front a) (fa_back a) = Raise NotReflectivityScanError) -> spec_range_body g refl1d pick cf erf to_float f s l a = Raise ValueError.
Proof. exact (spec_range_empty g refl1d pick cf erf to_float f d s l a). Qed.
Print Assumptions C78_spec_empty_refuted.
Theorem C78_fio_empty_refuted S (g : rng S) refl1d pick cf erf to_float fs md f d s l a roi : ff_loader f = Some d ->
  (forall n, In n l -> fio_load_scan to_float fs md d n (fa_front a) (fa_back a) roi "p100k" = Raise NotReflectivityScanError \/
     fio_load_scan to_float fs md d n (fa_front a) (fa_back a) roi "p100k" = Raise FileNotFoundError) ->
  fio_range_body g refl1d pick cf erf to_float fs md f s l a roi = Raise ValueError.
Proof. exact (fio_range_empty g refl1d pick cf erf to_float fs md f d s l a roi). Qed.
Print Assumptions C78_fio_empty_refuted.
(** Scan 6 of the example file is skipped, scan 2 of the FIO example, too. *)
Lemma sx_range opt_q : exists s' se, spec_range_body ex_rng None ex_pick ex_cf clip ex_float sx_fitter 0%nat [6; 5]%Z (sx_args opt_q) = Ok (s', se).
Proof. destruct (sx_fit opt_q) as (s' & r & E). destruct sx_load as (d & Ed & Ek & El). unfold spec_fit_body in E. rewrite Ed in E. cbn [fa_front fa_back sx_scaled] in E. rewrite El in E.
  bind_as E x Ex. destruct x as [s1 r1]. injection E as <- <-. unfold spec_range_body. rewrite Ed. cbn [fa_front fa_back sx_scaled].
  assert (L : load_scans ex_float d [6; 5]%Z None None = Ok [mkScan 5 (map Some [1; 3]) (map Some [8; 4]) 1 (Some 1) (Some 20) (Some "gauss") (Some "max") (Some "Mon Nov 16")]).
  { apply load_scans_accepted. apply accepted_no; [|apply accepted_yes; [exact El|constructor]]. apply Spec_Props.C58_missing.
    destruct (p_index (ld_parser d)) as [|[a ea] [|[b eb] [|? ?]]]; try discriminate Ek. cbn [map fst] in Ek. injection Ek as -> ->. reflexivity. }
  rewrite L. cbn [bind mapS]. rewrite Ex. cbn [bind]. destruct (series_total [r1]) as (se & Es); [discriminate|]. rewrite Es. exists s1, se. reflexivity. Qed.
Example C78_example : exists s' se, spec_range_body ex_rng None ex_pick ex_cf clip ex_float sx_fitter 0%nat [6; 5]%Z (sx_args false) = Ok (s', se) /\ se_scan se = [5]%Z.
Proof. destruct (sx_range false) as (s' & se & E). exists s', se. split; [exact E|]. destruct sx_load as (d & Ed & Ek & El).
  destruct (C78_spec_order _ ex_rng None ex_pick ex_cf clip ex_float sx_fitter d 0%nat _ _ _ _ Ed E) as (-> & _). cbn [filter fa_front fa_back sx_scaled]. rewrite El.
  assert (M : load_scan ex_float d 6 None None = Raise NotReflectivityScanError).
  { apply Spec_Props.C58_missing. destruct (p_index (ld_parser d)) as [|[a ea] [|[b eb] [|? ?]]]; try discriminate Ek. cbn [map fst] in Ek. injection Ek as -> ->. reflexivity. }
  rewrite M. reflexivity. Qed.
Lemma tx_range : exists s' se, fio_range_body ex_rng None ex_pick ex_cf clip fx_float fx_disk fx_stack tx_fitter 0%nat [2; 1]%Z (sx_args true) None = Ok (s', se).
Proof. destruct tx_fit as (s' & r & E). unfold fio_range_body. cbn [mapS].
  change (fio_fit_body ex_rng None ex_pick ex_cf clip fx_float fx_disk fx_stack tx_fitter 0%nat 2 (sx_args true) None) with (@Ok (nat * (fit_result + message)) (0%nat, inr (ScanNotFound 2))).
  cbn [bind]. rewrite E. cbn [bind]. unfold results_of. cbn [map List.concat app]. destruct (series_total [r]) as (se & Es); [discriminate|]. rewrite Es. exists s', se. reflexivity. Qed.

(** ** C80 *)
Theorem C80_series_error_refuted l se : series_new l = Ok se -> series_mse se = Raise AttributeError.
Proof. exact (series_mse_fails l se). Qed.
Print Assumptions C80_series_error_refuted.
Example C80_example : exists s' se, spec_range_body ex_rng None ex_pick ex_cf clip ex_float sx_fitter 0%nat [6; 5]%Z (sx_args false) = Ok (s', se) /\ series_mse se = Raise AttributeError.
Proof. destruct (sx_range false) as (s' & se & E). exists s', se. split; [exact E|]. destruct sx_load as (d & Ed & _). destruct (spec_range_inv _ _ _ _ _ _ _ _ _ _ _ _ _ Ed E) as (scans & rs & _ & _ & Es).
  exact (C80_series_error_refuted _ _ Es). Qed.

(** ** C106 *)
(** [reload=True] may be given in any way, ... *)
Theorem C106_true_partial S (g : rng S) refl1d pick cf erf to_float depth fs md f f' s n a os ns roi :
  spec_fit g refl1d pick cf erf to_float depth fs f s n a os ns (ReloadPositional true) = spec_fit g refl1d pick cf erf to_float depth fs f s n a os ns (ReloadKeyword true) /\
  fio_fit g refl1d pick cf erf to_float fs md f' s n a roi (ReloadPositional true) = fio_fit g refl1d pick cf erf to_float fs md f' s n a roi (ReloadKeyword true).
Proof. exact (conj eq_refl eq_refl). Qed.
Print Assumptions C106_true_partial.
(** ... but [False] given by position is taken for True. *)
Theorem C106_false_refuted S (g : rng S) refl1d pick cf erf to_float depth fs md f f' s n a os ns roi :
  spec_fit g refl1d pick cf erf to_float depth fs f s n a os ns (ReloadPositional false) = spec_fit g refl1d pick cf erf to_float depth fs f s n a os ns (ReloadKeyword true) /\
  fio_fit g refl1d pick cf erf to_float fs md f' s n a roi (ReloadPositional false) = fio_fit g refl1d pick cf erf to_float fs md f' s n a roi (ReloadKeyword true).
Proof. exact (conj eq_refl eq_refl). Qed.
Print Assumptions C106_false_refuted.
(** With a file of the same stem but without a number, reloading fails, and so does a fit with a positional False. *)
Example C106_example : let fs := ("data/x_test.fio", fx_file) :: fx_disk in exists s' r,
  snd (fio_fit ex_rng None ex_pick ex_cf clip fx_float fs fx_stack tx_fitter 0%nat 1 (sx_args true) None (ReloadPositional false)) = Raise ValueError /\
  snd (fio_fit ex_rng None ex_pick ex_cf clip fx_float fx_disk fx_stack tx_fitter 0%nat 1 (sx_args true) None (ReloadKeyword false)) = Ok (s', inl r) /\
  snd (fio_fit ex_rng None ex_pick ex_cf clip fx_float fs fx_stack tx_fitter 0%nat 2 (sx_args true) None (ReloadKeyword false)) = Ok (0%nat, inr (ScanNotFound 2)).
Proof. destruct tx_fit as (s' & r & E). exists s', r. split; [reflexivity|]. split; [exact E|reflexivity]. Qed.

(** ** C107 *)
Theorem C107_minutes strptime se times xs : se_time se = map Some times -> Forall2 (fun t x => strptime t = Some x) times xs -> times <> [] ->
  exists ds, delta_t strptime se = Ok (Some ds) /\ List.length ds = List.length times /\ nth_error ds 0 = Some 0 /\
    forall i x x0, nth_error xs i = Some x -> nth_error xs 0 = Some x0 -> nth_error ds i = Some ((x - x0) / 60).
Proof. exact (delta_entry strptime se times xs). Qed.
Print Assumptions C107_minutes.
Theorem C107_no_time strptime se : In None (se_time se) -> delta_t strptime se = Ok None.
Proof. exact (delta_none strptime se). Qed.
Print Assumptions C107_no_time.
Theorem C107_unreadable strptime se times : se_time se = map Some times -> (exists t, In t times /\ strptime t = None) -> delta_t strptime se = Raise ValueError.
Proof. exact (delta_unreadable strptime se times). Qed.
Print Assumptions C107_unreadable.
(** FIO scans have no time, so a series of them never has time differences. *)
Theorem C107_fio_none S (g : rng S) refl1d pick cf erf to_float fs md f s l a roi s' se strptime :
  fio_range_body g refl1d pick cf erf to_float fs md f s l a roi = Ok (s', se) -> delta_t strptime se = Ok None.
Proof. exact (fio_range_no_time g refl1d pick cf erf to_float fs md f s l a roi s' se strptime). Qed.
Print Assumptions C107_fio_none.
Example C107_example : exists ds, delta_t (fun t => Some (INR (String.length t) * 60)) (mkSeries [] [5; 6; 9]%Z [Some "a"; Some "abcd"; Some "abc"] [] [] [] [] (mkFrame 0 []) [] [] ex_sample) = Ok (Some ds) /\
  nth_error ds 1 = Some 3 /\ nth_error ds 2 = Some 2.
Proof. destruct (C107_minutes (fun t => Some (INR (String.length t) * 60)) (mkSeries [] [5; 6; 9]%Z [Some "a"; Some "abcd"; Some "abc"] [] [] [] [] (mkFrame 0 []) [] [] ex_sample) ["a"; "abcd"; "abc"] [1 * 60; 4 * 60; 3 * 60]) as (ds & E & _ & _ & H).
  - reflexivity.
  - repeat constructor; cbn; f_equal; lra.
  - discriminate.
  - exists ds. split; [exact E|]. split; [rewrite (H 1%nat (4 * 60) (1 * 60) eq_refl eq_refl)|rewrite (H 2%nat (3 * 60) (1 * 60) eq_refl eq_refl)]; f_equal; field. Qed.

(** ** C108 *)
(** The error of two curves of the same length is that of their logarithms; without points, or with a value that is not positive and finite, it is not finite. *)
Theorem C108_error round6 r : List.length (r_refl r) = List.length (r_corrected r) ->
  (exists a b, r_refl r = map Some a /\ r_corrected r = map Some b /\ a <> [] /\ positive_row a /\ positive_row b /\ result_mse round6 r = Ok (Some (round6 (log_error a b)))) \/
  ((r_refl r = [] \/ Exists not_positive (r_refl r) \/ Exists not_positive (r_corrected r)) /\ result_mse round6 r = Ok None).
Proof. exact (result_mse_cases round6 r). Qed.
Print Assumptions C108_error.
Theorem C108_positive round6 r a b : r_refl r = map Some a -> r_corrected r = map Some b -> a <> [] -> List.length a = List.length b ->
  positive_row a -> positive_row b -> result_mse round6 r = Ok (Some (round6 (log_error a b))).
Proof. exact (result_mse_value round6 r a b). Qed.
Print Assumptions C108_positive.
Theorem C108_not_finite round6 r : List.length (r_refl r) = List.length (r_corrected r) -> r_refl r = [] \/ Exists not_positive (r_refl r) \/ Exists not_positive (r_corrected r) ->
  result_mse round6 r = Ok None.
Proof. exact (result_mse_none round6 r). Qed.
Print Assumptions C108_not_finite.
Theorem C108_lengths round6 r : List.length (r_refl r) <> List.length (r_corrected r) -> result_mse round6 r = Raise ValueError.
Proof. exact (result_mse_lengths round6 r). Qed.
Print Assumptions C108_lengths.
Example C108_example : result_mse (fun x => x) (mkResult 1 None (map Some [1; 1]) (map Some [1; 2]) (map Some [10; 1]) [1; 2] (mkFrame 1 []) [1]%Z None ex_sample) = Ok (Some (log_error [10; 1] [1; 1])) /\ log_error [10; 1] [1; 1] = 1 / 2.
Proof. split.
  - refine (C108_positive (fun x => x) (mkResult 1 None (map Some [1; 1]) (map Some [1; 2]) (map Some [10; 1]) [1; 2] (mkFrame 1 []) [1]%Z None ex_sample) [10; 1] [1; 1] eq_refl eq_refl _ eq_refl _ _); [discriminate|repeat constructor; lra..].
  - unfold log_error. cbn [combine map fst snd]. unfold Interp_Model.log10. rewrite ln_1. assert (L : ln 10 <> 0) by (apply Rgt_not_eq; rewrite <- ln_1; apply ln_increasing; lra).
    unfold avg, Preproc_Spec.sum. cbn [fold_right List.length INR]. field. exact L. Qed.

(** ** C111 *)
(** A listing names every number between the smallest and the largest scan number and the given limits once, in order. *)
Theorem C111_numbers keys lo hi r : shown_range keys lo hi = Ok r ->
  StronglySorted Z.lt r /\ (exists mn mx, In mn keys /\ In mx keys /\ (forall k, In k keys -> (mn <= k <= mx)%Z) /\
    forall i, In i r <-> (mn <= i <= mx)%Z /\ (forall l, lo = Some l -> (l <= i)%Z) /\ (forall h, hi = Some h -> (i <= h)%Z)).
Proof. exact (shown_range_spec keys lo hi r). Qed.
Print Assumptions C111_numbers.
Theorem C111_fio to_float fs f d lo hi out : ff_loader f = Some d -> fio_show_body to_float fs f lo hi = Ok out ->
  exists info r, scan_info to_float fs (fl_parser d) = Ok info /\ shown_range (map fst info) lo hi = Ok r /\ map listed out = r /\
    forall x, In x out -> match x with
      | Shown i (c, b) => exists file rd, dict_get Z.eqb info i = Some (file, rd, b) /\ r_command rd = c
      | NotFound i => dict_get Z.eqb info i = None
      end.
Proof. exact (fio_show_spec to_float fs f d lo hi out). Qed.
Print Assumptions C111_fio.
Theorem C111_spec_partial f d lo hi out : sf_spec f = Some d -> spec_show_body f lo hi = Ok out ->
  exists r, shown_range (map fst (p_index (ld_parser d))) lo hi = Ok r /\ map listed out = r /\
    forall x, In x out -> match x with
      | Shown i (c, t) => exists e, dict_get Z.eqb (p_index (ld_parser d)) i = Some e /\ e_command e = c /\ e_time e = Some t
      | NotFound i => dict_get Z.eqb (p_index (ld_parser d)) i = None \/ exists e, dict_get Z.eqb (p_index (ld_parser d)) i = Some e /\ e_time e = None
      end.
Proof. exact (spec_show_spec f d lo hi out). Qed.
Print Assumptions C111_spec_partial.
(** The same for the calls, with the data that the fitter has after loading them anew if that was asked for *)
Theorem C111_fio_call to_float fs f f' d lo hi r out : fio_show to_float fs f lo hi r = (f', Ok out) -> ff_loader f' = Some d ->
  exists info ns, scan_info to_float fs (fl_parser d) = Ok info /\ shown_range (map fst info) lo hi = Ok ns /\ map listed out = ns /\
    forall x, In x out -> match x with
      | Shown i (c, b) => exists file rd, dict_get Z.eqb info i = Some (file, rd, b) /\ r_command rd = c
      | NotFound i => dict_get Z.eqb info i = None
      end.
Proof. unfold fio_show. destruct (fio_before to_float fs f r) as [f0 [u|e]]; cbn [bind]; intros H D; [|discriminate]. injection H as <- H. exact (fio_show_spec to_float fs f0 d lo hi out D H). Qed.
Print Assumptions C111_fio_call.
Theorem C111_spec_call_partial depth fs f f' d lo hi r out : spec_show depth fs f lo hi r = (f', Ok out) -> sf_spec f' = Some d ->
  exists ns, shown_range (map fst (p_index (ld_parser d))) lo hi = Ok ns /\ map listed out = ns /\
    forall x, In x out -> match x with
      | Shown i (c, t) => exists e, dict_get Z.eqb (p_index (ld_parser d)) i = Some e /\ e_command e = c /\ e_time e = Some t
      | NotFound i => dict_get Z.eqb (p_index (ld_parser d)) i = None \/ exists e, dict_get Z.eqb (p_index (ld_parser d)) i = Some e /\ e_time e = None
      end.
Proof. unfold spec_show. destruct (spec_before depth fs f r) as [f0 [u|e]]; cbn [bind]; intros H D; [|discriminate]. injection H as <- H. exact (spec_show_spec f0 d lo hi out D H). Qed.
Print Assumptions C111_spec_call_partial.
(** A SPEC scan without a date is listed as not found. *)
Theorem C111_no_date_refuted : exists f d e out, sf_spec f = Some d /\ dict_get Z.eqb (p_index (ld_parser d)) 7%Z = Some e /\ spec_show_body f None None = Ok out /\ In (NotFound 7%Z) out.
Proof. exists sx_fitter. eexists _, _, _. split; [reflexivity|]. split; [reflexivity|]. split; [reflexivity|]. right. right. left. reflexivity. Qed.
Print Assumptions C111_no_date_refuted.
(** A file without scans cannot be listed. *)
Theorem C111_empty_refuted f d lo hi : sf_spec f = Some d -> p_index (ld_parser d) = [] -> spec_show_body f lo hi = Raise ValueError.
Proof. exact (spec_show_empty f d lo hi). Qed.
Print Assumptions C111_empty_refuted.
Example C111_example : spec_show_body sx_fitter (Some 0%Z) (Some 6%Z) = Ok [Shown 5%Z (Some "ascan om 0 3", "Mon Nov 16"); NotFound 6%Z] /\
  fio_show_body fx_float fx_disk tx_fitter None None = Ok [Shown 1%Z (Some "a2scan om 1 2 tt 1 2 1 1", true)].
Proof. split; reflexivity. Qed.

(** ** C112 *)
Theorem C112_spec S (g : rng S) refl1d pick cf erf to_float f s n a os ns s' r : spec_fit_body g refl1d pick cf erf to_float f s n a os ns = Ok (s', Some r) ->
  exists d m sc, sf_spec f = Some d /\ sf_model f = Some m /\ load_scan to_float d n (fa_front a) (fa_back a) = Ok sc /\ r_scan r = n /\
    from_fit g refl1d pick cf erf m sc s s' a (as_requested a os ns) r.
Proof. exact (spec_contents g refl1d pick cf erf to_float f s n a os ns s' r). Qed.
Print Assumptions C112_spec.
Theorem C112_fio S (g : rng S) refl1d pick cf erf to_float fs md f s n a roi s' r : fio_fit_body g refl1d pick cf erf to_float fs md f s n a roi = Ok (s', inl r) ->
  exists d m sc, ff_loader f = Some d /\ ff_model f = Some m /\ fio_load_scan to_float fs md d n (fa_front a) (fa_back a) roi "p100k" = Ok sc /\ r_scan r = n /\
    from_fit g refl1d pick cf erf m sc s s' a (as_requested a false 300) r.
Proof. exact (fio_contents g refl1d pick cf erf to_float fs md f s n a roi s' r). Qed.
Print Assumptions C112_fio.
Theorem C112_shapes S (g : rng S) refl1d pick cf erf m names sc s s' a o r : rng_ok g -> pick_ok pick -> curve_fit_ok cf -> fittable refl1d (nn_sample m) -> network_ok m names -> samples_ok o ->
  from_fit g refl1d pick cf erf m sc s s' a o r ->
  shaped names 1 (r_params r) /\ List.length (r_refl r) = List.length (r_q r) /\ List.length (r_corrected r) = List.length (r_q r) /\ r_q r <> [].
Proof. exact (from_fit_shape g refl1d pick cf erf m names sc s s' a o r). Qed.
Print Assumptions C112_shapes.
(** A scan of positive intensities at angles between 0 and 360 degrees can be fitted. *)
Theorem C112_fits_without_polishing S (g : rng S) refl1d pick cf erf shift m names s sc a o A I : rng_ok g -> pick_ok pick -> fittable refl1d (nn_sample m) -> network_ok m names -> samples_ok o ->
  o_sim o = true -> o_polish o = false -> erf_positive erf -> geometry_ok sc -> sc_wavelength sc <> 0 -> sc_angle sc = map Some A -> sc_raw sc = map Some I ->
  scattering_angles (map (fun x => x + fa_offset a) A) -> List.length I = List.length A -> all_pos I -> I <> [] -> sc_norm sc = Some "max" \/ sc_norm sc = Some "first" ->
  (forall ds, ds <> [] -> exists d, shift (Some ds) = Ok d) -> (exists d, shift None = Ok d) \/ o_opt_q o = true ->
  exists s' r, fit_scan g refl1d pick cf erf shift (Some m) s sc a o = Ok (s', r).
Proof. exact (scan_fits g refl1d pick cf erf shift m names s sc a o A I). Qed.
Print Assumptions C112_fits_without_polishing.
Example C112_example : exists s' r, spec_fit_body ex_rng None ex_pick ex_cf clip ex_float sx_fitter 0%nat 5 (sx_args false) false 300 = Ok (s', Some r) /\
  r_scan r = 5%Z /\ r_time r = Some "Mon Nov 16" /\ List.length (r_refl r) = 2%nat.
Proof. destruct (sx_fit false) as (s' & r & E). exists s', r. split; [exact E|]. destruct (C112_spec _ _ _ _ _ _ _ _ _ _ _ _ _ _ _ E) as (d & m & sc & Ed & Em & El & Hn & F).
  split; [exact Hn|]. change (sf_model sx_fitter) with (Some ex_nn) in Em. injection Em as <-.
  destruct sx_load as (d' & Ed' & _ & El'). rewrite Ed' in Ed. injection Ed as <-. cbn [fa_front fa_back sx_scaled] in El. rewrite El' in El. injection El as <-.
  pose proof (C112_shapes _ ex_rng None ex_pick ex_cf clip ex_nn Training_Props.ex_names _ _ _ _ _ r ex_rng_ok ex_pick_ok ex_cf_ok ex_fittable ex_network (sx_samples false 1) F) as (_ & L & _).
  destruct F as (_ & Eq & _ & Et & _). split; [exact Et|]. rewrite L. rewrite (scan_q_finite _ [1 + 0; 3 + 0]) in Eq; [|cbn; lra|reflexivity].
  exact (eq_sym (f_equal (fun x : res (list fl) => match x with Ok l => List.length l | Raise _ => 0%nat end) Eq)). Qed.

(** ** C113 *)
(** For factor 1, the reported parameters are the prediction for the interpolated curve of the result. *)
Theorem C113_factor_one_partial S (g : rng S) refl1d pick cf erf m sc s s' a os ns r : fa_opt_q a && os = false -> fa_polish a = false -> fa_factor a = 1 ->
  from_fit g refl1d pick cf erf m sc s s' a (as_requested a os ns) r -> exists row, result_interp r = Ok row /\ predict_labels m [row] = Ok (r_params r).
Proof. exact (from_fit_interp g refl1d pick cf erf m sc s s' a os ns r). Qed.
Print Assumptions C113_factor_one_partial.
(** For other factors they are the prediction for a multiple of it. *)
Theorem C113_factor_partial S (g : rng S) refl1d pick cf erf m sc s s' a os ns r : fa_opt_q a && os = false -> fa_polish a = false -> 0 < fa_factor a ->
  from_fit g refl1d pick cf erf m sc s s' a (as_requested a os ns) r ->
  exists row, result_interp r = Ok row /\ List.length row = List.length (nn_q m) /\
    (forall xs, r_corrected r = map Some xs -> Interp_Spec.positive_curve xs -> exists ys, row = map Some ys /\ Interp_Spec.positive_curve ys) /\
    predict_labels m [map (option_map (Rmult (fa_factor a))) row] = Ok (r_params r).
Proof. exact (from_fit_factor g refl1d pick cf erf m sc s s' a os ns r). Qed.
Print Assumptions C113_factor_partial.
(** The network of the example returns its second input, so the factor matters. *)
Theorem C113_factor_refuted : exists m sc s s' a r row, from_fit ex_rng None ex_pick ex_cf clip m sc s s' a (as_requested a false 300) r /\ fa_polish a = false /\ fa_opt_q a = false /\
  result_interp r = Ok row /\ predict_labels m [row] <> Ok (r_params r).
Proof. destruct (sx_fit_scaled 2 false) as (s' & r & E). destruct (C112_spec _ _ _ _ _ _ _ _ _ _ _ _ _ _ _ E) as (d & m & sc & Ed & Em & El & _ & F).
  change (sf_model sx_fitter) with (Some ex_nn) in Em. injection Em as <-. destruct sx_load as (d' & Ed' & _ & El'). rewrite Ed' in Ed. injection Ed as <-. cbn [fa_front fa_back sx_scaled] in El. rewrite El' in El. injection El as <-.
  destruct (corrected_max clip (moved (mkScan 5 (map Some [1; 3]) (map Some [8; 4]) 1 (Some 1) (Some 20) (Some "gauss") (Some "max") (Some "Mon Nov 16")) 0) [1 + 0; 3 + 0] [8; 4] clip_pos) as (xs & Ec & _ & Pos & _);
    [split; cbn; intros x Ex; injection Ex as <-; lra|reflexivity|reflexivity|repeat constructor; lra|reflexivity|repeat constructor; lra|discriminate|reflexivity|].
  assert (Ex : r_corrected r = map Some xs). { destruct F as (Ec' & _). pose proof (eq_trans (eq_sym Ec') Ec) as Q. injection Q as Q. exact Q. }
  assert (H2 : 0 < fa_factor (sx_scaled 2 false)) by (cbn; lra).
  destruct (C113_factor_partial _ ex_rng None ex_pick ex_cf clip ex_nn _ _ _ (sx_scaled 2 false) false 300 r eq_refl eq_refl H2 F) as (row & Er & L & Hp & Ep). destruct (Hp xs Ex Pos) as (ys & -> & Py).
  exists ex_nn. eexists. exists 0%nat, s', (sx_scaled 2 false), r, (map Some ys). split; [exact F|]. split; [reflexivity|]. split; [reflexivity|]. split; [exact Er|]. intros E2.
  rewrite map_length in L. destruct ys as [|x [|y [|? ?]]]; try discriminate L. cbn [map option_map fa_factor sx_scaled] in Ep, E2. apply ex_predict in Ep. apply ex_predict in E2. rewrite Ep in E2.
  injection E2 as E2. inversion Py as [|? ? _ Py']; subst. inversion Py'; subst. lra. Qed.
Print Assumptions C113_factor_refuted.
Example C113_example : exists s' r row, spec_fit_body ex_rng None ex_pick ex_cf clip ex_float sx_fitter 0%nat 5 (sx_args false) false 300 = Ok (s', Some r) /\
  result_interp r = Ok row /\ predict_labels ex_nn [row] = Ok (r_params r).
Proof. destruct (sx_fit false) as (s' & r & E). destruct (C112_spec _ _ _ _ _ _ _ _ _ _ _ _ _ _ _ E) as (d & m & sc & Ed & Em & El & _ & F). change (sf_model sx_fitter) with (Some ex_nn) in Em. injection Em as <-.
  destruct (C113_factor_one_partial _ _ _ _ _ _ _ _ _ _ (sx_args false) false 300 _ eq_refl eq_refl eq_refl F) as (row & Er & Ep). exists s', r, row. auto. Qed.
