(** Proofs about the order in which a file fitter is set up. *)
From Coq Require Import Reals.
From Verif Require Import Py Str Arr Rng Spec_Model Fio_Model P08_Model Fitter_Model FileFitter_Model FileFitter_Spec Setup_Spec.

Section Spec.
  Context {S : Type} (g : rng S) (refl1d : option Simulation_Model.refl1d_fun) (pick : list fl -> nat) (cf : @curve_fit_fun S) (erf : R -> R) (to_float : string -> option fl) (depth : nat).
  Notation step := (spec_step g refl1d pick cf erf to_float depth).
  Notation run := (spec_run g refl1d pick cf erf to_float depth).

  Lemma spec_before_fields fs f r : let f' := fst (spec_before depth fs f r) in
    sf_model f' = sf_model f /\ sf_import f' = sf_import f /\ sf_foot f' = sf_foot f /\ sf_file f' = sf_file f /\ sf_spec f' = sf_spec f.
  Proof. unfold spec_before, spec_reload. destruct (wants_reload r); [|cbn; auto]. destruct (spec_loader_new _ _ _ _ _); cbn; auto. Qed.
  Lemma spec_call_fields fs f op : let f' := snd (step (fs, f) op) in
    match op with
    | SModel m => f' = spec_set_model m f | SImport ip => f' = spec_set_import ip f | SFoot fp => f' = spec_set_foot fp f | SFile p => f' = fst (spec_set_file depth fs f p) | SDisk _ => f' = f
    | SFit _ _ _ _ _ r | SRange _ _ _ r | SShow _ _ r => f' = fst (spec_before depth fs f r)
    end.
  Proof. destruct op; cbn [spec_step snd fst]; try reflexivity; unfold spec_fit, spec_fit_range, spec_show; destruct (spec_before depth fs f r); reflexivity. Qed.
  Lemma spec_set_file_fields fs f p : let f' := fst (spec_set_file depth fs f p) in sf_model f' = sf_model f /\ sf_import f' = sf_import f /\ sf_foot f' = sf_foot f.
  Proof. unfold spec_set_file. destruct (spec_loader_new _ _ _ _ _); cbn; auto. Qed.
  Lemma spec_step_settings fs f op : let f' := snd (step (fs, f) op) in
    sf_model f' = match op with SModel m => Some m | _ => sf_model f end /\
    sf_import f' = match op with SImport m => Some m | _ => sf_import f end /\
    sf_foot f' = match op with SFoot m => Some m | _ => sf_foot f end.
  Proof. intros f'. pose proof (spec_call_fields fs f op) as H. cbv zeta in H. fold f' in H.
    destruct op as [m|ip|fp|p|d|s n a os ns r|s l a r|lo hi r]; rewrite H; cbn; auto;
    try (pose proof (spec_set_file_fields fs f p) as K; cbv zeta in K; tauto); pose proof (spec_before_fields fs f r) as K; cbv zeta in K; tauto. Qed.
  Lemma spec_run_settings h : forall fs f, let f' := snd (run (fs, f) h) in
    sf_model f' = spec_last_model h (sf_model f) /\ sf_import f' = spec_last_import h (sf_import f) /\ sf_foot f' = spec_last_foot h (sf_foot f).
  Proof. induction h as [|op h IH]; intros fs f; [cbn; auto|]. cbn [spec_run fold_left]. destruct (step (fs, f) op) as [fs1 f1] eqn:E.
    pose proof (spec_step_settings fs f op) as H. rewrite E in H. cbn [snd] in H. destruct H as (H1 & H2 & H3).
    specialize (IH fs1 f1). cbv zeta in IH. rewrite H1, H2, H3 in IH. unfold spec_run in *. destruct op; cbn [spec_last_model spec_last_import spec_last_foot]; exact IH. Qed.
  Lemma spec_run_no_file h : forall fs f, Forall (fun op => sets_spec_file op = false) h -> sf_file f = None -> sf_spec f = None ->
    sf_file (snd (run (fs, f) h)) = None /\ sf_spec (snd (run (fs, f) h)) = None.
  Proof. induction h as [|op h IH]; intros fs f Hh H1 H2; [auto|]. inversion Hh as [|? ? Ho Hh']; subst. unfold spec_run in *. cbn [fold_left].
    destruct (step (fs, f) op) as [fs1 f1] eqn:E. apply IH; [exact Hh'| |];
    pose proof (spec_call_fields fs f op) as H; rewrite E in H; cbn [snd] in H; destruct op as [m|ip|fp|p|d|s n a os ns r|s l a r|lo hi r]; try discriminate; rewrite H; cbn; auto;
    pose proof (spec_before_fields fs f r) as K; cbv zeta in K; destruct K as (_ & _ & _ & K1 & K2); congruence. Qed.
  Lemma spec_before_no_file fs f r : sf_file f = None -> spec_before depth fs f r = (f, if wants_reload r then Raise TypeError else Ok tt).
  Proof. intros H. unfold spec_before, spec_reload, spec_loader_new. destruct (wants_reload r); [|reflexivity]. rewrite H. destruct (sf_import f), (sf_foot f); reflexivity. Qed.
  Lemma spec_no_file fs f : sf_file f = None -> sf_spec f = None -> forall r,
    (forall s n a os ns, spec_fit g refl1d pick cf erf to_float depth fs f s n a os ns r = (f, Raise (error_without_file r))) /\
    (forall s l a, spec_fit_range g refl1d pick cf erf to_float depth fs f s l a r = (f, Raise (error_without_file r))) /\
    (forall lo hi, spec_show depth fs f lo hi r = (f, Raise (error_without_file r))).
  Proof. intros H1 H2 r. unfold spec_fit, spec_fit_range, spec_show. rewrite (spec_before_no_file fs f r H1).
    assert (E : (if wants_reload r then Raise TypeError else Ok tt) = (if wants_reload r then Raise (error_without_file r) else Ok tt) /\ (wants_reload r = false -> error_without_file r = AttributeError)).
    { destruct r as [|[]|]; cbn; split; auto; discriminate. }
    destruct E as [E1 E2]. rewrite E1. unfold spec_fit_body, spec_range_body, spec_show_body. rewrite H2. destruct (wants_reload r); cbn [bind]; rewrite ?(E2 eq_refl); auto. Qed.
  Lemma spec_last_import_none (h : list spec_op) : Forall (fun op => @sets_import S op = false) h -> spec_last_import h None = None.
  Proof. induction 1 as [|op h H _ IH]; [reflexivity|]. destruct op; try discriminate; exact IH. Qed.
  Lemma spec_last_foot_none (h : list spec_op) : Forall (fun op => @sets_foot S op = false) h -> spec_last_foot h None = None.
  Proof. induction 1 as [|op h H _ IH]; [reflexivity|]. destruct op; try discriminate; exact IH. Qed.
  Lemma spec_last_model_none (h : list spec_op) : Forall (fun op => @sets_model S op = false) h -> spec_last_model h None = None.
  Proof. induction 1 as [|op h H _ IH]; [reflexivity|]. destruct op; try discriminate; exact IH. Qed.
  Lemma spec_set_file_missing fs f p : sf_import f = None \/ sf_foot f = None -> spec_set_file depth fs f p = (f, Raise TypeError).
  Proof. unfold spec_set_file, spec_loader_new. intros [H|H]; rewrite H; [reflexivity|]. destruct (sf_import f); reflexivity. Qed.
  Lemma spec_parameters_first fs0 h p : let st := run (fs0, spec_fitter_new) h in
    Forall (fun op => sets_import op = false) h \/ Forall (fun op => sets_foot op = false) h -> spec_set_file depth (fst st) (snd st) p = (snd st, Raise TypeError).
  Proof. intros st H. pose proof (spec_run_settings h fs0 spec_fitter_new) as (_ & E1 & E2). fold st in E1, E2. apply spec_set_file_missing.
    destruct H as [H|H]; [left; rewrite E1; apply spec_last_import_none; exact H|right; rewrite E2; apply spec_last_foot_none; exact H]. Qed.
  Lemma spec_ready fs0 h p ip fp : let st := run (fs0, spec_fitter_new) h in
    spec_last_import h None = Some ip -> spec_last_foot h None = Some fp ->
    match dict_get String.eqb (fst st) p with
    | None => spec_set_file depth (fst st) (snd st) p = (snd st, Raise FileNotFoundError)
    | Some lines => match spec_parser depth lines with
                    | Raise e => spec_set_file depth (fst st) (snd st) p = (snd st, Raise e)
                    | Ok index => exists f', spec_set_file depth (fst st) (snd st) p = (f', Ok tt) /\ sf_model f' = spec_last_model h None /\
                        sf_spec f' = Some (mkLoader index (si_angles ip) (si_intensity ip) (sp_wavelength fp) (Some (sp_beam fp)) (Some (sp_sample fp)) (Some (sp_shape fp)) (Some (sp_norm fp))
                          (si_attenuator ip) (si_division ip))
                    end
    end.
  Proof. intros st H1 H2. pose proof (spec_run_settings h fs0 spec_fitter_new) as (E0 & E1 & E2). fold st in E0, E1, E2. cbn [sf_import sf_foot sf_model spec_fitter_new] in *. rewrite H1 in E1. rewrite H2 in E2.
    unfold spec_set_file, spec_loader_new. rewrite E1, E2. destruct (dict_get String.eqb (fst st) p) as [lines|]; [|reflexivity].
    destruct (spec_parser depth lines) as [index|e]; cbn [bind]; [|reflexivity]. eexists. split; [reflexivity|]. cbn. auto. Qed.
  Lemma spec_no_model f d s n a os ns sc : sf_model f = None -> sf_spec f = Some d -> load_scan to_float d n (fa_front a) (fa_back a) = Ok sc ->
    spec_fit_body g refl1d pick cf erf to_float f s n a os ns = Raise AttributeError.
  Proof. intros H1 H2 H3. unfold spec_fit_body. rewrite H2, H3, H1. reflexivity. Qed.
End Spec.

Section Fio.
  Context {S : Type} (g : rng S) (refl1d : option Simulation_Model.refl1d_fun) (pick : list fl -> nat) (cf : @curve_fit_fun S) (erf : R -> R) (to_float : string -> option fl).
  Notation step := (fio_step g refl1d pick cf erf to_float).
  Notation run := (fio_run g refl1d pick cf erf to_float).

  Lemma fio_before_fields fs f r : let f' := fst (fio_before to_float fs f r) in
    ff_model f' = ff_model f /\ ff_import f' = ff_import f /\ ff_foot f' = ff_foot f /\ ff_file f' = ff_file f.
  Proof. unfold fio_before, fio_reload. destruct (wants_reload r); [|cbn; auto]. destruct (fio_loader_make _ _ _ _ _); cbn; auto. Qed.
  Lemma fio_call_fields fs md f op : let f' := snd (step (fs, md, f) op) in
    match op with
    | FModel m => f' = fio_set_model m f | FImport ip => f' = fio_set_import ip f | FFoot fp => f' = fio_set_foot fp f | FFile p => f' = fst (fio_set_file to_float fs f p) | FDisk _ _ => f' = f
    | FFit _ _ _ _ r | FRange _ _ _ _ r | FShow _ _ r => f' = fst (fio_before to_float fs f r)
    end.
  Proof. destruct op; cbn [fio_step snd fst]; try reflexivity; unfold fio_fit, fio_fit_range, fio_show; destruct (fio_before to_float fs f r); reflexivity. Qed.
  Lemma fio_set_file_fields fs f p : let f' := fst (fio_set_file to_float fs f p) in ff_model f' = ff_model f /\ ff_import f' = ff_import f /\ ff_foot f' = ff_foot f.
  Proof. unfold fio_set_file. destruct (fio_loader_make _ _ _ _ _); cbn; auto. Qed.
  Lemma fio_step_settings fs md f op : let f' := snd (step (fs, md, f) op) in
    ff_model f' = match op with FModel m => Some m | _ => ff_model f end /\
    ff_import f' = match op with FImport m => Some m | _ => ff_import f end /\
    ff_foot f' = match op with FFoot m => Some m | _ => ff_foot f end.
  Proof. intros f'. pose proof (fio_call_fields fs md f op) as H. cbv zeta in H. fold f' in H.
    destruct op as [m|ip|fp|p|d md'|s n a roi r|s l a roi r|lo hi r]; rewrite H; cbn; auto;
    try (pose proof (fio_set_file_fields fs f p) as K; cbv zeta in K; tauto); pose proof (fio_before_fields fs f r) as K; cbv zeta in K; tauto. Qed.
  Lemma fio_run_settings h : forall fs md f, let f' := snd (run (fs, md, f) h) in
    ff_model f' = fio_last_model h (ff_model f) /\ ff_import f' = fio_last_import h (ff_import f) /\ ff_foot f' = fio_last_foot h (ff_foot f).
  Proof. induction h as [|op h IH]; intros fs md f; [cbn; auto|]. unfold fio_run in *. cbn [fold_left]. destruct (step (fs, md, f) op) as [[fs1 md1] f1] eqn:E.
    pose proof (fio_step_settings fs md f op) as H. rewrite E in H. cbn [snd] in H. destruct H as (H1 & H2 & H3).
    specialize (IH fs1 md1 f1). cbv zeta in IH. rewrite H1, H2, H3 in IH. destruct op; cbn [fio_last_model fio_last_import fio_last_foot]; exact IH. Qed.
  Lemma fio_before_no_file fs f r : ff_file f = None -> fio_before to_float fs f r = (f, if wants_reload r then Raise TypeError else Ok tt).
  Proof. intros H. unfold fio_before, fio_reload, fio_loader_make. destruct (wants_reload r); [|reflexivity]. rewrite H. destruct (ff_foot f); reflexivity. Qed.
  Lemma fio_run_no_file h : forall fs md f, Forall (fun op => sets_stem op = false) h -> ff_file f = None -> ff_loader f = None ->
    ff_file (snd (run (fs, md, f) h)) = None /\ ff_loader (snd (run (fs, md, f) h)) = None.
  Proof. induction h as [|op h IH]; intros fs md f Hh H1 H2; [auto|]. inversion Hh as [|? ? Ho Hh']; subst. unfold fio_run in *. cbn [fold_left].
    destruct (step (fs, md, f) op) as [[fs1 md1] f1] eqn:E. apply IH; [exact Hh'| |];
    pose proof (fio_call_fields fs md f op) as H; rewrite E in H; cbn [snd] in H; destruct op as [m|ip|fp|p|d md'|s n a roi r|s l a roi r|lo hi r]; try discriminate; rewrite H; cbn; auto;
    rewrite (fio_before_no_file fs f r H1); assumption. Qed.
  Lemma fio_no_file fs md f : ff_file f = None -> ff_loader f = None -> forall r,
    (forall s n a roi, fio_fit g refl1d pick cf erf to_float fs md f s n a roi r = (f, Raise (error_without_file r))) /\
    (forall s n l a roi, fio_fit_range g refl1d pick cf erf to_float fs md f s (n :: l) a roi r = (f, Raise (error_without_file r))) /\
    (forall lo hi, fio_show to_float fs f lo hi r = (f, Raise (error_without_file r))).
  Proof. intros H1 H2 r. unfold fio_fit, fio_fit_range, fio_show. rewrite (fio_before_no_file fs f r H1).
    assert (E : (if wants_reload r then Raise TypeError else Ok tt) = (if wants_reload r then Raise (error_without_file r) else Ok tt) /\ (wants_reload r = false -> error_without_file r = AttributeError)).
    { destruct r as [|[]|]; cbn; split; auto; discriminate. }
    destruct E as [E1 E2]. rewrite E1. unfold fio_range_body, fio_show_body. cbn [mapS]. unfold fio_fit_body. rewrite H2. destruct (wants_reload r); cbn [bind]; rewrite ?(E2 eq_refl); auto. Qed.
  Lemma fio_last_foot_none (h : list fio_op) : Forall (fun op => @sets_fio_foot S op = false) h -> fio_last_foot h None = None.
  Proof. induction 1 as [|op h H _ IH]; [reflexivity|]. destruct op; try discriminate; exact IH. Qed.
  Lemma fio_parameters_first fs0 md0 h p : let st := run (fs0, md0, fio_fitter_new) h in
    Forall (fun op => sets_fio_foot op = false) h -> fio_set_file to_float (fst (fst st)) (snd st) p = (snd st, Raise TypeError).
  Proof. intros st H. pose proof (fio_run_settings h fs0 md0 fio_fitter_new) as (_ & _ & E). fold st in E. cbn [ff_foot fio_fitter_new] in E. rewrite (fio_last_foot_none h H) in E.
    unfold fio_set_file, fio_loader_make. rewrite E. reflexivity. Qed.
  Lemma fio_ready fs0 md0 h stem fp : let st := run (fs0, md0, fio_fitter_new) h in let ip := match fio_last_import h None with Some ip => ip | None => mkFioImport "tt" "p100k_roi1" (Some "atten_position"%string) None end in
    fio_last_foot h None = Some fp ->
    match fio_parser_new to_float (fst (fst st)) stem "om" "tt" with
    | Raise e => fio_set_file to_float (fst (fst st)) (snd st) stem = (snd st, Raise e)
    | Ok parser => exists f', fio_set_file to_float (fst (fst st)) (snd st) stem = (f', Ok tt) /\ ff_model f' = fio_last_model h None /\
        ff_loader f' = Some (mkFioLoader parser (fi_two_theta ip) (fi_roi_name ip) (ft_beam fp) (ft_sample fp) (ft_shape fp) (Some (ft_norm fp)) (fi_attenuator ip) (fi_division ip))
    end.
  Proof. intros st ip H. pose proof (fio_run_settings h fs0 md0 fio_fitter_new) as (E0 & E1 & E2). fold st in E0, E1, E2. cbn [ff_import ff_foot ff_model fio_fitter_new] in *. rewrite H in E2.
    unfold fio_set_file, fio_loader_make, fio_loader_new. rewrite E1, E2. unfold ip, fio_default. destruct (fio_last_import h None) as [ip'|];
    destruct (fio_parser_new to_float (fst (fst st)) stem "om" "tt") as [index|e]; cbn [bind]; try reflexivity; (eexists; split; [reflexivity|]; cbn; auto). Qed.
  Lemma fio_no_model fs md f d s n a roi sc : ff_model f = None -> ff_loader f = Some d -> fio_load_scan to_float fs md d n (fa_front a) (fa_back a) roi "p100k" = Ok sc ->
    fio_fit_body g refl1d pick cf erf to_float fs md f s n a roi = Raise AttributeError.
  Proof. intros H1 H2 H3. unfold fio_fit_body. rewrite H2, H3, H1. reflexivity. Qed.
End Fio.
