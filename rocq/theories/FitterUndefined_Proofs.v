(** Proofs for C68: the selection when no error is defined. *)
From Coq Require Import Reals Lra.
From Coquelicot Require Import Complex.
From Verif Require Import Py Str Cplx Sample_Model Sample_Spec Sample_Proofs Rng Sampling_Model Sampling_Spec Sampling_Proofs Labels_Proofs
  Reflectivity_Model Reflectivity_Spec Simulation_Model Simulation_Spec Simulation_Proofs Interp_Model Interp_Spec Interp_Proofs Arr
  Preproc_Model Preproc_Spec Preproc_Proofs OutPreproc_Proofs Trainer_Proofs P08_Proofs Fitter_Model Fitter_Spec Fitter_Proofs FitterOut_Proofs Polish_Proofs Choice_Proofs
  FileFitter_Model FileFitter_Spec FileRange_Proofs.
Local Open Scope string_scope.
Local Open Scope R_scope.

Lemma variant_undefined ref m rows err : List.length ref = m -> Forall (fun r => List.length r = m) rows -> Exists not_positive ref -> variant_log_mse ref m rows = Ok err -> Forall (fun e => e = None) err.
Proof. intros L F H. unfold variant_log_mse. rewrite row_op_A2 by (rewrite map_length; exact L). cbn [bind]. intros E. injection E as <-. rewrite !map_map. apply Forall_map. eapply Forall_impl; [|exact F].
  intros r Lr. cbv beta. unfold fmean. rewrite fsum_none; [reflexivity|]. apply in_map_iff. exists None. split; [reflexivity|]. unfold bop.
  replace m with (List.length (map flog10 r)) at 1 by (rewrite map_length; exact Lr). rewrite stretch_same. replace m with (List.length (map flog10 ref)) by (rewrite map_length; exact L). rewrite stretch_same.
  apply (exists_none_zip (fun x y => fsub y x)); [rewrite !map_length; congruence|intros [x|]; reflexivity|reflexivity|]. right. apply Exists_exists in H. destruct H as (x & Hx & Nx). apply in_map_iff. exists x. split; [exact (not_positive_log x Nx)|exact Hx]. Qed.

Lemma argmin_undefined pick l i : (forall l, l <> [] -> Forall (fun e => e = None) l -> pick l = 0%nat) -> Forall (fun e => e = None) l -> argmin pick l = Ok i -> i = 0%nat.
Proof. intros P F. unfold argmin. destruct l as [|e l]; [discriminate|]. inversion F; subst. cbn [all_finite]. intros H. injection H as <-. apply P; [discriminate|exact F]. Qed.

Section Undefined.
  Context {S : Type} (g : rng S) (G : rng_ok g) (refl1d : option refl1d_fun) (pick : list fl -> nat) (Pk : pick_ok pick) (cf : @curve_fit_fun S).
  Context (m : nn_model) (names : list string) (Hf : fittable refl1d (nn_sample m)) (Hn : network_ok m names).
  Context (Pn : forall l, l <> [] -> Forall (fun e => e = None) l -> pick l = 0%nat).

  Lemma optimize_q_first s q curve n ref s' d best c : q <> [] -> List.length curve = List.length q -> (1 <= n)%Z -> interp_reflectivity (nn_q m) q curve = Ok ref -> Exists not_positive ref ->
    optimize_q g refl1d pick (fit_plain g refl1d pick cf m) m s (nn_q m) q curve n = Ok (s', (d, best, c)) -> exists s0 s1 ds, np_normal g s0 0 (1/1000) n = Ok (s1, d :: ds).
  Proof using All. intros Hq Lc Hz Er H. unfold optimize_q, q_shift_variants. destruct (normal_total g G s 0 (1/1000) n) as (s1 & ds & End & Ld); [lra|lia|]. rewrite End. cbn [bind]. intros E.
    bind_as E v Ev. destruct v as [s2 [curves shifts]]. bind_as Ev cs0 Ec. injection Ev as <- <- <-.
    assert (Fc : Forall (fun c => List.length c = List.length (nn_q m)) cs0).
    { destruct (mapM_exists R (list fl) (fun d => interp_reflectivity (nn_q m) (map (fun x => x + d) q) curve) (fun c => List.length c = List.length (nn_q m)) ds) as (cs1 & Ec1 & _ & Fc).
      - intros x _. destruct (interp_fl_total (nn_q m) (map (fun y => y + x) q) curve) as (o & Eo & L); [now rewrite map_length|destruct q; [congruence|discriminate]|]. eauto.
      - rewrite Ec in Ec1. injection Ec1 as <-. exact Fc. }
    pose proof (mapM_Ok_length _ _ Ec) as Lcv. pose proof Hn as (Nq & _). assert (Nc : cs0 <> []). { intros ->. simpl in Lcv. rewrite <- Lcv in Ld. lia. }
    destruct (fit_plain_good g G refl1d pick Pk cf m names Hf Hn s1 cs0 (nn_q m) 0 Nq Nc Fc) as (s3 & out & cs & Ef & Eo & Lcs & Fcs & _).
    rewrite Ef in E. cbn [bind] in E. rewrite Er in E. cbn [bind] in E. rewrite Eo in E. bind_as E err Ee. bind_as E i Ei. bind_as E sim Es. destruct sim as [s4 sim]. bind_as E c0 Ec0. bind_as E d0 Ed. injection E as <- <- <- <-.
    pose proof (interp_fl_length _ _ _ _ Er) as Lr. pose proof (variant_undefined ref _ cs err Lr Fcs H Ee) as U. apply (argmin_undefined pick err i Pn U) in Ei. subst i.
    apply py_get_nth in Ed. destruct ds as [|d1 ds]; [discriminate|]. injection Ed as ->. exists s, s1, ds. exact End. Qed.

  Lemma optimize_scaling_first s q lo hi curve n dq s' k best c : q <> [] -> List.length curve = List.length q -> (1 <= n)%Z -> Exists not_positive (part lo hi curve) ->
    optimize_scaling g pick (fit_plain g refl1d pick cf m) s q lo hi curve n dq = Ok (s', (k, best, c)) -> exists s0 s1 ks, np_normal g s0 1 (1/10) n = Ok (s1, k :: ks).
  Proof using All. intros Hq Lc Hz H. unfold optimize_scaling, curve_scaling_variants. destruct (normal_total g G s 1 (1/10) n) as (s1 & ks & End & Ld); [lra|lia|]. rewrite End. cbn [bind]. intros E.
    set (curves := map _ ks) in E. assert (Fc : Forall (fun c => List.length c = List.length q) curves) by (apply Forall_map; apply Forall_forall; intros x _; rewrite map_length; exact Lc).
    assert (Lcv : List.length curves = List.length ks) by apply map_length. assert (Nc : curves <> []). { intros Ecv. rewrite Ecv in Lcv. simpl in Lcv. rewrite <- Lcv in Ld. lia. }
    destruct (fit_plain_good g G refl1d pick Pk cf m names Hf Hn s1 curves q dq Hq Nc Fc) as (s2 & out & cs & Ef & Eo & Lcs & Fcs & _).
    rewrite Lc, Ef in E. cbn [bind] in E. rewrite Eo in E. cbv zeta in E. bind_as E err Ee. bind_as E i Ei. bind_as E c0 Ec0. bind_as E d0 Ed. injection E as <- <- <- <-.
    assert (U : Forall (fun e => e = None) err).
    { refine (variant_undefined _ _ _ err _ _ _ Ee).
      - apply slice_same. exact Lc.
      - apply Forall_map. eapply Forall_impl; [|exact Fcs]. intros r Lr. apply slice_same. exact Lr.
      - rewrite slice_part. exact H. }
    apply (argmin_undefined pick err i Pn U) in Ei. subst i. apply py_get_nth in Ed. destruct ks as [|d1 ds]; [discriminate|]. injection Ed as ->. exists s, s1, ds. exact End. Qed.

  Lemma shift_first s curve q o s' out : valid_input curve q -> samples_ok o -> fit_curve g refl1d pick cf m s curve q o = Ok (s', out) -> o_opt_q o = true ->
    exists ds, fo_shift out = Some ds /\ Forall2 (fun c d => forall ref, interp_reflectivity (nn_q m) q c = Ok ref -> Exists not_positive ref -> exists s0 s1 ds', np_normal g s0 0 (1/1000) (o_nq o) = Ok (s1, d :: ds')) (curves_of curve) ds.
  Proof using All. intros (Hq & _ & Fl & _) (So & _) H Ho. unfold fit_curve in H. apply fit_core_inv in H. destruct H as (lo & hi & ip & s1 & shift & s2 & sc & p0 & s3 & p & _ & _ & E1 & _ & _ & _ & _ & -> & _).
    unfold shift_stage in E1. rewrite Ho in E1. bind_as E1 r Er. destruct r as [s4 outs]. bind_as E1 f Ef. injection E1 as <- <-. cbn [option_map fst].
    eexists. split; [reflexivity|]. apply mapS_Forall2 in Er. specialize (So Ho). clear - Er Fl So Hq G Pk Hf Hn Pn. induction Er as [|c x l l' (s5 & s6 & E) Er IH]; [constructor|]. inversion Fl; subst. cbn [map]. constructor; [|apply IH; assumption].
    intros ref R U. bind_as E r E0. destruct r as [s7 x0]. bind_as E y E1. injection E as <- <-. apply check_row_Ok in E1. subst y. destruct x0 as [[d best] c0]. cbn [fst]. eapply optimize_q_first; eassumption. Qed.

  Lemma scaling_first s curve q o s' out : valid_input curve q -> samples_ok o -> fit_curve g refl1d pick cf m s curve q o = Ok (s', out) -> o_opt_scale o = true ->
    exists ks lo hi, fo_scaling out = Some ks /\ nearest_window m q lo hi /\
      forall i c k, nth_error (curves_of curve) i = Some c -> nth_error ks i = Some k -> Exists not_positive (part lo hi c) -> exists s0 s1 ks', np_normal g s0 1 (1/10) (o_ns o) = Ok (s1, k :: ks').
  Proof using All. intros (Hq & _ & Fl & _) (_ & So) H Ho. unfold fit_curve in H. apply fit_core_inv in H. destruct H as (lo & hi & ip & s1 & shift & s2 & sc & p0 & s3 & p & Ew & _ & E1 & E2 & E3 & E4 & Ep & Es & Esc & _).
    unfold scale_stage in E2. rewrite Ho in E2. bind_as E2 r Er. destruct r as [s4 outs]. bind_as E2 f Ef. injection E2 as <- <-. cbn [option_map fst] in Esc.
    exists (map (fun x => fst (fst x)) outs), lo, hi. split; [exact Esc|]. split; [apply window_spec; exact Ew|]. apply mapS_Forall2 in Er.
    pose (P := fun (j : nat) (c : list fl) (x : R * frame * list fl) => exists s5 s6, scale_one g pick (fit_plain g refl1d pick cf m) (width curve q) lo hi q (o_ns o) shift s5 (j, c) = Ok (s6, x)).
    destruct (Forall2_combine_seq _ _ P (curves_of curve) outs 0%nat) as [L K].
    { eapply Forall2_weaken; [|exact Er]. intros [j c] x (s5 & s6 & E). exists s5, s6. exact E. }
    intros i c k Hc Hk U. rewrite nth_error_map in Hk. destruct (nth_error outs i) as [x|] eqn:Ex; [|discriminate]. cbn [option_map] in Hk. injection Hk as <-.
    destruct (K i c x Hc Ex) as (s5 & s6 & E). cbn [Nat.add] in E. unfold scale_one in E. cbn [fst snd] in E. bind_as E dq Edq. bind_as E r E0. destruct r as [s7 x0]. bind_as E y Ey. injection E as <- <-.
    apply check_row_Ok in Ey. subst y. destruct x0 as [[k best] c0]. cbn [fst]. rewrite Forall_forall in Fl. eapply optimize_scaling_first; [exact Hq|apply Fl; eapply nth_error_In; exact Hc|exact (So Ho)|exact U|exact E0]. Qed.
End Undefined.
