(** Proofs about the curve fitter: what it returns. *)
From Coq Require Import Reals Lra.
From Coquelicot Require Import Complex.
From Verif Require Import Py Str Cplx Sample_Model Sample_Spec Sample_Proofs Rng Sampling_Model Sampling_Spec Sampling_Proofs Labels_Proofs
  Reflectivity_Model Reflectivity_Spec Simulation_Model Simulation_Spec Simulation_Proofs Interp_Model Interp_Spec Interp_Proofs Arr
  Preproc_Model Preproc_Spec Preproc_Proofs OutPreproc_Proofs Fitter_Model Fitter_Spec Fitter_Proofs.
Local Open Scope string_scope.
Local Open Scope R_scope.

Ltac bind_inv H := match type of H with
  | bind ?x ?f = Ok ?y => let a := fresh "a" in let E := fresh "E" in destruct x as [a|] eqn:E; [cbn [bind] in H|discriminate H]
  end.

Tactic Notation "bind_as" hyp(H) ident(a) ident(E) := match type of H with
  | bind ?x ?f = Ok ?y => destruct x as [a|] eqn:E; [cbn [bind] in H|discriminate H]
  end.

Section Out.
  Context {S : Type} (g : rng S) (refl1d : option refl1d_fun) (pick : list fl -> nat) (cf : @curve_fit_fun S).

  (** The stages of fit_curve *)
  Definition shift_stage (fit : @fit_fun S) (m : nn_model) (s : S) (w : nat) (rows : list (list fl)) (q : list R) (o : options)
    : res (S * option (list R * frame)) :=
    if o_opt_q o then
      '(s, outs) <- mapS (fun s c => '(s, x) <- optimize_q g refl1d pick fit m s (nn_q m) q c (o_nq o) ;; x <- check_row w x ;; Ok (s, x)) s rows ;;
      f <- concat_frames (map (fun x => snd (fst x)) outs) ;;
      Ok (s, Some (map (fun x => fst (fst x)) outs, f))
    else Ok (s, None).
  Definition scale_one (fit : @fit_fun S) (w lo hi : nat) (q : list R) (n : Z) (shift : option (list R * frame)) (s : S) (ic : nat * list fl) : res (S * (R * frame * list fl)) :=
    dq <- match shift with None => Ok 0 | Some (ds, _) => py_get ds (Z.of_nat (fst ic)) end ;;
    '(s, x) <- optimize_scaling g pick fit s q lo hi (snd ic) n dq ;; x <- check_row w x ;; Ok (s, x).
  Definition scale_stage (fit : @fit_fun S) (s : S) (w lo hi : nat) (rows : list (list fl)) (q : list R) (o : options) (shift : option (list R * frame))
    : res (S * option (list R * frame)) :=
    if o_opt_scale o then
      '(s, outs) <- mapS (scale_one fit w lo hi q (o_ns o) shift) s (combine (seq 0 (List.length rows)) rows) ;;
      f <- concat_frames (map (fun x => snd (fst x)) outs) ;;
      Ok (s, Some (map (fun x => fst (fst x)) outs, f))
    else Ok (s, None).
  Definition polish_one (m : nn_model) (lo hi : nat) (rows : list (list fl)) (q : list R) (o : options) (params : frame) (s : S) (i : nat) : res (S * frame) :=
    row <- py_get rows (Z.of_nat i) ;;
    least_squares g refl1d cf s (py_slice q (Some (Z.of_nat lo)) (Some (Z.of_nat hi))) (py_slice row (Some (Z.of_nat lo)) (Some (Z.of_nat hi)))
      (frame_slice i params) (nn_op m) (o_bounds o).
  Definition polish_stage (m : nn_model) (s : S) (n lo hi : nat) (rows : list (list fl)) (q : list R) (o : options) (params : frame) : res (S * frame) :=
    if o_polish o then
      '(s, fs) <- mapS (polish_one m lo hi rows q o params) s (seq 0 n) ;;
      f <- concat_frames fs ;; Ok (s, ensure_positive f)
    else Ok (s, params).
  Definition width (curve : arr) (q : list R) : nat := match curve with A1 v => List.length v | A2 w _ => w end.
  Definition window (m : nn_model) (q : list R) : res (nat * nat) :=
    qmax <- max_R (nn_q m) ;; i <- argmin_R (map (fun x => Rabs (x - qmax)) q) ;;
    qmin <- min_R (nn_q m) ;; lo <- argmin_R (map (fun x => Rabs (x - qmin)) q) ;; Ok (lo, (i + 1)%nat).
  Definition interp_stage (m : nn_model) (curve : arr) (q : list R) (o : options) : res (list (list fl)) :=
    interpolate_intensity m (map (map (fun x => fmul x (Some (o_factor o)))) (curves_of curve)) (map (fun x => x + o_dq o) q).

  Lemma fit_core_eq fit m s curve q o : fit_core g refl1d pick cf fit m s curve q o =
    ('(lo, hi) <- window m q ;;
     ip <- interp_stage m curve q o ;;
     '(s, shift) <- shift_stage fit m s (width curve q) (curves_of curve) q o ;;
     '(s, scaling) <- scale_stage fit s (width curve q) lo hi (curves_of curve) q o shift ;;
     params <- match shift, scaling with Some _, Some (_, f) => Ok f | _, _ => predict_labels m ip end ;;
     '(s, params) <- polish_stage m s (List.length ip) lo hi (curves_of curve) q o params ;;
     '(s, refl) <- (if o_sim o then '(s, cs) <- simulate_frame g refl1d s q params ;; Ok (s, Some cs) else Ok (s, None)) ;;
     Ok (s, mkOut refl params (option_map fst shift) (option_map fst scaling))).
  Proof. unfold fit_core, window, interp_stage. destruct (max_R (nn_q m)) as [qmax|]; [|reflexivity]. cbn [bind].
    destruct (argmin_R _) as [i|]; [|reflexivity]. cbn [bind]. destruct (min_R (nn_q m)) as [qmin|]; [|reflexivity]. cbn [bind].
    destruct (argmin_R _) as [lo|]; [|reflexivity]. cbn [bind]. destruct curve; reflexivity. Qed.

  Lemma fit_core_inv fit m s curve q o s' out : fit_core g refl1d pick cf fit m s curve q o = Ok (s', out) ->
    exists lo hi ip s1 shift s2 scaling params0 s3 params, window m q = Ok (lo, hi) /\ interp_stage m curve q o = Ok ip /\
      shift_stage fit m s (width curve q) (curves_of curve) q o = Ok (s1, shift) /\
      scale_stage fit s1 (width curve q) lo hi (curves_of curve) q o shift = Ok (s2, scaling) /\
      match shift, scaling with Some _, Some (_, f) => Ok f | _, _ => predict_labels m ip end = Ok params0 /\
      polish_stage m s2 (List.length ip) lo hi (curves_of curve) q o params0 = Ok (s3, params) /\
      fo_params out = params /\ fo_shift out = option_map fst shift /\ fo_scaling out = option_map fst scaling /\
      (if o_sim o then exists s4 cs, simulate_frame g refl1d s3 q params = Ok (s4, cs) /\ fo_refl out = Some cs else fo_refl out = None).
  Proof. rewrite fit_core_eq. intros H. bind_inv H. destruct a as [lo hi]. bind_inv H. bind_inv H. destruct a0 as [s1 shift]. bind_inv H. destruct a0 as [s2 scaling].
    bind_inv H. bind_inv H. destruct a1 as [s3 params]. bind_inv H. destruct a1 as [s4 refl]. injection H as <- <-.
    exists lo, hi, a, s1, shift, s2, scaling, a0, s3, params. cbn [fo_params fo_shift fo_scaling fo_refl]. repeat (split; [first [assumption|reflexivity]|]).
    destruct (o_sim o).
    - destruct (simulate_frame g refl1d s3 q params) as [[s5 cs]|]; [|discriminate]. cbn [bind] in E5. injection E5 as <- <-. eauto.
    - injection E5 as <- <-. reflexivity. Qed.

  Lemma shift_some fit m s w rows q o s' shift : shift_stage fit m s w rows q o = Ok (s', shift) -> (shift = None <-> o_opt_q o = false).
  Proof. unfold shift_stage. destruct (o_opt_q o); intros H.
    - bind_inv H. destruct a as [s1 outs]. bind_inv H. injection H as <- <-. split; discriminate.
    - injection H as <- <-. split; auto. Qed.
  Lemma scale_some fit s w lo hi rows q o shift s' sc : scale_stage fit s w lo hi rows q o shift = Ok (s', sc) -> (sc = None <-> o_opt_scale o = false).
  Proof. unfold scale_stage. destruct (o_opt_scale o); intros H.
    - bind_inv H. destruct a as [s1 outs]. bind_inv H. injection H as <- <-. split; discriminate.
    - injection H as <- <-. split; auto. Qed.

  (** C70 *)
  Lemma optional_outputs fit m s curve q o s' out : fit_core g refl1d pick cf fit m s curve q o = Ok (s', out) ->
    (fo_shift out = None <-> o_opt_q o = false) /\ (fo_scaling out = None <-> o_opt_scale o = false) /\ (fo_refl out = None <-> o_sim o = false).
  Proof. intros H. apply fit_core_inv in H. destruct H as (lo & hi & ip & s1 & shift & s2 & sc & p0 & s3 & p & _ & _ & E1 & E2 & _ & _ & _ & -> & -> & R).
    apply shift_some in E1. apply scale_some in E2. split; [|split].
    - rewrite <- E1. destruct shift; simpl; split; congruence.
    - rewrite <- E2. destruct sc; simpl; split; congruence.
    - destruct (o_sim o); [destruct R as (s4 & cs & _ & ->)|rewrite R]; split; auto; discriminate. Qed.

  (** C67 *)
  Lemma predict_nonneg m rows f k st : predict_labels m rows = Ok f -> length_label st k -> col_all k nonneg_cell f.
  Proof. unfold predict_labels. intros H Hk. repeat bind_inv H. injection H as <-. eapply ensure_nonneg. exact Hk. Qed.
  Definition fit_nonneg (fit : @fit_fun S) (m : nn_model) : Prop := forall s curve q dq s' out k, fit s curve q (plain_options dq) = Ok (s', out) ->
    length_label (nn_sample m) k -> col_all k nonneg_cell (fo_params out).

  Lemma fit_core_nonneg fit m s curve q o s' out k : (both o -> fit_nonneg fit m) -> fit_core g refl1d pick cf fit m s curve q o = Ok (s', out) ->
    length_label (nn_sample m) k -> col_all k nonneg_cell (fo_params out).
  Proof. intros Fn H Hk. apply fit_core_inv in H. destruct H as (lo & hi & ip & s1 & shift & s2 & sc & p0 & s3 & p & _ & _ & E1 & E2 & E3 & E4 & -> & _).
    assert (K : col_all k nonneg_cell p0).
    { pose proof (shift_some _ _ _ _ _ _ _ _ _ E1) as B1. pose proof (scale_some _ _ _ _ _ _ _ _ _ _ _ E2) as B2.
      destruct shift as [sh|]; [|eapply predict_nonneg; eauto]. destruct sc as [[ks f]|]; [|eapply predict_nonneg; eauto]. injection E3 as ->.
      assert (Hb : both o). { split; [destruct (o_opt_q o); [reflexivity|destruct B1 as [_ B1]; discriminate (B1 eq_refl)]|destruct (o_opt_scale o); [reflexivity|destruct B2 as [_ B2]; discriminate (B2 eq_refl)]]. }
      unfold scale_stage in E2. destruct Hb as [Hb1 Hb2]. rewrite Hb2 in E2. bind_inv E2. destruct a as [s4 outs]. bind_inv E2. injection E2 as <- <- <-.
      eapply col_all_concat; [exact I| |exact E0]. apply Forall_map. apply mapS_Forall2 in E. clear E0.
      apply Forall_forall. intros x Hx. apply In_nth_error in Hx. destruct Hx as (j & Hj).
      assert (Hex : exists ic s5 s6, scale_one fit (width curve q) lo hi q (o_ns o) (Some sh) s5 ic = Ok (s6, x)).
      { clear -E Hj. revert j Hj. induction E as [|ic y l l' (s5 & s6 & Ey) E IH]; intros [|j] Hj; try discriminate; [injection Hj as ->; eauto|]. eapply IH. exact Hj. }
      destruct Hex as (ic & s5 & s6 & Ex). unfold scale_one in Ex. bind_as Ex dq0 Edq. bind_as Ex sx Es. destruct sx as [s7 x']. bind_as Ex x'' Ec. injection Ex as <- <-.
      unfold check_row in Ec. bind_as Ec w' Ew. destruct (Nat.eqb w' (width curve q)); [|discriminate]. injection Ec as <-.
      unfold optimize_scaling in Es. bind_as Es v Ev. destruct v as [s8 [cv ks']]. bind_as Es fo Efo. destruct fo as [s9 out0]. destruct (fo_refl out0) as [cs|]; [|discriminate]. cbv zeta in Es.
      repeat bind_inv Es. injection Es as <- <-. cbn [fst snd]. apply col_all_slice. eapply (Fn (conj Hb1 Hb2)); eauto. }
    unfold polish_stage in E4. destruct (o_polish o); [|injection E4 as <- <-; exact K].
    bind_inv E4. destruct a as [s4 fs]. bind_inv E4. injection E4 as <- <-. eapply ensure_nonneg. exact Hk. Qed.
  Lemma fit_plain_nonneg m : fit_nonneg (fit_plain g refl1d pick cf m) m.
  Proof. intros s curve q dq s' out k H Hk. unfold fit_plain in H. refine (fit_core_nonneg _ _ _ _ _ _ _ _ _ _ H Hk). intros [B _]. discriminate B. Qed.
  Lemma fit_curve_nonneg m s curve q o s' out k : fit_curve g refl1d pick cf m s curve q o = Ok (s', out) ->
    length_label (nn_sample m) k -> col_all k nonneg_cell (fo_params out).
  Proof. unfold fit_curve. apply fit_core_nonneg. intros _. apply fit_plain_nonneg. Qed.

  (** C69 *)
  (** The state of the generator does not matter for the parameters, unless both optimisations are on. *)
  Lemma unoptimised_params fit m s curve q o s' out : ~ both o -> o_polish o = false -> fit_core g refl1d pick cf fit m s curve q o = Ok (s', out) ->
    exists ip, interp_stage m curve q o = Ok ip /\ predict_labels m ip = Ok (fo_params out).
  Proof. intros Nb Hp H. apply fit_core_inv in H. destruct H as (lo & hi & ip & s1 & shift & s2 & sc & p0 & s3 & p & _ & Ei & E1 & E2 & E3 & E4 & -> & _).
    exists ip. split; [exact Ei|]. unfold polish_stage in E4. rewrite Hp in E4. injection E4 as <- <-.
    apply shift_some in E1. apply scale_some in E2. destruct shift as [sh|]; [|exact E3]. destruct sc as [[ks f]|]; [|exact E3].
    exfalso. apply Nb. unfold both. split; [destruct (o_opt_q o); [reflexivity|destruct E1 as [_ E1]; discriminate (E1 eq_refl)]|destruct (o_opt_scale o); [reflexivity|destruct E2 as [_ E2]; discriminate (E2 eq_refl)]]. Qed.

  Lemma same_params fit fit' m s s1 curve q o s' s1' out out1 : ~ both o -> o_polish o = false ->
    fit_core g refl1d pick cf fit m s curve q o = Ok (s', out) -> fit_core g refl1d pick cf fit' m s1 curve q (without_optimisation o) = Ok (s1', out1) ->
    fo_params out = fo_params out1.
  Proof. intros Nb Hp H H1. apply unoptimised_params in H; [|assumption..]. apply unoptimised_params in H1; [|intros [B _]; discriminate B|exact Hp].
    destruct H as (ip & E & Ep), H1 as (ip1 & E1 & Ep1). unfold interp_stage in *. cbn [o_factor o_dq without_optimisation] in E1. congruence. Qed.
End Out.
