(** Property C184: inputs that fit_curve refuses. *)
From Coq Require Import Reals Lra Lia.
From Coquelicot Require Import Complex.
From Verif Require Import Py Str Sample_Model Sample_Spec Rng Sampling_Model Sampling_Spec Sampling_Proofs Simulation_Model Interp_Model Interp_Spec Interp_Proofs Arr Preproc_Model Preproc_Spec
  Training_Props Fitter_Model Fitter_Spec Fitter_Proofs FitterOut_Proofs Fitter_Props.
Local Open Scope R_scope.

Lemma window_total m q : nn_q m <> [] -> q <> [] -> exists w, window m q = Ok w.
Proof. intros Hm Hq. unfold window. destruct (nn_q m) as [|x l]; [congruence|]. destruct q as [|y q]; [congruence|]. eexists. reflexivity. Qed.
Lemma interp_mismatch qi q row : List.length row <> List.length q -> interp_reflectivity qi q row = Raise ValueError.
Proof. intros H. unfold interp_reflectivity. destruct (Nat.eqb_spec (List.length q) (List.length row)) as [E|N]; [congruence|reflexivity]. Qed.
Lemma mapM_raise {A B} (f : A -> res B) e l : (forall a e', In a l -> f a = Raise e' -> e' = e) -> Exists (fun a => f a = Raise e) l -> mapM f l = Raise e.
Proof. induction l as [|a l IH]; intros H X; [inversion X|]. cbn [mapM]. destruct (f a) as [b|e'] eqn:E; cbn [bind].
  - rewrite IH; [reflexivity|intros; eapply H; [right; eassumption|assumption]|]. inversion X; [congruence|assumption].
  - f_equal. apply (H a); [left; reflexivity|exact E]. Qed.

(** ** C184 *)
(** All options. Without q values of the curve or of the network: *)
Theorem C184_no_q_values S (g : rng S) refl1d pick cf m s curve q o : q = [] \/ nn_q m = [] -> fit_curve g refl1d pick cf m s curve q o = Raise ValueError.
Proof. intros H. unfold fit_curve. rewrite fit_core_eq. unfold window. destruct H as [-> | ->]; [|reflexivity]. destruct (nn_q m); reflexivity. Qed.
Print Assumptions C184_no_q_values.
(** One of the curves does not have as many points as there are q values: *)
Theorem C184_lengths S (g : rng S) refl1d pick cf m s curve q o : Exists (fun c => List.length c <> List.length q) (curves_of curve) -> fit_curve g refl1d pick cf m s curve q o = Raise ValueError.
Proof. intros H. destruct q as [|x q]; [apply C184_no_q_values; auto|]. destruct (nn_q m) as [|y l] eqn:E; [apply C184_no_q_values; auto|].
  unfold fit_curve. rewrite fit_core_eq. destruct (window_total m (x :: q)) as ([lo hi] & ->); [congruence|discriminate|]. cbn [bind].
  unfold interp_stage, interpolate_intensity. rewrite (mapM_raise _ ValueError); [reflexivity| |].
  - intros c e Hc Ec. destruct (Nat.eq_dec (List.length c) (List.length (map (fun z => z + o_dq o) (x :: q)))) as [L|N]; [|rewrite interp_mismatch in Ec by exact N; congruence].
    destruct (interp_fl_total (nn_q m) (map (fun z => z + o_dq o) (x :: q)) c L) as (out & Eo & _); [discriminate|congruence].
  - apply Exists_exists in H. destruct H as (c & Hc & N). apply Exists_exists. eexists. split; [apply in_map; exact Hc|]. apply interp_mismatch. rewrite !map_length. exact N. Qed.
Print Assumptions C184_lengths.
(** A negative number of shifts or of scaling factors: *)
Theorem C184_shifts S (g : rng S) refl1d pick cf m s curve q o : valid_input curve q -> nn_q m <> [] -> o_opt_q o = true -> (o_nq o < 0)%Z -> fit_curve g refl1d pick cf m s curve q o = Raise ValueError.
Proof. intros (Hq & Hc & F & _) Hm Ho Hn. unfold fit_curve. rewrite fit_core_eq. destruct (window_total m q Hm Hq) as ([lo hi] & ->). cbn [bind].
  unfold interp_stage. destruct (interpolate_total m (map (map (fun x => fmul x (Some (o_factor o)))) (curves_of curve)) (map (fun x => x + o_dq o) q)) as (ip & -> & _); [destruct q; [congruence|discriminate]| |].
  { apply Forall_map. eapply Forall_impl; [|exact F]. intros c L. rewrite !map_length. exact L. }
  cbn [bind]. unfold shift_stage. rewrite Ho. destruct (curves_of curve) as [|c cs]; [congruence|]. cbn [mapS]. unfold optimize_q, q_shift_variants, np_normal.
  destruct (Rlt_dec (1/1000) 0); [lra|]. destruct (o_nq o <? 0)%Z eqn:E; [reflexivity|lia]. Qed.
Print Assumptions C184_shifts.
Theorem C184_factors S (g : rng S) refl1d pick cf m s curve q o : valid_input curve q -> nn_q m <> [] -> o_opt_q o = false -> o_opt_scale o = true -> (o_ns o < 0)%Z ->
  fit_curve g refl1d pick cf m s curve q o = Raise ValueError.
Proof. intros (Hq & Hc & F & _) Hm Ho Hs Hn. unfold fit_curve. rewrite fit_core_eq. destruct (window_total m q Hm Hq) as ([lo hi] & ->). cbn [bind].
  unfold interp_stage. destruct (interpolate_total m (map (map (fun x => fmul x (Some (o_factor o)))) (curves_of curve)) (map (fun x => x + o_dq o) q)) as (ip & -> & _); [destruct q; [congruence|discriminate]| |].
  { apply Forall_map. eapply Forall_impl; [|exact F]. intros c L. rewrite !map_length. exact L. }
  cbn [bind]. unfold shift_stage. rewrite Ho. cbn [bind]. unfold scale_stage. rewrite Hs. destruct (curves_of curve) as [|c cs]; [congruence|]. cbn [List.length seq combine mapS]. unfold scale_one. cbn [fst snd bind].
  unfold optimize_scaling, curve_scaling_variants, np_normal. destruct (Rlt_dec (1/10) 0); [lra|]. destruct (o_ns o <? 0)%Z eqn:E; [reflexivity|lia]. Qed.
Print Assumptions C184_factors.
(** Nothing else is refused if neither optimisation nor polishing is asked for and the network does not fail. *)
Theorem C184_accepted S (g : rng S) refl1d pick cf m names s curve q o : rng_ok g -> pick_ok pick -> fittable refl1d (nn_sample m) -> network_ok m names -> curves_of curve <> [] ->
  match curve with A1 _ => True | A2 w _ => w = List.length q end -> o_opt_q o = false -> o_opt_scale o = false -> o_polish o = false ->
  (exists s' out, fit_curve g refl1d pick cf m s curve q o = Ok (s', out)) <-> q <> [] /\ Forall (fun c => List.length c = List.length q) (curves_of curve).
Proof. intros G P F N Hc Hw H1 H2 H3. split.
  - intros (s' & out & E). split; [intros ->; rewrite C184_no_q_values in E by auto; discriminate|].
    destruct (Forall_Exists_dec (fun c : list fl => List.length c = List.length q) (fun c => Nat.eq_dec _ _) (curves_of curve)) as [A|A]; [exact A|]. rewrite C184_lengths in E by exact A. discriminate.
  - intros [Hq A]. destruct (C66_succeeds_without_polishing_partial S g refl1d pick cf m names s curve q o G P F N) as (s' & out & E & _); [split; [exact Hq|split; [exact Hc|split; [exact A|exact Hw]]]|split; congruence|exact H3|eauto]. Qed.
Print Assumptions C184_accepted.
Example C184_example : exists s' out, fit_curve wild_rng None ex_pick ex_cf ex_nn 0%nat ex_curve [1; 2] (plain_options 0) = Ok (s', out) /\
  fit_curve wild_rng None ex_pick ex_cf ex_nn 0%nat ex_curve [1; 2; 3] (plain_options 0) = Raise ValueError.
Proof. destruct (proj2 (C184_accepted nat wild_rng None ex_pick ex_cf ex_nn ex_names 0%nat ex_curve [1; 2] (plain_options 0) wild_rng_ok ex_pick_ok ex_fittable ex_network ltac:(discriminate) I eq_refl eq_refl eq_refl)) as (s' & out & E).
  - split; [discriminate|repeat constructor].
  - exists s', out. split; [exact E|]. apply C184_lengths. left. discriminate. Qed.
