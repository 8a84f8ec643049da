(** Property C181: the models of a ModelMixer. *)
From Coq Require Import Reals Lra.
From Verif Require Import Py Str Sample_Model Sample_Spec Sample_Props Rng Sampling_Model Sampling_Spec Reflectivity_Model Simulation_Model Simulation_Props Mixer_Model Mixer_Spec Mixer_Proofs.
Local Open Scope string_scope.
Local Open Scope R_scope.

(** ** C181 *)
(** After any calls of add_model, model, weight and generator number [i] are those of call [i], and every generator has the q values of the mixer. *)
Theorem C181_aligned q cs i smp w : nth_error cs i = Some (smp, w) -> let m := mixer_after q cs in
  nth_error (mx_models m) i = Some smp /\ nth_error (mx_weights m) i = Some (match w with None => 1 | Some w => w end) /\ nth_error (mx_generators m) i = Some (mkGenerator q smp).
Proof. intros H m. unfold m. rewrite after_state. cbn [mx_models mx_weights mx_generators]. rewrite !nth_error_map, H. repeat split. Qed.
Print Assumptions C181_aligned.
Theorem C181_nothing_else q cs : let m := mixer_after q cs in
  List.length (mx_models m) = List.length cs /\ List.length (mx_weights m) = List.length cs /\ List.length (mx_generators m) = List.length cs /\ mx_q m = q.
Proof. intros m. unfold m. rewrite after_state. cbn [mx_models mx_weights mx_generators mx_q]. rewrite !map_length. repeat split. Qed.
Print Assumptions C181_nothing_else.
(** Models are drawn with probabilities in the ratio of their weights: nothing else is asked of np.random.choice. *)
Theorem C181_probabilities S (g : rng S) refl1d choice choice' s q cs ps n labels engine :
  in_ratio (mx_weights (mixer_after q cs)) ps -> (forall s, choice s ps = choice' s ps) ->
  mixer_run g refl1d choice s (mixer_after q cs) n labels engine = mixer_run g refl1d choice' s (mixer_after q cs) n labels engine.
Proof. exact (run_choice g refl1d choice choice' s q cs ps n labels engine). Qed.
Print Assumptions C181_probabilities.
Theorem C181_refused_draw S (g : rng S) refl1d choice s q cs ps n labels engine e :
  total (mx_weights (mixer_after q cs)) <> 0 -> in_ratio (mx_weights (mixer_after q cs)) ps -> choice s ps = Raise e ->
  mixer_run g refl1d choice s (mixer_after q cs) (Datatypes.S n) labels engine = Raise e.
Proof. exact (run_choice_error g refl1d choice s q cs ps n labels engine e). Qed.
Print Assumptions C181_refused_draw.
(** The labels are drawn for the sample of the drawn model. *)
Theorem C181_drawn_model S (g : rng S) refl1d choice s q cs ps n labels engine s1 j smp w e :
  total (mx_weights (mixer_after q cs)) <> 0 -> in_ratio (mx_weights (mixer_after q cs)) ps -> choice s ps = Ok (s1, j) ->
  nth_error cs j = Some (smp, w) -> generate_random_labels g s1 smp 1 (mkDparams "bolstered" (15 / 100) (1 / 10)) = Raise e ->
  mixer_run g refl1d choice s (mixer_after q cs) (Datatypes.S n) labels engine = Raise e.
Proof. exact (run_drawn g refl1d choice s q cs ps n labels engine s1 j smp w e). Qed.
Print Assumptions C181_drawn_model.
Theorem C181_probabilities_exist ws : total ws <> 0 -> exists ps, in_ratio ws ps /\ forall ps', in_ratio ws ps' -> ps' = ps.
Proof. intros H. exists (map (fun w => w / total ws) ws). split; [exact (ratio_exists ws H)|]. intros ps' R. exact (ratio_unique ws ps' H R). Qed.
Print Assumptions C181_probabilities_exist.
Theorem C181_probabilities_valid ws ps : Forall (fun w => 0 <= w) ws -> 0 < total ws -> in_ratio ws ps -> Forall (fun p => 0 <= p <= 1) ps.
Proof. exact (ratio_nonneg ws ps). Qed.
Print Assumptions C181_probabilities_valid.
(** A common factor of the weights makes no difference; without models, or with weights that sum to 0, curves are refused. *)
Theorem C181_common_factor S (g : rng S) refl1d choice s q cs cs' k n labels engine : k <> 0 -> map fst cs' = map fst cs ->
  mx_weights (mixer_after q cs') = map (fun w => k * w) (mx_weights (mixer_after q cs)) ->
  mixer_run g refl1d choice s (mixer_after q cs') n labels engine = mixer_run g refl1d choice s (mixer_after q cs) n labels engine.
Proof. exact (run_scaled g refl1d choice s q cs cs' k n labels engine). Qed.
Print Assumptions C181_common_factor.
Theorem C181_no_weight S (g : rng S) refl1d choice s q cs n labels engine : (0 < n)%nat -> total (mx_weights (mixer_after q cs)) = 0 ->
  mixer_run g refl1d choice s (mixer_after q cs) n labels engine = Raise ValueError.
Proof. exact (run_empty g refl1d choice s q cs n labels engine). Qed.
Print Assumptions C181_no_weight.
Example C181_example : let m := mixer_after [1/10] [(ex_one, Some 3); (ex_sample, None)] in
  mx_models m = [ex_one; ex_sample] /\ mx_weights m = [3; 1] /\ in_ratio (mx_weights m) [3/4; 1/4] /\ total (mx_weights m) <> 0 /\ total (mx_weights (mixer_after [1/10] [])) = 0.
Proof. cbv zeta. split; [reflexivity|]. split; [reflexivity|]. split; [split; [reflexivity|split; [unfold total; cbn; lra|]]|split; [unfold total; cbn; lra|reflexivity]].
  intros [|[|[|i]]] w p Hw Hp; cbn in Hw, Hp; try discriminate; injection Hw as <-; injection Hp as <-; unfold total; cbn; lra. Qed.
Example C181_example_factor : mx_weights (mixer_after [1/10] [(ex_one, Some 6); (ex_sample, Some 2)]) = map (fun w => 2 * w) (mx_weights (mixer_after [1/10] [(ex_one, Some 3); (ex_sample, None)])).
Proof. change ([6; 2] = [2 * 3; 2 * 1]). replace (2 * 3) with 6 by lra. replace (2 * 1) with 2 by lra. reflexivity. Qed.
