(** Properties C121-C124: the networks and the way from a sample to a fit. *)
From Coq Require Import Reals Lra.
From Coquelicot Require Import Complex.
From Verif Require Import Py Str Cplx Sample_Model Sample_Spec TrainedModel_Model Rng Sampling_Model Sampling_Spec Simulation_Model Arr Preproc_Model Preproc_Spec OutPreproc_Proofs
  NRng Noise_Model Noise_Spec Generator_Model Float64 FloatTrain Trainer_Model Trainer_Spec Trainer_Proofs Fitter_Model Fitter_Spec Network_Model Network_Spec Network_Proofs Pipeline_Proofs
  Fitter_Proofs FitterOut_Proofs Polish_Proofs Choice_Proofs Sample_Props Sampling_Props Training_Props Generator_Props Fitter_Props.
Local Open Scope string_scope.
Local Open Scope R_scope.

(** ** C121 *)
(** The network that a trainer builds meets what the curve fitter assumes of a network, whatever its weights. *)
Theorem C121_network_contract net n k m names : built n (prepare_model k) net -> nn_q m <> [] ->
  List.length (nn_q m) = n -> List.length (nn_mean m) = n -> List.length (nn_std m) = n ->
  label_names (nn_sample m) = Ok names -> variable_count (nn_sample m) k -> nn_out m = k -> nn_predict m = predict net ->
  network_ok m names /\ network_rowwise m.
Proof. exact (network_contract net n k m names). Qed.
Print Assumptions C121_network_contract.
Theorem C121_wrong_length net n k rows : built n (prepare_model k) net -> ~ Forall (fun r => List.length r = n) rows -> predict net rows = Raise ValueError.
Proof. exact (predict_wrong n k net rows). Qed.
Print Assumptions C121_wrong_length.
(** The fitter of a trained model: its network meets the contract for the labels of the sample. *)
Theorem C121_trained_model S (g : nrng S) refl1d rnd (fit : network -> fit_args -> S -> res (S * network)) net smp qs t0 s n s1 t1 s2 e bs verbose v s3 tm k m :
  named_sample smp -> qs <> [] -> keeps_layers fit -> variable_count smp k -> built (List.length qs) (prepare_model k) net ->
  trainer_new smp qs = Ok t0 -> generate_training_data g refl1d s t0 n = (s1, t1, None) -> train g rnd fit net s2 t1 e bs verbose v = Ok (s3, tm) -> fitter_for tm k m ->
  exists names, label_names smp = Ok names /\ nn_sample m = smp /\ nn_q m = qs /\ network_ok m names /\ network_rowwise m.
Proof. exact (pipeline g refl1d rnd fit net smp qs t0 s n s1 t1 s2 e bs verbose v s3 tm k m). Qed.
Print Assumptions C121_trained_model.
Definition wx_net : network := constant_net 2 [1/2; 1/3; 1/4].
Definition wx_nn : nn_model := mkNN ex_sample [1; 2] [Some 0; Some 0] [Some 1; Some 1] 3 (predict wx_net).
Lemma wx_variables : variable_count ex_sample 3.
Proof. exists ex_params. split; [exact ex_all_params|reflexivity]. Qed.
Example C121_example : network_ok wx_nn ex_names /\ network_rowwise wx_nn.
Proof. apply (C121_network_contract wx_net 2 3); try reflexivity; [exact (constant_net_built 2 [1/2; 1/3; 1/4])|discriminate|exact ex_label_names|exact wx_variables]. Qed.

(** ** C122 *)
(** The outputs of a SimpleModel are not negative, so restored labels do not fall below the training range ... *)
Theorem C122_outputs_not_negative net n k rows out : built n (simple_model k) net -> predict net rows = Ok out -> Forall (Forall (fun y => forall v, y = Some v -> 0 <= v)) out.
Proof. intros B H. exact (simple_out_nonneg k n net B rows out H). Qed.
Print Assumptions C122_outputs_not_negative.
Theorem C122_not_below_minimum s k n net rows out f name p a b c : named_sample s -> variable_count s k -> built n (simple_model k) net -> predict net rows = Ok out ->
  restore_labels (mkOp (literal "min_to_zero") s) (LArray (List.length out) (output_columns k out)) = Ok f ->
  label_param s name p -> is_const p = false -> p_min p = Flt a -> p_max p = Flt b -> a <= b -> In (name, c) (fr_cols f) ->
  Forall (fun x => forall z, x = Some z -> exists v, z = RtoC v /\ a <= v) c.
Proof. exact (fun Hs Hk B Hp => simple_min s Hs k n Hk net B rows out Hp f name p a b c). Qed.
Print Assumptions C122_not_below_minimum.
(** ... and every target that is not negative is within reach.  With 'absolute_max' a negative label is normalised to a negative target, which is out of reach: *)
Theorem C122_targets_reached_partial n ys rows : Forall (fun y => 0 <= y) ys -> rows <> [] -> Forall (fun xs => List.length xs = n) rows ->
  exists net, built n (simple_model (List.length ys)) net /\ predict net (map (map Some) rows) = Ok (map (fun _ => map Some ys) rows).
Proof. intros F Hr W. exists (simple_net n ys). exact (conj (simple_net_built n ys) (simple_predicts n ys rows F Hr W)). Qed.
Print Assumptions C122_targets_reached_partial.
Theorem C122_absolute_max_refuted s k n net rows out f name p c : named_sample s -> variable_count s k -> built n (simple_model k) net -> predict net rows = Ok out ->
  restore_labels (mkOp (literal "absolute_max") s) (LArray (List.length out) (output_columns k out)) = Ok f ->
  label_param s name p -> is_const p = false -> In (name, c) (fr_cols f) ->
  Forall (fun x => forall z, x = Some z -> exists v, z = RtoC v /\ 0 <= v) c.
Proof. exact (fun Hs Hk B Hp => simple_abs s Hs k n Hk net B rows out Hp f name p c). Qed.
Print Assumptions C122_absolute_max_refuted.
(** The trainer's network has a linear output and can reach any target. *)
Theorem C122_trainer_targets n ys rows : rows <> [] -> Forall (fun xs => List.length xs = n) rows ->
  exists net, built n (prepare_model (List.length ys)) net /\ predict net (map (map Some) rows) = Ok (map (fun _ => map Some ys) rows).
Proof. intros Hr W. exists (constant_net n ys). exact (conj (constant_net_built n ys) (constant_predicts n ys rows Hr W)). Qed.
Print Assumptions C122_trainer_targets.
Example C122_example : exists net, built 2 (simple_model 3) net /\ predict net [[Some 1; Some 2]] = Ok [[Some (1/2); Some 0; Some 1]].
Proof. apply (C122_targets_reached_partial 2 [1/2; 0; 1] [[1; 2]]); [repeat constructor; lra|discriminate|repeat constructor]. Qed.

(** ** C123 *)
(** If no intensity changes by more than e, no output changes by more than e times the product of the layers' gains. *)
Theorem C123_sensitivity net e xs ys rows rows' : 0 <= e -> close e xs ys -> predict net [map Some xs] = Ok rows -> predict net [map Some ys] = Ok rows' ->
  exists us vs, rows = [map Some us] /\ rows' = [map Some vs] /\ close (gain net * e) us vs.
Proof. exact (predict_close net e xs ys rows rows'). Qed.
Print Assumptions C123_sensitivity.
Definition wx_small : network := [Dense [([2; -1], 1); ([0; 3], 0)]; Relu; Dense [([1; 1], 0)]].
Example C123_example : gain wx_small = 6 /\ predict wx_small [[Some 1; Some 0]] = Ok [[Some 3]] /\ predict wx_small [[Some 1; Some 1]] = Ok [[Some 5]].
Proof. split; [unfold gain, wx_small, layer_gain, unit_gain; cbn [fold_right fst]; rewrite !Rabs_R0, Rabs_R1; replace (Rabs (-1)) with 1 by (rewrite Rabs_left; lra); rewrite (Rabs_right 2), (Rabs_right 3) by lra;
    unfold Rmax; repeat destruct (Rle_dec _ _); lra|].
  split; cbn; match goal with |- Ok [[Some ?a]] = Ok [[Some ?b]] => replace a with b; [reflexivity|] end; unfold Rmax; repeat destruct (Rle_dec _ _); lra. Qed.

(** ** C124 *)
(** Training data can be generated for two or more curves unless the noise leaves some point equal in all curves. *)
Theorem C124_generation S (g : nrng S) : nrng_ok g -> forall refl1d s t n, fittable refl1d (tr_sample t) -> storable_sample (tr_sample t) -> (2 <= n)%Z ->
  exists s' t' e f rows noisy, generate_training_data g refl1d s t n = (s', t', e) /\ tr_sample t' = tr_sample t /\ tr_q t' = tr_q t /\
    tr_data t' = Some (mkTdata f (A2 (List.length (tr_q t)) rows)) /\ List.length rows = Z.to_nat n /\ perturbed (List.length (tr_q t)) rows noisy /\
    (has_constant_column (List.length (tr_q t)) noisy -> e = Some ValueError) /\ (~ has_constant_column (List.length (tr_q t)) noisy -> e = None).
Proof. exact (generate_result g). Qed.
Print Assumptions C124_generation.
(** With training data, batches that fit into both parts, and a keras fit that succeeds, training succeeds; the trained model can then be used to fit any curve. *)
Theorem C124_train_and_fit S (g : nrng S) : nrng_ok g -> forall refl1d rnd pick, pick_ok pick -> forall cf (fit : network -> fit_args -> S -> res (S * network)) net smp qs s n k s1 t0 t1 s2 e bs verbose v,
  fittable refl1d smp -> qs <> [] -> keeps_layers fit -> (forall k a s, exists s' k', fit k a s = Ok (s', k')) ->
  variable_count smp k -> built (List.length qs) (prepare_model k) net ->
  trainer_new smp qs = Ok t0 -> generate_training_data g refl1d s t0 n = (s1, t1, None) ->
  rounding rnd (Z.to_nat n) -> 0 <= v <= 1 -> (0 < bs)%nat -> (Z.of_nat bs <= n_train rnd v (Z.to_nat n))%Z -> (Z.of_nat bs <= n - n_train rnd v (Z.to_nat n))%Z ->
  exists s3 tm names, train g rnd fit net s2 t1 e (Z.of_nat bs) verbose v = Ok (s3, tm) /\ label_names smp = Ok names /\
    forall m s4 curve q o, fitter_for tm k m -> valid_input curve q -> samples_ok o -> o_polish o = false ->
      exists s5 out, fit_curve (nr_g g) refl1d pick cf m s4 curve q o = Ok (s5, out) /\ shaped names (List.length (curves_of curve)) (fo_params out).
Proof. exact (fun Hg refl1d rnd pick Pk cf => end_to_end g Hg refl1d rnd pick Pk cf). Qed.
Print Assumptions C124_train_and_fit.

(** A simulation that returns the same intensity for every q value *)
Definition wx_flat : refl1d_fun := fun kz _ _ _ _ => map (fun _ => Some 1) kz.
Lemma wx_fittable : fittable (Some wx_flat) ex_sample.
Proof. split; [exact ex_named|]. split; [repeat constructor|]. split; [discriminate|]. intros kz d sg rho irho. apply map_length. Qed.
Lemma wx_rows s1 labels s' rows : simulate_reflectivity ex_rng (Some wx_flat) s1 [1/10] labels (SNum 0) "refl1d" = Ok (s', rows) -> Forall (fun r => exists kz : list R, r = map (fun _ => Some 1) kz) rows.
Proof. unfold simulate_reflectivity. cbn [String.eqb orb Ascii.eqb Bool.eqb]. destruct (separate labels) as [[ts rs] ss]. destruct (noisy_q _ _ _ _ _) as [[s2 qrows]|]; [|discriminate]. cbn [bind].
  unfold run_refl1d. destruct ts as [|t ts]; [discriminate|]. destruct ss as [|l ss]; [discriminate|].
  match goal with |- context [mapM ?f ?l] => destruct (mapM f l) as [c|] eqn:E; [|discriminate] end. cbn [bind]. intros H. injection H as _ <-.
  apply mapM_Ok_iff in E. eapply Forall2_right; [exact E|]. intros [i q] c0 _ H. unfold refl1d_row in H. cbn [fst snd] in H.
  destruct (row (t :: ts) i); [|discriminate]. destruct (row rs i); [|discriminate]. destruct (row (l :: ss) i); [|discriminate]. cbn [bind] in H. injection H as <-. eexists. reflexivity. Qed.
Lemma wx_two a b : a <> b -> exists ip r, standardize ip_new (A2 1 [[Some a]; [Some b]]) = (ip, Ok r).
Proof. intros N. destruct (Preproc_Proofs.standardize_fresh 1 [[Some a]; [Some b]]) as [_ Q]; [repeat constructor|]. rewrite Q; [eauto|].
  intros (_ & j & x & Hj & F). assert (j = 0)%nat by lia. subst j. inversion F as [|? ? F1 F2]; subst. inversion F2 as [|? ? F3 _]; subst. cbn [nth] in F1, F3. rewrite <- F3 in F1. injection F1 as F1. contradiction. Qed.
Lemma wx_noise s : exists s' ip, prepare_ip ex_nrng s (A2 1 [[Some 1]; [Some 1]]) = (s', Ok ip).
Proof. unfold prepare_ip, apply_uniform_noise, apply_scaling_factor. cbn [ex_nrng nr_g ex_rng rng_uniform ex_uniform noise_range scaling_range fst snd List.length Nat.mul Nat.add seq map combine reshape firstn skipn scale_row fmul lift2].
  assert (Ep : Nat.even (s + 2 + 0) = Nat.even s) by (replace (s + 2 + 0)%nat with (2 + s)%nat by lia; reflexivity).
  assert (Ep1 : Nat.even (s + 2 + 1) = Nat.even (s + 1)) by (replace (s + 2 + 1)%nat with (2 + (s + 1))%nat by lia; reflexivity).
  assert (Ep0 : Nat.even (s + 0) = Nat.even s) by (f_equal; lia).
  assert (Eo : Nat.even (s + 1) = negb (Nat.even s)) by (rewrite Nat.add_1_r, Nat.even_succ, <- Nat.negb_even; reflexivity).
  rewrite Ep, Ep1, Ep0, Eo.
  match goal with |- context [standardize ip_new (A2 1 [[Some ?a]; [Some ?b]])] => assert (N : a <> b) by (destruct (Nat.even s); cbn [negb]; lra);
    destruct (wx_two a b N) as (ip & r & E) end.
  match goal with |- context [standardize ip_new ?x] => replace (standardize ip_new x) with (ip, Ok r) by (symmetry; exact E) end. cbn [bind]. eauto. Qed.
Lemma wx_generated : exists s1 t1, generate_training_data ex_nrng (Some wx_flat) 0%nat (mkTrainer ex_sample [1/10] None None) 2 = (s1, t1, None).
Proof. unfold generate_training_data. cbn [tr_sample tr_q].
  destruct (Labels_Proofs.generate_total ex_rng ex_rng_ok 0%nat ex_sample 2 (mkDparams "bolstered" (15 / 100) (1 / 10)) C03_example C02_example) as (s1 & labels & El); [right; cbn; split; [reflexivity|lra]|lia|].
  destruct (simulate_labels ex_nrng ex_nrng_ok (Some wx_flat) 0%nat ex_sample 2 _ s1 labels [1/10] s1 wx_fittable El) as (s2 & rows & Es & Lr & Fr).
  pose proof (wx_rows _ _ _ _ Es) as Fx. change (nr_g ex_nrng) with ex_rng in *. rewrite El, Es. cbv zeta.
  destruct rows as [|r1 [|r2 [|]]]; try discriminate. inversion Fr as [|? ? L1 Fr']; subst. inversion Fr' as [|? ? L2 _]; subst.
  inversion Fx as [|? ? (k1 & ->) Fx']; subst. inversion Fx' as [|? ? (k2 & ->) _]; subst. rewrite map_length in L1, L2.
  destruct k1 as [|? [|]]; try discriminate. destruct k2 as [|? [|]]; try discriminate. cbn [map List.length].
  destruct (wx_noise s2) as (s3 & ip & E3). match goal with |- context [prepare_ip ex_nrng s2 ?a] => replace (prepare_ip ex_nrng s2 a) with (s3, Ok ip) by (symmetry; exact E3) end. eauto. Qed.
(** A keras fit that leaves the network as it is *)
Definition wx_fit : network -> fit_args -> nat -> res (nat * network) := fun net _ s => Ok (s, net).
Example C124_example : exists s1 t1 s3 tm, generate_training_data ex_nrng (Some wx_flat) 0%nat (mkTrainer ex_sample [1/10] None None) 2 = (s1, t1, None) /\
  train ex_nrng (fun x => x) wx_fit (constant_net 1 [1/2; 1/3; 1/4]) 0%nat t1 175 1 1 (1/2) = Ok (s3, tm) /\
  exists s5 out, fit_curve ex_rng (Some wx_flat) ex_pick ex_cf (mkNN (tm_sample tm) [1/10] (tm_mean tm) (tm_std tm) 3 (predict (tm_keras tm))) 0%nat ex_input [1; 2] ex_both = Ok (s5, out) /\
    shaped ex_names 2 (fo_params out).
Proof. destruct wx_generated as (s1 & t1 & Eg). exists s1, t1.
  destruct (C124_train_and_fit nat ex_nrng ex_nrng_ok (Some wx_flat) (fun x => x) ex_pick ex_pick_ok ex_cf wx_fit (constant_net 1 [1/2; 1/3; 1/4]) ex_sample [1/10] 0%nat 2 3 s1 (mkTrainer ex_sample [1/10] None None) t1 0%nat 175 1 1 (1/2))
    as (s3 & tm & names & Et & En & K); try assumption.
  - exact wx_fittable.
  - discriminate.
  - intros n specs net a s s' net' B H. injection H as _ <-. exact B.
  - intros k a s. exists s, k. reflexivity.
  - exact wx_variables.
  - exact (constant_net_built 1 [1/2; 1/3; 1/4]).
  - unfold trainer_new. rewrite ex_all_params. reflexivity.
  - repeat split; auto.
  - lra.
  - lia.
  - change (Z.to_nat 2) with 2%nat. rewrite Generator_Props.ex_half. lia.
  - change (Z.to_nat 2) with 2%nat. rewrite Generator_Props.ex_half. lia.
  - exists s3, tm. split; [exact Eg|]. split; [exact Et|]. assert (names = ex_names) by (pose proof ex_label_names; congruence). subst names.
    destruct (C43_trained_model _ _ _ _ _ _ _ _ _ _ _ _ _ _ Et) as (T1 & T2 & T3).
    apply (K _ 0%nat ex_input [1; 2] ex_both); [|exact ex_valid|split; intros _; simpl; lia|reflexivity].
    repeat split. cbn [nn_q]. rewrite T2. destruct (C43_generated_data nat ex_nrng ex_nrng_ok (Some wx_flat) 0%nat (mkTrainer ex_sample [1/10] None None) 2 s1 t1 ex_named ltac:(discriminate) Eg) as (? & ? & ? & ? & ? & _ & _ & _ & _ & Q & _). rewrite Q. reflexivity. Qed.
