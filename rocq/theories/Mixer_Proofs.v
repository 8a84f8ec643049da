(** Proofs for C181. *)
From Coq Require Import Reals Lra.
From Verif Require Import Py Str Sample_Model Rng Sampling_Model Reflectivity_Model Simulation_Model Mixer_Model Mixer_Spec.
Local Open Scope string_scope.
Local Open Scope R_scope.

Lemma after_state q cs : mixer_after q cs =
  mkMixer (map fst cs) (map (fun c => match snd c with None => 1 | Some w => w end) cs) (map (fun c => mkGenerator q (fst c)) cs) q.
Proof. unfold mixer_after. induction cs as [|c cs IH] using rev_ind; [reflexivity|]. rewrite fold_left_app. cbn [fold_left]. rewrite !map_app. unfold mixer_call in *. rewrite IH. reflexivity. Qed.

Lemma total_scale k l : total (map (fun w => w / k) l) = total l / k.
Proof. induction l as [|x l IH]; unfold total in *; cbn [map fold_right]; [unfold Rdiv; ring|]. rewrite IH. unfold Rdiv. ring. Qed.
Lemma ratio_exists ws : total ws <> 0 -> in_ratio ws (map (fun w => w / total ws) ws).
Proof. intros H. split; [apply map_length|]. split; [rewrite total_scale; field; exact H|].
  intros i w p Hw Hp. rewrite nth_error_map, Hw in Hp. cbn in Hp. injection Hp as <-. field. exact H. Qed.
Lemma ratio_unique ws ps : total ws <> 0 -> in_ratio ws ps -> ps = map (fun w => w / total ws) ws.
Proof. intros H (L & _ & E). apply nth_error_ext. intros i. rewrite nth_error_map. destruct (nth_error ws i) as [w|] eqn:Ew; cbn [option_map].
  - destruct (nth_error ps i) as [p|] eqn:Ep.
    + f_equal. rewrite <- (E i w p Ew Ep). field. exact H.
    + apply nth_error_None in Ep. pose proof (proj1 (nth_error_Some ws i)) as K. rewrite Ew in K. specialize (K ltac:(discriminate)). lia.
  - apply nth_error_None. apply nth_error_None in Ew. lia. Qed.
Lemma ratio_nonneg ws ps : Forall (fun w => 0 <= w) ws -> 0 < total ws -> in_ratio ws ps -> Forall (fun p => 0 <= p <= 1) ps.
Proof. intros F H R. rewrite (ratio_unique ws ps ltac:(lra) R). apply Forall_map. apply Forall_forall. intros w Hw.
  assert (w <= total ws).
  { clear H R. induction F as [|x l Hx F IH]; [destruct Hw|]. assert (0 <= total l) by (clear IH Hw; induction F as [|y l Hy F IHF]; unfold total in *; cbn [fold_right]; lra).
    unfold total in *. cbn [fold_right]. destruct Hw as [->|Hw]; [lra|]. specialize (IH Hw). lra. }
  rewrite Forall_forall in F. specialize (F w Hw). split; [apply Rmult_le_pos; [exact F|left; apply Rinv_0_lt_compat; exact H]|].
  apply (Rmult_le_reg_r (total ws)); [exact H|]. replace (w / total ws * total ws) with w by (field; lra). lra. Qed.

Section Run.
  Context {S : Type} (g : rng S) (refl1d : option refl1d_fun).
  Lemma loop_choice choice choice' ps : (forall s, choice s ps = choice' s ps) -> forall is s qs models labels engine,
    mixer_loop g refl1d choice s qs models ps labels engine is = mixer_loop g refl1d choice' s qs models ps labels engine is.
  Proof. intros H. induction is as [|i is IH]; intros s qs models labels engine; [reflexivity|]. cbn [mixer_loop]. rewrite H.
    destruct (choice' s ps) as [[s1 j]|e]; [|reflexivity]. cbn [bind]. destruct (nth_error models j) as [m|]; [|reflexivity].
    destruct (generate_random_labels _ _ _ _ _) as [[s2 new]|e]; [|reflexivity]. cbn [bind]. destruct (set_columns new i labels) as [new'|e]; [|reflexivity]. cbn [bind].
    destruct (simulate_reflectivity _ _ _ _ _ _ _) as [[s3 c]|e]; [|reflexivity]. cbn [bind]. rewrite IH. reflexivity. Qed.
  Lemma run_choice choice choice' s q cs ps n labels engine : in_ratio (mx_weights (mixer_after q cs)) ps -> (forall s, choice s ps = choice' s ps) ->
    mixer_run g refl1d choice s (mixer_after q cs) n labels engine = mixer_run g refl1d choice' s (mixer_after q cs) n labels engine.
  Proof. intros R H. unfold mixer_run. destruct n as [|n]; [reflexivity|]. destruct (Req_EM_T _ _) as [E|E]; [reflexivity|]. unfold mixer_simulate.
    change (fold_right Rplus 0 ?l) with (total l) in *. rewrite <- (ratio_unique _ ps E R). apply loop_choice. exact H. Qed.
  Lemma run_scaled choice s q cs cs' k n labels engine : k <> 0 -> map fst cs' = map fst cs ->
    mx_weights (mixer_after q cs') = map (fun w => k * w) (mx_weights (mixer_after q cs)) ->
    mixer_run g refl1d choice s (mixer_after q cs') n labels engine = mixer_run g refl1d choice s (mixer_after q cs) n labels engine.
  Proof. intros K F W. rewrite !after_state in *. cbn [mx_weights] in W. unfold mixer_run. cbn [mx_weights mx_q mx_generators]. rewrite W. clear W.
    unfold mixer_call in *. set (ws := map (fun c : structure * option R => match snd c with None => 1 | Some w => w end) cs) in *. destruct n as [|n]; [reflexivity|].
    assert (T : fold_right Rplus 0 (map (fun w => k * w) ws) = k * fold_right Rplus 0 ws).
    { clear. induction ws as [|x l IH]; cbn [map fold_right]; [ring|]. rewrite IH. ring. }
    assert (G : map gn_sample (map (fun c : structure * option R => mkGenerator q (fst c)) cs') = map gn_sample (map (fun c : structure * option R => mkGenerator q (fst c)) cs)).
    { rewrite !map_map. cbn [gn_sample]. exact F. }
    unfold mixer_call in *. rewrite G. unfold mixer_simulate. rewrite T.
    destruct (Req_EM_T (k * fold_right Rplus 0 ws) 0) as [E|E]; destruct (Req_EM_T (fold_right Rplus 0 ws) 0) as [E'|E']; try reflexivity.
    - exfalso. apply Rmult_integral in E. tauto.
    - exfalso. apply E. rewrite E'. ring.
    - rewrite (map_map (fun w => k * w)). f_equal. apply map_ext. intros w. field. split; assumption. Qed.
  Lemma run_empty choice s q cs n labels engine : (0 < n)%nat -> total (mx_weights (mixer_after q cs)) = 0 ->
    mixer_run g refl1d choice s (mixer_after q cs) n labels engine = Raise ValueError.
  Proof. intros Hn E. unfold mixer_run. destruct n as [|n]; [lia|]. destruct (Req_EM_T _ _) as [_|X]; [reflexivity|contradiction]. Qed.
  Lemma run_drawn choice s q cs ps n labels engine s1 j smp w e : total (mx_weights (mixer_after q cs)) <> 0 -> in_ratio (mx_weights (mixer_after q cs)) ps -> choice s ps = Ok (s1, j) ->
    nth_error cs j = Some (smp, w) -> generate_random_labels g s1 smp 1 (mkDparams "bolstered" (15 / 100) (1 / 10)) = Raise e ->
    mixer_run g refl1d choice s (mixer_after q cs) (Datatypes.S n) labels engine = Raise e.
  Proof. intros H R E J G. unfold mixer_run. destruct (Req_EM_T _ _) as [X|_]; [contradiction|]. unfold mixer_simulate. change (fold_right Rplus 0 ?l) with (total l).
    rewrite <- (ratio_unique _ ps H R). cbn [seq mixer_loop]. rewrite E. cbn [bind]. replace (nth_error _ j) with (Some smp); [rewrite G; reflexivity|].
    symmetry. rewrite after_state. cbn [mx_generators]. rewrite !nth_error_map. unfold mixer_call in *. rewrite J. reflexivity. Qed.
  Lemma run_choice_error choice s q cs ps n labels engine e : total (mx_weights (mixer_after q cs)) <> 0 -> in_ratio (mx_weights (mixer_after q cs)) ps -> choice s ps = Raise e ->
    mixer_run g refl1d choice s (mixer_after q cs) (Datatypes.S n) labels engine = Raise e.
  Proof. intros H R E. unfold mixer_run. destruct (Req_EM_T _ _) as [X|_]; [contradiction|]. unfold mixer_simulate. change (fold_right Rplus 0 ?l) with (total l).
    rewrite <- (ratio_unique _ ps H R). cbn [seq mixer_loop]. rewrite E. reflexivity. Qed.
End Run.
