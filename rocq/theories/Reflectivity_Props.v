(** Properties C20-C24 and C85-C87: the built-in reflectivity engine. *)
From Coq Require Import Reals Lra.
From Coquelicot Require Import Complex.
From Verif Require Import Py Cplx Reflectivity_Model Reflectivity_Spec Reflectivity_Proofs ReflectivityFlux_Proofs.
Local Open Scope R_scope.

(** The engine applied to a stack in vacuum *)
Notation simulate qs s := (multilayer_reflectivity qs (thickness_array s) (roughness_array s) (sld_array s) 0).

(** A film of 200 A with absorption on silicon, ideally smooth *)
Definition ex_stack : stack := mkStack [mkFilm 200 0 (0.001, 0.0001)] 0 (0.00002, 0).
Definition ex_rough : stack := mkStack [mkFilm 200 5 (0.001, 0.0001)] 3 (0.00002, 0).
Lemma ex_stack_passive : passive ex_stack /\ smooth ex_stack.
Proof. split; split; repeat constructor; unfold Im; simpl; lra. Qed.

(** ** C20 *)
Theorem C20_shape_and_bounds qs th ro sl amb out : multilayer_reflectivity qs th ro sl amb = Ok out ->
  List.length out = List.length qs /\ Forall (fun o => forall x, o = Some x -> 0 <= x <= 1) out.
Proof. exact (engine_values qs th ro sl amb out). Qed.
Print Assumptions C20_shape_and_bounds.

Theorem C20_numbers_for_regular_stacks qs s : passive s -> Forall (fun q => regular q s) qs ->
  exists xs, simulate qs s = Ok (map Some xs) /\ Forall (fun x => 0 <= x <= 1) xs.
Proof. exact (engine_regular qs s). Qed.
Print Assumptions C20_numbers_for_regular_stacks.

Theorem C20_smooth_stacks_are_regular q s : passive s -> smooth s -> regular q s.
Proof. exact (smooth_regular q s). Qed.
Print Assumptions C20_smooth_stacks_are_regular.

Theorem C20_errors qs th ro sl amb :
  (multilayer_reflectivity qs th ro sl amb = Raise NotImplementedError <-> amb <> 0) /\
  (amb = 0 -> multilayer_reflectivity qs th ro sl amb = Raise ValueError <->
     ~ ((List.length th + 1)%nat = List.length ro /\ List.length ro = List.length sl)) /\
  (forall e, multilayer_reflectivity qs th ro sl amb = Raise e -> e = NotImplementedError \/ e = ValueError).
Proof. exact (engine_errors qs th ro sl amb). Qed.
Print Assumptions C20_errors.

(** All consistent argument lists are stacks. *)
Theorem C20_arguments_are_stacks th ro (sl : list C) : (List.length th + 1)%nat = List.length ro -> List.length ro = List.length sl ->
  exists s, thickness_array s = th /\ roughness_array s = ro /\ sld_array s = sl.
Proof. exact (arrays_stack th ro sl). Qed.
Print Assumptions C20_arguments_are_stacks.

Example C20_example : passive ex_stack /\ regular (1/10) ex_stack /\ List.length (thickness_array ex_stack) = 1%nat.
Proof. destruct ex_stack_passive. auto using smooth_regular. Qed.

(** ** C21 *)
Theorem C21_no_contrast qs th ro (sl : list C) : (List.length th + 1)%nat = List.length ro -> List.length ro = List.length sl ->
  Forall (fun s : C => s = 0) sl -> multilayer_reflectivity qs th ro sl 0 = Ok (map (fun _ => Some 0) qs).
Proof. exact (engine_no_contrast qs th ro sl). Qed.
Print Assumptions C21_no_contrast.

Example C21_example : multilayer_reflectivity [1; 2] [100] [3; 5] [RtoC 0; RtoC 0] 0 = Ok [Some 0; Some 0].
Proof. apply (engine_no_contrast [1; 2]); [reflexivity|reflexivity|]. repeat constructor. Qed.

(** ** C22 *)
Theorem C22_split_layer qs above d1 d2 sg tau rho below sigma sld : Forall (fun q => wave q rho <> 0) qs ->
  simulate qs (mkStack (above ++ mkFilm d1 sg rho :: mkFilm d2 tau rho :: below) sigma sld) =
  simulate qs (mkStack (above ++ mkFilm (d1 + d2) sg rho :: below) sigma sld).
Proof. exact (engine_split qs above d1 d2 sg tau rho below sigma sld). Qed.
Print Assumptions C22_split_layer.

(** A layer of substrate material directly on the substrate is invisible. *)
Theorem C22_substrate_layer qs above d sg tau rho : Forall (fun q => wave q rho <> 0) qs ->
  simulate qs (mkStack (above ++ [mkFilm d sg rho]) tau rho) = simulate qs (mkStack above sg rho).
Proof. exact (engine_substrate_layer qs above d sg tau rho). Qed.
Print Assumptions C22_substrate_layer.

(** The side condition holds for every material that does not amplify. *)
Theorem C22_condition q rho : 0 <= Im rho -> wave q rho <> 0.
Proof. exact (wave_neq_0 q rho). Qed.
Print Assumptions C22_condition.

Example C22_example : Forall (fun q => wave q (0.001, 0.0001) <> 0) [0; 1/10].
Proof. repeat constructor; apply wave_neq_0; unfold Im; simpl; lra. Qed.

(** ** C23 *)
Theorem C23_bare_substrate qs sigma sld : 0 <= Im sld ->
  multilayer_reflectivity qs [] [sigma] [sld] 0 = Ok (map (fun q => Some (clipped (nevot_croce (wave q 0) (wave q sld) sigma))) qs).
Proof. exact (engine_bare qs sigma sld). Qed.
Print Assumptions C23_bare_substrate.

Example C23_example : multilayer_reflectivity [1/10] [] [3] [(0.001, 0.0001)] 0 =
  Ok [Some (clipped (nevot_croce (wave (1/10) 0) (wave (1/10) (0.001, 0.0001)) 3))].
Proof. apply (engine_bare [1/10]). unfold Im; simpl; lra. Qed.

(** ** C24 *)
Theorem C24_parratt qs s rs : passive s -> Forall2 (fun q r => parratt_amplitude q s = Some r) qs rs ->
  simulate qs s = Ok (map (fun r => Some (clipped r)) rs).
Proof. exact (engine_parratt qs s rs). Qed.
Print Assumptions C24_parratt.

(** For smooth stacks the recursion never meets a vanishing denominator. *)
Theorem C24_smooth_defined q s : passive s -> smooth s -> exists r, parratt_amplitude q s = Some r.
Proof. exact (amplitude_smooth q s). Qed.
Print Assumptions C24_smooth_defined.

Example C24_example : exists r, parratt_amplitude (1/10) ex_stack = Some r.
Proof. destruct ex_stack_passive. auto using amplitude_smooth. Qed.

(** ** C85: energy conservation *)
Theorem C85_energy qs s : passive s -> smooth s -> Forall (fun q => q <> 0) qs ->
  exists rs, simulate qs s = Ok (map (fun r => Some (clipped r)) rs) /\
    Forall2 (fun q r => Cmod r <= 1 + 16 * PI * tiny / (q * q)) qs rs.
Proof. exact (engine_energy qs s). Qed.
Print Assumptions C85_energy.

Example C85_example : passive ex_stack /\ smooth ex_stack /\ Forall (fun q => q <> 0) [1/10; 2/10].
Proof. destruct ex_stack_passive. repeat split; try tauto; try apply H; try apply H0. repeat constructor; lra. Qed.

(** ** C86 *)
Theorem C86_vanishing_layer qs above rho below sigma sld : Forall (fun f => 0 <= Im (f_sld f)) above -> 0 <= Im rho ->
  (match below with [] => sigma | f :: _ => f_roughness f end) = 0 ->
  simulate qs (mkStack (above ++ mkFilm 0 0 rho :: below) sigma sld) = simulate qs (mkStack (above ++ below) sigma sld).
Proof. exact (engine_thin qs above rho below sigma sld). Qed.
Print Assumptions C86_vanishing_layer.

Example C86_example : simulate [1/10] (mkStack [mkFilm 0 0 (0.001, 0.0001)] 0 (0.00002, 0)) = simulate [1/10] (mkStack [] 0 (0.00002, 0)).
Proof. apply (engine_thin [1/10] []); [constructor|unfold Im; simpl; lra|reflexivity]. Qed.

(** ** C87 *)
Theorem C87_even_in_q qs th ro sl amb : multilayer_reflectivity (map Ropp qs) th ro sl amb = multilayer_reflectivity qs th ro sl amb.
Proof. exact (engine_even qs th ro sl amb). Qed.
Print Assumptions C87_even_in_q.

Example C87_example : simulate [- (1/10)] ex_rough = simulate [1/10] ex_rough.
Proof. apply (engine_even [1/10]). Qed.
