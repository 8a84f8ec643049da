(** Properties C66-C72, C81 and C103-C105: the curve fitter. *)
From Coq Require Import Reals Lra.
From Coquelicot Require Import Complex.
From Verif Require Import Py Str Cplx Sample_Model Sample_Spec Sample_Proofs Sample_Props Rng Sampling_Model Sampling_Spec Sampling_Proofs Labels_Proofs
  Reflectivity_Model Reflectivity_Spec Simulation_Model Simulation_Spec Simulation_Proofs Interp_Model Interp_Spec Interp_Proofs Arr
  Preproc_Model Preproc_Spec Preproc_Proofs OutPreproc_Proofs Training_Props Fitter_Model Fitter_Spec Fitter_Proofs FitterOut_Proofs Polish_Proofs Choice_Proofs.
Local Open Scope string_scope.
Local Open Scope R_scope.

(** ** Examples *)
(** A network for the sample of C01 on the q values 1 and 2 that uses the second intensity for each of the three variable labels *)
Definition ex_nn : nn_model := mkNN ex_sample [1; 2] [Some 0; Some 0] [Some 1; Some 1] 3 (fun rows => Ok (map (fun r => repeat (nth 1 r None) 3) rows)).
Definition ex_cf : @curve_fit_fun nat := fun f s xs ys start lo hi => Raise ValueError.
Definition ex_pick (l : list fl) : nat := 0%nat.
Lemma ex_pick_ok : pick_ok ex_pick.
Proof. intros [|x l] H; [congruence|]. unfold ex_pick. simpl. lia. Qed.
Lemma ex_cf_ok : curve_fit_ok ex_cf.
Proof. intros f s xs ys start lo hi. split; [reflexivity|discriminate]. Qed.
Lemma ex_fittable : fittable None (nn_sample ex_nn).
Proof. split; [exact ex_named|]. split; [repeat constructor|]. split; [discriminate|]. exists (Flt 0), (Some "sld"). split; reflexivity. Qed.
Lemma ex_network : network_ok ex_nn ex_names.
Proof. split; [discriminate|]. split; [reflexivity|]. split; [reflexivity|]. split; [exact ex_label_names|]. split; [exists ex_params; split; [exact ex_all_params|reflexivity]|].
  intros rows _ _. eexists. split; [reflexivity|]. split; [apply map_length|]. apply Forall_map. apply Forall_forall. intros r _. apply repeat_length. Qed.
Lemma ex_rowwise : network_rowwise ex_nn.
Proof. eexists. intros rows _ _. reflexivity. Qed.
Definition ex_input : arr := A2 2 [[Some 1; Some (1/10)]; [Some 1; Some (1/2)]].
Lemma ex_valid : valid_input ex_input [1; 2].
Proof. split; [discriminate|]. split; [discriminate|]. split; [repeat constructor|reflexivity]. Qed.
Definition ex_both : options := mkOptions 0 1 false [1/2; 1/2; 1/10] true 3 true 2 true.

(** ** C66 *)
Theorem C66_one_row_per_curve S (g : rng S) refl1d pick cf m names s curve q o s' out :
  rng_ok g -> pick_ok pick -> curve_fit_ok cf -> fittable refl1d (nn_sample m) -> network_ok m names -> valid_input curve q -> samples_ok o ->
  fit_curve g refl1d pick cf m s curve q o = Ok (s', out) ->
  shaped names (List.length (curves_of curve)) (fo_params out) /\
  (forall cs, fo_refl out = Some cs -> List.length cs = List.length (curves_of curve) /\ Forall (fun c => List.length c = List.length q) cs).
Proof. exact (fun G P C F N => fit_curve_shape g G refl1d pick P cf C m names F N s curve q o s' out). Qed.
Print Assumptions C66_one_row_per_curve.

Theorem C66_succeeds_without_polishing_partial S (g : rng S) refl1d pick cf m names s curve q o :
  rng_ok g -> pick_ok pick -> fittable refl1d (nn_sample m) -> network_ok m names -> valid_input curve q -> samples_ok o -> o_polish o = false ->
  exists s' out, fit_curve g refl1d pick cf m s curve q o = Ok (s', out) /\
    shaped names (List.length (curves_of curve)) (fo_params out) /\
    (if o_sim o then exists cs, fo_refl out = Some cs /\ List.length cs = List.length (curves_of curve) /\ Forall (fun c => List.length c = List.length q) cs
     else fo_refl out = None).
Proof. exact (fun G P F N => fit_curve_total g G refl1d pick P cf m names F N s curve q o). Qed.
Print Assumptions C66_succeeds_without_polishing_partial.

(** If the network treats the curves of a batch independently, row [i] belongs to curve [i]. *)
Theorem C66_row_order S (g : rng S) refl1d pick cf m names s curve q o s' out i c s1 s1' out1 :
  named_sample (nn_sample m) -> network_ok m names -> network_rowwise m -> ~ both o -> o_polish o = false ->
  fit_curve g refl1d pick cf m s curve q o = Ok (s', out) -> nth_error (curves_of curve) i = Some c ->
  fit_curve g refl1d pick cf m s1 (A1 c) q o = Ok (s1', out1) -> fo_params out1 = frame_slice i (fo_params out).
Proof. exact (fun H N R => row_order g refl1d pick cf m names H N R s curve q o s' out i c s1 s1' out1). Qed.
Print Assumptions C66_row_order.

Example C66_example : exists s' out, fit_curve ex_rng None ex_pick ex_cf ex_nn 0%nat ex_input [1; 2] ex_both = Ok (s', out) /\
  shaped ex_names 2 (fo_params out) /\ exists cs, fo_refl out = Some cs /\ List.length cs = 2%nat.
Proof. destruct (C66_succeeds_without_polishing_partial nat ex_rng None ex_pick ex_cf ex_nn ex_names 0%nat ex_input [1; 2] ex_both ex_rng_ok ex_pick_ok ex_fittable ex_network ex_valid) as (s' & out & E & Sh & cs & Ec & L & _).
  - split; intros _; simpl; lia.
  - reflexivity.
  - exists s', out. split; [exact E|]. split; [exact Sh|]. exists cs. auto. Qed.

(** ** C67 *)
Theorem C67_lengths_not_negative S (g : rng S) refl1d pick cf m s curve q o s' out k c :
  fit_curve g refl1d pick cf m s curve q o = Ok (s', out) -> length_label (nn_sample m) k -> In (k, c) (fr_cols (fo_params out)) -> Forall nonneg_cell c.
Proof. exact (fun H K => fit_curve_nonneg g refl1d pick cf m s curve q o s' out k H K c). Qed.
Print Assumptions C67_lengths_not_negative.
Example C67_example : length_label ex_sample "film_thickness" /\ length_label ex_sample "Si_roughness" /\
  ensure_positive (mkFrame 1 [("film_thickness", [Some (RtoC (-3))]); ("film_sld", [Some (RtoC (-3))])]) =
  mkFrame 1 [("film_thickness", [Some (RtoC 3)]); ("film_sld", [Some (RtoC (-3))])].
Proof. split; [left; exists ex_film; split; [right; right; left; reflexivity|reflexivity]|]. split; [right; exists ex_sub; split; [left; reflexivity|reflexivity]|].
  unfold ensure_positive. cbn [fr_rows fr_cols map fst snd]. change (sign_free "film_thickness") with true. change (sign_free "film_sld") with false. cbv iota. cbn [map option_map].
  rewrite Cmod_R. replace (Rabs (-3)) with 3; [reflexivity|]. rewrite Rabs_left; lra. Qed.

(** ** C68 *)
(** The shift and the parameters belong to the same variant; it has the smallest error if all logarithms are finite.
    (With values that are not positive the errors are NaN or infinite, and numpy's argmin returns the first NaN.) *)
Theorem C68_best_shift_partial S (g : rng S) refl1d pick cf m s curve q o s' out :
  fit_curve g refl1d pick cf m s curve q o = Ok (s', out) -> o_opt_q o = true ->
  exists ds, fo_shift out = Some ds /\
    Forall2 (fun c d => exists best, shift_choice g (fit_curve g refl1d pick cf m) m q c (o_nq o) d best) (curves_of curve) ds.
Proof. exact (shifts_chosen g refl1d pick cf m s curve q o s' out). Qed.
Print Assumptions C68_best_shift_partial.
Theorem C68_best_scaling_partial S (g : rng S) refl1d pick cf m s curve q o s' out :
  fit_curve g refl1d pick cf m s curve q o = Ok (s', out) -> o_opt_scale o = true ->
  exists ks lo hi fs, fo_scaling out = Some ks /\ nearest_window m q lo hi /\ List.length ks = List.length (curves_of curve) /\
    List.length fs = List.length (curves_of curve) /\
    (forall i c k f, nth_error (curves_of curve) i = Some c -> nth_error ks i = Some k -> nth_error fs i = Some f -> exists dq, shift_at out i = Some dq /\
       scaling_choice g (fit_curve g refl1d pick cf m) q lo hi c (o_ns o) dq k f) /\
    (o_opt_q o = true -> o_polish o = false -> concat_frames fs = Ok (fo_params out)).
Proof. exact (scaling_chosen g refl1d pick cf m s curve q o s' out). Qed.
Print Assumptions C68_best_scaling_partial.
Example C68_example : first_min [3; 1; 2; 1] 1 /\ ~ first_min [3; 1; 2; 1] 3.
Proof. split.
  - split; [simpl; lia|]. split; [intros [|[|[|[|j]]]] H; simpl in *; try lia; lra|]. intros [|j] H; [simpl; lra|lia].
  - intros (_ & _ & H). specialize (H 1%nat ltac:(lia)). simpl in H. lra. Qed.

(** ** C69 *)
(** With only one of the two optimisations the returned parameters are those of an ordinary prediction. *)
Theorem C69_single_optimisation_ignored S (g : rng S) refl1d pick cf m s s1 curve q o s' s1' out out1 :
  ~ both o -> o_polish o = false ->
  fit_curve g refl1d pick cf m s curve q o = Ok (s', out) -> fit_curve g refl1d pick cf m s1 curve q (without_optimisation o) = Ok (s1', out1) ->
  fo_params out = fo_params out1.
Proof. exact (same_params g refl1d pick cf _ _ m s s1 curve q o s' s1' out out1). Qed.
Print Assumptions C69_single_optimisation_ignored.

(** With both optimisations, row [i] holds the parameters selected for curve [i]: the scaling variant with the selected shift. *)
Theorem C69_both_optimisations S (g : rng S) refl1d pick cf m names s curve q o s' out :
  rng_ok g -> pick_ok pick -> fittable refl1d (nn_sample m) -> network_ok m names -> valid_input curve q -> both o -> o_polish o = false ->
  fit_curve g refl1d pick cf m s curve q o = Ok (s', out) ->
  exists lo hi ds ks, nearest_window m q lo hi /\ fo_shift out = Some ds /\ fo_scaling out = Some ks /\
    List.length ds = List.length (curves_of curve) /\ List.length ks = List.length (curves_of curve) /\
    forall i c, nth_error (curves_of curve) i = Some c -> exists d k best,
      nth_error ds i = Some d /\ nth_error ks i = Some k /\
      (exists b, shift_choice g (fit_curve g refl1d pick cf m) m q c (o_nq o) d b) /\
      scaling_choice g (fit_curve g refl1d pick cf m) q lo hi c (o_ns o) d k best /\ frame_row (fo_params out) i = frame_row best 0.
Proof. exact (fun G P F N => both_chosen g G refl1d pick P cf m names F N s curve q o s' out). Qed.
Print Assumptions C69_both_optimisations.

(** The prediction of the example network *)
Lemma ex_predict x y f : predict_labels ex_nn [[Some x; Some y]] = Ok f -> tget (fr_cols f) "film_sld" = Some [Some (RtoC (y + 1))].
Proof. unfold predict_labels, standardize, nn_ip. cbn [ip_mean ip_std snd nn_mean nn_std nn_q ex_nn]. rewrite row_op_A2 by reflexivity. cbn [bind]. rewrite row_op_A2 by reflexivity. cbn [bind map List.length nn_predict nn_out ex_nn].
  assert (Q : repeat (nth 1 (bop fdiv 2 (bop fsub 2 [Some x; Some y] [Some 0; Some 0]) [Some 1; Some 1]) None) 3 = ([Some y; Some y; Some y] : list fl)).
  { unfold bop. cbn [stretch combine map fst snd nth]. unfold fsub, fdiv, lift2. destruct (Req_EM_T 1 0) as [E|_]; [lra|]. cbn [repeat]. replace ((y - 0) / 1) with y by field. reflexivity. }
  intros H. bind_as H f0 E0. injection H as <-.
  destruct (restore_array ex_sample ex_names ex_params 1 (columns_of 3 [[Some y; Some y; Some y]]) ex_named ex_all_params ex_label_names) as (f1 & E1 & _ & _ & _ & Ev); [reflexivity|repeat constructor|].
  pose proof (eq_trans (eq_sym E0) (eq_trans (f_equal (fun r : list fl => restore_labels (nn_op ex_nn) (LArray 1 (columns_of 3 [r]))) Q) E1)) as E2. injection E2 as ->. rewrite ensure_tget. change (sign_free "film_sld") with false. cbv iota.
  rewrite (Ev "film_sld" (Range (Flt 1) (Flt 2) (Some "sld"))).
  - change (tget (combine (map pname_str (used_params ex_params)) (columns_of 3 [[Some y; Some y; Some y]])) "film_sld") with (Some [Some (RtoC y)]). cbn [option_map map]. rewrite renorm_real.
    replace (y * (2 - 1) + 1) with (y + 1) by ring. reflexivity.
  - right. right. exists ex_film. split; [right; right; left; reflexivity|]. split; reflexivity.
  - reflexivity. Qed.

Lemma ex_interp d y : 0 <= d < 1 -> 0 < y -> interp_reflectivity [1; 2] [1 + d; 2 + d] [Some 1; Some y] = Ok [Some 1; Some (Rpower 10 ((1 - d) * Interp_Model.log10 y))].
Proof. intros Hd Hy. rewrite interp_total; [|reflexivity|discriminate]. cbn [map]. unfold value. cbn [map combine]. rewrite !log_value_pos by lra.
  assert (L1 : Interp_Model.log10 1 = 0) by (unfold Interp_Model.log10; rewrite ln_1; unfold Rdiv; ring). rewrite L1. set (L := Interp_Model.log10 y).
  assert (A : (if Rlt_dec 1 (1 + d) then LFin 0 else interp_from 1 (1 + d) (LFin 0) [(2 + d, LFin L)]) = LFin 0).
  { destruct (Rlt_dec 1 (1 + d)); [reflexivity|]. assert (d = 0) by lra. subst d. cbn [interp_from]. destruct (Rlt_dec 1 (2 + 0)); [|lra]. destruct (Req_EM_T 1 (1 + 0)); [reflexivity|lra]. }
  assert (B : (if Rlt_dec 2 (1 + d) then LFin 0 else interp_from 2 (1 + d) (LFin 0) [(2 + d, LFin L)]) = LFin ((1 - d) * L)).
  { destruct (Rlt_dec 2 (1 + d)); [lra|]. cbn [interp_from segment]. destruct (Rlt_dec 2 (2 + d)).
    - destruct (Req_EM_T 2 (1 + d)); [lra|]. f_equal. field; lra.
    - assert (d = 0) by lra. subst d. f_equal. ring. }
  rewrite A, B. cbn [pow10]. rewrite Rpower_O by lra. reflexivity. Qed.

Definition ex_curve : arr := A1 [Some 1; Some (1/10)].
Definition ex_shift_only : options := mkOptions 0 1 false [1/2; 1/2; 1/10] true 1 false 1 true.
Theorem C69_selected_variant_refuted : exists (m : nn_model) (names : list string) (q : list R) (curve : arr) (c : list fl) (o : options) (s' : nat) (out : fit_output) (d : R),
  fittable None (nn_sample m) /\ network_ok m names /\ valid_input curve q /\ samples_ok o /\ o_polish o = false /\ o_opt_q o = true /\ curves_of curve = [c] /\
  fit_curve wild_rng None ex_pick ex_cf m 0%nat curve q o = Ok (s', out) /\ fo_shift out = Some [d] /\
  forall best, shift_choice wild_rng (fit_curve wild_rng None ex_pick ex_cf m) m q c (o_nq o) d best -> best <> fo_params out.
Proof.
  destruct (C66_succeeds_without_polishing_partial nat wild_rng None ex_pick ex_cf ex_nn ex_names 0%nat ex_curve [1; 2] ex_shift_only wild_rng_ok ex_pick_ok ex_fittable ex_network) as (s' & out & E & _).
  { split; [discriminate|]. split; [discriminate|]. split; [repeat constructor|exact I]. }
  { split; intros H; [simpl; lia|discriminate]. }
  { reflexivity. }
  destruct (C68_best_shift_partial _ _ _ _ _ _ _ _ _ _ _ _ E eq_refl) as (ds & Eds & F). cbn [curves_of ex_curve] in F. inversion F as [|c0 d l l' _ F' E1 E2]; subst c0 l. inversion F'; subst l'. subst ds.
  exists ex_nn, ex_names, [1; 2], ex_curve, [Some 1; Some (1/10)], ex_shift_only, s', out, d.
  split; [exact ex_fittable|]. split; [exact ex_network|]. split; [split; [discriminate|]; split; [discriminate|]; split; [repeat constructor|exact I]|].
  split; [split; intros H; [simpl; lia|discriminate]|]. split; [reflexivity|]. split; [reflexivity|]. split; [reflexivity|]. split; [exact E|]. split; [exact Eds|].
  intros best (s & s1 & shifts & curves & s2 & out2 & cs & ref & i & Hn & Hv & Hf & _ & _ & Hi & -> & _) Eq.
  unfold np_normal in Hn. destruct (Rlt_dec (1/1000) 0); [lra|]. cbn [o_nq ex_shift_only Z.ltb Z.compare Z.to_nat Pos.to_nat Pos.iter_op rng_normal wild_rng repeat] in Hn. injection Hn as <- <-.
  inversion Hv as [|d0 cv l l' Hc Hv' E1 E2]; subst. inversion Hv'; subst. clear Hv Hv'. cbn [map] in Hc. change (nn_q ex_nn) with [1; 2] in Hc. rewrite ex_interp in Hc by lra. injection Hc as <-.
  destruct i as [|i]; [|destruct i; discriminate].
  unfold fit_curve in E, Hf. apply unoptimised_params in E; [|intros [_ Hb]; discriminate|reflexivity]. apply unoptimised_params in Hf; [|intros [Hb _]; discriminate|reflexivity].
  destruct E as (ip & Ei & Ep), Hf as (ip2 & Ei2 & Ep2).
  unfold interp_stage, interpolate_intensity in Ei, Ei2. cbn [o_dq o_factor ex_shift_only plain_options variant_options curves_of ex_curve map mapM] in Ei, Ei2. rewrite !fmul_one in Ei, Ei2.
  change (nn_q ex_nn) with [1; 2] in Ei, Ei2. cbn [map] in Ei2.
  rewrite ex_interp in Ei by lra. rewrite ex_interp in Ei2; [|lra|unfold Rpower; apply exp_pos]. cbn [bind] in Ei, Ei2. injection Ei as <-. injection Ei2 as <-.
  apply ex_predict in Ep, Ep2. rewrite <- Eq in Ep.
  assert (K : tget (fr_cols (frame_slice 0 (fo_params out2))) "film_sld" = option_map (firstn 1) (tget (fr_cols (fo_params out2)) "film_sld")).
  { unfold frame_slice. cbn [fr_cols]. clear. induction (fr_cols (fo_params out2)) as [|[k c] t IH]; [reflexivity|]. cbn [map tget fst snd skipn]. destruct (String.eqb k "film_sld"); [reflexivity|exact IH]. }
  rewrite K, Ep2 in Ep. cbn [option_map firstn] in Ep. injection Ep as Ep.
  replace ((1 - 0) * Interp_Model.log10 (1/10)) with (Interp_Model.log10 (1/10)) in Ep by ring. rewrite pow_log in Ep by lra.
  replace ((1 - 0) * Interp_Model.log10 (Rpower 10 ((1 - (0 + 4 * (1 / 1000))) * Interp_Model.log10 (1 / 10)))) with
    (Interp_Model.log10 (Rpower 10 ((1 - (0 + 4 * (1 / 1000))) * Interp_Model.log10 (1 / 10)))) in Ep by ring.
  rewrite pow_log in Ep by (unfold Rpower; apply exp_pos).
  assert (L2 : Interp_Model.log10 (1/10) = -1). { unfold Interp_Model.log10. replace (1/10) with (/10) by lra. rewrite ln_Rinv by lra. field. pose proof ln10_pos. lra. }
  assert (P : Rpower 10 (-1) < Rpower 10 ((1 - (0 + 4 * (1 / 1000))) * Interp_Model.log10 (1 / 10))) by (apply Rpower_lt; [lra|]; rewrite L2; lra).
  rewrite <- L2 in P at 1. rewrite pow_log in P by lra. lra. Qed.
Print Assumptions C69_selected_variant_refuted.

(** ** C70 *)
Theorem C70_optional_outputs S (g : rng S) refl1d pick cf m s curve q o s' out : fit_curve g refl1d pick cf m s curve q o = Ok (s', out) ->
  (fo_shift out = None <-> o_opt_q o = false) /\ (fo_scaling out = None <-> o_opt_scale o = false) /\ (fo_refl out = None <-> o_sim o = false).
Proof. exact (optional_outputs g refl1d pick cf _ m s curve q o s' out). Qed.
Print Assumptions C70_optional_outputs.
Example C70_example : exists s' out, fit_curve ex_rng None ex_pick ex_cf ex_nn 0%nat ex_input [1; 2] ex_shift_only = Ok (s', out) /\ fo_shift out <> None /\ fo_scaling out = None.
Proof. destruct (C66_succeeds_without_polishing_partial nat ex_rng None ex_pick ex_cf ex_nn ex_names 0%nat ex_input [1; 2] ex_shift_only ex_rng_ok ex_pick_ok ex_fittable ex_network ex_valid) as (s' & out & E & _).
  - split; intros H; [simpl; lia|discriminate].
  - reflexivity.
  - exists s', out. split; [exact E|]. destruct (C70_optional_outputs _ _ _ _ _ _ _ _ _ _ _ _ E) as (A & B & _). split; [intros K; apply A in K; discriminate|apply B; reflexivity]. Qed.

(** ** C71 *)
(** The start values are within the bounds ... *)
Theorem C71_start_inside_bounds S (g : rng S) refl1d (cf cf' : @curve_fit_fun S) s q data labels o fr : Forall (fun f => 0 <= f) fr ->
  (forall f s xs ys start lo hi, inside (Nat.min (List.length start) (List.length fr)) start lo hi -> cf f s xs ys start lo hi = cf' f s xs ys start lo hi) ->
  least_squares g refl1d cf s q data labels o fr = least_squares g refl1d cf' s q data labels o fr.
Proof. exact (least_squares_calls g refl1d cf cf' s q data labels o fr). Qed.
Print Assumptions C71_start_inside_bounds.
(** ... but scipy accepts the bounds only with one fraction per label and no start value zero, *)
Theorem C71_accepted_iff xs fr : Forall (fun f => 0 <= f) fr ->
  (feasible (map Some xs) (lower_bounds (map Some xs) fr) (upper_bounds (map Some xs) fr) <->
   (List.length xs <= List.length fr)%nat /\ forall i, (i < List.length xs)%nat -> nth i xs 0 <> 0 /\ 0 < nth i fr 0).
Proof. exact (feasible_iff xs fr). Qed.
Print Assumptions C71_accepted_iff.
(** ... so that polishing needs as many fractions as the sample has variable labels. *)
Theorem C71_polishing_needs_bounds S (g : rng S) refl1d pick cf m names s curve q o s' out ps :
  rng_ok g -> pick_ok pick -> curve_fit_ok cf -> fittable refl1d (nn_sample m) -> network_ok m names -> valid_input curve q -> samples_ok o -> o_polish o = true ->
  all_params (nn_sample m) = Ok ps -> fit_curve g refl1d pick cf m s curve q o = Ok (s', out) ->
  (List.length (filter (fun p => negb (is_const p)) ps) <= List.length (o_bounds o))%nat.
Proof. exact (fun G P C F N => polish_needs g G refl1d pick P cf C m names F N s curve q o s' out ps). Qed.
Print Assumptions C71_polishing_needs_bounds.

(** A sample with two films, and the default bounds of [fit_curve] *)
Definition ex_film2 : layer := mkLayer KLayer "cap"
  (Some (Range (Flt 10) (Flt 20) (Some "thickness"))) (Some (Range (Flt 0) (Flt 5) (Some "roughness"))) (Some (Range (Flt 1) (Flt 2) (Some "sld"))).
Definition two_films : structure := mkStructure ex_amb ex_sub [ex_film; ex_film2].
Lemma two_films_ordinary : ordinary_sample two_films.
Proof. unfold ordinary_sample, substrate_layer, ambient_layer, film_layer, named. ex. Qed.
Definition two_names : list string := Eval cbn in (labels_of "thickness" (st_layers two_films) ++ labels_of "roughness" (st_substrate two_films :: st_layers two_films) ++ labels_of "sld" (all_layers two_films))%list.
Definition two_params : list param := [
  Range (Flt 10) (Flt 20) (Some "film_thickness"); Range (Flt 10) (Flt 20) (Some "cap_thickness");
  Const (Flt 1) (Some "Si_roughness"); Range (Flt 0) (Flt 5) (Some "film_roughness"); Range (Flt 0) (Flt 5) (Some "cap_roughness");
  Const (Flt 20) (Some "Si_sld"); Range (Flt 1) (Flt 2) (Some "film_sld"); Range (Flt 1) (Flt 2) (Some "cap_sld"); Const (Flt 0) (Some "air_sld")].
Lemma two_all_params : all_params two_films = Ok two_params.
Proof. unfold all_params. destruct (thicknesses_ordinary two_films two_films_ordinary) as (ts & -> & Ft).
  destruct (roughnesses_ordinary two_films two_films_ordinary) as (rs & -> & Fr). destruct (slds_ordinary two_films two_films_ordinary) as (ss & -> & Fs). cbn [bind].
  repeat match goal with
  | H : Forall2 _ _ _ |- _ => cbn in H; inversion H; clear H; subst
  | H : labelled _ _ _ _ |- _ => destruct H as (? & E & _ & ->); cbn in E; injection E as <-
  end. reflexivity. Qed.
Lemma two_named : named_sample two_films.
Proof. split; [exact two_films_ordinary|]. simpl. repeat (constructor; [simpl; intuition discriminate|]). constructor. Qed.
Definition two_nn : nn_model := mkNN two_films [1; 2] [Some 0; Some 0] [Some 1; Some 1] 6 (fun rows => Ok (map (fun r => repeat (nth 1 r None) 6) rows)).
Lemma two_fittable : fittable None (nn_sample two_nn).
Proof. split; [exact two_named|]. split; [repeat constructor|]. split; [discriminate|]. exists (Flt 0), (Some "sld"). split; reflexivity. Qed.
Lemma two_network : network_ok two_nn two_names.
Proof. split; [discriminate|]. split; [reflexivity|]. split; [reflexivity|]. split; [exact (C01_label_order two_films two_films_ordinary)|]. split; [exists two_params; split; [exact two_all_params|reflexivity]|].
  intros rows _ _. eexists. split; [reflexivity|]. split; [apply map_length|]. apply Forall_map. apply Forall_forall. intros r _. apply repeat_length. Qed.
Definition ex_polish : options := mkOptions 0 1 true [5/10; 5/10; 1/10] false 1000 false 300 true.

(** A sample with two films can be predicted, but polishing it with the default bounds always raises an exception. *)
Theorem C71_bounds_per_label_refuted : exists (m : nn_model) (names : list string),
  fittable None (nn_sample m) /\ network_ok m names /\
  forall (cf : @curve_fit_fun nat) s curve q, curve_fit_ok cf -> valid_input curve q ->
    exists e, fit_curve ex_rng None ex_pick cf m s curve q ex_polish = Raise e.
Proof. exists two_nn, two_names. split; [exact two_fittable|]. split; [exact two_network|]. intros cf s curve q Hcf V.
  destruct (fit_curve ex_rng None ex_pick cf two_nn s curve q ex_polish) as [[s' out]|e] eqn:E; [exfalso|eauto].
  pose proof (C71_polishing_needs_bounds nat ex_rng None ex_pick cf two_nn two_names s curve q ex_polish s' out two_params ex_rng_ok ex_pick_ok Hcf two_fittable two_network V) as K.
  assert (6 <= 3)%nat; [|lia]. apply K; [split; discriminate|reflexivity|exact two_all_params|exact E]. Qed.
Print Assumptions C71_bounds_per_label_refuted.
(** ... so that not every combination of options gives a result for every sample and every curve. *)
Theorem C66_polishing_refuted : exists (m : nn_model) (names : list string),
  fittable None (nn_sample m) /\ network_ok m names /\
  forall (cf : @curve_fit_fun nat) s curve q, curve_fit_ok cf -> valid_input curve q ->
    (exists e, fit_curve ex_rng None ex_pick cf m s curve q ex_polish = Raise e) /\
    exists s' out, fit_curve ex_rng None ex_pick cf m s curve q ex_both = Ok (s', out) /\ shaped names (List.length (curves_of curve)) (fo_params out).
Proof. exists two_nn, two_names. split; [exact two_fittable|]. split; [exact two_network|]. intros cf s curve q Hcf V. split.
  - destruct (fit_curve ex_rng None ex_pick cf two_nn s curve q ex_polish) as [[s' out]|e] eqn:E; [exfalso|eauto].
    pose proof (C71_polishing_needs_bounds nat ex_rng None ex_pick cf two_nn two_names s curve q ex_polish s' out two_params ex_rng_ok ex_pick_ok Hcf two_fittable two_network V) as K.
    assert (6 <= 3)%nat; [|lia]. apply K; [split; discriminate|reflexivity|exact two_all_params|exact E].
  - destruct (C66_succeeds_without_polishing_partial nat ex_rng None ex_pick cf two_nn two_names s curve q ex_both ex_rng_ok ex_pick_ok two_fittable two_network V) as (s' & out & E & Sh & _);
      [split; intros _; simpl; lia|reflexivity|]. exists s', out. split; assumption. Qed.
Print Assumptions C66_polishing_refuted.
Example C71_example : Forall (fun f => 0 <= f) [1/2; 1/2; 1/10] /\
  feasible (map Some [1/4; 2; -1]) (lower_bounds (map Some [1/4; 2; -1]) [1/2; 1/2; 1/10]) (upper_bounds (map Some [1/4; 2; -1]) [1/2; 1/2; 1/10]) /\
  ~ feasible (map Some [0; 2; -1]) (lower_bounds (map Some [0; 2; -1]) [1/2; 1/2; 1/10]) (upper_bounds (map Some [0; 2; -1]) [1/2; 1/2; 1/10]).
Proof. assert (F : Forall (fun f => 0 <= f) [1/2; 1/2; 1/10]) by (repeat constructor; lra). split; [exact F|]. split.
  - apply (C71_accepted_iff [1/4; 2; -1] _ F). split; [simpl; lia|]. intros [|[|[|i]]] H; simpl in *; try lia; lra.
  - intros K. apply (C71_accepted_iff [0; 2; -1] _ F) in K. destruct K as [_ K]. specialize (K 0%nat ltac:(simpl; lia)). simpl in K. lra. Qed.

(** ** C72 *)
(** In units of the labels the bounds are v - f |v - lo| and v + f |v - lo| for a label with range (lo, hi). *)
Theorem C72_bounds_relative_to_minimum m names ps refl1d labels fr low up k lo hi nm v j f :
  fittable refl1d (nn_sample m) -> all_params (nn_sample m) = Ok ps -> label_names (nn_sample m) = Ok names ->
  shaped names 1 labels -> bounds_in_labels (nn_op m) labels fr low up ->
  (List.length (filter (fun p => negb (is_const p)) ps) <= List.length fr)%nat -> label_param (nn_sample m) k (Range (Flt lo) (Flt hi) nm) -> lo < hi ->
  tget (fr_cols labels) k = Some [Some (RtoC v)] -> nth_error (map pname_str (filter (fun p => negb (is_const p)) ps)) j = Some k -> nth_error fr j = Some f ->
  tget (fr_cols low) k = Some [Some (RtoC (v - f * Rabs (v - lo)))] /\ tget (fr_cols up) k = Some [Some (RtoC (v + f * Rabs (v - lo)))].
Proof. exact (fun F A L => bounds_real refl1d m names ps F A L labels fr low up k lo hi nm v j f). Qed.
Print Assumptions C72_bounds_relative_to_minimum.
(** The documented bounds (1 - f) v and (1 + f) v result for ranges that start at zero, *)
Theorem C72_documented_bounds_partial m names ps refl1d labels fr low up k hi nm v j f :
  fittable refl1d (nn_sample m) -> all_params (nn_sample m) = Ok ps -> label_names (nn_sample m) = Ok names ->
  shaped names 1 labels -> bounds_in_labels (nn_op m) labels fr low up ->
  (List.length (filter (fun p => negb (is_const p)) ps) <= List.length fr)%nat -> label_param (nn_sample m) k (Range (Flt 0) (Flt hi) nm) -> 0 < hi ->
  tget (fr_cols labels) k = Some [Some (RtoC v)] -> nth_error (map pname_str (filter (fun p => negb (is_const p)) ps)) j = Some k -> nth_error fr j = Some f -> 0 <= v ->
  tget (fr_cols low) k = Some [Some (RtoC ((1 - f) * v))] /\ tget (fr_cols up) k = Some [Some (RtoC ((1 + f) * v))].
Proof. exact (fun F A L => bounds_from_zero refl1d m names ps F A L labels fr low up k hi nm v j f). Qed.
Print Assumptions C72_documented_bounds_partial.
(** ... and are wrong for other ranges: 125 and 175 instead of 75 and 225 for the range (100, 300). *)
Definition thick_film : layer := mkLayer KLayer "film"
  (Some (Range (Flt 100) (Flt 300) (Some "thickness"))) (Some (Const (Flt 1) (Some "roughness"))) (Some (Const (Flt 10) (Some "sld"))).
Definition thick_sample : structure := mkStructure ex_amb ex_sub [thick_film].
Lemma thick_named : named_sample thick_sample.
Proof. split; [unfold ordinary_sample, substrate_layer, ambient_layer, film_layer, named; ex|]. simpl. repeat (constructor; [simpl; intuition discriminate|]). constructor. Qed.
Definition thick_names : list string := ["film_thickness"; "Si_roughness"; "film_roughness"; "Si_sld"; "film_sld"; "air_sld"].
Definition thick_params : list param := [Range (Flt 100) (Flt 300) (Some "film_thickness"); Const (Flt 1) (Some "Si_roughness"); Const (Flt 1) (Some "film_roughness");
  Const (Flt 20) (Some "Si_sld"); Const (Flt 10) (Some "film_sld"); Const (Flt 0) (Some "air_sld")].
Lemma thick_all_params : all_params thick_sample = Ok thick_params.
Proof. unfold all_params. destruct (thicknesses_ordinary thick_sample (proj1 thick_named)) as (ts & -> & Ft).
  destruct (roughnesses_ordinary thick_sample (proj1 thick_named)) as (rs & -> & Fr). destruct (slds_ordinary thick_sample (proj1 thick_named)) as (ss & -> & Fs). cbn [bind].
  repeat match goal with
  | H : Forall2 _ _ _ |- _ => cbn in H; inversion H; clear H; subst
  | H : labelled _ _ _ _ |- _ => destruct H as (? & E & _ & ->); cbn in E; injection E as <-
  end. reflexivity. Qed.
Definition thick_nn : nn_model := mkNN thick_sample [1; 2] [Some 0; Some 0] [Some 1; Some 1] 1 (fun rows => Ok (map (fun r => [nth 1 r None]) rows)).
Definition thick_labels : frame := mkFrame 1 [("film_thickness", [Some (RtoC 150)]); ("Si_roughness", [Some (RtoC 1)]); ("film_roughness", [Some (RtoC 1)]);
  ("Si_sld", [Some (RtoC 20)]); ("film_sld", [Some (RtoC 10)]); ("air_sld", [Some (RtoC 0)])].
Theorem C72_documented_bounds_refuted : exists low up, bounds_in_labels (nn_op thick_nn) thick_labels [1/2] low up /\
  tget (fr_cols thick_labels) "film_thickness" = Some [Some (RtoC 150)] /\
  tget (fr_cols low) "film_thickness" = Some [Some (RtoC 125)] /\ tget (fr_cols up) "film_thickness" = Some [Some (RtoC 175)].
Proof.
  assert (F : fittable None (nn_sample thick_nn)).
  { split; [exact thick_named|]. split; [repeat constructor|]. split; [discriminate|]. exists (Flt 0), (Some "sld"). split; reflexivity. }
  pose proof (C01_label_order thick_sample (proj1 thick_named) : label_names thick_sample = Ok thick_names) as N.
  assert (Sh : shaped thick_names 1 thick_labels) by (split; [reflexivity|]; split; [reflexivity|repeat constructor]).
  destruct (bounds_exist None thick_nn thick_names thick_params F thick_all_params N thick_labels [1/2] Sh) as (low & up & B).
  - simpl. lia.
  - intros k p Hp Hc. label_cases Hp; cbn in Hc; try discriminate. exists 100, 300, (Some "thickness"), 150. split; [reflexivity|]. split; [lra|reflexivity].
  - exists low, up. split; [exact B|]. split; [reflexivity|].
    destruct (C72_bounds_relative_to_minimum thick_nn thick_names thick_params None thick_labels [1/2] low up "film_thickness" 100 300 (Some "thickness") 150 0 (1/2) F thick_all_params N Sh B) as [E1 E2];
      [simpl; lia|left; exists thick_film; split; [left; reflexivity|split; reflexivity]|lra|reflexivity|reflexivity|reflexivity|].
    rewrite E1, E2. rewrite Rabs_right by lra. replace (150 - 1/2 * (150 - 100)) with 125 by lra. replace (150 + 1/2 * (150 - 100)) with 175 by lra. split; reflexivity. Qed.
Print Assumptions C72_documented_bounds_refuted.

(** ** C81 *)
Theorem C81_symmetric a b : mean_squared_error a b = mean_squared_error b a.
Proof. exact (mse_symmetric a b). Qed.
Print Assumptions C81_symmetric.
Theorem C81_not_negative a b errs x : mean_squared_error a b = Ok errs -> In (Some x) errs -> 0 <= x.
Proof. exact (mse_nonneg a b errs x). Qed.
Print Assumptions C81_not_negative.
Theorem C81_lengths_differ a b : arr_len a <> arr_len b -> mean_squared_error a b = Raise ValueError.
Proof. exact (mse_lengths a b). Qed.
Print Assumptions C81_lengths_differ.
Theorem C81_vectors a b : a <> [] -> List.length a = List.length b -> mean_squared_error (A1 (map Some a)) (A1 (map Some b)) = Ok [Some (square_error a b)].
Proof. exact (mse_vector a b). Qed.
Print Assumptions C81_vectors.
Theorem C81_matrices w a b : w <> 0%nat -> Forall (fun r => List.length r = w) a -> Forall (fun r => List.length r = w) b -> List.length a = List.length b ->
  mean_squared_error (A2 w (map (map Some) a)) (A2 w (map (map Some) b)) = Ok (map (fun rr => Some (square_error (fst rr) (snd rr))) (combine a b)).
Proof. exact (mse_matrix w a b). Qed.
Print Assumptions C81_matrices.
Theorem C81_zero_iff_equal a b : a <> [] -> List.length a = List.length b -> (square_error a b = 0 <-> a = b).
Proof. exact (square_error_zero a b). Qed.
Print Assumptions C81_zero_iff_equal.
Example C81_example : mean_squared_error (A2 2 [[Some 1; Some 2]; [Some 3; Some 3]]) (A2 2 [[Some 1; Some 4]; [Some 3; Some 3]]) = Ok [Some 2; Some 0].
Proof. refine (eq_trans (C81_matrices 2 [[1; 2]; [3; 3]] [[1; 4]; [3; 3]] _ _ _ _) _); [discriminate|repeat constructor|repeat constructor|reflexivity|].
  unfold square_error, avg. cbn [combine map fst snd List.length sum fold_right INR]. f_equal. f_equal; [f_equal; field|]. f_equal. f_equal. field. Qed.

(** ** C103 *)
(** Only thicknesses and roughnesses are changed, if the layer names do not contain these words. *)
Theorem C103_slds_unchanged f n : clean_name n -> tget (fr_cols (ensure_positive f)) (n ++ "_" ++ "sld") = tget (fr_cols f) (n ++ "_" ++ "sld").
Proof. exact (ensure_sld f n). Qed.
Print Assumptions C103_slds_unchanged.
Theorem C103_idempotent f : ensure_positive (ensure_positive f) = ensure_positive f.
Proof. exact (ensure_idem f). Qed.
Print Assumptions C103_idempotent.
Theorem C103_any_layer_name_refuted : exists f n, tget (fr_cols (ensure_positive f)) (n ++ "_" ++ "sld") = Some [Some (RtoC 2)] /\ tget (fr_cols f) (n ++ "_" ++ "sld") = Some [Some (RtoC (-2))].
Proof. exists (mkFrame 1 [("roughness_layer_sld", [Some (RtoC (-2))])]), "roughness_layer". split; [|reflexivity]. rewrite ensure_tget.
  change (sign_free ("roughness_layer" ++ "_" ++ "sld")) with true. cbv iota.
  change (tget _ ("roughness_layer" ++ "_" ++ "sld")) with (Some [Some (RtoC (-2))]). cbn [option_map map]. rewrite Cmod_R. replace (Rabs (-2)) with 2; [reflexivity|]. rewrite Rabs_left; lra. Qed.
Print Assumptions C103_any_layer_name_refuted.
Example C103_example : clean_name "film" /\ tget (fr_cols (ensure_positive (mkFrame 1 [("film_sld", [Some (RtoC (-2))])]))) ("film" ++ "_" ++ "sld") = Some [Some (RtoC (-2))].
Proof. assert (K : clean_name "film") by (split; reflexivity). split; [exact K|]. rewrite (C103_slds_unchanged _ "film" K). reflexivity. Qed.

(** ** C104 *)
(** A q shift and a factor are applied to the input ... *)
Theorem C104_input_correction_partial S (g : rng S) refl1d pick cf m s s0 curve curve' q o s' out s1 out1 : ~ both o -> o_polish o = false ->
  curves_of curve' = map (map (fun x => fmul x (Some (o_factor o)))) (curves_of curve) ->
  fit_curve g refl1d pick cf m s curve q o = Ok (s', out) ->
  fit_curve g refl1d pick cf m s0 curve' (map (fun x => x + o_dq o) q) (set_input o 0 1) = Ok (s1, out1) ->
  fo_params out = fo_params out1.
Proof. exact (input_applied g refl1d pick cf m _ _ s s0 curve curve' q o s' out s1 out1). Qed.
Print Assumptions C104_input_correction_partial.
(** ... but with both optimisations the result does not depend on them. *)
Theorem C104_input_correction_ignored_refuted S (g : rng S) refl1d pick cf m s curve q o dq factor s' out s1 out1 : both o ->
  fit_curve g refl1d pick cf m s curve q o = Ok (s', out) -> fit_curve g refl1d pick cf m s curve q (set_input o dq factor) = Ok (s1, out1) -> out1 = out.
Proof. exact (input_ignored g refl1d pick cf m _ s curve q o dq factor s' out s1 out1). Qed.
Print Assumptions C104_input_correction_ignored_refuted.
Example C104_example : exists s' out s1, fit_curve ex_rng None ex_pick ex_cf ex_nn 0%nat ex_input [1; 2] ex_both = Ok (s', out) /\
  fit_curve ex_rng None ex_pick ex_cf ex_nn 0%nat ex_input [1; 2] (set_input ex_both (1/2) 7) = Ok (s1, out).
Proof. assert (So : samples_ok ex_both) by (split; intros _; simpl; lia).
  destruct (C66_succeeds_without_polishing_partial nat ex_rng None ex_pick ex_cf ex_nn ex_names 0%nat ex_input [1; 2] ex_both ex_rng_ok ex_pick_ok ex_fittable ex_network ex_valid So eq_refl) as (s' & out & E & _).
  destruct (C66_succeeds_without_polishing_partial nat ex_rng None ex_pick ex_cf ex_nn ex_names 0%nat ex_input [1; 2] (set_input ex_both (1/2) 7) ex_rng_ok ex_pick_ok ex_fittable ex_network ex_valid So eq_refl) as (s1 & out1 & E1 & _).
  exists s', out, s1. split; [exact E|]. rewrite <- (C104_input_correction_ignored_refuted _ _ _ _ _ _ _ _ _ _ _ _ _ _ _ _ (conj eq_refl eq_refl : both ex_both) E E1). exact E1. Qed.

(** ** C105 *)
(** Variant j is the curve at the q values shifted by -d_j ... *)
Theorem C105_shift_variants S (g : rng S) s q_pred q curve n d s' curves shifts : rng_ok g -> q_shift_variants g s q_pred q curve n d = Ok (s', (curves, shifts)) ->
  List.length shifts = Z.to_nat n /\ Forall2 (fun x c => interp_reflectivity (map (fun y => y - x) q_pred) q curve = Ok c) shifts curves.
Proof. exact (fun G => shift_variants g G s q_pred q curve n d s' curves shifts). Qed.
Print Assumptions C105_shift_variants.
(** ... or the curve multiplied with k_j. *)
Theorem C105_scaling_variants S (g : rng S) s curve n d s' curves ks : rng_ok g -> curve_scaling_variants g s curve n d = Ok (s', (curves, ks)) ->
  List.length ks = Z.to_nat n /\ curves = map (fun k => map (fun x => fmul x (Some k)) curve) ks.
Proof. exact (fun G => scaling_variants g G s curve n d s' curves ks). Qed.
Print Assumptions C105_scaling_variants.
Example C105_example : exists s', curve_scaling_variants wild_rng 0%nat [Some 2; None] 2 (1/10) = Ok (s', ([[Some (2 * (1 + 4 * (1/10))); None]; [Some (2 * (1 + 4 * (1/10))); None]], [1 + 4 * (1/10); 1 + 4 * (1/10)])).
Proof. unfold curve_scaling_variants, np_normal. destruct (Rlt_dec (1/10) 0); [lra|]. exists 0%nat. reflexivity. Qed.
