(** Properties C141-C144: the values returned by the curve fitter. *)
From Coq Require Import Reals Lra.
From Coquelicot Require Import Complex.
From Verif Require Import Py Str Cplx Sample_Model Sample_Spec Sample_Proofs Sample_Props Rng Sampling_Model Sampling_Spec Sampling_Proofs Labels_Proofs
  Reflectivity_Model Reflectivity_Spec Simulation_Model Simulation_Spec Simulation_Proofs Interp_Model Interp_Spec Interp_Proofs Arr
  Preproc_Model Preproc_Spec Preproc_Proofs OutPreproc_Proofs Training_Props Fitter_Model Fitter_Spec Fitter_Proofs FitterOut_Proofs Polish_Proofs Choice_Proofs Fitter_Props
  FitterValue_Spec FitterValue_Proofs.
Local Open Scope string_scope.
Local Open Scope R_scope.

(** ** C141 *)
Theorem C141_predicted_values S (g : rng S) refl1d pick cf m names s curve q o s' out :
  named_sample (nn_sample m) -> clean_names (nn_sample m) -> network_ok m names -> valid_input curve q -> ~ both o -> o_polish o = false ->
  fit_curve g refl1d pick cf m s curve q o = Ok (s', out) ->
  exists ins outs, on_trained_q m o q (curves_of curve) ins /\ nn_predict m (map (FitterValue_Spec.scaled m) ins) = Ok outs /\
    List.length outs = List.length (curves_of curve) /\ predicted_cells (nn_sample m) outs (fo_params out).
Proof. exact (fun H Cl N => predicted_values g refl1d pick cf m names H N s curve q o s' out Cl). Qed.
Print Assumptions C141_predicted_values.

(** An engine whose intensities are a thousandth of the thickness, and the network that inverts it *)
Definition thick_engine : refl1d_fun := fun kz d _ _ _ => map (fun _ => Some (nth 1 d 0 / 1000)) kz.
Definition inverse_nn : nn_model := mkNN thick_sample [1; 2] [Some 0; Some 0] [Some 1; Some 1] 1
  (fun rows => Ok (map (fun r => [option_map (fun y => 5 * y - 1/2) (nth 1 r None)]) rows)).
Lemma thick_fittable : fittable (Some thick_engine) thick_sample.
Proof. split; [exact thick_named|]. split; [repeat constructor|]. split; [discriminate|]. intros kz d sg rho irho. apply map_length. Qed.
Lemma thick_label_names : label_names thick_sample = Ok thick_names.
Proof. exact (C01_label_order thick_sample (proj1 thick_named)). Qed.
Lemma inverse_network : network_ok inverse_nn thick_names.
Proof. split; [discriminate|]. split; [reflexivity|]. split; [reflexivity|]. split; [exact thick_label_names|]. split; [exists thick_params; split; [exact thick_all_params|reflexivity]|].
  intros rows _ _. eexists. split; [reflexivity|]. split; [apply map_length|]. apply Forall_map. apply Forall_forall. reflexivity. Qed.
Definition thick_curve (v : R) : arr := A1 [Some (v / 1000); Some (v / 1000)].
Lemma thick_valid v : valid_input (thick_curve v) [1; 2].
Proof. split; [discriminate|]. split; [discriminate|]. split; [repeat constructor|exact I]. Qed.
Definition thick_options : options := mkOptions 0 1 false [1/2] false 1 false 1 true.
Definition thick_row (v : R) : list (string * C) := [("film_thickness", RtoC v); ("Si_roughness", RtoC 1); ("film_roughness", RtoC 1); ("Si_sld", RtoC 20); ("film_sld", RtoC 10); ("air_sld", RtoC 0)].
Definition thick_table (v : R) : frame := mkFrame 1 (map (fun kz => (fst kz, [Some (snd kz)])) (thick_row v)).
Lemma thick_on_q v : 0 < v -> on_trained_q inverse_nn thick_options [1; 2] (curves_of (thick_curve v)) [[Some (v / 1000); Some (v / 1000)]].
Proof. intros Hv. constructor; [|constructor]. change (nn_q inverse_nn) with [1; 2]. change (o_dq thick_options) with 0. change (o_factor thick_options) with 1. cbn [map]. rewrite !fmul_one, !Rplus_0_r.
  apply (interp_exact [1; 2] [v / 1000; v / 1000]); [repeat constructor; lra|repeat constructor; lra|reflexivity|discriminate]. Qed.
Lemma thick_curve_of v : curve_of ex_rng (Some thick_engine) [1; 2] (thick_row v) [Some (v / 1000); Some (v / 1000)].
Proof. intros s. pose (T := [("film_thickness", [RtoC v])]). pose (Ru := [("Si_roughness", [RtoC 1]); ("film_roughness", [RtoC 1])]). pose (Sl := [("Si_sld", [RtoC 20]); ("film_sld", [RtoC 10]); ("air_sld", [RtoC 0])]).
  destruct (simulate_refl1d ex_rng ex_rng_ok thick_engine s thick_sample 1 T Ru Sl [1; 2]) as (s' & E); [discriminate|repeat constructor|split; [reflexivity|split; [reflexivity|split; [reflexivity|repeat constructor]]]|].
  exists s'. exact E. Qed.
Lemma thick_scaled a b : FitterValue_Spec.scaled inverse_nn [Some a; Some b] = [Some a; Some b].
Proof. unfold FitterValue_Spec.scaled, fdiv, fsub, lift2. cbn [inverse_nn nn_mean nn_std combine map fst snd]. destruct (Req_EM_T 1 0); [lra|]. unfold Rdiv. rewrite !Rminus_0_r, Rinv_1, !Rmult_1_r. reflexivity. Qed.
Lemma thick_outputs v : nn_predict inverse_nn (map (FitterValue_Spec.scaled inverse_nn) [[Some (v / 1000); Some (v / 1000)]]) = Ok [[Some (5 * (v / 1000) - 1/2)]].
Proof. cbn [map]. rewrite thick_scaled. reflexivity. Qed.
Lemma thick_row_is v : row_is (thick_table v) 0 (thick_row v).
Proof. reflexivity. Qed.

Example C141_example : exists s' out, fit_curve ex_rng (Some thick_engine) ex_pick ex_cf inverse_nn 0%nat (thick_curve 125) [1; 2] thick_options = Ok (s', out) /\
  cell_at (fo_params out) "film_thickness" 0 = Some (Some (RtoC 125)) /\ cell_at (fo_params out) "film_sld" 0 = Some (Some (RtoC 10)).
Proof. destruct (C66_succeeds_without_polishing_partial nat ex_rng (Some thick_engine) ex_pick ex_cf inverse_nn thick_names 0%nat (thick_curve 125) [1; 2] thick_options ex_rng_ok ex_pick_ok thick_fittable inverse_network
    (thick_valid 125)) as (s' & out & E & _); [split; discriminate|reflexivity|]. exists s', out. split; [exact E|].
  destruct (C141_predicted_values nat ex_rng (Some thick_engine) ex_pick ex_cf inverse_nn thick_names 0%nat (thick_curve 125) [1; 2] thick_options s' out thick_named (proj1 (proj2 thick_fittable)) inverse_network (thick_valid 125)
    (fun B => ltac:(destruct B as [B _]; discriminate)) eq_refl E) as (ins & outs & Q & Ep & _ & A & B).
  pose proof (thick_on_q 125 ltac:(lra)) as Q'. unfold on_trained_q in *. inversion Q as [|? x ? l Hx Hl]; subst. inversion Hl; subst. inversion Q' as [|? ? ? ? Hx' _]; subst. rewrite Hx in Hx'. injection Hx' as ->.
  rewrite thick_outputs in Ep. injection Ep as <-. split.
  - destruct (A 0%nat _ 0%nat "film_thickness" (Range (Flt 100) (Flt 300) (Some "thickness")) _ eq_refl eq_refl) as [A1 _].
    + exists thick_params. split; [exact thick_all_params|reflexivity].
    + left. exists thick_film. split; [left; reflexivity|split; reflexivity].
    + reflexivity.
    + refine (eq_trans (A1 _) _); [left; exists thick_film; split; [right; left; reflexivity|reflexivity]|]. cbn [option_map]. do 3 f_equal. unfold label_value, num_C. cbn [num_re num_im p_min p_max].
      change (100, 0) with (RtoC 100). change (300, 0) with (RtoC 300). rewrite <- RtoC_minus, <- RtoC_mult, <- RtoC_plus, Cmod_R. rewrite Rabs_right by lra. lra.
  - destruct (B 0%nat "film_sld" (Const (Flt 10) (Some "sld"))) as [_ B2].
    + simpl. lia.
    + right. right. exists thick_film. split; [right; left; reflexivity|split; reflexivity].
    + reflexivity.
    + refine (B2 _). intros [(l & _ & Hk)|(l & _ & Hk)]; apply (f_equal (fun s => (contains "thickness" s || contains "roughness" s)%bool)) in Hk; revert Hk.
      * fold (sign_free (l_name l ++ "_" ++ "thickness")). intros Hk. assert (L : length_label (mkStructure l l []) (l_name l ++ "_" ++ "thickness")) by (left; exists l; split; [left; reflexivity|reflexivity]). rewrite (sign_free_length _ _ L) in Hk. discriminate.
      * fold (sign_free (l_name l ++ "_" ++ "roughness")). intros Hk. assert (L : length_label (mkStructure l l []) (l_name l ++ "_" ++ "roughness")) by (right; exists l; split; [left; reflexivity|reflexivity]). rewrite (sign_free_length _ _ L) in Hk. discriminate. Qed.

(** ** C142 *)
Theorem C142_recovers_labels S (g : rng S) refl1d pick cf m names s curve q o s' out f ins outs :
  rng_ok g -> pick_ok pick -> curve_fit_ok cf -> fittable refl1d (nn_sample m) -> network_ok m names -> valid_input curve q -> samples_ok o -> ~ both o -> o_polish o = false ->
  shaped names (List.length (curves_of curve)) f -> constants_hold (nn_sample m) f ->
  (forall k c, length_label (nn_sample m) k -> In (k, c) (fr_cols f) -> Forall nonneg_cell c) ->
  on_trained_q m o q (curves_of curve) ins -> nn_predict m (map (FitterValue_Spec.scaled m) ins) = Ok outs -> right_outputs (nn_sample m) outs f ->
  fit_curve g refl1d pick cf m s curve q o = Ok (s', out) -> fo_params out = f.
Proof. exact (fun G P C F N => recovered g G refl1d pick P cf C m names F N s curve q o s' out f ins outs). Qed.
Print Assumptions C142_recovers_labels.

(** If the curves are the simulations of the labels, they are reproduced. *)
Theorem C142_reproduces_curves S (g : rng S) refl1d pick cf m names s curve q o s' out f ins outs :
  rng_ok g -> pick_ok pick -> curve_fit_ok cf -> fittable refl1d (nn_sample m) -> network_ok m names -> valid_input curve q -> samples_ok o -> ~ both o -> o_polish o = false -> o_sim o = true ->
  shaped names (List.length (curves_of curve)) f -> constants_hold (nn_sample m) f ->
  (forall k c, length_label (nn_sample m) k -> In (k, c) (fr_cols f) -> Forall nonneg_cell c) ->
  on_trained_q m o q (curves_of curve) ins -> nn_predict m (map (FitterValue_Spec.scaled m) ins) = Ok outs -> right_outputs (nn_sample m) outs f ->
  (forall i c, nth_error (curves_of curve) i = Some c -> exists t, row_is f i t /\ curve_of g refl1d q t c) ->
  fit_curve g refl1d pick cf m s curve q o = Ok (s', out) -> fo_params out = f /\ fo_refl out = Some (curves_of curve).
Proof. exact (fun G P C F N => reproduced g G refl1d pick P cf C m names F N s curve q o s' out f ins outs). Qed.
Print Assumptions C142_reproduces_curves.

(** The inverse network recovers every thickness. *)
Example C142_example v : 0 < v -> exists s' out, fit_curve ex_rng (Some thick_engine) ex_pick ex_cf inverse_nn 0%nat (thick_curve v) [1; 2] thick_options = Ok (s', out) /\
  fo_params out = thick_table v /\ fo_refl out = Some [[Some (v / 1000); Some (v / 1000)]].
Proof. intros Hv. destruct (C66_succeeds_without_polishing_partial nat ex_rng (Some thick_engine) ex_pick ex_cf inverse_nn thick_names 0%nat (thick_curve v) [1; 2] thick_options ex_rng_ok ex_pick_ok thick_fittable inverse_network
    (thick_valid v)) as (s' & out & E & _); [split; discriminate|reflexivity|]. exists s', out. split; [exact E|].
  refine (C142_reproduces_curves nat ex_rng (Some thick_engine) ex_pick ex_cf inverse_nn thick_names 0%nat (thick_curve v) [1; 2] thick_options s' out (thick_table v) _ _
    ex_rng_ok ex_pick_ok ex_cf_ok thick_fittable inverse_network (thick_valid v) _ _ eq_refl eq_refl _ _ _ (thick_on_q v Hv) (thick_outputs v) _ _ E).
  - split; discriminate.
  - intros [B _]. discriminate.
  - split; [reflexivity|]. split; [reflexivity|repeat constructor].
  - intros k p c H Hc Hi. label_cases H; cbn in Hc; try discriminate; cbn in Hi; repeat (destruct Hi as [Hi|Hi]; [try discriminate; injection Hi as <-; repeat constructor|]); contradiction.
  - intros k c L Hi. cbn in Hi. repeat (destruct Hi as [Hi|Hi]; [injection Hi as <- <-; constructor; [split; [reflexivity|cbn; lra]|constructor]|]). contradiction.
  - intros i r j k p y Hi Hj (ps & Eps & Hk) Hp Hc. pose proof (eq_trans (eq_sym thick_all_params) Eps) as Eq. injection Eq as <-. clear Eps. destruct i as [|[|i]]; try discriminate. cbn in Hi. injection Hi as <-. destruct j as [|[|j]]; try discriminate.
    cbn [nth_error] in Hj. injection Hj as <-. cbn in Hk. injection Hk as <-.
    assert (p = Range (Flt 100) (Flt 300) (Some "thickness")) as ->.
    { destruct Hp as [(l & Hl & Ek & Hp)|[(l & Hl & Ek & Hp)|(l & Hl & Ek & Hp)]]; simpl in Hl; repeat (destruct Hl as [<-|Hl]; [cbn in Hp; injection Hp as <-; try discriminate Ek; try discriminate Hc; reflexivity|]); contradiction. }
    cbn. f_equal. f_equal. unfold label_value, num_C. cbn [num_re num_im p_min p_max]. change (100, 0) with (RtoC 100). change (300, 0) with (RtoC 300). rewrite <- RtoC_minus, <- RtoC_mult, <- RtoC_plus. f_equal. field.
  - intros [|[|i]] c Hc; try discriminate. injection Hc as <-. exists (thick_row v). split; [exact (thick_row_is v)|exact (thick_curve_of v)]. Qed.

(** ** C143 *)
Theorem C143_returned_curves S (g : rng S) refl1d pick cf m names s curve q o s' out cs :
  rng_ok g -> pick_ok pick -> curve_fit_ok cf -> fittable refl1d (nn_sample m) -> network_ok m names -> valid_input curve q -> samples_ok o ->
  fit_curve g refl1d pick cf m s curve q o = Ok (s', out) -> fo_refl out = Some cs ->
  forall i c, nth_error cs i = Some c ->
    (forall t, row_is (fo_params out) i t -> curve_of g refl1d q t c) /\
    (Exists (fun kc => nth i (snd kc) None = None) (fr_cols (fo_params out)) -> c = map (fun _ => None) q).
Proof. exact (fun G P C F N => returned_curves g G refl1d pick P cf C m names F N s curve q o s' out cs). Qed.
Print Assumptions C143_returned_curves.
Example C143_example : row_is (thick_table 125) 0 (thick_row 125) /\ curve_of ex_rng (Some thick_engine) [1; 2] (thick_row 125) [Some (125 / 1000); Some (125 / 1000)] /\
  ~ curve_of ex_rng (Some thick_engine) [1; 2] (thick_row 150) [Some (125 / 1000); Some (125 / 1000)].
Proof. split; [reflexivity|]. split; [apply thick_curve_of|]. intros K. destruct (K 0%nat) as (s1 & E1). destruct (thick_curve_of 150 0%nat) as (s2 & E2). rewrite E1 in E2. injection E2 as _ E _. lra. Qed.

(** ** C144 *)
Theorem C144_polishing_not_worse_partial S (g : rng S) refl1d pick cf m names s curve q o s' out :
  rng_ok g -> pick_ok pick -> curve_fit_ok cf -> curve_fit_descends cf -> fittable refl1d (nn_sample m) -> network_ok m names -> nonneg_constants (nn_sample m) ->
  valid_input curve q -> samples_ok o -> o_polish o = true -> fit_curve g refl1d pick cf m s curve q o = Ok (s', out) ->
  exists lo hi s0 out0, nearest_window m q lo hi /\ fit_curve g refl1d pick cf m s curve q (without_polishing o) = Ok (s0, out0) /\
    forall i c, nth_error (curves_of curve) i = Some c -> polishable (nn_sample m) (o_bounds o) (fo_params out0) i ->
      exists d t r t' r', part lo hi c = map Some d /\ row_is (fo_params out0) i t /\ curve_of g refl1d (part lo hi q) t (map Some r) /\
        row_is (fo_params out) i t' /\ curve_of g refl1d (part lo hi q) t' (map Some r') /\ positive_row d /\ positive_row r /\ positive_row r' /\
        List.length r = List.length d /\ List.length r' = List.length d /\ log_error d r' <= log_error d r.
Proof. exact (fun G P C D F N K => polishing_improves g G refl1d pick P cf C D m names F N K s curve q o s' out). Qed.
Print Assumptions C144_polishing_not_worse_partial.

(** An optimiser that tries the start values and the lower bounds *)
Fixpoint in_bounds (start lo hi : list fl) : bool :=
  match start, lo, hi with
  | [], [], [] => true
  | Some x :: start, Some a :: lo, Some b :: hi => (if Rle_dec a x then true else false) && (if Rle_dec x b then true else false) && (if Rlt_dec a b then true else false) && in_bounds start lo hi
  | _, _, _ => false
  end.
Definition low_cf : @curve_fit_fun nat := fun f s xs ys start lo hi =>
  if in_bounds start lo hi then
    match all_finite ys with
    | Some (y0 :: y) =>
        '(s1, c0) <- f s start ;;
        '(s2, c1) <- f s1 lo ;;
        match all_finite c0, all_finite c1 with
        | Some c0, Some c1 =>
            if (Nat.eqb (List.length c0) (List.length (y0 :: y)) && Nat.eqb (List.length c1) (List.length (y0 :: y)))%bool then
              if Rle_dec (sum_squares c1 (y0 :: y)) (sum_squares c0 (y0 :: y)) then Ok (s2, lo) else Ok (s2, start)
            else Raise ValueError
        | _, _ => Raise ValueError
        end
    | _ => Raise ValueError
    end
  else Raise ValueError.
Lemma in_bounds_nth start : forall lo hi, in_bounds start lo hi = true -> List.length lo = List.length start /\ List.length hi = List.length start /\
  forall i, (i < List.length start)%nat -> exists x a b, nth_error start i = Some (Some x) /\ nth_error lo i = Some (Some a) /\ nth_error hi i = Some (Some b) /\ a <= x <= b /\ a < b.
Proof. induction start as [|x start IH]; intros [|a lo] [|b hi] H; try discriminate; try (destruct x as [x|]; discriminate).
  - split; [reflexivity|]. split; [reflexivity|]. intros i Hi. simpl in Hi. lia.
  - destruct x; [destruct a|]; discriminate.
  - destruct x as [x|], a as [a|], b as [b|]; try discriminate. cbn [in_bounds] in H. destruct (Rle_dec a x), (Rle_dec x b), (Rlt_dec a b); try discriminate. destruct (IH lo hi H) as (L1 & L2 & K).
    split; [simpl; congruence|]. split; [simpl; congruence|]. intros [|i] Hi; [exists x, a, b; repeat split; assumption|]. apply K. simpl in Hi. lia. Qed.
Lemma low_cf_runs f s xs ys start lo hi s' popt : low_cf f s xs ys start lo hi = Ok (s', popt) -> in_bounds start lo hi = true /\
  exists y s1 c0 s2 c1, ys = map Some y /\ y <> [] /\ f s start = Ok (s1, map Some c0) /\ f s1 lo = Ok (s2, map Some c1) /\ List.length c0 = List.length y /\ List.length c1 = List.length y /\
    ((popt = start) \/ (popt = lo /\ sum_squares c1 y <= sum_squares c0 y)).
Proof. unfold low_cf. destruct (in_bounds start lo hi); [|discriminate]. destruct (all_finite ys) as [[|y0 y]|] eqn:Ey; try discriminate. apply all_finite_Some in Ey. intros H. split; [reflexivity|].
  bind_as H p E. destruct p as [s1 c0']. bind_as H p E'. destruct p as [s2 c1']. destruct (all_finite c0') as [c0|] eqn:E0; [|discriminate]. destruct (all_finite c1') as [c1|] eqn:E1; [|discriminate].
  apply all_finite_Some in E0. apply all_finite_Some in E1. destruct (Nat.eqb (List.length c0) (List.length (y0 :: y))) eqn:L0; [|discriminate]. destruct (Nat.eqb (List.length c1) (List.length (y0 :: y))) eqn:L1; [|discriminate].
  apply Nat.eqb_eq in L0. apply Nat.eqb_eq in L1. cbn [andb] in H. exists (y0 :: y), s1, c0, s2, c1. rewrite <- E0, <- E1. split; [exact Ey|]. split; [discriminate|]. split; [first [exact E|reflexivity]|]. split; [first [exact E'|reflexivity]|]. split; [exact L0|]. split; [exact L1|].
  destruct (Rle_dec _ _) as [Q|]; injection H as _ <-; [right; split; [reflexivity|exact Q]|left; reflexivity]. Qed.
Lemma low_cf_ok : curve_fit_ok low_cf.
Proof. intros f s xs ys start lo hi. split.
  - intros Nf. unfold low_cf. destruct (in_bounds start lo hi) eqn:B; [|reflexivity]. exfalso. apply Nf. destruct (in_bounds_nth start lo hi B) as (L1 & L2 & K). split; [exact L1|]. split; [exact L2|].
    intros i Hi. destruct (K i Hi) as (x & a & b & Ex & Ea & Eb & Q). rewrite (nth_error_nth start i None Ex), (nth_error_nth lo i None Ea), (nth_error_nth hi i None Eb). exact Q.
  - intros s' popt H. destruct (low_cf_runs _ _ _ _ _ _ _ _ _ H) as (B & y & _ & _ & _ & _ & _ & _ & _ & _ & _ & _ & [->|[-> _]]); [reflexivity|exact (proj1 (in_bounds_nth _ _ _ B))]. Qed.
Lemma low_cf_descends : curve_fit_descends low_cf.
Proof. intros f s xs ys start lo hi s' popt _ H. destruct (low_cf_runs _ _ _ _ _ _ _ _ _ H) as (B & y & s1 & c0 & s2 & c1 & Ey & Ny & E0 & E1 & L0 & L1 & D). destruct (in_bounds_nth _ _ _ B) as (La & Lb & K).
  destruct D as [->|[-> Q]].
  - split; [reflexivity|]. split.
    + split; [exact La|]. split; [exact Lb|]. intros i Hi. destruct (K i Hi) as (x & a & b & Ex & Ea & Eb & Q & _). exists x, a, b. auto.
    + exists s, s1, c0, s, s1, c0, y. repeat (split; [assumption|]). apply Rle_refl.
  - split; [exact La|]. split.
    + split; [reflexivity|]. split; [congruence|]. intros i Hi. rewrite La in Hi. destruct (K i Hi) as (x & a & b & Ex & Ea & Eb & Q1 & Q2). exists a, a, b. repeat split; try assumption; lra.
    + exists s, s1, c0, s1, s2, c1, y. repeat (split; [assumption|]). exact Q. Qed.

(** Every curve is predicted to have the thickness [v]; the intensity is a function of the thickness. *)
Definition fun_engine (e : R -> R) : refl1d_fun := fun kz d _ _ _ => map (fun _ => Some (e (nth 1 d 0))) kz.
Definition const_nn (v : R) : nn_model := mkNN thick_sample [1; 2] [Some 0; Some 0] [Some 1; Some 1] 1 (fun rows => Ok (map (fun _ => [Some ((v - 100) / 200)]) rows)).
Definition polish_options : options := mkOptions 0 1 true [1/2] false 1 false 1 false.
Lemma fun_fittable e : fittable (Some (fun_engine e)) thick_sample.
Proof. split; [exact thick_named|]. split; [repeat constructor|]. split; [discriminate|]. intros kz d sg rho irho. apply map_length. Qed.
Lemma const_network v : network_ok (const_nn v) thick_names.
Proof. split; [discriminate|]. split; [reflexivity|]. split; [reflexivity|]. split; [exact thick_label_names|]. split; [exists thick_params; split; [exact thick_all_params|reflexivity]|].
  intros rows _ _. eexists. split; [reflexivity|]. split; [apply map_length|]. apply Forall_map. apply Forall_forall. reflexivity. Qed.
Lemma fun_curve_of e q v : curve_of ex_rng (Some (fun_engine e)) q (thick_row v) (map Some (map (fun _ => e v) q)).
Proof. intros s. pose (T := [("film_thickness", [RtoC v])]). pose (Ru := [("Si_roughness", [RtoC 1]); ("film_roughness", [RtoC 1])]). pose (Sl := [("Si_sld", [RtoC 20]); ("film_sld", [RtoC 10]); ("air_sld", [RtoC 0])]).
  destruct (simulate_refl1d ex_rng ex_rng_ok (fun_engine e) s thick_sample 1 T Ru Sl q) as (s' & E); [discriminate|repeat constructor|split; [reflexivity|split; [reflexivity|split; [reflexivity|repeat constructor]]]|].
  exists s'. refine (eq_trans E _). cbn [seq map]. unfold refl1d_curve, fun_engine. rewrite !map_map. reflexivity. Qed.
Lemma thick_shaped v : shaped thick_names 1 (thick_table v).
Proof. split; [reflexivity|]. split; [reflexivity|repeat constructor]. Qed.
Lemma thick_constants v : constants_hold thick_sample (thick_table v).
Proof. intros k p c H Hc Hi. label_cases H; cbn in Hc; try discriminate; cbn in Hi; repeat (destruct Hi as [Hi|Hi]; [try discriminate; injection Hi as <-; repeat constructor|]); contradiction. Qed.
Lemma thick_variable k p : label_param thick_sample k p -> is_const p = false -> k = "film_thickness" /\ p = Range (Flt 100) (Flt 300) (Some "thickness").
Proof. intros Hp Hc. label_cases Hp; cbn in Hc; try discriminate; auto. Qed.
Lemma thick_start w : exists prep rem, apply_preprocessing (nn_op (const_nn w)) (LFrame (thick_table w)) = Ok (prep, rem) /\ start_values prep = Ok [Some ((w - 100) / 200)].
Proof. destruct (preprocessed (Some (fun_engine (fun x => x))) (const_nn w) thick_names thick_params (fun_fittable _) thick_all_params thick_label_names (thick_table w) 1 (thick_shaped w)) as (prep & rem & E & En & Ev).
  exists (mkFrame 1 prep), rem. split; [exact E|]. destruct prep as [|[k c] [|]]; try discriminate. cbn in En. injection En as ->.
  specialize (Ev "film_thickness" (Range (Flt 100) (Flt 300) (Some "thickness"))). cbn [tget String.eqb Ascii.eqb Bool.eqb] in Ev.
  assert (K : Some c = Some [Some (RtoC ((w - 100) / (300 - 100)))]).
  { refine (eq_trans (Ev _ eq_refl) _); [left; exists thick_film; split; [left; reflexivity|split; reflexivity]|].
    cbn [thick_table thick_row map fst snd fr_cols tget String.eqb Ascii.eqb Bool.eqb option_map]. change (mkPystr "min_to_zero" true) with (literal "min_to_zero"). rewrite min_to_zero_cell by lra. reflexivity. }
  injection K as ->. unfold start_values. cbn [fr_cols mapM snd]. match goal with |- context [py_get [?a] 0] => change (py_get [a] 0) with (Ok a) end. cbn [bind]. rewrite real_cell_RtoC. cbn [bind]. replace (300 - 100) with 200 by lra. reflexivity. Qed.
Lemma thick_restored v w : restore_labels (nn_op (const_nn v)) (LArray 1 (map (fun x => [option_map RtoC x]) [Some ((w - 100) / 200)])) = Ok (thick_table w).
Proof. destruct (thick_start w) as (prep & rem & Ea & Es).
  exact (starts_restored (Some (fun_engine (fun x => x))) (const_nn w) thick_names thick_params (fun_fittable _) (const_network w) thick_all_params (thick_table w) prep rem _ (thick_shaped w) (thick_constants w) Ea Es). Qed.
Lemma thick_model e v w s : 0 < e w -> exists s', fitting_model ex_rng (Some (fun_engine e)) [1; 2] (nn_op (const_nn v)) s [Some ((w - 100) / 200)] = Ok (s', map Some [Interp_Model.log10 (e w); Interp_Model.log10 (e w)]).
Proof. intros P. destruct (fun_curve_of e [1; 2] w s) as (s' & E). exists s'. unfold fitting_model. rewrite thick_restored. cbn [bind]. unfold simulate_frame.
  change (known_cols (thick_table w)) with (map (fun kz => (fst kz, [snd kz])) (thick_row w)). rewrite E. cbn [bind List.length seq combine map fst snd]. change (row_known (thick_table w) 0) with true. cbv iota.
  match goal with |- context [py_get [?a] 0] => change (py_get [a] 0) with (Ok a) end. cbn [bind map flog10]. destruct (Rlt_dec 0 (e w)); [reflexivity|contradiction]. Qed.
Definition flat_curve (a : R) : arr := A1 [Some a; Some a].
Lemma flat_valid a : valid_input (flat_curve a) [1; 2].
Proof. split; [discriminate|]. split; [discriminate|]. split; [repeat constructor|exact I]. Qed.
Definition lowest (v : R) : R := v - 1/2 * Rabs (v - 100).
Lemma abs_200 x : Rabs (x / 200) = Rabs x / 200.
Proof. unfold Rdiv. rewrite Rabs_mult, (Rabs_right (/ 200)) by lra. reflexivity. Qed.
Lemma nearest_12 v lo hi : nearest_window (const_nn v) [1; 2] lo hi -> lo = 0%nat /\ hi = 2%nat.
Proof. intros (a & b & Ha & Fa & Hb & Fb & A & L & B). change (nn_q (const_nn v)) with [1; 2] in *. rewrite !Forall_forall in *.
  assert (a = 1). { pose proof (Fa 1 (or_introl eq_refl)). destruct Ha as [<-|[<-|[]]]; lra. } assert (b = 2). { pose proof (Fb 2 (or_intror (or_introl eq_refl))). destruct Hb as [<-|[<-|[]]]; lra. } subst a b. split.
  - destruct A as (A1 & A2 & _). cbn [map List.length] in *. destruct lo as [|[|lo]]; [reflexivity| |lia]. specialize (A2 0%nat ltac:(lia)). cbn [nth] in A2. rewrite Rminus_eq_0, Rabs_R0 in A2. rewrite Rabs_right in A2 by lra. lra.
  - destruct B as (A1 & A2 & _). cbn [map List.length] in *. destruct hi as [|[|[|hi]]]; [lia| |reflexivity|lia]. specialize (A2 1%nat ltac:(lia)). cbn [nth Nat.sub] in A2. rewrite (Rminus_eq_0 2), Rabs_R0 in A2. rewrite Rabs_left in A2 by lra. lra. Qed.

Lemma unpolished_thick e v a s : 0 <= v -> exists s0 out0, fit_curve ex_rng (Some (fun_engine e)) ex_pick low_cf (const_nn v) s (flat_curve a) [1; 2] (without_polishing polish_options) = Ok (s0, out0) /\ fo_params out0 = thick_table v.
Proof. intros Hv. assert (So : samples_ok (without_polishing polish_options)) by (split; discriminate).
  destruct (C66_succeeds_without_polishing_partial nat ex_rng (Some (fun_engine e)) ex_pick low_cf (const_nn v) thick_names s (flat_curve a) [1; 2] (without_polishing polish_options) ex_rng_ok ex_pick_ok
    (fun_fittable e) (const_network v) (flat_valid a) So eq_refl) as (s' & out & E & _).
  exists s', out. split; [exact E|].
  destruct (interp_fl_total [1; 2] [1 + 0; 2 + 0] [fmul (Some a) (Some 1); fmul (Some a) (Some 1)] eq_refl ltac:(discriminate)) as (x & Ex & _).
  refine (C142_recovers_labels nat ex_rng (Some (fun_engine e)) ex_pick low_cf (const_nn v) thick_names s (flat_curve a) [1; 2] (without_polishing polish_options) s' out (thick_table v) [x] _
    ex_rng_ok ex_pick_ok low_cf_ok (fun_fittable e) (const_network v) (flat_valid a) So _ eq_refl (thick_shaped v) (thick_constants v) _ _ eq_refl _ E).
  - intros [B _]. discriminate.
  - intros k c L Hi. cbn in Hi. repeat (destruct Hi as [Hi|Hi]; [injection Hi as <- <-; constructor; [split; [reflexivity|cbn; lra]|constructor]|]). contradiction.
  - constructor; [exact Ex|constructor].
  - intros i r j k p y Hi Hj _ Hp Hc. destruct (thick_variable k p Hp Hc) as [-> ->]. destruct i as [|[|i]]; try discriminate. cbn in Hi. injection Hi as <-. destruct j as [|[|j]]; try discriminate. cbn [nth_error] in Hj. injection Hj as <-.
    cbn. f_equal. f_equal. unfold label_value, num_C. cbn [num_re num_im p_min p_max]. change (100, 0) with (RtoC 100). change (300, 0) with (RtoC 300). rewrite <- RtoC_minus, <- RtoC_mult, <- RtoC_plus. f_equal. field. Qed.

Lemma polished_thick e v s : 0 <= v -> v <> 100 -> 0 < e v -> 0 < e (lowest v) -> exists s' out,
  fit_curve ex_rng (Some (fun_engine e)) ex_pick low_cf (const_nn v) s (flat_curve (e (lowest v))) [1; 2] polish_options = Ok (s', out) /\ fo_params out = thick_table (Rabs (lowest v)).
Proof. intros Hv N P0 P1. set (a := e (lowest v)) in *. destruct (unpolished_thick e v a s Hv) as (s0 & out0 & E0 & Ep0).
  unfold fit_curve in E0. apply fit_core_inv in E0. destruct E0 as (lo & hi & ip & s1 & shift & s2 & sc & p0 & s3 & p & Ew & Ei & E1 & E2 & E3 & E4 & Ep & _).
  injection E1 as <- <-. injection E2 as <- <-. unfold polish_stage in E4. cbn [o_polish without_polishing] in E4. injection E4 as <- <-. rewrite Ep0 in Ep. subst p0.
  destruct (nearest_12 v lo hi (window_spec _ _ _ _ Ew)) as [-> ->]. pose proof (interp_length _ _ _ _ _ Ei) as Li. cbn [curves_of flat_curve List.length] in Li.
  assert (Es : exists s5, polish_one ex_rng (Some (fun_engine e)) low_cf (const_nn v) 0 2 (curves_of (flat_curve a)) [1; 2] polish_options (thick_table v) s 0 = Ok (s5, thick_table (lowest v))).
  { unfold polish_one. change (py_get (curves_of (flat_curve a)) (Z.of_nat 0)) with (Ok [Some a; Some a] : res (list fl)). cbn [bind]. rewrite !slice_part. change (part 0 2 [1; 2]) with [1; 2]. change (part 0 2 [Some a; Some a]) with [Some a; Some a].
    change (frame_slice 0 (thick_table v)) with (thick_table v). unfold least_squares. destruct (thick_start v) as (prep & rem & Ea & Es). rewrite Ea. cbn [bind fst]. rewrite Es. cbn [bind].
    assert (El : lower_bounds [Some ((v - 100) / 200)] (o_bounds polish_options) = [Some ((lowest v - 100) / 200)]).
    { cbn [lower_bounds o_bounds polish_options combine map fst snd fsub fmul fabs option_map lift2]. rewrite abs_200. unfold lowest. f_equal. f_equal. field. }
    rewrite El. cbn [upper_bounds o_bounds polish_options combine map fst snd fadd fmul fabs option_map lift2].
    assert (Pa : 0 < Rabs ((v - 100) / 200)). { apply Rabs_pos_lt. intros Q. apply N. lra. }
    assert (Ex : (lowest v - 100) / 200 = (v - 100) / 200 - 1/2 * Rabs ((v - 100) / 200)). { unfold lowest. rewrite abs_200. field. }
    destruct (thick_model e v v s P0) as (s5 & F0). destruct (thick_model e v (lowest v) s5 P1) as (s6 & F1). exists s6.
    unfold low_cf. cbn [in_bounds]. destruct (Rle_dec ((lowest v - 100) / 200) ((v - 100) / 200)) as [_|Q]; [|exfalso; lra]. destruct (Rle_dec ((v - 100) / 200) _) as [_|Q]; [|exfalso; unfold Rdiv in *; lra].
    destruct (Rlt_dec ((lowest v - 100) / 200) _) as [_|Q]; [|exfalso; unfold Rdiv in *; lra]. cbn [andb]. cbn [map flog10]. destruct (Rlt_dec 0 a) as [_|Q]; [|contradiction]. cbn [all_finite option_map].
    rewrite F0. cbn [bind]. rewrite F1. cbn [bind map all_finite option_map List.length Nat.eqb andb]. fold a.
    destruct (Rle_dec _ _) as [_|Q]; [|exfalso; apply Q; unfold sum_squares; cbn; rewrite !Rminus_eq_0; ring_simplify; pose proof (pow2_ge_0 (Interp_Model.log10 (e v) - Interp_Model.log10 a)); lra].
    cbn [bind]. rewrite (thick_restored v (lowest v)). reflexivity. }
  destruct Es as (s5 & Es). eexists _, _. split.
  - unfold fit_curve. rewrite fit_core_eq, Ew. cbn [bind]. change (interp_stage (const_nn v) (flat_curve a) [1; 2] polish_options) with (interp_stage (const_nn v) (flat_curve a) [1; 2] (without_polishing polish_options)). rewrite Ei. cbn [bind].
    change (shift_stage ex_rng (Some (fun_engine e)) ex_pick (fit_plain ex_rng (Some (fun_engine e)) ex_pick low_cf (const_nn v)) (const_nn v) s (width (flat_curve a) [1; 2]) (curves_of (flat_curve a)) [1; 2] polish_options)
      with (Ok (s, None) : res (nat * option (list R * frame))). cbn [bind].
    change (scale_stage ex_rng ex_pick (fit_plain ex_rng (Some (fun_engine e)) ex_pick low_cf (const_nn v)) s (width (flat_curve a) [1; 2]) 0 2 (curves_of (flat_curve a)) [1; 2] polish_options None)
      with (Ok (s, None) : res (nat * option (list R * frame))). cbn [bind].
    rewrite E3. cbn [bind]. rewrite Li. unfold polish_stage. change (o_polish polish_options) with true. cbv iota. cbn [seq mapS]. rewrite Es. cbn [bind concat_frames fold_left]. reflexivity.
  - cbn [fo_params]. unfold ensure_positive, thick_table. cbn. rewrite !Cmod_R, (Rabs_right 1) by lra. reflexivity. Qed.

(** The predicted thickness 150 is polished to 125, which reproduces the curve. *)
Lemma pow_lt_compat_l_2 x y : 0 <= x -> x < y -> x ^ 2 < y ^ 2.
Proof. intros. simpl. rewrite !Rmult_1_r. apply Rmult_le_0_lt_compat; assumption. Qed.
Lemma thick_nonneg : nonneg_constants thick_sample.
Proof. intros k p Hp _ Hc. label_cases Hp; cbn in Hc; try discriminate; cbn; eexists; (split; [reflexivity|lra]). Qed.
Example C144_example : exists s' out d t r t' r', fit_curve ex_rng (Some (fun_engine (fun x => x / 1000))) ex_pick low_cf (const_nn 150) 0%nat (flat_curve (125 / 1000)) [1; 2] polish_options = Ok (s', out) /\
  polishable thick_sample [1/2] (thick_table 150) 0 /\ fo_params out = thick_table 125 /\
  [Some (125 / 1000); Some (125 / 1000)] = map Some d /\ row_is (thick_table 150) 0 t /\ curve_of ex_rng (Some (fun_engine (fun x => x / 1000))) [1; 2] t (map Some r) /\
  row_is (thick_table 125) 0 t' /\ curve_of ex_rng (Some (fun_engine (fun x => x / 1000))) [1; 2] t' (map Some r') /\ log_error d r' <= log_error d r.
Proof. set (e := fun x => x / 1000). assert (Lw : lowest 150 = 125) by (unfold lowest; rewrite Rabs_right by lra; lra).
  destruct (polished_thick e 150 0%nat) as (s' & out & E & Ep); [lra|lra|unfold e; lra|rewrite Lw; unfold e; lra|]. rewrite Lw in E, Ep. rewrite Rabs_right in Ep by lra. change (e 125) with (125 / 1000) in E.
  assert (Po : polishable thick_sample [1/2] (thick_table 150) 0).
  { intros j k p f (ps & Eps & Hj) Hp Hf. rewrite thick_all_params in Eps. injection Eps as <-. destruct j as [|[|j]]; try discriminate. cbn in Hj, Hf. injection Hj as <-. injection Hf as <-.
    assert (Q : p = Range (Flt 100) (Flt 300) (Some "thickness")).
    { destruct Hp as [(l & Hl & Ek & Hp)|[(l & Hl & Ek & Hp)|(l & Hl & Ek & Hp)]]; simpl in Hl; repeat (destruct Hl as [<-|Hl]; [cbn in Hp; injection Hp as <-; try discriminate Ek; reflexivity|]); contradiction. }
    exists 100, 300, (Some "thickness"), 150. split; [exact Q|]. split; [lra|]. split; [reflexivity|]. replace ((150 - 100) / (300 - 100)) with (1/4) by lra. cbv zeta. rewrite (Rabs_right (1/4)) by lra. split.
    - unfold tolerance. rewrite !(Rmax_left 1) by (rewrite Rabs_right; lra). lra.
    - intros _. rewrite Rabs_right by lra. lra. }
  destruct (C144_polishing_not_worse_partial nat ex_rng (Some (fun_engine e)) ex_pick low_cf (const_nn 150) thick_names 0%nat (flat_curve (125 / 1000)) [1; 2] polish_options s' out ex_rng_ok ex_pick_ok low_cf_ok low_cf_descends
    (fun_fittable e) (const_network 150) thick_nonneg (flat_valid _) ltac:(split; discriminate) eq_refl E) as (lo & hi & s0 & out0 & Nw & E0 & K).
  destruct (nearest_12 150 lo hi Nw) as [-> ->]. destruct (unpolished_thick e 150 (125 / 1000) 0%nat ltac:(lra)) as (s1 & out1 & E1 & Ep1). rewrite E0 in E1. injection E1 as <- <-. rewrite Ep1 in K.
  destruct (K 0%nat _ eq_refl Po) as (d & t & r & t' & r' & Ed & Ht & Hr & Ht' & Hr' & _ & _ & _ & _ & _ & Le). rewrite Ep in Ht'.
  exists s', out, d, t, r, t', r'. repeat (split; [assumption|]). exact Le. Qed.

(** If the lower bound of a thickness is negative, the absolute value that is taken afterwards can be worse than the prediction: the predicted
    thickness 10 is polished to -35 and returned as 35. *)
Theorem C144_negative_bounds_refuted : exists (refl1d : option refl1d_fun) (cf : @curve_fit_fun nat) (m : nn_model) (names : list string) (curve : arr) (q : list R) (o : options) s' out s0 out0 d t r t' r',
  rng_ok ex_rng /\ pick_ok ex_pick /\ curve_fit_ok cf /\ curve_fit_descends cf /\ fittable refl1d (nn_sample m) /\ network_ok m names /\ nonneg_constants (nn_sample m) /\ valid_input curve q /\ samples_ok o /\
  fit_curve ex_rng refl1d ex_pick cf m 0%nat curve q o = Ok (s', out) /\ fit_curve ex_rng refl1d ex_pick cf m 0%nat curve q (without_polishing o) = Ok (s0, out0) /\
  curves_of curve = [map Some d] /\ row_is (fo_params out0) 0 t /\ curve_of ex_rng refl1d q t (map Some r) /\ row_is (fo_params out) 0 t' /\ curve_of ex_rng refl1d q t' (map Some r') /\
  positive_row d /\ positive_row r /\ positive_row r' /\ log_error d r < log_error d r'.
Proof. set (e := fun x => (100 + x) / 1000). assert (Lw : lowest 10 = -35) by (unfold lowest; rewrite Rabs_left by lra; lra).
  destruct (polished_thick e 10 0%nat) as (s' & out & E & Ep); [lra|lra|unfold e; lra|rewrite Lw; unfold e; lra|]. rewrite Lw in E, Ep. replace (Rabs (-35)) with 35 in Ep by (rewrite Rabs_left by lra; lra).
  destruct (unpolished_thick e 10 (e (-35)) 0%nat ltac:(lra)) as (s0 & out0 & E0 & Ep0).
  exists (Some (fun_engine e)), low_cf, (const_nn 10), thick_names, (flat_curve (e (-35))), [1; 2], polish_options, s', out, s0, out0, [e (-35); e (-35)], (thick_row 10), [e 10; e 10], (thick_row 35), [e 35; e 35].
  split; [exact ex_rng_ok|]. split; [exact ex_pick_ok|]. split; [exact low_cf_ok|]. split; [exact low_cf_descends|]. split; [exact (fun_fittable e)|]. split; [exact (const_network 10)|]. split; [exact thick_nonneg|].
  split; [apply flat_valid|]. split; [split; discriminate|]. split; [exact E|]. split; [exact E0|]. split; [reflexivity|]. rewrite Ep, Ep0. split; [reflexivity|]. split; [exact (fun_curve_of e [1; 2] 10)|]. split; [reflexivity|].
  split; [exact (fun_curve_of e [1; 2] 35)|]. split; [repeat constructor; unfold e; lra|]. split; [repeat constructor; unfold e; lra|]. split; [repeat constructor; unfold e; lra|].
  assert (L : forall x y, 0 < x -> x < y -> Interp_Model.log10 x < Interp_Model.log10 y).
  { intros x y Hx Hy. unfold Interp_Model.log10, Rdiv. apply Rmult_lt_compat_r; [|apply ln_increasing; assumption]. apply Rinv_0_lt_compat. rewrite <- ln_1. apply ln_increasing; lra. }
  pose proof (L (e (-35)) (e 10) ltac:(unfold e; lra) ltac:(unfold e; lra)) as L1. pose proof (L (e 10) (e 35) ltac:(unfold e; lra) ltac:(unfold e; lra)) as L2.
  unfold log_error, avg. cbn [combine map fst snd List.length sum fold_right]. unfold Rdiv. apply Rmult_lt_compat_r; [apply Rinv_0_lt_compat; apply lt_0_INR; lia|].
  assert (Q : (Interp_Model.log10 (e (-35)) - Interp_Model.log10 (e 10)) ^ 2 < (Interp_Model.log10 (e (-35)) - Interp_Model.log10 (e 35)) ^ 2).
  { replace ((Interp_Model.log10 (e (-35)) - Interp_Model.log10 (e 10)) ^ 2) with ((Interp_Model.log10 (e 10) - Interp_Model.log10 (e (-35))) ^ 2) by ring.
    replace ((Interp_Model.log10 (e (-35)) - Interp_Model.log10 (e 35)) ^ 2) with ((Interp_Model.log10 (e 35) - Interp_Model.log10 (e (-35))) ^ 2) by ring. apply pow_lt_compat_l_2; lra. }
  cbn [sum fold_right]. lra. Qed.
Print Assumptions C144_negative_bounds_refuted.
