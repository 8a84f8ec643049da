(** Lemmas about plots. *)
From Coq Require Import Reals Lra.
From Coquelicot Require Import Complex.
From Verif Require Import Py Str Sample_Model Sample_Spec Rng Arr Footprint_Model Scan_Model Footprint_Proofs Scan_Proofs Preproc_Model Preproc_Spec Preproc_Proofs OutPreproc_Proofs Simulation_Model Simulation_Spec Simulation_Proofs Sampling_Model
  SldProfile_Model SldProfile_Proofs
  Fitter_Model Fitter_Spec Fitter_Proofs Choice_Proofs FileFitter_Model FileFitter_Spec FileFitter_Proofs FitterOut_Proofs FitterValue_Spec Prediction_Model Prediction_Spec Prediction_Proofs Profile_Proofs Plot_Model Plot_Spec.
Local Open Scope string_scope.
Local Open Scope R_scope.

Lemma unit_right s u k v : clean_names s -> right_unit s u k v -> unit_of u k = Ok v.
Proof. intros Cl [[L ->]|[(l & Hl & ->) ->]]; unfold unit_of.
  - pose proof (sign_free_length s k L) as E. unfold sign_free in E. rewrite E. reflexivity.
  - pose proof (proj1 (Forall_forall _ _) Cl l Hl) as C1. pose proof (sign_free_sld _ C1) as E. unfold sign_free in E. rewrite E.
    replace (contains "sld" (l_name l ++ "_" ++ "sld")) with true; [reflexivity|]. symmetry. apply contains_iff. exists (l_name l ++ "_"), "". now rewrite append_assoc. Qed.

Lemma column_one names r k v : complete_result names r -> cell_at (r_params r) k 0 = Some (Some (RtoC v)) -> column (r_params r) k = Ok [Some (RtoC v)].
Proof. intros (_ & _ & F) H. unfold cell_at in H. unfold column. destruct (tget (fr_cols (r_params r)) k) as [c|] eqn:E; [|discriminate].
  apply tget_In in E. rewrite Forall_forall in F. destruct (F _ E) as (z & Hz). cbn in Hz. subst c. cbn in H. injection H as ->. reflexivity. Qed.

Lemma annotation_text fmt1 show round6 names r params vs us e : clean_names (r_sample r) -> complete_result names r ->
  Forall2 (fun k v => cell_at (r_params r) k 0 = Some (Some (RtoC v))) params vs -> Forall2 (right_unit (r_sample r) "x 10$^{-6}$ Å$^{-2}$") params us ->
  result_mse round6 r = Ok e ->
  annotation fmt1 show round6 r params = Ok (lines_of (map (fun kvu => entry fmt1 (fst kvu) (fst (snd kvu)) (snd (snd kvu))) (combine params (combine vs us))) ++ "log_mse: " ++ show e).
Proof. intros Cl K Hv Hu He. unfold annotation. rewrite He. clear He.
  match goal with |- context [foldM ?f _ params] => set (step := f) end.
  assert (Q : forall text, foldM step text params = Ok (text ++ lines_of (map (fun kvu => entry fmt1 (fst kvu) (fst (snd kvu)) (snd (snd kvu))) (combine params (combine vs us))))).
  { clear e. revert us Hu. induction Hv as [|k v params vs H1 Hv IH]; intros us Hu text; inversion Hu as [|? u ? us' H2 Hu']; subst; clear Hu.
    - cbn. now rewrite append_nil_r.
    - cbn [foldM]. unfold step at 1. rewrite (unit_right _ _ _ _ Cl H2). cbn [bind]. rewrite (column_one names r k v K H1). cbn [bind column_float option_map fst RtoC].
      rewrite (IH _ Hu'). cbn [combine map fst snd lines_of fold_right]. fold (lines_of (map (fun kvu => entry fmt1 (fst kvu) (fst (snd kvu)) (snd (snd kvu))) (combine params (combine vs us')))).
      unfold entry, newline. now rewrite !append_assoc. }
  rewrite Q. cbn [bind]. now rewrite append_assoc. Qed.

(** What is annotated exists *)
Lemma annotation_known fmt1 show round6 r params t : annotation fmt1 show round6 r params = Ok t -> Forall (fun k => exists z, cell_at (r_params r) k 0 = Some z) params.
Proof. unfold annotation. intros H. bind_as H text E. clear H. match type of E with foldM ?f ?t0 params = _ => set (step := f) in E; set (start := t0) in E; clearbody start end. revert start E. induction params as [|k params IH]; intros start E; [constructor|]. cbn [foldM] in E.
  bind_as E t1 E1. unfold step in E1. bind_as E1 u Eu. bind_as E1 c Ec. bind_as E1 v Ev. constructor; [|exact (IH _ E)]. unfold column in Ec. unfold cell_at. destruct (tget (fr_cols (r_params r)) k) as [c'|]; [|discriminate].
  injection Ec as ->. destruct c as [|z [|]]; try discriminate. exists z. reflexivity. Qed.

Lemma prediction_plot fmt1 show show_z round6 r params text : List.length (r_corrected r) = List.length (r_q r) -> List.length (r_refl r) = List.length (r_q r) ->
  annotation fmt1 show round6 r params = Ok text ->
  plot_prediction fmt1 show show_z round6 r params = Ok ([mkLine fl fl "data" (r_q r) (r_corrected r); mkLine fl fl "prediction" (r_q r) (r_refl r)],
    "Prediction of scan #" ++ show_z (r_scan r) ++ " (" ++ match r_time r with Some t => t | None => "None" end ++ ")", text).
Proof. intros L1 L2 E. unfold plot_prediction, draw. rewrite L1, L2, Nat.eqb_refl. cbn [bind]. rewrite E. reflexivity. Qed.

(** ** Parameters of a series *)
Lemma range_panels strptime se names params us x_format x xl : clean_names (se_sample se) -> map fst (fr_cols (se_params se)) = names ->
  Forall (fun kc => List.length (snd kc) = List.length x) (fr_cols (se_params se)) -> Forall (fun k => In k names) params ->
  Forall2 (right_unit (se_sample se) "10$^{-6}$ Å$^{-2}$") params us ->
  (if String.eqb x_format "time" then d <- delta_t strptime se ;; match d with Some d => Ok (d, "Time [min]") | None => Ok (map IZR (se_scan se), "Scan") end else Ok (map IZR (se_scan se), "Scan")) = Ok (x, xl) ->
  exists panels, plot_parameter_range strptime se params x_format = Ok (xl, panels) /\ List.length panels = List.length params /\
    forall i k u, nth_error params i = Some k -> nth_error us i = Some u -> exists c, nth_error panels i = Some ((i + 1)%nat, mkLine R cell (k ++ " [" ++ u ++ "]") x c) /\
      List.length c = List.length x /\ forall j, nth_error c j = cell_at (se_params se) k j.
Proof. intros Cl N F Hk Hu E. unfold plot_parameter_range. rewrite E. clear E. cbn [bind].
  match goal with |- context [mapM ?f _] => set (step := f) end.
  assert (Q : forall n, exists panels, mapM step (combine (seq n (List.length params)) params) = Ok panels /\ List.length panels = List.length params /\
    forall i k u, nth_error params i = Some k -> nth_error us i = Some u -> exists c, nth_error panels i = Some ((n + i + 1)%nat, mkLine R cell (k ++ " [" ++ u ++ "]") x c) /\
      List.length c = List.length x /\ forall j, nth_error c j = cell_at (se_params se) k j).
  { revert us Hu. induction params as [|k params IH]; intros us Hu n; inversion Hu as [|? u ? us' H2 Hu']; subst; clear Hu.
    - exists []. split; [reflexivity|]. split; [reflexivity|]. intros [|i] ? ? Hi; discriminate.
    - apply Forall_cons_iff in Hk. destruct Hk as [H1 Hk]. cbn [List.length seq combine mapM]. unfold step at 1. cbn [bind].
      rewrite (unit_right _ _ _ _ Cl H2). cbn [bind]. apply in_map_iff in H1. destruct H1 as ([k' c0] & <- & Hc0). cbn [fst] in *.
      assert (T : exists c, tget (fr_cols (se_params se)) k' = Some c).
      { clear - Hc0. induction (fr_cols (se_params se)) as [|[k c] t IH]; [contradiction|]. cbn [tget]. destruct (String.eqb_spec k k') as [->|Ne]; [eauto|]. destruct Hc0 as [Q|Q]; [injection Q as -> ->; contradiction|exact (IH Q)]. }
      destruct T as (c & T). unfold column. rewrite T. cbn [bind]. pose proof (proj1 (Forall_forall _ _) F _ (tget_In _ _ _ T)) as Lc. cbn in Lc. unfold draw. rewrite Lc, Nat.eqb_refl. cbn [bind].
      destruct (IH Hk us' Hu' (Datatypes.S n)) as (panels & E & L & P). rewrite E. cbn [bind]. eexists. split; [reflexivity|]. split; [cbn; now rewrite L|].
      intros [|i] k u' Hi Hj.
      + cbn in Hi, Hj. injection Hi as <-. injection Hj as <-. exists c. split; [cbn; now rewrite Nat.add_0_r|]. split; [exact Lc|]. intros j. unfold cell_at. now rewrite T.
      + cbn in Hi, Hj. destruct (P i k u' Hi Hj) as (c' & Q1 & Q2). exists c'. split; [|exact Q2]. cbn [nth_error]. rewrite Q1. do 3 f_equal. lia. }
  destruct (Q 0%nat) as (panels & E & L & P). rewrite E. cbn [bind]. exists panels. split; [reflexivity|]. split; [exact L|exact P]. Qed.

Lemma unknown_panel strptime se k x_format : In k ["thickness"; "roughness"; "sld"] -> ~ In k (map fst (fr_cols (se_params se))) -> (x_format <> "time" \/ In None (se_time se)) ->
  plot_parameter_range strptime se [k] x_format = Raise KeyError.
Proof. intros Hk N X. unfold plot_parameter_range.
  assert (T : tget (fr_cols (se_params se)) k = None).
  { clear - N. induction (fr_cols (se_params se)) as [|[k' c] t IH]; [reflexivity|]. cbn [tget]. cbn [map fst In] in N. destruct (String.eqb_spec k' k); [tauto|]. apply IH. tauto. }
  assert (Q : (if String.eqb x_format "time" then d <- delta_t strptime se ;; match d with Some d => Ok (d, "Time [min]") | None => Ok (map IZR (se_scan se), "Scan") end else Ok (map IZR (se_scan se), "Scan")) = Ok (map IZR (se_scan se), "Scan")).
  { destruct X as [X|X]; [destruct (String.eqb_spec x_format "time"); [contradiction|reflexivity]|]. destruct (String.eqb x_format "time"); [|reflexivity].
    unfold delta_t. replace (existsb _ (se_time se)) with true; [reflexivity|]. symmetry. apply existsb_exists. exists None. split; [exact X|reflexivity]. }
  rewrite Q. cbn [bind]. repeat (destruct Hk as [<-|Hk]; [cbn [List.length seq combine mapM bind]; cbv beta iota; unfold column; rewrite T; reflexivity|]). contradiction. Qed.

(** ** Colours *)
Lemma linspace_nth n i : (2 <= n)%nat -> (i < n)%nat -> nth_error (linspace01 n) i = Some (INR i / INR (n - 1)).
Proof. intros H Hi. unfold linspace01. destruct n as [|[|n]]; [lia|lia|]. rewrite nth_error_map. rewrite (nth_error_nth' _ 0%nat) by (rewrite seq_length; lia). rewrite seq_nth by lia. reflexivity. Qed.
Lemma linspace_length n : List.length (linspace01 n) = n.
Proof. unfold linspace01. destruct n as [|[|n]]; [reflexivity|reflexivity|]. now rewrite map_length, seq_length. Qed.

Lemma colours_agree (zs : list Z) first last : (2 <= List.length zs)%nat -> nth_error zs 0 = Some first -> nth_error zs (List.length zs - 1) = Some last ->
  (forall i z, nth_error zs i = Some z -> INR i / INR (List.length zs - 1) = colourbar_at (IZR first) (IZR last) (IZR z)) <-> equidistant zs.
Proof. intros L H0 Hl. set (n := List.length zs) in *. assert (N1 : INR (n - 1) <> 0) by (apply not_0_INR; lia). assert (N2 : 0 < INR (n - 1)) by (apply lt_0_INR; lia). split.
  - intros A. pose proof (A 0%nat first H0) as A0. cbn [INR] in A0. unfold Rdiv at 1 in A0. rewrite Rmult_0_l in A0. unfold colourbar_at in A, A0.
    destruct (Req_EM_T (IZR first) (IZR last)) as [E|Ne]; [lra|]. destruct (Rle_dec (IZR first) (IZR last)) as [Le|Nle].
    + rewrite Rmin_left, Rmax_right in A, A0 by assumption. destruct (nth_error zs 1) as [z1|] eqn:E1; [|apply nth_error_None in E1; unfold n in L; lia].
      assert (B : forall i z, nth_error zs i = Some z -> IZR z = IZR first + INR i * ((IZR last - IZR first) / INR (n - 1))).
      { intros i z Hz. specialize (A i z Hz). assert (IZR z - IZR first = (IZR last - IZR first) * (INR i / INR (n - 1))) by (rewrite A; field; lra). replace (IZR z) with (IZR first + (IZR z - IZR first)) by ring. rewrite H. field. exact N1. }
      exists first, (z1 - first)%Z. pose proof (B 1%nat z1 E1) as B1. cbn [INR] in B1. assert (D : IZR (z1 - first) = (IZR last - IZR first) / INR (n - 1)) by (rewrite minus_IZR; lra). split.
      * apply lt_IZR. rewrite D. apply Rdiv_lt_0_compat; lra.
      * intros i z Hz. apply eq_IZR. rewrite plus_IZR, mult_IZR, <- INR_IZR_INZ, D. exact (B i z Hz).
    + exfalso. rewrite Rmin_right, Rmax_left in A0 by lra. unfold Rdiv in A0. rewrite Rinv_r in A0; lra.
  - intros (a & d & Hd & A) i z Hz. pose proof (A _ _ H0) as E0. pose proof (A _ _ Hl) as E1. pose proof (A _ _ Hz) as Ez. cbn in E0.
    assert (P : (first < last)%Z) by nia. apply IZR_lt in P. unfold colourbar_at. destruct (Req_EM_T (IZR first) (IZR last)); [lra|]. rewrite Rmin_left, Rmax_right by lra.
    assert (Q1 : IZR z - IZR first = INR i * IZR d) by (rewrite Ez, E0, !plus_IZR, mult_IZR, <- INR_IZR_INZ; ring_simplify; rewrite Rmult_comm; ring).
    assert (Q2 : IZR last - IZR first = INR (n - 1) * IZR d) by (rewrite E1, E0, !plus_IZR, mult_IZR, <- INR_IZR_INZ; ring_simplify; ring).
    rewrite Q1, Q2. field. split; [|exact N1]. apply IZR_lt in Hd. lra. Qed.

Lemma Forall2_at {A B} (P : A -> B -> Prop) l r : Forall2 P l r -> forall i a, nth_error l i = Some a -> exists b, nth_error r i = Some b /\ P a b.
Proof. induction 1 as [|a b l r H F IH]; intros [|i] x Hx; try discriminate; cbn in *; [injection Hx as <-; eauto|exact (IH i x Hx)]. Qed.
Lemma make_profile_length erf t sl ro sub amb p : make_sld_profile erf t sl ro sub amb = Ok p -> List.length (snd p) = List.length (fst p).
Proof. unfold make_sld_profile. destruct (_ && _)%bool; [|discriminate]. destruct (map Rabs ro); [discriminate|]. destruct (map fst (sub :: sl ++ [amb])%list); [discriminate|]. intros H. injection H as <-. cbn [fst snd]. apply map_length. Qed.
Lemma profiles_length erf f ps : frame_profiles erf f = Ok ps -> Forall (fun p => List.length (snd p) = List.length (fst p)) ps.
Proof. unfold frame_profiles. destruct (forallb _ _); [|discriminate]. unfold simulate_sld_profiles. destruct (separate _) as [[ts rs] ss]. destruct rs as [|r rs]; [discriminate|]. destruct ss as [|s ss]; [discriminate|].
  intros H. apply mapM_Ok_iff in H. induction H as [|i p l ps H1 H IH]; [constructor|]. constructor; [|exact IH]. unfold profile_row in H1. bind_as H1 a E1. bind_as H1 b E2. bind_as H1 c E3.
  destruct b as [|sub rest]; [discriminate|]. destruct (rev rest); eapply make_profile_length; exact H1. Qed.
Lemma py_get_last {A} (l : list A) x : nth_error l (List.length l - 1) = Some x -> py_get l (-1) = Ok x.
Proof. intros H. unfold py_get, norm_idx. replace ((0 <=? -1)%Z && _)%bool with false by reflexivity. destruct l as [|a l]; [discriminate|].
  replace ((- Z.of_nat (List.length (a :: l)) <=? -1)%Z) with true by (symmetry; apply Z.leb_le; cbn [List.length]; lia). cbn [andb Z.ltb Z.compare].
  replace (Z.to_nat (Z.of_nat (List.length (a :: l)) + -1)) with (List.length (a :: l) - 1)%nat by (cbn [List.length]; lia). rewrite H. reflexivity. Qed.

Lemma plotted_profile erf r p : result_profile erf r = Ok p -> plot_sld_profile erf r = Ok (mkLine R (option R) "" (fst p) (snd p)).
Proof. intros E. unfold plot_sld_profile. rewrite E. cbn [bind]. unfold result_profile in E. bind_as E ps Ep. pose proof (profiles_length erf _ ps Ep) as FL. rewrite Forall_forall in FL.
  assert (I : In p ps). { unfold py_get in E. destruct (norm_idx _ _) as [i|]; [|discriminate]. destruct (nth_error ps i) eqn:N; [|discriminate]. injection E as <-. eapply nth_error_In. exact N. }
  unfold draw. rewrite (FL p I), Nat.eqb_refl. reflexivity. Qed.
Lemma plotted_profiles erf refl1d m names l se : fittable refl1d (nn_sample m) -> network_ok m names -> Forall (complete_result names) l -> NoDup names -> series_new l = Ok se ->
  Forall (fun r => r_index r = [r_scan r]) l ->
  exists lines first last, plot_sld_profiles erf se = Ok (lines, (IZR first, IZR last)) /\ List.length lines = List.length l /\
    nth_error (se_scan se) 0 = Some first /\ nth_error (se_scan se) (List.length l - 1) = Some last /\
    forall i r, nth_error l i = Some r -> exists p c, result_profile erf r = Ok p /\ nth_error lines i = Some (mkLine R (option R) "" (fst p) (snd p), c) /\ nth_error (linspace01 (List.length l)) i = Some c.
Proof. intros F N K D E I. destruct (series_profiles_total erf refl1d m names l se F N K D E) as (ps & Ep & Lp & P). unfold plot_sld_profiles. rewrite Ep. cbn [bind].
  pose proof (profiles_length erf _ ps Ep) as FL.
  unfold series_new in E. bind_as E f Ef. bind_as E r0 E0. injection E as <-. cbn [se_index se_scan se_params] in *.
  assert (I' : List.concat (map r_index l) = map r_scan l) by (clear - I; induction I as [|r l H I IH]; [reflexivity|]; cbn; rewrite H, IH; reflexivity).
  rewrite I'. clear I I'.
  assert (Hl : l <> []) by (intros ->; discriminate Ef).
  assert (Lf : fr_rows f = List.length l).
  { assert (S1 : Forall (shaped names 1) (map r_params l)). { apply Forall_map. eapply Forall_impl; [|exact K]. intros r (A & B & C1). split; [exact A|]. split; [exact B|]. eapply Forall_impl; [|exact C1]. intros [k c] (z & Hz). cbn in Hz |- *. now subst c. }
    pose proof (shaped_concat names (map r_params l) S1 f Ef) as (_ & R1 & _). rewrite map_length in R1. exact R1. }
  assert (Q0 : exists first, nth_error (map r_scan l) 0 = Some first) by (destruct l; [contradiction|eexists; reflexivity]). destruct Q0 as (first & Q0).
  assert (Ql : exists last, nth_error (map r_scan l) (List.length l - 1) = Some last). { destruct (nth_error (map r_scan l) (List.length l - 1)) eqn:X; [eauto|]. apply nth_error_None in X. rewrite map_length in X. destruct l; [contradiction|cbn in X; lia]. }
  destruct Ql as (last & Ql). replace (py_get (map r_scan l) 0) with (Ok first) by (destruct l; [contradiction|]; cbn in Q0; injection Q0 as <-; reflexivity).
  rewrite (py_get_last (map r_scan l) last) by (rewrite map_length; exact Ql). cbn [bind]. rewrite Lf, Lp.
  set (step := fun i => p <- py_get ps (Z.of_nat i) ;; c <- py_get (linspace01 (List.length l)) (Z.of_nat i) ;; ln <- draw "" (fst p) (snd p) ;; Ok (ln, c)).
  assert (G : forall i, (i < List.length l)%nat -> exists p c, nth_error ps i = Some p /\ nth_error (linspace01 (List.length l)) i = Some c /\ step i = Ok (mkLine R (option R) "" (fst p) (snd p), c)).
  { intros i Hi. destruct (nth_error ps i) as [p|] eqn:Hp; [|apply nth_error_None in Hp; lia]. destruct (nth_error (linspace01 (List.length l)) i) as [c|] eqn:Hc; [|apply nth_error_None in Hc; rewrite linspace_length in Hc; lia].
    exists p, c. split; [reflexivity|]. split; [reflexivity|]. unfold step. rewrite (py_get_nat _ _ Hp), (py_get_nat _ _ Hc). cbn [bind]. unfold draw.
    rewrite (proj1 (Forall_forall _ _) FL p (nth_error_In _ _ Hp)), Nat.eqb_refl. reflexivity. }
  assert (M : exists lines, mapM step (seq 0 (List.length l)) = Ok lines).
  { destruct (mapM_exists _ _ step (fun _ => True) (seq 0 (List.length l))) as (ls & H & _); [|eauto]. intros i Hi. apply in_seq in Hi. destruct (G i ltac:(lia)) as (p & c & _ & _ & H). eauto. }
  destruct M as (lines & M). exists lines, first, last. rewrite M. cbn [bind]. split; [reflexivity|]. split; [pose proof (mapM_Ok_length _ _ M) as Q; rewrite seq_length in Q; exact Q|]. split; [exact Q0|]. split; [exact Ql|].
  intros i r Hr. assert (Hi : (i < List.length l)%nat) by (apply nth_error_Some; rewrite Hr; discriminate). destruct (G i Hi) as (p & c & Hp & Hc & Hs). exists p, c. split; [exact (P i r p Hr Hp)|]. split; [|exact Hc].
  apply mapM_Ok_iff in M. clear - M Hs Hi. assert (Q : nth_error (seq 0 (List.length l)) i = Some i) by (rewrite (nth_error_nth' _ 0%nat) by (rewrite seq_length; lia); now rewrite seq_nth by lia).
  destruct (Forall2_at _ _ _ M i i Q) as (b & Hb & Eb). rewrite Hs in Eb. injection Eb as <-. exact Hb. Qed.

(** ** Series of scans *)
Lemma scan_q_length s q : scan_q s = Ok q -> List.length q = List.length (sc_angle s).
Proof. unfold scan_q. intros H. bind_as H k E. injection H as <-. apply map_length. Qed.
Lemma py_slice_all {A} (l : list A) : py_slice l None None = l.
Proof. unfold py_slice. cbn. rewrite Nat.sub_0_r. apply firstn_all. Qed.
Lemma corrected_shows erf label q_min q_max s : plottable erf s -> exists c ln, corrected_intensity erf s = Ok c /\
  (x <- get_q_range s q_min q_max ;; y <- get_corrected_intensity_range erf s q_min q_max ;; draw label x y) = Ok ln /\ shows_values q_min q_max s label c ln.
Proof. intros (L & N & (q & Eq) & (c & Ec)). assert (Nq : q <> []) by (intros ->; apply scan_q_length in Eq; destruct (sc_angle s); [contradiction|discriminate]).
  destruct (getters_aligned erf s q c q_min q_max L Eq Ec Nq) as (lo & n & E1 & _ & E3 & _ & L2 & Sel). rewrite E1, E3. cbn [bind]. unfold draw. rewrite L2, Nat.eqb_refl.
  exists c. eexists. split; [exact Ec|]. split; [reflexivity|]. exists q, lo, n. split; [exact Eq|]. split; [reflexivity|]. split; [|exact Sel]. intros -> ->. cbn [ln_x ln_y].
  unfold get_q_range, range_bounds in E1. rewrite Eq in E1. cbn in E1. unfold get_corrected_intensity_range, range_bounds in E3. rewrite Eq in E3. cbn [bind closest_index] in E3. rewrite Ec in E3. cbn in E3.
  injection E1 as E1. injection E3 as E3. split; [refine (eq_trans (eq_sym E1) _)|refine (eq_trans (eq_sym E3) _)]; apply @py_slice_all. Qed.
Lemma draw_shows erf show_z q_min q_max s : plottable erf s -> exists ln, draw_scan erf show_z q_min q_max s = Ok ln /\ shows erf show_z q_min q_max s ln.
Proof. intros P. destruct (corrected_shows erf (show_z (sc_number s)) q_min q_max s P) as (c & ln & Ec & E & S). exists ln. split; [exact E|]. exists c. exact (conj Ec S). Qed.
Lemma raw_shows q_min q_max s q : List.length (sc_raw s) = List.length (sc_angle s) -> sc_angle s <> [] -> scan_q s = Ok q ->
  exists ln, plot_raw_intensity s q_min q_max = Ok ln /\ shows_values q_min q_max s "" (sc_raw s) ln.
Proof. intros L N Eq. assert (Nq : q <> []) by (intros ->; apply scan_q_length in Eq; destruct (sc_angle s); [contradiction|discriminate]).
  destruct (raw_aligned s q q_min q_max L Eq Nq) as (lo & n & E1 & E3 & L2 & Sel). unfold plot_raw_intensity. rewrite E1, E3. cbn [bind]. unfold draw. rewrite L2, Nat.eqb_refl.
  eexists. split; [reflexivity|]. exists q, lo, n. split; [exact Eq|]. split; [reflexivity|]. split; [|exact Sel]. intros -> ->. cbn [ln_x ln_y].
  unfold get_q_range, range_bounds in E1. rewrite Eq in E1. cbn in E1. unfold get_raw_intensity_range, range_bounds in E3. rewrite Eq in E3. cbn in E3.
  injection E1 as E1. injection E3 as E3. split; [refine (eq_trans (eq_sym E1) _)|refine (eq_trans (eq_sym E3) _)]; apply @py_slice_all. Qed.
Lemma series_all erf show_z q_min q_max l : l <> [] -> Forall (plottable erf) l -> exists lines, plot_series erf show_z l None q_min q_max = Ok (Some lines) /\ Forall2 (shows erf show_z q_min q_max) l lines.
Proof. intros N F. assert (M : exists lines, mapM (draw_scan erf show_z q_min q_max) l = Ok lines /\ Forall2 (shows erf show_z q_min q_max) l lines).
  { clear N. induction F as [|s l H F (lines & E & IH)]; [exists []; split; [reflexivity|constructor]|]. destruct (draw_shows erf show_z q_min q_max s H) as (ln & E1 & S1). exists (ln :: lines). cbn [mapM]. rewrite E1, E. split; [reflexivity|now constructor]. }
  destruct M as (lines & M & P). exists lines. split; [|exact P]. unfold plot_series. destruct l; [contradiction|]. rewrite M. reflexivity. Qed.
Lemma series_some erf show_z q_min q_max l idx : l <> [] -> Forall (plottable erf) l -> Forall (fun i => (i < List.length l)%nat) idx ->
  exists lines, plot_series erf show_z l (Some (map Z.of_nat idx)) q_min q_max = Ok (Some lines) /\ Forall2 (fun i ln => exists s, nth_error l i = Some s /\ shows erf show_z q_min q_max s ln) idx lines.
Proof. intros N F I. assert (M : exists lines, mapM (fun i => s <- py_get l i ;; draw_scan erf show_z q_min q_max s) (map Z.of_nat idx) = Ok lines /\
    Forall2 (fun i ln => exists s, nth_error l i = Some s /\ shows erf show_z q_min q_max s ln) idx lines).
  { induction I as [|i idx H I (lines & E & IH)]; [exists []; split; [reflexivity|constructor]|]. destruct (nth_error l i) as [s|] eqn:Es; [|apply nth_error_None in Es; lia].
    destruct (draw_shows erf show_z q_min q_max s (proj1 (Forall_forall _ _) F s (nth_error_In _ _ Es))) as (ln & E1 & S1). exists (ln :: lines). cbn [map mapM]. rewrite (py_get_nat _ _ Es). cbn [bind]. rewrite E1, E.
    split; [reflexivity|constructor; [eauto|exact IH]]. }
  destruct M as (lines & M & P). exists lines. split; [|exact P]. unfold plot_series. destruct l; [contradiction|]. rewrite M. reflexivity. Qed.
Lemma series_beyond erf show_z q_min q_max l i : l <> [] -> (Z.of_nat (List.length l) <= i)%Z -> plot_series erf show_z l (Some [i]) q_min q_max = Raise IndexError.
Proof. intros N H. unfold plot_series. destruct l as [|s l]; [contradiction|]. cbn [mapM]. unfold py_get, norm_idx.
  destruct (Z.ltb_spec i (Z.of_nat (List.length (s :: l)))); [lia|]. rewrite Bool.andb_false_r. destruct (Z.ltb_spec i 0); [lia|]. rewrite Bool.andb_false_r. reflexivity. Qed.

(** ** The table of a series and its results *)
Lemma cols_cell (t1 t2 : list (string * list cell)) (i j : nat) (k : string) : map fst t1 = map fst t2 -> map (fun kc => nth i (snd kc) (None : cell)) t1 = map (fun kc => nth j (snd kc) (None : cell)) t2 ->
  Forall (fun kc => (i < List.length (snd kc))%nat) t1 -> Forall (fun kc => (j < List.length (snd kc))%nat) t2 ->
  match tget t1 k with Some c => nth_error c i | None => None end = match tget t2 k with Some c => nth_error c j | None => None end.
Proof. revert t2. induction t1 as [|[k1 c1] t1 IH]; intros [|[k2 c2] t2] E V F1 F2; try discriminate; [reflexivity|]. cbn [map fst snd] in E, V. injection E as -> E. injection V as V0 V.
  inversion F1 as [|? ? L1 F1']; subst. inversion F2 as [|? ? L2 F2']; subst. cbn [snd] in L1, L2. cbn [tget]. destruct (String.eqb k2 k); [|exact (IH t2 E V F1' F2')].
  refine (eq_trans (nth_error_nth' c1 None L1) (eq_trans (f_equal (@Some cell) V0) (eq_sym (nth_error_nth' c2 None L2)))). Qed.
Lemma series_cell names l se k i r : NoDup names -> Forall (complete_result names) l -> series_new l = Ok se -> nth_error l i = Some r -> cell_at (se_params se) k i = cell_at (r_params r) k 0.
Proof. intros N K E Hr. destruct (series_new_inv l se E) as (params & first & rest & EC & EL & ES). assert (EP : se_params se = params) by (rewrite ES; reflexivity). rewrite EP. clear ES E EP.
  assert (Fs : Forall (shaped names 1) (map r_params l)) by (apply Forall_map; eapply Forall_impl; [|exact K]; intros r1 H; exact (proj1 (complete_shaped names r1 H))).
  pose proof (shaped_concat names (map r_params l) Fs params EC) as (A1 & _ & A3). rewrite map_length in A3.
  pose proof (concat_rows names (map r_params l) params N Fs EC i (r_params r)) as Rw. rewrite nth_error_map, Hr in Rw. specialize (Rw eq_refl).
  rewrite Forall_forall in K. destruct (proj1 (complete_shaped names r (K r (nth_error_In _ _ Hr)))) as (B1 & _ & B3).
  assert (Hi : (i < List.length l)%nat) by (apply nth_error_Some; rewrite Hr; discriminate).
  apply (cols_cell (fr_cols params) (fr_cols (r_params r)) i 0 k).
  - now rewrite A1, B1.
  - exact Rw.
  - eapply Forall_impl; [|exact A3]. intros kc H. cbn in H. rewrite H. exact Hi.
  - eapply Forall_impl; [|exact B3]. intros kc H. cbn in H. rewrite H. lia. Qed.

Lemma series_panels strptime names l se params us x_format x xl : clean_names (se_sample se) -> NoDup names -> Forall (complete_result names) l -> series_new l = Ok se ->
  Forall (fun k => In k names) params -> Forall2 (right_unit (se_sample se) "10$^{-6}$ Å$^{-2}$") params us ->
  ((x_format <> "time" \/ In None (se_time se)) /\ x = map IZR (map r_scan l) /\ xl = "Scan") \/ (x_format = "time" /\ delta_t strptime se = Ok (Some x) /\ List.length x = List.length l /\ xl = "Time [min]") ->
  exists panels, plot_parameter_range strptime se params x_format = Ok (xl, panels) /\ List.length panels = List.length params /\
    forall i k u, nth_error params i = Some k -> nth_error us i = Some u -> exists c, nth_error panels i = Some ((i + 1)%nat, mkLine R cell (k ++ " [" ++ u ++ "]") x c) /\
      List.length c = List.length l /\ forall j r, nth_error l j = Some r -> nth_error c j = cell_at (r_params r) k 0.
Proof. intros Cl N K E P U X. pose proof (fun k i r => series_cell names l se k i r N K E) as SC. pose proof E as E'.
  destruct (series_new_inv l se E) as (pf & first & rest & EC & EL & ES). assert (EP : se_params se = pf) by (rewrite ES; reflexivity). assert (EI : se_scan se = map r_scan l) by (rewrite ES, EL; reflexivity). clear ES.
  assert (Fs : Forall (shaped names 1) (map r_params l)) by (apply Forall_map; eapply Forall_impl; [|exact K]; intros r1 H; exact (proj1 (complete_shaped names r1 H))).
  pose proof (shaped_concat names (map r_params l) Fs pf EC) as (A1 & _ & A3). rewrite map_length in A3. rewrite <- EP in A1, A3.
  assert (Lx : List.length x = List.length l) by (destruct X as [(_ & -> & _)|(_ & _ & L & _)]; [now rewrite !map_length|exact L]).
  destruct (range_panels strptime se names params us x_format x xl Cl A1) as (panels & H1 & H2 & H3).
  - rewrite Lx. exact A3.
  - exact P.
  - exact U.
  - destruct X as [(X & -> & ->)|(-> & D & _ & ->)]; [|cbn [String.eqb Ascii.eqb Bool.eqb]; rewrite D; reflexivity]. rewrite EI. destruct (String.eqb_spec x_format "time") as [Q|Q]; [|reflexivity].
    destruct X as [X|X]; [contradiction|]. unfold delta_t. replace (existsb _ (se_time se)) with true; [reflexivity|]. symmetry. apply existsb_exists. exists None. split; [exact X|reflexivity].
  - exists panels. split; [exact H1|]. split; [exact H2|]. intros i k u Hk Hu. destruct (H3 i k u Hk Hu) as (c & Q1 & Q2 & Q3). exists c. split; [exact Q1|]. split; [congruence|].
    intros j r Hr. rewrite Q3. exact (SC k j r Hr). Qed.

Lemma series_colours erf refl1d m names l se lines a b : fittable refl1d (nn_sample m) -> network_ok m names -> Forall (complete_result names) l -> NoDup names -> series_new l = Ok se ->
  Forall (fun r => r_index r = [r_scan r]) l -> (2 <= List.length l)%nat -> plot_sld_profiles erf se = Ok (lines, (a, b)) ->
  (forall i ln c r, nth_error lines i = Some (ln, c) -> nth_error l i = Some r -> c = colourbar_at a b (IZR (r_scan r))) <-> equidistant (map r_scan l).
Proof. intros F N K D E I L2 H. destruct (plotted_profiles erf refl1d m names l se F N K D E I) as (lines' & first & last & H1 & H2 & H3 & H4 & H5).
  pose proof (eq_trans (eq_sym H) H1) as Q. injection Q as -> -> ->. clear H H1. destruct (series_new_inv l se E) as (pf & r0 & rest & EC & EL & ES). assert (EI : se_scan se = map r_scan l) by (rewrite ES, EL; reflexivity). rewrite EI in H3, H4. clear ES EC E.
  assert (Q : (2 <= List.length (map r_scan l))%nat) by (rewrite map_length; exact L2). pose proof H4 as H4'. rewrite <- (map_length r_scan l) in H4'.
  rewrite <- (colours_agree (map r_scan l) first last Q H3 H4'). rewrite map_length. split.
  - intros A i z Hz. rewrite nth_error_map in Hz. destruct (nth_error l i) as [r|] eqn:Hr; [|discriminate]. injection Hz as <-. destruct (H5 i r Hr) as (p & c & _ & Hl & Hc).
    rewrite linspace_nth in Hc by (try exact L2; apply nth_error_Some; rewrite Hr; discriminate). injection Hc as Hc. rewrite Hc. exact (A i _ c r Hl Hr).
  - intros A i ln c r Hl Hr. destruct (H5 i r Hr) as (p & c' & _ & Hl' & Hc). rewrite Hl in Hl'. injection Hl' as -> ->. rewrite linspace_nth in Hc by (try exact L2; apply nth_error_Some; rewrite Hr; discriminate). injection Hc as <-.
    apply A. rewrite nth_error_map, Hr. reflexivity. Qed.
Lemma annotation_rows fmt1 show round6 r k more u c : clean_names (r_sample r) -> right_unit (r_sample r) "x 10$^{-6}$ Å$^{-2}$" k u -> tget (fr_cols (r_params r)) k = Some c -> List.length c <> 1%nat ->
  annotation fmt1 show round6 r (k :: more) = Raise TypeError.
Proof. intros Cn U T L. unfold annotation. cbn [foldM]. rewrite (unit_right _ _ k u Cn U). cbn [bind]. unfold column. rewrite T. cbn [bind]. destruct c as [|z [|]]; [reflexivity|contradiction|reflexivity]. Qed.
