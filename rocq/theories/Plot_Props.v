(** Properties of the plots (C145-C148). *)
From Coq Require Import Reals Lra.
From Coquelicot Require Import Complex.
From Verif Require Import Py Str Sample_Model Sample_Spec Sample_Props Rng Arr Footprint_Model Scan_Model Scan_Spec Scan_Proofs Scan_Props Preproc_Model Preproc_Spec Simulation_Model Simulation_Spec Training_Props
  Fitter_Model Fitter_Spec Fitter_Proofs Fitter_Props FileFitter_Model FileFitter_Spec FileFitter_Proofs FitterValue_Spec Prediction_Model Prediction_Spec Prediction_Props Plot_Model Plot_Spec Plot_Proofs.
Local Open Scope string_scope.
Local Open Scope R_scope.

(** ** C145 *)
Theorem C145_text fmt1 show round6 names r params vs us e : clean_names (r_sample r) -> complete_result names r ->
  Forall2 (fun k v => cell_at (r_params r) k 0 = Some (Some (RtoC v))) params vs -> Forall2 (right_unit (r_sample r) "x 10$^{-6}$ Å$^{-2}$") params us ->
  result_mse round6 r = Ok e ->
  annotation fmt1 show round6 r params = Ok (lines_of (map (fun kvu => entry fmt1 (fst kvu) (fst (snd kvu)) (snd (snd kvu))) (combine params (combine vs us))) ++ "log_mse: " ++ show e).
Proof. exact (annotation_text fmt1 show round6 names r params vs us e). Qed.
Print Assumptions C145_text.
Theorem C145_curves fmt1 show show_z round6 r params text : List.length (r_corrected r) = List.length (r_q r) -> List.length (r_refl r) = List.length (r_q r) ->
  annotation fmt1 show round6 r params = Ok text ->
  plot_prediction fmt1 show show_z round6 r params = Ok ([mkLine fl fl "data" (r_q r) (r_corrected r); mkLine fl fl "prediction" (r_q r) (r_refl r)],
    "Prediction of scan #" ++ show_z (r_scan r) ++ " (" ++ match r_time r with Some t => t | None => "None" end ++ ")", text).
Proof. exact (prediction_plot fmt1 show show_z round6 r params text). Qed.
Print Assumptions C145_curves.
Theorem C145_known fmt1 show round6 r params t : annotation fmt1 show round6 r params = Ok t -> Forall (fun k => exists z, cell_at (r_params r) k 0 = Some z) params.
Proof. exact (annotation_known fmt1 show round6 r params t). Qed.
Print Assumptions C145_known.
(** Curves of another length than the q values, and tables without exactly one row, are refused. *)
Theorem C145_lengths fmt1 show show_z round6 r params : List.length (r_corrected r) <> List.length (r_q r) \/ List.length (r_refl r) <> List.length (r_q r) ->
  plot_prediction fmt1 show show_z round6 r params = Raise ValueError.
Proof. intros H. unfold plot_prediction, draw. destruct (Nat.eqb_spec (List.length (r_q r)) (List.length (r_corrected r))) as [E1|E1]; [|reflexivity]. cbn [bind].
  destruct (Nat.eqb_spec (List.length (r_q r)) (List.length (r_refl r))) as [E2|E2]; [|reflexivity]. exfalso. destruct H as [H|H]; congruence. Qed.
Print Assumptions C145_lengths.
Theorem C145_rows fmt1 show round6 r k more u c : clean_names (r_sample r) -> right_unit (r_sample r) "x 10$^{-6}$ Å$^{-2}$" k u -> tget (fr_cols (r_params r)) k = Some c -> List.length c <> 1%nat ->
  annotation fmt1 show round6 r (k :: more) = Raise TypeError.
Proof. exact (annotation_rows fmt1 show round6 r k more u c). Qed.
Print Assumptions C145_rows.
(** A layer whose own name contains "thickness" or "roughness": its scattering length density is shown as a length. *)
Theorem C145_unit_refuted fmt1 show round6 e : exists r k v, complete_result [k] r /\ sld_label (r_sample r) k /\ cell_at (r_params r) k 0 = Some (Some (RtoC v)) /\
  (result_mse round6 r = Ok e -> annotation fmt1 show round6 r [k] = Ok (entry fmt1 k v "Å" ++ "log_mse: " ++ show e)).
Proof. exists (mkResult 1 None [] [] [] [] (mkFrame 1 [("thickness_monitor_sld", [Some (RtoC 20)])]) [1%Z] None
    (mkStructure ex_amb ex_sub [mkLayer KLayer "thickness_monitor" (l_thickness ex_film) (l_roughness ex_film) (l_sld ex_film)])), "thickness_monitor_sld", 20.
  split; [split; [reflexivity|split; [reflexivity|constructor; [eexists; reflexivity|constructor]]]|].
  split; [eexists; split; [right; left; reflexivity|reflexivity]|]. split; [reflexivity|]. intros E. unfold annotation. cbn [foldM]. unfold column. cbn [r_params fr_cols tget]. cbn [column_float String.eqb Ascii.eqb Bool.eqb option_map fst RtoC]. cbn [bind]. rewrite E. reflexivity. Qed.
Print Assumptions C145_unit_refuted.
Definition ax_result : fit_result :=
  mkResult 7 (Some "now") (map Some [1; 1]) (map Some [1; 2]) (map Some [10; 1]) [1; 2] (mkFrame 1 (map (fun k => (k, [Some (RtoC 3)])) Training_Props.ex_names)) [7]%Z None ex_sample.
Example C145_example fmt1 show show_z : exists e, plot_prediction fmt1 show show_z (fun x => x) ax_result ["film_thickness"; "film_sld"] =
  Ok ([mkLine fl fl "data" (map Some [1; 2]) (map Some [1; 1]); mkLine fl fl "prediction" (map Some [1; 2]) (map Some [10; 1])], "Prediction of scan #" ++ show_z 7%Z ++ " (now)",
      (entry fmt1 "film_thickness" 3 "Å" ++ entry fmt1 "film_sld" 3 "x 10$^{-6}$ Å$^{-2}$" ++ "log_mse: " ++ show e)).
Proof. destruct (result_mse (fun x => x) ax_result) as [e|x] eqn:E; [|discriminate]. exists e.
  assert (A : annotation fmt1 show (fun x => x) ax_result ["film_thickness"; "film_sld"] = Ok (entry fmt1 "film_thickness" 3 "Å" ++ entry fmt1 "film_sld" 3 "x 10$^{-6}$ Å$^{-2}$" ++ "log_mse: " ++ show e)).
  { rewrite (C145_text fmt1 show (fun x => x) Training_Props.ex_names ax_result ["film_thickness"; "film_sld"] [3; 3] ["Å"; "x 10$^{-6}$ Å$^{-2}$"] e).
    - cbn [combine map fst snd lines_of fold_right]. now rewrite append_nil_r, !append_assoc.
    - exact (proj1 (proj2 ex_fittable)).
    - split; [reflexivity|]. split; [reflexivity|]. apply Forall_map, Forall_forall. intros k _. eexists. reflexivity.
    - repeat constructor.
    - constructor; [left; split; [left; eexists; split; [right; right; left; reflexivity|reflexivity]|reflexivity]|]. constructor; [|constructor].
      right; split; [eexists; split; [right; right; left; reflexivity|reflexivity]|reflexivity].
    - exact E. }
  rewrite (C145_curves fmt1 show show_z (fun x => x) ax_result _ _ eq_refl eq_refl A). reflexivity. Qed.

(** ** C146 *)
(** One panel per parameter, from top to bottom; the points are the values of the results, over the scan number or the minutes. *)
Theorem C146_panels strptime names l se params us x_format x xl : clean_names (se_sample se) -> NoDup names -> Forall (complete_result names) l -> series_new l = Ok se ->
  Forall (fun k => In k names) params -> Forall2 (right_unit (se_sample se) "10$^{-6}$ Å$^{-2}$") params us ->
  ((x_format <> "time" \/ In None (se_time se)) /\ x = map IZR (map r_scan l) /\ xl = "Scan") \/ (x_format = "time" /\ delta_t strptime se = Ok (Some x) /\ List.length x = List.length l /\ xl = "Time [min]") ->
  exists panels, plot_parameter_range strptime se params x_format = Ok (xl, panels) /\ List.length panels = List.length params /\
    forall i k u, nth_error params i = Some k -> nth_error us i = Some u -> exists c, nth_error panels i = Some ((i + 1)%nat, mkLine R cell (k ++ " [" ++ u ++ "]") x c) /\
      List.length c = List.length l /\ forall j r, nth_error l j = Some r -> nth_error c j = cell_at (r_params r) k 0.
Proof. exact (series_panels strptime names l se params us x_format x xl). Qed.
Print Assumptions C146_panels.
(** The documented values 'thickness', 'roughness' and 'sld' are refused. *)
Theorem C146_documented_refuted strptime se k x_format : In k ["thickness"; "roughness"; "sld"] -> ~ In k (map fst (fr_cols (se_params se))) -> (x_format <> "time" \/ In None (se_time se)) ->
  plot_parameter_range strptime se [k] x_format = Raise KeyError.
Proof. exact (unknown_panel strptime se k x_format). Qed.
Print Assumptions C146_documented_refuted.
Lemma px_complete n x : complete_result Training_Props.ex_names (Prediction_Props.px_result n x).
Proof. split; [cbn [Prediction_Props.px_result r_params fr_cols]; rewrite map_map; apply map_id|]. split; [reflexivity|]. apply Forall_map, Forall_forall. intros k _. eexists. reflexivity. Qed.
Lemma px_nodup : NoDup Training_Props.ex_names.
Proof. repeat constructor; cbn; intuition discriminate. Qed.
Example C146_example strptime : exists se c, series_new [Prediction_Props.px_result 4 1; Prediction_Props.px_result 6 2] = Ok se /\
  plot_parameter_range strptime se ["film_sld"] "time" = Ok ("Scan", [(1%nat, mkLine R cell "film_sld [10$^{-6}$ Å$^{-2}$]" [4; 6] c)]) /\ nth_error c 1 = Some (Some (RtoC 2)) /\
  plot_parameter_range strptime se ["sld"] "scan" = Raise KeyError.
Proof. destruct (series_new [Prediction_Props.px_result 4 1; Prediction_Props.px_result 6 2]) as [se|e] eqn:E; [|discriminate]. exists se.
  destruct (C146_panels strptime Training_Props.ex_names [Prediction_Props.px_result 4 1; Prediction_Props.px_result 6 2] se ["film_sld"] ["10$^{-6}$ Å$^{-2}$"] "time" [4; 6] "Scan") as (panels & H1 & H2 & H3).
  - injection E as <-. exact (proj1 (proj2 ex_fittable)).
  - exact px_nodup.
  - constructor; [apply px_complete|]. constructor; [apply px_complete|]. constructor.
  - exact E.
  - constructor; [cbn; tauto|constructor].
  - constructor; [|constructor]. right. injection E as <-. split; [eexists; split; [right; right; left; reflexivity|reflexivity]|reflexivity].
  - left. split; [right; injection E as <-; left; reflexivity|]. split; reflexivity.
  - destruct (H3 0%nat _ _ eq_refl eq_refl) as (c & P1 & _ & P3). exists c. destruct panels as [|p [|]]; try discriminate. injection P1 as ->. split; [reflexivity|]. split; [exact H1|]. split; [exact (P3 1%nat _ eq_refl)|].
    apply C146_documented_refuted; [cbn; tauto| |left; discriminate]. injection E as <-. vm_compute. intuition discriminate. Qed.

(** ** C147 *)
Theorem C147_one_profile erf r p : result_profile erf r = Ok p -> plot_sld_profile erf r = Ok (mkLine R (option R) "" (fst p) (snd p)).
Proof. exact (plotted_profile erf r p). Qed.
Print Assumptions C147_one_profile.
Theorem C147_profiles erf refl1d m names l se : fittable refl1d (nn_sample m) -> network_ok m names -> Forall (complete_result names) l -> NoDup names -> series_new l = Ok se ->
  Forall (fun r => r_index r = [r_scan r]) l ->
  exists lines first last, plot_sld_profiles erf se = Ok (lines, (IZR first, IZR last)) /\ List.length lines = List.length l /\
    nth_error (se_scan se) 0 = Some first /\ nth_error (se_scan se) (List.length l - 1) = Some last /\
    forall i r, nth_error l i = Some r -> exists p c, result_profile erf r = Ok p /\ nth_error lines i = Some (mkLine R (option R) "" (fst p) (snd p), c) /\ nth_error (linspace01 (List.length l)) i = Some c.
Proof. exact (plotted_profiles erf refl1d m names l se). Qed.
Print Assumptions C147_profiles.
(** The colour bar tells the scan of every profile exactly if the scan numbers are ascending with constant distance. *)
Theorem C147_colours erf refl1d m names l se lines a b : fittable refl1d (nn_sample m) -> network_ok m names -> Forall (complete_result names) l -> NoDup names -> series_new l = Ok se ->
  Forall (fun r => r_index r = [r_scan r]) l -> (2 <= List.length l)%nat -> plot_sld_profiles erf se = Ok (lines, (a, b)) ->
  (forall i ln c r, nth_error lines i = Some (ln, c) -> nth_error l i = Some r -> c = colourbar_at a b (IZR (r_scan r))) <-> equidistant (map r_scan l).
Proof. exact (series_colours erf refl1d m names l se lines a b). Qed.
Print Assumptions C147_colours.
Lemma px_series_lines erf l : Forall (fun r => exists n x, r = Prediction_Props.px_result n x) l -> l <> [] ->
  exists se lines a b, series_new l = Ok se /\ plot_sld_profiles erf se = Ok (lines, (a, b)) /\ List.length lines = List.length l /\
    ((2 <= List.length l)%nat -> (forall i ln c r, nth_error lines i = Some (ln, c) -> nth_error l i = Some r -> c = colourbar_at a b (IZR (r_scan r))) <-> equidistant (map r_scan l)).
Proof. intros F N. assert (K : Forall (complete_result Training_Props.ex_names) l) by (eapply Forall_impl; [|exact F]; intros r (n & x & ->); apply px_complete).
  assert (I : Forall (fun r => r_index r = [r_scan r]) l) by (eapply Forall_impl; [|exact F]; intros r (n & x & ->); reflexivity).
  destruct (series_new l) as [se|e] eqn:E; [|destruct l; [contradiction|discriminate]].
  destruct (C147_profiles erf None ex_nn _ l se ex_fittable ex_network K px_nodup E I) as (lines & first & last & H1 & H2 & _). exists se, lines, (IZR first), (IZR last). split; [reflexivity|]. split; [exact H1|]. split; [exact H2|].
  intros L. exact (C147_colours erf None ex_nn _ l se lines _ _ ex_fittable ex_network K px_nodup E I L H1). Qed.
(** The scans 1, 2 and 10 (a range in which other scans were skipped), and scans in descending order *)
Theorem C147_colours_refuted erf zs : zs = [1; 2; 10]%Z \/ zs = [3; 2; 1]%Z ->
  exists l se lines a b, map r_scan l = zs /\ series_new l = Ok se /\ plot_sld_profiles erf se = Ok (lines, (a, b)) /\
    ~ forall i ln c r, nth_error lines i = Some (ln, c) -> nth_error l i = Some r -> c = colourbar_at a b (IZR (r_scan r)).
Proof. intros Z. destruct (px_series_lines erf (map (fun n => Prediction_Props.px_result n 1) zs)) as (se & lines & a & b & E & H & _ & A).
  - apply Forall_map, Forall_forall. intros n _. eauto.
  - destruct Z as [-> | ->]; discriminate.
  - exists (map (fun n => Prediction_Props.px_result n 1) zs), se, lines, a, b. split; [rewrite map_map; apply map_id|]. split; [exact E|]. split; [exact H|].
    rewrite A by (destruct Z as [-> | ->]; cbn; lia). rewrite map_map. intros (z0 & d & D & Q). destruct Z as [-> | ->].
    + pose proof (Q 0%nat 1%Z eq_refl). pose proof (Q 1%nat 2%Z eq_refl). pose proof (Q 2%nat 10%Z eq_refl). lia.
    + pose proof (Q 0%nat 3%Z eq_refl). pose proof (Q 1%nat 2%Z eq_refl). lia. Qed.
Print Assumptions C147_colours_refuted.
(** A series of one result: its profile has the colour of the lower end, while the colour bar shows its number in the middle. *)
Theorem C147_single_refuted erf refl1d m names r se lines a b : fittable refl1d (nn_sample m) -> network_ok m names -> complete_result names r -> NoDup names -> r_index r = [r_scan r] -> series_new [r] = Ok se ->
  plot_sld_profiles erf se = Ok (lines, (a, b)) -> exists ln, lines = [(ln, 0)] /\ colourbar_at a b (IZR (r_scan r)) = 1 / 2.
Proof. intros F N K D I E H. destruct (C147_profiles erf refl1d m names [r] se F N (Forall_cons _ K (Forall_nil _)) D E (Forall_cons _ I (Forall_nil _))) as (lines' & first & last & H' & L & A0 & A1 & P).
  rewrite H in H'. injection H' as <- -> ->. cbn [List.length Nat.sub] in A1. rewrite A0 in A1. injection A1 as <-. destruct (P 0%nat r eq_refl) as (p & c & _ & P1 & P2). cbn in P2. injection P2 as <-.
  destruct lines as [|x [|]]; try discriminate. injection P1 as ->. eexists. split; [reflexivity|]. unfold colourbar_at. destruct (Req_EM_T (IZR first) (IZR first)); [reflexivity|contradiction]. Qed.
Print Assumptions C147_single_refuted.
Example C147_example erf : exists se lines a b, series_new (map (fun n => Prediction_Props.px_result n 1) [4; 6; 8]%Z) = Ok se /\ plot_sld_profiles erf se = Ok (lines, (a, b)) /\ List.length lines = 3%nat /\
  forall ln c, nth_error lines 1 = Some (ln, c) -> c = colourbar_at a b 6.
Proof. destruct (px_series_lines erf (map (fun n => Prediction_Props.px_result n 1) [4; 6; 8]%Z)) as (se & lines & a & b & E & H & L & A).
  - apply Forall_map, Forall_forall. intros n _. eauto.
  - discriminate.
  - exists se, lines, a, b. split; [exact E|]. split; [exact H|]. split; [exact L|]. intros ln c Hc. refine (proj2 (A _) _ 1%nat ln c _ Hc eq_refl); [cbn; lia|].
    exists 4%Z, 2%Z. split; [lia|]. intros [|[|[|i]]] z Hz; cbn in Hz; try (injection Hz as <-; reflexivity). destruct i; discriminate. Qed.

(** ** C148 *)
Theorem C148_all erf show_z q_min q_max l : l <> [] -> Forall (plottable erf) l -> exists lines, plot_series erf show_z l None q_min q_max = Ok (Some lines) /\ Forall2 (shows erf show_z q_min q_max) l lines.
Proof. exact (series_all erf show_z q_min q_max l). Qed.
Print Assumptions C148_all.
Theorem C148_selected erf show_z q_min q_max l idx : l <> [] -> Forall (plottable erf) l -> Forall (fun i => (i < List.length l)%nat) idx ->
  exists lines, plot_series erf show_z l (Some (map Z.of_nat idx)) q_min q_max = Ok (Some lines) /\ Forall2 (fun i ln => exists s, nth_error l i = Some s /\ shows erf show_z q_min q_max s ln) idx lines.
Proof. exact (series_some erf show_z q_min q_max l idx). Qed.
Print Assumptions C148_selected.
Theorem C148_beyond erf show_z q_min q_max l i : l <> [] -> (Z.of_nat (List.length l) <= i)%Z -> plot_series erf show_z l (Some [i]) q_min q_max = Raise IndexError.
Proof. exact (series_beyond erf show_z q_min q_max l i). Qed.
Print Assumptions C148_beyond.
Theorem C148_empty erf show_z r q_min q_max : plot_series erf show_z [] r q_min q_max = Ok None.
Proof. reflexivity. Qed.
Print Assumptions C148_empty.
Theorem C148_append X l (o : scan + X) l' : series_append l o = Ok l' <-> exists s, o = inl s /\ l' = (l ++ [s])%list.
Proof. destruct o as [s|x]; cbn; split.
  - intros H. injection H as <-. eauto.
  - intros (s' & H & ->). injection H as <-. reflexivity.
  - discriminate.
  - intros (s' & H & _). discriminate. Qed.
Print Assumptions C148_append.
Theorem C148_append_refused X l (x : X) : series_append l (inr x) = Raise TypeError.
Proof. reflexivity. Qed.
Print Assumptions C148_append_refused.
(** The plots of a single scan *)
Theorem C148_raw q_min q_max s q : List.length (sc_raw s) = List.length (sc_angle s) -> sc_angle s <> [] -> scan_q s = Ok q ->
  exists ln, plot_raw_intensity s q_min q_max = Ok ln /\ shows_values q_min q_max s "" (sc_raw s) ln.
Proof. exact (raw_shows q_min q_max s q). Qed.
Print Assumptions C148_raw.
Theorem C148_corrected erf q_min q_max s : plottable erf s -> exists c ln, corrected_intensity erf s = Ok c /\ plot_corrected_intensity erf s q_min q_max = Ok ln /\ shows_values q_min q_max s "" c ln.
Proof. exact (corrected_shows erf "" q_min q_max s). Qed.
Print Assumptions C148_corrected.
(** [scan_range] holds positions, not scan numbers: asked for the scan with number 1 it shows another one. *)
Lemma ex_plottable : plottable clip Scan_Props.ex_scan.
Proof. split; [rewrite ex_angle; reflexivity|]. split; [rewrite ex_angle; discriminate|]. split; [eexists; exact ex_q|].
  destruct (corrected_max clip Scan_Props.ex_scan [60; 180] [4; 2]) as (out & H & _); try reflexivity.
  - exact clip_pos.
  - exact ex_geometry.
  - exact ex_angle.
  - exact ex_scattering.
  - repeat constructor; lra.
  - discriminate.
  - eauto. Qed.
Definition numbered (n : Z) : scan := scan_new n (map Some [60; 180]) (map Some [4; 2]) (4 * PI) (Some 1) (Some 4) (Some "box"%string) (Some "max"%string) None.
Lemma numbered_plottable n : plottable clip (numbered n).
Proof. exact ex_plottable. Qed.
Theorem C148_numbers_refuted show_z : exists l s lines, nth_error l 0 = Some s /\ sc_number s = 1%Z /\ plot_series clip show_z l (Some [1%Z]) None None = Ok (Some lines) /\ map ln_label lines = [show_z 2%Z].
Proof. destruct (C148_selected clip show_z None None [numbered 1; numbered 2] [1%nat]) as (lines & E & F).
  - discriminate.
  - repeat constructor; apply numbered_plottable.
  - constructor; [cbn; lia|constructor].
  - exists [numbered 1; numbered 2], (numbered 1), lines. split; [reflexivity|]. split; [reflexivity|]. split; [exact E|]. inversion F as [|? ln ? ? (s & Hs & (c & _ & (q & lo & n & _ & -> & _))) F']; subst. inversion F'; subst. injection Hs as <-. reflexivity. Qed.
Print Assumptions C148_numbers_refuted.
Example C148_example show_z : exists lines, plot_series clip show_z [numbered 5; numbered 9] None None None = Ok (Some lines) /\ map ln_label lines = [show_z 5%Z; show_z 9%Z] /\
  Forall (fun ln => ln_x ln = map Some [1 / 2; 1]) lines.
Proof. destruct (C148_all clip show_z None None [numbered 5; numbered 9]) as (lines & E & F).
  - discriminate.
  - repeat constructor; apply numbered_plottable.
  - exists lines. split; [exact E|]. inversion F as [|? l1 ? ? S1 F1]; subst. inversion F1 as [|? l2 ? ? S2 F2]; subst. inversion F2; subst.
    destruct S1 as (c1 & _ & (q1 & lo1 & n1 & Q1 & E1 & A1 & _)). destruct S2 as (c2 & _ & (q2 & lo2 & n2 & Q2 & E2 & A2 & _)).
    split; [rewrite E1, E2; reflexivity|]. clear E1 E2. constructor; [|constructor; [|constructor]].
    + refine (eq_trans (proj1 (A1 eq_refl eq_refl)) _). pose proof (eq_trans (eq_sym Q1) (ex_q : scan_q (numbered 5) = _)) as Q. injection Q as ->. reflexivity.
    + refine (eq_trans (proj1 (A2 eq_refl eq_refl)) _). pose proof (eq_trans (eq_sym Q2) (ex_q : scan_q (numbered 9) = _)) as Q. injection Q as ->. reflexivity. Qed.
Example C148_limit_example : exists ln, plot_raw_intensity (numbered 5) None (Some 1) = Ok ln /\ ln_x ln = [Some (1 / 2)] /\ ln_y ln = [Some 4].
Proof. destruct (C148_raw None (Some 1) (numbered 5) _ ltac:(rewrite (ex_angle : sc_angle (numbered 5) = _); reflexivity) ltac:(rewrite (ex_angle : sc_angle (numbered 5) = _); discriminate) (ex_q : scan_q (numbered 5) = _)) as (ln & E & (q & lo & n & Q & -> & _ & S)).
  eexists. split; [exact E|]. pose proof (eq_trans (eq_sym Q) (ex_q : scan_q (numbered 5) = _)) as Eq. injection Eq as ->. destruct (S [1 / 2; 1] eq_refl) as (hi & [L H] & ->). cbn in L. subst lo.
  assert (hi = 1%nat). { apply (closest_self [1 / 2; 1] 1 1); [exact ex_increasing|reflexivity|exact H]. } subst hi. split; reflexivity. Qed.
