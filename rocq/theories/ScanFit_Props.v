(** Properties of the peak fits, exports and plots of the P08 tools (C125-C135). *)
From Coq Require Import Reals Lra.
From Verif Require Import Py Str Arr Footprint_Model Spec_Model Fio_Model P08_Model P08_Spec P08Scan_Spec Fio_Proofs P08_Proofs P08Loader_Proofs Combine_Proofs
  ScanFit_Model ScanFit_Spec ScanFit_Proofs ScanFits_Proofs ScanFitGL_Proofs ScanPlot_Proofs.
Local Open Scope R_scope.
Local Open Scope string_scope.

(** ** C125: the Gaussian *)
Theorem C125_gaussian s m i b : s <> 0 -> 0 < i -> exists f : R -> R,
  (forall xs, gauss (points xs) (points [s; m; i; b]) = Ok (graph f xs)) /\
  f m = i / (Rabs s * sqrt (2 * PI)) + b /\
  (forall d, f (m + d) = f (m - d)) /\
  (forall d e, 0 <= d < e -> b < f (m + e) < f (m + d)) /\
  f (m + Rabs s * sqrt (2 * ln 2)) - b = (f m - b) / 2.
Proof. intros Hs Hi. exists (fun x => gauss_peak s m i x + b). split; [intros xs; apply gauss_curve, Hs|]. split; [rewrite (gp_top s m i Hs); reflexivity|].
  split; [intros d; rewrite (gp_sym s m i d); reflexivity|]. split.
  - intros d e H. pose proof (gp_decr s m i Hs Hi d e H). pose proof (gp_pos s m i Hs Hi (m + e)). lra.
  - rewrite (gp_half s m i Hs). lra. Qed.
Print Assumptions C125_gaussian.
Theorem C125_sign_of_width s m i b xs : s <> 0 -> gauss (points xs) (points [- s; m; i; b]) = gauss (points xs) (points [s; m; i; b]).
Proof. intros H. rewrite !gauss_curve by lra. apply (f_equal Ok), graph_ext. intros x. rewrite gp_sign. reflexivity. Qed.
Print Assumptions C125_sign_of_width.
Theorem C125_zero_width m i b xs : gauss (points xs) (points [0; m; i; b]) = Ok (map (fun _ => None) xs).
Proof. exact (gauss_flat m i b xs). Qed.
Print Assumptions C125_zero_width.
Example C125_example : gauss (points [3]) (points [2; 3; sqrt (2 * PI); 1]) = Ok (points [3 / 2]).
Proof. rewrite gauss_curve by lra. apply (f_equal Ok). cbn. rewrite gp_top by lra. pose proof two_pi. rewrite Rabs_right by lra. do 2 f_equal. field. lra. Qed.

(** ** C126: the Lorentzian *)
(** It is even, has its maxima exactly at plus and minus the position, and half of it where the squares differ by the width times the position. *)
Theorem C126_lorentzian_partial w g i b : w <> 0 -> g <> 0 -> 0 < i -> exists f : R -> R,
  (forall xs, lorentzian (points xs) (points [w; g; i; b]) = Ok (graph f xs)) /\
  f w = i / (g * w * (g * w)) + b /\
  (forall x, f (- x) = f x) /\
  (forall x, x <> w -> x <> - w -> f x < f w) /\
  (forall x, x * x = w * w + Rabs (g * w) \/ x * x = w * w - Rabs (g * w) -> f x - b = (f w - b) / 2).
Proof. intros Hw Hg Hi. exists (fun x => resonance w g i x + b). split; [intros xs; apply lorentz_curve; assumption|]. split; [rewrite res_top; reflexivity|]. split; [intros x; rewrite res_even; reflexivity|]. split.
  - intros x H1 H2. assert (x * x <> w * w) by (intros E; assert (Z : (x - w) * (x + w) = 0) by lra; apply Rmult_integral in Z as [Z|Z]; lra). pose proof (res_max w g i Hw Hg Hi x H). lra.
  - intros x H. pose proof (res_half w g i Hw Hg x H). lra. Qed.
Print Assumptions C126_lorentzian_partial.
(** It is not symmetric about its position: it falls faster on the outer side. *)
Theorem C126_symmetric_refuted w g i b d : 0 < w -> g <> 0 -> 0 < i -> 0 < d -> exists u v,
  lorentzian (points [w + d; w - d]) (points [w; g; i; b]) = Ok (points [u; v]) /\ u < v.
Proof. intros Hw Hg Hi Hd. exists (resonance w g i (w + d) + b), (resonance w g i (w - d) + b). split; [apply lorentz_curve; lra|].
  pose proof (res_skew w g i ltac:(lra) Hg Hi d Hw Hd). lra. Qed.
Print Assumptions C126_symmetric_refuted.
(** At position zero there is a pole instead of a peak. *)
Theorem C126_zero_position_refuted g i b : lorentzian (points [0]) (points [0; g; i; b]) = Ok [None].
Proof. exact (f_equal (fun v => Ok [v]) (lorentz_pole 0 g i b 0 ltac:(ring))). Qed.
Print Assumptions C126_zero_position_refuted.
Example C126_example : lorentzian (points [2; 3]) (points [2; 1; 8; 1]) = Ok (points [3; 37 / 29]).
Proof. rewrite lorentz_curve by lra. refine (f_equal (fun l => Ok (points l)) (_ : [resonance 2 1 8 2 + 1; resonance 2 1 8 3 + 1] = [3; 37 / 29])). unfold resonance. f_equal; [|f_equal]; field. Qed.

(** ** C127: sums of peaks *)
Theorem C127_gaussians xs ps b : Forall (fun a => g_width a <> 0) ps ->
  multi_gauss (points xs) (points (List.concat (map g_params ps) ++ [b])) = Ok (graph (fun x => total g_value ps x + b) xs).
Proof. exact (multi_gauss_ok xs ps b). Qed.
Print Assumptions C127_gaussians.
Theorem C127_voigtians xs ps b : Forall v_ok ps ->
  multi_voigt (points xs) (points (List.concat (map v_params ps) ++ [b])) = Ok (graph (fun x => total v_value ps x + b) xs).
Proof. exact (multi_voigt_ok xs ps b). Qed.
Print Assumptions C127_voigtians.
Theorem C127_pair xs w g i a b : w <> 0 -> g <> 0 -> g_width a <> 0 ->
  gauss_lorentzian (points xs) (points ([w; g; i] ++ g_params a ++ [b])) = Ok (graph (fun x => resonance w g i x + g_value a x + b) xs).
Proof. exact (gauss_lorentzian_ok xs w g i a b). Qed.
Print Assumptions C127_pair.
(** The order of the peaks does not matter. *)
Theorem C127_order xs ps ps' b : Forall (fun a => g_width a <> 0) ps -> Permutation ps ps' ->
  multi_gauss (points xs) (points (List.concat (map g_params ps) ++ [b])) = multi_gauss (points xs) (points (List.concat (map g_params ps') ++ [b])).
Proof. intros F Q. rewrite !multi_gauss_ok; [|eapply Permutation_Forall; eassumption|exact F]. apply (f_equal Ok), graph_ext. intros x. rewrite (total_perm gaussian g_value ps ps' x Q). reflexivity. Qed.
Print Assumptions C127_order.
(** Every list of parameters but the empty one has a curve with one value per point. *)
Theorem C127_total x p : p <> [] -> (exists c, multi_gauss x p = Ok c /\ List.length c = List.length x) /\ (exists c, multi_voigt x p = Ok c /\ List.length c = List.length x).
Proof. intros H. exact (conj (multi_gauss_total x p H) (multi_voigt_total x p H)). Qed.
Print Assumptions C127_total.
Example C127_example : multi_gauss (points [3]) (points [2; 3; sqrt (2 * PI); 1; 3; sqrt (2 * PI); 10]) = Ok (points [23 / 2]).
Proof. pose proof (C127_gaussians [3] [(2, 3, sqrt (2 * PI)); (1, 3, sqrt (2 * PI))] 10) as E. cbn [map List.concat g_params app] in E. rewrite E by (repeat constructor; cbn; lra).
  apply (f_equal Ok). cbn. rewrite !gp_top by lra. pose proof two_pi. rewrite !Rabs_right by lra. do 2 f_equal. field. lra. Qed.

(** ** C128: what simpleFit and multiVoigtFit fit and show *)
(** Start values: the first three of every Gaussian in the order of the dictionary, and the fourth one of the last entry.  The background is part of every shown peak, and once in the fit. *)
Theorem C128_simple_fit_partial leastsq s det q xs y peaks b0 ps b : region_data s det q (points xs) y -> List.length y = List.length xs -> last_value 3 peaks b0 ->
  leastsq (simple_residual (points xs) y) (start_of "gauss" 3 peaks ++ [b0])%list = Ok (points (List.concat (map g_params ps) ++ [b])) ->
  Forall (fun a => g_width a <> 0) ps -> List.length (names_of "gauss" peaks) = List.length ps -> NoDup ("data" :: "fit" :: names_of "gauss" peaks) ->
  simple_fit leastsq s det (corners q) peaks =
  Ok (shown "data" y :: shown "fit" (graph (fun x => total g_value ps x + b) xs) :: peak_curves g_value b xs (names_of "gauss" peaks) ps).
Proof. exact (simple_fit_shown leastsq s det q xs y peaks b0 ps b). Qed.
Print Assumptions C128_simple_fit_partial.
Theorem C128_voigt_fit_partial curve_fit s det q xs y peaks b0 ps b : region_data s det q (points xs) y -> List.length y = List.length xs -> last_value 5 peaks b0 ->
  curve_fit (voigt_curve (points xs)) (voigt_target y) (start_of "voigt" 5 peaks ++ [b0])%list = Ok (points (List.concat (map v_params ps) ++ [b])) ->
  Forall v_ok ps -> List.length (names_of "voigt" peaks) = List.length ps -> NoDup ("data" :: "before_fit" :: "log_fit" :: names_of "voigt" peaks) ->
  exists before, multi_voigt (points xs) (start_of "voigt" 5 peaks ++ [b0])%list = Ok before /\
    multi_voigt_fit curve_fit s det (corners q) peaks =
    Ok (Some (shown "data" y :: shown "before_fit" before :: shown "log_fit" (graph (fun x => total v_value ps x + b) xs) :: peak_curves v_value b xs (names_of "voigt" peaks) ps)).
Proof. exact (voigt_fit_shown curve_fit s det q xs y peaks b0 ps b). Qed.
Print Assumptions C128_voigt_fit_partial.
(** A failing fit of mixed peaks is swallowed. *)
Theorem C128_voigt_failure_refuted curve_fit s det q xs y peaks b0 e : region_data s det q (points xs) y -> last_value 5 peaks b0 ->
  curve_fit (voigt_curve (points xs)) (voigt_target y) (start_of "voigt" 5 peaks ++ [b0])%list = Raise e -> multi_voigt_fit curve_fit s det (corners q) peaks = Ok None.
Proof. exact (voigt_fit_failed curve_fit s det q xs y peaks b0 e). Qed.
Print Assumptions C128_voigt_failure_refuted.
(** Without peaks the background cannot be fitted either. *)
Theorem C128_no_peaks_refuted leastsq s det q x y : region_data s det q x y -> simple_fit leastsq s det (corners q) [] = Raise UnboundLocalError.
Proof. exact (simple_fit_empty leastsq s det q x y). Qed.
Print Assumptions C128_no_peaks_refuted.
(** A detector without pictures is refused by all fits. *)
Theorem C128_unknown_detector leastsq curve_fit s det q weights peaks : (forall kv, In kv (f_images s) -> attenuation_fits (dict_get String.eqb (f_data s) "atten_position") (stack_size (snd kv))) ->
  dict_get String.eqb (f_images s) det = None ->
  simple_fit leastsq s det (corners q) peaks = Raise KeyError /\ multi_voigt_fit curve_fit s det (corners q) peaks = Raise KeyError /\ gauss_lorentzian_fit leastsq s det (corners q) peaks weights = Raise KeyError.
Proof. exact (unknown_detector leastsq curve_fit s det q weights peaks). Qed.
Print Assumptions C128_unknown_detector.
(** A peak called "fit" hides the fit: only its own curve is shown under that name. *)
Theorem C128_name_refuted leastsq s det q xs y p b0 g b : region_data s det q (points xs) y -> List.length y = List.length xs -> pk_type p = "gauss" -> nth_error (pk_params p) 3 = Some b0 ->
  leastsq (simple_residual (points xs) y) (start_of "gauss" 3 [("fit", p)] ++ [b0])%list = Ok (points (g_params g ++ [b])) -> g_width g <> 0 ->
  simple_fit leastsq s det (corners q) [("fit", p)] = Ok [shown "data" y; shown "fit" (graph (fun x => g_value g x + b) xs)].
Proof. exact (simple_fit_named_fit leastsq s det q xs y p b0 g b). Qed.
Print Assumptions C128_name_refuted.
(** Two points, a Gaussian, and an entry of another type that only gives the start value of the background *)
Definition px_scan : fscan := mkFscan "" "" None [] [] [] ["om"] [points [3; 5]] ["p100k"] [("p100k", S3 [[points [1; 2]; points [3; 4]]; [points [5; 6]; points [7; 8]]])] None false.
Definition px_peaks : list (string * peak) := [("film", mkPeak "gauss" (points [2; 3; sqrt (2 * PI); 9])); ("other", mkPeak "line" (points [0; 0; 0; 7]))].
Lemma px_region : region_data px_scan "p100k" (0, 0, 2, 1)%nat (points [3; 5]) (attenuated None (sum_in (0, 0, 2, 1)%nat) [[points [1; 2]; points [3; 4]]; [points [5; 6]; points [7; 8]]]).
Proof. split; [intros kv [<-|[]]; exact I|]. split; [eexists; split; reflexivity|]. split; [exists []; reflexivity|discriminate]. Qed.
Lemma px_start : (start_of "gauss" 3 px_peaks ++ [Some 7])%list = points (List.concat (map g_params [(2, 3, sqrt (2 * PI))]) ++ [7]).
Proof. reflexivity. Qed.
Example C128_example : exists y, simple_fit (fun _ p => Ok p) px_scan "p100k" [0; 0; 2; 1]%Z px_peaks = Ok [("data", "-", points [3; 11]); ("fit", "-", y); ("film", ":", y)] /\ nth 0 y None = Some (15 / 2).
Proof. eexists. split.
  - refine (eq_trans (C128_simple_fit_partial (fun _ p => Ok p) px_scan "p100k" (0, 0, 2, 1)%nat [3; 5] _ px_peaks (Some 7) [(2, 3, sqrt (2 * PI))] 7 px_region eq_refl _ (f_equal Ok px_start) _ eq_refl _) _).
    + exists [("film", mkPeak "gauss" (points [2; 3; sqrt (2 * PI); 9]))], "other", (mkPeak "line" (points [0; 0; 0; 7])). split; reflexivity.
    + repeat constructor. cbn. lra.
    + repeat constructor; cbn; intuition discriminate.
    + apply (f_equal Ok). unfold peak_curves. cbn [names_of px_peaks filter map fst snd combine pk_type String.eqb Ascii.eqb Bool.eqb].
      f_equal; [|f_equal; [|f_equal]].
      * unfold shown. f_equal. cbn -[Rplus IZR]. repeat f_equal; lra.
      * reflexivity.
      * unfold shown. f_equal. apply graph_ext. intros x. unfold total. cbn. ring.
  - cbn [graph map nth]. unfold total. cbn [fold_right g_value]. rewrite gp_top by lra. pose proof two_pi. rewrite Rabs_right by lra. f_equal. field. lra. Qed.

(** ** C129: the fit of one Gaussian and one Lorentzian *)
(** One of each is fitted and shown, in either order. *)
Theorem C129_one_of_each_partial leastsq s det q xs y weights ng nl pg pl g0 g1 g2 rg l0 l1 l2 l3 rl w g i a b first :
  region_data s det q (points xs) y -> List.length y = List.length xs -> pk_type pg = "gauss" -> pk_type pl = "lorentzian" ->
  pk_params pg = g0 :: g1 :: g2 :: rg -> pk_params pl = l0 :: l1 :: l2 :: l3 :: rl -> NoDup ["data"; "fit"; "start"; ng; nl] ->
  leastsq (gl_residual (match weights with Some w => w | None => points [0; 1; 0] end) (points xs) y) [l0; l1; l2; g0; g1; g2; l3] = Ok (points ([w; g; i] ++ g_params a ++ [b])) ->
  w <> 0 -> g <> 0 -> g_width a <> 0 ->
  exists start, gauss_lorentzian (points xs) [l0; l1; l2; g0; g1; g2; l3] = Ok start /\
    let gs := shown ng (graph (fun x => g_value a x + b) xs) in let ls := shown nl (graph (fun x => resonance w g i x + b) xs) in
    gauss_lorentzian_fit leastsq s det (corners q) (if first : bool then [(ng, pg); (nl, pl)] else [(nl, pl); (ng, pg)]) weights =
    Ok ([shown "data" y; shown "fit" (graph (fun x => resonance w g i x + g_value a x + b) xs); shown "start" start] ++ (if first then [gs; ls] else [ls; gs]))%list.
Proof. intros D L Tg Tl Pg Pl N E Hw Hg Ha. destruct first.
  - destruct (gl_fit_shown leastsq s det q xs y weights D L w g i b a Hw Hg Ha ng pg nl pl _ (gl_start_gl ng nl pg pl g0 g1 g2 l0 l1 l2 l3 rg rl Tg Tl Pg Pl) eq_refl E N) as (c & Ec & K).
    exists c. split; [exact Ec|]. rewrite K. unfold entry_curve. rewrite Tg, Tl. reflexivity.
  - destruct (gl_fit_shown leastsq s det q xs y weights D L w g i b a Hw Hg Ha nl pl ng pg _ (gl_start_lg ng nl pg pl g0 g1 g2 l0 l1 l2 l3 rg rl Tg Tl Pg Pl) eq_refl E) as (c & Ec & K).
    + refine (Permutation_NoDup _ N). do 3 apply perm_skip. apply perm_swap.
    + exists c. split; [exact Ec|]. rewrite K. unfold entry_curve. rewrite Tg, Tl. reflexivity. Qed.
Print Assumptions C129_one_of_each_partial.
(** Two Gaussians, or another number of peaks, are refused ... *)
Theorem C129_refused_partial leastsq s det q x y weights peaks : region_data s det q x y ->
  List.length peaks <> 2%nat \/ (exists na nb pa pb, peaks = [(na, pa); (nb, pb)] /\ pk_type pa = "gauss" /\ pk_type pb = "gauss") ->
  gauss_lorentzian_fit leastsq s det (corners q) peaks weights = Raise ValueError.
Proof. intros D H. assert (E : gl_start peaks = Raise ValueError) by (destruct H as [H|(na & nb & pa & pb & -> & Ta & Tb)]; [apply gl_start_number, H|apply gl_start_gg; assumption]).
  unfold gauss_lorentzian_fit. rewrite (fit_data_ok _ _ _ _ _ D). cbn [bind]. rewrite E. reflexivity. Qed.
Print Assumptions C129_refused_partial.
(** ... but two Lorentzians are not: the second one is fitted together with a Gaussian of width zero, and shown under both names. *)
Theorem C129_two_lorentzians_refuted leastsq s det q xs y weights na nb pa pb a0 a1 a2 a3 ra b0 b1 b2 b3 rb w g i a b :
  region_data s det q (points xs) y -> List.length y = List.length xs -> pk_type pa = "lorentzian" -> pk_type pb = "lorentzian" ->
  pk_params pa = a0 :: a1 :: a2 :: a3 :: ra -> pk_params pb = b0 :: b1 :: b2 :: b3 :: rb -> NoDup ["data"; "fit"; "start"; na; nb] ->
  leastsq (gl_residual (match weights with Some w => w | None => points [0; 1; 0] end) (points xs) y) [b0; b1; b2; Some 0; Some 0; Some 0; b3] = Ok (points ([w; g; i] ++ g_params a ++ [b])) ->
  w <> 0 -> g <> 0 -> g_width a <> 0 ->
  exists start, gauss_lorentzian_fit leastsq s det (corners q) [(na, pa); (nb, pb)] weights =
    Ok [shown "data" y; shown "fit" (graph (fun x => resonance w g i x + g_value a x + b) xs); shown "start" start;
        shown na (graph (fun x => resonance w g i x + b) xs); shown nb (graph (fun x => resonance w g i x + b) xs)].
Proof. intros D L Ta Tb Pa Pb N E Hw Hg Ha.
  destruct (gl_fit_shown leastsq s det q xs y weights D L w g i b a Hw Hg Ha na pa nb pb _ (gl_start_ll na nb pa pb _ _ _ _ _ _ _ _ _ _ Ta Tb Pa Pb) eq_refl E N) as (c & Ec & K).
  exists c. rewrite K. unfold entry_curve. rewrite Ta, Tb. reflexivity. Qed.
Print Assumptions C129_two_lorentzians_refuted.
Example C129_example : exists start f fg fl, gauss_lorentzian_fit (fun _ p => Ok p) px_scan "p100k" [0; 0; 2; 1]%Z
    [("substrate", mkPeak "lorentzian" (points [1; 1; 8; 7])); ("film", mkPeak "gauss" (points [2; 3; 1; 9]))] None =
  Ok [("data", "-", points [3; 11]); ("fit", "-", f); ("start", "-", start); ("substrate", ":", fl); ("film", ":", fg)].
Proof. destruct (C129_one_of_each_partial (fun _ p => Ok p) px_scan "p100k" (0, 0, 2, 1)%nat [3; 5] _ None "film" "substrate" (mkPeak "gauss" (points [2; 3; 1; 9])) (mkPeak "lorentzian" (points [1; 1; 8; 7]))
    (Some 2) (Some 3) (Some 1) [Some 9] (Some 1) (Some 1) (Some 8) (Some 7) [] 1 1 8 (2, 3, 1) 7 false px_region eq_refl eq_refl eq_refl eq_refl eq_refl) as (start & _ & E); try (cbn; lra).
  - repeat constructor; cbn; intuition discriminate.
  - reflexivity.
  - eexists start, _, _, _. refine (eq_trans E _). apply (f_equal Ok). cbn [app]. f_equal; [|reflexivity]. unfold shown. f_equal. cbn -[Rplus IZR]. repeat f_equal; lra. Qed.

(** ** C130: the residuals vanish exactly for a perfect fit *)
Theorem C130_simple_partial x p fs ys : multi_gauss x p = Ok (points fs) -> List.length fs = List.length ys -> Forall (fun f => 0 < f) fs -> Forall (fun v => 0 < v) ys ->
  exists rs, simple_residual x (points ys) p = Ok (points rs) /\ (Forall (fun r => r = 0) rs <-> fs = ys).
Proof. exact (simple_residual_zero x p fs ys). Qed.
Print Assumptions C130_simple_partial.
Theorem C130_pair_partial lo hi h xs p fs ys : gauss_lorentzian (points xs) p = Ok (points fs) -> List.length fs = List.length ys -> List.length xs = List.length ys ->
  Forall (fun f => 0 < f + 1) fs -> Forall (fun v => 0 < v + 1) ys -> h + 1 <> 0 ->
  exists rs, gl_residual (points [lo; hi; h]) (points xs) (points ys) p = Ok (points rs) /\ (Forall (fun r => r = 0) rs <-> fs = ys).
Proof. exact (gl_residual_zero lo hi h xs p fs ys). Qed.
Print Assumptions C130_pair_partial.
(** Points between the limits have the weight 1 + h, all others 1. *)
Theorem C130_weights lo hi h xs p fs ys : gauss_lorentzian (points xs) p = Ok (points fs) -> List.length fs = List.length ys -> List.length xs = List.length ys ->
  Forall (fun f => 0 < f + 1) fs -> Forall (fun v => 0 < v + 1) ys ->
  gl_residual (points [lo; hi; h]) (points xs) (points ys) p =
  Ok (points (map (fun wr => fst wr * snd wr) (combine (map (point_weight lo hi h) xs) (map (fun fy => Rabs (lg (fst fy + 1) - lg (snd fy + 1))) (combine fs ys))))).
Proof. exact (gl_residual_value lo hi h (points xs) xs p fs ys eq_refl). Qed.
Print Assumptions C130_weights.
(** multiVoigtFit compares log10(curve + 1) with log10(data + 0.1): a perfect fit is 0.9 below the data. *)
Theorem C130_voigt_refuted x p fs ys : multi_voigt x p = Ok (points fs) -> Forall (fun f => 0 < f + 1) fs -> Forall (fun v => 0 < v + 1 / 10) ys ->
  (voigt_curve x p = Ok (voigt_target (points ys)) <-> fs = map (fun v => v - 9 / 10) ys).
Proof. exact (voigt_match x p fs ys). Qed.
Print Assumptions C130_voigt_refuted.
Example C130_example : simple_residual (points [3]) (points [8]) (points [2; 3; sqrt (2 * PI); 15 / 2]) = Ok (points [0]) /\ voigt_curve (points [3]) (points [3]) <> Ok (voigt_target (points [3])).
Proof. split.
  - assert (E : multi_gauss (points [3]) (points [2; 3; sqrt (2 * PI); 15 / 2]) = Ok (points [8])).
    { pose proof (C127_gaussians [3] [(2, 3, sqrt (2 * PI))] (15 / 2)) as E. cbn [map List.concat g_params app] in E. rewrite E by (repeat constructor; cbn; lra).
      apply (f_equal Ok). cbn. rewrite gp_top by lra. pose proof two_pi. rewrite Rabs_right by lra. do 2 f_equal. field. lra. }
    rewrite (simple_residual_value _ _ [8] [8] E eq_refl) by (repeat constructor; lra). cbn [combine map fst snd]. rewrite Rminus_diag_eq, Rabs_R0 by reflexivity. reflexivity.
  - intros H. pose proof (C127_voigtians [3] [] 3 ltac:(constructor)) as E. cbn [map List.concat app] in E.
    apply (C130_voigt_refuted _ _ [3] [3]) in H; [injection H as H; lra| |repeat constructor; lra|repeat constructor; lra]. rewrite E. cbn. do 3 f_equal. ring. Qed.

(** ** C131: multiFit *)
(** The fitted function takes its arguments in the wrong order: multiFit fails for all scans and peaks, if scipy evaluates the function at least once. *)
Theorem C131_multi_fit_refuted curve_fit_one s det roi peaks : (forall f x y p, curve_fit_one f x y = Ok p -> exists v c, f x v = Ok c) ->
  exists e, multi_fit curve_fit_one s det roi peaks = Raise e.
Proof. intros H. destruct (multi_fit curve_fit_one s det roi peaks) as [out|e] eqn:E; [|exists e; reflexivity]. exfalso. exact (multi_fit_fails curve_fit_one s det roi peaks out H E). Qed.
Print Assumptions C131_multi_fit_refuted.
Example C131_example : multi_fit (fun f x _ => f x (Some 1)) px_scan "p100k" [0; 0; 2; 1]%Z px_peaks = Raise TypeError.
Proof. change [0; 0; 2; 1]%Z with (corners (0, 0, 2, 1)%nat). unfold multi_fit. rewrite (fit_data_ok px_scan "p100k" (0, 0, 2, 1)%nat _ _ px_region). reflexivity. Qed.

(** ** C132: exported files *)
Theorem C132_export_partial fmt4 fmt6 fs s det q file name n x imgs bck : pictures_of s det imgs -> motor_column s name n x ->
  exists fs', export2ascii fmt4 fmt6 fs s det (corners q) file name (option_map corners bck) = Ok fs' /\
    dict_get String.eqb fs' file = Some (text_lines fmt4 fmt6 x (match bck with None => sums_in s q imgs | Some b => entrywise fsub (sums_in s q imgs) (sums_in s b imgs) end)) /\
    (forall f, f <> file -> dict_get String.eqb fs' f = dict_get String.eqb fs f).
Proof. intros P M. eexists. split; [exact (export_ok fmt4 fmt6 fs s det q file name n x imgs bck P M)|]. split; [rewrite Utils_Proofs.get_set, String.eqb_refl; reflexivity|].
  intros f Hf. rewrite Utils_Proofs.get_set. destruct (String.eqb file f) eqn:E; [apply String.eqb_eq in E; congruence|reflexivity]. Qed.
Print Assumptions C132_export_partial.
(** One line per point if there is one picture per point; surplus points or pictures are dropped. *)
Theorem C132_lines fmt4 fmt6 s q x imgs : List.length (text_lines fmt4 fmt6 x (sums_in s q imgs)) = Nat.min (List.length x) (List.length imgs).
Proof. rewrite lines_count. unfold sums_in. rewrite attenuated_length. reflexivity. Qed.
Print Assumptions C132_lines.
(** An unknown motor is not refused: the first motor is written instead. *)
Theorem C132_unknown_motor_refuted fmt4 fmt6 fs s det roi file m bck : ~ In m (f_motor_names s) ->
  export2ascii fmt4 fmt6 fs s det roi file (Some m) bck = export2ascii fmt4 fmt6 fs s det roi file None bck.
Proof. exact (export_unknown fmt4 fmt6 fs s det roi file m bck). Qed.
Print Assumptions C132_unknown_motor_refuted.
Definition px_number (x : fl) : string := match x with Some _ => "number" | None => "nan" end.
Example C132_example : export2ascii px_number px_number [] px_scan "p100k" [0; 0; 2; 1]%Z "out.txt" (Some "om") (Some [0; 1; 2; 2]%Z) = Ok [("out.txt", ["number number"; "number number"])].
Proof. refine (eq_trans (export_ok px_number px_number [] px_scan "p100k" (0, 0, 2, 1)%nat "out.txt" (Some "om") "om" (points [3; 5]) [[points [1; 2]; points [3; 4]]; [points [5; 6]; points [7; 8]]] (Some (0, 1, 2, 2)%nat) _ _) _).
  - split; [intros kv [<-|[]]; exact I|reflexivity].
  - exists 0%nat. repeat split. intros [].
  - reflexivity. Qed.

(** ** C133: pictures written to a file *)
(** The pictures of the first detector; profiles of a line detector cannot be written. *)
Theorem C133_written m file s det more imgs : f_detectors s = det :: more -> dict_get String.eqb (f_images s) det = Some (S3 imgs) ->
  exists m', write_hdf m file s = Ok m' /\ dict_get String.eqb (m_stacks m') file = Some imgs /\ (forall f, f <> file -> dict_get String.eqb (m_stacks m') f = dict_get String.eqb (m_stacks m) f) /\
    m_images m' = m_images m /\ m_raw m' = m_raw m.
Proof. intros Ed Ei. eexists. split; [exact (write_hdf_ok m file s det more imgs Ed Ei)|]. cbn [m_stacks m_images m_raw]. split; [rewrite Utils_Proofs.get_set, String.eqb_refl; reflexivity|].
  split; [|split; reflexivity]. intros f Hf. rewrite Utils_Proofs.get_set. destruct (String.eqb file f) eqn:E; [apply String.eqb_eq in E; congruence|reflexivity]. Qed.
Print Assumptions C133_written.
Theorem C133_line_detector_refuted m file s det more lines : f_detectors s = det :: more -> dict_get String.eqb (f_images s) det = Some (S2 lines) -> write_hdf m file s = Raise IndexError.
Proof. exact (write_hdf_line m file s det more lines). Qed.
Print Assumptions C133_line_detector_refuted.
Theorem C133_no_pictures m file s : (f_detectors s = [] -> write_hdf m file s = Raise IndexError) /\
  (forall det more, f_detectors s = det :: more -> dict_get String.eqb (f_images s) det = None -> write_hdf m file s = Raise KeyError).
Proof. unfold write_hdf. split; [intros ->; reflexivity|]. intros det more -> E. cbn. rewrite E. reflexivity. Qed.
Print Assumptions C133_no_pictures.
(** Combined scans can be written: every pixel is the one of the last region that covers it, times its attenuation. *)
Theorem C133_combined_written m file det more h w n la ls : Forall (fun la => layer_ok det h w n (la_scan la) (la_images la) (la_atten la)) (la :: ls) -> f_detectors (la_scan la) = det :: more ->
  exists scans c m' out, combine_scan_image_regions (map la_scan (la :: ls)) (map (fun la => corners (la_area la)) (la :: ls)) = Ok (scans, c) /\ write_hdf m file c = Ok m' /\
    dict_get String.eqb (m_stacks m') file = Some out /\ List.length out = n /\ Forall (sized h w) out /\
    forall k y x, (k < n)%nat -> (y < h)%nat -> (x < w)%nat ->
      pixel (nth k out []) y x = composite (map (fun la => (la_area la, brighter (nth k (la_atten la) None) (nth k (la_images la) []))) (la :: ls)) y x.
Proof. intros F Ed. destruct (combine_ok det more h w n la ls F Ed) as (out & E & L & S & K). eexists _, _, _, out. split; [exact E|].
  split; [apply (write_hdf_ok m file _ det [] out); [reflexivity|cbn; rewrite String.eqb_refl; reflexivity]|]. cbn [m_stacks]. split; [rewrite Utils_Proofs.get_set, String.eqb_refl; reflexivity|]. exact (conj L (conj S K)). Qed.
Print Assumptions C133_combined_written.
Example C133_example : write_hdf (mkMedia [] [] []) "out.h5" px_scan = Ok (mkMedia [] [("out.h5", [[points [1; 2]; points [3; 4]]; [points [5; 6]; points [7; 8]]])] []).
Proof. reflexivity. Qed.

(** ** C134: the panels of plotRois *)
(** Every panel of a region shows the intensity per pixel minus the background per pixel, against the chosen motor. *)
Theorem C134_region_partial s det rois imgs name xname x panels p : pictures_of s det imgs -> motor_column s name xname x -> NoDup ("all" :: map fst rois) -> Forall (fun kq => proper (snd kq)) rois ->
  List.length x = List.length imgs -> plot_rois s det (map (fun kq => (fst kq, corners (snd kq))) rois) name = Ok panels -> In p panels ->
  pn_x p = x /\ pn_xlabel p = xname /\ pn_ylabel p <> "background" /\
  forall q, In (pn_ylabel p, q) rois -> pn_y p = entrywise fsub (per (pixels q) (sums_in s q imgs)) (background_of s rois imgs).
Proof. exact (fun P M N W L => panel_region s det rois imgs name xname x P M N W L panels p). Qed.
Print Assumptions C134_region_partial.
(** The panel of the whole picture is divided by the number of pictures instead of the number of pixels. *)
Theorem C134_all_refuted s det rois imgs name xname x panels p : pictures_of s det imgs -> motor_column s name xname x -> NoDup ("all" :: map fst rois) -> Forall (fun kq => proper (snd kq)) rois ->
  List.length x = List.length imgs -> plot_rois s det (map (fun kq => (fst kq, corners (snd kq))) rois) name = Ok panels -> In p panels ->
  pn_ylabel p = "all" -> pn_y p = entrywise fsub (per (List.length imgs) (sums_all s imgs)) (background_of s rois imgs).
Proof. exact (fun P M N W L => panel_all s det rois imgs name xname x P M N W L panels p). Qed.
Print Assumptions C134_all_refuted.
(** Without regions there is one panel: the whole pictures, divided by their number. *)
Example C134_example : exists p, plot_rois px_scan "p100k" [] None = Ok [p] /\ pn_y p = points [5; 13] /\ pn_ylabel p = "all" /\ pn_xlabel p = "om".
Proof. assert (P : pictures_of px_scan "p100k" [[points [1; 2]; points [3; 4]]; [points [5; 6]; points [7; 8]]]) by (split; [intros kv [<-|[]]; exact I|reflexivity]).
  assert (M : motor_column px_scan None "om" (points [3; 5])) by (exists 0%nat; repeat split).
  pose proof (panels_ok px_scan "p100k" [] _ None "om" (points [3; 5]) P M ltac:(repeat constructor; cbn; tauto) ltac:(constructor) eq_refl 1 ltac:(cbn; lia) ltac:(cbn; lia)) as E.
  eexists. split; [exact E|]. cbn [pn_y pn_ylabel pn_xlabel fst snd]. split; [|split; reflexivity].
  unfold panel_y, sums_all. cbn -[Rplus Rminus Rdiv IZR INR Rmult]. destruct (Req_EM_T (INR 2) 0) as [Z|_]; [cbn in Z; lra|]. cbn. repeat f_equal; field. Qed.

(** ** C135: the number of panels of plotRois *)
(** With n panels and k the rounded square root of n, the plot works if n <= k * k: then there is one numbered panel per region and one for the whole picture, in the order of the names. *)
Theorem C135_panels_partial s det rois imgs name xname x k : pictures_of s det imgs -> motor_column s name xname x -> NoDup ("all" :: map fst rois) -> Forall (fun kq => proper (snd kq)) rois ->
  List.length x = List.length imgs -> (k * k < List.length (panel_names rois) + k)%nat -> (List.length (panel_names rois) <= k * k)%nat ->
  exists panels, plot_rois s det (map (fun kq => (fst kq, corners (snd kq))) rois) name = Ok panels /\
    Permutation (panel_names rois) (map pn_ylabel panels) /\ in_order (map pn_ylabel panels) /\
    map pn_number panels = map Z.of_nat (seq 1 (List.length panels)) /\ Forall (fun p => pn_grid p = Z.of_nat k) panels.
Proof. exact (fun P M N W L => panels_shown s det rois imgs name xname x P M N W L k). Qed.
Print Assumptions C135_panels_partial.
(** Otherwise matplotlib refuses the last panels, for instance with a single region. *)
Theorem C135_too_many_refuted s det rois imgs name xname x k : pictures_of s det imgs -> motor_column s name xname x -> NoDup ("all" :: map fst rois) -> Forall (fun kq => proper (snd kq)) rois ->
  List.length x = List.length imgs -> (k * k < List.length (panel_names rois))%nat -> (List.length (panel_names rois) <= k * k + k)%nat ->
  plot_rois s det (map (fun kq => (fst kq, corners (snd kq))) rois) name = Raise ValueError.
Proof. exact (fun P M N W L => panels_refused s det rois imgs name xname x P M N W L k). Qed.
Print Assumptions C135_too_many_refuted.
Example C135_example : plot_rois px_scan "p100k" [("low", [0; 0; 2; 1]%Z)] None = Raise ValueError.
Proof. apply (C135_too_many_refuted px_scan "p100k" [("low", (0, 0, 2, 1)%nat)] [[points [1; 2]; points [3; 4]]; [points [5; 6]; points [7; 8]]] None "om" (points [3; 5]) 1).
  - split; [intros kv [<-|[]]; exact I|reflexivity].
  - exists 0%nat; repeat split.
  - repeat constructor; cbn; intuition discriminate.
  - repeat constructor.
  - reflexivity.
  - cbn. lia.
  - cbn. lia. Qed.
