(** Properties of footprint correction, unit conversion, loaded scans and footprint rescaling (C51-C57, C84, C93-C95). *)
From Coq Require Import Reals Lra Sorted.
From Coquelicot Require Import Coquelicot.
From Verif Require Import Py Rng Arr NRng Footprint_Model Footprint_Spec Footprint_Proofs SldProfile_Spec Interp_Spec Scan_Model Scan_Spec Scan_Proofs.
Local Open Scope R_scope.
Local Ltac cells := cbn [map]; repeat match goal with |- Ok _ = Ok _ => f_equal | |- (_ :: _) = (_ :: _) => f_equal | |- Some _ = Some _ => f_equal end; try reflexivity.

(** An error function that satisfies the assumptions *)
Definition clip (x : R) : R := Rmax (-1) (Rmin 1 x).
Lemma clip_ok : erf_ok clip.
Proof. unfold clip. constructor; intros; unfold Rmax, Rmin; repeat destruct Rle_dec; lra. Qed.
Lemma clip_pos : erf_positive clip.
Proof. intros x H. unfold clip, Rmax, Rmin. repeat destruct Rle_dec; lra. Qed.

(** A scan at the angles 60 and 180 degrees with wavelength 4 pi: q is 1/2 and 1 *)
Definition ex_scan : scan := scan_new 7 (map Some [60; 180]) (map Some [4; 2]) (4 * PI) (Some 1) (Some 4) (Some "box"%string) (Some "max"%string) None.
Lemma ex_angle : sc_angle ex_scan = map Some [60; 180].
Proof. unfold ex_scan, scan_new, replace_zeros. cbn [sc_angle map]. destruct (Req_EM_T 60 0), (Req_EM_T 180 0); try lra. reflexivity. Qed.
Lemma sin_half_60 : sin_half 60 = 1 / 2.
Proof. unfold sin_half. replace (60 * PI / 360) with (PI / 6) by field. apply sin_PI6. Qed.
Lemma sin_half_180 : sin_half 180 = 1.
Proof. unfold sin_half. replace (180 * PI / 360) with (PI / 2) by field. apply sin_PI2. Qed.
Lemma ex_q : scan_q ex_scan = Ok (map Some [1 / 2; 1]).
Proof. pose proof PI_RGT_0. rewrite (scan_q_finite ex_scan [60; 180]); [|cbn; lra|exact ex_angle]. cbn [map ex_scan scan_new sc_wavelength]. rewrite sin_half_60, sin_half_180.
  cells; field; lra. Qed.
Lemma ex_increasing : increasing [1 / 2; 1]. Proof. repeat constructor; lra. Qed.
Lemma ex_geometry : geometry_ok ex_scan. Proof. split; intros x H; injection H as <-; lra. Qed.
Lemma ex_scattering : scattering_angles [60; 180]. Proof. repeat constructor; lra. Qed.

(** ** C51 *)
Theorem C51_kinks_removed (A : list fl) I : List.length I = List.length A -> Forall (fun x => x <> 0) I ->
  exists l, correct_discontinuities (map Some I) A = Ok (map Some l) /\ List.length l = List.length I /\ Forall (fun x => x <> 0) l /\ nth_error l 0 = nth_error I 0 /\
    (forall j x y x0 y0, nth_error l j = Some x -> nth_error l (j + 1) = Some y -> nth_error I j = Some x0 -> nth_error I (j + 1) = Some y0 ->
       (same_angle A j -> y = x) /\ (~ same_angle A j -> y / x = y0 / x0)).
Proof. exact (kinks_removed A I). Qed.
Print Assumptions C51_kinks_removed.

Example C51_example : correct_discontinuities (map Some [8; 4; 1; 3]) (map Some [1; 2; 2; 5]) = Ok (map Some [8; 4; 4; 12]).
Proof. unfold correct_discontinuities. cbn [map List.length Nat.sub seq foldM].
  replace (kink_step [Some 1; Some 2; Some 2; Some 5] [Some 8; Some 4; Some 1; Some 3] 0) with (Ok [Some 8; Some 4; Some 1; Some 3]).
  2: { unfold kink_step. change (py_get [Some 1; Some 2; Some 2; Some 5] (Z.of_nat 0)) with (Ok (Some 1)). change (py_get [Some 1; Some 2; Some 2; Some 5] (Z.of_nat (0 + 1))) with (Ok (Some 2)). cbn. destruct (Req_EM_T (2 - 1) 0); [lra|reflexivity]. }
  cbn [bind]. replace (kink_step [Some 1; Some 2; Some 2; Some 5] [Some 8; Some 4; Some 1; Some 3] 1) with (Ok [Some 8; Some 4; Some 4; Some 12]).
  2: { unfold kink_step. change (py_get [Some 1; Some 2; Some 2; Some 5] (Z.of_nat 1)) with (Ok (Some 2)). change (py_get [Some 1; Some 2; Some 2; Some 5] (Z.of_nat (1 + 1))) with (Ok (Some 2)). cbn [bind fsub lift2 feqb].
    destruct (Req_EM_T (2 - 2) 0); [|lra]. change (py_get [Some 8; Some 4; Some 1; Some 3] (Z.of_nat 1)) with (Ok (Some 4)). change (py_get [Some 8; Some 4; Some 1; Some 3] (Z.of_nat (1 + 1))) with (Ok (Some 1)). cbn [bind]. rewrite fdiv_Some by lra. cbn. cells; field. }
  cbn [bind]. unfold kink_step. change (py_get [Some 1; Some 2; Some 2; Some 5] (Z.of_nat 2)) with (Ok (Some 2)). change (py_get [Some 1; Some 2; Some 2; Some 5] (Z.of_nat (2 + 1))) with (Ok (Some 5)). cbn [bind fsub lift2 feqb].
  destruct (Req_EM_T (5 - 2) 0); [lra|]. reflexivity. Qed.

(** ** C52 *)
Theorem C52_max_is_one erf s A I : erf_positive erf -> geometry_ok s -> sc_angle s = map Some A -> sc_raw s = map Some I -> scattering_angles A -> List.length I = List.length A -> all_pos I -> I <> [] ->
  sc_norm s = Some "max"%string -> exists out, corrected_intensity erf s = Ok (map Some out) /\ List.length out = List.length I /\ all_pos out /\ is_max 1 out.
Proof. exact (corrected_max erf s A I). Qed.
Print Assumptions C52_max_is_one.

Theorem C52_first_is_one erf s A I : erf_positive erf -> geometry_ok s -> sc_angle s = map Some A -> sc_raw s = map Some I -> scattering_angles A -> List.length I = List.length A -> all_pos I -> I <> [] ->
  sc_norm s = Some "first"%string -> exists out, corrected_intensity erf s = Ok (map Some out) /\ List.length out = List.length I /\ all_pos out /\ nth_error out 0 = Some 1.
Proof. exact (corrected_first erf s A I). Qed.
Print Assumptions C52_first_is_one.

(** Multiplying the raw intensity by a common factor changes nothing (whatever the data, even if it contains NaN). *)
Theorem C52_scale_invariant erf k n s : 0 < k -> sc_norm s = Some n -> corrected_intensity erf (with_raw s (scaled k (sc_raw s))) = corrected_intensity erf s.
Proof. exact (corrected_scaled erf k n s). Qed.
Print Assumptions C52_scale_invariant.

(** The constructor keeps the angles inside the valid range, also when an angle of zero was measured. *)
Theorem C52_zero_angles A : Forall (fun a => 0 <= a < 360) A -> exists A', replace_zeros (map Some A) = map Some A' /\ scattering_angles A' /\ List.length A' = List.length A.
Proof. exact (replace_zeros_finite A). Qed.
Print Assumptions C52_zero_angles.

(** Without normalisation the corrected intensity is the footprint-corrected raw intensity. *)
Theorem C52_no_normalisation erf s b l sh : sc_norm s = None -> sc_beam s = Some b -> sc_sample s = Some l -> sc_shape s = Some sh -> l <> 0 -> sh = "gauss"%string \/ sh = "box"%string ->
  List.length (sc_raw s) = List.length (sc_angle s) -> corrected_intensity erf s = apply_footprint_correction erf (sc_raw s) (sc_angle s) b l sh.
Proof. exact (corrected_unnormalised erf s b l sh). Qed.
Print Assumptions C52_no_normalisation.

Lemma ex_box a : 0 < a <= 180 -> 1 / 4 <= sin_half a -> box_factor (1 / 4) (Some a) = Some 1.
Proof. intros Ha S. rewrite (box_factor_max 1 4 a) by lra. f_equal. apply Rmax_left. apply Rmult_le_reg_r with (4 * sin_half a); [lra|]. unfold Rdiv. rewrite Rmult_assoc, Rinv_l by lra. lra. Qed.
Lemma ex_corrected : corrected_intensity clip ex_scan = Ok (map Some [1; 1 / 2]).
Proof. unfold corrected_intensity, scan_correct. change (sc_beam ex_scan) with (Some 1). change (sc_sample ex_scan) with (Some 4). change (sc_shape ex_scan) with (Some "box"%string). change (sc_norm ex_scan) with (Some "max"%string). change (sc_raw ex_scan) with (map Some [4; 2]).
  cbv iota. unfold apply_footprint_correction. rewrite ex_angle. unfold get_factors. change (("box" =? "gauss")%string) with false. change (("box" =? "box")%string) with true. cbv iota. unfold box_factors. rewrite py_div_Ok by lra. cbn [bind map].
  rewrite ex_box by (rewrite ?sin_half_60; lra). rewrite ex_box by (rewrite ?sin_half_180; lra). cbn. unfold Rmax. destruct (Rle_dec (4 * 1) (2 * 1)); [lra|]. destruct (Req_EM_T (4 * 1) 0); [lra|]. cells; field. Qed.
Example C52_example : corrected_intensity clip ex_scan = Ok (map Some [1; 1 / 2]) /\ corrected_intensity clip (with_raw ex_scan (scaled 3 (sc_raw ex_scan))) = Ok (map Some [1; 1 / 2]).
Proof. split; [exact ex_corrected|]. rewrite (corrected_scaled clip 3 "max" ex_scan); [exact ex_corrected|lra|reflexivity]. Qed.

(** ** C53 *)
Theorem C53_roundtrip erf I angles b l shape fs : get_factors erf angles b l shape = Ok (map Some fs) -> Forall (fun k => k <> 0) fs -> List.length I = List.length fs ->
  (exists J, apply_footprint_correction erf I angles b l shape = Ok J /\ remove_footprint_correction erf J angles b l shape = Ok I) /\
  (exists J, remove_footprint_correction erf I angles b l shape = Ok J /\ apply_footprint_correction erf J angles b l shape = Ok I).
Proof. exact (footprint_roundtrip erf I angles b l shape fs). Qed.
Print Assumptions C53_roundtrip.

(** The factors are positive for every scattering geometry. *)
Theorem C53_factors_positive erf b l shape angles : erf_positive erf -> 0 < b -> 0 < l -> scattering_angles angles -> shape = "gauss"%string \/ shape = "box"%string ->
  exists fs, get_factors erf (map Some angles) b l shape = Ok (map Some fs) /\ all_pos fs /\ List.length fs = List.length angles.
Proof. exact (factors_pos erf b l shape angles). Qed.
Print Assumptions C53_factors_positive.

Example C53_example : exists J, apply_footprint_correction clip (map Some [5; 7]) (map Some [60; 180]) 1 4 "gauss" = Ok J /\ remove_footprint_correction clip J (map Some [60; 180]) 1 4 "gauss" = Ok (map Some [5; 7]).
Proof. destruct (factors_pos clip 1 4 "gauss" [60; 180] clip_pos) as (fs & E & P & L); [lra|lra|exact ex_scattering|auto|].
  destruct (footprint_roundtrip clip (map Some [5; 7]) _ _ _ _ fs E) as [H _]; [|exact (eq_sym L)|exact H]. eapply Forall_impl; [|exact P]. cbn beta. intros x Hx. lra. Qed.

(** ** C54 *)
Theorem C54_box_factor b l a : 0 < b <= l -> 0 < a <= 180 ->
  exists f, box_factor (b / l) (Some a) = Some f /\ 1 <= f /\
    (l * sin_half a < b -> f = b / (l * sin_half a)) /\ (b <= l * sin_half a -> f = 1).
Proof. exact (box_factor_cases b l a). Qed.
Print Assumptions C54_box_factor.

Theorem C54_continuous b l : 0 < b <= l -> exists f, (forall a, 0 < a <= 180 -> box_factor (b / l) (Some a) = Some (f a)) /\ (forall a, 0 < a <= 180 -> continuous f a).
Proof. intros H. exists (fun a => Rmax 1 (b / (l * sin_half a))). exact (conj (fun a Ha => box_factor_max b l a H Ha) (fun a Ha => box_continuous b l a H Ha)). Qed.
Print Assumptions C54_continuous.

(** A whole curve is treated point by point. *)
Theorem C54_pointwise angles b l : l <> 0 -> box_factors angles b l = Ok (map (box_factor (b / l)) angles).
Proof. intros H. unfold box_factors. rewrite py_div_Ok by exact H. exact eq_refl. Qed.
Print Assumptions C54_pointwise.

Example C54_example : box_factor (3 / 4) (Some 60) = Some (3 / 2) /\ box_factor (3 / 4) (Some 180) = Some 1.
Proof. split; rewrite box_factor_max by lra; [rewrite sin_half_60|rewrite sin_half_180]; f_equal; unfold Rmax; destruct Rle_dec; lra. Qed.

(** ** C55: an unknown beam shape is silently ignored *)
Theorem C55_invalid_shape_refuted erf s sh : sc_shape s = Some sh -> sh <> "gauss"%string -> sh <> "box"%string ->
  corrected_intensity erf s = scan_normalize (sc_norm s) (sc_raw s).
Proof. exact (invalid_shape erf s sh). Qed.
Print Assumptions C55_invalid_shape_refuted.

Example C55_example : corrected_intensity clip (scan_new 1 (map Some [60; 180]) (map Some [4; 2]) (4 * PI) (Some 1) (Some 4) (Some "circle"%string) (Some "max"%string) None) = Ok (map Some [1; 1 / 2]).
Proof. erewrite invalid_shape; [|reflexivity|discriminate..]. cbn. unfold Rmax. destruct (Rle_dec 4 2); [lra|]. destruct (Req_EM_T 4 0); [lra|]. cells; field. Qed.

(** ** C56 *)
Theorem C56_angle_q_angle a w : w <> 0 -> -180 <= a <= 180 -> exists q, angle_to_q a w = Ok q /\ q_to_angle q w = Some a.
Proof. exact (angle_q_angle a w). Qed.
Print Assumptions C56_angle_q_angle.
Theorem C56_q_angle_q q w : w <> 0 -> Rabs (q * w) <= 4 * PI -> exists a, q_to_angle q w = Some a /\ -180 <= a <= 180 /\ angle_to_q a w = Ok q.
Proof. exact (q_angle_q q w). Qed.
Print Assumptions C56_q_angle_q.
Theorem C56_unreachable q w : 4 * PI < Rabs (q * w) -> q_to_angle q w = None.
Proof. exact (q_unreachable q w). Qed.
Print Assumptions C56_unreachable.
Theorem C56_energy e : e <> 0 -> exists w, energy_to_wavelength e = Ok w /\ wavelength_to_energy w = Ok e.
Proof. exact (energy_roundtrip e). Qed.
Print Assumptions C56_energy.
Theorem C56_wavelength w : w <> 0 -> exists e, wavelength_to_energy w = Ok e /\ energy_to_wavelength e = Ok w.
Proof. exact (wavelength_roundtrip w). Qed.
Print Assumptions C56_wavelength.

Example C56_example : angle_to_q 60 1 = Ok (2 * PI) /\ energy_to_wavelength 12398 = Ok 1.
Proof. split; [unfold angle_to_q|unfold energy_to_wavelength]; rewrite py_div_Ok by lra; cbn [bind]; f_equal; [|field]. rewrite half_sin_spec, sin_half_60. field. Qed.

(** ** C57 *)
Theorem C57_aligned erf s q c qmin qmax : List.length (sc_raw s) = List.length (sc_angle s) -> scan_q s = Ok q -> corrected_intensity erf s = Ok c -> q <> [] ->
  exists lo n, get_q_range s qmin qmax = Ok (firstn n (skipn lo q)) /\ get_raw_intensity_range s qmin qmax = Ok (firstn n (skipn lo (sc_raw s))) /\
    get_corrected_intensity_range erf s qmin qmax = Ok (firstn n (skipn lo c)) /\
    List.length (firstn n (skipn lo q)) = List.length (firstn n (skipn lo (sc_raw s))) /\ List.length (firstn n (skipn lo q)) = List.length (firstn n (skipn lo c)) /\
    (forall p, q = map Some p -> exists hi, selected p qmin qmax lo hi /\ n = (hi - lo)%nat).
Proof. exact (getters_aligned erf s q c qmin qmax). Qed.
Print Assumptions C57_aligned.

(** The bounds of the range are the measured points closest to the given values, the upper one excluded. *)
Theorem C57_bounds s q v w : scan_q s = Ok (map Some q) -> q <> [] ->
  exists lo hi, closest q v lo /\ closest q w hi /\
    get_q_range s (Some v) (Some w) = Ok (map Some (firstn (hi - lo) (skipn lo q))) /\
    get_q_range s None (Some w) = Ok (map Some (firstn hi q)) /\
    get_q_range s (Some v) None = Ok (map Some (skipn lo q)) /\ get_q_range s None None = Ok (map Some q).
Proof. exact (q_range_bounds s q v w). Qed.
Print Assumptions C57_bounds.

(** q as a function of the angle *)
Theorem C57_q_values s A : sc_wavelength s <> 0 -> sc_angle s = map Some A -> scan_q s = Ok (map Some (map (fun a => 4 * PI / sc_wavelength s * sin_half a) A)).
Proof. exact (scan_q_finite s A). Qed.
Print Assumptions C57_q_values.

Example C57_example : exists lo n, get_q_range ex_scan (Some 1) None = Ok (firstn n (skipn lo (map Some [1 / 2; 1]))) /\
  get_corrected_intensity_range clip ex_scan (Some 1) None = Ok (firstn n (skipn lo (map Some [1; 1 / 2]))).
Proof. destruct (getters_aligned clip ex_scan _ _ (Some 1) None ltac:(rewrite ex_angle; reflexivity) ex_q ex_corrected) as (lo & n & E1 & _ & E3 & _); [discriminate|]. exists lo, n. split; [exact E1|exact E3]. Qed.

(** ** C93: the range getters return the points between the limits up to one point at each end *)
Theorem C93_between_limits_partial s q v w : scan_q s = Ok (map Some q) -> q <> [] -> increasing q -> v <= w ->
  exists lo hi, get_q_range s (Some v) (Some w) = Ok (map Some (firstn (hi - lo) (skipn lo q))) /\ (lo <= hi)%nat /\
    (forall k x, nth_error q k = Some x -> (k < lo)%nat -> x < v) /\ (forall k x, nth_error q k = Some x -> (lo < k < hi)%nat -> v <= x < w) /\
    (forall k x, nth_error q k = Some x -> (k < hi)%nat -> x < w) /\ (forall k x, nth_error q k = Some x -> (hi < k)%nat -> w <= x).
Proof. intros Eq N S VW. destruct (q_range_bounds s q v w Eq N) as (lo & hi & C1 & C2 & E & _). exists lo, hi. exact (conj E (closest_range q v w lo hi S VW C1 C2)). Qed.
Print Assumptions C93_between_limits_partial.

(** Asking for everything up to the last measured q drops the last point. *)
Theorem C93_last_point_refuted s q x : scan_q s = Ok (map Some (q ++ [x])) -> increasing (q ++ [x]) -> get_q_range s None (Some x) = Ok (map Some q).
Proof. exact (range_drops_last s q x). Qed.
Print Assumptions C93_last_point_refuted.

Example C93_example : get_q_range ex_scan None (Some 1) = Ok (map Some [1 / 2]).
Proof. exact (range_drops_last ex_scan [1 / 2] 1 ex_q ex_increasing). Qed.

(** ** C94: Gaussian beams *)
Theorem C94_gaussian_factor erf b l a : erf_positive erf -> 0 < b -> 0 < l -> 0 < a < 360 ->
  gaussian_factor erf b l (Some a) = Some (/ erf (sqrt (ln 2) * l * sin_half a / b)).
Proof. exact (gaussian_factor_eq erf b l a). Qed.
Print Assumptions C94_gaussian_factor.
Theorem C94_at_least_one erf b l a : erf_ok erf -> erf_positive erf -> 0 < b -> 0 < l -> 0 < a < 360 ->
  exists f, gaussian_factor erf b l (Some a) = Some f /\ 1 <= f.
Proof. exact (gaussian_factor_ge1 erf b l a). Qed.
Print Assumptions C94_at_least_one.
Theorem C94_decreasing erf b l a a' : erf_ok erf -> erf_positive erf -> 0 < b -> 0 < l -> 0 < a -> a <= a' -> a' <= 180 ->
  exists f f', gaussian_factor erf b l (Some a) = Some f /\ gaussian_factor erf b l (Some a') = Some f' /\ f' <= f.
Proof. exact (gaussian_factor_mono erf b l a a'). Qed.
Print Assumptions C94_decreasing.

(** The limits: an infinitely thin beam always hits the sample, at angle zero nothing does, a sample without length is an error. *)
Theorem C94_thin_beam erf l a : 0 < l -> 0 < a < 360 -> gaussian_factor erf 0 l (Some a) = Some 1 /\ gaussian_factor erf 0 l (Some (- a)) = Some (-1).
Proof. exact (gaussian_factor_thin erf l a). Qed.
Print Assumptions C94_thin_beam.
Theorem C94_angle_zero erf b l : gaussian_factor erf b l (Some 0) = None /\ gaussian_factor erf b l None = None.
Proof. exact (gaussian_factor_zero erf b l). Qed.
Print Assumptions C94_angle_zero.
Theorem C94_no_sample erf angles b shape : shape = "gauss"%string \/ shape = "box"%string -> get_factors erf angles b 0 shape = Raise ZeroDivisionError.
Proof. exact (get_factors_no_sample erf angles b shape). Qed.
Print Assumptions C94_no_sample.

Example C94_example : gaussian_factor clip (sqrt (ln 2)) 1 (Some 60) = Some 2.
Proof. pose proof (sqrt_lt_R0 _ ln2_pos). rewrite gaussian_factor_eq; [|exact clip_pos|lra|lra|lra]. rewrite sin_half_60. f_equal. replace (sqrt (ln 2) * 1 * (1 / 2) / sqrt (ln 2)) with (1 / 2) by (field; lra).
  unfold clip, Rmax, Rmin. repeat destruct Rle_dec; try lra. Qed.

(** ** C95: statistics of a series *)
Theorem C95_stats l : Forall (fun s => exists q, scan_q s = Ok (map Some q) /\ q <> []) l ->
  exists st, series_stats l = Ok st /\ Forall2 (fun s t => exists q lo hi, scan_q s = Ok (map Some q) /\ t = (List.length q, Some lo, Some hi) /\ is_min lo q /\ is_max hi q) l st.
Proof. exact (stats_finite l). Qed.
Print Assumptions C95_stats.
Theorem C95_empty_scan s l : scan_q s = Ok [] -> series_stats (s :: l) = Raise ValueError.
Proof. exact (stats_empty_scan s l). Qed.
Print Assumptions C95_empty_scan.

Example C95_example : series_stats [ex_scan] = Ok [(2%nat, Some (1 / 2), Some 1)].
Proof. unfold series_stats, scan_stats. cbn [mapM]. rewrite ex_q. cbn [bind map fmin fmax fold_left]. unfold fmin2, fmax2, lift2. rewrite ex_angle.
  replace (Rmin (1 / 2) 1) with (1 / 2) by (unfold Rmin; destruct Rle_dec; lra). replace (Rmax (1 / 2) 1) with 1 by (unfold Rmax; destruct Rle_dec; lra). reflexivity. Qed.

(** ** C84 *)
Theorem C84_rows S (g : nrng S) (Hg : nrng_ok g) r s A curves : fr_curves r = map (map Some) curves -> fr_theta r = map Some A -> scattering_angles A -> 0 < fr_ratio r -> fr_errors r <> [] -> all_pos (fr_errors r) ->
  Forall (fun c => c <> [] /\ List.length c = List.length A /\ all_pos c) curves ->
  exists s' rows ratios, rescaled_reflectivity g r s = Ok (s', (rows, ratios)) /\
    Forall2 (fun c o => exists e c', In e (fr_errors r) /\ snd o = fr_ratio r * e /\ fst o = map Some c' /\
       swap_footprints (map Some c) (map Some A) (fr_ratio r) (snd o) = Ok (fst o) /\
       List.length c' = List.length c /\ exists m, is_max m c /\ is_max m c') curves (combine rows ratios).
Proof. exact (rescaled_rows S g Hg r s A curves). Qed.
Print Assumptions C84_rows.

Theorem C84_same_ratio I A r : List.length I = List.length A -> I <> [] -> all_pos I -> scattering_angles A -> 0 < r ->
  swap_footprints (map Some I) (map Some A) r r = Ok (map Some I).
Proof. exact (swap_same I A r). Qed.
Print Assumptions C84_same_ratio.

Theorem C84_apply_then_correct I A r : List.length I = List.length A -> scattering_angles A -> 0 < r ->
  exists J, apply_footprint (map Some I) (map Some A) r = Ok J /\ correct_footprint J (map Some A) r = Ok (map Some I).
Proof. exact (roundtrip_apply_correct I A r). Qed.
Print Assumptions C84_apply_then_correct.

(** normalize_to_first keeps the first value of the original curve and all ratios of the rescaled one. *)
Theorem C84_first x0 xs y0 ys : x0 <> 0 -> exists out, rescale_to_first (map Some (x0 :: xs)) (map Some (y0 :: ys)) = Ok (map Some out) /\
  List.length out = S (List.length xs) /\ nth_error out 0 = Some y0 /\ forall i x z, nth_error (x0 :: xs) i = Some x -> nth_error out i = Some z -> z * x0 = x * y0.
Proof. exact (first_rescaled x0 xs y0 ys). Qed.
Print Assumptions C84_first.
Theorem C84_first_empty l : rescale_to_first [] l = Raise IndexError /\ (l <> [] -> rescale_to_first l [] = Raise IndexError).
Proof. split; [reflexivity|]. destruct l; [congruence|reflexivity]. Qed.
Print Assumptions C84_first_empty.
(** The footprint itself: below the spill-over angle the intensity is reduced to the illuminated fraction. *)
Theorem C84_footprint_value i a r : 0 < r <= 1 -> 0 < a <= 180 -> apply_footprint [Some i] [Some a] r = Ok [Some (i * Rmin 1 (sin_half a / r))].
Proof. exact (footprint_value i a r). Qed.
Print Assumptions C84_footprint_value.

(** Exactly one of q (with the wavelength) and theta must be given. *)
Theorem C84_constructor curves ratio errors q w theta :
  (exists r, rescaler_new curves ratio errors q w theta = Ok r) <-> (q = None /\ theta <> None) \/ (q <> None /\ theta = None /\ w <> None).
Proof. exact (rescaler_new_ok curves ratio errors q w theta). Qed.
Print Assumptions C84_constructor.

Example C84_example : exists s' rows ratios, rescaled_reflectivity ex_nrng (mkRescaler (map (map Some) [[4; 2]; [1; 3]]) (3 / 4) [2; 1] (map Some [60; 180])) 0%nat = Ok (s', (rows, ratios)) /\ List.length rows = 2%nat.
Proof. destruct (rescaled_rows nat ex_nrng ex_nrng_ok (mkRescaler (map (map Some) [[4; 2]; [1; 3]]) (3 / 4) [2; 1] (map Some [60; 180])) 0%nat [60; 180] [[4; 2]; [1; 3]]) as (s' & rows & ratios & E & F).
  1,2: reflexivity. 1: exact ex_scattering. 1: cbn; lra. 1: discriminate. 1: repeat constructor; lra. 1: repeat constructor; try discriminate; lra.
  exists s', rows, ratios. split; [exact E|]. unfold rescaled_reflectivity in E. cbn in E. injection E as _ <- _. reflexivity. Qed.
