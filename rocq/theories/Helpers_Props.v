(** Properties of the helpers (C169-C174). *)
From Coq Require Import Reals Lra Sorted.
From Verif Require Import Py Arr Interp_Model Interp_Spec Interp_Proofs Footprint_Model Footprint_Spec Footprint_Proofs Scan_Model Scan_Spec Scan_Proofs Scan_Props
  Fitter_Model Prediction_Model Helpers_Model Helpers_Spec Helpers_Proofs.
Local Open Scope R_scope.

(** ** C169: interpolated scans and series of scans *)
Theorem C169_own_q_values erf s q c : scan_q s = Ok (map Some q) -> increasing q -> q <> [] -> corrected_intensity erf s = Ok (map Some c) -> nonnegative_curve c -> List.length q = List.length c ->
  get_interpolated_intensity erf s q = Ok (map Some c).
Proof. exact (interpolated_exact erf s q c). Qed.
Print Assumptions C169_own_q_values.
Theorem C169_at_most_one erf s A I new_q q : erf_positive erf -> geometry_ok s -> sc_angle s = map Some A -> sc_raw s = map Some I -> scattering_angles A -> List.length I = List.length A -> all_pos I -> I <> [] ->
  sc_norm s = Some "max"%string -> scan_q s = Ok (map Some q) -> increasing q ->
  exists out, get_interpolated_intensity erf s new_q = Ok (map Some out) /\ List.length out = List.length new_q /\ Forall (fun y => 0 < y <= 1) out.
Proof. exact (interpolated_max erf s A I new_q q). Qed.
Print Assumptions C169_at_most_one.
(** Between two neighbouring points the logarithm is linear in q. *)
Theorem C169_log_linear erf s q c x i d : scan_q s = Ok (map Some q) -> increasing q -> corrected_intensity erf s = Ok (map Some c) -> nonnegative_curve c -> List.length q = List.length c ->
  (S i < List.length q)%nat -> 0 < nth i c d -> 0 < nth (S i) c d -> nth i q d <= x <= nth (S i) q d ->
  exists v, get_interpolated_intensity erf s [x] = Ok [Some v] /\ 0 < v /\
    ln v = ln (nth i c d) + (x - nth i q d) / (nth (S i) q d - nth i q d) * (ln (nth (S i) c d) - ln (nth i c d)).
Proof. intros Q I C P L Hi P0 P1 B. rewrite (interpolated_eq erf s [x] q (map Some c) Q C). destruct (interp_log_linear x i q c d I P L Hi P0 P1 B) as (v & E & V & H). exists v. split; [exact E|]. split; [exact V|].
  unfold log10 in H. pose proof ln10_pos as T. apply Rmult_eq_reg_r with (/ ln 10); [|apply Rinv_neq_0_compat; lra]. unfold Rdiv in *. rewrite H. ring. Qed.
Print Assumptions C169_log_linear.
Theorem C169_rows erf l m rows : l <> [] -> Forall2 (fun s r => corrected_intensity erf s = Ok r) l rows -> Forall (fun r => List.length r = m) rows -> to_array erf l = Ok (Stacked (A2 m rows)).
Proof. intros N F. apply to_array_equal; [exact N|]. apply mapM_Ok_iff, F. Qed.
Print Assumptions C169_rows.
(** Scans of different lengths do not give a numeric array. *)
Theorem C169_ragged erf l rows r r' : Forall2 (fun s r => corrected_intensity erf s = Ok r) l rows -> In r rows -> In r' rows -> List.length r <> List.length r' -> to_array erf l = Ok (Ragged rows).
Proof. intros F H H' N. unfold to_array. rewrite (proj2 (mapM_Ok_iff _ _ _) F). cbn [bind]. rewrite (np_stack_ragged rows r r' H H' N). reflexivity. Qed.
Print Assumptions C169_ragged.
Theorem C169_errors erf l e : to_array erf l = Raise e -> exists s, In s l /\ corrected_intensity erf s = Raise e.
Proof. unfold to_array. destruct (mapM _ l) as [rows|e'] eqn:E; cbn [bind]; [discriminate|]. intros H. injection H as <-. exact (mapM_raise _ _ _ _ _ E). Qed.
Print Assumptions C169_errors.
Theorem C169_append l s : series_append l (SAScan s) = ((l ++ [s])%list, None) /\ series_append l SAOther = (l, Some TypeError).
Proof. split; reflexivity. Qed.
Print Assumptions C169_append.
Theorem C169_length s q : scan_q s = Ok q -> scan_len s = List.length q.
Proof. intros H. symmetry. exact (q_length s q H). Qed.
Print Assumptions C169_length.
Example C169_example : get_interpolated_intensity clip ex_scan [1 / 2; 1] = Ok (map Some [1; 1 / 2]) /\ to_array clip [ex_scan; ex_scan] = Ok (Stacked (A2 2 [map Some [1; 1 / 2]; map Some [1; 1 / 2]])) /\
  scan_len ex_scan = 2%nat.
Proof. split; [|split; [|reflexivity]].
  - apply C169_own_q_values; [exact ex_q|exact ex_increasing|discriminate|exact ex_corrected| |reflexivity]. repeat constructor; lra.
  - apply C169_rows; [discriminate| |repeat constructor]. repeat (constructor; [exact ex_corrected|]). constructor. Qed.

(** ** C170: the Gaussian kernel *)
(** The weights are the values of a bell curve around the middle of the range of x, normalised over all of x, kept within n_std standard
    deviations. *)
Theorem C170_kernel x std n lo hi : x <> [] -> is_min lo x -> is_max hi x -> 0 < std ->
  let c := (lo + hi) / 2 in
  make_gaussian x std n = Ok (map Some (map (fun a => bell c std a / rsum (map (bell c std) x)) (within c (n * std) x)), within c (n * std) x).
Proof. exact (gaussian_eq x std n lo hi). Qed.
Print Assumptions C170_kernel.
Theorem C170_symmetric x std n lo hi : x <> [] -> is_min lo x -> is_max hi x -> 0 < std -> symmetric ((lo + hi) / 2) x ->
  exists g xr, make_gaussian x std n = Ok (g, xr) /\ rev g = g /\ List.length g = List.length xr.
Proof. intros N Lo Hi S Sy. rewrite (gaussian_eq x std n lo hi N Lo Hi S). eexists _, _. split; [reflexivity|]. split; [|rewrite !map_length; reflexivity].
  rewrite <- map_rev. f_equal. apply kernel_symmetric, Sy. Qed.
Print Assumptions C170_symmetric.
(** The weights sum to one exactly if nothing is cut off. *)
Theorem C170_sum_partial x std n lo hi : x <> [] -> is_min lo x -> is_max hi x -> 0 < std ->
  exists g xr, make_gaussian x std n = Ok (map Some g, xr) /\ all_pos g /\ rsum g <= 1 /\ (rsum g = 1 <-> Forall (fun a => Rabs (a - (lo + hi) / 2) <= n * std) x).
Proof. intros N Lo Hi S. rewrite (gaussian_eq x std n lo hi N Lo Hi S). eexists _, _. split; [reflexivity|]. split; [|apply kernel_sum, N].
  apply Forall_map, Forall_forall. intros a _. pose proof (rsum_pos (map (bell ((lo + hi) / 2) std) x) ltac:(destruct x; [contradiction|discriminate]) (bells_pos _ std x)).
  apply Rmult_lt_0_compat; [apply bell_pos|apply Rinv_0_lt_compat; assumption]. Qed.
Print Assumptions C170_sum_partial.
(** With the default cut-off of five standard deviations the weights do not sum to one. *)
Theorem C170_sum_refuted : exists x g xr, make_gaussian x 1 5 = Ok (map Some g, xr) /\ rsum g < 1.
Proof. exists [-10; 0; 10]. assert (Lo : is_min (-10) [-10; 0; 10]) by (split; [left; reflexivity|repeat constructor; lra]). assert (Hi : is_max 10 [-10; 0; 10]) by (split; [right; right; left; reflexivity|repeat constructor; lra]).
  destruct (C170_sum_partial [-10; 0; 10] 1 5 (-10) 10 ltac:(discriminate) Lo Hi ltac:(lra)) as (g & xr & E & _ & B & (F & _)). exists g, xr. split; [exact E|].
  destruct B as [B|B]; [exact B|]. exfalso. specialize (F B). apply Forall_inv in F. rewrite Rabs_left in F; lra. Qed.
Print Assumptions C170_sum_refuted.
Theorem C170_empty std n : make_gaussian [] std n = Raise ValueError.
Proof. exact eq_refl. Qed.
Print Assumptions C170_empty.
(** A negative standard deviation keeps nothing. *)
Theorem C170_negative x std n : x <> [] -> std < 0 -> 0 < n -> make_gaussian x std n = Ok ([], []).
Proof. intros N S P. assert (n * std < 0) by (apply Ropp_lt_cancel; rewrite Ropp_0, Ropp_mult_distr_r; apply Rmult_lt_0_compat; lra). destruct x as [|x0 xs]; [contradiction|]. unfold make_gaussian. cbv zeta.
  match goal with |- context [filter ?p ?l] => replace (filter p l) with (@nil (fl * R)); [reflexivity|]; generalize l end. intros l. induction l as [|[g a] l IH]; [reflexivity|]. cbn [filter snd]. rewrite <- IH.
  destruct (Rle_dec (- n * std) _); [|reflexivity]. destruct (Rle_dec _ (n * std)); [lra|reflexivity]. Qed.
Print Assumptions C170_negative.
Example C170_example : is_min (-1) [-1; 0; 1] /\ is_max 1 [-1; 0; 1] /\ symmetric ((-1 + 1) / 2) [-1; 0; 1] /\ Forall (fun a => Rabs (a - (-1 + 1) / 2) <= 5 * 1) [-1; 0; 1].
Proof. split; [split; [left; reflexivity|repeat constructor; lra]|]. split; [split; [right; right; left; reflexivity|repeat constructor; lra]|]. split.
  - unfold symmetric. cbn [map rev app]. f_equal; [lra|]. f_equal; [lra|]. f_equal. lra.
  - repeat constructor; unfold Rabs; destruct (Rcase_abs _); lra. Qed.

(** ** C171: the timer decorator *)
Theorem C171_transparent {A B} clock text time_ (func : pyfun A B) args kwargs w : timer clock text time_ func args kwargs w = func args kwargs w.
Proof. exact eq_refl. Qed.
Print Assumptions C171_transparent.
(** Nothing is ever printed, whatever the global variable [time] is. *)
Theorem C171_prints_refuted {A B} clock text time_ (func : pyfun A B) args kwargs w : (forall w', w_printed (fst (func args kwargs w')) = w_printed w') ->
  w_printed (fst (timer clock text time_ func args kwargs w)) = w_printed w.
Proof. intros H. exact (H w). Qed.
Print Assumptions C171_prints_refuted.
(** Asking for it with a keyword [time] is an error for functions without such a keyword. *)
Theorem C171_keyword_refuted {A B} clock text time_ names (body : pyfun A B) args v w : ~ In "time"%string names ->
  timer clock text time_ (with_keywords names body) args [("time"%string, v)] w = (w, Raise TypeError).
Proof. intros N. unfold timer. cbn [wrapper_locals existsb]. unfold with_keywords. cbn [forallb fst]. replace (existsb (String.eqb "time") names) with false; [reflexivity|].
  symmetry. apply Bool.not_true_is_false. intros E. apply existsb_exists in E. destruct E as (k & Hk & Ek). apply String.eqb_eq in Ek. subst k. contradiction. Qed.
Print Assumptions C171_keyword_refuted.
Theorem C171_known_keywords {A B} clock text time_ names (body : pyfun A B) args kwargs w : Forall (fun kv => In (fst kv) names) kwargs ->
  timer clock text time_ (with_keywords names body) args kwargs w = body args kwargs w.
Proof. intros F. unfold timer. cbn [wrapper_locals existsb]. unfold with_keywords. replace (forallb _ kwargs) with true; [reflexivity|]. symmetry. apply forallb_forall. intros kv H. rewrite Forall_forall in F.
  apply existsb_exists. exists (fst kv). split; [exact (F kv H)|apply String.eqb_refl]. Qed.
Print Assumptions C171_known_keywords.
Example C171_example : let f : pyfun R R := fun args _ w => (w, match args with [x] => Ok (x + 1) | _ => Raise TypeError end) in
  timer (fun _ => 0) (fun _ => "Finished"%string) (Some true) f [1] [] (mkWorld [] 0) = (mkWorld [] 0, Ok (1 + 1)) /\ ~ In "time"%string ["test_input"%string].
Proof. split; [reflexivity|]. intros [E|[]]. discriminate. Qed.

(** ** C172: row-wise application *)
Theorem C172_rows_partial func m rows out k : rows <> [] -> Forall2 (fun r o => func r = Ok o) rows out -> Forall (fun r => List.length r = k) out ->
  iterate_over_curves func (ND (A2 m rows)) = Ok (Stacked (A2 k out)).
Proof. intros N F. apply iterate_rows; [exact N|]. apply mapM_Ok_iff, F. Qed.
Print Assumptions C172_rows_partial.
Theorem C172_single func v out : func v = Ok out -> iterate_over_curves func (ND (A1 v)) = Ok (Stacked (A1 out)).
Proof. intros H. cbn [iterate_over_curves]. rewrite H. reflexivity. Qed.
Print Assumptions C172_single.
Theorem C172_dimension func d : iterate_over_curves func (NDother d) = Raise ValueError.
Proof. exact eq_refl. Qed.
Print Assumptions C172_dimension.
(** No curves at all: the result is one-dimensional, whatever the number of points. *)
Theorem C172_no_curves_refuted func m : iterate_over_curves func (ND (A2 m [])) = Ok (Stacked (A1 [])).
Proof. exact eq_refl. Qed.
Print Assumptions C172_no_curves_refuted.
Example C172_example : iterate_over_curves (fun r => Ok (rev r)) (ND (A2 2 [[Some 1; Some 2]; [Some 3; None]])) = Ok (Stacked (A2 2 [[Some 2; Some 1]; [None; Some 3]])).
Proof. reflexivity. Qed.

(** ** C173: loading preprocessing values from a text file *)
Theorem C173_pairs_partial ip ps : (2 <= List.length ps)%nat -> load_ip_values ip (map (fun p => [fst p; snd p]) ps) = ((Some (map fst ps), Some (map snd ps)), None).
Proof. intros H. destruct ps as [|p0 [|p1 ps]]; cbn [List.length] in H; try lia. exact (load_pairs ip p0 p1 ps). Qed.
Print Assumptions C173_pairs_partial.
(** A file with a single line (a model for one q value), or an empty one, cannot be loaded. *)
Theorem C173_single_line_refuted ip r : load_ip_values ip [r] = (ip, Some IndexError) /\ load_ip_values ip [] = (ip, Some IndexError).
Proof. split; [|reflexivity]. unfold load_ip_values, loadtxt. cbn [forallb]. destruct r as [|x [|y r]]; reflexivity. Qed.
Print Assumptions C173_single_line_refuted.
Theorem C173_different_lengths ip r rs : Exists (fun r' => List.length r' <> List.length r) rs -> load_ip_values ip (r :: rs) = (ip, Some ValueError).
Proof. intros E. unfold load_ip_values, loadtxt. replace (forallb _ rs) with false; [reflexivity|]. symmetry. apply Bool.not_true_is_false. intros F. rewrite forallb_forall in F.
  apply Exists_exists in E. destruct E as (r' & H & N). apply N, Nat.eqb_eq, F, H. Qed.
Print Assumptions C173_different_lengths.
Theorem C173_single_column ip x y xs : load_ip_values ip (map (fun v => [v]) (x :: y :: xs)) = (ip, Some IndexError).
Proof. unfold load_ip_values, loadtxt. cbn [map]. replace (forallb _ _) with true; [reflexivity|]. symmetry. apply forallb_forall. intros r [<-|H]; [reflexivity|]. apply in_map_iff in H. destruct H as (v & <- & _). reflexivity. Qed.
Print Assumptions C173_single_column.
Example C173_example : load_ip_values (None, None) [[Some 1; Some 2]; [Some 3; Some 4]] = ((Some [Some 1; Some 3], Some [Some 2; Some 4]), None).
Proof. exact (C173_pairs_partial (None, None) [(Some 1, Some 2); (Some 3, Some 4)] (le_n 2)). Qed.

(** ** C174: labels as arrays and back *)
Theorem C174_round_trip m rows names f : Forall (fun r => List.length r = m) rows -> to_iframe (PArray (A2 m rows)) names = Ok f -> convert_to_ndarray (PFrame f) = Ok (A2 m rows).
Proof. exact (ndarray_roundtrip m rows names f). Qed.
Print Assumptions C174_round_trip.
Theorem C174_array a : convert_to_ndarray (PArray a) = Ok a /\ convert_to_ndarray POther = Raise TypeError.
Proof. split; reflexivity. Qed.
Print Assumptions C174_array.
Theorem C174_wrap a l : wrap_in_list (TArray a) = Ok [a] /\ wrap_in_list (TList l) = Ok l /\ wrap_in_list TOther = Raise TypeError.
Proof. repeat split. Qed.
Print Assumptions C174_wrap.
Example C174_example : exists f, to_iframe (PArray (A2 2 [[Some 1; Some 2]; [Some 3; Some 4]])) ["a"%string; "b"%string] = Ok f /\ map fst (if_cols f) = ["a"%string; "b"%string].
Proof. eexists. split; reflexivity. Qed.
