(** Properties of the evaluation of predictions. *)
From Coq Require Import Reals Lra.
From Coquelicot Require Import Complex.
From Verif Require Import Py Str Cplx Arr Sample_Model Sample_Proofs Simulation_Model Simulation_Spec SldProfile_Model SldProfile_Spec Preproc_Model Preproc_Spec Training_Props Fitter_Model Fitter_Spec Fitter_Props
  FileFitter_Model Prediction_Model Prediction_Spec Prediction_Proofs Profile_Proofs.
Local Open Scope string_scope.
Local Open Scope R_scope.

(** ** C110 *)
(** Labels are compared by name, rows by position, whatever the order of the columns and the values of the index. *)
Theorem C110_absolute names lt lp f g : denotes names lt f -> denotes names lp g -> table_ok f -> table_ok g -> unnamed f -> unnamed g ->
  error_table f g (is_mean abs_error) (mean_absolute_error names lp lt).
Proof. exact (mae_ok names lt lp f g). Qed.
Print Assumptions C110_absolute.
Theorem C110_relative names lt lp f g : denotes names lt f -> denotes names lp g -> table_ok f -> table_ok g -> unnamed f -> unnamed g ->
  error_table f g is_mean_rel (mean_absolute_percentage_error names lp lt).
Proof. exact (mape_ok names lt lp f g). Qed.
Print Assumptions C110_relative.
Theorem C110_arrays names rows : NoDup names -> ~ In "index" names ->
  table_ok (array_table names rows) /\ unnamed (array_table names rows) /\ map fst (if_cols (array_table names rows)) = names /\
  List.length (if_index (array_table names rows)) = List.length rows /\
  forall j, (j < List.length names)%nat -> In (nth j names "", map (fun r => nth j r None) rows) (if_cols (array_table names rows)).
Proof. exact (array_table_ok names rows). Qed.
Print Assumptions C110_arrays.
Theorem C110_wrong_width names m rows l : m <> List.length names ->
  mean_absolute_error names l (PArray (A2 m rows)) = Raise ValueError /\ mean_absolute_percentage_error names l (PArray (A2 m rows)) = Raise ValueError.
Proof. exact (wrong_width names m rows l). Qed.
Print Assumptions C110_wrong_width.
(** A vector of labels is one column: it needs exactly one name. *)
Theorem C110_vector names v l : List.length names <> 1%nat ->
  mean_absolute_error names l (PArray (A1 v)) = Raise ValueError /\ mean_absolute_percentage_error names l (PArray (A1 v)) = Raise ValueError.
Proof. exact (vector_labels names v l). Qed.
Print Assumptions C110_vector.
Theorem C110_vector_one_name k v l : mean_absolute_error [k] l (PArray (A1 v)) = mean_absolute_error [k] l (PArray (A2 1 (map (fun x => [x]) v))) /\
  mean_absolute_percentage_error [k] l (PArray (A1 v)) = mean_absolute_percentage_error [k] l (PArray (A2 1 (map (fun x => [x]) v))).
Proof. exact (vector_labels_one k v l). Qed.
Print Assumptions C110_vector_one_name.
(** Without missing values these are the usual means. *)
Theorem C110_absolute_complete names lt lp f g l ts ps : denotes names lt f -> denotes names lp g -> table_ok f -> table_ok g -> unnamed f -> unnamed g ->
  In (l, map Some ts) (if_cols f) -> In (l, map Some ps) (if_cols g) -> List.length ts = List.length ps -> ts <> [] ->
  exists out, mean_absolute_error names lp lt = Ok out /\ In (l, XR (avg (map (fun p => Rabs (fst p - snd p)) (combine ts ps)))) out.
Proof. exact (mae_complete names lt lp f g l ts ps). Qed.
Print Assumptions C110_absolute_complete.
Theorem C110_relative_complete names lt lp f g l ts ps : denotes names lt f -> denotes names lp g -> table_ok f -> table_ok g -> unnamed f -> unnamed g ->
  In (l, map Some ts) (if_cols f) -> In (l, map Some ps) (if_cols g) -> List.length ts = List.length ps -> ts <> [] -> Forall (fun t => t <> 0) ts ->
  exists out, mean_absolute_percentage_error names lp lt = Ok out /\ In (l, XR (avg (map (fun p => Rabs (fst p - snd p) / Rabs (fst p)) (combine ts ps)))) out.
Proof. exact (mape_complete names lt lp f g l ts ps). Qed.
Print Assumptions C110_relative_complete.
Theorem C110_zero_iff_equal ts ps : List.length ts = List.length ps -> ts <> [] ->
  0 <= avg (map (fun p => Rabs (fst p - snd p)) (combine ts ps)) /\ (avg (map (fun p => Rabs (fst p - snd p)) (combine ts ps)) = 0 <-> ts = ps).
Proof. exact (abs_zero ts ps). Qed.
Print Assumptions C110_zero_iff_equal.
(** False if both indices have names, as the tables of fit results do ('scan'): KeyError. *)
Theorem C110_named_index_refuted names f g x y : if_name f = Some x -> if_name g = Some y -> x <> "index" -> y <> "index" ->
  ~ In x (map fst (if_cols f)) -> ~ In y (map fst (if_cols g)) -> ~ In "index" (map fst (if_cols f)) -> ~ In "index" (map fst (if_cols g)) ->
  mean_absolute_error names (PFrame g) (PFrame f) = Raise KeyError /\ mean_absolute_percentage_error names (PFrame g) (PFrame f) = Raise KeyError.
Proof. exact (both_named names f g x y). Qed.
Print Assumptions C110_named_index_refuted.
(** If the predicted table has a named index, its name appears among the labels, with NaN. *)
Theorem C110_one_named_index_refuted names f g y : table_ok f -> table_ok g -> unnamed f -> if_name g = Some y -> y <> "index" -> ~ In y (map fst (if_cols g)) -> ~ In y (map fst (if_cols f)) ->
  (exists out, mean_absolute_error names (PFrame g) (PFrame f) = Ok out /\ In (y, XNaN) out) /\
  (exists out, mean_absolute_percentage_error names (PFrame g) (PFrame f) = Ok out /\ In (y, XNaN) out).
Proof. exact (one_named names f g y). Qed.
Print Assumptions C110_one_named_index_refuted.
Definition px_truth : iframe := mkIframe None [Some 0; Some 1] [("a", [Some 2; Some 4]); ("b", [Some 1; None])].
Definition px_guess : iframe := mkIframe None [Some 7; Some 3] [("b", [Some 4; Some 9]); ("a", [Some 1; Some 7])].
Example C110_example : exists out, mean_absolute_error ["a"; "b"] (PFrame px_guess) (PFrame px_truth) = Ok out /\ In ("a", XR 2) out.
Proof. destruct (mae_complete ["a"; "b"] (PFrame px_truth) (PFrame px_guess) px_truth px_guess "a" [2; 4] [1; 7]) as (out & E & H).
  - left. reflexivity.
  - left. reflexivity.
  - split; [repeat constructor; cbn; intuition discriminate|repeat constructor].
  - split; [repeat constructor; cbn; intuition discriminate|repeat constructor].
  - split; [reflexivity|cbn; intuition discriminate].
  - split; [reflexivity|cbn; intuition discriminate].
  - left. reflexivity.
  - right. left. reflexivity.
  - reflexivity.
  - discriminate.
  - exists out. split; [exact E|]. replace 2 with (avg (map (fun p => Rabs (fst p - snd p)) (combine [2; 4] [1; 7]))); [exact H|].
    unfold avg, sum. cbn. rewrite (Rabs_right (2 - 1)), (Rabs_left (4 - 7)) by lra. lra. Qed.
Example C110_example_named : mean_absolute_error [] (PFrame (mkIframe (Some "scan") [Some 5] [("a", [Some 1])])) (PFrame (mkIframe (Some "scan") [Some 5] [("a", [Some 1])])) = Raise KeyError.
Proof. reflexivity. Qed.

(** ** C117 *)
Theorem C117_one_row_per_curve predict k names a m rows : predicts predict k ->
  a = A2 m rows \/ (rows = [match a with A1 v => v | A2 _ _ => [] end] /\ exists v, a = A1 v /\ m = List.length v) ->
  Forall (fun r => List.length r = m) rows ->
  (List.length names = k -> exists out, predict (A2 m rows) = Ok (A2 k out) /\ List.length out = List.length rows /\ predict_table predict names a = Ok (array_table names out)) /\
  (List.length names <> k -> predict_table predict names a = Raise ValueError).
Proof. exact (predict_ok predict k names a m rows). Qed.
Print Assumptions C117_one_row_per_curve.
(** Predicted labels can be compared with true labels. *)
Theorem C117_evaluation predict k names a m rows truth : predicts predict k -> NoDup names -> ~ In "index" names -> List.length names = k ->
  a = A2 m rows -> Forall (fun r => List.length r = m) rows ->
  exists out g, predict a = Ok (A2 k out) /\ predict_table predict names a = Ok g /\
    error_table (array_table names truth) (array_table names out) (is_mean abs_error) (mean_absolute_error names (PFrame g) (PArray (A2 k truth))).
Proof. exact (predict_evaluate predict k names a m rows truth). Qed.
Print Assumptions C117_evaluation.
Example C117_example : predict_table (fun a => match a with A2 m rows => Ok (A2 2 (map (fun r => [nth 0 r None; Some 3]) rows)) | A1 _ => Raise ValueError end) ["a"; "b"] (A1 [Some 1; Some 5])
  = Ok (mkIframe None [Some (INR 0)] [("a", [Some 1]); ("b", [Some 3])]).
Proof. reflexivity. Qed.

(** ** C118 *)
Theorem C118_series_profiles erf names l se : NoDup names -> Forall (complete_result names) l -> series_new l = Ok se -> series_profiles erf se = mapM (result_profile erf) l.
Proof. exact (profiles_of_series erf names l se). Qed.
Print Assumptions C118_series_profiles.
Theorem C118_profile_of_result erf refl1d m names r : fittable refl1d (nn_sample m) -> network_ok m names -> complete_result names r ->
  exists T Ru Sl p, known_cols (r_params r) = (T ++ Ru ++ Sl)%list /\ label_table (nn_sample m) 1 T Ru Sl /\ row_profile erf T Ru Sl 0 = Ok p /\ result_profile erf r = Ok p.
Proof. exact (profile_of_result erf refl1d m names r). Qed.
Print Assumptions C118_profile_of_result.
Theorem C118_one_per_result erf refl1d m names l se : fittable refl1d (nn_sample m) -> network_ok m names -> Forall (complete_result names) l -> NoDup names -> series_new l = Ok se ->
  exists ps, series_profiles erf se = Ok ps /\ List.length ps = List.length l /\ forall i r p, nth_error l i = Some r -> nth_error ps i = Some p -> result_profile erf r = Ok p.
Proof. exact (series_profiles_total erf refl1d m names l se). Qed.
Print Assumptions C118_one_per_result.
Definition px_result (n : Z) (x : R) : fit_result :=
  mkResult n None [] [] [] [] (mkFrame 1 (map (fun k => (k, [Some (RtoC x)])) Training_Props.ex_names)) [n] None (nn_sample ex_nn).
Example C118_example erf : exists se ps, series_new [px_result 4 1; px_result 6 2] = Ok se /\ series_profiles erf se = Ok ps /\ List.length ps = 2%nat.
Proof. assert (H : forall n x, complete_result Training_Props.ex_names (px_result n x)).
  { intros n x. split; [cbn [px_result r_params fr_cols]; rewrite map_map; apply map_id|]. split; [reflexivity|]. apply Forall_map, Forall_forall. intros k _. eexists. reflexivity. }
  destruct (series_new [px_result 4 1; px_result 6 2]) as [se|e] eqn:E; [|discriminate].
  assert (N : NoDup Training_Props.ex_names) by (repeat constructor; cbn; intuition discriminate).
  destruct (series_profiles_total erf None ex_nn Training_Props.ex_names [px_result 4 1; px_result 6 2] se ex_fittable ex_network) as (ps & A & L & _).
  - constructor; [apply H|]. constructor; [apply H|]. constructor.
  - exact N.
  - exact E.
  - exists se, ps. split; [reflexivity|]. split; assumption. Qed.
