(** Properties C30-C37: preprocessing of network inputs and outputs. *)
From Coq Require Import Reals Lra.
From Coquelicot Require Import Complex.
From Flocq Require Import IEEE754.Bits.
From Verif Require Import Py Str Sample_Model Sample_Spec Sample_Proofs Sample_Props Sampling_Model Arr Preproc_Model Preproc_Spec Preproc_Proofs OutPreproc_Proofs Float64.
Local Open Scope string_scope.
Local Open Scope R_scope.

(** ** C30 *)
Theorem C30_statistics_frozen cs m rows : Forall wf_call cs -> first_since_reset cs (A2 m rows) ->
  exists mean std, ip_run cs = mkIp (Some mean) (Some std) /\ column_statistics avg m rows mean /\ column_statistics dev m rows std.
Proof. exact (history_stats cs m rows). Qed.
Print Assumptions C30_statistics_frozen.
Theorem C30_fresh_otherwise cs : Forall wf_call cs -> (forall d, ~ first_since_reset cs d) -> ip_run cs = ip_new.
Proof. exact (history_fresh cs). Qed.
Print Assumptions C30_fresh_otherwise.
Theorem C30_has_saved cs : Forall wf_call cs -> exists b, has_saved (ip_run cs) = Ok b /\ (b = true <-> exists d, first_since_reset cs d).
Proof. exact (history_saved cs). Qed.
Print Assumptions C30_has_saved.
Theorem C30_failing_call st d e : snd (standardize st d) = Raise e -> wf_arr d -> fst (standardize st d) = st.
Proof. exact (failing_call st d e). Qed.
Print Assumptions C30_failing_call.

Definition ex_rows : list (list fl) := [[Some 1; Some 2]; [Some 3; Some 5]].
Definition ex_flat : list (list fl) := [[Some 1; Some 2]; [Some 3; Some 2]].
Lemma ex_rows_varied : ~ has_constant_column 2 ex_rows.
Proof. intros (_ & j & x & Hj & F). inversion F as [|? ? E1 F1]; subst. inversion F1 as [|? ? E2 _]; subst.
  destruct j as [|[|j]]; simpl in *; try lia; injection E1 as E1; injection E2 as E2; lra. Qed.
Lemma ex_flat_constant : has_constant_column 2 ex_flat.
Proof. split; [discriminate|]. exists 1%nat, 2. split; [lia|]. repeat constructor. Qed.
(** A reset, a rejected call, an accepted one, then two calls with other data. *)
Definition ex_calls : list ip_call :=
  [CStandardize (A2 1 [[Some 1]; [Some 2]]); CReset; CStandardize (A2 2 ex_flat); CStandardize (A2 2 ex_rows); CStandardize (A2 2 ex_flat); CRevert (A2 2 ex_flat)].
Example C30_example : Forall wf_call ex_calls /\ first_since_reset ex_calls (A2 2 ex_rows).
Proof. split.
  - unfold ex_calls, ex_rows, ex_flat. repeat constructor.
  - exists [CStandardize (A2 1 [[Some 1]; [Some 2]]); CReset], [CStandardize (A2 2 ex_flat)], [CStandardize (A2 2 ex_flat); CRevert (A2 2 ex_flat)].
    split; [reflexivity|]. split; [right; exists [CStandardize (A2 1 [[Some 1]; [Some 2]])]; reflexivity|]. split.
    + constructor; [|constructor]. intros H. apply H. exact ex_flat_constant.
    + split; [exact ex_rows_varied|]. repeat constructor; discriminate. Qed.

(** ** C31 *)
Theorem C31_revert_standardize st m a : usable st m -> wf_arr a -> last (shape a) 0%nat = m ->
  exists b, standardize st a = (st, Ok b) /\ shape b = shape a /\ revert st b = Ok a.
Proof. exact (revert_standardize st m a). Qed.
Print Assumptions C31_revert_standardize.
Theorem C31_first_call m rows : Forall (fun r => List.length r = m) rows -> Forall (Forall (fun x => x <> None)) rows -> rows <> [] ->
  ~ has_constant_column m rows ->
  exists st b, standardize ip_new (A2 m rows) = (st, Ok b) /\ revert st b = Ok (A2 m rows).
Proof. exact (first_standardize_roundtrip m rows). Qed.
Print Assumptions C31_first_call.
Example C31_example : usable (mkIp (Some [Some 2; Some 3]) (Some [Some 1; Some 4])) 2 /\ wf_arr (A2 2 ex_rows) /\ last (shape (A2 2 ex_rows)) 0%nat = 2%nat.
Proof. split; [|split; [repeat constructor|reflexivity]]. exists [Some 2; Some 3], [Some 1; Some 4]. repeat split.
  - repeat constructor; discriminate.
  - repeat constructor; try discriminate; intros H; injection H as H; lra. Qed.
Example C31_example_first : exists st b, standardize ip_new (A2 2 ex_rows) = (st, Ok b) /\ revert st b = Ok (A2 2 ex_rows).
Proof. apply C31_first_call; [repeat constructor|repeat constructor; discriminate|discriminate|exact ex_rows_varied]. Qed.

(** ** C32 *)
Theorem C32_zero_mean_unit_variance m rows : Forall (fun r => List.length r = m) rows -> ~ has_constant_column m rows ->
  exists st out, standardize ip_new (A2 m rows) = (st, Ok (A2 m out)) /\ List.length out = List.length rows /\
    forall j xs, (j < m)%nat -> entries_of j rows = map Some xs -> xs <> [] ->
      exists ys, entries_of j out = map Some ys /\ avg ys = 0 /\ dev ys = 1.
Proof. exact (first_standardize m rows). Qed.
Print Assumptions C32_zero_mean_unit_variance.
Theorem C32_constant_column_rejected m rows : Forall (fun r => List.length r = m) rows -> has_constant_column m rows ->
  standardize ip_new (A2 m rows) = (ip_new, Raise ValueError).
Proof. exact (constant_column_rejected m rows). Qed.
Print Assumptions C32_constant_column_rejected.
Example C32_example : exists st out, standardize ip_new (A2 2 ex_rows) = (st, Ok (A2 2 out)) /\
    exists ys, entries_of 0 out = map Some ys /\ avg ys = 0 /\ dev ys = 1.
Proof. destruct (C32_zero_mean_unit_variance 2 ex_rows) as (st & out & E & _ & H); [repeat constructor|exact ex_rows_varied|].
  exists st, out. split; [exact E|]. apply (H 0%nat [1; 3]); [lia|reflexivity|discriminate]. Qed.
Example C32_example_rejected : standardize ip_new (A2 2 ex_flat) = (ip_new, Raise ValueError).
Proof. apply C32_constant_column_rejected; [repeat constructor|exact ex_flat_constant]. Qed.

(** ** C33 *)
Theorem C33_round_trip s names f v : named_sample s -> label_frame s names f -> constants_hold s f -> In v ["min_to_zero"; "absolute_max"] ->
  (v = "absolute_max" -> nonzero_max s) ->
  exists prep rem g,
    apply_preprocessing (mkOp (literal v) s) (LFrame f) = Ok (prep, rem) /\ restore_labels (mkOp (literal v) s) (LFrame prep) = Ok g /\
    fr_rows g = fr_rows f /\ map fst (fr_cols g) = names /\ (forall k, In k names -> tget (fr_cols g) k = tget (fr_cols f) k).
Proof. intros. apply round_trip; assumption. Qed.
Print Assumptions C33_round_trip.
Theorem C33_round_trip_ordered s names f v : named_sample s -> ordered_frame s names f -> constants_hold s f -> In v ["min_to_zero"; "absolute_max"] ->
  (v = "absolute_max" -> nonzero_max s) ->
  exists prep rem, apply_preprocessing (mkOp (literal v) s) (LFrame f) = Ok (prep, rem) /\
    restore_labels (mkOp (literal v) s) (LFrame prep) = Ok f /\
    restore_labels (mkOp (literal v) s) (LArray (fr_rows prep) (map snd (fr_cols prep))) = Ok f.
Proof. exact (round_trip_ordered s names f v). Qed.
Print Assumptions C33_round_trip_ordered.

(** Two rows of labels of the sample of C01 *)
Definition ex_names : list string :=
  ["SiOx_thickness"; "film_thickness"; "Si_roughness"; "SiOx_roughness"; "film_roughness"; "Si_sld"; "SiOx_sld"; "film_sld"; "air_sld"].
Definition two (z : C) : list cell := [Some z; Some z].
Definition ex_frame : frame := mkFrame 2 [
  ("SiOx_thickness", two (1, 0)); ("film_thickness", real_cells [12; 20]);
  ("Si_roughness", two (1, 0)); ("SiOx_roughness", two (2, 0)); ("film_roughness", real_cells [0; 3]);
  ("Si_sld", two (20, 0)); ("SiOx_sld", two (17, 3)); ("film_sld", real_cells [1; 2]); ("air_sld", two (0, 0))].

Lemma ex_named : named_sample ex_sample.
Proof. exact (conj C01_example C02_example). Qed.
Lemma ex_ordered : ordered_frame ex_sample ex_names ex_frame.
Proof. split; [|reflexivity]. split; [exact (C01_label_order ex_sample C01_example)|]. split; [apply Permutation_refl|]. repeat constructor. Qed.

Definition ex_params : list param := [
  Const (Flt 1) (Some "SiOx_thickness"); Range (Flt 10) (Flt 20) (Some "film_thickness");
  Const (Flt 1) (Some "Si_roughness"); Const (Flt 2) (Some "SiOx_roughness"); Range (Flt 0) (Flt 5) (Some "film_roughness");
  Const (Flt 20) (Some "Si_sld"); Const (Cpx false 17 3) (Some "SiOx_sld"); Range (Flt 1) (Flt 2) (Some "film_sld"); Const (Flt 0) (Some "air_sld")].
Lemma ex_all_params : all_params ex_sample = Ok ex_params.
Proof. unfold all_params. destruct (thicknesses_ordinary ex_sample C01_example) as (ts & -> & Ft).
  destruct (roughnesses_ordinary ex_sample C01_example) as (rs & -> & Fr). destruct (slds_ordinary ex_sample C01_example) as (ss & -> & Fs). cbn [bind].
  repeat match goal with
  | H : Forall2 _ _ _ |- _ => cbn in H; inversion H; clear H; subst
  | H : labelled _ _ _ _ |- _ => destruct H as (? & E & _ & ->); cbn in E; injection E as <-
  end. reflexivity. Qed.
Lemma ex_label_names : label_names ex_sample = Ok ex_names.
Proof. exact (C01_label_order ex_sample C01_example). Qed.

Ltac label_cases H :=
  destruct H as [(l & Hl & -> & Hp)|[(l & Hl & -> & Hp)|(l & Hl & -> & Hp)]]; simpl in Hl;
  repeat (destruct Hl as [<-|Hl]; [cbn in Hp; injection Hp as <-|]); try contradiction.

Lemma ex_constants : constants_hold ex_sample ex_frame.
Proof. intros name p c H Hc Hi. label_cases H; cbn in Hc; try discriminate; cbn in Hi;
  repeat (destruct Hi as [Hi|Hi]; [try discriminate; injection Hi as <-; repeat constructor|]); contradiction. Qed.
Lemma ex_nonzero : nonzero_max ex_sample.
Proof. intros name p H Hc. label_cases H; cbn in Hc; try discriminate; cbn; unfold num_C, RtoC; simpl; intros E; injection E; lra. Qed.

Example C33_example : exists prep rem, apply_preprocessing (mkOp (literal "absolute_max") ex_sample) (LFrame ex_frame) = Ok (prep, rem) /\
    restore_labels (mkOp (literal "absolute_max") ex_sample) (LFrame prep) = Ok ex_frame.
Proof. destruct (C33_round_trip_ordered ex_sample ex_names ex_frame "absolute_max" ex_named ex_ordered ex_constants) as (prep & rem & A & B & _);
  [simpl; auto|intros _; exact ex_nonzero|eauto]. Qed.

(** ** C34 *)
Theorem C34_unit_interval s names f k lo hi n xs : named_sample s -> label_frame s names f ->
  label_param s k (Range (Flt lo) (Flt hi) n) -> In (k, real_cells xs) (fr_cols f) -> lo < hi -> Forall (fun x => lo <= x <= hi) xs ->
  exists prep rem ys, apply_preprocessing (mkOp (literal "min_to_zero") s) (LFrame f) = Ok (prep, rem) /\
    In (k, real_cells ys) (fr_cols prep) /\ unit_scaled lo hi xs ys.
Proof. exact (min_to_zero_column s names f k lo hi n xs). Qed.
Print Assumptions C34_unit_interval.
(** The same computation in IEEE double precision: inside [0,1], ends exact, order kept (weakly). *)
Theorem C34_double_precision lo hi : b64fin lo = true -> b64fin hi = true -> b64R lo < b64R hi -> b64fin (sub64 hi lo) = true ->
  (forall x, b64fin x = true -> b64R lo <= b64R x <= b64R hi ->
     b64fin (b64_normalize lo hi x) = true /\ 0 <= b64R (b64_normalize lo hi x) <= 1) /\
  b64R (b64_normalize lo hi lo) = 0 /\ b64R (b64_normalize lo hi hi) = 1 /\
  (forall x y, b64fin x = true -> b64fin y = true -> b64R lo <= b64R x -> b64R x <= b64R y -> b64R y <= b64R hi ->
     b64R (b64_normalize lo hi x) <= b64R (b64_normalize lo hi y)).
Proof. exact (normalize64 lo hi). Qed.
Print Assumptions C34_double_precision.
Example C34_example : exists prep rem ys, apply_preprocessing (mkOp (literal "min_to_zero") ex_sample) (LFrame ex_frame) = Ok (prep, rem) /\
    In ("film_thickness", real_cells ys) (fr_cols prep) /\ unit_scaled 10 20 [12; 20] ys.
Proof. apply (C34_unit_interval ex_sample ex_names ex_frame "film_thickness" 10 20 (Some "thickness") [12; 20] ex_named (proj1 ex_ordered)).
  - left. exists ex_film. split; [simpl; auto|]. split; reflexivity.
  - simpl. auto.
  - lra.
  - repeat constructor; lra. Qed.

(** ** C35 *)
(** The documented scaling fails when the minimum is larger in absolute value than the maximum, and for maximum zero. *)
Definition ex_neg : layer := mkLayer KLayer "film"
  (Some (Const (Flt 10) (Some "thickness"))) (Some (Const (Flt 1) (Some "roughness"))) (Some (Range (Flt (-2)) (Flt 1) (Some "sld"))).
Definition ex_neg_sample : structure := mkStructure ex_amb ex_sub [ex_neg].
Definition ex_neg_names : list string := ["film_thickness"; "Si_roughness"; "film_roughness"; "Si_sld"; "film_sld"; "air_sld"].
Definition ex_neg_frame : frame := mkFrame 1 [
  ("film_thickness", [Some (10, 0)]); ("Si_roughness", [Some (1, 0)]); ("film_roughness", [Some (1, 0)]);
  ("Si_sld", [Some (20, 0)]); ("film_sld", real_cells [-2]); ("air_sld", [Some (0, 0)])].
Lemma ex_neg_named : named_sample ex_neg_sample.
Proof. split.
  - unfold ordinary_sample, substrate_layer, film_layer, ambient_layer, named. ex.
  - repeat constructor; simpl; intuition discriminate. Qed.
Lemma ex_neg_ordered : label_frame ex_neg_sample ex_neg_names ex_neg_frame.
Proof. split; [exact (C01_label_order ex_neg_sample (proj1 ex_neg_named))|]. split; [apply Permutation_refl|]. repeat constructor. Qed.

Theorem C35_absolute_max_refuted : exists s names f k lo hi n xs prep rem ys, named_sample s /\ label_frame s names f /\
  label_param s k (Range (Flt lo) (Flt hi) n) /\ In (k, real_cells xs) (fr_cols f) /\ Forall (fun x => lo <= x <= hi) xs /\
  apply_preprocessing (mkOp (literal "absolute_max") s) (LFrame f) = Ok (prep, rem) /\
  In (k, real_cells ys) (fr_cols prep) /\ ~ Forall (fun y => -1 <= y <= 1) ys.
Proof. destruct (absolute_max_column ex_neg_sample ex_neg_names ex_neg_frame "film_sld" (-2) 1 (Some "sld") [-2] ex_neg_named ex_neg_ordered) as (prep & rem & E & I).
  - right; right. exists ex_neg. split; [simpl; auto|]. split; reflexivity.
  - simpl. auto 10.
  - lra.
  - do 5 eexists; exists 1; do 2 eexists; exists prep, rem; eexists. split; [exact ex_neg_named|]. split; [exact ex_neg_ordered|].
    split; [right; right; exists ex_neg; split; [simpl; auto|]; split; reflexivity|]. split; [instantiate (1 := [-2]); simpl; auto 10|]. split; [repeat constructor; lra|].
    split; [exact E|]. split; [exact I|]. intros F. inversion F as [|? ? H _]; subst. rewrite Rabs_R1 in H. lra. Qed.
Print Assumptions C35_absolute_max_refuted.
Theorem C35_absolute_max_partial s names f k lo hi n xs : named_sample s -> label_frame s names f ->
  label_param s k (Range (Flt lo) (Flt hi) n) -> In (k, real_cells xs) (fr_cols f) -> Forall (fun x => lo <= x <= hi) xs ->
  Rabs lo <= Rabs hi -> hi <> 0 ->
  exists prep rem ys, apply_preprocessing (mkOp (literal "absolute_max") s) (LFrame f) = Ok (prep, rem) /\
    In (k, real_cells ys) (fr_cols prep) /\ List.length ys = List.length xs /\ Forall (fun y => -1 <= y <= 1) ys /\
    (forall i, (i < List.length xs)%nat -> nth i xs 0 = hi -> Rabs (nth i ys 0) = 1).
Proof. exact (absolute_max_bound s names f k lo hi n xs). Qed.
Print Assumptions C35_absolute_max_partial.
Theorem C35_zero_maximum s names f k lo n xs : named_sample s -> label_frame s names f ->
  label_param s k (Range (Flt lo) (Flt 0) n) -> In (k, real_cells xs) (fr_cols f) ->
  exists prep rem, apply_preprocessing (mkOp (literal "absolute_max") s) (LFrame f) = Ok (prep, rem) /\
    In (k, repeat None (List.length xs)) (fr_cols prep).
Proof. exact (absolute_max_zero s names f k lo n xs). Qed.
Print Assumptions C35_zero_maximum.
Example C35_example : exists prep rem ys, apply_preprocessing (mkOp (literal "absolute_max") ex_sample) (LFrame ex_frame) = Ok (prep, rem) /\
    In ("film_thickness", real_cells ys) (fr_cols prep) /\ Forall (fun y => -1 <= y <= 1) ys.
Proof. destruct (C35_absolute_max_partial ex_sample ex_names ex_frame "film_thickness" 10 20 (Some "thickness") [12; 20] ex_named (proj1 ex_ordered)) as (prep & rem & ys & A & B & _ & D & _).
  - left. exists ex_film. split; [simpl; auto|]. split; reflexivity.
  - simpl. auto.
  - repeat constructor; lra.
  - rewrite !Rabs_pos_eq; lra.
  - lra.
  - exists prep, rem, ys. auto. Qed.

(** ** C36 *)
Theorem C36_split_off s names f v : named_sample s -> label_frame s names f -> In v ["min_to_zero"; "absolute_max"] ->
  exists prep rem, apply_preprocessing (mkOp (literal v) s) (LFrame f) = Ok (prep, rem) /\
    fr_rows prep = fr_rows f /\ fr_rows rem = fr_rows f /\
    (exists p, map fst (fr_cols prep) = filter p (map fst (fr_cols f)) /\ forall k, In k names -> (p k = true <-> variable_label s k)) /\
    (exists p, map fst (fr_cols rem) = filter p names /\ forall k, In k names -> (p k = true <-> constant_label s k)) /\
    (forall k, constant_label s k -> tget (fr_cols rem) k = tget (fr_cols f) k).
Proof. exact (split_off s names f v). Qed.
Print Assumptions C36_split_off.
Example C36_example : exists prep rem, apply_preprocessing (mkOp (literal "min_to_zero") ex_sample) (LFrame ex_frame) = Ok (prep, rem) /\
  map fst (fr_cols prep) = ["film_thickness"; "film_roughness"; "film_sld"] /\
  rem = mkFrame 2 [("SiOx_thickness", two (1, 0)); ("Si_roughness", two (1, 0)); ("SiOx_roughness", two (2, 0)); ("Si_sld", two (20, 0)); ("SiOx_sld", two (17, 3)); ("air_sld", two (0, 0))].
Proof. unfold apply_preprocessing, remove_labels, normalize_labels. cbn [op_sample op_norm]. rewrite ex_all_params, ex_label_names.
  eexists; eexists. split; [reflexivity|]. split; reflexivity. Qed.

(** ** C37 *)
(** A string that equals an allowed name but is not the interned literal is accepted and then silently ignored. *)
Theorem C37_normalisation_applied_refuted : exists s names f v nm o prep rem, named_sample s /\ label_frame s names f /\
  ps_val nm = v /\ mk_out_pp s nm = Ok o /\ apply_preprocessing o (LFrame f) = Ok (prep, rem) /\
  exists prep' rem', apply_preprocessing (mkOp (literal v) s) (LFrame f) = Ok (prep', rem') /\ prep <> prep'.
Proof. exists ex_sample, ex_names, ex_frame, "min_to_zero", (mkPystr "min_to_zero" false). do 3 eexists.
  split; [exact ex_named|]. split; [exact (proj1 ex_ordered)|]. split; [reflexivity|]. split; [reflexivity|].
  split. { unfold apply_preprocessing, remove_labels, normalize_labels. cbn [op_sample op_norm]. rewrite ex_all_params, ex_label_names. reflexivity. }
  destruct (C34_example) as (prep & rem & ys & E & I & L & B & _). exists prep, rem. split; [exact E|]. intros H. subst prep. cbn in I.
  destruct I as [I|[I|[I|[]]]]; try discriminate. injection I as I. destruct ys as [|a [|b ys]]; try discriminate. injection I as I _.
  assert (H0 : (0 < 2)%nat) by lia. specialize (B 0%nat H0). simpl in B. lra. Qed.
Print Assumptions C37_normalisation_applied_refuted.
Theorem C37_accepted_names s nm : (exists o, mk_out_pp s nm = Ok o) <-> In (ps_val nm) ["min_to_zero"; "absolute_max"].
Proof. exact (mk_out_pp_Ok s nm). Qed.
Print Assumptions C37_accepted_names.
Theorem C37_not_interned_unchanged s names f v : named_sample s -> label_frame s names f ->
  exists prep rem, apply_preprocessing (mkOp (mkPystr v false) s) (LFrame f) = Ok (prep, rem) /\
    forall k c, variable_label s k -> In (k, c) (fr_cols f) -> In (k, c) (fr_cols prep).
Proof. exact (apply_unknown s names f v). Qed.
Print Assumptions C37_not_interned_unchanged.
Example C37_example : exists o, mk_out_pp ex_sample (mkPystr "absolute_max" false) = Ok o.
Proof. eexists. reflexivity. Qed.
