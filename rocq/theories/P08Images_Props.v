(** Properties of the pictures loaded for a scan (C138, C139). *)
From Coq Require Import Reals Lra Sorted.
From Verif Require Import Py Str Arr Footprint_Model Scan_Model Spec_Model Fio_Model P08_Model SpecFile_Spec FioFile_Spec P08_Spec P08Scan_Spec P08Images_Spec ScanFit_Spec
  Spec_Proofs Fio_Proofs P08_Proofs P08Loader_Proofs ScanPlot_Proofs P08Images_Proofs.
Local Open Scope R_scope.
Local Open Scope string_scope.

(** Three pictures of one pixel *)
Definition ix_pictures : list image := [[[Some 10]]; [[Some 11]]; [[Some 12]]].
Definition ix_media : media := mkMedia [] [("data/x_00001/lambda/x_00001_00000.nxs", ix_pictures); ("data/x_00001/eiger1m/old_master.h5", ix_pictures)]
  [("data/x_00001/mythen/x_00001_1.raw", map Some [1; 2]); ("data/x_00001/mythen/x_00001_0.raw", map Some [3; 4]); ("data/x_00001/mythen/x_00001_2.raw", map Some [5; 6])].
Definition ix_scan (index positions : list fl) (detectors : list string) : fscan :=
  mkFscan "x_00001" "data" None [] [("om", positions); ("lambda_index", index)] [] ["om"] [positions] detectors [] None false.
Definition numbers (ns : list nat) : list fl := map (fun k => Some (INR k)) ns.

Lemma ix_lambda s ns : f_dir s = "data" -> f_name s = "x_00001" -> dict_get String.eqb (f_data s) "lambda_index" = Some (numbers ns) ->
  load_detector ix_media s "lambda" = Ok (remove_double_fromstack (f_removed s) (S3 (keep_but (filter (fun i => negb (existsb (Nat.eqb i) ns)) (seq 0 3)) ix_pictures))).
Proof. intros D N E. unfold load_detector. change (String.eqb "lambda" "lambda") with true. cbv iota. unfold load_lambda. rewrite D, N. change (open_file _ _) with (Ok ix_pictures). cbn [bind]. rewrite (indexed_nat _ _ ns); [reflexivity|exact E]. Qed.

(** ** C138 *)
(** Which detectors a scan has: recognised by the names of the columns *)
Theorem C138_detectors names det : In det (detectors_of names) <->
  exists earlier later name, ["lambda"; "p100k"; "p300k"; "eiger"; "mythen"; "pe"] = (earlier ++ det :: later)%list /\ In name names /\
    (exists w, In w (detector_parts det) /\ part w name) /\ (forall d w, In d earlier -> In w (detector_parts d) -> ~ part w name).
Proof. exact (detectors_of_iff names det). Qed.
Print Assumptions C138_detectors.

(** Lambda detector: the pictures of the file of the scan that the index column names, in the order of the file, without the removed points *)
Theorem C138_lambda m s s' : load_image_stack m s = Ok s' -> In "lambda" (f_detectors s) ->
  exists imgs mid out, dict_get String.eqb (m_stacks m) (lambda_path (f_dir s) (f_name s)) = Some imgs /\
    selection (in_index (dict_get String.eqb (f_data s) "lambda_index")) imgs mid /\ selection (without (f_removed s)) mid out /\
    dict_get String.eqb (f_images s') "lambda" = Some (S3 out).
Proof. exact (lambda_stack m s s'). Qed.
Print Assumptions C138_lambda.
Theorem C138_lambda_missing m s : dict_get String.eqb (m_stacks m) (lambda_path (f_dir s) (f_name s)) = None -> In "lambda" (f_detectors s) ->
  load_image_stack m s = Raise FileNotFoundError.
Proof. exact (lambda_missing m s). Qed.
Print Assumptions C138_lambda_missing.
(** Eiger detector: the same from the master file of the scan, or else from the only master file of the folder *)
Theorem C138_eiger m s s' folder path imgs : load_image_stack m s = Ok s' -> In "eiger" (f_detectors s) -> eiger_name (f_name s) folder ->
  dict_get String.eqb (m_stacks m) path = Some imgs ->
  path = eiger_path (f_dir s) folder \/
  dict_get String.eqb (m_stacks m) (eiger_path (f_dir s) folder) = None /\ master_file (f_dir s) folder path /\
    (forall p, In p (map fst (m_images m) ++ map fst (m_stacks m) ++ map fst (m_raw m))%list -> master_file (f_dir s) folder p -> p = path) ->
  exists mid out, selection (in_index (dict_get String.eqb (f_data s) "eiger_index")) imgs mid /\ selection (without (f_removed s)) mid out /\
    dict_get String.eqb (f_images s') "eiger" = Some (S3 out).
Proof. exact (eiger_stack_of m s s' folder path imgs). Qed.
Print Assumptions C138_eiger.
(** Line detector: all profile files of the scan in the order of their names *)
Theorem C138_profiles m s s' : load_image_stack m s = Ok s' -> In "mythen" (f_detectors s) -> exists paths lines,
  in_order paths /\ (forall p, In p paths <-> In p (map fst (m_raw m)) /\ profile_file (f_dir s) (f_name s) "mythen" p) /\
  Forall2 (fun p l => dict_get String.eqb (m_raw m) p = Some l) paths lines /\ lines <> [] /\ (exists w, Forall (fun l => List.length l = w) lines) /\
  dict_get String.eqb (f_images s') "mythen" = Some (S2 lines).
Proof. exact (mythen_stack m s s'). Qed.
Print Assumptions C138_profiles.
(** Nothing else is loaded. *)
Theorem C138_others m s s' det : load_image_stack m s = Ok s' -> ~ In det ["lambda"; "p100k"; "eiger"; "mythen"] \/ ~ In det (f_detectors s) ->
  dict_get String.eqb (f_images s') det = dict_get String.eqb (f_images s) det.
Proof. exact (other_stacks m s s' det). Qed.
Print Assumptions C138_others.
(** Point [i] gets the picture named by its index if the indices increase and are all in the file. *)
Theorem C138_matching_partial m s s' ns : load_image_stack m s = Ok s' -> In "lambda" (f_detectors s) -> f_removed s = None ->
  dict_get String.eqb (f_data s) "lambda_index" = Some (map (fun k => Some (INR k)) ns) -> increasing_nat ns ->
  (forall imgs, dict_get String.eqb (m_stacks m) (lambda_path (f_dir s) (f_name s)) = Some imgs -> Forall (fun k => (k < List.length imgs)%nat) ns) ->
  exists imgs out, dict_get String.eqb (m_stacks m) (lambda_path (f_dir s) (f_name s)) = Some imgs /\
    dict_get String.eqb (f_images s') "lambda" = Some (S3 out) /\ matching (map (fun k => Some (INR k)) ns) imgs out.
Proof. exact (lambda_matching m s s' ns). Qed.
Print Assumptions C138_matching_partial.
(** The order of the indices and repeated indices make no difference. *)
Theorem C138_order_ignored m s1 s2 s1' s2' c1 c2 : load_image_stack m s1 = Ok s1' -> load_image_stack m s2 = Ok s2' -> In "lambda" (f_detectors s1) -> In "lambda" (f_detectors s2) ->
  f_removed s1 = None -> f_removed s2 = None -> f_dir s1 = f_dir s2 -> f_name s1 = f_name s2 ->
  dict_get String.eqb (f_data s1) "lambda_index" = Some c1 -> dict_get String.eqb (f_data s2) "lambda_index" = Some c2 -> (forall x, In x c1 <-> In x c2) ->
  dict_get String.eqb (f_images s1') "lambda" = dict_get String.eqb (f_images s2') "lambda".
Proof. exact (lambda_order m s1 s2 s1' s2' c1 c2). Qed.
Print Assumptions C138_order_ignored.
(** Indices in another order: each point gets the picture of the other one. *)
Theorem C138_matching_refuted : exists m s s' imgs out c, load_image_stack m s = Ok s' /\ In "lambda" (f_detectors s) /\ f_removed s = None /\
  dict_get String.eqb (f_data s) "lambda_index" = Some c /\ c = numbers [1; 0]%nat /\
  dict_get String.eqb (m_stacks m) (lambda_path (f_dir s) (f_name s)) = Some imgs /\ List.length imgs = 3%nat /\
  dict_get String.eqb (f_images s') "lambda" = Some (S3 out) /\ List.length out = List.length c /\ ~ matching c imgs out.
Proof. exists ix_media, (ix_scan (numbers [1; 0]%nat) (numbers [5; 6]%nat) ["lambda"]). eexists. exists ix_pictures, [[[Some 10]]; [[Some 11]]], (numbers [1; 0]%nat).
  split; [unfold load_image_stack; cbn [foldM existsb f_detectors ix_scan]; rewrite (ix_lambda _ [1; 0]%nat) by reflexivity; reflexivity|]. split; [left; reflexivity|]. split; [reflexivity|]. split; [reflexivity|]. split; [reflexivity|]. split; [reflexivity|]. split; [reflexivity|]. split; [reflexivity|].
  split; [reflexivity|]. intros H. inversion H as [|? ? ? ? (k & E1 & E2) _]; subst. injection E1 as E1. change 1 with (INR 1) in E1. apply INR_eq in E1. subst k. cbn in E2. injection E2 as E2. lra. Qed.
Print Assumptions C138_matching_refuted.
Example C138_example : exists s', load_image_stack ix_media (ix_scan (numbers [0; 2]%nat) (numbers [5; 6]%nat) ["lambda"; "eiger"; "mythen"]) = Ok s' /\
  f_images s' = [("lambda", S3 [[[Some 10]]; [[Some 12]]]); ("eiger", S3 ix_pictures); ("mythen", S2 [map Some [3; 4]; map Some [1; 2]; map Some [5; 6]])].
Proof. eexists. split; [unfold load_image_stack; cbn [foldM existsb f_detectors ix_scan]; rewrite (ix_lambda _ [0; 2]%nat) by reflexivity; reflexivity|]. reflexivity. Qed.
Example C138_detectors_example : In "pe" (detectors_of ["om"; "pe_roi1"]) /\ ~ In "eiger" (detectors_of ["om"; "pe_roi1"; "lambda_eiger"]).
Proof. split; [left; reflexivity|]. vm_compute. intuition discriminate. Qed.
Example C138_folder_example : eiger_name "x_00001" "x_00001" /\ eiger_name "run.part_00007" "run_00007" /\ master_file "data" "x_00001" "data/x_00001/eiger1m/old_master.h5".
Proof. split; [apply eiger_plain; reflexivity|]. split; [apply (eiger_dotted "run" "part" "00007" ""); try reflexivity; left; reflexivity|]. exists "old_master.h5". split; [reflexivity|]. split; reflexivity. Qed.

(** ** C139 *)
(** Without index columns it does not matter whether repeated points are removed before or after the pictures are loaded. *)
Theorem C139_same_order_partial m s s1 s2 : f_doubles s = false -> f_removed s = None -> ~ In "mythen" (f_detectors s) ->
  (forall det, In det (f_detectors s) -> dict_get String.eqb (f_data s) (det ++ "_index") = None) ->
  load_image_stack m s = Ok s1 -> remove_double s = Ok s2 -> load_image_stack m s2 = remove_double s1.
Proof. exact (commute m s s1 s2). Qed.
Print Assumptions C139_same_order_partial.
(** With an index column the points are removed twice: three points, the first repeated; one picture is left for two points. *)
Theorem C139_removed_twice_refuted : exists m s s1 s2 s3 s4, f_doubles s = false /\ f_removed s = None /\ aligned 3 s /\
  dict_get String.eqb (f_data s) "lambda_index" = Some (numbers [0; 1; 2]%nat) /\
  load_image_stack m s = Ok s1 /\ remove_double s1 = Ok s3 /\ remove_double s = Ok s2 /\ load_image_stack m s2 = Ok s4 /\
  f_positions s3 = [numbers [5; 6]%nat] /\ dict_get String.eqb (f_images s3) "lambda" = Some (S3 [[[Some 11]]; [[Some 12]]]) /\
  f_positions s4 = [numbers [5; 6]%nat] /\ dict_get String.eqb (f_images s4) "lambda" = Some (S3 [[[Some 12]]]).
Proof. exists ix_media, (ix_scan (numbers [0; 1; 2]%nat) (numbers [5; 5; 6]%nat) ["lambda"]).
  assert (R : repeated_from 0 (numbers [5; 5; 6]%nat) = [0%nat]) by exact (repeated_nat [5; 5; 6]%nat 0).
  assert (L1 : load_image_stack ix_media (ix_scan (numbers [0; 1; 2]%nat) (numbers [5; 5; 6]%nat) ["lambda"]) =
    Ok (set_images [("lambda", S3 ix_pictures)] (ix_scan (numbers [0; 1; 2]%nat) (numbers [5; 5; 6]%nat) ["lambda"]))).
  { unfold load_image_stack. cbn [foldM existsb f_detectors ix_scan]. rewrite (ix_lambda _ [0; 1; 2]%nat) by reflexivity. reflexivity. }
  set (s := ix_scan _ _ _) in *.
  assert (M1 : remove_double s = Ok (mkFscan "x_00001" "data" None [] [("om", numbers [5; 6]%nat); ("lambda_index", numbers [1; 2]%nat)] [] ["om"] [numbers [5; 6]%nat] ["lambda"] [] (Some [0%nat]) true)).
  { unfold remove_double. change (f_doubles s) with false. change (py_get (f_positions s) 0) with (Ok (numbers [5; 5; 6]%nat)). cbn [bind]. rewrite R. reflexivity. }
  assert (M2 : remove_double (set_images [("lambda", S3 ix_pictures)] s) =
    Ok (mkFscan "x_00001" "data" None [] [("om", numbers [5; 6]%nat); ("lambda_index", numbers [1; 2]%nat)] [] ["om"] [numbers [5; 6]%nat] ["lambda"] [("lambda", S3 [[[Some 11]]; [[Some 12]]])] (Some [0%nat]) true)).
  { unfold remove_double. change (f_doubles _) with false. change (py_get _ 0) with (Ok (numbers [5; 5; 6]%nat)). cbn [bind]. rewrite R. reflexivity. }
  assert (L2 : load_image_stack ix_media (mkFscan "x_00001" "data" None [] [("om", numbers [5; 6]%nat); ("lambda_index", numbers [1; 2]%nat)] [] ["om"] [numbers [5; 6]%nat] ["lambda"] [] (Some [0%nat]) true) =
    Ok (mkFscan "x_00001" "data" None [] [("om", numbers [5; 6]%nat); ("lambda_index", numbers [1; 2]%nat)] [] ["om"] [numbers [5; 6]%nat] ["lambda"] [("lambda", S3 [[[Some 12]]])] (Some [0%nat]) true)).
  { unfold load_image_stack. cbn [foldM existsb f_detectors]. rewrite (ix_lambda _ [1; 2]%nat) by reflexivity. reflexivity. }
  do 4 eexists. split; [reflexivity|]. split; [reflexivity|]. split; [repeat split; repeat constructor|]. split; [reflexivity|].
  split; [exact L1|]. split; [exact M2|]. split; [exact M1|]. split; [exact L2|]. repeat split. Qed.
Print Assumptions C139_removed_twice_refuted.
(** Profiles of the line detector are never thinned when they are loaded. *)
Theorem C139_profiles_refuted m s removed : load_detector m s "mythen" =
  load_detector m (mkFscan (f_name s) (f_dir s) (f_command s) (f_motors s) (f_data s) (f_rois s) (f_motor_names s) (f_positions s) (f_detectors s) (f_images s) removed (f_doubles s)) "mythen".
Proof. reflexivity. Qed.
Print Assumptions C139_profiles_refuted.
Example C139_example : exists s2 s4, remove_double (ix_scan (numbers [0; 1; 2]%nat) (numbers [5; 5; 6]%nat) ["mythen"]) = Ok s2 /\ load_image_stack ix_media s2 = Ok s4 /\
  f_positions s4 = [numbers [5; 6]%nat] /\ f_images s4 = [("mythen", S2 [map Some [3; 4]; map Some [1; 2]; map Some [5; 6]])].
Proof. assert (R : repeated_from 0 (numbers [5; 5; 6]%nat) = [0%nat]) by exact (repeated_nat [5; 5; 6]%nat 0).
  eexists. eexists. split; [|split; [|split]].
  - unfold remove_double. change (f_doubles _) with false. change (py_get _ 0) with (Ok (numbers [5; 5; 6]%nat)). cbv iota. cbn [bind]. rewrite R. reflexivity.
  - reflexivity.
  - reflexivity.
  - reflexivity. Qed.
