(** Properties of the file helpers. *)
From Coq Require Import Reals Lra.
From Verif Require Import Py Str Arr Sample_Model Spec_Model Fio_Model SpecFile_Spec Preproc_Model Path_Model Utils_Model Utils_Spec Path_Proofs Utils_Proofs FileFitter_Model.
Local Open Scope R_scope.
Local Open Scope string_scope.

(** ** C79 *)
Theorem C79_predicted fmt fs pre base se : dir_prefix pre -> plain base ->
  (forall r, In r (se_list se) -> List.length (r_refl r) = List.length (r_q r)) -> NoDup (map r_scan (se_list se)) ->
  exists fs', save_predicted_series fmt fs (pre ++ base) se = Ok fs' /\
    (forall r, In r (se_list se) -> exists lines,
       dict_get String.eqb fs' (pre ++ "scan" ++ int_text (r_scan r) ++ "_" ++ base) = Some lines /\ curve_file fmt (r_q r) (r_refl r) lines) /\
    (forall p, (forall r, In r (se_list se) -> p <> pre ++ "scan" ++ int_text (r_scan r) ++ "_" ++ base) -> dict_get String.eqb fs' p = dict_get String.eqb fs p).
Proof. exact (predicted_series_ok fmt fs pre base se). Qed.
Print Assumptions C79_predicted.
Theorem C79_corrected fmt fs pre base se : dir_prefix pre -> plain base ->
  (forall r, In r (se_list se) -> List.length (r_corrected r) = List.length (r_q r)) -> NoDup (map r_scan (se_list se)) ->
  exists fs', save_corrected_series fmt fs (pre ++ base) se = Ok fs' /\
    (forall r, In r (se_list se) -> exists lines,
       dict_get String.eqb fs' (pre ++ "scan" ++ int_text (r_scan r) ++ "_" ++ base) = Some lines /\ curve_file fmt (r_q r) (r_corrected r) lines) /\
    (forall p, (forall r, In r (se_list se) -> p <> pre ++ "scan" ++ int_text (r_scan r) ++ "_" ++ base) -> dict_get String.eqb fs' p = dict_get String.eqb fs p).
Proof. exact (corrected_series_ok fmt fs pre base se). Qed.
Print Assumptions C79_corrected.
(** For every path, also one with superfluous slashes: the directory stays and different numbers have different names. *)
Theorem C79_same_directory path n : dirname (scan_save_path path n) = dirname path /\ basename (scan_save_path path n) = "scan" ++ int_text n ++ "_" ++ basename path.
Proof. exact (scan_path_parts path n). Qed.
Print Assumptions C79_same_directory.
Theorem C79_different_names path n m : n <> m -> basename (scan_save_path path n) <> basename (scan_save_path path m) /\ scan_save_path path n <> scan_save_path path m.
Proof. exact (scan_names_differ path n m). Qed.
Print Assumptions C79_different_names.
(** A curve of one value is written with that value at every q; other lengths are rejected. *)
Theorem C79_one_value fmt fs path r x : r_refl r = [x] ->
  exists lines, save_predicted fmt fs path r = Ok (dict_set String.eqb fs path lines) /\ curve_file fmt (r_q r) (repeat x (List.length (r_q r))) lines.
Proof. exact (one_value_saved fmt fs path r x). Qed.
Print Assumptions C79_one_value.
Theorem C79_other_lengths fmt fs path r : List.length (r_refl r) <> List.length (r_q r) -> List.length (r_refl r) <> 1%nat -> save_predicted fmt fs path r = Raise ValueError.
Proof. exact (other_lengths_rejected fmt fs path r). Qed.
Print Assumptions C79_other_lengths.
Example C79_example : map (scan_save_path "out/run.txt") [7; 12; -3]%Z = ["out/scan7_run.txt"; "out/scan12_run.txt"; "out/scan-3_run.txt"] /\
  scan_save_path "/run.txt" 5 = "/scan5_run.txt" /\ scan_save_path "run.txt" 5 = "scan5_run.txt" /\ scan_save_path "a//run.txt" 5 = "a/scan5_run.txt".
Proof. repeat split. Qed.
Definition ux_fmt (x : fl) : string := match x with Some _ => "x" | None => "nan" end.
Definition ux_result (n : Z) : fit_result :=
  mkResult n None [Some 1; None] [Some 1; Some 2] [Some 3; Some 4] [1; 2] (mkFrame 1 []) [n] None empty_structure.
Definition ux_series : series := mkSeries [ux_result 7; ux_result 12] [7; 12]%Z [] [] [] [] [] (mkFrame 2 []) [7; 12]%Z [] empty_structure.
Definition ux_tab : string := String (Ascii.ascii_of_nat 9) "".
Example C79_files : save_corrected_series ux_fmt [("out/scan7_run.txt", ["old"]); ("x", [])] "out/run.txt" ux_series =
  Ok [("out/scan7_run.txt", ["x" ++ ux_tab ++ "x"; "x" ++ ux_tab ++ "nan"]); ("x", []); ("out/scan12_run.txt", ["x" ++ ux_tab ++ "x"; "x" ++ ux_tab ++ "nan"])].
Proof. reflexivity. Qed.

(** ** C82 *)
Theorem C82_round_trip fs name q refl t layers a : (endswith ".h5" name = true \/ endswith ".hdf5" name = true) -> old_info fs name = Some a -> NoDup (map fst (lt_cols t)) ->
  exists fs' d, save_data fs name q refl t layers = Ok fs' /\ load_data fs' name = Ok d /\
    lo_q d = Some q /\ lo_refl d = Some refl /\ lo_labels d = t /\
    (forall l c, In (l, c) (lt_cols t) -> exists lo hi, dict_get String.eqb (lo_info d) (l ++ "_min") = Some (ANum lo) /\ column_min c lo /\
                                                   dict_get String.eqb (lo_info d) (l ++ "_max") = Some (ANum hi) /\ column_max c hi) /\
    dict_get String.eqb (lo_info d) "number_of_layers" = Some (AInt layers) /\ dict_get String.eqb (lo_info d) "num_curves" = Some (AInt (Z.of_nat (lt_rows t))) /\
    dict_get String.eqb (lo_info d) "q_unit" = Some (AStr "1/A") /\ dict_get String.eqb (lo_info d) "thickness_unit" = Some (AStr "A") /\
    dict_get String.eqb (lo_info d) "roughness_uni" = Some (AStr "A") /\ dict_get String.eqb (lo_info d) "sld_unit" = Some (AStr "1e-6 1/A^2") /\
    forall p, p <> name -> dict_get String.eqb fs' p = dict_get String.eqb fs p.
Proof. exact (round_trip fs name q refl t layers a). Qed.
Print Assumptions C82_round_trip.
(** load_data does not complete the name as save_data_as_h5 does: saved and loaded under the same name without extension, the
    data are not found (or those of an unrelated file are returned). *)
(** A file that is missing, or without labels or limits, is refused. *)
Theorem C82_missing fs name : (dict_get String.eqb fs name = None -> load_data fs name = Raise OSError) /\
  (forall f q refl, dict_get String.eqb fs name = Some f -> dict_get String.eqb f "q_values" = Some (NData q) -> dict_get String.eqb f "reflectivity" = Some (NData refl) ->
    (dict_get String.eqb f "labels" = None -> load_data fs name = Raise KeyError) /\
    (forall t, dict_get String.eqb f "labels" = Some (NTable t) -> dict_get String.eqb f "info" = None -> load_data fs name = Raise AttributeError)).
Proof. unfold load_data, get_array. split; [intros ->; reflexivity|]. intros f q refl -> -> ->. cbn [bind]. split; [intros ->; reflexivity|]. intros t -> ->. reflexivity. Qed.
Print Assumptions C82_missing.
Theorem C82_name_refuted fs name q refl t layers a : endswith ".h5" name = false -> endswith ".hdf5" name = false -> old_info fs (name ++ ".h5") = Some a ->
  exists fs', save_data fs name q refl t layers = Ok fs' /\ load_data fs' name = load_data fs name.
Proof. exact (same_name_unchanged fs name q refl t layers a). Qed.
Print Assumptions C82_name_refuted.
Definition ux_labels : ltable := mkLtable 3 [("film_thickness", [Some 20; Some 10; None]); ("film_sld", [None; None; None])].
Example C82_example : exists fs', save_data [("d.h5", [("q_values", NData (A1 [])); ("info", NGroup [("old", AInt 1)])])] "d.h5" (A1 [Some 1]) (A2 1 [[Some 2]]) ux_labels 2 = Ok fs' /\
  rmap lo_q (load_data fs' "d.h5") = Ok (Some (A1 [Some 1])) /\ rmap lo_refl (load_data fs' "d.h5") = Ok (Some (A2 1 [[Some 2]])) /\
  rmap (fun d => dict_get String.eqb (lo_info d) "film_sld_min") (load_data fs' "d.h5") = Ok (Some (ANum None)) /\
  load_data fs' "d" = Raise OSError.
Proof. eexists. split; [reflexivity|]. repeat split; reflexivity. Qed.
Example C82_refuted_example : exists fs', save_data [] "d" (A1 [Some 1]) (A2 1 [[Some 2]]) ux_labels 2 = Ok fs' /\ load_data fs' "d" = Raise OSError.
Proof. eexists. split; reflexivity. Qed.

(** ** C83 *)
Theorem C83_extension name : endswith ".h5" (ensure_h5_extension name) = true \/ endswith ".hdf5" (ensure_h5_extension name) = true.
Proof. exact (ensure_ends name). Qed.
Print Assumptions C83_extension.
Theorem C83_unchanged name : endswith ".h5" name = true \/ endswith ".hdf5" name = true -> ensure_h5_extension name = name.
Proof. exact (ensure_same name). Qed.
Print Assumptions C83_unchanged.
Theorem C83_appended name : endswith ".h5" name = false -> endswith ".hdf5" name = false -> ensure_h5_extension name = name ++ ".h5".
Proof. exact (ensure_other name). Qed.
Print Assumptions C83_appended.
Theorem C83_idempotent name : ensure_h5_extension (ensure_h5_extension name) = ensure_h5_extension name.
Proof. exact (ensure_idem name). Qed.
Print Assumptions C83_idempotent.
Example C83_example : map ensure_h5_extension ["a"; "a.h5"; "a.hdf5"; "a.h5.txt"; ""] = ["a.h5"; "a.h5"; "a.hdf5"; "a.h5.txt.h5"; ".h5"].
Proof. reflexivity. Qed.

(** ** C109 *)
(** For every directory name: the checkpoint is an .h5 file in an existing directory, and no directory disappears. *)
Theorem C109_directory_exists fs p ts : plain ts ->
  exists fs' path, make_save_path fs p ts = Ok (fs', path) /\ basename path = ts ++ ".h5" /\ dir_exists fs' (dirname path) = true /\
    forall d, dir_exists fs d = true -> dir_exists fs' d = true.
Proof. exact (save_directory_exists fs p ts). Qed.
Print Assumptions C109_directory_exists.
(** Superfluous slashes and "." do not matter. *)
Theorem C109_same_directory fs a b : dir_exists fs (a ++ "/./" ++ b) = dir_exists fs (a ++ "/" ++ b) /\ dir_exists fs (a ++ "//" ++ b) = dir_exists fs (a ++ "/" ++ b).
Proof. exact (same_directory fs a b). Qed.
Print Assumptions C109_same_directory.
(** A directory exists exactly if it has been created; creating one creates the directories above it and nothing else. *)
Theorem C109_exists fs p : dir_exists fs p = true <-> p <> "" /\ (snd (place_of p) = [] \/ In (place_of p) fs).
Proof. exact (exists_iff fs p). Qed.
Print Assumptions C109_exists.
Theorem C109_created fs p fs' d : makedirs fs p = Ok fs' -> dir_exists fs' d = true <-> dir_exists fs d = true \/
  (d <> "" /\ exists k, (1 <= k <= List.length (snd (place_of p)))%nat /\ place_of d = (fst (place_of p), firstn k (snd (place_of p)))).
Proof. exact (created_iff fs p fs' d). Qed.
Print Assumptions C109_created.
Theorem C109_paths fs pre name now : dir_prefix pre -> plain name -> undotted name -> name <> "" ->
  exists ts fs', make_timestamp now "YMD" = Ok ts /\
    setup_training fs (pre ++ name) now = Ok (fs', (pre ++ name ++ "/tb_graphs/" ++ ts, pre ++ name ++ "/models/" ++ ts ++ ".h5", ts)) /\
    dir_exists fs' (pre ++ name ++ "/models") = true /\ dir_exists fs' (pre ++ name ++ "/tb_graphs/" ++ ts) = true.
Proof. exact (setup_ok fs pre name now). Qed.
Print Assumptions C109_paths.
Theorem C109_different_models fs1 fs2 pre1 name1 pre2 name2 ts1 ts2 fs1' fs2' path :
  dir_prefix pre1 -> plain name1 -> undotted name1 -> name1 <> "" -> dir_prefix pre2 -> plain name2 -> undotted name2 -> name2 <> "" -> plain ts1 -> plain ts2 ->
  make_save_path fs1 (pre1 ++ name1) ts1 = Ok (fs1', path) -> make_save_path fs2 (pre2 ++ name2) ts2 = Ok (fs2', path) ->
  pre1 ++ name1 = pre2 ++ name2 /\ ts1 = ts2.
Proof. exact (save_paths_differ fs1 fs2 pre1 name1 pre2 name2 ts1 ts2 fs1' fs2' path). Qed.
Print Assumptions C109_different_models.
(** Whatever follows the last dot of the name is dropped, so the names run.1 and run.2 share their directories. *)
Theorem C109_dotted_refuted fs pre name e ts : dir_prefix pre -> plain name -> all_are dot name = false -> plain e -> undotted e -> undotted name ->
  make_save_path fs (pre ++ name ++ "." ++ e) ts = make_save_path fs (pre ++ name) ts /\
  make_tensorboard_callback fs (pre ++ name ++ "." ++ e) ts "tb_graphs" = make_tensorboard_callback fs (pre ++ name) ts "tb_graphs".
Proof. exact (dotted_same fs pre name e ts). Qed.
Print Assumptions C109_dotted_refuted.
Example C109_example : rmap snd (make_save_path [] "nets/run" "2020-01-02-030405") = Ok "nets/run/models/2020-01-02-030405.h5" /\
  rmap fst (make_save_path [] "nets/run" "t") = Ok [(false, ["nets"]); (false, ["nets"; "run"]); (false, ["nets"; "run"; "models"])] /\
  rmap snd (make_save_path [] "nets/run.1" "t") = Ok "nets/run/models/t.h5" /\ rmap snd (make_save_path [] "nets/run.2" "t") = Ok "nets/run/models/t.h5".
Proof. repeat split. Qed.

(** ** C114 *)
Theorem C114_sorted a b sa sb : dt_valid a -> dt_valid b -> make_timestamp a "YMD" = Ok sa -> make_timestamp b "YMD" = Ok sb ->
  (text_before sa sb <-> before (dt_list a) (dt_list b)).
Proof. exact (stamp_before a b sa sb). Qed.
Print Assumptions C114_sorted.
Theorem C114_distinct style a b s : dt_valid a -> dt_valid b -> make_timestamp a style = Ok s -> make_timestamp b style = Ok s -> a = b.
Proof. exact (stamp_inj style a b s). Qed.
Print Assumptions C114_distinct.
Theorem C114_file_name now : exists ts, make_timestamp now "YMD" = Ok ts /\ plain ts /\ undotted ts /\ ts <> "".
Proof. exact (stamp_plain now). Qed.
Print Assumptions C114_file_name.
Theorem C114_styles now style : ~ In style ["DMY"; "MDY"; "YMD"] -> make_timestamp now style = Raise KeyError.
Proof. exact (other_style now style). Qed.
Print Assumptions C114_styles.
Example C114_example : make_timestamp (mkDt 2021 3 9 8 5 59) "YMD" = Ok "2021-03-09-080559" /\ make_timestamp (mkDt 2021 3 9 8 5 59) "DMY" = Ok "09-03-2021-080559" /\
  make_timestamp (mkDt 2021 3 9 8 5 59) "MDY" = Ok "03-09-2021-080559" /\ dt_valid (mkDt 2021 3 9 8 5 59).
Proof. repeat split; cbn; lia. Qed.

(** ** C115 *)
(** Attributes that the new data do not set stay, also the limits of labels that the new data do not have. *)
Theorem C115_old_limits_refuted fs name q refl t layers a k v : old_info fs (ensure_h5_extension name) = Some a -> dict_get String.eqb a k = Some v ->
  ~ In k ["number_of_layers"; "num_curves"; "q_unit"; "thickness_unit"; "roughness_uni"; "sld_unit"] ->
  (forall l, In l (map fst (lt_cols t)) -> k <> l ++ "_min" /\ k <> l ++ "_max") ->
  exists fs' d, save_data fs name q refl t layers = Ok fs' /\ load_data fs' (ensure_h5_extension name) = Ok d /\ dict_get String.eqb (lo_info d) k = Some v.
Proof. exact (stale_attribute fs name q refl t layers a k v). Qed.
Print Assumptions C115_old_limits_refuted.
(** In a new file there is nothing else. *)
Theorem C115_new_file_partial fs name q refl t layers : dict_get String.eqb fs (ensure_h5_extension name) = None ->
  exists fs' d, save_data fs name q refl t layers = Ok fs' /\ load_data fs' (ensure_h5_extension name) = Ok d /\
    forall k v, dict_get String.eqb (lo_info d) k = Some v ->
      In k ["number_of_layers"; "num_curves"; "q_unit"; "thickness_unit"; "roughness_uni"; "sld_unit"] \/
      exists l, In l (map fst (lt_cols t)) /\ (k = l ++ "_min" \/ k = l ++ "_max").
Proof. exact (new_file_attributes fs name q refl t layers). Qed.
Print Assumptions C115_new_file_partial.
Example C115_example : exists fs1 fs2 d, save_data [] "d.h5" (A1 []) (A1 []) (mkLtable 1 [("a", [Some 5])]) 1 = Ok fs1 /\
  save_data fs1 "d.h5" (A1 []) (A1 []) (mkLtable 1 [("b", [Some 6])]) 1 = Ok fs2 /\ load_data fs2 "d.h5" = Ok d /\
  lo_labels d = mkLtable 1 [("b", [Some 6])] /\ dict_get String.eqb (lo_info d) "a_min" = Some (ANum (Some 5)).
Proof. eexists _, _, _. split; [reflexivity|]. split; [reflexivity|]. split; [reflexivity|]. split; reflexivity. Qed.

(** ** C116 *)
Theorem C116_noise fs name x levels :
  let fs' := save_noise fs name x levels in let n := ensure_h5_extension name in
  entry_of fs' n "shot_noise" = Some (NData x) /\ entry_of fs' n "shot_noise_levels" = Some (NData levels) /\
  (forall k, k <> "shot_noise" -> k <> "shot_noise_levels" -> entry_of fs' n k = entry_of fs n k) /\ forall p, p <> n -> dict_get String.eqb fs' p = dict_get String.eqb fs p.
Proof. exact (noise_saved fs name x levels). Qed.
Print Assumptions C116_noise.
Theorem C116_background fs name x levels :
  let fs' := save_background fs name x levels in let n := ensure_h5_extension name in
  entry_of fs' n "background" = Some (NData x) /\ entry_of fs' n "background_levels" = Some (NData levels) /\
  (forall k, k <> "background" -> k <> "background_levels" -> entry_of fs' n k = entry_of fs n k) /\ forall p, p <> n -> dict_get String.eqb fs' p = dict_get String.eqb fs p.
Proof. exact (background_saved fs name x levels). Qed.
Print Assumptions C116_background.
Theorem C116_data_kept fs name x levels p d : load_data fs p = Ok d ->
  load_data (save_noise fs name x levels) p = Ok d /\ load_data (save_background fs name x levels) p = Ok d.
Proof. exact (data_kept fs name x levels p d). Qed.
Print Assumptions C116_data_kept.
(** Saving data keeps all other entries, so noise saved for the previous data stays. *)
Theorem C116_data_keeps_noise fs name q refl t layers fs' k : save_data fs name q refl t layers = Ok fs' ->
  k <> "q_values" -> k <> "reflectivity" -> k <> "labels" -> k <> "info" -> entry_of fs' (ensure_h5_extension name) k = entry_of fs (ensure_h5_extension name) k.
Proof. exact (entries_kept fs name q refl t layers fs' k). Qed.
Print Assumptions C116_data_keeps_noise.
Example C116_example : entry_of (save_noise (save_noise [] "d" (A1 [None]) (A1 [])) "d" (A1 [Some 1]) (A1 [])) "d.h5" "shot_noise" = Some (NData (A1 [Some 1])).
Proof. reflexivity. Qed.

(** ** C119 *)
Theorem C119_int_of_text z : str_int z = int_text z /\ py_int (int_text z) = Ok z.
Proof. exact (conj (str_int_text z) (int_of_text z)). Qed.
Print Assumptions C119_int_of_text.
Example C119_example : int_text (-120) = "-120" /\ py_int " -120 " = Ok (-120)%Z /\ py_int "+7" = Ok 7%Z /\ py_int "1_0" = Ok 10%Z /\ py_int "-" = Raise ValueError.
Proof. repeat split. Qed.
