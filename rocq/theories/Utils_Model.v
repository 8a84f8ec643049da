(** Model of the file helpers.
    Source: /repo/mlreflect/utils/h5_tools.py, /repo/mlreflect/utils/naming.py, /repo/mlreflect/models/model_helpers.py,
    /repo/mlreflect/models/simple_model.py (59-73), /repo/mlreflect/curve_fitter/results.py (46-64, 134-149). *)
From Coq Require Import Reals Lra.
From Verif Require Import Py Str Arr Spec_Model Fio_Model Path_Model FileFitter_Model.
Local Open Scope R_scope.
Local Open Scope string_scope.

(** ** h5_tools.py *)
(** h5_tools.py 88-92: [ensure_h5_extension] *)
Definition ensure_h5_extension (name : string) : string :=
  if negb (endswith ".h5" name || endswith ".hdf5" name) then name ++ ".h5" else name.
(** h5_tools.py 95-96: [strip_file_extension] *)
Definition strip_file_extension (name : string) : string := fst (splitext name).

(** A table of labels: the number of rows and the columns.  Simplification: label columns are real; a value that is not
    finite is NaN. *)
Record ltable := mkLtable { lt_rows : nat; lt_cols : list (string * list fl) }.
(** A HDF5 file: its entries.  [NTable] is what pandas stores. *)
Inductive attr := AInt (z : Z) | AStr (s : string) | ANum (x : fl).
Inductive node := NData (a : arr) | NGroup (attrs : list (string * attr)) | NTable (t : ltable).
Definition h5 := list (string * node).
Definition h5disk := list (string * h5).

Definition dict_del {V} (d : list (string * V)) (k : string) : list (string * V) := filter (fun kv => negb (String.eqb (fst kv) k)) d.
(** The file opened with mode 'a': a new one if there is none *)
Definition opened (fs : h5disk) (name : string) : h5 := match dict_get String.eqb fs name with Some f => f | None => [] end.
(** h5_tools.py 80-85: [create_dataset_with_override] *)
Definition override (f : h5) (name : string) (a : arr) : h5 :=
  let f := match dict_get String.eqb f name with Some _ => dict_del f name | None => f end in
  (f ++ [(name, NData a)])%list.
(** Series.min and Series.max of a column: NaN is skipped *)
Fixpoint finite_values (l : list fl) : list R :=
  match l with [] => [] | Some x :: l' => x :: finite_values l' | None :: l' => finite_values l' end.
Definition col_min (l : list fl) : fl := match finite_values l with [] => None | x :: l' => Some (fold_left Rmin l' x) end.
Definition col_max (l : list fl) : fl := match finite_values l with [] => None | x :: l' => Some (fold_left Rmax l' x) end.
(** h5_tools.py 32-42: the attributes *)
Definition fixed_attrs (layers : Z) (curves : nat) : list (string * attr) :=
  [("number_of_layers", AInt layers); ("num_curves", AInt (Z.of_nat curves)); ("q_unit", AStr "1/A"); ("thickness_unit", AStr "A");
   ("roughness_uni", AStr "A"); ("sld_unit", AStr "1e-6 1/A^2")].
Definition label_attrs (t : ltable) : list (string * attr) :=
  List.concat (map (fun kc => [(fst kc ++ "_min", ANum (col_min (snd kc))); (fst kc ++ "_max", ANum (col_max (snd kc)))]) (lt_cols t)).
Definition set_attrs (old new : list (string * attr)) : list (string * attr) :=
  fold_left (fun d ka => dict_set String.eqb d (fst ka) (snd ka)) new old.
(** require_group: an existing group, or a new one; something else is a TypeError *)
Definition require_group (f : h5) (name : string) : res (list (string * attr)) :=
  match dict_get String.eqb f name with
  | None => Ok []
  | Some (NGroup a) => Ok a
  | Some _ => Raise TypeError
  end.
(** h5_tools.py 12-46: [save_data_as_h5].  The content of the file after an exception is not modelled. *)
Definition save_data (fs : h5disk) (name : string) (q refl : arr) (labels : ltable) (layers : Z) : res h5disk :=
  let name := ensure_h5_extension name in
  let f := override (opened fs name) "q_values" q in
  a <- require_group f "info" ;;
  let a := set_attrs a (fixed_attrs layers (lt_rows labels) ++ label_attrs labels)%list in
  let f := dict_set String.eqb f "info" (NGroup a) in
  let f := override f "reflectivity" refl in
  Ok (dict_set String.eqb fs name (dict_set String.eqb f "labels" (NTable labels))).
(** h5_tools.py 49-60: [save_noise], [save_background] *)
Definition save_two (k1 k2 : string) (fs : h5disk) (name : string) (a b : arr) : h5disk :=
  let name := ensure_h5_extension name in
  dict_set String.eqb fs name (override (override (opened fs name) k1 a) k2 b).
Definition save_noise := save_two "shot_noise" "shot_noise_levels".
Definition save_background := save_two "background" "background_levels".
(** h5_tools.py 63-77: [load_data].  An array that is missing is [None] (numpy makes an array of None); entries of another
    kind than the expected one are not modelled (TypeError). *)
Definition get_array (f : h5) (k : string) : res (option arr) :=
  match dict_get String.eqb f k with None => Ok None | Some (NData a) => Ok (Some a) | Some _ => Raise TypeError end.
Record loaded := mkLoaded { lo_q : option arr; lo_refl : option arr; lo_labels : ltable; lo_info : list (string * attr) }.
Definition load_data (fs : h5disk) (name : string) : res loaded :=
  match dict_get String.eqb fs name with
  | None => Raise OSError
  | Some f =>
      q <- get_array f "q_values" ;;
      refl <- get_array f "reflectivity" ;;
      labels <- match dict_get String.eqb f "labels" with None => Raise KeyError | Some (NTable t) => Ok t | Some _ => Raise TypeError end ;;
      info <- match dict_get String.eqb f "info" with None => Raise AttributeError | Some (NGroup a) => Ok a | Some _ => Raise TypeError end ;;
      Ok (mkLoaded q refl labels info)
  end.

(** ** naming.py *)
Record datetime := mkDt { dt_year : N; dt_month : N; dt_day : N; dt_hour : N; dt_min : N; dt_sec : N }.
Definition two (n : N) : string := pad 2 (decimal n).
(** naming.py 4-10: [make_timestamp] at a given time; the year is printed as it is *)
Definition make_timestamp (now : datetime) (style : string) : res string :=
  let y := decimal (dt_year now) in let m := two (dt_month now) in let d := two (dt_day now) in
  let time := two (dt_hour now) ++ two (dt_min now) ++ two (dt_sec now) in
  if String.eqb style "DMY" then Ok (d ++ "-" ++ m ++ "-" ++ y ++ "-" ++ time)
  else if String.eqb style "MDY" then Ok (m ++ "-" ++ d ++ "-" ++ y ++ "-" ++ time)
  else if String.eqb style "YMD" then Ok (y ++ "-" ++ m ++ "-" ++ d ++ "-" ++ time)
  else Raise KeyError.

(** ** model_helpers.py *)
(** model_helpers.py 8-12: [create_save_directory] *)
Definition create_save_directory (fs : dirs) (name : string) : res dirs :=
  let name := strip_file_extension name in if dir_exists fs name then Ok fs else makedirs fs name.
(** model_helpers.py 16-18, 28-30: the directory of a model *)
Definition model_base (model_directory : string) : string :=
  path_join (dirname model_directory) (strip_file_extension (basename model_directory)).
(** model_helpers.py 15-25: [make_save_path] *)
Definition make_save_path (fs : dirs) (model_directory time_stamp : string) : res (dirs * string) :=
  let save_directory := path_join (model_base model_directory) "models" in
  fs <- create_save_directory fs save_directory ;;
  Ok (fs, path_join save_directory (time_stamp ++ ".h5")).
(** model_helpers.py 28-37: [make_tensorboard_callback]; the callback is given by its log directory *)
Definition make_tensorboard_callback (fs : dirs) (model_directory time_stamp graphs : string) : res (dirs * string) :=
  let logdir := path_join (path_join (model_base model_directory) graphs) time_stamp in
  fs <- create_save_directory fs logdir ;; Ok (fs, logdir).
(** simple_model.py 61-73: [_setup_training]: the log directory, the path of the checkpoints and the time stamp *)
Definition setup_training (fs : dirs) (directory : string) (now : datetime) : res (dirs * (string * string * string)) :=
  time_stamp <- make_timestamp now "YMD" ;;
  '(fs, logdir) <- make_tensorboard_callback fs directory time_stamp "tb_graphs" ;;
  '(fs, path) <- make_save_path fs directory time_stamp ;;
  Ok (fs, (logdir, path, time_stamp)).

(** ** results.py: saving curves as text *)
Section Saving.
(** '%.5e' % x *)
Variable fmt : fl -> string.
Definition tab : ascii := Ascii.ascii_of_nat 9.
(** Assigning an array to a column of an array with [n] rows: one value is repeated, other lengths are a ValueError. *)
Definition to_column (n : nat) (v : list fl) : res (list fl) :=
  if Nat.eqb (List.length v) n then Ok v
  else match v with [x] => Ok (repeat x n) | _ => Raise ValueError end.
(** results.py 50-55, 57-64: the common body of [save_predicted_reflectivity] and [save_corrected_reflectivity].  The directory
    of the path exists; compressed formats (chosen by numpy for some extensions) are not modelled. *)
Definition save_curve (fs : disk) (path : string) (q curve : list fl) : res disk :=
  y <- to_column (List.length q) curve ;;
  Ok (dict_set String.eqb fs path (map (fun xy => fmt (fst xy) ++ String tab (fmt (snd xy))) (combine q y))).
Definition save_predicted (fs : disk) (path : string) (r : fit_result) : res disk := save_curve fs path (r_q r) (r_refl r).
Definition save_corrected (fs : disk) (path : string) (r : fit_result) : res disk := save_curve fs path (r_q r) (r_corrected r).
(** results.py 141, 147: the path of one scan *)
Definition scan_save_path (path : string) (n : Z) : string :=
  path_join (dirname path) ("scan" ++ str_int n ++ "_" ++ basename path).
(** results.py 138-149: the methods of a series *)
Definition save_series (save : disk -> string -> fit_result -> res disk) (fs : disk) (path : string) (se : series) : res disk :=
  foldM (fun fs r => save fs (scan_save_path path (r_scan r)) r) fs (se_list se).
Definition save_predicted_series := save_series save_predicted.
Definition save_corrected_series := save_series save_corrected.
End Saving.
