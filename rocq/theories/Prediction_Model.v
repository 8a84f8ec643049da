(** Model of the evaluation of a trained network.
    Sources: /repo/mlreflect/training/prediction.py, /repo/mlreflect/utils/label_helpers.py (9-17), and the SLD profiles of fit results,
    /repo/mlreflect/curve_fitter/results.py 32-35, 130-133. *)
From Coq Require Import Reals Lra.
From Coquelicot Require Import Complex.
From Verif Require Import Py Str Cplx Arr Sample_Model Sampling_Model Simulation_Model SldProfile_Model Spec_Model Preproc_Model Fitter_Model FileFitter_Model.
Local Open Scope string_scope.
Local Open Scope R_scope.

(** ** Tables with an index *)
(** A DataFrame of real numbers (or NaN): the name of its index, the index, and the columns.  Simplifications: the index is a simple
    index of numbers; column names are strings and unique; infinite entries are not modelled. *)
Record iframe := mkIframe { if_name : option string; if_index : list fl; if_cols : list (string * list fl) }.
Definition range_index (n : nat) : list fl := map (fun i => Some (INR i)) (seq 0 n).
Definition has_column {V} (cols : list (string * V)) (k : string) : bool := existsb (fun c => String.eqb (fst c) k) cols.

(** What can be passed as labels *)
Inductive plabels := PFrame (f : iframe) | PArray (a : arr) | POther.
(** label_helpers.py 9-17: [convert_to_dataframe]; a one-dimensional array is one column; a wrong number of names is a ValueError. *)
Definition to_iframe (l : plabels) (names : list string) : res iframe :=
  match l with
  | PFrame f => Ok f
  | PArray (A1 v) => if Nat.eqb 1 (List.length names) then Ok (mkIframe None (range_index (List.length v)) (combine names [v])) else Raise ValueError
  | PArray (A2 m rows) =>
      if Nat.eqb m (List.length names)
      then Ok (mkIframe None (range_index (List.length rows)) (combine names (map (fun j => column j rows) (seq 0 m)))) else Raise ValueError
  | POther => Raise TypeError
  end.

(** A table whose index is 0, 1, ... *)
Record rtable := mkRtable { rt_rows : nat; rt_cols : list (string * list fl) }.
(** DataFrame.reset_index: the old index becomes the first column.  Without a name it is called 'index', or 'level_0' if there is a
    column 'index'; if the column exists, ValueError. *)
Definition reset_index (f : iframe) : res rtable :=
  let name := match if_name f with Some n => n | None => if has_column (if_cols f) "index" then "level_0" else "index" end in
  if has_column (if_cols f) name then Raise ValueError else Ok (mkRtable (List.length (if_index f)) ((name, if_index f) :: if_cols f)).

(** Floats that can be infinite (absolute values only, so there is one infinity) *)
Inductive xv := XR (r : R) | XInf | XNaN.
Definition xabs (a : fl) : xv := match a with Some x => XR (Rabs x) | None => XNaN end.
(** numpy's division of absolute values: x/0 is infinite, 0/0 is NaN *)
Definition xdiv (a b : xv) : xv :=
  match a, b with
  | XR x, XR y => if Req_EM_T y 0 then (if Req_EM_T x 0 then XNaN else XInf) else XR (x / y)
  | XInf, XR _ => XInf
  | XR _, XInf => XR 0
  | _, _ => XNaN
  end.

(** Arithmetic of two tables: rows are matched by position, columns by name; what is missing in one of them counts as NaN.
    Simplification: the order of the columns of the result is that of the first table followed by the new ones of the second (pandas
    sorts the names unless they are the same); no statement depends on it. *)
Definition entry {V} (nan : V) (cols : list (string * list V)) (k : string) (i : nat) : V :=
  match dict_get String.eqb cols k with Some c => nth i c nan | None => nan end.
Definition aligned {U V W} (f : U -> V -> W) (nu : U) (nv : V) (n : nat) (a : list (string * list U)) (b : list (string * list V)) : list (string * list W) :=
  map (fun k => (k, map (fun i => f (entry nu a k i) (entry nv b k i)) (seq 0 n)))
      (map fst a ++ filter (fun k => negb (has_column a k)) (map fst b))%list.

(** DataFrame.mean: the mean of every column over the entries that are not NaN *)
Definition numbers (l : list xv) : list xv := filter (fun x => match x with XNaN => false | _ => true end) l.
Definition is_inf (x : xv) : bool := match x with XInf => true | _ => false end.
Definition real_part (x : xv) : R := match x with XR r => r | _ => 0 end.
Definition xmean (l : list xv) : xv :=
  match numbers l with
  | [] => XNaN
  | v => if existsb is_inf v then XInf else XR (fold_right Rplus 0 (map real_part v) / INR (List.length v))
  end.
Definition column_means (cols : list (string * list xv)) : list (string * xv) := map (fun kc => (fst kc, xmean (snd kc))) cols.
(** [del df[k]] *)
Definition del_column {V} (cols : list (string * V)) (k : string) : res (list (string * V)) :=
  if has_column cols k then Ok (filter (fun c => negb (String.eqb (fst c) k)) cols) else Raise KeyError.
Definition map_columns {U V} (f : U -> V) (cols : list (string * list U)) : list (string * list V) := map (fun kc => (fst kc, map f (snd kc))) cols.

(** prediction.py 47-56: [mean_absolute_error] *)
Definition mean_absolute_error (names : list string) (predicted test : plabels) : res (list (string * xv)) :=
  t <- to_iframe test names ;; p <- to_iframe predicted names ;;
  t <- reset_index t ;; p <- reset_index p ;;
  e <- del_column (map_columns xabs (aligned fsub None None (Nat.max (rt_rows t) (rt_rows p)) (rt_cols t) (rt_cols p))) "index" ;;
  Ok (column_means e).

(** prediction.py 34-45: [mean_absolute_percentage_error] *)
Definition mean_absolute_percentage_error (names : list string) (predicted test : plabels) : res (list (string * xv)) :=
  t <- to_iframe test names ;; p <- to_iframe predicted names ;;
  t <- reset_index t ;; p <- reset_index p ;;
  let n := Nat.max (rt_rows t) (rt_rows p) in
  let e := map_columns xabs (aligned fsub None None n (rt_cols t) (rt_cols p)) in
  e <- del_column (aligned xdiv XNaN XNaN n e (map_columns xabs (rt_cols t))) "index" ;;
  Ok (column_means e).

(** ** Prediction *)
(** prediction.py 20-32: [predict_labels]; [predict] is the network.  np.atleast_2d makes one curve a batch of one. *)
Definition atleast_2d (a : arr) : arr := match a with A1 v => A2 (List.length v) [v] | A2 m rows => A2 m rows end.
Definition predict_table (predict : arr -> res arr) (names : list string) (a : arr) : res iframe :=
  out <- predict (atleast_2d a) ;; to_iframe (PArray out) names.

(** ** SLD profiles of results *)
Section Profiles.
  Context (erf : R -> R).
  (** data_generator.py 230-267 for a table of parameters.  Simplification: a parameter that is not finite is a ValueError. *)
  Definition frame_profiles (f : frame) : res (list (list R * list (option R))) :=
    if forallb (row_known f) (seq 0 (fr_rows f)) then simulate_sld_profiles erf (fr_rows f) (known_cols f) else Raise ValueError.
  (** results.py 32-35: [FitResult.sld_profile] *)
  Definition result_profile (r : fit_result) : res (list R * list (option R)) :=
    ps <- frame_profiles (r_params r) ;; py_get ps 0.
  (** results.py 130-133: [FitResultSeries.sld_profiles] *)
  Definition series_profiles (se : series) : res (list (list R * list (option R))) := frame_profiles (se_params se).
End Profiles.
