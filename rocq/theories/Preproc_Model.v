(** Model of the preprocessing of network inputs and outputs.
    Sources: /repo/mlreflect/training/preprocessing.py, /repo/mlreflect/utils/label_helpers.py (9-17). *)
From Coq Require Import Reals Lra.
From Coquelicot Require Import Complex.
From Verif Require Import Py Str Cplx Sample_Model Sampling_Model Arr.
Local Open Scope string_scope.
Local Open Scope R_scope.

(** ** InputPreprocessor *)

(** preprocessing.py 19-21: the attributes _standard_mean and _standard_std *)
Record ip_state := mkIp { ip_mean : option (list fl); ip_std : option (list fl) }.
Definition ip_new : ip_state := mkIp None None.

(** preprocessing.py 23-30: [has_saved_standardization] *)
Definition has_saved (st : ip_state) : res bool :=
  match ip_mean st, ip_std st with
  | None, None => Ok false
  | Some _, Some _ => Ok true
  | _, _ => Raise ValueError
  end.

Definition is_zero (x : fl) : bool := match x with Some r => Reqb r 0 | None => false end.

(** preprocessing.py 40-57: [standardize]; the state after the call and the result.  For a one-dimensional array the mean
    and the standard deviation are numbers, and [0 in std] raises TypeError. *)
Definition standardize (st : ip_state) (data : arr) : ip_state * res arr :=
  match ip_mean st, ip_std st with
  | Some mean, Some std =>
      (st, c <- row_op fsub data mean ;; row_op fdiv c std)
  | None, None =>
      match data with
      | A1 _ => (st, Raise TypeError)
      | A2 m rows =>
          let mean := by_column fmean m rows in
          match row_op fsub data mean with
          | Ok (A2 m' crows) =>
              let std := by_column fstd m' crows in
              if existsb is_zero std then (st, Raise ValueError)
              else (mkIp (Some mean) (Some std), row_op fdiv (A2 m' crows) std)
          | Ok (A1 _) => (st, Raise TypeError)
          | Raise e => (st, Raise e)
          end
      end
  | _, _ => (st, Raise ValueError)
  end.

(** preprocessing.py 59-65: [revert_standardization] *)
Definition revert (st : ip_state) (data : arr) : res arr :=
  match ip_mean st, ip_std st with
  | Some mean, Some std => c <- row_op fmul data std ;; row_op fadd c mean
  | _, _ => Raise ValueError
  end.

(** preprocessing.py 67-70: [reset_mean_and_std] *)
Definition reset (st : ip_state) : ip_state := mkIp None None.

(** A sequence of method calls on one preprocessor *)
Inductive ip_call := CStandardize (data : arr) | CRevert (data : arr) | CReset.
Definition ip_step (st : ip_state) (c : ip_call) : ip_state :=
  match c with
  | CStandardize d => fst (standardize st d)
  | CRevert d => st
  | CReset => reset st
  end.
Definition ip_run (cs : list ip_call) : ip_state := fold_left ip_step cs ip_new.

(** ** OutputPreprocessor *)

(** A table cell: a number, or not a finite number.  Simplification: pandas' distinction of real and complex columns is not
    modelled; all cells are complex. *)
Definition cell := option C.
Definition table := list (string * list cell).
(** A DataFrame: number of rows (kept even without columns) and named columns *)
Record frame := mkFrame { fr_rows : nat; fr_cols : table }.

Fixpoint tget (d : table) (k : string) : option (list cell) :=
  match d with
  | [] => None
  | (k', v) :: d' => if String.eqb k' k then Some v else tget d' k
  end.
(** [df[k] = v]: replaces the column or appends a new one *)
Fixpoint tset (d : table) (k : string) (v : list cell) : table :=
  match d with
  | [] => [(k, v)]
  | (k', v') :: d' => if String.eqb k' k then (k, v) :: d' else (k', v') :: tset d' k v
  end.
(** [del df[k]] for an existing column *)
Fixpoint tdel (d : table) (k : string) : table :=
  match d with
  | [] => []
  | (k', v') :: d' => if String.eqb k' k then d' else (k', v') :: tdel d' k
  end.
(** [df[names]] *)
Definition tselect (d : table) (names : list string) : res table :=
  mapM (fun k => match tget d k with Some c => Ok (k, c) | None => Raise KeyError end) names.

(** What can be passed as labels: a DataFrame, a two-dimensional ndarray (given by its number of rows and its columns), or
    something else.  Simplification: column names of a DataFrame are unique; one-dimensional arrays are not modelled. *)
Inductive labels_arg := LFrame (f : frame) | LArray (n : nat) (columns : list (list cell)) | LOther.

(** label_helpers.py 9-17: [convert_to_dataframe]; pandas rejects a wrong number of names with ValueError. *)
Definition convert_to_dataframe (l : labels_arg) (names : list string) : res frame :=
  match l with
  | LFrame f => Ok f
  | LArray n cs => if Nat.eqb (List.length cs) (List.length names) then Ok (mkFrame n (combine names cs)) else Raise ValueError
  | LOther => Raise TypeError
  end.

(** A Python string as the identity test [is] sees it: its characters, and whether it is the interned object that a literal
    with these characters denotes. *)
Record pystr := mkPystr { ps_val : string; ps_interned : bool }.
(** [s is 'lit'] *)
Definition is_lit (s : pystr) (lit : string) : bool := ps_interned s && String.eqb (ps_val s) lit.

Record out_pp := mkOp { op_norm : pystr; op_sample : structure }.

(** preprocessing.py 87-95: [OutputPreprocessor.__init__]; [in] compares by value. *)
Definition mk_out_pp (sample : structure) (normalization : pystr) : res out_pp :=
  if existsb (String.eqb (ps_val normalization)) ["min_to_zero"; "absolute_max"]
  then Ok (mkOp normalization sample) else Raise ValueError.

(** preprocessing.py 101-103: [all_label_parameters] *)
Definition all_params (s : structure) : res (list param) :=
  ts <- thicknesses s ;; rs <- roughnesses s ;; ss <- slds s ;; Ok (ts ++ rs ++ ss)%list.
(** preprocessing.py 113-119, 121-127: [constant_labels], [used_labels] *)
Definition constant_params (ps : list param) : list param := filter is_const ps.
Definition used_params (ps : list param) : list param := filter (fun p => negb (is_const p)) ps.

(** Arithmetic on cells *)
Definition cell_map (f : C -> cell) (c : cell) : cell := match c with Some z => f z | None => None end.
Definition cdiv (a b : C) : cell := if Ceq_dec b 0 then None else Some (a / b)%C.
Definition lo_C (p : param) : C := num_C (p_min p).
Definition hi_C (p : param) : C := num_C (p_max p).

(** preprocessing.py 148-158: one pass of the loop of [normalize_labels] *)
Definition norm_cell (norm : pystr) (p : param) (c : cell) : cell :=
  if is_lit norm "min_to_zero" then cell_map (fun z => cdiv (z - lo_C p)%C (hi_C p - lo_C p)%C) c
  else if is_lit norm "absolute_max" then cell_map (fun z => cdiv z (RtoC (Cmod (hi_C p)))) c
  else c.
(** preprocessing.py 181-190: one pass of the loop of [renormalize_labels] *)
Definition renorm_cell (norm : pystr) (p : param) (c : cell) : cell :=
  if is_lit norm "min_to_zero" then cell_map (fun z => Some (z * (hi_C p - lo_C p) + lo_C p)%C) c
  else if is_lit norm "absolute_max" then cell_map (fun z => Some (z * RtoC (Cmod (hi_C p)))%C) c
  else c.

(** The two loops.  If the normalisation string is neither literal (by identity), the columns are not even looked up. *)
Definition known_norm (norm : pystr) : bool := is_lit norm "min_to_zero" || is_lit norm "absolute_max".
Definition map_params (norm : pystr) (f : param -> cell -> cell) (ps : list param) (t : table) : res table :=
  foldM (fun t p =>
           if is_const p then Ok t
           else if known_norm norm then
             match tget t (pname_str p) with
             | Some c => Ok (tset t (pname_str p) (map (f p) c))
             | None => Raise KeyError
             end
           else Ok t) t ps.
Definition normalize_labels (o : out_pp) (f : frame) : res frame :=
  ps <- all_params (op_sample o) ;;
  t <- map_params (op_norm o) (norm_cell (op_norm o)) ps (fr_cols f) ;; Ok (mkFrame (fr_rows f) t).
Definition renormalize_labels (o : out_pp) (f : frame) : res frame :=
  ps <- all_params (op_sample o) ;;
  t <- map_params (op_norm o) (renorm_cell (op_norm o)) (used_params ps) (fr_cols f) ;; Ok (mkFrame (fr_rows f) t).

(** preprocessing.py 160-169: [remove_labels]; a missing column only causes a warning. *)
Definition remove_labels (o : out_pp) (f : frame) : res frame :=
  ps <- all_params (op_sample o) ;;
  Ok (mkFrame (fr_rows f)
        (fold_left (fun t p => match tget t (pname_str p) with None => t | Some _ => tdel t (pname_str p) end)
                   (constant_params ps) (fr_cols f))).

(** preprocessing.py 129-146: [apply_preprocessing] *)
Definition apply_preprocessing (o : out_pp) (l : labels_arg) : res (frame * frame) :=
  names <- label_names (op_sample o) ;;
  f <- convert_to_dataframe l names ;;
  p <- remove_labels o f ;;
  p <- normalize_labels o p ;;
  ps <- all_params (op_sample o) ;;
  t <- tselect (fr_cols f) (map pname_str (constant_params ps)) ;;
  Ok (p, mkFrame (fr_rows f) t).

(** preprocessing.py 192-197: [add_constant_labels] *)
Definition add_constant_labels (o : out_pp) (f : frame) : res frame :=
  ps <- all_params (op_sample o) ;;
  Ok (mkFrame (fr_rows f)
        (fold_left (fun t p => tset t (pname_str p) (repeat (Some (lo_C p)) (fr_rows f))) (constant_params ps) (fr_cols f))).

(** preprocessing.py 171-179: [restore_labels] *)
Definition restore_labels (o : out_pp) (l : labels_arg) : res frame :=
  ps <- all_params (op_sample o) ;;
  f <- convert_to_dataframe l (map pname_str (used_params ps)) ;;
  f <- renormalize_labels o f ;;
  f <- add_constant_labels o f ;;
  names <- label_names (op_sample o) ;;
  t <- tselect (fr_cols f) names ;;
  Ok (mkFrame (fr_rows f) t).
