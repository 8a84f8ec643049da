(** Small helpers that the rest of the package calls or carries along.
    Sources: /repo/mlreflect/xrrloader/dataloader/scans.py (45-46, 79-81, 141-149), /repo/mlreflect/data_generation/data_generator.py
    (198-206), /repo/mlreflect/utils/performance_tools.py, /repo/mlreflect/data_generation/noise.py (10-21),
    /repo/mlreflect/models/trained_model.py (101-104), /repo/mlreflect/utils/label_helpers.py (20-28),
    /repo/mlreflect/training/prediction.py (62-69). *)
From Coq Require Import Reals Lra.
From Verif Require Import Py Arr Interp_Model Footprint_Model Scan_Model Fitter_Model Prediction_Model.
Local Open Scope R_scope.
Local Open Scope string_scope.

(** ** Scans *)
(** scans.py 45-46: [__len__] *)
Definition scan_len (s : scan) : nat := List.length (sc_angle s).
(** scans.py 79-81: [get_interpolated_intensity].  Simplification: q values that are not finite are not modelled (ValueError). *)
Definition get_interpolated_intensity (erf : R -> R) (s : scan) (new_q : list R) : res (list fl) :=
  q <- scan_q s ;; c <- corrected_intensity erf s ;;
  match all_finite q with None => Raise ValueError | Some qs => interp_reflectivity new_q qs c end.
(** What can be appended to a series: a scan or something else *)
Inductive series_arg := SAScan (s : scan) | SAOther.
(** scans.py 141-145: [ScanSeries.append]; the series after the call and the exception *)
Definition series_append (l : list scan) (x : series_arg) : list scan * option exn :=
  match x with SAScan s => ((l ++ [s])%list, None) | SAOther => (l, Some TypeError) end.
(** np.array of a list of vectors: two-dimensional if they have the same length, an array of objects otherwise; nothing at all is a
    one-dimensional array of length 0. *)
Inductive stacked := Stacked (a : arr) | Ragged (rows : list (list fl)).
Definition np_stack (rows : list (list fl)) : stacked :=
  match rows with
  | [] => Stacked (A1 [])
  | r :: rs => if forallb (fun r' => Nat.eqb (List.length r') (List.length r)) rs then Stacked (A2 (List.length r) rows) else Ragged rows
  end.
(** scans.py 147-149: [to_array] *)
Definition to_array (erf : R -> R) (l : list scan) : res stacked := rows <- mapM (corrected_intensity erf) l ;; Ok (np_stack rows).

(** ** The Gaussian kernel *)
(** data_generator.py 198-206: [_make_gaussian]; exact arithmetic, no underflow; np.min of nothing is a ValueError.  [n_std] is 5 by
    default. *)
Definition make_gaussian (x : list R) (std n_std : R) : res (list fl * list R) :=
  match x with
  | [] => Raise ValueError
  | x0 :: xs =>
      let lo := fold_left Rmin xs x0 in
      let hi := fold_left Rmax xs x0 in
      let center := lo + (hi - lo) / 2 in
      let g := map (fun a => fdiv (option_map (fun d => exp (- d ^ 2 / 2)) (fdiv (Some (a - center)) (Some std))) (Some (std * sqrt (2 * PI)))) x in
      let g := map (fun v => fdiv v (fsum g)) g in
      let inside := fun a => if Rle_dec (- n_std * std) (a - center) then (if Rle_dec (a - center) (n_std * std) then true else false) else false in
      let kept := filter (fun p => inside (snd p)) (combine g x) in
      Ok (map fst kept, map snd kept)
  end.

(** ** The timer decorator *)
Section Timer.
  Context {A B : Type}.
  (** What a call can see and change besides its result: the lines printed and the number of readings of the clock *)
  Record world := mkWorld { w_printed : list string; w_readings : nat }.
  (** A decorated function: positional and keyword arguments *)
  Definition pyfun := list A -> list (string * A) -> world -> world * res B.
  (** The clock and the text 'Finished ... in ... secs' *)
  Variable clock : nat -> R.
  Variable text : R -> string.
  (** The local variables of [wrapper_timer] when it looks at them: its parameters and the captured function *)
  Definition wrapper_locals : list string := ["args"; "kwargs"; "func"].
  (** performance_tools.py 5-20; [time_] is the global variable [time] of that module, which does not exist there. *)
  Definition timer (time_ : option bool) (func : pyfun) : pyfun := fun args kwargs w =>
    if existsb (String.eqb "time") wrapper_locals then
      match time_ with
      | None => (w, Raise NameError)
      | Some true =>
          let start_time := clock (w_readings w) in
          let '(w, value) := func args kwargs (mkWorld (w_printed w) (S (w_readings w))) in
          match value with
          | Raise e => (w, Raise e)
          | Ok v => let end_time := clock (w_readings w) in
                    (mkWorld (w_printed w ++ [text (end_time - start_time)])%list (S (w_readings w)), Ok v)
          end
      | Some false => func args kwargs w
      end
    else func args kwargs w.
  (** A function with given keyword parameters: another keyword is a TypeError before the body runs. *)
  Definition with_keywords (names : list string) (body : pyfun) : pyfun := fun args kwargs w =>
    if forallb (fun k => existsb (String.eqb (fst k)) names) kwargs then body args kwargs w else (w, Raise TypeError).
End Timer.
Arguments pyfun : clear implicits.

(** ** Row-wise application *)
(** noise.py 10-21: [iterate_over_curves].  An array of another dimension is given by its dimension. *)
Inductive ndarray := ND (a : arr) | NDother (dim : nat).
Definition iterate_over_curves (func : list fl -> res (list fl)) (a : ndarray) : res stacked :=
  match a with
  | NDother _ => Raise ValueError
  | ND (A1 v) => r <- func v ;; Ok (Stacked (A1 r))
  | ND (A2 _ rows) => out <- mapM func rows ;; Ok (np_stack out)
  end.

(** ** Text files of preprocessing values *)
(** np.loadtxt of the lines of a file, each a list of numbers: lines of different lengths are a ValueError; a single line or a single
    column gives a one-dimensional array (one number a zero-dimensional one). *)
Inductive loaded := L0 (x : fl) | L1 (v : list fl) | L2 (rows : list (list fl)).
Definition loadtxt (lines : list (list fl)) : res loaded :=
  match lines with
  | [] => Ok (L1 [])
  | r :: rs =>
      if forallb (fun r' => Nat.eqb (List.length r') (List.length r)) rs then
        match rs, r with
        | [], [x] => Ok (L0 x)
        | [], _ => Ok (L1 r)
        | _, [_] => Ok (L1 (map (fun r => nth 0 r None) lines))
        | _, _ => Ok (L2 lines)
        end
      else Raise ValueError
  end.
(** [a[:, j]]: too many indices unless there are two dimensions *)
Definition column_of (a : loaded) (j : nat) : res (list fl) :=
  match a with L2 rows => mapM (fun r => py_get r (Z.of_nat j)) rows | _ => Raise IndexError end.
(** trained_model.py 101-104: [_load_ip_values]; the mean and standard deviation after the call and the exception.  Assumption: the
    lines of the file are not empty (np.loadtxt skips empty lines). *)
Definition load_ip_values (ip : option (list fl) * option (list fl)) (lines : list (list fl)) : (option (list fl) * option (list fl)) * option exn :=
  match loadtxt lines with
  | Raise e => (ip, Some e)
  | Ok a =>
      match column_of a 0 with
      | Raise e => (ip, Some e)
      | Ok m =>
          match column_of a 1 with
          | Raise e => ((Some m, snd ip), Some e)
          | Ok s => ((Some m, Some s), None)
          end
      end
  end.

(** ** Labels as arrays *)
(** label_helpers.py 20-28: [convert_to_ndarray]; np.array of a DataFrame has one row per index entry *)
Definition convert_to_ndarray (l : plabels) : res arr :=
  match l with
  | PArray a => Ok a
  | PFrame f => Ok (A2 (List.length (if_cols f)) (map (fun i => map (fun c => nth i (snd c) None) (if_cols f)) (seq 0 (List.length (if_index f)))))
  | POther => Raise TypeError
  end.
(** prediction.py 62-69: [_wrap_ndarray_in_list] *)
Inductive test_input := TArray (a : arr) | TList (l : list arr) | TOther.
Definition wrap_in_list (t : test_input) : res (list arr) :=
  match t with TArray a => Ok [a] | TList l => Ok l | TOther => Raise TypeError end.
