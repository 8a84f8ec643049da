(** Model of the SPEC file parser and loader.
    Source: /repo/mlreflect/xrrloader/parser/spec_parser.py and /repo/mlreflect/xrrloader/dataloader/spec_loader.py.
    Text is a list of lines; printing is not modelled.  [float()] is an oracle.  Scan numbers passed to the loader are
    integers, so [int(scan_number)] is the number itself. *)
From Coq Require Import Reals Lra.
From Verif Require Import Py Str Arr Footprint_Model Scan_Model.
Local Open Scope R_scope.
Local Open Scope string_scope.

(** ** [int(text)]: surrounding whitespace, a sign, decimal digits with single underscores between them *)
Definition digit_val (c : ascii) : option Z :=
  let n := Z.of_N (N_of_ascii c) in if ((48 <=? n) && (n <=? 57))%Z then Some (n - 48)%Z else None.
(** [need] says that a digit has to follow (at the beginning and after an underscore). *)
Fixpoint int_digits (acc : Z) (need : bool) (s : string) : option Z :=
  match s with
  | EmptyString => if need then None else Some acc
  | String c s' =>
      match digit_val c with
      | Some d => int_digits (acc * 10 + d)%Z false s'
      | None => if Ascii.eqb c "_" && negb need then int_digits acc true s' else None
      end
  end.
Definition py_int (s : string) : res Z :=
  let r := match strip s with
           | String c s' => if Ascii.eqb c "-" then option_map Z.opp (int_digits 0 true s')
                            else if Ascii.eqb c "+" then int_digits 0 true s'
                            else int_digits 0 true (String c s')
           | EmptyString => None
           end in
  match r with Some z => Ok z | None => Raise ValueError end.

(** ** Insertion-ordered dictionaries: a new key goes to the end, an existing one keeps its place *)
Section Dict.
Context {K V : Type}.
Variable eqb : K -> K -> bool.
Fixpoint dict_set (d : list (K * V)) (k : K) (v : V) : list (K * V) :=
  match d with
  | [] => [(k, v)]
  | (k', v') :: d' => if eqb k' k then (k, v) :: d' else (k', v') :: dict_set d' k v
  end.
Fixpoint dict_get (d : list (K * V)) (k : K) : option V :=
  match d with
  | [] => None
  | (k', v') :: d' => if eqb k' k then Some v' else dict_get d' k
  end.
End Dict.

(** ** spec_parser.py *)
(** spec_parser.py 73-92: the dictionary describing one scan; a missing key is [None] *)
Record entry := mkEntry {
  e_start : nat;
  e_end : option nat;
  e_command : option string;
  e_time : option string;
  e_data : option nat }.
Definition index := list (Z * entry).
(** The parser: the lines without trailing whitespace and the scan index *)
Record parser := mkParser { p_lines : list string; p_index : index }.

(** spec_parser.py 57-67: [_search_for_next_scan]; [ls] is the file from line [i] on *)
Fixpoint next_scan (ls : list string) (i : nat) : option nat :=
  match ls with
  | [] => None
  | l :: ls' => if startswith "#S" l then Some i else next_scan ls' (S i)
  end.
(** spec_parser.py 74-93: the loop; [ls] is the file from line [i] on, [num] the local [scan_number].  The loop has always
    passed the line [e_start] when it stops, so [i - 1] is not negative. *)
Fixpoint read_scan (ls : list string) (i : nat) (num : option string) (e : entry) : res (option string * entry) :=
  match ls with
  | [] => Ok (num, mkEntry (e_start e) (Some (i - 1)%nat) (e_command e) (e_time e) (e_data e))
  | l :: ls' =>
      if startswith "#S" l then
        n <- py_get (split_ws l) 1 ;;
        read_scan ls' (S i) (Some n)
          (mkEntry (e_start e) (e_end e) (Some (join " " (py_slice (split_ws l) (Some 2%Z) None))) (e_time e) (e_data e))
      else if startswith "#D" l then
        read_scan ls' (S i) num
          (mkEntry (e_start e) (e_end e) (e_command e) (Some (join " " (py_slice (split_ws l) (Some 1%Z) None))) (e_data e))
      else if startswith "#L" l then
        read_scan ls' (S i) num (mkEntry (e_start e) (e_end e) (e_command e) (e_time e) (Some i))
      else if String.eqb (strip l) "" then
        Ok (num, mkEntry (e_start e) (Some (i - 1)%nat) (e_command e) (e_time e) (e_data e))
      else read_scan ls' (S i) num e
  end.
(** spec_parser.py 69-95: [_index_scans].  [depth] is the number of nested calls the interpreter still allows. *)
Fixpoint index_scans (depth : nat) (lines : list string) (start : nat) (idx : index) : res index :=
  match depth with
  | O => Raise RecursionError
  | S depth' =>
      match next_scan (skipn start lines) start with
      | None => Ok idx
      | Some st =>
          '(num, e) <- read_scan (skipn st lines) st None (mkEntry st None None None None) ;;
          match num, e_end e with
          | Some w, Some last =>
              n <- py_int w ;;
              index_scans depth' lines (last + 1) (dict_set Z.eqb idx n e)
          | None, _ => Raise UnboundLocalError
          | _, None => Raise KeyError
          end
      end
  end.
(** spec_parser.py 14-21: [__init__] *)
Definition spec_parser (depth : nat) (file : list string) : res parser :=
  let lines := map rstrip file in
  idx <- index_scans depth lines 0 [] ;; Ok (mkParser lines idx).

Definition data_start (p : parser) (n : Z) : res nat :=
  match dict_get Z.eqb (p_index p) n with
  | None => Raise KeyError
  | Some e => match e_data e with None => Raise KeyError | Some k => Ok k end
  end.
(** spec_parser.py 37-40: [_extract_column_names] *)
Definition column_names (p : parser) (n : Z) : res (list string) :=
  k <- data_start p n ;;
  l <- py_get (p_lines p) (Z.of_nat k) ;;
  Ok (split_two " " " " (lstrip_by (fun c => has_char c "#L ") l)).

Section Spec.
(** float(text): [None] is a ValueError, [Some None] an infinity or NaN *)
Variable to_float : string -> option fl.

(** spec_parser.py 42-54: the lines up to the first empty line, comment or the end of the file, split *)
Fixpoint data_rows (ls : list string) : list (list string) :=
  match ls with
  | [] => []
  | l :: ls' => if startswith "#" l || String.eqb l "" then [] else split_ws l :: data_rows ls'
  end.
(** spec_parser.py 55: np.array(data, dtype=float); rows of different lengths are a ValueError *)
Definition parse_cell (w : string) : res fl := match to_float w with Some x => Ok x | None => Raise ValueError end.
Definition scan_data (p : parser) (n : Z) : res (list (list fl)) :=
  k <- data_start p n ;;
  let words := data_rows (skipn (k + 1) (p_lines p)) in
  match words with
  | [] => Ok []
  | r :: _ => if forallb (fun r' => Nat.eqb (List.length r') (List.length r)) words
              then mapM (mapM parse_cell) words else Raise ValueError
  end.
(** A table with distinct column names: names and rows *)
Record table := mkTable { t_names : list string; t_rows : list (list fl) }.
(** spec_parser.py 31-35: [extract_scan].  pandas raises ValueError unless the number of columns fits; an empty array has
    one column. *)
Definition extract_scan (p : parser) (n : Z) : res table :=
  names <- column_names p n ;;
  data <- scan_data p n ;;
  let width := match data with [] => 1%nat | r :: _ => List.length r end in
  if Nat.eqb width (List.length names) then Ok (mkTable names data) else Raise ValueError.

(** ** spec_loader.py *)
(** spec_loader.py 30-42 and reflectivity_loader.py 11-20: the loader's attributes *)
Record loader := mkLoader {
  ld_parser : parser;
  ld_angles : list string;
  ld_intensity : string;
  ld_wavelength : R;
  ld_beam : option R;
  ld_sample : option R;
  ld_shape : option string;
  ld_norm : option string;
  ld_attenuator : option string;
  ld_division : option string }.

Fixpoint position (name : string) (l : list string) : option nat :=
  match l with
  | [] => None
  | x :: l' => if String.eqb x name then Some O else option_map S (position name l')
  end.
(** scan[name] *)
Definition table_col (t : table) (name : string) : res (list fl) :=
  match position name (t_names t) with
  | Some j => Ok (column j (t_rows t))
  | None => Raise KeyError
  end.
Definition fabs : fl -> fl := option_map Rabs.
(** spec_loader.py 91-92: [_contains_counters] *)
Definition contains_counters (angles names : list string) : bool :=
  forallb (fun a => existsb (String.eqb a) names) angles.
(** spec_loader.py 61-62: the sum of the absolute angles; without angle columns the sum is empty *)
Definition scattering_angle (t : table) (angles : list string) : res (list fl) :=
  cols <- mapM (fun a => c <- table_col t a ;; Ok (map fabs c)) angles ;;
  Ok (by_column fsum (match cols with [] => 0%nat | c :: _ => List.length c end) cols).
(** spec_loader.py 63-69: intensity with attenuator correction and division *)
Definition loaded_intensity (d : loader) (t : table) (angle : list fl) : res (list fl) :=
  i0 <- table_col t (ld_intensity d) ;;
  i1 <- match ld_attenuator d with
        | None => Ok i0
        | Some a => c <- table_col t a ;; i <- apply_attenuation i0 c ;; correct_discontinuities i angle
        end ;;
  match ld_division d with
  | None => Ok i1
  | Some c => v <- table_col t c ;; apply_normalization i1 v
  end.
(** spec_loader.py 48-79: [load_scan] *)
Definition load_scan (d : loader) (n : Z) (trim_f trim_b : option Z) : res scan :=
  t <- match extract_scan (ld_parser d) n with
       | Raise KeyError | Raise ValueError => Raise NotReflectivityScanError
       | x => x
       end ;;
  if negb (contains_counters (ld_angles d) (t_names t)) then Raise NotReflectivityScanError else
  time <- match dict_get Z.eqb (p_index (ld_parser d)) n with
          | Some e => match e_time e with Some s => Ok s | None => Raise KeyError end
          | None => Raise KeyError
          end ;;
  angle <- scattering_angle t (ld_angles d) ;;
  intensity <- loaded_intensity d t angle ;;
  let '(angle, intensity) :=
    match trim_b with Some b => (trim_back b angle, trim_back b intensity) | None => (angle, intensity) end in
  let '(angle, intensity) :=
    match trim_f with Some f => (trim_front f angle, trim_front f intensity) | None => (angle, intensity) end in
  Ok (scan_new n angle intensity (ld_wavelength d) (ld_beam d) (ld_sample d) (ld_shape d) (ld_norm d) (Some time)).
(** spec_loader.py 81-89: [load_scans] *)
Definition load_scans (d : loader) (ns : list Z) (trim_f trim_b : option Z) : res (list scan) :=
  foldM (fun acc n => match load_scan d n trim_f trim_b with
                      | Ok s => Ok (acc ++ [s])%list
                      | Raise NotReflectivityScanError => Ok acc
                      | Raise e => Raise e
                      end) [] ns.
End Spec.
