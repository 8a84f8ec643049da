(** Model of the FIO reader and parser.
    Source: /repo/mlreflect/xrrloader/p08tools/fio_reader.py and /repo/mlreflect/xrrloader/parser/fio_parser.py.
    A file is a list of lines (line ends dropped: every use of a line strips or splits it).  [float()] is an oracle.
    Printing is not modelled.  Command line use of the reader (fio_reader.py 160-176) is not modelled. *)
From Coq Require Import Reals Lra DecimalString.
From Verif Require Import Py Str Arr Footprint_Model Spec_Model.
Local Open Scope R_scope.
Local Open Scope string_scope.

(** ** More string operations *)
(** [s.lower()] for code points 0..255 *)
Definition lower_char (c : ascii) : ascii :=
  let n := N_of_ascii c in
  if ((65 <=? n) && (n <=? 90) || (192 <=? n) && (n <=? 222) && negb (n =? 215))%N then ascii_of_N (n + 32)%N else c.
Fixpoint map_string (f : ascii -> ascii) (s : string) : string :=
  match s with "" => "" | String c s' => String (f c) (map_string f s') end.
Definition lower : string -> string := map_string lower_char.
(** [s.replace(a, b)] for single characters *)
Definition replace_char (a b : ascii) : string -> string := map_string (fun c => if Ascii.eqb c a then b else c).
(** [s[lo:hi]] *)
Definition str_slice (s : string) (lo hi : option Z) : string :=
  string_of_list_ascii (py_slice (list_ascii_of_string s) lo hi).
(** The positions of a character *)
Fixpoint char_positions (c : ascii) (i : Z) (s : string) : list Z :=
  match s with "" => [] | String d s' => if Ascii.eqb d c then i :: char_positions c (i + 1) s' else char_positions c (i + 1) s' end.
(** The text after a prefix *)
Fixpoint drop_prefix (p s : string) : string :=
  match p, s with String _ p', String _ s' => drop_prefix p' s' | _, _ => s end.
(** [s.split(sep)] for a nonempty separator: leftmost, non-overlapping matches.  [fuel] bounds the number of steps by the
    length of the text. *)
Fixpoint split_on (fuel : nat) (sep s : string) : list string :=
  match fuel with
  | O => [s]
  | S fuel' =>
      if String.prefix sep s then "" :: split_on fuel' sep (drop_prefix sep s)
      else match s with
           | "" => [""]
           | String c s' => match split_on fuel' sep s' with [] => [String c ""] | w :: ws => String c w :: ws end
           end
  end.
Definition split_str (sep s : string) : list string := split_on (S (String.length s)) sep s.
(** [s.strip(chars)] *)
Definition strip_chars (chars s : string) : string :=
  rstrip_by (fun c => has_char c chars) (lstrip_by (fun c => has_char c chars) s).
(** [f'{n:05d}'] *)
Definition decimal (n : N) : string := NilEmpty.string_of_uint (N.to_uint n).
Fixpoint zeros (n : nat) : string := match n with O => "" | S n' => String "0" (zeros n') end.
Definition pad (width : nat) (s : string) : string := zeros (width - String.length s) ++ s.
Definition fmt05 (z : Z) : string :=
  if (z <? 0)%Z then "-" ++ pad 4 (decimal (Z.to_N (- z))) else pad 5 (decimal (Z.to_N z)).

(** ** fio_reader.py *)
Inductive section := Nowhere | Comments | Params | Data.
(** The local variables of [read]; a key missing in [header_info] is [None] *)
Record reader := mkReader {
  r_motors : list (string * fl);
  r_section : section;
  r_columns : bool;
  r_names : list string;
  r_command : option string;
  r_ubmatrix : option (list (list fl));
  r_signal : option string;
  r_rois : list (string * list (string * list fl));
  r_data : list (string * list fl) }.
Definition reader0 : reader := mkReader [] Nowhere false [] None None None [] [].
Definition set_section (x : section) (r : reader) : reader :=
  mkReader (r_motors r) x (r_columns r) (r_names r) (r_command r) (r_ubmatrix r) (r_signal r) (r_rois r) (r_data r).
Definition set_motor (k : string) (v : fl) (r : reader) : reader :=
  mkReader (dict_set String.eqb (r_motors r) k v) (r_section r) (r_columns r) (r_names r) (r_command r) (r_ubmatrix r) (r_signal r) (r_rois r) (r_data r).
Definition set_ubmatrix (m : list (list fl)) (r : reader) : reader :=
  mkReader (r_motors r) (r_section r) (r_columns r) (r_names r) (r_command r) (Some m) (r_signal r) (r_rois r) (r_data r).
Definition set_signal (s : string) (r : reader) : reader :=
  mkReader (r_motors r) (r_section r) (r_columns r) (r_names r) (r_command r) (r_ubmatrix r) (Some s) (r_rois r) (r_data r).
Definition set_rois (k : string) (v : list (string * list fl)) (r : reader) : reader :=
  mkReader (r_motors r) (r_section r) (r_columns r) (r_names r) (r_command r) (r_ubmatrix r) (r_signal r) (dict_set String.eqb (r_rois r) k v) (r_data r).
Definition set_command (s : string) (r : reader) : reader :=
  mkReader (r_motors r) (r_section r) (r_columns r) (r_names r) (Some s) (r_ubmatrix r) (r_signal r) (r_rois r) (r_data r).
Definition add_name (s : string) (r : reader) : reader :=
  mkReader (r_motors r) (r_section r) (r_columns r) (r_names r ++ [s]) (r_command r) (r_ubmatrix r) (r_signal r) (r_rois r) (r_data r).
Definition set_data (done : bool) (d : list (string * list fl)) (r : reader) : reader :=
  mkReader (r_motors r) (r_section r) done (r_names r) (r_command r) (r_ubmatrix r) (r_signal r) (r_rois r) d.

Section Fio.
(** float(text): [None] is a ValueError, [Some None] an infinity or NaN *)
Variable to_float : string -> option fl.

(** fio_reader.py 71-96: three bracketed rows; [re.sub(' +', ' ', …)] does not change the words *)
Definition ub_row (s : string) (opens closes : list Z) (k : Z) : res (list fl) :=
  o <- py_get opens (k + 1)%Z ;; c <- py_get closes k ;;
  mapM (parse_cell to_float) (split_ws (str_slice s (Some (o + 1)%Z) (Some c))).
Definition ub_matrix (line : string) : res (list (list fl)) :=
  s <- py_get (split_char "=" (strip (replace_char ";" "," line))) 1 ;;
  mapM (ub_row s (char_positions "[" 0 s) (char_positions "]" 0 s)) [0%Z; 1%Z; 2%Z].
(** fio_reader.py 104-110: groups of four numbers, numbered from 1; [fuel] bounds the number of groups by the number of
    numbers *)
Fixpoint roi_groups (fuel : nat) (cnt : N) (l : list fl) : list (string * list fl) :=
  match fuel, l with
  | O, _ | _, [] => []
  | S fuel', _ => ("roi" ++ decimal cnt, firstn 4 l) :: roi_groups fuel' (cnt + 1)%N (skipn 4 l)
  end.
(** fio_reader.py 99-112 *)
Definition roi_line (key value : string) : res (string * list (string * list fl)) :=
  nums <- mapM (parse_cell to_float) (split_char "," (str_slice (strip value) (Some 1%Z) (Some (-1)%Z))) ;;
  name <- py_get (split_char " " key) 1 ;;
  Ok (strip name, roi_groups (List.length nums) 1 nums).
(** fio_reader.py 61-116: one line of the parameter block; every exception is swallowed *)
Definition has_equals (line : string) : bool :=
  match line with "" => false | String _ s => has_char "=" s end.
Definition param_line (line : string) (r : reader) : reader :=
  if negb (has_equals line) then r else
  match split_char "=" (strip line) with
  | key :: value :: _ =>
      match to_float value with
      | Some x => set_motor (strip key) x r
      | None =>
          if String.eqb (lower (strip key)) "ubmatrix" then
            match ub_matrix line with Ok m => set_ubmatrix m r | Raise _ => r end
          else if String.eqb (lower (strip key)) "signalcounter" then set_signal (strip value) r
          else if contains "roi" (strip key) then
            match roi_line key value with Ok (k, v) => set_rois k v r | Raise _ => r end
          else r
      end
  | _ => r
  end.
(** fio_reader.py 133-136: the [idx]-th word of a data line as a number, NaN if there is none *)
Definition cell (words : list string) (idx : nat) : fl :=
  match nth_error words idx with
  | Some w => match to_float w with Some x => x | None => None end
  | None => None
  end.
(** fio_reader.py 130-136: the first data line *)
Definition first_row (names : list string) (words : list string) (d : list (string * list fl)) : list (string * list fl) :=
  fold_left (fun d '(name, idx) => dict_set String.eqb d name [cell words idx]) (combine names (seq 0 (List.length names))) d.
(** fio_reader.py 142-148: the following data lines *)
Definition next_row (names : list string) (words : list string) (d : list (string * list fl)) : res (list (string * list fl)) :=
  foldM (fun d '(name, idx) =>
           match dict_get String.eqb d name with
           | Some col => Ok (dict_set String.eqb d name (col ++ [cell words idx])%list)
           | None => Raise KeyError
           end) d (combine names (seq 0 (List.length names))).
(** fio_reader.py 39-148: one line.  [None] is the [break] of [header_only]. *)
Definition read_line (header_only : bool) (r : reader) (line : string) : res (option reader) :=
  if contains "%c" line then Ok (Some (set_section Comments r))
  else if contains "%p" line then Ok (Some (set_section Params r))
  else if contains "%d" line then Ok (Some (set_section Data r))
  else if contains "!" line then Ok (Some r)
  else match r_section r with
       | Params => Ok (Some (param_line line r))
       | Comments => Ok (Some (if contains "scan" line || contains "mesh" line then set_command (strip line) r else r))
       | s =>
           if (match s with Data => true | _ => false end) && negb (r_columns r) then
             if contains "Col " line then name <- py_get (split_ws line) 2 ;; Ok (Some (add_name name r))
             else match r_names r with
                  | [] => Ok (Some r)
                  | _ => if header_only then Ok None
                         else Ok (Some (set_data true (first_row (r_names r) (split_ws line) (r_data r)) r))
                  end
           else if r_columns r then
             d <- next_row (r_names r) (split_ws line) (r_data r) ;; Ok (Some (set_data true d r))
           else Ok (Some r)
       end.
(** fio_reader.py 36-157: the loop; the returned tuple is the final state *)
Fixpoint read_lines (header_only : bool) (r : reader) (file : list string) : res reader :=
  match file with
  | [] => Ok r
  | line :: file' =>
      o <- read_line header_only r line ;;
      match o with None => Ok r | Some r' => read_lines header_only r' file' end
  end.
Definition read (header_only : bool) (file : list string) : res reader := read_lines header_only reader0 file.

(** ** fio_parser.py *)
(** The text files of the disk by path *)
Definition disk := list (string * list string).
Definition read_fio (fs : disk) (path : string) : res reader :=
  match dict_get String.eqb fs path with Some file => read false file | None => Raise FileNotFoundError end.
(** glob(prefix + '*' + suffix) for a prefix and suffix without wildcards: the star stands for text without '/' *)
Definition glob_match (prefix suffix path : string) : bool :=
  String.prefix prefix path && endswith suffix (drop_prefix prefix path) &&
  negb (has_char "/" (drop_prefix prefix path)).
(** sorted(…) on strings *)
Definition str_leb (a b : string) : bool := match String.compare a b with Gt => false | _ => true end.
Fixpoint insert_sorted (x : string) (l : list string) : list string :=
  match l with [] => [x] | y :: l' => if str_leb x y then x :: l else y :: insert_sorted x l' end.
Definition sort_strings (l : list string) : list string := fold_right insert_sorted [] l.
Definition globbed (paths : list string) (prefix suffix : string) : list string := filter (glob_match prefix suffix) paths.

(** fio_parser.py 20-25: the attributes; [fp_stem] is str(Path(file_stem)) *)
Record fio_parser := mkFioParser { fp_stem : string; fp_theta : string; fp_two_theta : string }.
(** fio_parser.py 42-44: [fio_path_list] *)
Definition fio_path_list (fs : disk) (p : fio_parser) : list string := sort_strings (globbed (map fst fs) (fp_stem p) ".fio").
(** fio_parser.py 51-52: [scan_numbers] *)
Definition scan_numbers (fs : disk) (p : fio_parser) : res (list Z) :=
  mapM (fun file => part <- py_get (split_str (fp_stem p ++ "_") file) 1 ;; py_int (strip_chars ".fio" part)) (fio_path_list fs p).
(** fio_parser.py 72-73: [_is_theta2theta_scan]; [x in None] is a TypeError *)
Definition is_theta2theta (p : fio_parser) (command : option string) : res bool :=
  match command with
  | None => Raise TypeError
  | Some c => Ok (contains (fp_theta p) c && contains (fp_two_theta p) c)
  end.
(** fio_parser.py 28-39: [scan_info]: file name, final reader state (the header) and the scan type *)
Definition scan_info (fs : disk) (p : fio_parser) : res (list (Z * (string * reader * bool))) :=
  numbers <- scan_numbers fs p ;;
  foldM (fun d '(n, file) =>
           h <- read_fio fs file ;; b <- is_theta2theta p (r_command h) ;;
           Ok (dict_set Z.eqb d n (file, h, b)))
        [] (combine numbers (fio_path_list fs p)).
(** fio_parser.py 47-48: [number_of_scans] *)
Definition number_of_scans (fs : disk) (p : fio_parser) : res nat :=
  i <- scan_info fs p ;; Ok (List.length i).
(** fio_parser.py 20-25: the constructor counts the scans *)
Definition fio_parser_new (fs : disk) (stem theta two_theta : string) : res fio_parser :=
  let p := mkFioParser stem theta two_theta in
  _ <- number_of_scans fs p ;; Ok p.
(** fio_parser.py 56, 68: the file of a scan *)
Definition scan_path (p : fio_parser) (n : Z) : string := fp_stem p ++ "_" ++ fmt05 n ++ ".fio".
(** fio_parser.py 54-63: [parse_fio]; pandas refuses columns of different lengths *)
Definition parse_fio (fs : disk) (p : fio_parser) (n : Z) : res reader :=
  r <- read_fio fs (scan_path p n) ;;
  match map (fun kv => List.length (snd kv)) (r_data r) with
  | [] => Ok r
  | k :: ks => if forallb (Nat.eqb k) ks then Ok r else Raise ValueError
  end.
End Fio.
