(** Model of the scan objects of the P08 tools and of the FIO loader.
    Source: /repo/mlreflect/xrrloader/p08tools/P08ScanTools.py and /repo/mlreflect/xrrloader/dataloader/fio_loader.py.
    Pixels are numbers, so the integer type of detector images is not modelled; an image assigned into a stack has to have
    the size of the stack (numpy would also stretch images with one row or column).  A failing method leaves no result.
    Plotting and export are not modelled. *)
From Coq Require Import Reals Lra.
From Flocq Require Import Core.Raux.
From Verif Require Import Py Str Arr Footprint_Model Scan_Model Spec_Model Fio_Model.
Local Open Scope R_scope.
Local Open Scope string_scope.

(** One picture: its rows *)
Definition image := list (list fl).
(** Pictures of an area detector, or profiles of a line detector *)
Inductive stack := S3 (imgs : list image) | S2 (lines : list (list fl)).
(** Detector files by path: pictures (fabio), stacks (HDF5), second columns of text files *)
Record media := mkMedia { m_images : list (string * image); m_stacks : list (string * list image); m_raw : list (string * list fl) }.
Definition open_file {A} (l : list (string * A)) (path : string) : res A :=
  match dict_get String.eqb l path with Some x => Ok x | None => Raise FileNotFoundError end.

(** P08ScanTools.py 28-48: the attributes; the detector flags are the members of [f_detectors] *)
Record fscan := mkFscan {
  f_name : string;
  f_dir : string;
  f_command : option string;
  f_motors : list (string * fl);
  f_data : list (string * list fl);
  f_rois : list (string * list (string * list fl));
  f_motor_names : list string;
  f_positions : list (list fl);
  f_detectors : list string;
  f_images : list (string * stack);
  f_removed : option (list nat);
  f_doubles : bool }.
Definition set_images (i : list (string * stack)) (s : fscan) : fscan :=
  mkFscan (f_name s) (f_dir s) (f_command s) (f_motors s) (f_data s) (f_rois s) (f_motor_names s) (f_positions s) (f_detectors s) i (f_removed s) (f_doubles s).

(** data[name] *)
Definition data_col (d : list (string * list fl)) (name : string) : res (list fl) :=
  match dict_get String.eqb d name with Some c => Ok c | None => Raise KeyError end.

(** s.rsplit(c, 1)[0]: the text before the last [c], or the whole text *)
Fixpoint before_last (c : ascii) (s : string) : option string :=
  match s with
  | "" => None
  | String d s' => match before_last c s' with
                   | Some r => Some (String d r)
                   | None => if Ascii.eqb d c then Some "" else None
                   end
  end.
Definition rsplit_head (c : ascii) (s : string) : string := match before_last c s with Some r => r | None => s end.
Definition last_part (c : ascii) (s : string) : string := last (split_char c s) "".

(** P08ScanTools.py 98-126: the motors named by the command *)
Definition command_motors (cmd : string) (d : list (string * list fl)) : res (list string * list (list fl)) :=
  let word k := py_get (split_ws cmd) k in
  let columns names keys := cols <- mapM (data_col d) keys ;; Ok (names, cols) in
  if contains "lscan" cmd && negb (contains "hklscan" cmd) then columns ["l"] ["kozhue6cctrl_l"]
  else if contains "kscan" cmd then columns ["k"] ["kozhue6cctrl_k"]
  else if contains "hscan" cmd then columns ["h"] ["kozhue6cctrl_h"]
  else if contains "hklscan" cmd then columns ["h"; "k"; "l"] ["kozhue6cctrl_h"; "kozhue6cctrl_k"; "kozhue6cctrl_l"]
  else if contains "ascan" cmd || contains "dscan" cmd then
    a <- word 1%Z ;; columns [a] [a]
  else if contains "a2scan" cmd || contains "d2scan" cmd then
    a <- word 1%Z ;; b <- word 4%Z ;; columns [a; b] [a; b]
  else if contains "a3scan" cmd || contains "d3scan" cmd then
    a <- word 1%Z ;; b <- word 4%Z ;; c <- word 7%Z ;; columns [a; b; c] [a; b; c]
  else Ok ([], []).

(** P08ScanTools.py 129-157: the detectors recognised from the column names *)
Definition detector_of (name : string) : option string :=
  if contains "lambda" name then Some "lambda"
  else if contains "p100k" name then Some "p100k"
  else if contains "p300k" name then Some "p300k"
  else if contains "eiger" name then Some "eiger"
  else if contains "mythint" name || contains "mythmax" name || contains "mythroi1" name || contains "mythroi2" name then Some "mythen"
  else if contains "pe_roi" name || contains "pe_trigger" name then Some "pe"
  else None.
Definition detectors_of (names : list string) : list string :=
  filter (fun d => existsb (fun n => match detector_of n with Some d' => String.eqb d' d | None => false end) names)
         ["lambda"; "p100k"; "p300k"; "eiger"; "mythen"; "pe"].

(** numpy.delete(l, idxes, axis=0); numpy 1.18 ignores numbers out of range *)
Definition keep_but {A} (idxes : list nat) (l : list A) : list A :=
  map snd (filter (fun ix => negb (existsb (Nat.eqb (fst ix)) idxes)) (combine (seq 0 (List.length l)) l)).
Definition stack_delete (s : stack) (idxes : list nat) : stack :=
  match s with S3 l => S3 (keep_but idxes l) | S2 l => S2 (keep_but idxes l) end.

(** P08ScanTools.py 198-294: pictures of the stack whose number is not in the index column are dropped *)
Definition is_index (col : list fl) (i : nat) : bool := existsb (fun x => feqb x (Some (INR i))) col.
Definition indexed_images (d : list (string * list fl)) (key : string) (imgs : list image) : list image :=
  match dict_get String.eqb d key with
  | None => imgs
  | Some col => keep_but (filter (fun i => negb (is_index col i)) (seq 0 (List.length imgs))) imgs
  end.
(** P08ScanTools.py 260-294: [_load_lambda] *)
Definition load_lambda (m : media) (dir name : string) (d : list (string * list fl)) : res stack :=
  imgs <- open_file (m_stacks m) (dir ++ "/" ++ name ++ "/lambda/" ++ name ++ "_00000.nxs") ;;
  Ok (S3 (indexed_images d "lambda_index" imgs)).
(** P08ScanTools.py 212-236: the file of the eiger detector, or the first listed file of the folder whose name contains
    "_master.h5".  The folder exists if it holds a detector file. *)
Definition eiger_folder (name : string) : res string :=
  match split_char "." name with
  | [w] => Ok w
  | w :: v :: _ => match before_last "_" v with
                   | Some _ => Ok (w ++ "_" ++ last_part "_" v)
                   | None => Raise IndexError
                   end
  | [] => Raise IndexError
  end.
Definition listdir (m : media) (dir : string) : res (list string) :=
  let paths := (map fst (m_images m) ++ map fst (m_stacks m) ++ map fst (m_raw m))%list in
  match filter (fun p => String.prefix (dir ++ "/") p) paths with
  | [] => Raise FileNotFoundError
  | l => Ok (filter (fun p => negb (has_char "/" (drop_prefix (dir ++ "/") p))) l)
  end.
Definition eiger_stack (m : media) (dir name : string) : res (list image) :=
  folder <- eiger_folder name ;;
  let path := dir ++ "/" ++ folder ++ "/eiger1m" in
  match dict_get String.eqb (m_stacks m) (path ++ "/" ++ folder ++ "_master.h5") with
  | Some imgs => Ok imgs
  | None =>
      files <- listdir m path ;;
      match filter (fun p => contains "_master.h5" (drop_prefix (path ++ "/") p)) files with
      | [] => Raise UnboundLocalError
      | p :: _ => match dict_get String.eqb (m_stacks m) p with Some imgs => Ok imgs | None => Raise OSError end
      end
  end.
Definition load_eiger (m : media) (dir name : string) (d : list (string * list fl)) : res stack :=
  imgs <- eiger_stack m dir name ;; Ok (S3 (indexed_images d "eiger_index" imgs)).

(** P08ScanTools.py 296-338: [_load_pilatus] *)
Definition image_width (i : image) : nat := match i with [] => O | r :: _ => List.length r end.
Definition dark (like : image) : image := repeat (repeat (Some 0) (image_width like)) (List.length like).
Definition same_size (a b : image) : bool := Nat.eqb (List.length a) (List.length b) && Nat.eqb (image_width a) (image_width b).
(** "%05d" % x truncates; NaN and infinities are errors (an infinity would be an OverflowError) *)
Definition to_int (x : fl) : res Z := match x with Some r => Ok (Ztrunc r) | None => Raise ValueError end.
Definition pilatus_step (m : media) (base : string) (files : list string) (first : image) (st : nat * list image) (x : fl)
    : res (nat * list image) :=
  let '(cnt, imgs) := st in
  i <- to_int x ;;
  let name := base ++ "_" ++ fmt05 i in
  let exists_file ext := existsb (String.eqb (name ++ ext)) files in
  if exists_file ".tif" || exists_file ".cbf" then
    im <- open_file (m_images m) (name ++ ".tif") ;;
    if same_size im first then imgs' <- py_set imgs (Z.of_nat cnt) im ;; Ok (S cnt, imgs') else Raise ValueError
  else Ok (cnt, imgs).
Definition load_pilatus (m : media) (dir name detector : string) (d : list (string * list fl)) : res stack :=
  let base := dir ++ "/" ++ name ++ "/" ++ detector ++ "/" ++ name in
  let paths := map fst (m_images m) in
  let files := sort_strings (globbed paths base ".tif" ++ globbed paths base ".cbf")%list in
  let idx := dict_get String.eqb d (detector ++ "_index") in
  let nr := match idx with Some l => List.length l | None => List.length files end in
  p <- py_get files 0 ;; first <- open_file (m_images m) p ;;
  match idx with
  | None => Ok (S3 (repeat (dark first) nr))
  | Some l => ' (_, imgs) <- foldM (pilatus_step m base files first) (O, repeat (dark first) nr) l ;; Ok (S3 imgs)
  end.
(** P08ScanTools.py 340-362: [_load_mythen] *)
Definition load_mythen (m : media) (dir name detector : string) : res stack :=
  let files := sort_strings (globbed (map fst (m_raw m)) (dir ++ "/" ++ name ++ "/" ++ detector ++ "/" ++ name) ".raw") in
  p <- py_get files 0 ;; first <- open_file (m_raw m) p ;;
  lines <- mapM (fun p => l <- open_file (m_raw m) p ;;
                          if Nat.eqb (List.length l) (List.length first) then Ok l else Raise ValueError) files ;;
  Ok (S2 lines).

(** P08ScanTools.py 186-196: [_remove_double_fromstack] *)
Definition remove_double_fromstack (removed : option (list nat)) (s : stack) : stack :=
  match removed with Some idxes => stack_delete s idxes | None => s end.
(** P08ScanTools.py 167-184: [load_image_stack] *)
Definition load_detector (m : media) (s : fscan) (detector : string) : res stack :=
  if String.eqb detector "lambda" then
    x <- load_lambda m (f_dir s) (f_name s) (f_data s) ;; Ok (remove_double_fromstack (f_removed s) x)
  else if String.eqb detector "p100k" then
    x <- load_pilatus m (f_dir s) (f_name s) "p100k" (f_data s) ;; Ok (remove_double_fromstack (f_removed s) x)
  else if String.eqb detector "eiger" then
    x <- load_eiger m (f_dir s) (f_name s) (f_data s) ;; Ok (remove_double_fromstack (f_removed s) x)
  else load_mythen m (f_dir s) (f_name s) "mythen".
Definition load_image_stack (m : media) (s : fscan) : res fscan :=
  images <- foldM (fun i det =>
                     if existsb (String.eqb det) (f_detectors s)
                     then x <- load_detector m s det ;; Ok (dict_set String.eqb i det x) else Ok i)
                  (f_images s) ["lambda"; "p100k"; "eiger"; "mythen"] ;;
  Ok (set_images images s).

(** P08ScanTools.py 371-405: [remove_double] *)
Fixpoint repeated_from (i : nat) (pos : list fl) : list nat :=
  match pos with
  | x :: ((y :: _) as pos') =>
      if feqb (fabs (fsub y x)) (Some 0) then i :: repeated_from (S i) pos' else repeated_from (S i) pos'
  | _ => []
  end.
Definition remove_double (s : fscan) : res fscan :=
  if f_doubles s then Ok s else
  pos <- py_get (f_positions s) 0 ;;
  let idxes := repeated_from 0 pos in
  Ok (mkFscan (f_name s) (f_dir s) (f_command s) (f_motors s) (map (fun kv => (fst kv, keep_but idxes (snd kv))) (f_data s))
              (f_rois s) (f_motor_names s) (map (keep_but idxes) (f_positions s)) (f_detectors s)
              (map (fun kv => (fst kv, stack_delete (snd kv) idxes)) (f_images s)) (Some idxes) true).

Section P08.
Variable to_float : string -> option fl.

(** P08ScanTools.py 50-165: [load_scan] *)
Definition scan_load (fs : disk) (m : media) (filename : string) (auto_load_images auto_remove_double : bool) : res fscan :=
  r <- read_fio to_float fs filename ;;
  let name := rsplit_head "." (last_part "/" filename) in
  let dir := rsplit_head "/" filename in
  cmd <- match r_command r with Some c => Ok c | None => Raise AttributeError end ;;
  ' (names, positions) <- command_motors cmd (r_data r) ;;
  let s := mkFscan name dir (Some cmd) (r_motors r) (r_data r) (r_rois r) names positions (detectors_of (r_names r)) [] None false in
  s <- (if auto_load_images then load_image_stack m s else Ok s) ;;
  if auto_remove_double then remove_double s else Ok s.
End P08.

(** P08ScanTools.py 407-429: [calc_q] *)
Definition fio_wavelength (motors : list (string * fl)) : res fl :=
  match dict_get String.eqb motors "energyfmb" with
  | None => Raise KeyError
  | Some None => Ok None
  | Some (Some e) => x <- py_div 12380 e ;; Ok (Some x)
  end.
Definition calc_q (s : fscan) : res fscan :=
  wavelength <- fio_wavelength (f_motors s) ;;
  k <- match wavelength with None => Ok None | Some w => x <- py_div (2 * PI) w ;; Ok (Some x) end ;;
  if existsb (String.eqb "tt") (f_motor_names s) && existsb (String.eqb "om") (f_motor_names s) then
    match position "tt" (f_motor_names s) with
    | None => Ok s
    | Some i =>
        pos <- py_get (f_positions s) (Z.of_nat i) ;;
        let q := map (fun x => fmul (fmul (Some 2) k) (option_map (fun a => sin (a / 2 * PI / 180)) x)) pos in
        Ok (mkFscan (f_name s) (f_dir s) (f_command s) (f_motors s) (f_data s) (f_rois s) (f_motor_names s ++ ["q"])%list
                    (f_positions s ++ [q])%list (f_detectors s) (f_images s) (f_removed s) (f_doubles s))
    end
  else Ok s.

(** ** ScanAnalyzer *)
Definition image_sum (i : image) : fl := fsum (List.concat i).
(** img[roi[1]:roi[3], roi[0]:roi[2]] *)
Definition image_region (roi : list Z) (i : image) : res image :=
  bottom <- py_get roi 1 ;; top <- py_get roi 3 ;; left <- py_get roi 0 ;; right <- py_get roi 2 ;;
  Ok (map (fun row => py_slice row (Some left) (Some right)) (py_slice i (Some bottom) (Some top))).
(** img[roi[0]:roi[1]] *)
Definition line_region (roi : list Z) (l : list fl) : res (list fl) :=
  lo <- py_get roi 0 ;; hi <- py_get roi 1 ;; Ok (py_slice l (Some lo) (Some hi)).
(** roi_intensity[key].append(x) *)
Definition append_to (d : list (string * list fl)) (key : string) (x : fl) : res (list (string * list fl)) :=
  match dict_get String.eqb d key with
  | Some l => Ok (dict_set String.eqb d key (l ++ [x])%list)
  | None => Raise KeyError
  end.
(** P08ScanTools.py 497-520 and 527-550: all regions of one stack; [total] and [part] sum a picture and a region of it *)
Definition roi_sums {A} (total : A -> fl) (part : list Z -> A -> res fl) (rois : list (string * list Z)) (imgs : list A)
    : res (list (string * list fl)) :=
  let empty := fold_left (fun d kv => dict_set String.eqb d (fst kv) []) rois [("all", [])] in
  foldM (fun d img =>
           d <- append_to d "all" (total img) ;;
           foldM (fun d kv => x <- part (snd kv) img ;; append_to d (fst kv) x) d rois) empty imgs.
(** P08ScanTools.py 483-486: the attenuator column, or the number 1 *)
Definition attenuation_of (d : list (string * list fl)) : list fl :=
  match dict_get String.eqb d "atten_position" with Some c => c | None => [Some 1] end.
(** P08ScanTools.py 478-553: [extract_rois] *)
Definition extract_rois (s : fscan) (rois : list (string * list Z)) : res (list (string * list (string * list fl))) :=
  mapM (fun kv =>
          sums <- match snd kv with
                  | S3 imgs => roi_sums image_sum (fun r i => x <- image_region r i ;; Ok (image_sum x)) rois imgs
                  | S2 lines => roi_sums fsum (fun r l => x <- line_region r l ;; Ok (fsum x)) rois lines
                  end ;;
          scaled <- mapM (fun kv => v <- vec_op fmul (snd kv) (attenuation_of (f_data s)) ;; Ok (fst kv, v)) sums ;;
          Ok (fst kv, scaled)) (f_images s).

(** P08ScanTools.py 579-580: each picture is multiplied in place by its attenuation *)
Definition attenuate_images (atten : option (list fl)) (imgs : list image) : res (list image) :=
  mapM (fun ik => a <- match atten with None => Raise TypeError | Some l => py_get l (Z.of_nat (fst ik)) end ;;
                  Ok (map (map (fmul a)) (snd ik)))
       (combine (seq 0 (List.length imgs)) imgs).
(** m[lo:hi] = new with as many new elements *)
Definition replace_slice {A} (lo hi : Z) (new old : list A) : list A :=
  let n := List.length old in
  let l := clamp_idx n lo in let h := Nat.max l (clamp_idx n hi) in
  (firstn l old ++ new ++ skipn h old)%list.
(** master[roi[1]:roi[3], roi[0]:roi[2]] = the same region of [img] (pictures of the same size) *)
Definition paste_region (roi : list Z) (img master : image) : res image :=
  region <- image_region roi img ;;
  bottom <- py_get roi 1 ;; top <- py_get roi 3 ;; left <- py_get roi 0 ;; right <- py_get roi 2 ;;
  Ok (replace_slice bottom top
        (map (fun nr => replace_slice left right (fst nr) (snd nr)) (combine region (py_slice master (Some bottom) (Some top)))) master).
(** P08ScanTools.py 586: pictures pasted one by one; a single picture is used for all *)
Definition paste_stack (roi : list Z) (imgs masters : list image) : res (list image) :=
  let imgs := match imgs with [i] => repeat i (List.length masters) | _ => imgs end in
  if Nat.eqb (List.length imgs) (List.length masters) && forallb (fun im => same_size (fst im) (snd im)) (combine imgs masters)
  then mapM (fun im => paste_region roi (fst im) (snd im)) (combine imgs masters) else Raise ValueError.
(** P08ScanTools.py 556-600: [combine_scan_image_regions] for different scan objects.  The scans are changed: the new
    scans are returned with the combination (positions, motor names, detector, pictures).  The bare Exception raised for a
    first scan without detectors (562-563) is written as a ValueError. *)
Definition pictures (s : fscan) (detector : string) : res (list image) :=
  match dict_get String.eqb (f_images s) detector with
  | None => Raise KeyError
  | Some (S2 _) => Raise IndexError
  | Some (S3 imgs) => Ok imgs
  end.
Definition combine_scan_image_regions (scans : list fscan) (rois : list (list Z)) : res (list fscan * fscan) :=
  scans <- mapM remove_double scans ;;
  first <- py_get scans 0 ;;
  match f_detectors first with
  | [] => Raise ValueError
  | detector :: _ =>
      imgs <- pictures first detector ;;
      ' (scans', master) <-
        foldM (fun st is =>
                 let '(done, master) := st in
                 imgs <- pictures (snd is) detector ;;
                 imgs <- attenuate_images (dict_get String.eqb (f_data (snd is)) "atten_position") imgs ;;
                 roi <- py_get rois (Z.of_nat (fst is)) ;;
                 master <- paste_stack roi imgs master ;;
                 Ok ((done ++ [set_images (dict_set String.eqb (f_images (snd is)) detector (S3 imgs)) (snd is)])%list, master))
              ([], map dark imgs) (combine (seq 0 (List.length scans)) scans) ;;
      Ok (scans', mkFscan "" "" None [] [] [] (f_motor_names first) (f_positions first) [detector] [(detector, S3 master)] None true)
  end.

(** ** fio_loader.py *)
(** fio_loader.py 33-42 and reflectivity_loader.py 11-20 *)
Record fio_loader := mkFioLoader {
  fl_parser : fio_parser;
  fl_two_theta : string;
  fl_roi_name : string;
  fl_beam : R;
  fl_sample : R;
  fl_shape : string;
  fl_norm : option string;
  fl_attenuator : option string;
  fl_division : option string }.

Section Loader.
Variable to_float : string -> option fl.
Variable fs : disk.
Variable m : media.

(** fio_parser.py 65-70: [extract_scan], with the scan type *)
Definition extract_fio (p : fio_parser) (n : Z) : res (fscan * bool) :=
  s <- scan_load to_float fs m (scan_path p n) true false ;;
  b <- is_theta2theta p (f_command s) ;; Ok (s, b).
(** fio_loader.py 33-42, 107-108: the constructor *)
Definition fio_loader_new (stem : string) (beam sample : R) (two_theta roi_name shape : string) (norm attenuator division : option string)
    : res fio_loader :=
  p <- fio_parser_new to_float fs stem "om" "tt" ;;
  Ok (mkFioLoader p two_theta roi_name beam sample shape norm attenuator division).
(** fio_loader.py 101-104: [_redraw_region_of_interest] *)
Definition redraw_roi (s : fscan) (roi : list Z) (detector : string) : res (list fl) :=
  r <- extract_rois s [("custom_roi", roi)] ;;
  match dict_get String.eqb r detector with
  | None => Raise KeyError
  | Some d => data_col d "custom_roi"
  end.
(** fio_loader.py 66-76: the intensity before division and trimming *)
Definition fio_intensity (d : fio_loader) (s : fscan) (angle : list fl) (roi : option (list Z)) (detector : string) : res (list fl) :=
  i0 <- match roi with None => data_col (f_data s) (fl_roi_name d) | Some r => redraw_roi s r detector end ;;
  match fl_attenuator d with
  | None => Ok i0
  | Some a => c <- data_col (f_data s) a ;; i <- apply_attenuation i0 c ;; correct_discontinuities i angle
  end.
(** fio_loader.py 44-87: [load_scan].  A scan object cannot be indexed, so a division counter is always a TypeError.  A
    photon energy that is not finite is not modelled further: it gives no usable wavelength (ValueError). *)
Definition fio_load_scan (d : fio_loader) (n : Z) (trim_f trim_b : option Z) (roi : option (list Z)) (detector : string) : res scan :=
  ' (s, ok) <- extract_fio (fl_parser d) n ;;
  if negb ok then Raise NotReflectivityScanError else
  w <- fio_wavelength (f_motors s) ;;
  wavelength <- match w with Some x => Ok x | None => Raise ValueError end ;;
  angle <- data_col (f_data s) (fl_two_theta d) ;;
  intensity <- fio_intensity d s angle roi detector ;;
  intensity <- match fl_division d with None => Ok intensity | Some _ => Raise TypeError end ;;
  let '(angle, intensity) :=
    match trim_b with Some b => (trim_back b angle, trim_back b intensity) | None => (angle, intensity) end in
  let '(angle, intensity) :=
    match trim_f with Some f => (trim_front f angle, trim_front f intensity) | None => (angle, intensity) end in
  Ok (scan_new n angle intensity wavelength (Some (fl_beam d)) (Some (fl_sample d)) (Some (fl_shape d)) (fl_norm d) None).
(** fio_loader.py 89-98: [load_scans] *)
Definition fio_load_scans (d : fio_loader) (ns : list Z) (trim_f trim_b : option Z) (roi : option (list Z)) : res (list scan) :=
  foldM (fun acc n => match fio_load_scan d n trim_f trim_b roi "p100k" with
                      | Ok s => Ok (acc ++ [s])%list
                      | Raise NotReflectivityScanError => Ok acc
                      | Raise e => Raise e
                      end) [] ns.
End Loader.
