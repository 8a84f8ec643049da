(** Properties of the FIO reader, parser and loader and of the scan objects behind them (C50, C58, C59-C65, C98-C102). *)
From Coq Require Import Reals Lra.
From Verif Require Import Py Str Arr Footprint_Model Scan_Model Spec_Model Fio_Model P08_Model SpecFile_Spec SpecLoader_Spec FioFile_Spec P08_Spec P08Scan_Spec
  Spec_Proofs SpecLoader_Proofs Fio_Proofs P08_Proofs P08Loader_Proofs FioLoader_Proofs Combine_Proofs.
Local Open Scope R_scope.
Local Open Scope string_scope.

(** A file with two points and an attenuator.  Numbers are read by [int]. *)
Definition fx_float (w : string) : option fl := match py_int w with Ok z => Some (Some (IZR z)) | Raise _ => None end.
Definition fx_comments := ["a2scan om 1 2 tt 1 2 1 1"; "user me"].
Definition fx_params := ["energyfmb = 12380"; "om = 7"; "no value"; "detector p100k_rois = [0,0,2,1,0,1,2,2]"].
Definition fx_columns := [" Col 1 om DOUBLE"; " Col 2 tt DOUBLE"; " Col 3 p100k_index DOUBLE"; " Col 4 p100k_roi1 DOUBLE"; " Col 5 atten_position DOUBLE"].
Definition fx_names := ["om"; "tt"; "p100k_index"; "p100k_roi1"; "atten_position"].
Definition fx_lines := [" 1 1 1 5 2"; " 2 3 2 7 3"].
Definition fx_rows : list (list fl) := [map Some [1; 1; 1; 5; 2]; map Some [2; 3; 2; 7; 3]].
Definition fx_file := (["!"; "! Comments"; "%c"] ++ fx_comments ++ ["! Parameter"; "%p"] ++ fx_params ++ ["! Data"; "%d"] ++ fx_columns ++ fx_lines)%list.
Lemma fx_layout : fio_layout fx_file [] fx_comments fx_params fx_columns fx_lines.
Proof. exists "%c", "%p", "%d". split; [reflexivity|]. repeat split; repeat constructor. Qed.
Lemma fx_table : table_layout fx_columns fx_lines fx_names.
Proof. split.
  - repeat constructor.
    + exists "Col", "1", ["DOUBLE"]. apply words_iff. reflexivity.
    + exists "Col", "2", ["DOUBLE"]. apply words_iff. reflexivity.
    + exists "Col", "3", ["DOUBLE"]. apply words_iff. reflexivity.
    + exists "Col", "4", ["DOUBLE"]. apply words_iff. reflexivity.
    + exists "Col", "5", ["DOUBLE"]. apply words_iff. reflexivity.
  - split; [discriminate|]. split; [|reflexivity]. repeat constructor; cbn; intuition discriminate. Qed.
Definition fx_motors : list (string * fl) := [("energyfmb", Some 12380); ("om", Some 7)].
Definition fx_rois : list (string * list fl) := [("p100k_rois", map Some [0; 0; 2; 1; 0; 1; 2; 2])].
Lemma fx_block : param_block fx_float fx_params fx_motors fx_rois.
Proof. apply params_motor.
  { apply (motor_line_intro fx_float "energyfmb " " 12380"); try reflexivity. discriminate. }
  apply params_motor. { apply (motor_line_intro fx_float "om " " 7"); try reflexivity. discriminate. }
  apply params_other; [reflexivity|]. apply params_rois; [|apply params_nil].
  apply (roi_definition_intro fx_float "" "detector" "p100k_rois" " " " " ["0"; "0"; "2"; "1"; "0"; "1"; "2"; "2"] ""); try reflexivity; try discriminate.
  - split; (reflexivity || discriminate).
  - split; (reflexivity || discriminate).
  - right. exists "". reflexivity.
  - right. reflexivity.
  - repeat constructor.
  - repeat constructor. Qed.
Lemma fx_numbers : Forall2 (number_line fx_float) fx_lines fx_rows.
Proof. constructor; [|constructor; [|constructor]].
  - exists ["1"; "1"; "1"; "5"; "2"]. split; [apply words_iff; reflexivity|]. repeat constructor.
  - exists ["2"; "3"; "2"; "7"; "3"]. split; [apply words_iff; reflexivity|]. repeat constructor. Qed.

(** ** C59 *)
(** The columns of a file that is read have the same length. *)
Theorem C59_rectangular to_float file r : read to_float false file = Ok r -> NoDup (r_names r) ->
  r_data r = [] \/ map fst (r_data r) = r_names r /\ exists n, (0 < n)%nat /\ Forall (fun kv => List.length (snd kv) = n) (r_data r).
Proof. exact (read_rectangular to_float file r). Qed.
Print Assumptions C59_rectangular.
(** Reading only fails on a column line without a name. *)
Theorem C59_errors to_float file e : read to_float false file = Raise e -> e = IndexError /\ Exists short_column file.
Proof. exact (read_errors to_float file e). Qed.
Print Assumptions C59_errors.
(** One entry per data line; unreadable and missing words are not a number. *)
Theorem C59_cells to_float file before comments params columns rows names ms rs :
  fio_layout file before comments params columns rows -> table_layout columns rows names -> param_block to_float params ms rs -> rows <> [] ->
  exists r, read to_float false file = Ok r /\ map fst (r_data r) = names /\
    forall j name, nth_error names j = Some name ->
      exists col, dict_get String.eqb (r_data r) name = Some col /\ Forall2 (fun line x => reads_as to_float line j x) rows col.
Proof. exact (layout_cells to_float file before comments params columns rows names ms rs). Qed.
Print Assumptions C59_cells.
(** The second data line is cut off, the third one damaged. *)
Example C59_example : exists r,
  read fx_float false ["%d"; "Col 1 om DOUBLE"; "Col 2 det DOUBLE"; "1 5"; "2"; "x 7 9"] = Ok r /\ r_names r = ["om"; "det"] /\
  r_data r = [("om", [Some 1; Some 2; None]); ("det", [Some 5; None; Some 7])].
Proof. eexists. split; [reflexivity|]. split; reflexivity. Qed.
Example C59_error_example : read fx_float false ["%d"; "Col 1"] = Raise IndexError.
Proof. reflexivity. Qed.

(** ** C60 *)
Theorem C60_round_trip to_float file before comments params columns lines names ms rs rows :
  fio_layout file before comments params columns lines -> table_layout columns lines names -> param_block to_float params ms rs ->
  NoDup (map fst ms) -> NoDup (map fst rs) ->
  Forall2 (number_line to_float) lines rows -> Forall (fun row => List.length row = List.length names) rows -> rows <> [] ->
  exists r, read to_float false file = Ok r /\ r_motors r = ms /\ r_names r = names /\ r_command r = command_of comments /\
    r_ubmatrix r = None /\ r_signal r = None /\
    Forall2 (fun nr kg => fst kg = fst nr /\ exists gs, groups_of_four (snd nr) gs /\ numbered gs (snd kg)) rs (r_rois r) /\
    r_data r = map (fun nj => (fst nj, column (snd nj) rows)) (combine names (seq 0 (List.length names))).
Proof. exact (round_trip to_float file before comments params columns lines names ms rs rows). Qed.
Print Assumptions C60_round_trip.
Example C60_example : exists r, read fx_float false fx_file = Ok r /\ r_motors r = fx_motors /\ r_command r = Some "a2scan om 1 2 tt 1 2 1 1" /\
  dict_get String.eqb (r_data r) "p100k_roi1" = Some (map Some [5; 7]) /\
  r_rois r = [("p100k_rois", [("roi1", map Some [0; 0; 2; 1]); ("roi2", map Some [0; 1; 2; 2])])].
Proof. exists (file_state fx_float fx_comments fx_motors fx_rois fx_names fx_lines).
  split; [exact (read_layout fx_float fx_file [] fx_comments fx_params fx_columns fx_lines fx_names fx_motors fx_rois fx_layout fx_table fx_block)|].
  split; [reflexivity|]. split; [reflexivity|]. split; reflexivity. Qed.
Example C60_layout_example : fio_layout fx_file [] fx_comments fx_params fx_columns fx_lines /\ table_layout fx_columns fx_lines fx_names /\
  param_block fx_float fx_params fx_motors fx_rois /\ Forall2 (number_line fx_float) fx_lines fx_rows.
Proof. exact (conj fx_layout (conj fx_table (conj fx_block fx_numbers))). Qed.

(** ** C61 *)
Theorem C61_remove_double s pos more : f_doubles s = false -> f_positions s = pos :: more -> aligned (List.length pos) s ->
  exists ks s', remove_double s = Ok s' /\ increasing_nat ks /\ (forall k, In k ks <-> (k < List.length pos)%nat /\ ~ followed_by_same pos k) /\
    Forall2 (fun a b => fst b = fst a /\ entries_of ks (snd a) (snd b)) (f_data s) (f_data s') /\
    Forall2 (entries_of ks) (f_positions s) (f_positions s') /\
    Forall2 (fun a b => fst b = fst a /\ stack_entries ks (snd a) (snd b)) (f_images s) (f_images s') /\
    (exists pos' more', f_positions s' = pos' :: more' /\ forall k, ~ followed_by_same pos' k) /\
    f_doubles s' = true /\ f_motor_names s' = f_motor_names s /\ f_motors s' = f_motors s /\ f_command s' = f_command s.
Proof. exact (remove_double_ok s pos more). Qed.
Print Assumptions C61_remove_double.
Theorem C61_twice s s' : remove_double s = Ok s' -> remove_double s' = Ok s'.
Proof. exact (remove_double_twice s s'). Qed.
Print Assumptions C61_twice.
Example C61_example : followed_by_same (map Some [1; 2; 2; 3]) 1 /\ ~ followed_by_same (map Some [1; 2; 2; 3]) 0 /\
  let s := mkFscan "" "" None [] [("det", map Some [7; 8; 9; 10])] [] ["om"] [map Some [1; 2; 2; 3]] [] [] None false in
  aligned 4 s /\ exists s', remove_double s = Ok s' /\ f_data s' = [("det", map Some [7; 9; 10])] /\ f_positions s' = [map Some [1; 2; 3]].
Proof. split; [exists 2; split; reflexivity|]. split; [intros (x & H1 & H2); injection H1 as <-; injection H2 as H2; lra|]. intros s. split; [repeat split; repeat constructor|].
  unfold remove_double. subst s. cbn [f_doubles f_positions]. change (py_get [map Some [1; 2; 2; 3]] 0) with (Ok (map Some [1; 2; 2; 3])). cbn [bind].
  assert (E : repeated_from 0 (map Some [1; 2; 2; 3]) = [1%nat]).
  { cbn [map repeated_from].
    assert (D : forall x y : R, x <> y -> feqb (fabs (fsub (Some y) (Some x))) (Some 0) = false) by (intros x y H; destruct (feqb (fabs (fsub (Some y) (Some x))) (Some 0)) eqn:E; [apply same_iff in E as (r & E1 & E2); congruence|reflexivity]).
    rewrite (D 1 2) by lra. rewrite (D 2 3) by lra. rewrite (proj2 (same_iff (Some 2) (Some 2))) by (exists 2; split; reflexivity). reflexivity. }
  rewrite E. eexists. split; [reflexivity|]. split; reflexivity. Qed.

(** ** C62 *)
Theorem C62_sums s rois : (forall kv, In kv (f_images s) -> attenuation_fits (dict_get String.eqb (f_data s) "atten_position") (stack_size (snd kv))) ->
  NoDup ("all" :: map fst rois) ->
  extract_rois s (map (fun kq => (fst kq, corners (snd kq))) rois) =
  Ok (map (fun kv => (fst kv, sums_of (dict_get String.eqb (f_data s) "atten_position") rois (snd kv))) (f_images s)).
Proof. exact (extract_rois_ok s rois). Qed.
Print Assumptions C62_sums.
Theorem C62_split_rows l b r t m img : (b <= m <= t)%nat -> region_sum l b r t img = fadd (region_sum l b r m img) (region_sum l m r t img).
Proof. exact (region_split_rows l b r t m img). Qed.
Print Assumptions C62_split_rows.
Theorem C62_split_columns l b r t m img : (l <= m <= r)%nat -> region_sum l b r t img = fadd (region_sum l b m t img) (region_sum m b r t img).
Proof. exact (region_split_columns l b r t m img). Qed.
Print Assumptions C62_split_columns.
Theorem C62_split_line lo m hi l : (lo <= m <= hi)%nat -> line_sum lo hi l = fadd (line_sum lo m l) (line_sum m hi l).
Proof. exact (line_split lo m hi l). Qed.
Print Assumptions C62_split_line.
Definition fx_picture1 : image := [map Some [1; 2]; map Some [3; 4]].
Definition fx_picture2 : image := [map Some [5; 6]; map Some [7; 8]].
Definition fx_scan : fscan := mkFscan "" "" None [] [("atten_position", map Some [2; 3]); ("det", map Some [10; 20])] [] [] [] ["p100k"] [("p100k", S3 [fx_picture1; fx_picture2])] None false.
(** The lower row of both pictures: (1 + 2) * 2 and (5 + 6) * 3 *)
Example C62_example : exists all, extract_rois fx_scan [("low", [0; 0; 2; 1]%Z)] = Ok [("p100k", [("all", all); ("low", map Some [6; 33])])].
Proof. eexists. refine (eq_trans (C62_sums fx_scan [("low", (0, 0, 2, 1)%nat)] _ _) _).
  - intros kv [<-|[]]. reflexivity.
  - repeat constructor; cbn; intuition discriminate.
  - cbn [map f_images fx_scan fst snd sums_of]. unfold attenuated at 2. cbn -[Rmult Rplus IZR attenuated].
    repeat f_equal; lra. Qed.

(** ** C63 *)
(** The default counter times the attenuation *)
Theorem C63_counter_partial d s a angle det counts atten : fl_attenuator d = Some a ->
  dict_get String.eqb (f_data s) (fl_roi_name d) = Some counts -> dict_get String.eqb (f_data s) a = Some atten ->
  List.length counts = List.length atten -> (forall k, ~ followed_by_same angle k) ->
  fio_intensity d s angle None det = Ok (map (fun xy => fmul (fst xy) (snd xy)) (combine counts atten)).
Proof. exact (fio_counter d s a angle det counts atten). Qed.
Print Assumptions C63_counter_partial.
(** A custom region without an attenuator in the loader *)
Theorem C63_region_partial d s angle q det imgs : fl_attenuator d = None ->
  (forall kv, In kv (f_images s) -> attenuation_fits (dict_get String.eqb (f_data s) "atten_position") (stack_size (snd kv))) ->
  dict_get String.eqb (f_images s) det = Some (S3 imgs) ->
  fio_intensity d s angle (Some (corners q)) det = Ok (attenuated (dict_get String.eqb (f_data s) "atten_position") (sum_in q) imgs).
Proof. intros H F G. exact (eq_trans (fio_no_attenuator d s angle (Some (corners q)) det H) (redraw_ok s q det imgs F G)). Qed.
Print Assumptions C63_region_partial.
(** With the attenuator of the file given to the loader, a custom region is multiplied twice. *)
Theorem C63_region_refuted d s angle q det imgs c : fl_attenuator d = Some "atten_position" ->
  dict_get String.eqb (f_data s) "atten_position" = Some c ->
  (forall kv, In kv (f_images s) -> stack_size (snd kv) = List.length c) ->
  dict_get String.eqb (f_images s) det = Some (S3 imgs) -> (forall k, ~ followed_by_same angle k) ->
  exists r, fio_intensity d s angle (Some (corners q)) det = Ok r /\ List.length r = List.length imgs /\
    forall k i a, nth_error imgs k = Some i -> nth_error c k = Some a -> nth_error r k = Some (fmul (fmul (sum_in q i) a) a).
Proof. exact (fio_custom d s angle q det imgs c). Qed.
Print Assumptions C63_region_refuted.
Definition fx_loader (attenuator division : option string) : fio_loader :=
  mkFioLoader (mkFioParser "data/x" "om" "tt") "tt" "p100k_roi1" 1 20 "gauss" None attenuator division.
Lemma fx_angles k : ~ followed_by_same (map Some [1; 3]) k.
Proof. intros (x & H1 & H2). destruct k as [|[|[|k]]]; cbn in H1, H2; try discriminate. injection H1 as <-. injection H2 as H2. lra. Qed.
(** The two points of [fx_scan]: 3 counts attenuated by 2 give 12, 11 counts attenuated by 3 give 99. *)
Example C63_example : exists r, fio_intensity (fx_loader (Some "atten_position") None) fx_scan (map Some [1; 3]) (Some [0; 0; 2; 1]%Z) "p100k" = Ok r /\
  nth_error r 0 = Some (Some 12) /\ nth_error r 1 = Some (Some 99).
Proof. destruct (C63_region_refuted (fx_loader (Some "atten_position") None) fx_scan (map Some [1; 3]) (0, 0, 2, 1)%nat "p100k" [fx_picture1; fx_picture2] (map Some [2; 3]))
    as (r & E & L & H); try reflexivity.
  - intros kv [<-|[]]. reflexivity.
  - exact fx_angles.
  - exists r. split; [exact E|]. split; [rewrite (H 0%nat fx_picture1 (Some 2) eq_refl eq_refl)|rewrite (H 1%nat fx_picture2 (Some 3) eq_refl eq_refl)]; cbn -[Rmult Rplus IZR]; repeat f_equal; lra. Qed.
Example C63_counter_example : fio_intensity (mkFioLoader (mkFioParser "data/x" "om" "tt") "tt" "det" 1 20 "gauss" None (Some "atten_position") None) fx_scan (map Some [1; 3]) None "p100k" = Ok (map Some [20; 60]).
Proof. refine (eq_trans (C63_counter_partial (mkFioLoader (mkFioParser "data/x" "om" "tt") "tt" "det" 1 20 "gauss" None (Some "atten_position") None) fx_scan "atten_position" (map Some [1; 3]) "p100k" (map Some [10; 20]) (map Some [2; 3]) eq_refl eq_refl eq_refl eq_refl fx_angles) _). cbn -[Rmult IZR]. repeat f_equal; lra. Qed.

(** ** C64 *)
(** The stack: the pictures found on the disk, in the order of the index column, then black pictures *)
Theorem C64_stack m dir name detector h w :
  (forall path im, In (path, im) (m_images m) -> sized h w im) ->
  (forall path im, In (path, im) (m_images m) -> glob_match (dir ++ "/" ++ name ++ "/" ++ detector ++ "/" ++ name) ".cbf" path = false) ->
  forall ns (d : list (string * list fl)),
  (exists path im, In (path, im) (m_images m) /\ glob_match (dir ++ "/" ++ name ++ "/" ++ detector ++ "/" ++ name) ".tif" path = true) ->
  dict_get String.eqb d (detector ++ "_index") = Some (map frame_number ns) ->
  let pics := found (map (fun n => dict_get String.eqb (m_images m) (frame_file (dir ++ "/" ++ name ++ "/" ++ detector ++ "/" ++ name) n)) ns) in
  load_pilatus m dir name detector d = Ok (S3 (pics ++ repeat (black h w) (List.length ns - List.length pics))%list).
Proof. exact (pilatus_stack m dir name detector h w). Qed.
Print Assumptions C64_stack.
(** With all files present, picture k is the file of row k. *)
Theorem C64_all_present_partial m dir name detector h w ns pics (d : list (string * list fl)) :
  (forall path im, In (path, im) (m_images m) -> sized h w im) ->
  (forall path im, In (path, im) (m_images m) -> glob_match (dir ++ "/" ++ name ++ "/" ++ detector ++ "/" ++ name) ".cbf" path = false) ->
  dict_get String.eqb d (detector ++ "_index") = Some (map frame_number ns) -> ns <> [] ->
  Forall2 (fun n pic => dict_get String.eqb (m_images m) (frame_file (dir ++ "/" ++ name ++ "/" ++ detector ++ "/" ++ name) n) = Some pic) ns pics ->
  load_pilatus m dir name detector d = Ok (S3 pics).
Proof. exact (pilatus_present m dir name detector h w ns pics d). Qed.
Print Assumptions C64_all_present_partial.
(** If one file is missing, the pictures after it are shifted by one row. *)
Theorem C64_missing_refuted m dir name detector h w ns n ns' pics pics' (d : list (string * list fl)) :
  (forall path im, In (path, im) (m_images m) -> sized h w im) ->
  (forall path im, In (path, im) (m_images m) -> glob_match (dir ++ "/" ++ name ++ "/" ++ detector ++ "/" ++ name) ".cbf" path = false) ->
  dict_get String.eqb d (detector ++ "_index") = Some (map frame_number (ns ++ n :: ns')) ->
  let file k := dict_get String.eqb (m_images m) (frame_file (dir ++ "/" ++ name ++ "/" ++ detector ++ "/" ++ name) k) in
  Forall2 (fun n pic => file n = Some pic) ns pics -> file n = None -> Forall2 (fun n pic => file n = Some pic) ns' pics' -> (pics ++ pics')%list <> [] ->
  load_pilatus m dir name detector d = Ok (S3 (pics ++ pics' ++ [black h w])%list).
Proof. exact (pilatus_missing m dir name detector h w ns n ns' pics pics' d). Qed.
Print Assumptions C64_missing_refuted.
(** Without an index column all pictures are black. *)
Theorem C64_no_index_refuted m dir name detector h w (d : list (string * list fl)) :
  (forall path im, In (path, im) (m_images m) -> sized h w im) ->
  (exists path im, In (path, im) (m_images m) /\ glob_match (dir ++ "/" ++ name ++ "/" ++ detector ++ "/" ++ name) ".tif" path = true) ->
  dict_get String.eqb d (detector ++ "_index") = None ->
  exists n, load_pilatus m dir name detector d = Ok (S3 (repeat (black h w) n)).
Proof. exact (pilatus_no_index m dir name detector h w d). Qed.
Print Assumptions C64_no_index_refuted.
(** Pictures in .cbf files cannot be read. *)
Theorem C64_cbf_refuted m dir name detector h w n ns (d : list (string * list fl)) im :
  (forall path im, In (path, im) (m_images m) -> sized h w im) ->
  dict_get String.eqb d (detector ++ "_index") = Some (map frame_number (n :: ns)) ->
  let base := dir ++ "/" ++ name ++ "/" ++ detector ++ "/" ++ name in
  In (base ++ "_" ++ nulls (5 - String.length (dec n)) ++ dec n ++ ".cbf", im) (m_images m) ->
  dict_get String.eqb (m_images m) (frame_file base n) = None ->
  load_pilatus m dir name detector d = Raise FileNotFoundError.
Proof. exact (pilatus_cbf m dir name detector h w n ns d im). Qed.
Print Assumptions C64_cbf_refuted.
(** Frames 1, 2, 3 with file 2 missing: row 2 gets picture 3 and row 3 a black picture. *)
Definition fx_folder := "data/x_00001/p100k/x_00001".
Definition fx_media : media := mkMedia [(fx_folder ++ "_00001.tif", fx_picture1); (fx_folder ++ "_00003.tif", fx_picture2)] [] [].
Lemma fx_sized : forall path im, In (path, im) (m_images fx_media) -> sized 2 2 im.
Proof. intros path im [H|[H|[]]]; injection H as <- <-; split; repeat constructor. Qed.
Lemma fx_no_cbf : forall path im, In (path, im) (m_images fx_media) -> glob_match fx_folder ".cbf" path = false.
Proof. intros path im [H|[H|[]]]; injection H as <- <-; reflexivity. Qed.
Example C64_example : load_pilatus fx_media "data" "x_00001" "p100k" [("p100k_index", map Some [1; 2; 3])] = Ok (S3 [fx_picture1; fx_picture2; black 2 2]).
Proof. exact (C64_missing_refuted fx_media "data" "x_00001" "p100k" 2 2 [1%N] 2%N [3%N] [fx_picture1] [fx_picture2] [("p100k_index", map Some [1; 2; 3])]
  fx_sized fx_no_cbf eq_refl ltac:(repeat constructor) eq_refl ltac:(repeat constructor) ltac:(discriminate)). Qed.
Example C64_present_example : load_pilatus fx_media "data" "x_00001" "p100k" [("p100k_index", map Some [3; 1])] = Ok (S3 [fx_picture2; fx_picture1]).
Proof. exact (C64_all_present_partial fx_media "data" "x_00001" "p100k" 2 2 [3%N; 1%N] [fx_picture2; fx_picture1] [("p100k_index", map Some [3; 1])]
  fx_sized fx_no_cbf eq_refl ltac:(discriminate) ltac:(repeat constructor)). Qed.

(** ** C65 *)
(** The files considered: all .fio files whose name starts with the stem *)
Theorem C65_files fs p path : In path (fio_path_list fs p) <-> In path (map fst fs) /\ in_reach (fp_stem p) path.
Proof. exact (path_list_In fs p path). Qed.
Print Assumptions C65_files.
Theorem C65_numbers_partial fs p : (forall path, In path (map fst fs) -> in_reach (fp_stem p) path -> exists n, numeric_name (fp_stem p) n path) ->
  exists ns, scan_numbers fs p = Ok (map Z.of_N ns) /\ Forall2 (numeric_name (fp_stem p)) ns (fio_path_list fs p).
Proof. exact (scan_numbers_ok fs p). Qed.
Print Assumptions C65_numbers_partial.
(** The path built for a number is one of the names of that number. *)
Theorem C65_path p n : numeric_name (fp_stem p) n (scan_path p (Z.of_N n)).
Proof. exact (scan_path_number p n). Qed.
Print Assumptions C65_path.
(** If only scan files with a command and with different numbers are there, the parser lists all of them. *)
Theorem C65_folder_partial to_float fs p :
  (forall path, In path (map fst fs) -> in_reach (fp_stem p) path -> exists n, numeric_name (fp_stem p) n path) ->
  (forall path, In path (map fst fs) -> in_reach (fp_stem p) path -> exists h c, read_fio to_float fs path = Ok h /\ r_command h = Some c) ->
  (forall n path path', In path (map fst fs) -> In path' (map fst fs) -> numeric_name (fp_stem p) n path -> numeric_name (fp_stem p) n path' -> path = path') ->
  NoDup (map fst fs) ->
  exists ns info, Forall2 (numeric_name (fp_stem p)) ns (fio_path_list fs p) /\ NoDup ns /\ scan_info to_float fs p = Ok info /\ map fst info = map Z.of_N ns /\
    Forall2 (fun np e => listed to_float fs p (fst np) (snd np) e) (combine ns (fio_path_list fs p)) info /\
    number_of_scans to_float fs p = Ok (List.length (fio_path_list fs p)) /\
    fio_parser_new to_float fs (fp_stem p) (fp_theta p) (fp_two_theta p) = Ok p.
Proof. exact (folder_ok to_float fs p). Qed.
Print Assumptions C65_folder_partial.
(** Two files with the same number are counted and listed as one scan. *)
Theorem C65_same_number_refuted : exists to_float fs p, NoDup (map fst fs) /\ List.length (fio_path_list fs p) = 2%nat /\
  (forall path, In path (map fst fs) -> in_reach (fp_stem p) path -> exists n, numeric_name (fp_stem p) n path) /\
  (forall path, In path (map fst fs) -> exists h c, read_fio to_float fs path = Ok h /\ r_command h = Some c) /\
  number_of_scans to_float fs p = Ok 1%nat.
Proof. exists fx_float, [("data/x_00001.fio", ["%c"; "ascan om 1 2 1 1"]); ("data/x_1.fio", ["%c"; "ascan om 1 2 1 1"])], (mkFioParser "data/x" "om" "tt").
  split; [repeat constructor; cbn; intuition discriminate|]. split; [vm_compute; reflexivity|]. split.
  { intros path [<- |[<- |[]]] _; exists 1%N; [exists "0000"|exists ""]; split; reflexivity. }
  split; [|vm_compute; reflexivity]. assert (H : exists h c, read fx_float false ["%c"; "ascan om 1 2 1 1"] = Ok h /\ r_command h = Some c) by (do 2 eexists; split; vm_compute; reflexivity).
  intros path [<- |[<- |[]]]; exact H. Qed.
Print Assumptions C65_same_number_refuted.
(** A file whose name continues the stem with anything but an underscore makes the parser fail. *)
Theorem C65_other_file_refuted to_float fs p path : In path (map fst fs) -> in_reach (fp_stem p) path -> contains (fp_stem p ++ "_") path = false ->
  exists e, scan_numbers fs p = Raise e /\ fio_parser_new to_float fs (fp_stem p) (fp_theta p) (fp_two_theta p) = Raise e.
Proof. exact (other_file to_float fs p path). Qed.
Print Assumptions C65_other_file_refuted.
Example C65_example : scan_numbers [("data/x_00012.fio", fx_file); ("data/x_00003.fio", fx_file); ("data/y_00001.fio", fx_file)] (mkFioParser "data/x" "om" "tt") = Ok [3; 12]%Z.
Proof. reflexivity. Qed.
Example C65_other_example : fio_parser_new fx_float [("data/x_00001.fio", fx_file); ("data/x2_00001.fio", fx_file)] "data/x" "om" "tt" = Raise IndexError /\
  in_reach "data/x" "data/x2_00001.fio" /\ contains "data/x_" "data/x2_00001.fio" = false.
Proof. split; [reflexivity|]. split; [exists "2_00001"; split; reflexivity|reflexivity]. Qed.
Example C65_text_example : fio_parser_new fx_float [("data/x_00001.fio", fx_file); ("data/x_test_00001.fio", fx_file)] "data/x" "om" "tt" = Raise ValueError.
Proof. reflexivity. Qed.

(** ** C98: recognition of theta-2theta scans *)
Theorem C98_both_motors_partial p ws cmd : words_of ws cmd -> In (fp_theta p) ws -> In (fp_two_theta p) ws -> solid (fp_theta p) -> solid (fp_two_theta p) ->
  is_theta2theta p (Some cmd) = Ok true.
Proof. exact (theta_words p ws cmd). Qed.
Print Assumptions C98_both_motors_partial.
(** What is tested is that some word contains the name of the first motor and some word that of the second. *)
Theorem C98_test p ws cmd : words_of ws cmd -> solid (fp_theta p) -> solid (fp_two_theta p) ->
  (is_theta2theta p (Some cmd) = Ok true <-> (exists w, In w ws /\ contains (fp_theta p) w = true) /\ (exists w, In w ws /\ contains (fp_two_theta p) w = true)).
Proof. exact (theta_iff p ws cmd). Qed.
Print Assumptions C98_test.
(** A scan of the single motor "bottom" passes. *)
Theorem C98_other_motor_refuted : exists ws cmd, words_of ws cmd /\ ~ In "om" ws /\ ~ In "tt" ws /\ is_theta2theta (mkFioParser "data/x" "om" "tt") (Some cmd) = Ok true.
Proof. exists ["ascan"; "bottom"; "0"; "1"; "10"; "1"], "ascan bottom 0 1 10 1". split; [apply words_iff; reflexivity|]. split; [cbn; intuition discriminate|]. split; [cbn; intuition discriminate|]. reflexivity. Qed.
Print Assumptions C98_other_motor_refuted.
(** A file without a scan command makes the parser fail for the whole folder. *)
Theorem C98_no_command_refuted to_float fs p path h : (forall path, In path (map fst fs) -> in_reach (fp_stem p) path -> exists n, numeric_name (fp_stem p) n path) ->
  In path (map fst fs) -> in_reach (fp_stem p) path -> read_fio to_float fs path = Ok h -> r_command h = None ->
  exists e, fio_parser_new to_float fs (fp_stem p) (fp_theta p) (fp_two_theta p) = Raise e.
Proof. exact (no_command to_float fs p path h). Qed.
Print Assumptions C98_no_command_refuted.
Example C98_example : is_theta2theta (mkFioParser "data/x" "om" "tt") (Some "a2scan om 1 2 tt 1 2 1 1") = Ok true /\ is_theta2theta (mkFioParser "data/x" "om" "tt") (Some "ascan om 1 2 10 1") = Ok false /\
  fio_parser_new fx_float [("data/x_00001.fio", ["%c"; "user me"; "%d"])] "data/x" "om" "tt" = Raise TypeError.
Proof. split; [reflexivity|]. split; reflexivity. Qed.

(** ** C99: the motors of a scan command and their positions *)
Theorem C99_one_motor kind m more cmd d : kind = "ascan" \/ kind = "dscan" -> scan_command kind (m :: more) cmd ->
  command_motors cmd d = (c <- data_col d m ;; Ok ([m], [c])).
Proof. exact (motors_1 kind m more cmd d). Qed.
Print Assumptions C99_one_motor.
Theorem C99_two_motors kind m1 a b m2 more cmd d : kind = "a2scan" \/ kind = "d2scan" -> scan_command kind (m1 :: a :: b :: m2 :: more) cmd ->
  command_motors cmd d = (c1 <- data_col d m1 ;; c2 <- data_col d m2 ;; Ok ([m1; m2], [c1; c2])).
Proof. exact (motors_2 kind m1 a b m2 more cmd d). Qed.
Print Assumptions C99_two_motors.
Theorem C99_three_motors kind m1 a b m2 a' b' m3 more cmd d : kind = "a3scan" \/ kind = "d3scan" -> scan_command kind (m1 :: a :: b :: m2 :: a' :: b' :: m3 :: more) cmd ->
  command_motors cmd d = (c1 <- data_col d m1 ;; c2 <- data_col d m2 ;; c3 <- data_col d m3 ;; Ok ([m1; m2; m3], [c1; c2; c3])).
Proof. exact (motors_3 kind m1 a b m2 a' b' m3 more cmd d). Qed.
Print Assumptions C99_three_motors.
Theorem C99_hkl kind args cmd d : scan_command kind args cmd ->
  (kind = "hscan" -> command_motors cmd d = (c <- data_col d "kozhue6cctrl_h" ;; Ok (["h"], [c]))) /\
  (kind = "kscan" -> command_motors cmd d = (c <- data_col d "kozhue6cctrl_k" ;; Ok (["k"], [c]))) /\
  (kind = "lscan" -> command_motors cmd d = (c <- data_col d "kozhue6cctrl_l" ;; Ok (["l"], [c]))) /\
  (kind = "hklscan" -> command_motors cmd d =
     (h <- data_col d "kozhue6cctrl_h" ;; k <- data_col d "kozhue6cctrl_k" ;; l <- data_col d "kozhue6cctrl_l" ;; Ok (["h"; "k"; "l"], [h; k; l]))).
Proof. exact (motors_hkl kind args cmd d). Qed.
Print Assumptions C99_hkl.
Example C99_example : scan_command "a2scan" ["om"; "1"; "2"; "tt"; "1"; "2"; "1"; "1"] "a2scan om 1 2 tt 1 2 1 1" /\
  command_motors "a2scan om 1 2 tt 1 2 1 1" [("tt", map Some [1; 3]); ("om", map Some [1; 2])] = Ok (["om"; "tt"], [map Some [1; 2]; map Some [1; 3]]).
Proof. split; [|reflexivity]. split; [apply words_iff; reflexivity|]. repeat constructor. Qed.

(** ** C100: momentum transfer of a scan object *)
Theorem C100_q s e i pos : dict_get String.eqb (f_motors s) "energyfmb" = Some (Some e) -> e <> 0 ->
  In "om" (f_motor_names s) -> position "tt" (f_motor_names s) = Some i -> nth_error (f_positions s) i = Some pos ->
  exists s', calc_q s = Ok s' /\ f_motor_names s' = (f_motor_names s ++ ["q"])%list /\
    f_positions s' = (f_positions s ++ [map (option_map (fun a => 4 * PI / (12380 / e) * sin (a / 2 * PI / 180))) pos])%list /\ f_data s' = f_data s /\ f_images s' = f_images s.
Proof. exact (calc_q_ok s e i pos). Qed.
Print Assumptions C100_q.
(** The loaded scan computes the same momentum transfer from the same wavelength. *)
Theorem C100_same_as_loaded_scan s e i pos sc : dict_get String.eqb (f_motors s) "energyfmb" = Some (Some e) -> e <> 0 ->
  In "om" (f_motor_names s) -> position "tt" (f_motor_names s) = Some i -> nth_error (f_positions s) i = Some pos ->
  sc_wavelength sc = 12380 / e -> sc_angle sc = pos ->
  exists s' q, calc_q s = Ok s' /\ scan_q sc = Ok q /\ f_positions s' = (f_positions s ++ [q])%list.
Proof. exact (calc_q_scan s e i pos sc). Qed.
Print Assumptions C100_same_as_loaded_scan.
(** But the wavelength is not that of the conversion of the package. *)
Theorem C100_wavelength_refuted motors e : dict_get String.eqb motors "energyfmb" = Some (Some e : fl) -> e <> 0 ->
  exists w w', fio_wavelength motors = Ok (Some w) /\ energy_to_wavelength e = Ok w' /\ w = 12380 / 12398 * w' /\ w <> w'.
Proof. exact (wavelengths_differ motors e). Qed.
Print Assumptions C100_wavelength_refuted.
Example C100_example : exists s', calc_q (mkFscan "" "" None [("energyfmb", Some 12380)] [] [] ["om"; "tt"] [[Some 30]; [Some 60]] [] [] None false) = Ok s' /\
  f_positions s' = [[Some 30]; [Some 60]; [Some (2 * PI)]].
Proof. destruct (C100_q (mkFscan "" "" None [("energyfmb", Some 12380)] [] [] ["om"; "tt"] [[Some 30]; [Some 60]] [] [] None false) 12380 1%nat [Some 60] eq_refl ltac:(lra) ltac:(left; reflexivity) eq_refl eq_refl) as (s' & E & _ & P & _).
  exists s'. split; [exact E|]. rewrite P. cbn [app map option_map f_positions]. replace (60 / 2 * PI / 180) with (PI / 6) by lra. rewrite sin_PI6. replace (4 * PI / (12380 / 12380) * (1 / 2)) with (2 * PI) by field. reflexivity. Qed.

(** ** C101: combining regions of several scans into one stack of pictures *)
Theorem C101_combined det more h w n la ls : Forall (fun la => layer_ok det h w n (la_scan la) (la_images la) (la_atten la)) (la :: ls) -> f_detectors (la_scan la) = det :: more ->
  exists out, combine_scan_image_regions (map la_scan (la :: ls)) (map (fun la => corners (la_area la)) (la :: ls)) =
      Ok (map (scaled_scan det) (la :: ls), mkFscan "" "" None [] [] [] (f_motor_names (la_scan la)) (f_positions (la_scan la)) [det] [(det, S3 out)] None true) /\
    List.length out = n /\ Forall (sized h w) out /\
    forall k y x, (k < n)%nat -> (y < h)%nat -> (x < w)%nat ->
      pixel (nth k out []) y x = composite (map (fun la => (la_area la, brighter (nth k (la_atten la) None) (nth k (la_images la) []))) (la :: ls)) y x.
Proof. exact (combine_ok det more h w n la ls). Qed.
Print Assumptions C101_combined.
(** Scans with repeated points are thinned first. *)
Theorem C101_thinned scans scans' rois : mapM remove_double scans = Ok scans' -> combine_scan_image_regions scans rois = combine_scan_image_regions scans' rois.
Proof. exact (combine_thinned scans scans' rois). Qed.
Print Assumptions C101_thinned.
(** Combining the same scans again attenuates them a second time. *)
Theorem C101_again_refuted det more h w n la ls : Forall (fun la => layer_ok det h w n (la_scan la) (la_images la) (la_atten la)) (la :: ls) -> f_detectors (la_scan la) = det :: more ->
  exists scans c1 c2 out, combine_scan_image_regions (map la_scan (la :: ls)) (map (fun la => corners (la_area la)) (la :: ls)) = Ok (scans, c1) /\
    exists scans', combine_scan_image_regions scans (map (fun la => corners (la_area la)) (la :: ls)) = Ok (scans', c2) /\
    f_images c2 = [(det, S3 out)] /\
    forall k y x, (k < n)%nat -> (y < h)%nat -> (x < w)%nat ->
      pixel (nth k out []) y x = composite (map (fun la => (la_area la, brighter (nth k (la_atten la) None) (brighter (nth k (la_atten la) None) (nth k (la_images la) [])))) (la :: ls)) y x.
Proof. exact (combine_again det more h w n la ls). Qed.
Print Assumptions C101_again_refuted.
(** Scans without an attenuator column cannot be combined. *)
Theorem C101_no_attenuator_refuted det more s l rois i imgs : f_detectors s = det :: more -> f_doubles s = true -> Forall (fun s => f_doubles s = true) l ->
  dict_get String.eqb (f_images s) det = Some (S3 (i :: imgs)) -> dict_get String.eqb (f_data s) "atten_position" = None ->
  combine_scan_image_regions (s :: l) rois = Raise TypeError.
Proof. exact (combine_no_attenuator det more s l rois i imgs). Qed.
Print Assumptions C101_no_attenuator_refuted.
(** Two scans with one picture each: the second one covers the upper row only. *)
Example C101_example : exists scans c out, combine_scan_image_regions
    [mkFscan "" "" None [] [("atten_position", [Some 2])] [] [] [] ["p100k"] [("p100k", S3 [fx_picture1])] None true;
     mkFscan "" "" None [] [("atten_position", [Some 1])] [] [] [] ["p100k"] [("p100k", S3 [fx_picture2])] None true] [[0; 0; 2; 2]; [0; 1; 2; 2]]%Z = Ok (scans, c) /\
  f_images c = [("p100k", S3 [out])] /\ pixel out 0 1 = Some 4 /\ pixel out 1 0 = Some 7.
Proof. set (l1 := mkLayer (mkFscan "" "" None [] [("atten_position", [Some 2])] [] [] [] ["p100k"] [("p100k", S3 [fx_picture1])] None true) (0, 0, 2, 2)%nat [fx_picture1] [Some 2]).
  set (l2 := mkLayer (mkFscan "" "" None [] [("atten_position", [Some 1])] [] [] [] ["p100k"] [("p100k", S3 [fx_picture2])] None true) (0, 1, 2, 2)%nat [fx_picture2] [Some 1]).
  destruct (C101_combined "p100k" [] 2 2 1 l1 [l2]) as (out & E & L & S & P).
  - constructor; [|constructor; [|constructor]]; repeat split; repeat constructor.
  - reflexivity.
  - destruct out as [|o [|o' out]]; try discriminate L. eexists _, _, o. split; [exact E|]. split; [reflexivity|]. split.
    + refine (eq_trans (P 0%nat 0%nat 1%nat ltac:(lia) ltac:(lia) ltac:(lia)) _). subst l1 l2. cbn -[Rmult IZR]. f_equal; lra.
    + refine (eq_trans (P 0%nat 1%nat 0%nat ltac:(lia) ltac:(lia) ltac:(lia)) _). subst l1 l2. cbn -[Rmult IZR]. f_equal; lra. Qed.

(** ** C102: from the file to the loaded scan *)
Theorem C102_loaded_partial to_float fs m d n file before comments params columns lines names ms rs rows cmd kind m1 a b m2 more s1 e I :
  dict_get String.eqb fs (scan_path (fl_parser d) n) = Some file ->
  fio_layout file before comments params columns lines -> table_layout columns lines names -> param_block to_float params ms rs ->
  NoDup (map fst ms) -> NoDup (map fst rs) ->
  Forall2 (number_line to_float) lines rows -> Forall (fun row => List.length row = List.length names) rows -> rows <> [] ->
  command_of comments = Some cmd -> kind = "a2scan" \/ kind = "d2scan" -> scan_command kind (m1 :: a :: b :: m2 :: more) cmd ->
  In (fp_theta (fl_parser d)) [m1; m2] -> In (fp_two_theta (fl_parser d)) [m1; m2] -> In m1 names -> In m2 names ->
  (forall rois, load_image_stack m (mkFscan (rsplit_head "." (last_part "/" (scan_path (fl_parser d) n))) (rsplit_head "/" (scan_path (fl_parser d) n)) (Some cmd) ms
     (columns_data names rows) rois [m1; m2] [map (fun r => value names r m1) rows; map (fun r => value names r m2) rows] (detectors_of names) [] None false) = Ok (s1 rois)) ->
  In ("energyfmb", Some e) ms -> e <> 0 -> In (fl_two_theta d) names -> In (fl_roi_name d) names -> fl_division d = None ->
  match fl_attenuator d with
  | None => I = map (fun r => value names r (fl_roi_name d)) rows
  | Some at_ => In at_ names /\ correct_discontinuities (map (fun r => fmul (value names r (fl_roi_name d)) (value names r at_)) rows) (map (fun r => value names r (fl_two_theta d)) rows) = Ok I
  end ->
  forall det, fio_load_scan to_float fs m d n None None None det =
    Ok (mkScan n (map (fun r => nonzero (value names r (fl_two_theta d))) rows) I (12380 / e) (Some (fl_beam d)) (Some (fl_sample d)) (Some (fl_shape d)) (fl_norm d) None).
Proof. exact (fio_loaded to_float fs m d n file before comments params columns lines names ms rs rows cmd kind m1 a b m2 more s1 e I). Qed.
Print Assumptions C102_loaded_partial.
(** Without pictures of detectors nothing else is needed. *)
Theorem C102_loaded_without_pictures_partial to_float fs m d n file before comments params columns lines names ms rs rows cmd kind m1 a b m2 more e I :
  dict_get String.eqb fs (scan_path (fl_parser d) n) = Some file ->
  fio_layout file before comments params columns lines -> table_layout columns lines names -> param_block to_float params ms rs ->
  NoDup (map fst ms) -> NoDup (map fst rs) ->
  Forall2 (number_line to_float) lines rows -> Forall (fun row => List.length row = List.length names) rows -> rows <> [] ->
  command_of comments = Some cmd -> kind = "a2scan" \/ kind = "d2scan" -> scan_command kind (m1 :: a :: b :: m2 :: more) cmd ->
  In (fp_theta (fl_parser d)) [m1; m2] -> In (fp_two_theta (fl_parser d)) [m1; m2] -> In m1 names -> In m2 names ->
  no_pictures names ->
  In ("energyfmb", Some e) ms -> e <> 0 -> In (fl_two_theta d) names -> In (fl_roi_name d) names -> fl_division d = None ->
  match fl_attenuator d with
  | None => I = map (fun r => value names r (fl_roi_name d)) rows
  | Some at_ => In at_ names /\ correct_discontinuities (map (fun r => fmul (value names r (fl_roi_name d)) (value names r at_)) rows) (map (fun r => value names r (fl_two_theta d)) rows) = Ok I
  end ->
  forall det, fio_load_scan to_float fs m d n None None None det =
    Ok (mkScan n (map (fun r => nonzero (value names r (fl_two_theta d))) rows) I (12380 / e) (Some (fl_beam d)) (Some (fl_sample d)) (Some (fl_shape d)) (fl_norm d) None).
Proof. exact (fio_loaded_bare to_float fs m d n file before comments params columns lines names ms rs rows cmd kind m1 a b m2 more e I). Qed.
Print Assumptions C102_loaded_without_pictures_partial.
Example C102_pictures_example : no_pictures ["om"; "tt"; "counter"; "pe_roi1"] /\ ~ no_pictures ["om"; "my_eiger_index"].
Proof. split.
  - intros n mark Hn Hm (x & y & E). assert (H : contains mark n = true) by (apply contains_iff; eauto). cbn in Hn, Hm.
    repeat match goal with H : _ \/ _ |- _ => destruct H as [<- |H] | H : False |- _ => destruct H end; discriminate.
  - intros H. apply (H "my_eiger_index" "eiger"); [right; left; reflexivity|right; right; left; reflexivity|]. exists "my_", "_index". reflexivity. Qed.
(** With a division counter no scan is ever loaded. *)
Theorem C102_division_refuted to_float fs m d n c roi det : fl_division d = Some c -> forall tf tb s, fio_load_scan to_float fs m d n tf tb roi det <> Ok s.
Proof. exact (fio_division to_float fs m d n c roi det). Qed.
Print Assumptions C102_division_refuted.
Definition fx_disk : disk := [("data/x_00001.fio", fx_file)].
Definition fx_stack : media := mkMedia [(fx_folder ++ "_00001.tif", fx_picture1); (fx_folder ++ "_00002.tif", fx_picture2)] [] [].
(** The scan of the example file: angles 1 and 3, intensities 5 * 2 and 7 * 3 *)
Example C102_example det : exists i1 i2, i1 = 10 /\ i2 = 21 /\ fio_load_scan fx_float fx_disk fx_stack (fx_loader (Some "atten_position") None) 1 None None None det =
  Ok (mkScan 1 [nonzero (Some 1); nonzero (Some 3)] [Some i1; Some i2] (12380 / 12380) (Some 1) (Some 20) (Some "gauss") None None).
Proof. exists (5 * 2), (7 * 3). split; [lra|]. split; [lra|].
  eapply (C102_loaded_partial fx_float fx_disk fx_stack (fx_loader (Some "atten_position") None) 1 fx_file [] fx_comments fx_params fx_columns fx_lines fx_names fx_motors fx_rois fx_rows
    "a2scan om 1 2 tt 1 2 1 1" "a2scan" "om" "1" "2" "tt" ["1"; "2"; "1"; "1"] _ 12380 (map Some [5 * 2; 7 * 3]));
    [reflexivity|exact fx_layout|exact fx_table|exact fx_block|..].
  - repeat constructor; cbn; intuition discriminate.
  - repeat constructor; cbn; intuition discriminate.
  - exact fx_numbers.
  - repeat constructor.
  - discriminate.
  - reflexivity.
  - left. reflexivity.
  - exact (proj1 C99_example).
  - left. reflexivity.
  - right. left. reflexivity.
  - left. reflexivity.
  - right. left. reflexivity.
  - intros rois. apply only_pilatus with (x := S3 [fx_picture1; fx_picture2]).
    + intros d [<-|[<-|[<-|[]]]]; cbn; intuition discriminate.
    + left. reflexivity.
    + reflexivity.
    + apply (C64_all_present_partial fx_stack "data" "x_00001" "p100k" 2 2 [1%N; 2%N]).
      * intros path im [H|[H|[]]]; injection H as <- <-; split; repeat constructor.
      * intros path im [H|[H|[]]]; injection H as <- <-; reflexivity.
      * reflexivity.
      * discriminate.
      * repeat constructor.
  - left. reflexivity.
  - lra.
  - right. left. reflexivity.
  - do 3 right. left. reflexivity.
  - reflexivity.
  - split; [do 4 right; left; reflexivity|]. exact (no_kinks (map Some [5 * 2; 7 * 3]) (map Some [1; 3]) fx_angles). Qed.

(** ** C50 and C58 for the FIO loader *)
Theorem C50_fio_cropped_partial to_float fs m d n (f b : nat) roi det : (0 < b)%nat ->
  fio_load_scan to_float fs m d n (Some (Z.of_nat f)) (Some (Z.of_nat b)) roi det = rmap (cropped f b) (fio_load_scan to_float fs m d n None None roi det) /\
  fio_load_scan to_float fs m d n (Some (Z.of_nat f)) None roi det = rmap (cropped f 0) (fio_load_scan to_float fs m d n None None roi det) /\
  fio_load_scan to_float fs m d n None (Some (Z.of_nat b)) roi det = rmap (cropped 0 b) (fio_load_scan to_float fs m d n None None roi det).
Proof. exact (fio_trimmed to_float fs m d n f b roi det). Qed.
Print Assumptions C50_fio_cropped_partial.
Theorem C50_fio_zero_refuted to_float fs m d n tf roi det s : fio_load_scan to_float fs m d n tf (Some 0%Z) roi det = Ok s -> sc_angle s = [] /\ sc_raw s = [].
Proof. exact (fio_trim_zero to_float fs m d n tf roi det s). Qed.
Print Assumptions C50_fio_zero_refuted.
Theorem C58_fio_accepted to_float fs m d tf tb roi ns l :
  fio_load_scans to_float fs m d ns tf tb roi = Ok l <-> accepted (fun n => fio_load_scan to_float fs m d n tf tb roi "p100k") ns l.
Proof. exact (fio_scans_accepted to_float fs m d tf tb roi ns l). Qed.
Print Assumptions C58_fio_accepted.
Theorem C58_fio_other_errors to_float fs m d tf tb roi ns e :
  fio_load_scans to_float fs m d ns tf tb roi = Raise e <->
  exists before n after l, ns = (before ++ n :: after)%list /\ accepted (fun n => fio_load_scan to_float fs m d n tf tb roi "p100k") before l /\
    fio_load_scan to_float fs m d n tf tb roi "p100k" = Raise e /\ e <> NotReflectivityScanError.
Proof. exact (fio_scans_error to_float fs m d tf tb roi ns e). Qed.
Print Assumptions C58_fio_other_errors.
(** A missing file is one of the other errors. *)
Theorem C58_fio_missing to_float fs m d n tf tb roi det : dict_get String.eqb fs (scan_path (fl_parser d) n) = None ->
  fio_load_scan to_float fs m d n tf tb roi det = Raise FileNotFoundError.
Proof. exact (fio_missing to_float fs m d n tf tb roi det). Qed.
Print Assumptions C58_fio_missing.
Example C58_fio_example : fio_load_scans fx_float fx_disk fx_stack (fx_loader None None) [2]%Z None None None = Raise FileNotFoundError.
Proof. reflexivity. Qed.
