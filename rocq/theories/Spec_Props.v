(** Properties of the SPEC parser and loader (C45-C50, C58, C96, C97). *)
From Coq Require Import Reals Lra.
From Verif Require Import Py Str Arr Scan_Model Spec_Model SpecFile_Spec SpecLoader_Spec Spec_Proofs SpecLoader_Proofs.
Local Open Scope string_scope.

(** A file with two scans; scan 5 has a comment after its data.  Numbers are read by [int]. *)
Definition ex_float (w : string) : option fl := match py_int w with Ok z => Some (Some (IZR z)) | Raise _ => None end.
Definition ex_b5 : block := mkBlock 5 ["ascan"; "om"; "0"; "3"] "#S 5  ascan om 0 3"
  ["#D Mon Nov 16"; "#L om  del t  det"; "0 -1 8"; "1 -2 4"; "#C aborted"] [""; "#C pause"; ""].
Definition ex_b7 : block := mkBlock 7 ["ct"] "#S 7 ct" ["#L om  det"; "3 3"] [].
Definition ex_file : list string :=
  ["#F test "; ""; "#S 5  ascan om 0 3"; "#D Mon Nov 16 "; "#L om  del t  det "; "0 -1 8"; "1 -2 4"; "#C aborted"; "  "; "#C pause"; "";
   "#S 7 ct"; "#L om  det"; "3 3"].
Local Ltac wf := repeat match goal with |- Forall _ _ => constructor | |- no_scan _ => unfold no_scan end; try reflexivity; try discriminate.
Lemma ex_file_ok : spec_file ex_file ["#F test"; ""] [ex_b5; ex_b7].
Proof. split; [reflexivity|]. split; [wf|]. split; [constructor; [|constructor; [|constructor]]|].
  - split; [reflexivity|]. split; [exists "#S"; apply words_iff; reflexivity|]. split; wf.
  - split; [reflexivity|]. split; [exists "#S"; apply words_iff; reflexivity|]. split; wf.
  - split; [exists ["#C pause"; ""]; split; [reflexivity|wf]|left; reflexivity]. Qed.
Lemma ex_last5 : last_block [ex_b5; ex_b7] ex_b5.
Proof. exists [], [ex_b7]. split; [reflexivity|]. constructor; [discriminate|constructor]. Qed.
Lemma ex_last7 : last_block [ex_b5; ex_b7] ex_b7.
Proof. exists [ex_b5], []. split; [reflexivity|constructor]. Qed.
Definition ex_names : list string := ["om"; "del t"; "det"].
Definition ex_rows : list (list fl) := [[Some 0; Some (-1); Some 8]; [Some 1; Some (-2); Some 4]]%R.
Lemma ex_table : holds_table ex_float ex_b5 ex_names ex_rows.
Proof. exists ["#D Mon Nov 16"], ["0 -1 8"; "1 -2 4"], ["#C aborted"]. split; [reflexivity|]. split.
  - constructor; [|constructor; [|constructor]]; (split; [reflexivity|]).
    + exists ["0"; "-1"; "8"]. split; [apply words_iff; reflexivity|]. repeat constructor.
    + exists ["1"; "-2"; "4"]. split; [apply words_iff; reflexivity|]. repeat constructor.
  - split; [wf|]. split; [right; exists "#C aborted", []; split; reflexivity|]. split; wf; split; reflexivity. Qed.
Lemma ex_table7 : holds_table ex_float ex_b7 ["om"; "det"] [[Some 3; Some 3]]%R.
Proof. exists [], ["3 3"], []. split; [reflexivity|]. split.
  - constructor; [|constructor]. split; [reflexivity|]. exists ["3"; "3"]. split; [apply words_iff; reflexivity|]. repeat constructor.
  - split; [wf|]. split; [left; reflexivity|]. split; wf; split; reflexivity. Qed.
Lemma not_tag s c r : s = String c r -> has_char c "#L " = false -> ~ starts_with_any "#L " s.
Proof. intros -> H (c' & r' & E & K). injection E as <- <-. congruence. Qed.

(** ** C45 *)
(** The index has one entry per scan number, with the numbers in the order of the file if none is repeated. *)
Theorem C45_keys depth file prelude bs : spec_file file prelude bs -> (List.length bs < depth)%nat ->
  exists p, spec_parser depth file = Ok p /\ NoDup (map fst (p_index p)) /\
    (forall n, In n (map fst (p_index p)) <-> exists b, In b bs /\ n = Z.of_N (b_number b)) /\
    (NoDup (map b_number bs) -> map fst (p_index p) = map (fun b => Z.of_N (b_number b)) bs).
Proof. exact (index_keys depth file prelude bs). Qed.
Print Assumptions C45_keys.
(** The entry of a number describes the last block carrying it. *)
Theorem C45_entry depth file prelude bs b : spec_file file prelude bs -> (List.length bs < depth)%nat -> last_block bs b ->
  exists p e, spec_parser depth file = Ok p /\ dict_get Z.eqb (p_index p) (Z.of_N (b_number b)) = Some e /\
    e_command e = Some (join " " (b_command b)) /\
    nth_error (map rstrip file) (e_start e) = Some (b_head b) /\
    match last_with "#D" (b_body b) with
    | None => e_time e = None
    | Some l => forall tag ws, words_of (tag :: ws) l -> e_time e = Some (join " " ws)
    end.
Proof. exact (entry_contents depth file prelude bs b). Qed.
Print Assumptions C45_entry.
Example C45_example : spec_file ex_file ["#F test"; ""] [ex_b5; ex_b7] /\ exists p e, spec_parser 10 ex_file = Ok p /\ map fst (p_index p) = [5; 7]%Z /\
  dict_get Z.eqb (p_index p) 5%Z = Some e /\ e_command e = Some "ascan om 0 3" /\ e_time e = Some "Mon Nov 16".
Proof. split; [exact ex_file_ok|]. eexists _, _. split; [reflexivity|]. split; [reflexivity|]. split; [reflexivity|]. split; reflexivity. Qed.

(** ** C46 *)
Theorem C46_roundtrip_partial to_float depth file prelude bs b names rows : spec_file file prelude bs -> (List.length bs < depth)%nat -> last_block bs b ->
  holds_table to_float b names rows -> names <> [] -> ~ starts_with_any "#L " (join "  " names) ->
  exists p, spec_parser depth file = Ok p /\ extract_scan to_float p (Z.of_N (b_number b)) =
    if match rows with [] => Nat.eqb 1 (List.length names) | _ => true end then Ok (mkTable names rows) else Raise ValueError.
Proof. exact (block_extract to_float depth file prelude bs b names rows). Qed.
Print Assumptions C46_roundtrip_partial.
(** A scan that was aborted before its first point cannot be extracted if it has more than one column. *)
Theorem C46_no_points_refuted : exists file bs b names, spec_file file [] bs /\ last_block bs b /\ holds_table ex_float b names [] /\
  names <> [] /\ ~ starts_with_any "#L " (join "  " names) /\
  forall depth, (List.length bs < depth)%nat -> exists p, spec_parser depth file = Ok p /\ extract_scan ex_float p (Z.of_N (b_number b)) = Raise ValueError.
Proof. set (b := mkBlock 5 ["ascan"] "#S 5 ascan" ["#L om  det"] []).
  assert (F : spec_file ["#S 5 ascan"; "#L om  det"] [] [b]).
  { split; [reflexivity|]. split; [constructor|]. split; [|left; reflexivity]. constructor; [|constructor]. split; [reflexivity|].
    split; [exists "#S"; apply words_iff; reflexivity|]. split; wf. }
  assert (L : last_block [b] b) by (exists [], []; split; [reflexivity|constructor]).
  assert (T : holds_table ex_float b ["om"; "det"] []).
  { exists [], [], []. split; [reflexivity|]. split; [constructor|]. split; [constructor|]. split; [left; reflexivity|]. split; wf; split; reflexivity. }
  assert (N : ~ starts_with_any "#L " (join "  " ["om"; "det"])) by (apply (not_tag _ "o" "m  det"); reflexivity).
  exists ["#S 5 ascan"; "#L om  det"], [b], b, ["om"; "det"]. split; [exact F|]. split; [exact L|]. split; [exact T|]. split; [discriminate|]. split; [exact N|].
  intros depth Hd. destruct (C46_roundtrip_partial ex_float depth _ _ _ _ _ _ F Hd L T ltac:(discriminate) N) as (p & Hp & He). exists p. split; [exact Hp|exact He]. Qed.
Print Assumptions C46_no_points_refuted.
Example C46_example : exists p, spec_parser 10 ex_file = Ok p /\ extract_scan ex_float p 5%Z = Ok (mkTable ex_names ex_rows).
Proof. apply (C46_roundtrip_partial ex_float 10 ex_file ["#F test"; ""] [ex_b5; ex_b7] ex_b5 ex_names ex_rows ex_file_ok ltac:(cbn; lia) ex_last5 ex_table ltac:(discriminate)).
  apply (not_tag _ "o" "m  del t  det"); reflexivity. Qed.

(** ** C47 *)
(** The names are read as written exactly if the text of the names does not begin with '#', 'L' or a blank. *)
Theorem C47_names_partial to_float depth file prelude bs b names rows : spec_file file prelude bs -> (List.length bs < depth)%nat -> last_block bs b ->
  holds_table to_float b names rows -> names <> [] ->
  exists p, spec_parser depth file = Ok p /\
    (column_names p (Z.of_N (b_number b)) = Ok names <-> ~ starts_with_any "#L " (join "  " names)).
Proof. intros Hf Hd Hl Ht Hn. destruct (block_table _ _ _ _ _ _ _ _ Hf Hd Hl Ht Hn) as (p & k & Hp & _ & Hc & _). exists p. split; [exact Hp|].
  destruct Ht as (_ & _ & _ & _ & _ & _ & _ & Hs & _). rewrite <- (names_of_header names Hn Hs), Hc. split; [intros E; injection E as E; exact E|intros ->; reflexivity]. Qed.
Print Assumptions C47_names_partial.
Theorem C47_first_name_refuted : exists file bs b names rows, spec_file file [] bs /\ last_block bs b /\ holds_table ex_float b names rows /\
  forall depth, (List.length bs < depth)%nat -> exists p, spec_parser depth file = Ok p /\ column_names p (Z.of_N (b_number b)) <> Ok names.
Proof. set (b := mkBlock 5 ["ascan"] "#S 5 ascan" ["#L L  det"; "1 2"] []).
  assert (F : spec_file ["#S 5 ascan"; "#L L  det"; "1 2"] [] [b]).
  { split; [reflexivity|]. split; [constructor|]. split; [|left; reflexivity]. constructor; [|constructor]. split; [reflexivity|].
    split; [exists "#S"; apply words_iff; reflexivity|]. split; wf. }
  assert (L : last_block [b] b) by (exists [], []; split; [reflexivity|constructor]).
  assert (T : holds_table ex_float b ["L"; "det"] [[Some 1; Some 2]]%R).
  { exists [], ["1 2"], []. split; [reflexivity|]. split; [constructor; [|constructor]|].
    - split; [reflexivity|]. exists ["1"; "2"]. split; [apply words_iff; reflexivity|]. repeat constructor.
    - split; [constructor|]. split; [left; reflexivity|]. split; wf; split; reflexivity. }
  exists ["#S 5 ascan"; "#L L  det"; "1 2"], [b], b, ["L"; "det"], [[Some 1; Some 2]]%R. split; [exact F|]. split; [exact L|]. split; [exact T|].
  intros depth Hd. destruct (C47_names_partial ex_float depth _ _ _ _ _ _ F Hd L T ltac:(discriminate)) as (p & Hp & He). exists p. split; [exact Hp|].
  intros E. apply He in E. apply E. exists "L"%char, "  det". split; reflexivity. Qed.
Print Assumptions C47_first_name_refuted.
Example C47_example : exists p, spec_parser 10 ["#S 5 ascan"; "#L L  det"; "1 2"] = Ok p /\ column_names p 5%Z = Ok ["det"].
Proof. eexists. split; reflexivity. Qed.

(** ** C48 *)
(** Two "#S" lines without a blank line between them: the first scan is lost. *)
Theorem C48_adjacent_refuted : exists file p, In "#S 1 ascan" file /\ In "#S 2 ascan" file /\
  (forall depth, (1 < depth)%nat -> spec_parser depth file = Ok p) /\ map fst (p_index p) = [2%Z].
Proof. exists ["#S 1 ascan"; "#L om"; "1"; "#S 2 ascan"; "#L om"; "2"].
  exists (mkParser ["#S 1 ascan"; "#L om"; "1"; "#S 2 ascan"; "#L om"; "2"] [(2%Z, mkEntry 0 (Some 5%nat) (Some "ascan") None (Some 4%nat))]). split; [left; reflexivity|]. split; [right; right; right; left; reflexivity|].
  split; [|reflexivity]. intros depth Hd. destruct depth as [|[|depth]]; [lia|lia|]. destruct depth; reflexivity. Qed.
Print Assumptions C48_adjacent_refuted.
(** With blank lines between the blocks every "#S" line yields an entry. *)
Theorem C48_separated_partial depth file prelude bs : spec_file file prelude bs -> (List.length bs < depth)%nat ->
  exists p, spec_parser depth file = Ok p /\ forall b, In b bs -> In (Z.of_N (b_number b)) (map fst (p_index p)).
Proof. intros Hf Hd. destruct (index_keys _ _ _ _ Hf Hd) as (p & Hp & _ & Hk & _). exists p. split; [exact Hp|]. intros b Hb. apply Hk. exists b; auto. Qed.
Print Assumptions C48_separated_partial.
Example C48_example : exists p, spec_parser 3 ["#S 1 ascan"; "#L om"; "1"; ""; "#S 2 ascan"; "#L om"; "2"] = Ok p /\ map fst (p_index p) = [1%Z; 2%Z].
Proof. eexists. split; reflexivity. Qed.

(** ** C49 *)
(** Opening a file succeeds exactly if the number of scan blocks is below the number of nested calls allowed. *)
Theorem C49_depth_partial depth file prelude bs : spec_file file prelude bs ->
  ((exists p, spec_parser depth file = Ok p) <-> (List.length bs < depth)%nat) /\
  ((depth <= List.length bs)%nat -> spec_parser depth file = Raise RecursionError).
Proof. intros Hf. split; [split|].
  - intros [p Hp]. destruct (Nat.lt_ge_cases (List.length bs) depth) as [H|H]; [exact H|]. rewrite (parse_too_deep _ _ _ _ Hf H) in Hp. discriminate Hp.
  - intros H. eexists. apply (parse_file _ _ _ _ Hf H).
  - apply (parse_too_deep _ _ _ _ Hf). Qed.
Print Assumptions C49_depth_partial.
Theorem C49_any_limit_refuted depth : exists file bs, spec_file file [] bs /\ spec_parser depth file = Raise RecursionError.
Proof. destruct (tiny_file depth) as [file Hf]. exists file, (repeat tiny_block depth). split; [exact Hf|]. apply (parse_too_deep _ _ _ _ Hf). rewrite repeat_length. exact (le_n depth). Qed.
Print Assumptions C49_any_limit_refuted.
Example C49_example : spec_parser 2 ex_file = Raise RecursionError /\ exists p, spec_parser 3 ex_file = Ok p.
Proof. split; [reflexivity|]. eexists. reflexivity. Qed.

(** ** C50 *)
Theorem C50_cropped_partial to_float d n (f b : nat) : (0 < b)%nat ->
  load_scan to_float d n (Some (Z.of_nat f)) (Some (Z.of_nat b)) = rmap (cropped f b) (load_scan to_float d n None None) /\
  load_scan to_float d n (Some (Z.of_nat f)) None = rmap (cropped f 0) (load_scan to_float d n None None) /\
  load_scan to_float d n None (Some (Z.of_nat b)) = rmap (cropped 0 b) (load_scan to_float d n None None).
Proof. exact (load_trimmed to_float d n f b). Qed.
Print Assumptions C50_cropped_partial.
(** trim_back = 0 removes everything. *)
Theorem C50_zero_refuted to_float d n tf s : load_scan to_float d n tf (Some 0%Z) = Ok s -> sc_angle s = [] /\ sc_raw s = [].
Proof. exact (load_trim_zero to_float d n tf s). Qed.
Print Assumptions C50_zero_refuted.

(** ** C58 *)
Theorem C58_accepted to_float d tf tb ns l :
  load_scans to_float d ns tf tb = Ok l <-> accepted (fun n => load_scan to_float d n tf tb) ns l.
Proof. exact (load_scans_accepted to_float d tf tb ns l). Qed.
Print Assumptions C58_accepted.
Theorem C58_other_errors to_float d tf tb ns e :
  load_scans to_float d ns tf tb = Raise e <->
  exists before n after l, ns = (before ++ n :: after)%list /\ accepted (fun n => load_scan to_float d n tf tb) before l /\
    load_scan to_float d n tf tb = Raise e /\ e <> NotReflectivityScanError.
Proof. exact (load_scans_error to_float d tf tb ns e). Qed.
Print Assumptions C58_other_errors.
(** Rejected are the scans that cannot be extracted and those without one of the angle columns. *)
Theorem C58_rejected to_float d n tf tb : load_scan to_float d n tf tb = Raise NotReflectivityScanError <->
  extract_scan to_float (ld_parser d) n = Raise KeyError \/ extract_scan to_float (ld_parser d) n = Raise ValueError \/
  extract_scan to_float (ld_parser d) n = Raise NotReflectivityScanError \/
  exists t a, extract_scan to_float (ld_parser d) n = Ok t /\ In a (ld_angles d) /\ ~ In a (t_names t).
Proof. exact (rejected_iff to_float d n tf tb). Qed.
Print Assumptions C58_rejected.
Theorem C58_missing to_float d n tf tb : dict_get Z.eqb (p_index (ld_parser d)) n = None -> load_scan to_float d n tf tb = Raise NotReflectivityScanError.
Proof. exact (missing_rejected to_float d n tf tb). Qed.
Print Assumptions C58_missing.

(** ** C96 *)
Theorem C96_loaded to_float depth file prelude bs b names rows tag ws l :
  spec_file file prelude bs -> (List.length bs < depth)%nat -> last_block bs b ->
  holds_table to_float b names rows -> names <> [] -> NoDup names -> ~ starts_with_any "#L " (join "  " names) -> rows <> [] ->
  last_with "#D" (b_body b) = Some l -> words_of (tag :: ws) l ->
  exists p, spec_parser depth file = Ok p /\ forall d, ld_parser d = p -> ld_angles d <> [] -> (forall a, In a (ld_angles d) -> In a names) -> In (ld_intensity d) names ->
    ld_attenuator d = None -> (forall c, ld_division d = Some c -> In c names) ->
    load_scan to_float d (Z.of_N (b_number b)) None None =
      Ok (mkScan (Z.of_N (b_number b)) (map (fun r => nonzero (abs_sum (map (value names r) (ld_angles d)))) rows)
            (map (fun r => match ld_division d with
                           | Some c => fdiv (value names r (ld_intensity d)) (value names r c)
                           | None => value names r (ld_intensity d) end) rows)
            (ld_wavelength d) (ld_beam d) (ld_sample d) (ld_shape d) (ld_norm d) (Some (join " " ws))).
Proof. exact (load_file to_float depth file prelude bs b names rows tag ws l). Qed.
Print Assumptions C96_loaded.
(** With an attenuator column the product is corrected for discontinuities (see C51). *)
Theorem C96_attenuated to_float depth file prelude bs b names rows tag ws l a I :
  spec_file file prelude bs -> (List.length bs < depth)%nat -> last_block bs b ->
  holds_table to_float b names rows -> names <> [] -> NoDup names -> ~ starts_with_any "#L " (join "  " names) -> rows <> [] ->
  last_with "#D" (b_body b) = Some l -> words_of (tag :: ws) l ->
  exists p, spec_parser depth file = Ok p /\ forall d, ld_parser d = p -> ld_angles d <> [] -> (forall a, In a (ld_angles d) -> In a names) -> In (ld_intensity d) names ->
    ld_attenuator d = Some a -> In a names -> ld_division d = None ->
    correct_discontinuities (map (fun r => fmul (value names r (ld_intensity d)) (value names r a)) rows)
      (map (fun r => abs_sum (map (value names r) (ld_angles d))) rows) = Ok I ->
    load_scan to_float d (Z.of_N (b_number b)) None None =
      Ok (mkScan (Z.of_N (b_number b)) (map (fun r => nonzero (abs_sum (map (value names r) (ld_angles d)))) rows) I
            (ld_wavelength d) (ld_beam d) (ld_sample d) (ld_shape d) (ld_norm d) (Some (join " " ws))).
Proof. exact (load_file_attenuated to_float depth file prelude bs b names rows tag ws l a I). Qed.
Print Assumptions C96_attenuated.

Lemma ex_load : exists p, spec_parser 10 ex_file = Ok p /\ forall d, ld_parser d = p -> ld_angles d = ["om"; "del t"] -> ld_intensity d = "det" -> ld_attenuator d = None -> ld_division d = None ->
  load_scan ex_float d 5 None None = Ok (mkScan 5 (map Some [1; 3]%R) (map Some [8; 4]%R) (ld_wavelength d) (ld_beam d) (ld_sample d) (ld_shape d) (ld_norm d) (Some "Mon Nov 16")).
Proof. destruct (C96_loaded ex_float 10 ex_file ["#F test"; ""] [ex_b5; ex_b7] ex_b5 ex_names ex_rows "#D" ["Mon"; "Nov"; "16"] "#D Mon Nov 16" ex_file_ok ltac:(cbn; lia) ex_last5 ex_table) as (p & Hp & H).
  - discriminate.
  - repeat constructor; cbn; intuition discriminate.
  - apply (not_tag _ "o" "m  del t  det"); reflexivity.
  - discriminate.
  - reflexivity.
  - apply words_iff; reflexivity.
  - exists p. split; [exact Hp|]. intros d Hd Ha Hi Hat Hdv. specialize (H d Hd). rewrite Ha, Hi, Hat, Hdv in H.
    change (Z.of_N (b_number ex_b5)) with 5%Z in H. rewrite H; [|discriminate| | |reflexivity|discriminate].
    + unfold ex_rows, ex_names, abs_sum, value. cbn [map combine find fst String.eqb Ascii.eqb Bool.eqb].
      change (String.eqb "om" "om") with true. change (String.eqb "del t" "om") with false. change (String.eqb "del t" "del t") with true. change (String.eqb "det" "om") with false. change (String.eqb "det" "del t") with false. change (String.eqb "det" "det") with true. cbn [option_map].
      unfold fsum, fadd, lift2. cbn [fold_right]. do 2 f_equal.
      assert (A : (Rabs 0 + (Rabs (-1) + 0) = 1)%R) by (rewrite Rabs_R0, Rabs_left by lra; lra).
      assert (B : (Rabs 1 + (Rabs (-2) + 0) = 3)%R) by (rewrite Rabs_pos_eq, Rabs_left by lra; lra).
      rewrite A, B. unfold nonzero. destruct (Req_EM_T 1 0); [lra|]. destruct (Req_EM_T 3 0); [lra|]. reflexivity.
    + intros a [<-|[<-|[]]]; cbn; auto.
    + cbn; auto. Qed.
(** Scan 5 of the example: angles |0|+|-1| and |1|+|-2|. *)
Example C96_example : exists p, spec_parser 10 ex_file = Ok p /\
  load_scan ex_float (mkLoader p ["om"; "del t"] "det" 1 None None None None None None) 5 None None = Ok (mkScan 5 (map Some [1; 3]%R) (map Some [8; 4]%R) 1 None None None None (Some "Mon Nov 16")).
Proof. destruct ex_load as (p & Hp & H). exists p. split; [exact Hp|]. apply (H (mkLoader p ["om"; "del t"] "det" 1 None None None None None None)); reflexivity. Qed.
Example C50_example : exists p, spec_parser 10 ex_file = Ok p /\
  load_scan ex_float (mkLoader p ["om"; "del t"] "det" 1 None None None None None None) 5 None (Some 1%Z) = Ok (mkScan 5 (map Some [1]%R) (map Some [8]%R) 1 None None None None (Some "Mon Nov 16")).
Proof. destruct ex_load as (p & Hp & H). exists p. split; [exact Hp|]. destruct (C50_cropped_partial ex_float (mkLoader p ["om"; "del t"] "det" 1 None None None None None None) 5 0 1 ltac:(lia)) as (_ & _ & E).
  change (Z.of_nat 1) with 1%Z in E. rewrite E. rewrite (H (mkLoader p ["om"; "del t"] "det" 1 None None None None None None)) by reflexivity. reflexivity. Qed.
(** Requesting the scans 3 (missing), 5 and 7 (no column "del t") returns scan 5. *)
Example C58_example : exists p s, spec_parser 10 ex_file = Ok p /\ sc_number s = 5%Z /\
  load_scans ex_float (mkLoader p ["om"; "del t"] "det" 1 None None None None None None) [3; 5; 7]%Z None None = Ok [s].
Proof. destruct ex_load as (p & Hp & H). exists p. set (d := mkLoader p ["om"; "del t"] "det" 1 None None None None None None). eexists. split; [exact Hp|]. split; [|].
  2: { apply C58_accepted. apply accepted_no; [|apply accepted_yes; [exact (H d eq_refl eq_refl eq_refl eq_refl eq_refl)|apply accepted_no; [|constructor]]].
    - apply C58_missing. injection Hp as <-. reflexivity.
    - apply C58_rejected. right. right. right. exists (mkTable ["om"; "det"] [[Some 3; Some 3]]%R), "del t". split; [|split; [right; left; reflexivity|cbn; intuition discriminate]].
      destruct (C46_roundtrip_partial ex_float 10 ex_file ["#F test"; ""] [ex_b5; ex_b7] ex_b7 ["om"; "det"] [[Some 3; Some 3]]%R ex_file_ok ltac:(cbn; lia) ex_last7 ex_table7 ltac:(discriminate)) as (p' & Hp' & He).
      + apply (not_tag _ "o" "m  det"); reflexivity.
      + rewrite Hp in Hp'. injection Hp' as <-. exact He. }
  reflexivity. Qed.

(** ** C97: a scan without a date line cannot be loaded, and aborts the loading of a series. *)
Theorem C97_no_date_refuted to_float depth file prelude bs b names rows :
  spec_file file prelude bs -> (List.length bs < depth)%nat -> last_block bs b ->
  holds_table to_float b names rows -> names <> [] -> NoDup names -> ~ starts_with_any "#L " (join "  " names) -> rows <> [] ->
  last_with "#D" (b_body b) = None ->
  exists p, spec_parser depth file = Ok p /\ forall d tf tb, ld_parser d = p -> (forall a, In a (ld_angles d) -> In a names) ->
    load_scan to_float d (Z.of_N (b_number b)) tf tb = Raise KeyError.
Proof. exact (load_no_time to_float depth file prelude bs b names rows). Qed.
Print Assumptions C97_no_date_refuted.
Example C97_example : exists p, spec_parser 10 ex_file = Ok p /\ load_scan ex_float (mkLoader p ["om"] "det" 1 None None None None None None) 7 None None = Raise KeyError /\
  load_scans ex_float (mkLoader p ["om"] "det" 1 None None None None None None) [7]%Z None None = Raise KeyError.
Proof. destruct (C97_no_date_refuted ex_float 10 ex_file ["#F test"; ""] [ex_b5; ex_b7] ex_b7 ["om"; "det"] [[Some 3; Some 3]]%R ex_file_ok ltac:(cbn; lia) ex_last7 ex_table7) as (p & Hp & H).
  - discriminate.
  - repeat constructor; cbn; intuition discriminate.
  - apply (not_tag _ "o" "m  det"); reflexivity.
  - discriminate.
  - reflexivity.
  - exists p. split; [exact Hp|]. specialize (H (mkLoader p ["om"] "det" 1 None None None None None None) None None eq_refl).
    assert (E : load_scan ex_float (mkLoader p ["om"] "det" 1 None None None None None None) 7 None None = Raise KeyError) by (apply H; intros a [<-|[]]; cbn; auto).
    split; [exact E|]. unfold load_scans. cbn [foldM]. rewrite E. reflexivity. Qed.
