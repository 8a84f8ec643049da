(** Properties of the header of FIO files (C136, C137). *)
From Coq Require Import Reals Lra.
From Verif Require Import Py Str Arr Spec_Model Fio_Model SpecFile_Spec FioFile_Spec FioHeader_Spec Spec_Proofs SpecLoader_Proofs Fio_Proofs FioHeader_Proofs Fio_Props.
Local Open Scope R_scope.
Local Open Scope string_scope.

(** ** C136: signal counter and UB matrix *)
(** The last definition counts, whatever else the parameter block contains and however the key is spelled. *)
Theorem C136_signal_counter to_float file before comments ps1 l ps2 columns rows names text :
  fio_layout file before comments (ps1 ++ l :: ps2) columns rows -> table_layout columns rows names -> signal_definition to_float l text -> Forall (fun l => ~ has_key "signalcounter" l) ps2 ->
  exists r, read to_float false file = Ok r /\ r_signal r = Some text.
Proof. intros F T D N. eexists. split; [exact (read_any to_float _ _ _ _ _ _ _ F T)|]. exact (signal_of to_float comments ps1 l ps2 text D N). Qed.
Print Assumptions C136_signal_counter.
Theorem C136_ub_matrix_partial to_float file before comments ps1 l ps2 columns rows names m :
  fio_layout file before comments (ps1 ++ l :: ps2) columns rows -> table_layout columns rows names -> ub_definition to_float l m -> Forall (fun l => ~ has_key "ubmatrix" l) ps2 ->
  exists r, read to_float false file = Ok r /\ r_ubmatrix r = Some m.
Proof. intros F T D N. eexists. split; [exact (read_any to_float _ _ _ _ _ _ _ F T)|]. exact (ub_of to_float comments ps1 l ps2 m D N). Qed.
Print Assumptions C136_ub_matrix_partial.
(** Without such a line there is no entry. *)
Theorem C136_missing to_float file before comments params columns rows names : fio_layout file before comments params columns rows -> table_layout columns rows names ->
  Forall (fun l => ~ has_key "signalcounter" l /\ ~ has_key "ubmatrix" l) params -> exists r, read to_float false file = Ok r /\ r_signal r = None /\ r_ubmatrix r = None.
Proof. intros F T N. eexists. split; [exact (read_any to_float _ _ _ _ _ _ _ F T)|]. split.
  - apply (no_signal to_float comments params). eapply Forall_impl; [|exact N]. intros l [H _]. exact H.
  - apply (no_ub to_float comments params). eapply Forall_impl; [|exact N]. intros l [_ H]. exact H. Qed.
Print Assumptions C136_missing.
(** Numbers separated by commas or semicolons are not read: semicolons become commas, but the rows are split at blanks. *)
Theorem C136_separators_refuted to_float sep : sep = "," \/ sep = ";" -> (forall w, has_char "," w = true \/ has_char ";" w = true -> to_float w = None) ->
  exists r, read to_float false ["%p"; "ubmatrix = [[1" ++ sep ++ "0" ++ sep ++ "0] [0" ++ sep ++ "1" ++ sep ++ "0] [0" ++ sep ++ "0" ++ sep ++ "1]]"] = Ok r /\ r_ubmatrix r = None.
Proof. intros [-> | ->] H.
  - exists (param_line to_float "ubmatrix = [[1,0,0] [0,1,0] [0,0,1]]" (set_section Params reader0)). split; [reflexivity|]. unfold param_line. cbn -[ub_matrix]. rewrite H by (left; reflexivity).
    assert (E : ub_matrix to_float "ubmatrix = [[1,0,0] [0,1,0] [0,0,1]]" = Raise ValueError) by (vm_compute; rewrite (H "1,0,0" (or_introl eq_refl)); reflexivity).
    rewrite E. reflexivity.
  - exists (param_line to_float "ubmatrix = [[1;0;0] [0;1;0] [0;0;1]]" (set_section Params reader0)). split; [reflexivity|]. unfold param_line. cbn -[ub_matrix]. rewrite H by (right; reflexivity).
    assert (E : ub_matrix to_float "ubmatrix = [[1;0;0] [0;1;0] [0;0;1]]" = Raise ValueError) by (vm_compute; rewrite (H "1,0,0" (or_introl eq_refl)); reflexivity).
    rewrite E. reflexivity. Qed.
Print Assumptions C136_separators_refuted.
Definition hx_ub : string := "UBmatrix = [[1 0 0]; [0 2 0]; [0  0 3]]".
Definition hx_signal : string := "SignalCounter =  p100k_roi1 ".
Definition hx_params : list string := ["om = 7"; hx_ub; "two words"; hx_signal; "tt = x"].
Definition hx_file : list string := (["%c"] ++ fx_comments ++ ["%p"] ++ hx_params ++ ["%d"] ++ fx_columns ++ fx_lines)%list.
Lemma hx_ub_definition : ub_definition fx_float hx_ub [map Some [1; 0; 0]; map Some [0; 2; 0]; map Some [0; 0; 3]].
Proof. apply (ub_definition_intro fx_float "UBmatrix " " " "" "1 0 0" "; " "0 2 0" "; " "0  0 3" "]"); try reflexivity; try (repeat split; reflexivity).
  - change (strip "UBmatrix ") with "UBmatrix". apply spelled_ub. reflexivity.
  - split; [repeat split|]. split; [reflexivity|]. exists ["1"; "0"; "0"]. split; [apply words_iff; reflexivity|]. repeat constructor.
  - split; [repeat split|]. split; [reflexivity|]. exists ["0"; "2"; "0"]. split; [apply words_iff; reflexivity|]. repeat constructor.
  - split; [repeat split|]. split; [reflexivity|]. exists ["0"; "0"; "3"]. split; [apply words_iff; reflexivity|]. repeat constructor. Qed.
Lemma hx_signal_definition : signal_definition fx_float hx_signal "p100k_roi1".
Proof. apply (signal_definition_intro fx_float "SignalCounter " "  p100k_roi1 "); try reflexivity. change (strip "SignalCounter ") with "SignalCounter". apply spelled_signal. reflexivity. Qed.
Lemma hx_layout : fio_layout hx_file [] fx_comments hx_params fx_columns fx_lines.
Proof. exists "%c", "%p", "%d". split; [reflexivity|]. repeat split; repeat constructor. Qed.
Example C136_example : exists r, read fx_float false hx_file = Ok r /\ r_ubmatrix r = Some [map Some [1; 0; 0]; map Some [0; 2; 0]; map Some [0; 0; 3]] /\ r_signal r = Some "p100k_roi1" /\ r_motors r = [("om", Some 7)].
Proof. exists (whole_state fx_float fx_comments hx_params fx_names fx_lines). split; [exact (read_any fx_float hx_file [] fx_comments hx_params fx_columns fx_lines fx_names hx_layout fx_table)|].
  split; [reflexivity|]. split; reflexivity. Qed.

(** ** C137: reading the header only *)
(** The header entries are the ones of the whole file; there are no data. *)
Theorem C137_header_only_partial to_float file before comments params columns rows names : fio_layout file before comments params columns rows -> table_layout columns rows names ->
  exists r h, read to_float false file = Ok r /\ read to_float true file = Ok h /\
    r_motors h = r_motors r /\ r_names h = names /\ r_names r = names /\ r_command h = r_command r /\ r_ubmatrix h = r_ubmatrix r /\ r_signal h = r_signal r /\ r_rois h = r_rois r /\ r_data h = [].
Proof. intros F T. eexists _, _. split; [exact (read_any to_float _ _ _ _ _ _ _ F T)|]. split; [exact (read_header to_float _ _ _ _ _ _ _ F T)|]. repeat split; reflexivity. Qed.
Print Assumptions C137_header_only_partial.
(** Parameters after the data are missed. *)
Theorem C137_late_parameters_refuted to_float x : to_float " 2" = Some x -> exists r h,
  read to_float false ["%d"; "Col 1 om DOUBLE"; "1"; "%p"; "om = 2"] = Ok r /\ read to_float true ["%d"; "Col 1 om DOUBLE"; "1"; "%p"; "om = 2"] = Ok h /\ r_motors r = [("om", x)] /\ r_motors h = [].
Proof. intros H. eexists _, _. split; [unfold read; cbn -[param_line]; unfold param_line; cbn; rewrite H; reflexivity|]. split; [reflexivity|]. split; reflexivity. Qed.
Print Assumptions C137_late_parameters_refuted.
Example C137_example : exists h, read fx_float true hx_file = Ok h /\ r_signal h = Some "p100k_roi1" /\ r_names h = fx_names /\ r_data h = [].
Proof. exists (whole_state fx_float fx_comments hx_params fx_names []). split; [exact (read_header fx_float hx_file [] fx_comments hx_params fx_columns fx_lines fx_names hx_layout fx_table)|].
  split; [reflexivity|]. split; reflexivity. Qed.
