(** Properties of FIO tables with repeated column names (C140). *)
From Coq Require Import Reals Lra.
From Verif Require Import Py Str Arr Footprint_Model Scan_Model Spec_Model Fio_Model P08_Model SpecFile_Spec FioFile_Spec Spec_Proofs Fio_Proofs FioTable_Proofs Fio_Props.
Local Open Scope R_scope.
Local Open Scope string_scope.

(** ** C140 *)
(** Any file: a name that occurs [j] times has one entry for the first data line and [j] for every further one. *)
Theorem C140_column_lengths to_float file r : read to_float false file = Ok r -> r_data r = [] \/
  NoDup (map fst (r_data r)) /\ (forall k, In k (map fst (r_data r)) <-> In k (r_names r)) /\
  exists n, forall k col, dict_get String.eqb (r_data r) k = Some col -> List.length col = (1 + n * often k (r_names r))%nat.
Proof. exact (column_lengths to_float file r). Qed.
Print Assumptions C140_column_lengths.
(** The table of a scan is accepted exactly if all columns have the same length. *)
Theorem C140_accepted to_float fs p k r : parse_fio to_float fs p k = Ok r <-> read_fio to_float fs (scan_path p k) = Ok r /\
  forall a b c d, dict_get String.eqb (r_data r) a = Some c -> dict_get String.eqb (r_data r) b = Some d -> List.length c = List.length d.
Proof. exact (parse_ok to_float fs p k r). Qed.
Print Assumptions C140_accepted.
Theorem C140_distinct to_float fs p k r : read_fio to_float fs (scan_path p k) = Ok r -> NoDup (r_names r) -> parse_fio to_float fs p k = Ok r.
Proof. exact (parse_distinct to_float fs p k r). Qed.
Print Assumptions C140_distinct.
(** A file with two data lines and with names that do not occur equally often is refused. *)
Theorem C140_repeated to_float fs p k r a b c : read_fio to_float fs (scan_path p k) = Ok r -> In a (r_names r) -> In b (r_names r) -> often a (r_names r) <> often b (r_names r) ->
  dict_get String.eqb (r_data r) a = Some c -> (1 < List.length c)%nat -> parse_fio to_float fs p k = Raise ValueError.
Proof. exact (parse_repeated to_float fs p k r a b c). Qed.
Print Assumptions C140_repeated.
Theorem C140_errors to_float fs p k e : parse_fio to_float fs p k = Raise e -> read_fio to_float fs (scan_path p k) = Raise e \/ e = ValueError.
Proof. exact (parse_error to_float fs p k e). Qed.
Print Assumptions C140_errors.
(** If all names are the same the table is accepted with too many points. *)
Theorem C140_all_equal : exists to_float fs p r col, parse_fio to_float fs p 1 = Ok r /\ r_names r = ["om"; "om"] /\
  dict_get String.eqb (r_data r) "om" = Some col /\ List.length col = 3%nat /\
  dict_get String.eqb fs (scan_path p 1) = Some ["%d"; "Col 1 om DOUBLE"; "Col 2 om DOUBLE"; "1 5"; "2 6"].
Proof. exists fx_float, [("data/x_00001.fio", ["%d"; "Col 1 om DOUBLE"; "Col 2 om DOUBLE"; "1 5"; "2 6"])], (mkFioParser "data/x" "om" "tt"). eexists. exists (map Some [5; 2; 6]).
  split; [reflexivity|]. split; [reflexivity|]. split; [reflexivity|]. split; reflexivity. Qed.
Print Assumptions C140_all_equal.
Definition hx_twice : disk := [("data/x_00001.fio", ["%d"; "Col 1 om DOUBLE"; "Col 2 det DOUBLE"; "Col 3 om DOUBLE"; "1 5 7"; "2 6 8"])].
Example C140_example : exists r, read_fio fx_float hx_twice "data/x_00001.fio" = Ok r /\ r_data r = [("om", map Some [7; 2; 8]); ("det", map Some [5; 6])] /\
  parse_fio fx_float hx_twice (mkFioParser "data/x" "om" "tt") 1 = Raise ValueError.
Proof. eexists. split; [reflexivity|]. split; reflexivity. Qed.
