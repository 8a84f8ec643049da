(** Vocabulary for containers of trained models. *)
From Verif Require Import Py Str Sample_Model Sample_Spec TrainedModel_Spec Utils_Spec Container_Model.
Local Open Scope string_scope.

(** Every field has a value. *)
Definition populated {K V} (c : container K V) : Prop :=
  c_sample c <> None /\ c_keras c <> None /\ c_q c <> None /\ c_mean c <> None /\ c_std c <> None.
(** The container holds exactly these values; the sample up to the representation of its numbers. *)
Definition holds {K V} (c : container K V) (k : K) (s : structure) (q mean std : V) : Prop :=
  c_keras c = Some k /\ (exists s', c_sample c = Some s' /\ same_sample s s') /\ c_q c = Some q /\ c_mean c = Some mean /\ c_std c = Some std.
(** A name with one of the extensions of HDF5 files, after a stem that does not begin with a dot, in some directory *)
Definition h5_path (p : string) : Prop := exists dir x stem ext, (dir = "" \/ exists d, dir = d ++ "/") /\
  x <> "."%char /\ plain (String x stem) /\ In ext ["h5"; "hdf5"; "keras"] /\ p = dir ++ String x stem ++ "." ++ ext.
(** Nothing of the kind at the end of the name *)
Definition other_path (p : string) : Prop := forall a ext, In ext ["h5"; "hdf5"; "keras"] -> p <> a ++ "." ++ ext.
(** No saved keras model in a directory of this name *)
Definition no_directory {K V} (d : disk K V) (p : string) : Prop := forall k, d p <> Some (EDir k).
(** A sample that can be written as JSON *)
Definition json_sample (s : structure) : Prop := storable_sample s /\ ~ has_flat_complex s.
