(** Vocabulary for the order in which a file fitter is set up. *)
From Coq Require Import Reals.
From Verif Require Import Py Arr Rng FileFitter_Model FileFitter_Spec.

Definition sets_import {S} (op : @spec_op S) : bool := match op with SImport _ => true | _ => false end.
Definition sets_foot {S} (op : @spec_op S) : bool := match op with SFoot _ => true | _ => false end.
Definition sets_fio_foot {S} (op : @fio_op S) : bool := match op with FFoot _ => true | _ => false end.
Definition sets_model {S} (op : @spec_op S) : bool := match op with SModel _ => true | _ => false end.
Definition sets_fio_model {S} (op : @fio_op S) : bool := match op with FModel _ => true | _ => false end.
(** The settings made last in a history of a new SPEC fitter *)
Fixpoint spec_last_import {S} (h : list (@spec_op S)) (x : option spec_import) : option spec_import :=
  match h with [] => x | SImport y :: h' => spec_last_import h' (Some y) | _ :: h' => spec_last_import h' x end.
Fixpoint spec_last_foot {S} (h : list (@spec_op S)) (x : option spec_foot) : option spec_foot :=
  match h with [] => x | SFoot y :: h' => spec_last_foot h' (Some y) | _ :: h' => spec_last_foot h' x end.
(** What a method raises on a fitter without a file: the reload comes first and lacks its arguments. *)
Definition error_without_file (r : reload_arg) : exn := match r with ReloadKeyword false => AttributeError | _ => TypeError end.
