(** Vocabulary for interpolated curves. *)
From Coq Require Import Reals Lra Sorted.
From Verif Require Import Py.
Local Open Scope R_scope.

Definition increasing (q : list R) : Prop := StronglySorted Rlt q.
Definition positive_curve (r : list R) : Prop := Forall (fun x => 0 < x) r.
(** Zero counts are allowed. *)
Definition nonnegative_curve (r : list R) : Prop := Forall (fun x => 0 <= x) r.
