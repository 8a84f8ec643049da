(** Vocabulary for statements about the trainer. *)
From Coq Require Import Reals Lra.
From Verif Require Import Py Str Sample_Model Arr Preproc_Model Preproc_Spec NRng Generator_Model Generator_Spec Trainer_Model.
Local Open Scope R_scope.

(** A rounding mode: monotone; 0, 1 and [n] are representable. *)
Definition rounding (rnd : R -> R) (n : nat) : Prop :=
  (forall x y, x <= y -> rnd x <= rnd y) /\ rnd 0 = 0 /\ rnd 1 = 1 /\ rnd (INR n) = INR n.

(** Training data for the trainer's sample: [rows] with [m] points each, and as many complete label rows *)
Definition has_data (t : trainer) (names : list string) (m : nat) (rows : list (list fl)) (f : frame) : Prop :=
  tr_data t = Some (mkTdata f (A2 m rows)) /\ named_sample (tr_sample t) /\ label_frame (tr_sample t) names f /\
  fr_rows f = List.length rows.

(** The rows of a table: row [i] lists entry [i] of every column. *)
Definition is_row (f : frame) (i : nat) (r : list cell) : Prop := Forall2 (fun kc x => nth_error (snd kc) i = Some x) (fr_cols f) r.
Definition table_rows (f : frame) (rs : list (list cell)) : Prop :=
  List.length rs = fr_rows f /\ forall i r, nth_error rs i = Some r -> is_row f i r.
