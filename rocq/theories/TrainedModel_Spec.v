(** Vocabulary for statements about saved models. *)
From Coq Require Import Reals.
From Verif Require Import Py Str Sample_Model Sample_Spec.

(** A constant that is a complex number with zero imaginary part *)
Definition flat_complex (o : option param) : Prop := exists np re n, o = Some (Const (Cpx np re 0) n).
Definition has_flat_complex (s : structure) : Prop := Exists (fun l => flat_complex (l_sld l)) (all_layers s).
