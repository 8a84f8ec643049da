(** Vocabulary for the helpers. *)
From Coq Require Import Reals Lra.
From Verif Require Import Py Arr.
Local Open Scope R_scope.

Definition rsum (l : list R) : R := fold_right Rplus 0 l.
(** An unnormalised bell curve with centre [c] *)
Definition bell (c std a : R) : R := exp (- (a - c) ^ 2 / (2 * std ^ 2)).
(** The points within [w] of [c], in order *)
Definition within (c w : R) (x : list R) : list R := filter (fun a => if Rle_dec (Rabs (a - c)) w then true else false) x.
(** Symmetric about [c] *)
Definition symmetric (c : R) (x : list R) : Prop := map (fun a => 2 * c - a) x = rev x.
