(** Vocabulary for statements about sums of binary64 numbers *)
From Coq Require Import Reals ZArith List Permutation.
From Flocq Require Import Core IEEE754.Binary IEEE754.Bits.
From Verif Require Import Float64 Double_Model Double_Spec DoubleMse_Model.
Import ListNotations.
Local Open Scope R_scope.

(** The numbers that are added, and the largest number of additions that one of them goes through *)
Fixpoint addends (o : sum_order) : list binary64 := match o with Start => [] | Entry x => [x] | Plus a b => addends a ++ addends b end.
Fixpoint depth (o : sum_order) : nat := match o with Plus a b => S (Nat.max (depth a) (depth b)) | _ => 0%nat end.

(** Exact mean of the squared differences *)
Definition exact_mse (a b : list binary64) : R := fold_right Rplus 0 (map (fun xy => (b64R (fst xy) - b64R (snd xy)) ^ 2) (combine a b)) / INR (List.length a).

(** [e] is computed from the finite arrays [a] and [b] with some order of summation, of depth at most [k], and without overflow. *)
Definition computed_mse (k : nat) (a b : list binary64) (e : binary64) : Prop :=
  a <> [] /\ List.length b = List.length a /\ (Z.of_nat (List.length a) <= 2 ^ 53)%Z /\ Forall (fun x => b64fin x = true) a /\ Forall (fun x => b64fin x = true) b /\
  b64fin e = true /\ exists o, (depth o <= k)%nat /\ Permutation (addends o) (squares64 a b) /\ e = mean64 o (List.length a).

(** Relative error of [k] roundings *)
Definition above (k : nat) : R := (1 + eps64) ^ k.
Definition below (k : nat) : R := (1 - eps64) ^ k.
