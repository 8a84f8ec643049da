(** The mean squared error and the choice of the best variant in IEEE binary64 arithmetic (Flocq), the arithmetic of numpy arrays of real numbers.
    Sources: /repo/mlreflect/curve_fitter/minimizer.py 27-30 (curve_variant_log_mse), 64-70 (mean_squared_error), curve_fitter.py 146-178 (argmin).
    The logarithms of the curves are given; numpy's order of summation is left open. *)
From Coq Require Import Reals ZArith List.
From Flocq Require Import Core IEEE754.BinarySingleNaN IEEE754.Binary IEEE754.Bits.
From Verif Require Import Float64 Double_Model.
Import ListNotations.

(** An order in which numbers are added; sums may start with 0. *)
Inductive sum_order := Start | Entry (x : binary64) | Plus (a b : sum_order).
Definition zero64 : binary64 := b64_of_bits 0.
Fixpoint sum64 (o : sum_order) : binary64 := match o with Start => zero64 | Entry x => x | Plus a b => add64 (sum64 a) (sum64 b) end.

(** [(a - b) ** 2] *)
Definition square_diff64 (x y : binary64) : binary64 := let d := sub64 x y in mul64 d d.
Definition squares64 (a b : list binary64) : list binary64 := map (fun xy => square_diff64 (fst xy) (snd xy)) (combine a b).

(** A number of entries as a float (exact up to 2^53) *)
Definition count64 (n : nat) : binary64 := Binary.binary_normalize 53 1024 Hp Hpe mode_NE (Z.of_nat n) 0 false.
(** np.mean: the sum divided by the number of entries *)
Definition mean64 (o : sum_order) (n : nat) : binary64 := div64 (sum64 o) (count64 n).

(** ndarray.argmin of finite numbers: the first minimum *)
Fixpoint argmin64_from (i best : nat) (b : binary64) (l : list binary64) : nat :=
  match l with
  | [] => best
  | x :: l' => if lt64 x b then argmin64_from (S i) i x l' else argmin64_from (S i) best b l'
  end.
Definition argmin64 (l : list binary64) : option nat := match l with [] => None | x :: l' => Some (argmin64_from 1 0 x l') end.
