(** The heights of scattering length density profiles in IEEE binary64 arithmetic (Flocq).
    Source: /repo/mlreflect/data_generation/data_generator.py 305. *)
From Coq Require Import Reals ZArith.
From Flocq Require Import Core IEEE754.BinarySingleNaN IEEE754.Binary IEEE754.Bits.
From Verif Require Import Float64 Double_Model.

(** 0.1 as Python reads it, and a number of the machine as double number *)
Definition step64 : binary64 := b64_of_bits 4591870180066957722.
Definition nat64 (i : nat) : binary64 := Binary.binary_normalize 53 1024 Hp Hpe mode_NE (Z.of_nat i) 0 false.
(** data_generator.py 305: np.arange(start, stop, 0.1).  As numpy computes it: ceil((stop - start) / step) numbers; the first two are start and start + step,
    and number i is start + i * ((start + step) - start), without fused operations. *)
Definition b64_count (start stop : binary64) : Z := Zceil (b64R (div64 (sub64 stop start) step64)).
Definition b64_delta (start : binary64) : binary64 := sub64 (add64 start step64) start.
Definition b64_height (start : binary64) (i : nat) : binary64 :=
  match i with
  | O => start
  | 1%nat => add64 start step64
  | _ => add64 start (mul64 (nat64 i) (b64_delta start))
  end.
