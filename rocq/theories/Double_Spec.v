(** Vocabulary for statements about binary64 numbers *)
From Coq Require Import Reals ZArith.
From Flocq Require Import Core IEEE754.Binary IEEE754.Bits.
From Verif Require Import Float64 Double_Model.
Local Open Scope R_scope.

(** A finite number so far from the end of the range that sums and small multiples do not overflow *)
Definition moderate (x : binary64) : Prop := b64fin x = true /\ Rabs (b64R x) <= bpow radix2 1000.

(** Largest modulus of the limits of a range *)
Definition extent (lo hi : binary64) : R := Rmax (Rabs (b64R lo)) (Rabs (b64R hi)).

(** Half the distance between 1 and the next number *)
Definition eps64 : R := bpow radix2 (-53).

(** The interpolated value at [x] is computed without overflow. *)
Definition no_overflow (x0 y0 x1 y1 x : binary64) : Prop := b64fin x0 = true /\ b64fin y0 = true /\ b64fin x1 = true /\ b64fin y1 = true /\ b64fin x = true /\
  b64fin (sub64 y1 y0) = true /\ b64fin (sub64 x1 x0) = true /\ b64fin (div64 (sub64 y1 y0) (sub64 x1 x0)) = true /\ b64fin (sub64 x x0) = true /\
  b64fin (mul64 (div64 (sub64 y1 y0) (sub64 x1 x0)) (sub64 x x0)) = true /\ b64fin (add64 (mul64 (div64 (sub64 y1 y0) (sub64 x1 x0)) (sub64 x x0)) y0) = true.
