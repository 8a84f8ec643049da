(** Uniform draws in IEEE binary64 arithmetic (Flocq).
    Sources: /repo/mlreflect/data_generation/distributions.py 25, 51; noise.py 26, 33. *)
From Flocq Require Import Core IEEE754.Binary IEEE754.Bits.
From Verif Require Import Float64 Double_Model.

(** [np.random.uniform(low, high)] for one number, as numpy computes it (random_uniform in numpy's distributions.c and legacy generator: [low + range * random]):
    [u] is a random multiple of 2^-53 in [0, 1). *)
Definition b64_draw (lo hi u : binary64) : binary64 := add64 lo (mul64 (sub64 hi lo) u).
