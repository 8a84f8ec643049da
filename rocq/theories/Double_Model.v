(** Label restoring, fit limits, folding of samples, interpolation and normalisation in IEEE binary64 arithmetic (Flocq), the
    arithmetic of Python floats and of numpy arrays of real numbers.  All operations round to nearest even. *)
From Coq Require Import Reals ZArith List Bool.
From Flocq Require Import Core IEEE754.BinarySingleNaN IEEE754.Binary IEEE754.Bits.
From Verif Require Import Float64.
Import ListNotations.

Definition add64 : binary64 -> binary64 -> binary64 := Binary.Bplus 53 1024 Hp Hpe binop_nan_pl64 mode_NE.
Definition mul64 : binary64 -> binary64 -> binary64 := Binary.Bmult 53 1024 Hp Hpe binop_nan_pl64 mode_NE.
Definition abs64 : binary64 -> binary64 := Binary.Babs 53 1024 unop_nan_pl64.
Definition two64 : binary64 := b64_of_bits 4611686018427387904.
Definition lt64 (x y : binary64) : bool := match b64_compare x y with Some Lt => true | _ => false end.

(** preprocessing.py 182-184 [renormalize_labels], min_to_zero: [label * (max - min) + min] *)
Definition b64_restore (lo hi y : binary64) : binary64 := add64 (mul64 y (sub64 hi lo)) lo.

(** minimizer.py 39-40: the limits of the fit for one start value, [val - bound * abs(val)] and [val + bound * abs(val)] *)
Definition b64_limits (bound v : binary64) : binary64 * binary64 :=
  (sub64 v (mul64 bound (abs64 v)), add64 v (mul64 bound (abs64 v))).

(** distributions.py 64-72 [_fold_distribution] for one value *)
Definition b64_fold (lo hi v : binary64) : binary64 :=
  if lt64 v lo then add64 v (mul64 two64 (sub64 lo v))
  else if lt64 hi v then add64 v (mul64 two64 (sub64 hi v))
  else v.

(** distributions.py 47-48: [int(np.floor(n_samples * bolster_fraction / 2))] and the number of uniform values;
    [f] is the value of a finite number, products do not overflow for numbers of samples up to 2^53. *)
Definition b64_bolster (n : nat) (f : R) : Z := Zfloor (rnd64 (rnd64 (INR n * f) / 2)).
Definition b64_uniform (n : nat) (f : R) : Z := (Z.of_nat n - 2 * b64_bolster n f)%Z.

(** interpolation.py 6: [np.interp] between two neighbouring points: [slope * (x - x0) + y0] *)
Definition b64_slope (x0 y0 x1 y1 : binary64) : binary64 := div64 (sub64 y1 y0) (sub64 x1 x0).
Definition b64_between (x0 y0 x1 y1 x : binary64) : binary64 := add64 (mul64 (b64_slope x0 y0 x1 y1) (sub64 x x0)) y0.

(** normalization.py 5-6 [normalize_to_max], given the value of [np.max] *)
Definition b64_normalize_to (m : binary64) (l : list binary64) : list binary64 := map (fun x => div64 x m) l.
