(** Standardisation and the probabilities of a ModelMixer in IEEE binary64 arithmetic (Flocq).
    Sources: /repo/mlreflect/training/preprocessing.py 45, 58, 65-66; /repo/mlreflect/data_generation/model_mixer.py 44. *)
From Coq Require Import Reals ZArith List.
From Flocq Require Import Core IEEE754.BinarySingleNaN IEEE754.Binary IEEE754.Bits.
From Verif Require Import Float64 Double_Model DoubleMse_Model.
Import ListNotations.

(** preprocessing.py 45, 58: [(data - mean) / std] for one entry *)
Definition b64_standardize (mean std x : binary64) : binary64 := div64 (sub64 x mean) std.
(** preprocessing.py 65-66: [standardized * std + mean] *)
Definition b64_revert (mean std y : binary64) : binary64 := add64 (mul64 y std) mean.

(** model_mixer.py 44: [np.array(weights) / sum(weights)]; [sum] adds from left to right and starts with the integer 0, which changes nothing. *)
Definition left_sum (l : list binary64) : sum_order := match l with [] => Start | x :: l' => fold_left (fun o y => Plus o (Entry y)) l' (Entry x) end.
Definition b64_probabilities (weights : list binary64) : list binary64 := let s := sum64 (left_sum weights) in map (fun w => div64 w s) weights.
