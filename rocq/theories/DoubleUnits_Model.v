(** Rescaled intensities and the units of the radiation in IEEE binary64 arithmetic (Flocq).
    Sources: /repo/mlreflect/training/footprint.py 75-77; /repo/mlreflect/xrrloader/dataloader/transform.py 15-22. *)
From Coq Require Import ZArith List.
From Flocq Require Import Core IEEE754.Binary IEEE754.Bits.
From Verif Require Import Float64 Double_Model.

(** footprint.py 75-77 [normalize_to_max], given the values [m] and [m0] of np.max of the rescaled and of the original intensity *)
Definition b64_rescale (m m0 : binary64) (l : list binary64) : list binary64 := map (fun x => mul64 (div64 x m) m0) l.

(** The double numbers that Python reads for 1.2398 and 1e4 *)
Definition f12398 : binary64 := b64_of_bits 4608262381990660853.
Definition f1e4 : binary64 := b64_of_bits 4666723172467343360.
(** transform.py 15-17 [energy_to_wavelength] and 20-22 [wavelength_to_energy] *)
Definition b64_energy_to_wavelength (energy : binary64) : binary64 := mul64 (div64 f12398 energy) f1e4.
Definition b64_wavelength_to_energy (wavelength : binary64) : binary64 := mul64 (div64 f12398 wavelength) f1e4.
