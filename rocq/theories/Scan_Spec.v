(** Vocabulary for loaded scans. *)
From Coq Require Import Reals Lra.
From Verif Require Import Py Arr Footprint_Spec Scan_Model.
Local Open Scope R_scope.

(** Given footprint parameters are positive (absent ones switch the correction off) *)
Definition geometry_ok (s : scan) : Prop :=
  (forall b, sc_beam s = Some b -> 0 < b) /\ (forall l, sc_sample s = Some l -> 0 < l).
(** Points [j] and [j+1] were measured at the same angle (where the attenuator is changed) *)
Definition same_angle (A : list fl) (j : nat) : Prop :=
  exists x, nth_error A j = Some (Some x) /\ nth_error A (j + 1) = Some (Some x).

(** The scan with other raw intensities *)
Definition with_raw (s : scan) (raw : list fl) : scan :=
  mkScan (sc_number s) (sc_angle s) raw (sc_wavelength s) (sc_beam s) (sc_sample s) (sc_shape s) (sc_norm s) (sc_time s).

(** The measured points from number [lo] to before number [hi] lie between the limits of q: from the point closest to the lower limit
    to before the point closest to the upper limit; without a limit from the first one, or to the last one *)
Definition selected (q : list R) (q_min q_max : option R) (lo hi : nat) : Prop :=
  match q_min with None => lo = 0%nat | Some v => closest q v lo end /\ match q_max with None => hi = List.length q | Some w => closest q w hi end.
