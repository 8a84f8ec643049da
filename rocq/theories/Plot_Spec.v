(** Vocabulary for statements about plots. *)
From Coq Require Import Reals.
From Coquelicot Require Import Complex.
From Verif Require Import Py Str Sample_Model Sample_Spec Arr Footprint_Model Scan_Model Scan_Spec Preproc_Model Preproc_Spec Simulation_Model Fitter_Model Fitter_Spec FitterValue_Spec Plot_Model.
Local Open Scope R_scope.
Local Open Scope string_scope.

(** The name of a scattering length density *)
Definition sld_label (s : structure) (k : string) : Prop := exists l, In l (all_layers s) /\ k = l_name l ++ "_" ++ "sld".
(** The unit of a label *)
Definition right_unit (s : structure) (sld_unit : string) (k u : string) : Prop :=
  (length_label s k /\ u = "Å") \/ (sld_label s k /\ u = sld_unit).
Definition newline : string := String (Ascii.ascii_of_nat 10) "".
(** One line of the annotation *)
Definition entry (fmt1 : fl -> string) (k : string) (v : R) (u : string) : string := k ++ ": " ++ fmt1 (Some v) ++ " " ++ u ++ newline.
Definition lines_of (l : list string) : string := fold_right append "" l.
(** Numbers with constant positive distance *)
Definition equidistant (l : list Z) : Prop :=
  exists a d : Z, (0 < d)%Z /\ forall i z, nth_error l i = Some z -> z = (a + Z.of_nat i * d)%Z.

(** A scan that can be plotted: as many intensities as angles, at least one point *)
Definition plottable (erf : R -> R) (s : scan) : Prop :=
  List.length (sc_raw s) = List.length (sc_angle s) /\ sc_angle s <> [] /\ (exists q, scan_q s = Ok q) /\ exists c, corrected_intensity erf s = Ok c.
(** The line shows the values [y] over q for the consecutive points of the scan between the limits; all points without limits. *)
Definition shows_values (q_min q_max : option R) (s : scan) (label : string) (y : list fl) (ln : line fl fl) : Prop :=
  exists q lo n, scan_q s = Ok q /\ ln = mkLine fl fl label (firstn n (skipn lo q)) (firstn n (skipn lo y)) /\
    (q_min = None -> q_max = None -> ln_x ln = q /\ ln_y ln = y) /\ (forall p, q = map Some p -> exists hi, selected p q_min q_max lo hi /\ n = (hi - lo)%nat).
(** The line shows the corrected intensity under the number of the scan. *)
Definition shows (erf : R -> R) (show_z : Z -> string) (q_min q_max : option R) (s : scan) (ln : line fl fl) : Prop :=
  exists c, corrected_intensity erf s = Ok c /\ shows_values q_min q_max s (show_z (sc_number s)) c ln.
