(** Vocabulary about the peak fits, exports and plots of the P08 tools, independent of the code. *)
From Coq Require Import Reals Lra Sorted.
From Verif Require Import Py Str Arr Spec_Model P08_Model P08_Spec P08Scan_Spec ScanFit_Model.
Local Open Scope R_scope.
Local Open Scope string_scope.

(** Numbers as array entries, and a function on all points *)
Definition points (xs : list R) : list fl := map Some xs.
Definition graph (f : R -> R) (xs : list R) : list fl := map (fun x => Some (f x)) xs.

(** A Gaussian peak of standard deviation [s] around [m], with integral [i] *)
Definition gauss_peak (s m i x : R) : R := i / (Rabs s * sqrt (2 * PI)) * exp (- ((x - m) * (x - m)) / (2 * (s * s))).
(** The resonance curve of an oscillator with frequency [w] and damping [g], scaled by [i] *)
Definition resonance (w g i x : R) : R := i / ((x * x - w * w) * (x * x - w * w) + (g * w) * (g * w)).
(** A sum of a Gaussian and a resonance at the same position: position, Gaussian intensity and width, other intensity and width *)
Definition voigt_like (p gi gw li lw x : R) : R := gauss_peak gw p gi x + resonance p lw li x.

(** Gaussian peaks: width, position, intensity *)
Definition gaussian := (R * R * R)%type.
Definition g_width (g : gaussian) : R := fst (fst g).
Definition g_value (g : gaussian) (x : R) : R := let '(s, m, i) := g in gauss_peak s m i x.
Definition g_params (g : gaussian) : list R := let '(s, m, i) := g in [s; m; i].
(** Mixed peaks: position, Gaussian intensity and width, other intensity and width *)
Definition voigtian := (R * R * R * R * R)%type.
Definition v_value (v : voigtian) (x : R) : R := let '(p, gi, gw, li, lw) := v in voigt_like p gi gw li lw x.
Definition v_params (v : voigtian) : list R := let '(p, gi, gw, li, lw) := v in [p; gi; gw; li; lw].
Definition v_ok (v : voigtian) : Prop := let '(p, gi, gw, li, lw) := v in p <> 0 /\ gw <> 0 /\ lw <> 0.
(** The sum of the values of functions *)
Definition total {A} (value : A -> R -> R) (l : list A) (x : R) : R := fold_right (fun a v => value a x + v) 0 l.

(** Plots of curves: two names are drawn dotted *)
Definition line_style (name : string) : string := if String.eqb name "substrate" || String.eqb name "film" then ":" else "-".
Definition shown (name : string) (y : list fl) : string * string * list fl := (name, line_style name, y).

(** The scan has these positions, and the region of the detector's pictures has these attenuated sums. *)
Definition region_data (s : fscan) (det : string) (q : rectangle) (x y : list fl) : Prop :=
  (forall kv, In kv (f_images s) -> attenuation_fits (dict_get String.eqb (f_data s) "atten_position") (stack_size (snd kv))) /\
  (exists imgs, dict_get String.eqb (f_images s) det = Some (S3 imgs) /\ y = attenuated (dict_get String.eqb (f_data s) "atten_position") (sum_in q) imgs) /\
  (exists more, f_positions s = x :: more) /\ f_motor_names s <> [].
(** The first [k] start values of all peaks of a type *)
Definition start_of (type : string) (k : nat) (peaks : list (string * peak)) : list fl :=
  List.concat (map (fun kp => firstn k (pk_params (snd kp))) (filter (fun kp => String.eqb (pk_type (snd kp)) type) peaks)).
Definition names_of (type : string) (peaks : list (string * peak)) : list string :=
  map fst (filter (fun kp => String.eqb (pk_type (snd kp)) type) peaks).
(** The entry [k] of the last peak of the dictionary *)
Definition last_value (k : nat) (peaks : list (string * peak)) (b : fl) : Prop :=
  exists before n p, peaks = (before ++ [(n, p)])%list /\ nth_error (pk_params p) k = Some b.
(** One dotted or solid curve per peak *)
Definition peak_curves {A} (value : A -> R -> R) (b : R) (xs : list R) (names : list string) (ps : list A) : list (string * string * list fl) :=
  map (fun na => shown (fst na) (graph (fun x => value (snd na) x + b) xs)) (combine names ps).
(** Decimal logarithm, and the weight of a point: 1 + h inside the closed interval *)
Definition lg (x : R) : R := ln x / ln 10.
Definition point_weight (lo hi h x : R) : R := if Rle_dec lo x then if Rle_dec x hi then h + 1 else 1 else 1.

(** The scan has an attenuation for every picture, and the detector has these pictures. *)
Definition pictures_of (s : fscan) (det : string) (imgs : list image) : Prop :=
  (forall kv, In kv (f_images s) -> attenuation_fits (dict_get String.eqb (f_data s) "atten_position") (stack_size (snd kv))) /\
  dict_get String.eqb (f_images s) det = Some (S3 imgs).
(** The attenuated sums over a rectangle, and over the whole pictures *)
Definition sums_in (s : fscan) (q : rectangle) (imgs : list image) : list fl := attenuated (dict_get String.eqb (f_data s) "atten_position") (sum_in q) imgs.
Definition sums_all (s : fscan) (imgs : list image) : list fl := attenuated (dict_get String.eqb (f_data s) "atten_position") total_sum imgs.
(** The positions of the motor of that name; the first motor if no name is given *)
Definition motor_column (s : fscan) (name : option string) (n : string) (x : list fl) : Prop :=
  exists k, nth_error (f_motor_names s) k = Some n /\ nth_error (f_positions s) k = Some x /\
    match name with None => k = O | Some m => m = n /\ ~ In m (firstn k (f_motor_names s)) end.
(** Entry by entry *)
Definition entrywise (f : fl -> fl -> fl) (a b : list fl) : list fl := map (fun xy => f (fst xy) (snd xy)) (combine a b).
(** The lines of an exported file *)
Definition text_lines (fmt4 fmt6 : fl -> string) (x y : list fl) : list string := map (fun xy => fmt4 (fst xy) ++ " " ++ fmt6 (snd xy)) (combine x y).
(** The number of pixels of a rectangle *)
Definition pixels (q : rectangle) : nat := let '(l, b, r, t) := q in ((r - l) * (t - b))%nat.
Definition proper (q : rectangle) : Prop := let '(l, b, r, t) := q in (l < r)%nat /\ (b < t)%nat.
Definition per (n : nat) (v : list fl) : list fl := map (fun a => fdiv a (Some (INR n))) v.
(** The background per pixel: zero without a region of that name *)
Definition background_of (s : fscan) (rois : list (string * rectangle)) (imgs : list image) : list fl :=
  match dict_get String.eqb rois "background" with Some q => per (pixels q) (sums_in s q imgs) | None => map (fun _ => Some 0) imgs end.
(** The regions with a panel: all but the background, and the whole picture *)
Definition panel_names (rois : list (string * rectangle)) : list string := "all" :: filter (fun k => negb (String.eqb k "background")) (map fst rois).
Definition in_order (l : list string) : Prop := Sorted (fun a b => String.compare a b <> Gt) l.
