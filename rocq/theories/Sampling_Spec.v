(** Vocabulary for statements about sampling and generated labels. *)
From Coq Require Import Reals Lra.
From Coquelicot Require Import Complex.
From Verif Require Import Py Str Sample_Model Sample_Spec Rng Sampling_Model.
Local Open Scope string_scope.
Local Open Scope R_scope.

Definition between (lo hi x : R) : Prop := lo <= x <= hi.

(** [y] is [x] reflected once at the limit that it exceeds. *)
Definition reflected (lo hi x y : R) : Prop :=
  (x < lo /\ y = 2 * lo - x) \/ (lo <= x <= hi /\ y = x) \/ (hi < x /\ y = 2 * hi - x).

(** A drawn value fits a parameter: it is the constant, or real and imaginary part lie in the respective range. *)
Definition fits (p : param) (c : C) : Prop :=
  match p with
  | Const v _ => c = (num_re v, num_im v)
  | Range lo hi _ =>
      between (num_re lo) (num_re hi) (fst c) /\
      between (Rmin (num_im lo) (num_im hi)) (Rmax (num_im lo) (num_im hi)) (snd c)
  end.

(** The distribution cannot leave its range: uniform or logarithmic, or bolstered with normal draws that stay within one
    span of the limits ([k] standard deviations of width [width * span]).  For default arguments (width 0.1) that means
    that no draw lies more than ten standard deviations from its centre. *)
Definition tame {S} (g : rng S) (dp : dparams) : Prop :=
  dp_type dp = "bolstered" -> exists k, 0 <= k /\ tails_within g k /\ k * dp_width dp <= 1.

(** Roughness [r] belongs to a row with thickness [t] and roughness parameter [p]: within its own range, and not above half
    the thickness unless the minimum roughness is, in which case it is the minimum. *)
Definition coupled (p : param) (t r : R) : Prop :=
  between (num_re (p_min p)) (num_re (p_max p)) r /\
  (r <= t / 2 \/ (t / 2 < num_re (p_min p) /\ r = num_re (p_min p))).

(** Distribution settings that never raise. *)
Definition safe_dist (dp : dparams) : Prop :=
  dp_type dp = "uniform" \/ (dp_type dp = "bolstered" /\ 0 <= dp_fraction dp <= 1 /\ 0 <= dp_width dp).

(** The column [c] of a parameter in a table with [n] rows: [n] values that fit the parameter. *)
Definition fitting_column (n : Z) (p : param) (c : list C) : Prop :=
  List.length c = Z.to_nat n /\ Forall (fits p) c.
