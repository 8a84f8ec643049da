(** Model of interpolation on a logarithmic scale.
    Source: /repo/mlreflect/data_generation/interpolation.py 4-6, with np.interp (numpy 1.18) for increasing grids.
    Exact real arithmetic; the logarithm of 0 is -inf, that of a negative number or NaN is NaN.  An infinite intensity is
    identified with NaN as in Arr.v. *)
From Coq Require Import Reals Lra.
From Verif Require Import Py Arr.
Local Open Scope R_scope.

Definition log10 (x : R) : R := ln x / ln 10.

(** The values of np.log10: NaN, -inf or a number *)
Inductive lg := LNan | LMinf | LFin (y : R).
Definition log_value (x : fl) : lg :=
  match x with
  | None => LNan
  | Some r => if Rlt_dec 0 r then LFin (log10 r) else if Req_EM_T r 0 then LMinf else LNan
  end.
(** [10 ** y] *)
Definition pow10 (y : lg) : fl := match y with LNan => None | LMinf => Some 0 | LFin v => Some (Rpower 10 v) end.

(** np.interp strictly between two points: [slope * (x - x0) + y0], computed from the right point if that is NaN, and the common
    value if that is NaN too.  With a slope of +inf or -inf the result is -inf. *)
Definition segment (x x0 : R) (y0 : lg) (x1 : R) (y1 : lg) : lg :=
  match y0, y1 with
  | LFin a, LFin b => LFin ((b - a) / (x1 - x0) * (x - x0) + a)
  | LNan, _ | _, LNan => LNan
  | _, _ => LMinf
  end.
(** np.interp: [x0 <= x]; the segment containing [x] is searched from the left *)
Fixpoint interp_from (x x0 : R) (y0 : lg) (rest : list (R * lg)) : lg :=
  match rest with
  | [] => y0
  | (x1, y1) :: rest' =>
      if Rlt_dec x x1 then (if Req_EM_T x x0 then y0 else segment x x0 y0 x1 y1) else interp_from x x1 y1 rest'
  end.
Definition interp (pts : list (R * lg)) (x : R) : res lg :=
  match pts with
  | [] => Raise ValueError
  | (x0, y0) :: rest => Ok (if Rlt_dec x x0 then y0 else interp_from x x0 y0 rest)
  end.

(** interpolation.py 4-6: [interp_reflectivity] *)
Definition interp_reflectivity (q_interp q : list R) (reflectivity : list fl) : res (list fl) :=
  if negb (Nat.eqb (List.length q) (List.length reflectivity)) then Raise ValueError
  else if Nat.eqb (List.length q) 0 then Raise ValueError
  else mapM (fun x => y <- interp (combine q (map log_value reflectivity)) x ;; Ok (pow10 y)) q_interp.
