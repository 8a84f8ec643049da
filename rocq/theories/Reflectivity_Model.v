(** Model of the built-in reflectivity engine.
    Source: /repo/mlreflect/data_generation/reflectivity.py.
    Exact real and complex arithmetic stands for numpy's double precision (no rounding, no overflow). *)
From Coq Require Import Reals Lra.
From Coquelicot Require Import Complex.
From Verif Require Import Py Cplx.
Local Open Scope R_scope.

(** reflectivity.py 5 *)
Definition DELTA : C := (0, / 10 ^ 30).

(** reflectivity.py 103-106: [_get_relative_k_z], one q value; [k] is k_z0. *)
Definition relative_kz (k s : C) : C := Csqrt (k * k - 4 * PI * s)%C.

(** reflectivity.py 129-141: [_safe_div], one element *)
Definition safe_div (num den : C) : C :=
  if Ceq_dec num den then 1
  else if Ceq_dec den 0 then (num / RtoC (/ 10 ^ 20))%C
  else (num / den)%C.

(** 2x2 matrices [[m00, m01], [m10, m11]] *)
Record mat := mkMat { m00 : C; m01 : C; m10 : C; m11 : C }.
Definition matmul (a b : mat) : mat := mkMat
  (m00 a * m00 b + m01 a * m10 b)%C (m00 a * m01 b + m01 a * m11 b)%C
  (m10 a * m00 b + m11 a * m10 b)%C (m10 a * m01 b + m11 a * m11 b)%C.

(** reflectivity.py 109-119: [_make_reflection_matrix], one q value *)
Definition reflection_matrix (k k' : C) (sigma : R) : mat :=
  let s := RtoC sigma in let half := RtoC (/ 2) in
  let p := (safe_div (k + k') (2 * k) * Cexp (- ((k - k') * (k - k')) * half * (s * s)))%C in
  let m := (safe_div (k - k') (2 * k) * Cexp (- ((k + k') * (k + k')) * half * (s * s)))%C in
  mkMat p m m p.

(** reflectivity.py 122-126: [_make_translation_matrix], one q value *)
Definition translation_matrix (k : C) (d : R) : mat :=
  mkMat (Cexp (- Ci * k * RtoC d)%C) 0 0 (Cexp (Ci * k * RtoC d)%C).

(** reflectivity.py 64-90: the loop over the interfaces after the first, from top to bottom.  [kp] is the wave vector in the
    layer above the next interface. *)
Fixpoint interfaces (k0 : C) (M : mat) (kp : C) (ts rs : list R) (ss : list C) : mat :=
  match ts, rs, ss with
  | t :: ts', r :: rs', s :: ss' =>
      let kn := relative_kz k0 s in
      interfaces k0 (matmul (matmul M (translation_matrix kp t)) (reflection_matrix kp kn r)) kn ts' rs' ss'
  | _, _, _ => M
  end.

(** reflectivity.py 92-97: amplitude and clipped intensity.  numpy divides a non-zero number by complex zero to an infinite
    value, which is clipped to 1; zero by zero is NaN ([None]). *)
Definition intensity (M : mat) : option R :=
  if Ceq_dec (m11 M) 0 then (if Ceq_dec (m01 M) 0 then None else Some 1)
  else Some (Rmin (Cmod (m01 M / m11 M)%C ^ 2) 1).

(** reflectivity.py 8-100: [multilayer_reflectivity].  The matrices for the different q values are independent of each other,
    so the model handles one q value after the other. *)
Definition one_q (ts rs : list R) (ss : list C) (amb : C) (q : R) : option R :=
  let k0 := (RtoC q / 2)%C in
  match rs, ss with
  | r :: rs', s :: ss' =>
      let ka := relative_kz k0 amb in let kn := relative_kz k0 s in
      intensity (interfaces k0 (reflection_matrix ka kn r) kn ts rs' ss')
  | _, _ => None
  end.

Definition multilayer_reflectivity (qs thickness roughness : list R) (sld : list C) (ambient : C) : res (list (option R)) :=
  if Ceq_dec ambient 0 then
    let ts := rev thickness in let rs := rev roughness in
    let ss := map (fun s => s + DELTA)%C (rev sld) in
    if Nat.eqb (List.length ts + 1) (List.length rs) && Nat.eqb (List.length rs) (List.length ss)
    then Ok (map (one_q ts rs ss (ambient + DELTA)%C) qs)
    else Raise ValueError
  else Raise NotImplementedError.
