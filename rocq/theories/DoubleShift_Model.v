(** Shifted q values in IEEE binary64 arithmetic (Flocq).
    Sources: /repo/mlreflect/curve_fitter/minimizer.py 10; curve_fitter.py 79. *)
From Coq Require Import List.
From Flocq Require Import Core IEEE754.Binary IEEE754.Bits.
From Verif Require Import Float64 Double_Model.

(** minimizer.py 10: one row of [shifted_qs]; curve_fitter.py 79: [q_values + dq] *)
Definition b64_shifted (d : binary64) (q : list binary64) : list binary64 := map (fun x => add64 x d) q.
