(** The distance of two curves in the P08 tools.
    Source: /repo/mlreflect/xrrloader/p08tools/P08ScanTools.py 893-902.  Numbers are exact; logarithms of numbers that are not positive are not finite. *)
From Coq Require Import Reals Lra.
From Verif Require Import Py Arr Footprint_Model Spec_Model ScanFit_Model.
Local Open Scope R_scope.

(** P08ScanTools.py 893-902: [diff_func] for one-dimensional arrays *)
Definition diff_func (a b : list fl) : res fl := d <- vec_op fsub (map flog10 a) (map flog10 b) ;; Ok (fsum (map fabs d)).
