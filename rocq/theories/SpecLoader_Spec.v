(** Vocabulary for loading scans: cropped scans, the accepted scans of a request, entries of a row by column name. *)
From Coq Require Import Reals Lra.
From Verif Require Import Py Str Arr Scan_Model.
Local Open Scope R_scope.
Local Open Scope string_scope.

(** All but the first [f] and the last [b] elements *)
Definition crop {A} (f b : nat) (l : list A) : list A := skipn f (firstn (List.length l - b) l).
Definition cropped (f b : nat) (s : scan) : scan :=
  mkScan (sc_number s) (crop f b (sc_angle s)) (crop f b (sc_raw s)) (sc_wavelength s) (sc_beam s) (sc_sample s) (sc_shape s) (sc_norm s) (sc_time s).

(** The results of the accepted requests, in order; the others are rejected as "not a reflectivity scan". *)
Inductive accepted {A} (load : Z -> res A) : list Z -> list A -> Prop :=
| accepted_nil : accepted load [] []
| accepted_yes n ns s l : load n = Ok s -> accepted load ns l -> accepted load (n :: ns) (s :: l)
| accepted_no n ns l : load n = Raise NotReflectivityScanError -> accepted load ns l -> accepted load (n :: ns) l.

(** The number in the column with a given name *)
Definition value (names : list string) (row : list fl) (name : string) : fl :=
  match find (fun nx => String.eqb name (fst nx)) (combine names row) with Some (_, x) => x | None => None end.
(** A sum of absolute values; an angle of zero is stored as 1e-6. *)
Definition abs_sum (l : list fl) : fl := fsum (map (option_map Rabs) l).
Definition nonzero (a : fl) : fl :=
  match a with Some x => if Req_EM_T x 0 then Some (1 / 1000000) else Some x | None => None end.
