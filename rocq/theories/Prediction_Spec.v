(** Vocabulary for statements about the evaluation of predictions. *)
From Coq Require Import Reals Lra.
From Verif Require Import Py Str Arr Preproc_Model Preproc_Spec FileFitter_Model Prediction_Model.
Local Open Scope string_scope.
Local Open Scope R_scope.

(** A table: unique column names, all columns as long as the index *)
Definition table_ok (f : iframe) : Prop :=
  NoDup (map fst (if_cols f)) /\ Forall (fun kc => List.length (snd kc) = List.length (if_index f)) (if_cols f).
(** ... whose index has no name, and no column named 'index' *)
Definition unnamed (f : iframe) : Prop := if_name f = None /\ ~ In "index" (map fst (if_cols f)).

(** The rows in which both the true and the predicted value are known *)
Fixpoint known_pairs (truth predicted : list fl) : list (R * R) :=
  match truth, predicted with
  | Some t :: ts, Some p :: ps => (t, p) :: known_pairs ts ps
  | _ :: ts, _ :: ps => known_pairs ts ps
  | _, _ => []
  end.
Definition abs_error (p : R * R) : R := Rabs (fst p - snd p).
Definition rel_error (p : R * R) : R := Rabs (fst p - snd p) / Rabs (fst p).
(** [v] is the mean of [f] over the pairs, NaN if there are none. *)
Definition is_mean (f : R * R -> R) (ps : list (R * R)) (v : xv) : Prop :=
  (ps = [] /\ v = XNaN) \/ (ps <> [] /\ v = XR (avg (map f ps))).
(** The mean relative error: rows with true and predicted value zero do not count; a true value zero predicted otherwise makes it
    infinite. *)
Definition is_mean_rel (ps : list (R * R)) (v : xv) : Prop :=
  ((exists p, In (0, p) ps /\ p <> 0) /\ v = XInf) \/
  ((forall p, In (0, p) ps -> p = 0) /\ exists qs zs, Permutation ps (qs ++ zs) /\ Forall (fun p => fst p <> 0) qs /\ Forall (fun p => fst p = 0) zs /\
     is_mean rel_error qs v).

(** The result [r] for the true labels [f] and the predicted labels [g]: one number per label of either table, [good] for the rows in
    which both are known, and NaN for a label that is in one of the tables only *)
Definition error_table (f g : iframe) (good : list (R * R) -> xv -> Prop) (r : res (list (string * xv))) : Prop :=
  exists out, r = Ok out /\ NoDup (map fst out) /\
    (forall l, In l (map fst out) <-> In l (map fst (if_cols f)) \/ In l (map fst (if_cols g))) /\
    (forall l a b, In (l, a) (if_cols f) -> In (l, b) (if_cols g) -> exists v, In (l, v) out /\ good (known_pairs a b) v) /\
    (forall l, In l (map fst out) -> ~ In l (map fst (if_cols f)) \/ ~ In l (map fst (if_cols g)) -> In (l, XNaN) out).

(** The table that an array with these label names denotes: column [j] holds entry [j] of every row. *)
Definition array_table (names : list string) (rows : list (list fl)) : iframe :=
  mkIframe None (map (fun i => Some (INR i)) (seq 0 (List.length rows)))
           (combine names (map (fun j => map (fun r => nth j r None) rows) (seq 0 (List.length names)))).
Definition denotes (names : list string) (l : plabels) (f : iframe) : Prop :=
  l = PFrame f \/ exists rows, l = PArray (A2 (List.length names) rows) /\ f = array_table names rows.
(** A network with [k] outputs: one row of length [k] per curve *)
Definition predicts (predict : arr -> res arr) (k : nat) : Prop :=
  forall m rows, Forall (fun r => List.length r = m) rows -> exists out, predict (A2 m rows) = Ok (A2 k out) /\ List.length out = List.length rows.

(** A result whose table has the columns [names] and one row of finite numbers *)
Definition complete_result (names : list string) (r : fit_result) : Prop :=
  map fst (fr_cols (r_params r)) = names /\ fr_rows (r_params r) = 1%nat /\ Forall (fun kc => exists z, snd kc = [Some z]) (fr_cols (r_params r)).
