(** Vocabulary for statements about networks. *)
From Coq Require Import Reals.
From Coquelicot Require Import Complex.
From Verif Require Import Py Str Sample_Model TrainedModel_Model Preproc_Model Arr Noise_Spec Fitter_Model Trainer_Model Network_Model.
Local Open Scope R_scope.

(** [net] is a network with the layers [specs] for [n] inputs. *)
Fixpoint built (n : nat) (specs : list layer_spec) (net : network) : Prop :=
  match specs, net with
  | [], [] => True
  | DenseUnits k :: specs, Dense us :: net => List.length us = k /\ Forall (fun u => List.length (fst u) = n) us /\ built k specs net
  | ReluUnits :: specs, Relu :: net => built n specs net
  | _, _ => False
  end.
(** The number of variable parameters of a sample *)
Definition variable_count (s : structure) (n : nat) : Prop :=
  exists ps, all_params s = Ok ps /\ n = List.length (filter (fun p => negb (is_const p)) ps).
(** keras' fit changes the weights of a network but not its layers. *)
Definition keeps_layers {S A} (fit : network -> A -> S -> res (S * network)) : Prop :=
  forall n specs net a s s' net', built n specs net -> fit net a s = Ok (s', net') -> built n specs net'.
(** [m] is the curve fitter for the trained model [tm], whose network has [n] outputs. *)
Definition fitter_for (tm : @trained_model network (list fl)) (n : nat) (m : nn_model) : Prop :=
  nn_sample m = tm_sample tm /\ map Some (nn_q m) = tm_q tm /\ nn_mean m = tm_mean tm /\ nn_std m = tm_std tm /\
  nn_out m = n /\ nn_predict m = predict (tm_keras tm).

(** The values of a row, all finite *)
Definition finite_row (r : list fl) (xs : list R) : Prop := r = map Some xs.
(** The outputs of a batch as columns of a label array *)
Definition output_columns (n : nat) (out : list (list fl)) : list (list cell) :=
  map (fun j => map (fun r => option_map RtoC (nth j r None)) out) (seq 0 n).

(** A factor by which no dense layer can be exceeded: the largest sum of absolute weights of a unit *)
Definition unit_gain (u : list R * R) : R := fold_right (fun w acc => Rabs w + acc) 0 (fst u).
Definition layer_gain (l : layer) : R := match l with Dense us => fold_right (fun u acc => Rmax (unit_gain u) acc) 0 us | Relu => 1 end.
Definition gain (net : network) : R := fold_right (fun l acc => layer_gain l * acc) 1 net.
(** Corresponding entries differ by at most [e]. *)
Definition close (e : R) (xs ys : list R) : Prop := Forall2 (fun x y => Rabs (x - y) <= e) xs ys.

(** [noisy] arises from the curves [rows] by a factor between 0.9 and 1.1 for each point, and then another one for each curve. *)
Definition perturbed (m : nat) (rows noisy : list (list fl)) : Prop :=
  exists mid ks, Forall2 (point_factors (9 / 10) (11 / 10)) rows mid /\ Forall (fun k => 9 / 10 <= k <= 11 / 10) ks /\ scaled_by ks (A2 m mid) (A2 m noisy).
