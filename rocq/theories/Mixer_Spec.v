(** Vocabulary for C181. *)
From Coq Require Import Reals.
From Verif Require Import Py Sample_Model Rng Sampling_Model Simulation_Model Mixer_Model.
Local Open Scope R_scope.

(** The calls of add_model: a sample and an optional weight *)
Definition mixer_call := (structure * option R)%type.
Definition mixer_after (q : list R) (cs : list mixer_call) : mixer := fold_left (fun m c => add_model m (fst c) (snd c)) cs (mixer_new q).
(** [ps] are probabilities in the ratio of the weights [ws]. *)
Definition total (l : list R) : R := fold_right Rplus 0 l.
Definition in_ratio (ws ps : list R) : Prop :=
  List.length ps = List.length ws /\ total ps = 1 /\ forall i w p, nth_error ws i = Some w -> nth_error ps i = Some p -> p * total ws = w.
