(** Vocabulary for statements about training. *)
From Coq Require Import Reals.
From Verif Require Import Py Arr.
Local Open Scope R_scope.

(** One finished epoch: the network after it, the learning rate it was trained with, and its validation loss (None: nan or infinite) *)
Record done (K : Type) := mkDone { e_net : K; e_lr : R; e_val : fl }.
Arguments mkDone {K}. Arguments e_net {K}. Arguments e_lr {K}. Arguments e_val {K}.

(** Every epoch continues with the network of the one before, with the learning rates that are listed. *)
Inductive epochs_from {S K : Type} (epoch : S -> K -> R -> S * (K * fl)) : S -> K -> list (done K) -> S -> K -> Prop :=
  | run_nil s k : epochs_from epoch s k [] s k
  | run_cons s k lr s1 k1 v es s2 k2 : epoch s k lr = (s1, (k1, v)) -> epochs_from epoch s1 k1 es s2 k2 -> epochs_from epoch s k (mkDone k1 lr v :: es) s2 k2.

(** Epoch [i] is the first one with the lowest loss. *)
Definition first_best (vs : list fl) (i : nat) : Prop := exists v, nth_error vs i = Some (Some v) /\
  (forall j w, nth_error vs j = Some (Some w) -> v <= w) /\ (forall j w, (j < i)%nat -> nth_error vs j = Some (Some w) -> v < w).
Definition no_loss (vs : list fl) : Prop := forall v, In v vs -> v = None.
(** The learning rates [lrs] before the epochs with the losses [vs] and after the last one: *)
(** a rate changes only by being halved, after ten epochs none of which was better than an earlier one by more than 1e-4 *)
Definition halved_on_plateaus (vs : list fl) (lrs : list R) : Prop := forall i a b, nth_error lrs i = Some a -> nth_error lrs (S i) = Some b -> b <> a ->
  b = a / 2 /\ (9 <= i)%nat /\ forall j w, (i - 9 <= j <= i)%nat -> nth_error vs j = Some (Some w) ->
    exists u v, (u < i - 9)%nat /\ nth_error vs u = Some (Some v) /\ v - / 10000 <= w.
(** and ten epochs none of which is better than an earlier one lead to a smaller rate. *)
Definition plateaus_halved (vs : list fl) (lrs : list R) : Prop := forall i u v a b, (u < i)%nat -> nth_error vs u = Some (Some v) ->
  (forall j w, (i <= j < i + 10)%nat -> nth_error vs j = Some (Some w) -> v <= w) -> nth_error lrs i = Some a -> nth_error lrs (i + 10) = Some b -> b < a.
