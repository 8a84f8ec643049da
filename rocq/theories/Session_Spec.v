(** Vocabulary for statements about sessions. *)
From Coq Require Import Reals.
From Verif Require Import Py Str Sample_Model TrainedModel_Model Rng Arr Session_Model.

(** A session starts without objects and files, in any random state. *)
Definition start {S K} (s : S) : world S K := mkWorld s [] [] [] [] (fun _ => None).

(** Sample objects do not vanish when they are changed. *)
Definition proper {S} (o : op S) : Prop := match o with OEdit f => forall l, List.length (f l) = List.length l | _ => True end.

(** The operation trains trainer [t]; it leaves the sample at [a] as it is; it does not write to [path] *)
Definition trains {S} (t : nat) (o : op S) : Prop := match o with OTrain t' _ _ _ _ => t' = t | _ => False end.
Definition spares {S} (a : nat) (o : op S) : Prop := match o with OEdit f => forall l, nth_error (f l) a = nth_error l a | _ => True end.
Definition writes {S} (path : string) (o : op S) : Prop := match o with OSave _ p => p = path | _ => False end.

(** The model and trainer [t] have the same network. *)
Definition shares_network {S K} (w : world S K) (t : nat) (c : cmodel) : Prop :=
  exists ct, nth_error (w_trainers w) t = Some ct /\ ct_net ct = cm_net c.

(** The same objects with the same contents; only the random state may differ *)
Definition same_but_rng {S K} (w w' : world S K) : Prop :=
  w_samples w = w_samples w' /\ w_nets w = w_nets w' /\ w_trainers w = w_trainers w' /\ w_models w = w_models w' /\ w_files w = w_files w'.
