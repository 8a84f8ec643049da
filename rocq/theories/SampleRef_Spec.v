(** Vocabulary for statements about layer lists and object identity. *)
From Verif Require Import Py Str Sample_Model SampleRef_Model.

(** Position at which Python's list.insert puts the element. *)
Definition insert_pos (n : nat) (i : Z) : nat :=
  if (i <? 0)%Z then Z.to_nat (Z.max 0 (Z.of_nat n + i)) else Nat.min (Z.to_nat i) n.

(** Calls that never put a layer below the bottom one. *)
Definition above_bottom {A} (c : A * index_arg) : Prop :=
    match snd c with INext => True | IInt i => (1 <= i)%Z | IOther => True end.

Definition one_variable {A} (variable : A -> bool) (ls : list A) : Prop :=
    exists v rest, ls = v :: rest /\ variable v = true /\ Forall (fun x => variable x = false) rest.

Definition valid_addrs (h : heap) (r : rstruct) : Prop :=
  r_ambient r < List.length h /\ r_substrate r < List.length h /\ Forall (fun a => a < List.length h) (r_layers r).
Definition addrs (r : rstruct) : list nat := r_ambient r :: r_substrate r :: r_layers r.

(** A layer that is neither constant nor substrate nor ambient *)
Definition is_variable (l : layer) : bool := match l_kind l with KLayer => true | _ => false end.
