(** Vocabulary for sample objects. *)
From Verif Require Import Py Str Sample_Model Sample_Spec SampleRef_Model SampleObj_Model.

(** A layer whose parameters may vary *)
Definition variable_layer (l : layer) : Prop := l_kind l = KLayer.

(** Calls that put a layer of the right class in each place: an ambient layer with an SLD only, a substrate without
    thickness, film layers with all three parameters, dictionaries written by [to_dict]. *)
Definition right_class (p : sop) : Prop :=
  match p with
  | SSetAmbient (ALayer l) => ambient_layer l
  | SSetSubstrate (ALayer l) => substrate_layer l
  | SAdd (ALayer l) _ => film_layer l
  | SFromDict d => exists s, storable_sample s /\ to_dict s = Ok d
  | _ => True
  end.
