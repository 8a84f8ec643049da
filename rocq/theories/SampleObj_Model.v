(** Sample objects with their class: type checks, indexing, copying and restoring.
    Source: /repo/mlreflect/data_generation/multilayer.py.  The two classes differ in [add_layer] only. *)
From Verif Require Import Py Str Sample_Model SampleRef_Model.

(** An argument where a layer is expected: an instance of [Layer] (all layer classes are subclasses, layers.py 102, 155,
    188) or something else *)
Inductive arg := ALayer (l : layer) | AOther.
(** The two classes of sample objects *)
Inductive sclass := CMultilayer | CLayerOnSubstrate.
Record sobj := mkObj { o_class : sclass; o_struct : structure }.

(** multilayer.py 16-19: the constructor of both classes *)
Definition obj_new (c : sclass) : sobj := mkObj c empty_structure.
Definition obj_with (o : sobj) (s : structure) : sobj := mkObj (o_class o) s.

(** multilayer.py 143-146: [_check_layer_type] *)
Definition check_layer_type (x : arg) : res layer := match x with ALayer l => Ok l | AOther => Raise ValueError end.

(** multilayer.py 29-32: [set_ambient_layer] *)
Definition obj_set_ambient (o : sobj) (x : arg) : sobj * option exn :=
  match check_layer_type x with Raise e => (o, Some e) | Ok l => (obj_with o (set_ambient (o_struct o) l), None) end.
(** multilayer.py 34-37: [set_substrate] *)
Definition obj_set_substrate (o : sobj) (x : arg) : sobj * option exn :=
  match check_layer_type x with Raise e => (o, Some e) | Ok l => (obj_with o (set_substrate (o_struct o) l), None) end.

Definition with_films (s : structure) (ls : list layer) : structure := mkStructure (st_ambient s) (st_substrate s) ls.
(** multilayer.py 198, 215: a Layer that is not a ConstantLayer; Substrate and AmbientLayer are subclasses of ConstantLayer *)
Definition not_constant (l : layer) : bool := match l_kind l with KLayer => true | KConstantLayer | KSubstrate | KAmbient => false end.
(** multilayer.py 39-48 and 194-210: [add_layer] of the two classes.  [LayerOnSubstrate.add_layer] has no else branch. *)
Definition obj_add_layer (o : sobj) (x : arg) (i : index_arg) : sobj * option exn :=
  let s := o_struct o in
  match o_class o with
  | CMultilayer =>
      match check_layer_type x with
      | Raise e => (o, Some e)
      | Ok l => let '(ls, e) := add_layer (st_layers s) l i in (obj_with o (with_films s ls), e)
      end
  | CLayerOnSubstrate =>
      match x with
      | AOther => (o, None)
      | ALayer l => let '(ls, e) := los_add_layer not_constant (st_layers s) l i in (obj_with o (with_films s ls), e)
      end
  end.

(** multilayer.py 91-92: the loop of [from_dict], with the [add_layer] of the class *)
Fixpoint obj_add_dicts (o : sobj) (ds : list ldict) : sobj * option exn :=
  match ds with
  | [] => (o, None)
  | d :: ds' =>
      match layer_of_dict d with
      | Raise e => (o, Some e)
      | Ok l =>
          match obj_add_layer o (ALayer l) INext with
          | (o', None) => obj_add_dicts o' ds'
          | (o', Some e) => (o', Some e)
          end
      end
  end.
(** multilayer.py 87-92: [from_dict] *)
Definition obj_from_dict (o : sobj) (d : sdict) : sobj * option exn :=
  match ambient_of_dict (sd_ambient d) with
  | Raise e => (o, Some e)
  | Ok a =>
      match obj_set_ambient o (ALayer a) with
      | (o1, Some e) => (o1, Some e)
      | (o1, None) =>
          match substrate_of_dict (sd_substrate d) with
          | Raise e => (o1, Some e)
          | Ok b =>
              match obj_set_substrate o1 (ALayer b) with
              | (o2, Some e) => (o2, Some e)
              | (o2, None) => obj_add_dicts o2 (rev (sd_layers d))
              end
          end
      end
  end.

(** multilayer.py 94-95, 162-168: [copy]; the copy is a MultilayerStructure whatever the class of the original *)
Definition obj_copy (o : sobj) : res sobj := s <- structure_copy (o_struct o) ;; Ok (mkObj CMultilayer s).

(** multilayer.py 170-180: [__getitem__] with an integer, [__len__], iteration, and [bool(sample)] (decided by [__len__]) *)
Definition obj_get (o : sobj) (i : Z) : res layer := py_get (sample_structure (o_struct o)) i.
Definition obj_slice (o : sobj) (lo hi : option Z) : list layer := py_slice (sample_structure (o_struct o)) lo hi.
Definition obj_len (o : sobj) : nat := List.length (sample_structure (o_struct o)).
Definition obj_iter (o : sobj) : list layer := sample_structure (o_struct o).
Definition obj_bool (o : sobj) : bool := negb (Nat.eqb (obj_len o) 0).

(** multilayer.py 212-218: [has_variable_layer]; without layers the loop does not return anything (None) *)
Definition obj_has_variable (o : sobj) : option bool :=
  match st_layers (o_struct o) with [] => None | l :: _ => Some (not_constant l) end.

(** Everything that can be done to a sample object through its methods; exceptions are caught by the caller *)
Inductive sop := SSetAmbient (x : arg) | SSetSubstrate (x : arg) | SAdd (x : arg) (i : index_arg) | SFromDict (d : sdict).
Definition obj_step (o : sobj) (p : sop) : sobj * option exn :=
  match p with
  | SSetAmbient x => obj_set_ambient o x
  | SSetSubstrate x => obj_set_substrate o x
  | SAdd x i => obj_add_layer o x i
  | SFromDict d => obj_from_dict o d
  end.
Definition obj_run (o : sobj) (ps : list sop) : sobj := fold_left (fun o p => fst (obj_step o p)) ps o.
