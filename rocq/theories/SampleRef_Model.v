(** Object-identity level model of the layer list operations.
    Source: /repo/mlreflect/data_generation/multilayer.py.
    Layer objects live in a heap; a structure holds addresses.  [list.remove] compares by identity because the layer
    classes define no [__eq__].  Parameters are stored by value: [Layer.__init__] copies every Parameter it is given
    (layers.py 76), so two layers never share a Parameter object. *)
From Verif Require Import Py Str Sample_Model.

(** An index argument: an [int], the string 'next', or anything else (bool, float, None, other strings). *)
Inductive index_arg := INext | IInt (i : Z) | IOther.

(** multilayer.py 43-48, 205-210: [add_layer] after the type check; the layer list after the call and the exception *)
Definition add_layer {A} (ls : list A) (x : A) (i : index_arg) : list A * option exn :=
  match i with
  | INext => (ls ++ [x], None)
  | IInt i => (py_insert ls i x, None)
  | IOther => (ls, Some ValueError)
  end.

(** multilayer.py 54-61: [swap_layers]; [None] stands for an argument whose type is not int. *)
Definition swap_layers {A} (ls : list A) (from to : option Z) : list A * option exn :=
  match from, to with
  | Some f, Some t =>
      match py_get ls t with
      | Raise e => (ls, Some e)
      | Ok swapped =>
          match py_get ls f with
          | Raise e => (ls, Some e)
          | Ok v =>
              match py_set ls t v with
              | Raise e => (ls, Some e)
              | Ok ls1 =>
                  match py_set ls1 f swapped with
                  | Raise e => (ls1, Some e)
                  | Ok ls2 => (ls2, None)
                  end
              end
          end
      end
  | _, _ => (ls, Some ValueError)
  end.

(** multilayer.py 63-74: [move_layer] on a list of object addresses *)
Definition move_layer (ls : list nat) (from to : option Z) : list nat * option exn :=
  match from, to with
  | Some f, Some t =>
      if (f <? t)%Z then
        match py_get ls f with
        | Raise e => (ls, Some e)
        | Ok x =>
            let ls1 := py_insert ls (t + 1) x in
            match py_get ls1 f with
            | Raise e => (ls1, Some e)
            | Ok y =>
                match py_remove Nat.eqb ls1 y with
                | Raise e => (ls1, Some e)
                | Ok ls2 => (ls2, None)
                end
            end
        end
      else if (t <? f)%Z then
        match py_get ls f with
        | Raise e => (ls, Some e)
        | Ok x =>
            match py_remove Nat.eqb ls x with
            | Raise e => (ls, Some e)
            | Ok ls1 => (py_insert ls1 t x, None)
            end
        end
      else (ls, None)
  | _, _ => (ls, Some ValueError)
  end.

(** ** LayerOnSubstrate: multilayer.py 183-223.  [variable x] = "x is a Layer but not a ConstantLayer". *)

(** multilayer.py 212-218: [has_variable_layer]; the loop returns in its first iteration; falling off the end gives
    None, which is false. *)
Definition has_variable_layer {A} (variable : A -> bool) (ls : list A) : bool :=
  match ls with [] => false | l :: _ => variable l end.

(** multilayer.py 194-202: [LayerOnSubstrate.add_layer] for a layer object *)
Definition los_add_layer {A} (variable : A -> bool) (ls : list A) (x : A) (i : index_arg) : list A * option exn :=
  if variable x then
    if has_variable_layer variable ls then (ls, Some ValueError) else add_layer ls x i
  else add_layer ls x i.

(** A sequence of calls, ignoring raised exceptions (the caller catches them). *)
Definition los_run {A} (variable : A -> bool) (ls : list A) (calls : list (A * index_arg)) : list A :=
  fold_left (fun ls c => fst (los_add_layer variable ls (fst c) (snd c))) calls ls.

(** ** Heap *)

Definition heap := list layer.
Record rstruct := mkR { r_ambient : nat; r_substrate : nat; r_layers : list nat }.

Fixpoint derefs (h : heap) (as_ : list nat) : option (list layer) :=
  match as_ with
  | [] => Some []
  | a :: as' => match nth_error h a, derefs h as' with Some l, Some ls => Some (l :: ls) | _, _ => None end
  end.

(** The structure a reference structure denotes in a heap. *)
Definition view (h : heap) (r : rstruct) : option structure :=
  match nth_error h (r_ambient r), nth_error h (r_substrate r), derefs h (r_layers r) with
  | Some a, Some b, Some ls => Some (mkStructure a b ls)
  | _, _, _ => None
  end.

(** [layer.copy()] as an allocation *)
Definition copy_at (h : heap) (a : nat) : res (heap * nat) :=
  match nth_error h a with
  | None => Raise NameError (* dangling address: excluded by the theorems *)
  | Some l => l' <- layer_copy l ;; Ok (h ++ [l'], List.length h)
  end.

Fixpoint copy_all (h : heap) (as_ : list nat) : res (heap * list nat) :=
  match as_ with
  | [] => Ok (h, [])
  | a :: as' =>
      '(h1, a1) <- copy_at h a ;;
      '(h2, as2) <- copy_all h1 as' ;;
      Ok (h2, a1 :: as2)
  end.

(** multilayer.py 162-168: [__copy__].  The default layers that [MultilayerStructure()] allocates and that are replaced
    at once are not allocated here. *)
Definition copy_structure (h : heap) (r : rstruct) : res (heap * rstruct) :=
  '(h1, a) <- copy_at h (r_ambient r) ;;
  '(h2, b) <- copy_at h1 (r_substrate r) ;;
  '(h3, ls) <- copy_all h2 (r_layers r) ;;
  Ok (h3, mkR a b ls).

(** In-place change of a layer object (renaming, changing a parameter) *)
Definition update (h : heap) (a : nat) (f : layer -> layer) : heap :=
  match nth_error h a with Some l => set_nth h a (f l) | None => h end.

Definition set_name (n : string) (l : layer) : layer :=
  mkLayer (l_kind l) n (l_thickness l) (l_roughness l) (l_sld l).

(** multilayer.py 50-52: [rename_layer] *)
Definition rename_layer (h : heap) (r : rstruct) (i : Z) (n : string) : heap * option exn :=
  match py_get (r_layers r) i with
  | Raise e => (h, Some e)
  | Ok a => (update h a (set_name n), None)
  end.

(** Everything a user can do to a structure through its methods.  New layers are freshly constructed objects; a call that
    raises is caught by the caller and leaves the state the call left behind. *)
Inductive op :=
| ORename (i : Z) (n : string)
| OSwap (from to : option Z)
| OMove (from to : option Z)
| OAdd (l : layer) (i : index_arg)
| OSetAmbient (l : layer)
| OSetSubstrate (l : layer).

Definition with_layers (r : rstruct) (ls : list nat) : rstruct := mkR (r_ambient r) (r_substrate r) ls.

(** multilayer.py 29-74: one method call *)
Definition step (st : heap * rstruct) (o : op) : heap * rstruct :=
  let '(h, r) := st in
  match o with
  | ORename i n => (fst (rename_layer h r i n), r)
  | OSwap f t => (h, with_layers r (fst (swap_layers (r_layers r) f t)))
  | OMove f t => (h, with_layers r (fst (move_layer (r_layers r) f t)))
  | OAdd l i => (h ++ [l], with_layers r (fst (add_layer (r_layers r) (List.length h) i)))
  | OSetAmbient l => (h ++ [l], mkR (List.length h) (r_substrate r) (r_layers r))
  | OSetSubstrate l => (h ++ [l], mkR (r_ambient r) (List.length h) (r_layers r))
  end.
Definition run (st : heap * rstruct) (ops : list op) : heap * rstruct := fold_left step ops st.
