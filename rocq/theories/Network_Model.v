(** Model of the neural networks and of their evaluation.
    Sources: /repo/mlreflect/training/training.py (98-116), /repo/mlreflect/models/simple_model.py (12-40).
    Simplifications: exact arithmetic instead of float32; a result that is not finite stays not finite (relu is not applied to it). *)
From Coq Require Import Reals.
From Verif Require Import Py Arr.
Local Open Scope R_scope.

(** The layers that [Sequential.add] is called with: keras.layers.Dense(units) and keras.layers.Activation('relu') *)
Inductive layer_spec := DenseUnits (n : nat) | ReluUnits.
(** A layer with its weights.  A dense layer is given by its units, each with the weights of its inputs (a column of the kernel) and a bias. *)
Inductive layer := Dense (units : list (list R * R)) | Relu.
Definition network := list layer.

(** training.py 98-116: [_prepare_model] without the input size, which only fixes the size of the first kernel *)
Definition prepare_model (n_output : nat) : list layer_spec :=
  ([DenseUnits 500; ReluUnits] ++ List.concat (repeat [DenseUnits 500; ReluUnits] 2) ++ [DenseUnits n_output])%list.
(** simple_model.py 16-37: the layers of a SimpleModel *)
Definition simple_model (n_output : nat) : list layer_spec :=
  [DenseUnits 400; ReluUnits; DenseUnits 800; ReluUnits; DenseUnits 400; ReluUnits; DenseUnits 300; ReluUnits;
   DenseUnits 200; ReluUnits; DenseUnits 100; ReluUnits; DenseUnits n_output; ReluUnits].

(** What keras computes: output = activation(dot(input, kernel) + bias) *)
Definition dot (x : list fl) (w : list R) : fl := fsum (map (fun xw => fmul (fst xw) (Some (snd xw))) (combine x w)).
Definition unit_output (x : list fl) (u : list R * R) : fl := fadd (dot x (fst u)) (Some (snd u)).
Definition relu (x : fl) : fl := option_map (Rmax 0) x.
Definition layer_output (l : layer) (x : list fl) : list fl :=
  match l with Dense us => map (unit_output x) us | Relu => map relu x end.
Definition forward (net : network) (x : list fl) : list fl := fold_left (fun x l => layer_output l x) net x.

(** The number of inputs of a network that starts with a dense layer *)
Definition n_inputs (net : network) : option nat :=
  match net with Dense ((w, _) :: _) :: _ => Some (List.length w) | _ => None end.
(** [model.predict(rows)]: ValueError for an empty batch and for curves of the wrong length *)
Definition predict (net : network) (rows : list (list fl)) : res (list (list fl)) :=
  match rows with
  | [] => Raise ValueError
  | _ => if forallb (fun r => match n_inputs net with Some n => Nat.eqb (List.length r) n | None => false end) rows
         then Ok (map (forward net) rows) else Raise ValueError
  end.
