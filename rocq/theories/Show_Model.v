(** Model of the text form, indexing and comparison of samples, layers and parameters.
    Sources: /repo/mlreflect/data_generation/parameters.py (65-69, 114-142), layers.py (38-46, 92-96, 130-138, 168-174, 179-182, 195-199, 204-206),
    multilayer.py (152-157, 170-180). *)
From Coq Require Import Reals.
From Verif Require Import Py Str Sample_Model.
Local Open Scope string_scope.

Definition nl : string := String (Ascii.ascii_of_nat 10) "".
Definition tab : string := String (Ascii.ascii_of_nat 9) "".

(** ** Text *)
Section Text.
  (** str() of a number and str() of an integer *)
  Context (show : num -> string) (show_n : nat -> string).

  (** parameters.py 65-66 and 132-133: [__str__]; the value of a range is the tuple of its limits *)
  Definition param_text (p : param) : string :=
    match p with
    | Range lo hi _ => "(" ++ show lo ++ ", " ++ show hi ++ ")"
    | Const v _ => show v
    end.
  (** An attribute in an f-string: it is missing (AttributeError) *)
  Definition attr_text (p : option param) : res string :=
    match p with Some p => Ok (param_text p) | None => Raise AttributeError end.
  (** [sld] may be Python's None *)
  Definition sld_text (p : option param) : string := match p with Some p => param_text p | None => "None" end.

  (** layers.py 92-96, 179-182 and 204-206: [__str__] *)
  Definition layer_text (l : layer) : res string :=
    match l_kind l with
    | KLayer | KConstantLayer =>
        t <- attr_text (l_thickness l) ;; r <- attr_text (l_roughness l) ;;
        Ok (l_name l ++ ":" ++ nl ++ tab ++ "thickness: " ++ t ++ " [Å]" ++ nl ++ tab ++ "roughness: " ++ r ++ " [Å]" ++ nl ++
            tab ++ "sld: " ++ sld_text (l_sld l) ++ " [1e-6 1/Å^2]")
    | KSubstrate =>
        r <- attr_text (l_roughness l) ;;
        Ok (l_name l ++ " (substrate):" ++ nl ++ tab ++ "roughness: " ++ r ++ " [Å]" ++ nl ++ tab ++ "sld: " ++ sld_text (l_sld l) ++ " [1e-6 1/Å^2]")
    | KAmbient => Ok (l_name l ++ " (ambient):" ++ nl ++ tab ++ "sld: " ++ sld_text (l_sld l) ++ " [1e-6 1/Å^2]")
    end.
  (** multilayer.py 152-157: [__str__] *)
  Definition sample_text (s : structure) : res string :=
    a <- layer_text (st_ambient s) ;;
    out <- foldM (fun out i =>
                    l <- py_get (st_layers s) (Z.of_nat i) ;; t <- layer_text l ;;
                    Ok (out ++ "[" ++ show_n i ++ "] " ++ t ++ nl))
                 (a ++ nl) (rev (seq 0 (List.length (st_layers s)))) ;;
    b <- layer_text (st_substrate s) ;; Ok (out ++ b).
End Text.

(** ** Indexing *)
(** multilayer.py 170-171: [__getitem__] with an integer *)
Definition sample_get (s : structure) (i : Z) : res layer := py_get (sample_structure s) i.
(** multilayer.py 173-174: [__len__] *)
Definition sample_len (s : structure) : nat := List.length (sample_structure s).
(** multilayer.py 176-180: [__iter__] (and [__list__], which Python never calls) *)
Definition sample_iter (s : structure) : list layer := sample_structure s.

(** ** Ranges *)
(** layers.py 38-46, 130-138, 168-174 and 195-199: [ranges] *)
Definition range_entries (k : string) (p : option param) : res (list (string * num)) :=
  match p with Some p => Ok [("min_" ++ k, p_min p); ("max_" ++ k, p_max p)] | None => Raise AttributeError end.
Definition layer_ranges (l : layer) : res (list (string * num)) :=
  t <- match l_kind l with KLayer | KConstantLayer => range_entries "thickness" (l_thickness l) | _ => Ok [] end ;;
  r <- match l_kind l with KAmbient => Ok [] | _ => range_entries "roughness" (l_roughness l) end ;;
  s <- range_entries "sld" (l_sld l) ;;
  Ok (t ++ r ++ s)%list.

(** ** Comparison of constant parameters *)
(** What stands on the other side: a number, a parameter or another object without [__float__] (e.g. None) *)
Inductive operand := ONum (v : num) | OParam (p : param) | OOther.
(** float() of a number: Python complex numbers give a TypeError, numpy complex numbers lose their imaginary part *)
Definition num_float (v : num) : res R :=
  match v with Flt x => Ok x | Cpx true re _ => Ok re | Cpx false _ _ => Raise TypeError end.
(** parameters.py 135-136: [__float__]; a range has none *)
Definition operand_float (o : operand) : res R :=
  match o with
  | ONum v => num_float v
  | OParam (Const v _) => num_float v
  | OParam (Range _ _ _) | OOther => Raise TypeError
  end.
(** parameters.py 114-130: [__eq__], [__ne__], [__lt__], [__le__], [__gt__], [__ge__] *)
Inductive relation := REq | RNe | RLt | RLe | RGt | RGe.
Definition rel_holds (r : relation) (x y : R) : bool :=
  match r with REq => Reqb x y | RNe => negb (Reqb x y) | RLt => Rltb x y | RLe => Rleb x y | RGt => Rltb y x | RGe => Rleb y x end.
Definition const_compare (r : relation) (v : num) (o : operand) : res bool :=
  x <- num_float v ;; y <- operand_float o ;; Ok (rel_holds r x y).
