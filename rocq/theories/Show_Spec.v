(** Vocabulary for statements about the text form and comparison of samples. *)
From Coq Require Import Reals.
From Verif Require Import Py Str Sample_Model Sample_Spec Show_Model.
Local Open Scope string_scope.

Definition newline_char : Ascii.ascii := Ascii.ascii_of_nat 10.
(** str() of numbers: one line, without commas, different for different machine numbers *)
Record show_ok (machine : num -> Prop) (show : num -> string) : Prop := {
  show_line : forall a, has_char newline_char (show a) = false;
  show_comma : forall a, has_char "," (show a) = false;
  show_inj : forall a b, machine a -> machine b -> show a = show b -> same_num a b }.
(** All values are machine numbers. *)
Definition values_in (machine : num -> Prop) (p : param) : Prop := machine (p_min p) /\ machine (p_max p).
Definition layer_in (machine : num -> Prop) (l : layer) : Prop :=
  forall p, l_thickness l = Some p \/ l_roughness l = Some p \/ l_sld l = Some p -> values_in machine p.
Definition sample_in (machine : num -> Prop) (s : structure) : Prop := Forall (layer_in machine) (all_layers s).
(** The classes of the layers of a sample, and names of one line *)
Definition standard (s : structure) : Prop :=
  l_kind (st_ambient s) = KAmbient /\ l_kind (st_substrate s) = KSubstrate /\ Forall (fun l => l_kind l = KLayer \/ l_kind l = KConstantLayer) (st_layers s) /\
  Forall (fun l => has_char newline_char (l_name l) = false) (all_layers s).
Definition line_break : string := String newline_char "".
Fixpoint paste (l : list string) : string := match l with [] => "" | t :: l' => t ++ paste l' end.
(** The entry of layer [i] with text [t] *)
Definition numbered_entry (show_n : nat -> string) (it : nat * string) : string := "[" ++ show_n (fst it) ++ "] " ++ snd it ++ line_break.

(** The real number an operand of a comparison stands for *)
Definition stands_for (o : operand) (y : R) : Prop :=
  match o with
  | ONum (Flt x) => x = y
  | OParam (Const (Flt x) _) => x = y
  | _ => False
  end.
Definition related (r : relation) (x y : R) : Prop :=
  match r with
  | REq => x = y | RNe => x <> y | RLt => (x < y)%R | RLe => (x <= y)%R | RGt => (x > y)%R | RGe => (x >= y)%R
  end.
(** The parameters a layer has, with their names *)
Definition parameters_of (l : layer) : list (string * param) :=
  (match l_thickness l with Some p => [("thickness", p)] | None => [] end ++
   match l_roughness l with Some p => [("roughness", p)] | None => [] end ++
   match l_sld l with Some p => [("sld", p)] | None => [] end)%list.
