(** Vocabulary for the properties of the file helpers. *)
From Coq Require Import Reals Lra.
From Verif Require Import Py Str Arr Spec_Model SpecFile_Spec Utils_Model.
Local Open Scope R_scope.
Local Open Scope string_scope.

(** The directory part of a path, with its final slash and without superfluous ones at the end *)
Definition dir_prefix (pre : string) : Prop :=
  pre = "" \/ pre = "/" \/ exists d c, Ascii.eqb c "/" = false /\ pre = d ++ String c "/".
(** A name of a file in a directory *)
Definition plain (name : string) : Prop := has_char "/" name = false.
Definition undotted (name : string) : Prop := has_char "." name = false.

(** The text of an integer *)
Definition int_text (z : Z) : string := match z with Z0 => "0" | Zpos p => dec (Npos p) | Zneg p => "-" ++ dec (Npos p) end.

(** The lines of a text file with two columns *)
Definition curve_file (fmt : fl -> string) (q curve : list fl) (lines : list string) : Prop :=
  List.length lines = List.length q /\
  forall i x y, nth_error q i = Some x -> nth_error curve i = Some y -> nth_error lines i = Some (fmt x ++ String (Ascii.ascii_of_nat 9) "" ++ fmt y).

(** The smallest and the largest number of a column; missing values do not count *)
Definition column_min (c : list fl) (m : fl) : Prop :=
  match m with
  | Some m => In (Some m) c /\ forall x, In (Some x) c -> m <= x
  | None => forall x, ~ In (Some x) c
  end.
Definition column_max (c : list fl) (m : fl) : Prop :=
  match m with
  | Some m => In (Some m) c /\ forall x, In (Some x) c -> x <= m
  | None => forall x, ~ In (Some x) c
  end.

(** Lexicographic order of lists of numbers *)
Fixpoint before (a b : list N) : Prop :=
  match a, b with
  | x :: a', y :: b' => (x < y)%N \/ x = y /\ before a' b'
  | _, _ => False
  end.
(** The order of characters by number, extended to texts *)
Fixpoint text_before (a b : string) : Prop :=
  match a, b with
  | "", String _ _ => True
  | String c a', String d b' => (N_of_ascii c < N_of_ascii d)%N \/ c = d /\ text_before a' b'
  | _, "" => False
  end.

(** The numbers of a time, and times of our calendar with a year of four digits *)
Definition dt_list (t : datetime) : list N := [dt_year t; dt_month t; dt_day t; dt_hour t; dt_min t; dt_sec t].
Definition dt_valid (t : datetime) : Prop :=
  (1000 <= dt_year t <= 9999 /\ 1 <= dt_month t <= 12 /\ 1 <= dt_day t <= 31 /\ dt_hour t < 24 /\ dt_min t < 60 /\ dt_sec t < 60)%N.

(** The attributes that a file has before saving: none if there is no group of that name; [None] if something else has its name *)
Definition old_info (fs : h5disk) (name : string) : option (list (string * attr)) :=
  match dict_get String.eqb fs name with
  | None => Some []
  | Some f => match dict_get String.eqb f "info" with None => Some [] | Some (NGroup a) => Some a | Some _ => None end
  end.
(** An entry of a file *)
Definition entry_of (fs : h5disk) (name key : string) : option node :=
  match dict_get String.eqb fs name with None => None | Some f => dict_get String.eqb f key end.
