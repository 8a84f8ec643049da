(** Vocabulary for statements about preprocessing. *)
From Coq Require Import Reals Lra.
From Coquelicot Require Import Complex.
From Verif Require Import Py Str Sample_Model Sample_Spec Sampling_Model Arr Preproc_Model.
Local Open Scope string_scope.
Local Open Scope R_scope.

(** ** Statistics of a column *)
Definition sum (l : list R) : R := fold_right Rplus 0 l.
Definition avg (l : list R) : R := sum l / INR (List.length l).
(** population standard deviation *)
Definition dev (l : list R) : R := sqrt (avg (map (fun x => (x - avg l) ^ 2) l)).

(** The entries of column [j], if there are any and all are finite *)
Fixpoint finite_values (l : list fl) : option (list R) :=
  match l with
  | [] => Some []
  | Some x :: l' => option_map (cons x) (finite_values l')
  | None :: _ => None
  end.
Definition statistic (f : list R -> R) (l : list fl) : fl :=
  match finite_values l with
  | Some [] | None => None
  | Some xs => Some (f xs)
  end.
Definition entries_of (j : nat) (rows : list (list fl)) : list fl := map (fun r => nth j r None) rows.

(** [v] lists the statistic [f] of each of the [m] columns. *)
Definition column_statistics (f : list R -> R) (m : nat) (rows : list (list fl)) (v : list fl) : Prop :=
  List.length v = m /\ forall j, (j < m)%nat -> nth j v None = statistic f (entries_of j rows).

(** Some column holds one finite number throughout (and there is at least one row). *)
Definition has_constant_column (m : nat) (rows : list (list fl)) : Prop :=
  rows <> [] /\ exists j x, (j < m)%nat /\ Forall (fun r => nth j r None = Some x) rows.

(** Data that a fresh preprocessor accepts: two-dimensional, no constant column *)
Definition accepted (a : arr) : Prop :=
  match a with A1 _ => False | A2 m rows => ~ has_constant_column m rows end.

(** ** Call histories *)
Definition wf_call (c : ip_call) : Prop :=
  match c with CStandardize a | CRevert a => wf_arr a | CReset => True end.
(** Calls that leave a fresh preprocessor fresh *)
Definition futile (c : ip_call) : Prop :=
  match c with CStandardize a => ~ accepted a | CRevert _ => True | CReset => True end.
Definition not_reset (c : ip_call) : Prop := c <> CReset.
(** [d] is the data of the first accepted standardize call since the last reset. *)
Definition first_since_reset (cs : list ip_call) (d : arr) : Prop :=
  exists pre mid post, cs = (pre ++ mid ++ CStandardize d :: post)%list /\
    (pre = [] \/ exists p, pre = p ++ [CReset])%list /\
    Forall futile mid /\ accepted d /\ Forall not_reset post.

(** Saved statistics for [m] columns, finite and without a zero standard deviation *)
Definition usable (st : ip_state) (m : nat) : Prop :=
  exists mean std, ip_mean st = Some mean /\ ip_std st = Some std /\ List.length mean = m /\ List.length std = m /\
    Forall (fun x => x <> None) mean /\ Forall (fun x => x <> Some 0 /\ x <> None) std.

(** ** Labels *)
(** The parameter [p] of the sample that belongs to the label [name] *)
Definition label_param (s : structure) (name : string) (p : param) : Prop :=
  (exists l, In l (st_layers s) /\ name = l_name l ++ "_" ++ "thickness" /\ l_thickness l = Some p) \/
  (exists l, In l (st_substrate s :: st_layers s) /\ name = l_name l ++ "_" ++ "roughness" /\ l_roughness l = Some p) \/
  (exists l, In l (all_layers s) /\ name = l_name l ++ "_" ++ "sld" /\ l_sld l = Some p).

(** A label is constant or variable according to its parameter. *)
Definition constant_label (s : structure) (name : string) : Prop := exists p, label_param s name p /\ is_const p = true.
Definition variable_label (s : structure) (name : string) : Prop := exists p, label_param s name p /\ is_const p = false.

(** An ordinary sample with distinct layer names *)
Definition named_sample (s : structure) : Prop := ordinary_sample s /\ NoDup (map l_name (all_layers s)).

(** A table for the sample: one column per label in any order, all of the same length *)
Definition label_frame (s : structure) (names : list string) (f : frame) : Prop :=
  label_names s = Ok names /\ Permutation names (map fst (fr_cols f)) /\
  Forall (fun kc => List.length (snd kc) = fr_rows f) (fr_cols f).
(** ... in label order *)
Definition ordered_frame (s : structure) (names : list string) (f : frame) : Prop :=
  label_frame s names f /\ map fst (fr_cols f) = names.

(** Constant columns hold the constant. *)
Definition constants_hold (s : structure) (f : frame) : Prop :=
  forall name p c, label_param s name p -> is_const p = true -> In (name, c) (fr_cols f) ->
    Forall (eq (Some (num_re (p_min p), num_im (p_min p)))) c.

(** No variable parameter has maximum zero. *)
Definition nonzero_max (s : structure) : Prop :=
  forall name p, label_param s name p -> is_const p = false -> num_C (p_max p) <> RtoC 0.

(** The string objects that literals denote *)
Definition literal (v : string) : pystr := mkPystr v true.

(** The real column [xs] with values in [lo, hi] and its normalised form [ys]: the range goes onto [0,1], order is kept. *)
Definition unit_scaled (lo hi : R) (xs ys : list R) : Prop :=
  List.length ys = List.length xs /\
  (forall i, (i < List.length xs)%nat -> 0 <= nth i ys 0 <= 1) /\
  (forall i, (i < List.length xs)%nat -> (nth i ys 0 = 0 <-> nth i xs 0 = lo) /\ (nth i ys 0 = 1 <-> nth i xs 0 = hi)) /\
  (forall i j, (i < List.length xs)%nat -> (j < List.length xs)%nat -> (nth i xs 0 < nth j xs 0 <-> nth i ys 0 < nth j ys 0)).
(** A column of real numbers *)
Definition real_cells (xs : list R) : list cell := map (fun x => Some (RtoC x)) xs.
