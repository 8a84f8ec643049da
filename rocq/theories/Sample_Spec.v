(** Vocabulary for statements about samples; only the data types of the model are used, none of its functions. *)
From Coq Require Import Reals.
From Verif Require Import Py Str Sample_Model.
Local Open Scope string_scope.

(** Order on numbers as numpy sees it; Python complex numbers cannot be compared at all. *)
Definition num_below (a b : num) : Prop :=
  (num_re a < num_re b)%R \/ (num_re a = num_re b /\ (num_im a < num_im b)%R).
Definition comparable (a b : num) : Prop :=
  (is_cpx a = false /\ is_cpx b = false) \/ is_np a = true \/ is_np b = true.

(** A parameter is valid if it is a constant or a range with minimum below maximum. *)
Definition valid_param (p : param) : Prop :=
  match p with Const _ _ => True | Range lo hi _ => comparable lo hi /\ num_below lo hi end.

(** A valid parameter whose numbers are real, with the name the layer constructors give it. *)
Definition real_param (n : string) (p : param) : Prop :=
  match p with
  | Const (Flt _) (Some m) => m = n
  | Range (Flt lo) (Flt hi) (Some m) => (lo < hi)%R /\ m = n
  | _ => False
  end.

(** The layers of an ordinary sample: film layers have a thickness, a roughness and an SLD, the substrate a roughness
    and an SLD, the ambient an SLD; all parameters are valid and carry the default names. *)
Definition named (n : string) (o : option param) : Prop :=
  exists p, o = Some p /\ valid_param p /\ p_name p = Some n.
Definition film_layer (l : layer) : Prop :=
  named "thickness" (l_thickness l) /\ named "roughness" (l_roughness l) /\ named "sld" (l_sld l).
Definition substrate_layer (l : layer) : Prop :=
  l_thickness l = None /\ named "roughness" (l_roughness l) /\ named "sld" (l_sld l).
Definition ambient_layer (l : layer) : Prop :=
  l_thickness l = None /\ l_roughness l = None /\ named "sld" (l_sld l).
Definition ordinary_sample (s : structure) : Prop :=
  substrate_layer (st_substrate s) /\ Forall film_layer (st_layers s) /\ ambient_layer (st_ambient s).

(** Expected labels. *)
Definition labels_of (suffix : string) (ls : list layer) : list string :=
  map (fun l => l_name l ++ "_" ++ suffix) ls.

(** Two parameters describe the same values: equal constants, or equal range ends (as complex numbers). *)
Definition same_num (a b : num) : Prop := num_re a = num_re b /\ num_im a = num_im b.
Definition same_values (p q : param) : Prop :=
  match p, q with
  | Const a _, Const b _ => same_num a b
  | Range a1 a2 _, Range b1 b2 _ => same_num a1 b1 /\ same_num a2 b2
  | _, _ => False
  end.
Definition same_opt (p q : option param) : Prop :=
  match p, q with
  | None, None => True
  | Some p, Some q => same_values p q
  | _, _ => False
  end.
Definition same_layer (l m : layer) : Prop :=
  l_name l = l_name m /\ same_opt (l_thickness l) (l_thickness m) /\
  same_opt (l_roughness l) (l_roughness m) /\ same_opt (l_sld l) (l_sld m).
Definition same_sample (s t : structure) : Prop :=
  same_layer (st_ambient s) (st_ambient t) /\ same_layer (st_substrate s) (st_substrate t) /\
  Forall2 same_layer (st_layers s) (st_layers t).

(** Samples that can be stored: real non-negative thicknesses and roughnesses, SLDs that are real ranges or any
    constants, constant substrate and ambient parameters, default names. *)
Definition min_nonneg (o : option param) : Prop := forall p, o = Some p -> (0 <= num_re (p_min p))%R.
Definition storable_sld (o : option param) : Prop :=
  match o with
  | Some (Const _ (Some n)) => n = "sld"
  | Some (Range (Flt lo) (Flt hi) (Some n)) => (lo < hi)%R /\ n = "sld"
  | _ => False
  end.
Definition storable_real (n : string) (o : option param) : Prop :=
  exists p, o = Some p /\ real_param n p /\ (0 <= num_re (p_min p))%R.
Definition storable_film (l : layer) : Prop :=
  storable_real "thickness" (l_thickness l) /\ storable_real "roughness" (l_roughness l) /\ storable_sld (l_sld l).
Definition const_opt (o : option param) : Prop := forall p, o = Some p -> is_const p = true.
Definition storable_sample (s : structure) : Prop :=
  (l_thickness (st_ambient s) = None /\ l_roughness (st_ambient s) = None /\
   storable_sld (l_sld (st_ambient s)) /\ const_opt (l_sld (st_ambient s))) /\
  (l_thickness (st_substrate s) = None /\ storable_real "roughness" (l_roughness (st_substrate s)) /\
   const_opt (l_roughness (st_substrate s)) /\
   storable_sld (l_sld (st_substrate s)) /\ const_opt (l_sld (st_substrate s))) /\
  Forall storable_film (st_layers s).

(** ** Constructor inputs *)

Definition jnum (j : jval) : num := match j with JNum n => n | JDict re im => Cpx false re im end.

(** The parameter an input stands for, if it is acceptable. *)
Definition denotes (n : string) (i : pinput) (p : param) : Prop :=
  match i with
  | PIParam q => p = q /\ valid_param q
  | PISeq (a :: b :: _) => p = Range (jnum a) (jnum b) (Some n) /\ valid_param p
  | PISeq _ => False
  | PIVal v => p = Const (jnum v) (Some n)
  end.

(** The minimum can be compared with 0 and is not below it. *)
Definition nonneg_min (p : param) : Prop :=
  comparable (p_min p) (Flt 0) /\ ~ num_below (p_min p) (Flt 0).

(** All layers from the bottom up *)
Definition all_layers (s : structure) : list layer := st_substrate s :: st_layers s ++ [st_ambient s].

(** Inputs that are numbers or pairs; inputs that are numbers *)
Definition plain (i : pinput) : Prop := match i with PIParam _ => False | _ => True end.
Definition scalar (i : pinput) : Prop := match i with PIVal _ => True | _ => False end.

(** Ordinary API use: layers built from numbers and pairs, constant layers from numbers. *)
Inductive built_film : layer -> Prop :=
| bf_layer name t r s l : plain t -> plain r -> plain s -> mk_layer name t r s = Ok l -> built_film l
| bf_const name t r s l : scalar t -> scalar r -> scalar s -> mk_constant_layer name t r s = Ok l -> built_film l.

Definition built_sample (s : structure) : Prop :=
  (s.(st_ambient) = default_ambient \/ exists n v, mk_ambient n (PIVal v) = Ok (st_ambient s)) /\
  (s.(st_substrate) = default_substrate \/ exists n r v, mk_substrate n (PIVal r) (PIVal v) = Ok (st_substrate s)) /\
  Forall built_film (st_layers s).

(** A layer as the constructors leave it: the attributes its class has, valid parameters, nothing negative. *)
Definition good_dim (o : option param) : Prop := exists p, o = Some p /\ valid_param p /\ nonneg_min p.
Definition well_formed (l : layer) : Prop :=
  (exists p, l_sld l = Some p /\ valid_param p) /\
  match l_kind l with
  | KLayer | KConstantLayer => good_dim (l_thickness l) /\ good_dim (l_roughness l)
  | KSubstrate => l_thickness l = None /\ good_dim (l_roughness l)
  | KAmbient => l_thickness l = None /\ l_roughness l = None
  end.
