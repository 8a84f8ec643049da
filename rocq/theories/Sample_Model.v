(** Model of the sample description: parameters, layers, multilayer structures, their dictionary form.
    Sources: /repo/mlreflect/data_generation/{parameters,layers,multilayer}.py *)
From Coq Require Import Reals.
From Verif Require Import Py Str.
Local Open Scope string_scope.

(** Numbers a user can pass: Python/numpy real numbers (ints and floats, as mathematical reals), Python complex
    ([np = false]) or numpy complex scalars ([np = true]). Rounding, NaN and infinities are not modelled here. *)
Inductive num := Flt (x : R) | Cpx (np : bool) (re im : R).

Definition num_re (a : num) : R := match a with Flt x => x | Cpx _ re _ => re end.
Definition num_im (a : num) : R := match a with Flt _ => 0%R | Cpx _ _ im => im end.
Definition is_np (a : num) : bool := match a with Cpx np _ _ => np | _ => false end.
Definition is_cpx (a : num) : bool := match a with Cpx _ _ _ => true | _ => false end.

Definition Rltb (a b : R) : bool := if Rlt_dec a b then true else false.
Definition Rleb (a b : R) : bool := if Rle_dec a b then true else false.
Definition Reqb (a b : R) : bool := if Req_EM_T a b then true else false.

(** Python [a < b]: Python complex numbers are not ordered (TypeError); if a numpy complex scalar takes part,
    numpy compares lexicographically. *)
Definition num_lt (a b : num) : res bool :=
  if (is_cpx a || is_cpx b) && negb (is_np a || is_np b) then Raise TypeError
  else Ok (Rltb (num_re a) (num_re b) || (Reqb (num_re a) (num_re b) && Rltb (num_im a) (num_im b))).

(** Python [a >= b] *)
Definition num_ge (a b : num) : res bool :=
  if (is_cpx a || is_cpx b) && negb (is_np a || is_np b) then Raise TypeError
  else Ok (Rltb (num_re b) (num_re a) || (Reqb (num_re a) (num_re b) && Rleb (num_im b) (num_im a))).

(** parameters.py 8-69 ([Parameter], attributes min/max/name) and 72-142 ([ConstantParameter]). *)
Inductive param :=
| Range (lo hi : num) (pname : option string)
| Const (v : num) (pname : option string).

(** [.min], [.max]: parameters.py 20-21, 88-98 *)
Definition p_min (p : param) : num := match p with Range lo _ _ => lo | Const v _ => v end.
Definition p_max (p : param) : num := match p with Range _ hi _ => hi | Const v _ => v end.
Definition p_name (p : param) : option string := match p with Range _ _ n => n | Const _ n => n end.
Definition is_const (p : param) : bool := match p with Const _ _ => true | Range _ _ _ => false end.
Definition set_pname (n : string) (p : param) : param :=
  match p with Range lo hi _ => Range lo hi (Some n) | Const v _ => Const v (Some n) end.

(** parameters.py 17-22: [Parameter.__init__] *)
Definition mk_range (lo hi : num) (n : option string) : res param :=
  b <- num_ge lo hi ;; if (b : bool) then Raise ValueError else Ok (Range lo hi n).

(** parameters.py 62-63, 111-112: [__copy__]; the copy of a range runs the constructor check again. *)
Definition param_copy (p : param) : res param :=
  match p with
  | Range lo hi n => mk_range lo hi n
  | Const v n => Ok (Const v n)
  end.

(** A value inside a dictionary form: a number or {'re':..., 'im':...} *)
Inductive jval := JNum (n : num) | JDict (re im : R).

(** layers.py 67-72: [_if_complex_to_dict] ([np.iscomplex]: imaginary part not zero) *)
Definition complex_to_dict (v : num) : jval :=
  match v with
  | Flt x => JNum (Flt x)
  | Cpx np re im => if Req_EM_T im 0 then JNum v else JDict re im
  end.

(** layers.py 82-87: [_if_dict_to_complex] *)
Definition dict_to_complex (j : jval) : num :=
  match j with JNum n => n | JDict re im => Cpx false re im end.

(** What can be passed as thickness, roughness or sld: a Parameter object, a non-dict iterable (tuple, list) or a
    single value.  Strings and other exotic iterables are not modelled. *)
Inductive pinput := PIParam (p : param) | PISeq (l : list jval) | PIVal (v : jval).

(** layers.py 74-80: [Layer._set_parameter] *)
Definition set_param (n : string) (i : pinput) : res param :=
  match i with
  | PIParam p => param_copy p
  | PISeq l => a <- py_get l 0 ;; b <- py_get l 1 ;; mk_range (dict_to_complex a) (dict_to_complex b) (Some n)
  | PIVal v => Ok (Const (dict_to_complex v) (Some n))
  end.

(** layers.py 140-146: [ConstantLayer._set_parameter]; for an iterable the ValueError is constructed but not raised,
    so the result is Python's None. *)
Definition set_param_const (n : string) (i : pinput) : res (option param) :=
  match i with
  | PIParam p => rmap Some (param_copy p)
  | PISeq _ => Ok None
  | PIVal v => Ok (Some (Const (dict_to_complex v) (Some n)))
  end.

Inductive lkind := KLayer | KConstantLayer | KSubstrate | KAmbient.

(** A layer object.  [l_thickness]/[l_roughness] = None: the attribute does not exist (Substrate, AmbientLayer).
    [l_sld] = None: the attribute exists and is Python's None. *)
Record layer := mkLayer {
  l_kind : lkind;
  l_name : string;
  l_thickness : option param;
  l_roughness : option param;
  l_sld : option param }.

(** [if param.min < 0: raise ValueError] *)
Definition check_nonneg (p : param) : res unit :=
  b <- num_lt (p_min p) (Flt 0) ;; if (b : bool) then Raise ValueError else Ok tt.

(** [None.min] raises AttributeError *)
Definition check_nonneg_opt (p : option param) : res unit :=
  match p with Some p => check_nonneg p | None => Raise AttributeError end.

(** layers.py 23-35: [Layer.__init__] *)
Definition mk_layer (name : string) (thickness roughness sld : pinput) : res layer :=
  t <- set_param "thickness" thickness ;;
  r <- set_param "roughness" roughness ;;
  s <- set_param "sld" sld ;;
  _ <- check_nonneg t ;;
  _ <- check_nonneg r ;;
  Ok (mkLayer KLayer name (Some t) (Some r) (Some s)).

(** layers.py 115-127: [ConstantLayer.__init__] *)
Definition mk_constant_layer (name : string) (thickness roughness sld : pinput) : res layer :=
  t <- set_param_const "thickness" thickness ;;
  r <- set_param_const "roughness" roughness ;;
  s <- set_param_const "sld" sld ;;
  _ <- check_nonneg_opt t ;;
  _ <- check_nonneg_opt r ;;
  Ok (mkLayer KConstantLayer name t r s).

(** layers.py 156-165: [Substrate.__init__] *)
Definition mk_substrate (name : string) (roughness sld : pinput) : res layer :=
  r <- set_param_const "roughness" roughness ;;
  s <- set_param_const "sld" sld ;;
  _ <- check_nonneg_opt r ;;
  Ok (mkLayer KSubstrate name None r s).

(** layers.py 189-192: [AmbientLayer.__init__] *)
Definition mk_ambient (name : string) (sld : pinput) : res layer :=
  s <- set_param_const "sld" sld ;;
  Ok (mkLayer KAmbient name None None s).

(** ** Structures (multilayer.py) *)

(** multilayer.py 16-19: the attributes of [MultilayerStructure] *)
Record structure := mkStructure {
  st_ambient : layer;
  st_substrate : layer;
  st_layers : list layer }.

Definition const0 (n : string) : param := Const (Flt 0) (Some n).
Definition default_ambient : layer := mkLayer KAmbient "undefined" None None (Some (const0 "sld")).
Definition default_substrate : layer :=
  mkLayer KSubstrate "undefined" None (Some (const0 "roughness")) (Some (const0 "sld")).

(** multilayer.py 16-19: [MultilayerStructure()] *)
Definition empty_structure : structure := mkStructure default_ambient default_substrate [].

(** multilayer.py 148-150: [_sample_structure], also the iteration order (179-180) *)
Definition sample_structure (s : structure) : list layer :=
  [st_substrate s] ++ st_layers s ++ [st_ambient s].

(** f'{layer.name}_{param.name}'; a missing name prints as "None" *)
Definition label (l : layer) (p : param) : string :=
  l_name l ++ "_" ++ match p_name p with Some n => n | None => "None" end.

(** [p = layer.x.copy(); p.name = f'...'] *)
Definition relabel (l : layer) (p : param) : res param :=
  p' <- param_copy p ;; Ok (set_pname (label l p') p').

(** multilayer.py 97-105: [thicknesses] *)
Fixpoint collect_thickness (ls : list layer) : res (list param) :=
  match ls with
  | [] => Ok []
  | l :: ls' =>
      match l_thickness l with
      | None => collect_thickness ls'
      | Some p => p' <- relabel l p ;; ps <- collect_thickness ls' ;; Ok (p' :: ps)
      end
  end.
Definition thicknesses (s : structure) : res (list param) := collect_thickness (sample_structure s).

(** multilayer.py 107-115: [roughnesses] *)
Fixpoint collect_roughness (ls : list layer) : res (list param) :=
  match ls with
  | [] => Ok []
  | l :: ls' =>
      match l_roughness l with
      | None => collect_roughness ls'
      | Some p => p' <- relabel l p ;; ps <- collect_roughness ls' ;; Ok (p' :: ps)
      end
  end.
Definition roughnesses (s : structure) : res (list param) := collect_roughness (sample_structure s).

(** multilayer.py 117-124: [slds]; [None.copy()] raises AttributeError *)
Fixpoint collect_sld (ls : list layer) : res (list param) :=
  match ls with
  | [] => Ok []
  | l :: ls' =>
      match l_sld l with
      | None => Raise AttributeError
      | Some p => p' <- relabel l p ;; ps <- collect_sld ls' ;; Ok (p' :: ps)
      end
  end.
Definition slds (s : structure) : res (list param) := collect_sld (sample_structure s).

(** [param.name] as it is stored in the list of label names *)
Definition pname_str (p : param) : string := match p_name p with Some n => n | None => "None" end.

(** multilayer.py 126-141: [label_names] *)
Definition label_names (s : structure) : res (list string) :=
  ts <- thicknesses s ;; rs <- roughnesses s ;; ss <- slds s ;;
  Ok (map pname_str ts ++ map pname_str rs ++ map pname_str ss)%list.

(** ** Dictionary form *)

(** layers.py 61-65: [_parse_parameter] *)
Inductive pdict := PDPair (a b : jval) | PDVal (v : jval).
Definition parse_param (p : param) : pdict :=
  match p with
  | Range lo hi _ => PDPair (complex_to_dict lo) (complex_to_dict hi)
  | Const v _ => PDVal (complex_to_dict v)
  end.

(** The dictionary of a layer: 'name' and the present keys among 'thickness', 'roughness', 'sld'. *)
Record ldict := mkLdict {
  d_name : string; d_thickness : option pdict; d_roughness : option pdict; d_sld : option pdict }.

(** layers.py 48-56: [Layer.to_dict]; [_parse_parameter(None)] raises AttributeError *)
Definition layer_to_dict (l : layer) : res ldict :=
  match l_sld l with
  | None => Raise AttributeError
  | Some s => Ok (mkLdict (l_name l) (option_map parse_param (l_thickness l))
                          (option_map parse_param (l_roughness l)) (Some (parse_param s)))
  end.

Record sdict := mkSdict { sd_ambient : ldict; sd_layers : list ldict; sd_substrate : ldict }.

(** multilayer.py 76-85: [to_dict]; the layer list is written from top to bottom. *)
Definition to_dict (s : structure) : res sdict :=
  a <- layer_to_dict (st_ambient s) ;;
  b <- layer_to_dict (st_substrate s) ;;
  ls <- mapM layer_to_dict (rev (st_layers s)) ;;
  Ok (mkSdict a ls b).

(** A dictionary value handed back to a constructor. *)
Definition pdict_input (d : pdict) : pinput :=
  match d with PDPair a b => PISeq [a; b] | PDVal v => PIVal v end.

(** The constructors AmbientLayer, Substrate and Layer called with the dictionary as keyword arguments: a missing or unexpected keyword raises TypeError. *)
Definition ambient_of_dict (d : ldict) : res layer :=
  match d_thickness d, d_roughness d, d_sld d with
  | None, None, Some s => mk_ambient (d_name d) (pdict_input s)
  | _, _, _ => Raise TypeError
  end.
Definition substrate_of_dict (d : ldict) : res layer :=
  match d_thickness d, d_roughness d, d_sld d with
  | None, Some r, Some s => mk_substrate (d_name d) (pdict_input r) (pdict_input s)
  | _, _, _ => Raise TypeError
  end.
Definition layer_of_dict (d : ldict) : res layer :=
  match d_thickness d, d_roughness d, d_sld d with
  | Some t, Some r, Some s => mk_layer (d_name d) (pdict_input t) (pdict_input r) (pdict_input s)
  | _, _, _ => Raise TypeError
  end.

(** multilayer.py 39-48 with index 'next' *)
Definition append_layer (s : structure) (l : layer) : structure :=
  mkStructure (st_ambient s) (st_substrate s) (st_layers s ++ [l]).
Definition set_ambient (s : structure) (l : layer) : structure :=
  mkStructure l (st_substrate s) (st_layers s).
Definition set_substrate (s : structure) (l : layer) : structure :=
  mkStructure (st_ambient s) l (st_layers s).

(** The loop of from_dict (multilayer.py 91-92) *)
Fixpoint add_dicts (s : structure) (ds : list ldict) : structure * option exn :=
  match ds with
  | [] => (s, None)
  | d :: ds' =>
      match layer_of_dict d with
      | Raise e => (s, Some e)
      | Ok l => add_dicts (append_layer s l) ds'
      end
  end.

(** multilayer.py 87-92: [from_dict]; returns the object after the call and the exception, if any.  The steps done
    before an exception persist. *)
Definition from_dict (s : structure) (d : sdict) : structure * option exn :=
  match ambient_of_dict (sd_ambient d) with
  | Raise e => (s, Some e)
  | Ok a =>
      let s1 := set_ambient s a in
      match substrate_of_dict (sd_substrate d) with
      | Raise e => (s1, Some e)
      | Ok b => add_dicts (set_substrate s1 b) (rev (sd_layers d))
      end
  end.

(** layers.py 89-90, 148-149, 176-177, 201-202: [__copy__] of each layer class *)
Definition layer_copy (l : layer) : res layer :=
  let cp (p : option param) : res pinput :=
    match p with Some p => rmap PIParam (param_copy p) | None => Raise AttributeError end in
  match l_kind l with
  | KLayer => t <- cp (l_thickness l) ;; r <- cp (l_roughness l) ;; s <- cp (l_sld l) ;; mk_layer (l_name l) t r s
  | KConstantLayer =>
      t <- cp (l_thickness l) ;; r <- cp (l_roughness l) ;; s <- cp (l_sld l) ;; mk_constant_layer (l_name l) t r s
  | KSubstrate => r <- cp (l_roughness l) ;; s <- cp (l_sld l) ;; mk_substrate (l_name l) r s
  | KAmbient => s <- cp (l_sld l) ;; mk_ambient (l_name l) s
  end.

(** multilayer.py 162-168: [__copy__] (as values; see SampleRef_Model for object identity) *)
Definition structure_copy (s : structure) : res structure :=
  a <- layer_copy (st_ambient s) ;;
  b <- layer_copy (st_substrate s) ;;
  ls <- mapM layer_copy (st_layers s) ;;
  Ok (mkStructure a b ls).
