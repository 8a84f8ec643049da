(** Properties C01-C13: sample descriptions. *)
From Coq Require Import Reals Lra.
From Verif Require Import Py Str Sample_Model Sample_Spec Sample_Proofs SampleRef_Model SampleRef_Spec SampleRef_Proofs
  TrainedModel_Model TrainedModel_Spec TrainedModel_Proofs.
Local Open Scope string_scope.

(** A concrete sample used in the examples: silicon, a constant oxide layer, a film with ranges, air. *)
Definition ex_film : layer := mkLayer KLayer "film"
  (Some (Range (Flt 10) (Flt 20) (Some "thickness"))) (Some (Range (Flt 0) (Flt 5) (Some "roughness")))
  (Some (Range (Flt 1) (Flt 2) (Some "sld"))).
Definition ex_oxide : layer := mkLayer KConstantLayer "SiOx"
  (Some (Const (Flt 1) (Some "thickness"))) (Some (Const (Flt 2) (Some "roughness")))
  (Some (Const (Cpx false 17 3) (Some "sld"))).
Definition ex_sub : layer := mkLayer KSubstrate "Si" None (Some (Const (Flt 1) (Some "roughness")))
  (Some (Const (Flt 20) (Some "sld"))).
Definition ex_amb : layer := mkLayer KAmbient "air" None None (Some (Const (Flt 0) (Some "sld"))).
Definition ex_sample : structure := mkStructure ex_amb ex_sub [ex_oxide; ex_film].

Ltac ex := unfold valid_param, nonneg_min, num_below, comparable; simpl;
  repeat (match goal with
  | |- _ /\ _ => split
  | |- exists p, Some _ = Some p /\ _ => eexists; split; [reflexivity|]
  | |- Forall _ [] => constructor
  | |- Forall _ (_ :: _) => constructor
  end; simpl);
  try solve [reflexivity | exact I | lra | left; lra | left; split; reflexivity | intros [?|[? ?]]; lra].

(** ** C01 *)
Theorem C01_label_order s : ordinary_sample s ->
  label_names s = Ok (labels_of "thickness" (st_layers s) ++ labels_of "roughness" (st_substrate s :: st_layers s) ++
                      labels_of "sld" (all_layers s))%list.
Proof. exact (label_names_ordinary s). Qed.
Print Assumptions C01_label_order.

Theorem C01_label_counts n ls : List.length (labels_of n ls) = List.length ls.
Proof. exact (length_labels_of n ls). Qed.
Print Assumptions C01_label_counts.

(** Everything built from numbers and pairs through the constructors is an ordinary sample. *)
Theorem C01_built_samples_ordinary s : built_sample s -> ordinary_sample s.
Proof. exact (built_sample_ordinary s). Qed.
Print Assumptions C01_built_samples_ordinary.

Example C01_example : ordinary_sample ex_sample.
Proof. unfold ordinary_sample, substrate_layer, ambient_layer, film_layer, named. ex. Qed.

(** ** C02 *)
Theorem C02_distinct_labels s ns : ordinary_sample s -> NoDup (map l_name (all_layers s)) ->
  label_names s = Ok ns -> NoDup ns.
Proof. exact (label_names_NoDup s ns). Qed.
Print Assumptions C02_distinct_labels.

Theorem C02_same_name_collides s ns i j l k : ordinary_sample s -> label_names s = Ok ns ->
  nth_error (all_layers s) i = Some l -> nth_error (all_layers s) j = Some k -> i <> j -> l_name l = l_name k ->
  ~ NoDup ns.
Proof. exact (label_names_collide s ns i j l k). Qed.
Print Assumptions C02_same_name_collides.

Example C02_example : NoDup (map l_name (all_layers ex_sample)).
Proof. simpl. repeat (constructor; [simpl; intuition discriminate|]). constructor. Qed.

(** ** C03 *)
Theorem C03_dict_round_trip s : storable_sample s ->
  exists d s', to_dict s = Ok d /\ from_dict empty_structure d = (s', None) /\ same_sample s s' /\
    label_names s' = label_names s.
Proof. exact (dict_roundtrip s). Qed.
Print Assumptions C03_dict_round_trip.

Example C03_example : storable_sample ex_sample.
Proof. unfold storable_sample, storable_film, storable_real, storable_sld, const_opt, ex_sample; simpl. ex;
  intros ? E; inversion E; reflexivity. Qed.

(** ** C04: from_dict appends to the film layers that are already there instead of replacing them. *)
Theorem C04_from_dict_appends_partial s t : storable_sample s ->
  exists d t', to_dict s = Ok d /\ from_dict t d = (t', None) /\
    same_layer (st_ambient s) (st_ambient t') /\ same_layer (st_substrate s) (st_substrate t') /\
    exists new, st_layers t' = (st_layers t ++ new)%list /\ Forall2 same_layer (st_layers s) new.
Proof. exact (from_dict_appends s t). Qed.
Print Assumptions C04_from_dict_appends_partial.

Theorem C04_from_dict_replaces_refuted :
  ~ (forall s t d t', storable_sample s -> to_dict s = Ok d -> from_dict t d = (t', None) -> same_sample s t').
Proof. intros H. destruct (from_dict_appends ex_sample ex_sample C03_example) as (d & t' & E1 & E2 & _ & _ & new & E3 & E4).
  destruct (H _ _ _ _ C03_example E1 E2) as (_ & _ & K). rewrite E3 in K. apply Forall2_len in K, E4.
  rewrite app_length, <- E4 in K. simpl in K. lia. Qed.
Print Assumptions C04_from_dict_replaces_refuted.

(** ** C05 *)
Theorem C05_save_load {K V} (f : fs K V) p (t : trained_model K V) :
  storable_sample (tm_sample t) -> ~ has_flat_complex (tm_sample t) ->
  exists f' t', save_model f p t = (f', None) /\ from_file f' p = Ok t' /\
    tm_keras t' = tm_keras t /\ tm_q t' = tm_q t /\ tm_mean t' = tm_mean t /\ tm_std t' = tm_std t /\
    same_sample (tm_sample t) (tm_sample t') /\ label_names (tm_sample t') = label_names (tm_sample t) /\
    (forall q, q <> p -> f' q = f q).
Proof. exact (save_load f p t). Qed.
Print Assumptions C05_save_load.

Theorem C05_save_rejects_exactly {K V} (f : fs K V) p (t : trained_model K V) : storable_sample (tm_sample t) ->
  (snd (save_model f p t) <> None <-> has_flat_complex (tm_sample t)).
Proof. exact (save_rejects f p t). Qed.
Print Assumptions C05_save_rejects_exactly.

(** A rejected save has already replaced the previous file by one that cannot be loaded. *)
Theorem C05_rejected_save_destroys_file {K V} (f : fs K V) p (t : trained_model K V) :
  storable_sample (tm_sample t) -> has_flat_complex (tm_sample t) ->
  exists f', save_model f p t = (f', Some TypeError) /\ from_file f' p = Raise KeyError.
Proof. exact (save_reject_destroys f p t). Qed.
Print Assumptions C05_rejected_save_destroys_file.

Example C05_example : storable_sample ex_sample /\ ~ has_flat_complex ex_sample.
Proof. split; [exact C03_example|]. unfold has_flat_complex, flat_complex. intros H. simpl in H.
  repeat match goal with H : Exists _ _ |- _ => inversion H; clear H; subst end;
  match goal with H : exists np re n, _ |- _ => destruct H as (? & ? & ? & E); simpl in E; try discriminate; inversion E; lra end. Qed.

(** ** C06 *)
Theorem C06_move_layer (ls : list nat) i j x : NoDup ls -> nth_error ls i = Some x -> j < List.length ls ->
  exists ls', move_layer ls (Some (Z.of_nat i)) (Some (Z.of_nat j)) = (ls', None) /\
    nth_error ls' j = Some x /\ del_nth ls' j = del_nth ls i.
Proof. exact (move_layer_Ok ls i j x). Qed.
Print Assumptions C06_move_layer.

Example C06_example : NoDup [7; 8; 9; 10] /\ nth_error [7; 8; 9; 10] 0 = Some 7 /\
  move_layer [7; 8; 9; 10] (Some 0%Z) (Some 2%Z) = ([8; 9; 7; 10], None).
Proof. split; [|split; reflexivity]. repeat (constructor; [simpl; intuition discriminate|]). constructor. Qed.

(** ** C07 *)
(** Arguments that are not integers, and a source that does not exist, change nothing. *)
Theorem C07_not_an_integer ls f t : f = None \/ t = None -> move_layer ls f t = (ls, Some ValueError).
Proof. intros [-> | ->]; [|destruct f]; reflexivity. Qed.
Print Assumptions C07_not_an_integer.
Theorem C07_no_such_layer ls f t : norm_idx (List.length ls) f = None -> f <> t -> move_layer ls (Some f) (Some t) = (ls, Some IndexError).
Proof. intros N D. unfold move_layer, py_get. rewrite N. destruct (Z.ltb_spec f t); [reflexivity|]. destruct (Z.ltb_spec t f); [reflexivity|lia]. Qed.
Print Assumptions C07_no_such_layer.
Theorem C07_move_layer_keeps_layers_partial ls f t ls' e : (0 <= f \/ t <= f)%Z ->
  move_layer ls (Some f) (Some t) = (ls', e) -> Permutation ls ls' /\ (e <> None -> ls' = ls).
Proof. exact (move_layer_perm ls f t ls' e). Qed.
Print Assumptions C07_move_layer_keeps_layers_partial.

Theorem C07_move_layer_keeps_layers_refuted :
  exists ls f t ls', NoDup ls /\ move_layer ls (Some f) (Some t) = (ls', None) /\ ~ (forall x, In x ls -> In x ls').
Proof. exact move_layer_loses. Qed.
Print Assumptions C07_move_layer_keeps_layers_refuted.

Theorem C07_negative_source_deletes_a_layer a b rest : NoDup (a :: b :: rest) ->
  let ls := a :: b :: rest in let n := Z.of_nat (List.length ls) in
  exists ls', move_layer ls (Some (- n)%Z) (Some (n - 1)%Z) = (ls', None) /\ ~ In b ls'.
Proof. exact (move_layer_loses_any a b rest). Qed.
Print Assumptions C07_negative_source_deletes_a_layer.

Example C07_example : move_layer [7; 8; 9] (Some (-3)%Z) (Some 2%Z) = ([7; 9; 7], None) /\
  move_layer [7; 8; 9] (Some 2%Z) (Some (-3)%Z) = ([9; 7; 8], None).
Proof. split; reflexivity. Qed.

(** ** C08 *)
Theorem C08_swap_layers A (ls : list A) f t i j :
  norm_idx (List.length ls) f = Some i -> norm_idx (List.length ls) t = Some j ->
  exists ls', swap_layers ls (Some f) (Some t) = (ls', None) /\ List.length ls' = List.length ls /\
    forall k, nth_error ls' k = nth_error ls (if Nat.eqb k i then j else if Nat.eqb k j then i else k).
Proof. exact (swap_layers_Ok A ls f t i j). Qed.
Print Assumptions C08_swap_layers.

Theorem C08_swap_layers_invalid A (ls : list A) f t :
  norm_idx (List.length ls) f = None \/ norm_idx (List.length ls) t = None ->
  swap_layers ls (Some f) (Some t) = (ls, Some IndexError).
Proof. exact (swap_layers_bad A ls f t). Qed.
Print Assumptions C08_swap_layers_invalid.

Theorem C08_not_an_integer A (ls : list A) f t : f = None \/ t = None -> swap_layers ls f t = (ls, Some ValueError).
Proof. intros [-> | ->]; [|destruct f]; reflexivity. Qed.
Print Assumptions C08_not_an_integer.
Theorem C08_swap_layers_involutive A (ls ls' : list A) f t :
  swap_layers ls (Some f) (Some t) = (ls', None) -> swap_layers ls' (Some f) (Some t) = (ls, None).
Proof. exact (swap_layers_involutive A ls ls' f t). Qed.
Print Assumptions C08_swap_layers_involutive.

(** Python index normalisation, as used above: -n <= i < n are the valid indices. *)
Theorem C08_valid_indices n i k : norm_idx n i = Some k <->
  (0 <= i < Z.of_nat n /\ k = Z.to_nat i)%Z \/ (- Z.of_nat n <= i < 0 /\ k = Z.to_nat (Z.of_nat n + i))%Z.
Proof. exact (norm_idx_Some n i k). Qed.
Print Assumptions C08_valid_indices.

Example C08_example : swap_layers [7; 8; 9] (Some (-1)%Z) (Some 0%Z) = ([9; 8; 7], None) /\ norm_idx 3 (-1) = Some 2.
Proof. split; reflexivity. Qed.

(** ** C09 *)
Theorem C09_add_layer_on_top A (ls : list A) x : add_layer ls x INext = ((ls ++ [x])%list, None).
Proof. exact (add_layer_next A ls x). Qed.
Print Assumptions C09_add_layer_on_top.

Theorem C09_add_layer_at A (ls : list A) x i : exists ls',
  add_layer ls x (IInt i) = (ls', None) /\ List.length ls' = S (List.length ls) /\
  nth_error ls' (insert_pos (List.length ls) i) = Some x /\ del_nth ls' (insert_pos (List.length ls) i) = ls.
Proof. exact (add_layer_int A ls x i). Qed.
Print Assumptions C09_add_layer_at.

Theorem C09_add_layer_other A (ls : list A) x : add_layer ls x IOther = (ls, Some ValueError).
Proof. exact eq_refl. Qed.
Print Assumptions C09_add_layer_other.

Example C09_example : add_layer [7; 8; 9] 1 (IInt (-1)) = ([7; 8; 1; 9], None).
Proof. reflexivity. Qed.

(** ** C10 *)
Theorem C10_at_most_one_variable_refuted : exists calls : list (layer * index_arg),
  2 <= List.length (filter is_variable (los_run is_variable [] calls)).
Proof. exact los_refuted. Qed.
Print Assumptions C10_at_most_one_variable_refuted.

(** If the first layer added is the variable one and nothing is later inserted below it, the claim holds for every history. *)
Theorem C10_at_most_one_variable_partial x calls : is_variable x = true -> Forall above_bottom calls ->
  List.length (filter is_variable (los_run is_variable [] ((x, INext) :: calls))) = 1.
Proof. exact (los_first x calls). Qed.
Print Assumptions C10_at_most_one_variable_partial.

Theorem C10_second_variable_rejected A (variable : A -> bool) ls x i : variable x = true ->
  (exists v rest, ls = v :: rest /\ variable v = true) -> los_add_layer variable ls x i = (ls, Some ValueError).
Proof. exact (los_add_raises variable ls x i). Qed.
Print Assumptions C10_second_variable_rejected.

(** Everything else is accepted exactly as add_layer does it: constant layers always, a variable layer as long as the
    bottom layer is not variable. *)
Theorem C10_accepted A (variable : A -> bool) ls x i :
  variable x = false \/ (forall v rest, ls = v :: rest -> variable v = false) ->
  los_add_layer variable ls x i = add_layer ls x i.
Proof. intros [H|H]; unfold los_add_layer; [rewrite H; reflexivity|]. destruct (variable x); [|reflexivity].
  destruct ls as [|v rest]; [reflexivity|]. simpl. rewrite (H v rest eq_refl). reflexivity. Qed.
Print Assumptions C10_accepted.

Example C10_example : is_variable ex_film = true /\
  Forall above_bottom [(ex_oxide, IInt 1); (ex_film, INext); (ex_oxide, IInt 5)].
Proof. split; [reflexivity|]. repeat constructor; unfold above_bottom; simpl; lia. Qed.

(** ** C11 *)
Theorem C11_accepted_layers name t r s l : mk_layer name t r s = Ok l <->
  exists pt pr ps, denotes "thickness" t pt /\ denotes "roughness" r pr /\ denotes "sld" s ps /\
    nonneg_min pt /\ nonneg_min pr /\ l = mkLayer KLayer name (Some pt) (Some pr) (Some ps).
Proof. exact (mk_layer_Ok name t r s l). Qed.
Print Assumptions C11_accepted_layers.

Theorem C11_accepted_layers_valid name t r s l : mk_layer name t r s = Ok l -> well_formed l.
Proof. exact (mk_layer_wf name t r s l). Qed.
Print Assumptions C11_accepted_layers_valid.

(** The two conditions above, spelled out for every kind of number: a range needs its minimum below its maximum, where
    Python complex numbers cannot be compared unless a numpy complex number takes part; a thickness or roughness needs a
    minimum that is not below zero. *)
Theorem C11_range_condition lo hi n : valid_param (Range lo hi n) <->
  match lo, hi with
  | Flt x, Flt y => (x < y)%R
  | Flt x, Cpx np re im => np = true /\ (x < re \/ x = re /\ 0 < im)%R
  | Cpx np re im, Flt y => np = true /\ (re < y \/ re = y /\ im < 0)%R
  | Cpx np1 re1 im1, Cpx np2 re2 im2 => (np1 = true \/ np2 = true) /\ (re1 < re2 \/ re1 = re2 /\ im1 < im2)%R
  end.
Proof. destruct lo as [x|[] re im], hi as [y|[] re' im']; unfold valid_param, comparable, num_below; simpl;
  intuition (try discriminate; try lra). Qed.
Print Assumptions C11_range_condition.

Theorem C11_sign_condition p : nonneg_min p <->
  match p with
  | Range (Flt x) _ _ | Const (Flt x) _ => (0 <= x)%R
  | Range (Cpx np re im) _ _ | Const (Cpx np re im) _ => np = true /\ (0 < re \/ re = 0 /\ 0 <= im)%R
  end.
Proof. destruct p as [[x|[] re im] hi n|[x|[] re im] n]; unfold nonneg_min, comparable, num_below; simpl;
  (split; [intros [A B]|intros A]); repeat split; intuition (try discriminate; try lra);
  destruct (Rtotal_order re 0) as [?|[?|?]]; intuition (try lra). 
Qed.
Print Assumptions C11_sign_condition.

Example C11_example : exists l, mk_layer "film" (PISeq [JNum (Flt 1); JNum (Flt 2)]) (PIVal (JNum (Flt 0)))
  (PIVal (JDict 1 2)) = Ok l.
Proof. eexists. apply mk_layer_Ok. do 3 eexists. simpl. split; [split; [reflexivity|]|]. { ex. }
  split; [reflexivity|]. split; [reflexivity|]. ex. Qed.

(** ** C12 *)
Theorem C12_constant_layers_partial n t r s l : scalar t -> scalar r -> scalar s ->
  (mk_constant_layer n t r s = Ok l -> const_opt (l_thickness l) /\ const_opt (l_roughness l) /\ const_opt (l_sld l) /\
     l_thickness l <> None /\ l_roughness l <> None /\ l_sld l <> None) /\
  (mk_substrate n r s = Ok l -> const_opt (l_roughness l) /\ const_opt (l_sld l) /\ l_roughness l <> None /\ l_sld l <> None) /\
  (mk_ambient n s = Ok l -> const_opt (l_sld l) /\ l_sld l <> None).
Proof. exact (const_scalars n t r s l). Qed.
Print Assumptions C12_constant_layers_partial.

(** A pair given to AmbientLayer is accepted without an error and the SLD is lost. *)
Theorem C12_pair_accepted_refuted name a b :
  mk_ambient name (PISeq [a; b]) = Ok (mkLayer KAmbient name None None None).
Proof. exact (const_pair_silent name a b). Qed.
Print Assumptions C12_pair_accepted_refuted.

(** A Parameter object with a range is accepted by ConstantLayer and stays a range. *)
Theorem C12_range_accepted_refuted name lo hi : (lo < hi)%R -> (0 <= lo)%R ->
  exists l p, mk_constant_layer name (PIParam (Range (Flt lo) (Flt hi) None)) (PIVal (JNum (Flt 0))) (PIVal (JNum (Flt 0))) = Ok l /\
    l_thickness l = Some p /\ is_const p = false.
Proof. exact (const_param_range name lo hi). Qed.
Print Assumptions C12_range_accepted_refuted.

(** The values a constant layer holds are the numbers it was given. *)
Theorem C12_constant_values n t r s l :
  (mk_constant_layer n (PIVal t) (PIVal r) (PIVal s) = Ok l -> l = mkLayer KConstantLayer n
     (Some (Const (jnum t) (Some "thickness"))) (Some (Const (jnum r) (Some "roughness"))) (Some (Const (jnum s) (Some "sld")))) /\
  (mk_substrate n (PIVal r) (PIVal s) = Ok l -> l = mkLayer KSubstrate n None
     (Some (Const (jnum r) (Some "roughness"))) (Some (Const (jnum s) (Some "sld")))) /\
  mk_ambient n (PIVal s) = Ok (mkLayer KAmbient n None None (Some (Const (jnum s) (Some "sld")))).
Proof. split; [|split].
  - intros H. apply mk_constant_layer_Ok in H; simpl; auto. destruct H as (a & b & c & E1 & E2 & E3 & _ & _ & ->).
    inversion E1; inversion E2; inversion E3; reflexivity.
  - intros H. apply mk_substrate_Ok in H; simpl; auto. destruct H as (a & b & E1 & E2 & _ & ->).
    inversion E1; inversion E2; reflexivity.
  - destruct (mk_ambient_Ok n (PIVal s) I) as (v & E & ->). inversion E; reflexivity. Qed.
Print Assumptions C12_constant_values.

(** They are accepted as soon as thickness and roughness are real numbers that are not negative. *)
Theorem C12_constant_accepted n t r s : (0 <= t)%R -> (0 <= r)%R ->
  (exists l, mk_constant_layer n (PIVal (JNum (Flt t))) (PIVal (JNum (Flt r))) (PIVal s) = Ok l) /\
  (exists l, mk_substrate n (PIVal (JNum (Flt r))) (PIVal s) = Ok l).
Proof. intros Ht Hr. split; eexists.
  - apply mk_constant_layer_Ok; simpl; auto. do 3 eexists. do 3 (split; [reflexivity|]).
    split; [apply C11_sign_condition; simpl; exact Ht|]. split; [apply C11_sign_condition; simpl; exact Hr|reflexivity].
  - apply mk_substrate_Ok; simpl; auto. do 2 eexists. do 2 (split; [reflexivity|]).
    split; [apply C11_sign_condition; simpl; exact Hr|reflexivity]. Qed.
Print Assumptions C12_constant_accepted.

(** The error only shows up later: a sample with such an ambient cannot list its labels. *)
Theorem C12_pair_fails_later name a b s l : mk_ambient name (PISeq [a; b]) = Ok l ->
  ordinary_sample s -> label_names (mkStructure l (st_substrate s) (st_layers s)) = Raise AttributeError.
Proof. intros H Hs. rewrite const_pair_silent in H. inversion H; subst l; clear H.
  pose proof (ordinary_films s Hs) as (Ht & Hr & Hd). destruct Hs as (Hb & _ & _).
  set (l := mkLayer KAmbient name None None None).
  unfold label_names, thicknesses, roughnesses, slds, sample_structure. cbn [st_ambient st_substrate st_layers app].
  destruct (collect_thickness_films (st_layers s) [l] [] Ht eq_refl) as (ts & Et & _).
  destruct (collect_roughness_films (st_substrate s :: st_layers s) [l] [] Hr eq_refl) as (rs & Er & _).
  cbn [collect_thickness]. rewrite (proj1 Hb), Et. cbn [app] in Er. cbn [bind]. rewrite Er. cbn [bind].
  assert (K : forall ls, Forall (fun x => named "sld" (l_sld x)) ls -> collect_sld (ls ++ [l]) = Raise AttributeError).
  { induction 1 as [|x xs (p & Hp & Hv & Hn) _ IH]; [reflexivity|]. cbn [collect_sld app].
    rewrite Hp, (relabel_named "sld" x p Hv Hn). cbn [bind]. rewrite IH. reflexivity. }
  unfold all_layers in Hd. rewrite app_comm_cons in Hd. apply Forall_app in Hd. destruct Hd as (Hd & _).
  specialize (K _ Hd). cbn [app] in K. rewrite K. reflexivity. Qed.
Print Assumptions C12_pair_fails_later.

Example C12_example : exists l, mk_substrate "Si" (PIVal (JNum (Flt 1))) (PIVal (JNum (Flt 20))) = Ok l.
Proof. eexists. apply mk_substrate_Ok; simpl; auto. do 2 eexists. split; [reflexivity|]. split; [reflexivity|].
  split; [|reflexivity]. split; [left; auto|]. unfold num_below; simpl; intros [?|[? ?]]; lra. Qed.

(** ** C13 *)
Theorem C13_copy_independent h r s : view h r = Some s -> Forall well_formed (all_layers s) ->
  exists h' c, copy_structure h r = Ok (h', c) /\ view h' c = Some s /\ view h' r = Some s /\
  (forall ops h'' c', run (h', c) ops = (h'', c') -> view h'' r = Some s) /\
  (forall ops h'' r', run (h', r) ops = (h'', r') -> view h'' c = Some s).
Proof. exact (copy_independent h r s). Qed.
Print Assumptions C13_copy_independent.

Example C13_example : view [ex_amb; ex_sub; ex_oxide; ex_film] (mkR 0 1 [2; 3]) = Some ex_sample /\
  Forall well_formed (all_layers ex_sample).
Proof. split; [reflexivity|]. unfold all_layers, well_formed, good_dim; simpl. ex. Qed.
