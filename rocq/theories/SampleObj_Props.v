(** Properties of sample objects (C164-C168). *)
From Coq Require Import Reals Lra.
From Verif Require Import Py Str Sample_Model Sample_Spec Sample_Proofs SampleRef_Model SampleRef_Spec SampleRef_Proofs Sample_Props
  SampleObj_Model SampleObj_Spec SampleObj_Proofs.
Local Open Scope string_scope.

(** ** C164: a sample is the sequence substrate, films, ambient *)
Theorem C164_sequence o : obj_iter o = (st_substrate (o_struct o) :: st_layers (o_struct o) ++ [st_ambient (o_struct o)])%list /\
  obj_len o = List.length (st_layers (o_struct o)) + 2 /\ obj_bool o = true.
Proof. exact (conj (obj_iter_eq o) (conj (obj_len_eq o) (obj_bool_true o))). Qed.
Print Assumptions C164_sequence.
Theorem C164_ends o : obj_get o 0 = Ok (st_substrate (o_struct o)) /\ obj_get o (-1) = Ok (st_ambient (o_struct o)).
Proof. exact (obj_get_ends o). Qed.
Print Assumptions C164_ends.
Theorem C164_films o i l : nth_error (st_layers (o_struct o)) i = Some l ->
  obj_get o (Z.of_nat i + 1) = Ok l /\ obj_get o (Z.of_nat i - Z.of_nat (List.length (st_layers (o_struct o))) - 1) = Ok l.
Proof. exact (obj_get_film o i l). Qed.
Print Assumptions C164_films.
Theorem C164_out_of_range o i :
  (i < - Z.of_nat (List.length (st_layers (o_struct o)) + 2) \/ Z.of_nat (List.length (st_layers (o_struct o)) + 2) <= i)%Z -> obj_get o i = Raise IndexError.
Proof. exact (obj_get_bad o i). Qed.
Print Assumptions C164_out_of_range.
Theorem C164_inner_slice o : obj_slice o (Some 1%Z) (Some (-1)%Z) = st_layers (o_struct o).
Proof. exact (obj_slice_films o). Qed.
Print Assumptions C164_inner_slice.
Example C164_example : let o := mkObj CMultilayer ex_sample in obj_len o = 4 /\ obj_get o 2 = Ok ex_film /\ obj_get o (-2) = Ok ex_film /\ obj_get o 4 = Raise IndexError.
Proof. repeat split. Qed.

(** ** C10: the question for a variable layer *)
(** [has_variable_layer] is None without layers and otherwise tells whether the bottom layer is variable. *)
Theorem C10_query o : (st_layers (o_struct o) = [] /\ obj_has_variable o = None) \/
  exists l ls b, st_layers (o_struct o) = l :: ls /\ obj_has_variable o = Some b /\ (b = true <-> l_kind l = KLayer).
Proof. unfold obj_has_variable. destruct (st_layers (o_struct o)) as [|l ls]; [left; split; reflexivity|]. right. exists l, ls, (not_constant l). split; [reflexivity|]. split; [reflexivity|].
  unfold not_constant. destruct (l_kind l); split; congruence. Qed.
Print Assumptions C10_query.
Theorem C10_query_refuted : exists o, o_class o = CLayerOnSubstrate /\ (exists l, In l (st_layers (o_struct o)) /\ l_kind l = KLayer) /\ obj_has_variable o = Some false.
Proof. exists (mkObj CLayerOnSubstrate (mkStructure ex_amb ex_sub [ex_oxide; ex_film])). split; [reflexivity|]. split; [exists ex_film; split; [right; left; reflexivity|reflexivity]|reflexivity]. Qed.
Print Assumptions C10_query_refuted.

(** ** C165: objects that are not layers *)
Theorem C165_not_a_layer_partial o i : obj_set_ambient o AOther = (o, Some ValueError) /\ obj_set_substrate o AOther = (o, Some ValueError) /\
  (o_class o = CMultilayer -> obj_add_layer o AOther i = (o, Some ValueError)).
Proof. split; [reflexivity|]. split; [reflexivity|]. intros E. unfold obj_add_layer. rewrite E. reflexivity. Qed.
Print Assumptions C165_not_a_layer_partial.
(** LayerOnSubstrate.add_layer ignores them silently. *)
Theorem C165_not_a_layer_refuted o i : o_class o = CLayerOnSubstrate -> obj_add_layer o AOther i = (o, None).
Proof. intros E. unfold obj_add_layer. rewrite E. reflexivity. Qed.
Print Assumptions C165_not_a_layer_refuted.
Example C165_example : o_class (obj_new CMultilayer) = CMultilayer /\ o_class (obj_new CLayerOnSubstrate) = CLayerOnSubstrate.
Proof. split; reflexivity. Qed.

(** ** C166: each place holds a layer of its class *)
(** With arguments of the right class, every history of calls ends in an ordinary sample, for both sample classes. *)
Theorem C166_right_classes_partial c ps : Forall right_class ps -> ordinary_sample (o_struct (obj_run (obj_new c) ps)).
Proof. intros R. exact (right_run ps (obj_new c) R (ordinary_new c)). Qed.
Print Assumptions C166_right_classes_partial.
(** Any layer object is accepted in any place. *)
Theorem C166_any_class_refuted o l :
  (exists o', obj_set_ambient o (ALayer l) = (o', None) /\ st_ambient (o_struct o') = l) /\
  (exists o', obj_set_substrate o (ALayer l) = (o', None) /\ st_substrate (o_struct o') = l) /\
  (o_class o = CMultilayer -> exists o', obj_add_layer o (ALayer l) INext = (o', None) /\ st_layers (o_struct o') = (st_layers (o_struct o) ++ [l])%list) /\
  (o_class o = CLayerOnSubstrate -> ~ variable_layer l -> exists o', obj_add_layer o (ALayer l) INext = (o', None) /\ st_layers (o_struct o') = (st_layers (o_struct o) ++ [l])%list).
Proof. split; [eexists; split; reflexivity|]. split; [eexists; split; reflexivity|]. split; intros E; [|intros V]; unfold obj_add_layer; rewrite E; [eexists; split; reflexivity|].
  unfold los_add_layer. replace (not_constant l) with false; [eexists; split; reflexivity|]. unfold variable_layer, not_constant in *. destruct (l_kind l); congruence. Qed.
Print Assumptions C166_any_class_refuted.
(** A substrate among the films: there are fewer thicknesses than films. *)
Theorem C166_thickness_missing s l : ordinary_sample s -> l_thickness l = None -> exists o qs, obj_add_layer (mkObj CMultilayer s) (ALayer l) INext = (o, None) /\
  thicknesses (o_struct o) = Ok qs /\ S (List.length qs) = List.length (st_layers (o_struct o)).
Proof. exact (film_without_thickness s l). Qed.
Print Assumptions C166_thickness_missing.
Example C166_example : Forall right_class [SSetAmbient (ALayer ex_amb); SAdd (ALayer ex_oxide) INext; SAdd AOther INext; SAdd (ALayer ex_film) (IInt 0)] /\ l_thickness ex_sub = None /\
  ordinary_sample ex_sample.
Proof. split; [|split; [reflexivity|exact C01_example]]. pose proof C01_example as (_ & F & A). inversion F as [|? ? F1 F']; subst. inversion F' as [|? ? F2 _]; subst.
  apply Forall_cons; [exact A|]. apply Forall_cons; [exact F1|]. apply Forall_cons; [exact I|]. apply Forall_cons; [exact F2|constructor]. Qed.

(** ** C167: copies *)
Theorem C167_copy_partial o : Forall well_formed (all_layers (o_struct o)) -> exists o', obj_copy o = Ok o' /\ o_struct o' = o_struct o /\ (o_class o = CMultilayer -> o' = o).
Proof. intros W. eexists. split; [exact (obj_copy_eq o W)|]. split; [reflexivity|]. destruct o as [c s]; cbn. intros ->. reflexivity. Qed.
Print Assumptions C167_copy_partial.
(** The copy of a LayerOnSubstrate accepts the second variable layer that the original refuses. *)
Theorem C167_copy_class_refuted o v rest l : o_class o = CLayerOnSubstrate -> Forall well_formed (all_layers (o_struct o)) -> st_layers (o_struct o) = (v :: rest)%list ->
  variable_layer v -> variable_layer l -> exists o', obj_copy o = Ok o' /\ obj_add_layer o (ALayer l) INext = (o, Some ValueError) /\
    exists o2, obj_add_layer o' (ALayer l) INext = (o2, None) /\ st_layers (o_struct o2) = (v :: rest ++ [l])%list.
Proof. intros C W E V L. eexists. split; [exact (obj_copy_eq o W)|]. destruct o as [c [a b ls]]. cbn [o_class o_struct st_layers] in *. subst c ls. split.
  - unfold obj_add_layer. cbn [o_class o_struct st_layers]. unfold los_add_layer. rewrite (not_constant_layer l L). cbn [has_variable_layer]. rewrite (not_constant_layer v V). reflexivity.
  - eexists. split; reflexivity. Qed.
Print Assumptions C167_copy_class_refuted.
Example C167_example : let o := mkObj CLayerOnSubstrate (mkStructure ex_amb ex_sub [ex_film; ex_oxide]) in
  Forall well_formed (all_layers (o_struct o)) /\ variable_layer ex_film /\ st_layers (o_struct o) = [ex_film; ex_oxide].
Proof. split; [|split; reflexivity]. unfold all_layers, well_formed, good_dim; simpl. ex. Qed.

(** ** C168: restoring a LayerOnSubstrate from its dictionary *)
(** For a MultilayerStructure, [from_dict] is the function of C03 and C04. *)
Theorem C168_multilayer s d : obj_from_dict (mkObj CMultilayer s) d = (mkObj CMultilayer (fst (from_dict s d)), snd (from_dict s d)).
Proof. exact (obj_from_dict_multi s d). Qed.
Print Assumptions C168_multilayer.
Theorem C168_layer_on_substrate_partial s : storable_sample s -> List.length (st_layers s) <= 1 -> exists d o, to_dict s = Ok d /\
  obj_from_dict (obj_new CLayerOnSubstrate) d = (o, None) /\ o_class o = CLayerOnSubstrate /\ same_sample s (o_struct o).
Proof. exact (los_one_film s). Qed.
Print Assumptions C168_layer_on_substrate_partial.
(** With two or more films (e.g. a constant oxide and the variable film) it raises and keeps only the lowest film. *)
Theorem C168_layer_on_substrate_refuted s : storable_sample s -> 2 <= List.length (st_layers s) -> exists d o l0, to_dict s = Ok d /\
  obj_from_dict (obj_new CLayerOnSubstrate) d = (o, Some ValueError) /\ o_class o = CLayerOnSubstrate /\ st_layers (o_struct o) = [l0] /\
  exists f0, nth_error (st_layers s) 0 = Some f0 /\ same_layer f0 l0.
Proof. exact (los_two_films s). Qed.
Print Assumptions C168_layer_on_substrate_refuted.
Example C168_example : storable_sample ex_sample /\ List.length (st_layers ex_sample) = 2 /\
  (exists o, obj_add_layer (mkObj CLayerOnSubstrate (mkStructure ex_amb ex_sub [ex_oxide])) (ALayer ex_film) INext = (o, None) /\ o_struct o = ex_sample) /\
  storable_sample (mkStructure ex_amb ex_sub [ex_film]).
Proof. pose proof C03_example as H. split; [exact H|]. split; [reflexivity|]. split; [eexists; split; reflexivity|]. destruct H as (A & B & C). split; [exact A|]. split; [exact B|]. inversion C; assumption. Qed.
