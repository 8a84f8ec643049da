From Coq Require Import Reals Lra.
From Verif Require Import Py Str Sample_Model Sample_Spec Sample_Proofs SampleRef_Model SampleRef_Spec SampleRef_Proofs SampleObj_Model SampleObj_Spec.

(** *** Indexing *)
Lemma obj_iter_eq o : obj_iter o = st_substrate (o_struct o) :: st_layers (o_struct o) ++ [st_ambient (o_struct o)].
Proof. reflexivity. Qed.
Lemma obj_len_eq o : obj_len o = List.length (st_layers (o_struct o)) + 2.
Proof. unfold obj_len. change (sample_structure (o_struct o)) with (obj_iter o). rewrite obj_iter_eq. cbn [List.length]. rewrite app_length. cbn [List.length]. lia. Qed.
Lemma obj_bool_true o : obj_bool o = true.
Proof. unfold obj_bool. rewrite obj_len_eq. destruct (Nat.eqb_spec (List.length (st_layers (o_struct o)) + 2) 0); [lia|reflexivity]. Qed.

Lemma obj_get_nat o k l : nth_error (obj_iter o) k = Some l -> obj_get o (Z.of_nat k) = Ok l /\ obj_get o (Z.of_nat k - Z.of_nat (obj_len o)) = Ok l.
Proof. intros H. split; [apply py_get_nat, H|]. unfold obj_get. assert (k < obj_len o) as L by (apply nth_error_Some; unfold obj_iter in H; congruence).
  destruct (py_get_total (sample_structure (o_struct o)) (Z.of_nat k - Z.of_nat (obj_len o)) (k := k)) as (x & Hx & G).
  - apply norm_idx_Some. right. unfold obj_len in *. split; [lia|]. rewrite <- (Nat2Z.id k) at 1. f_equal. lia.
  - rewrite G. f_equal. unfold obj_iter in H. congruence. Qed.

Lemma obj_get_film o i l : nth_error (st_layers (o_struct o)) i = Some l ->
  obj_get o (Z.of_nat i + 1) = Ok l /\ obj_get o (Z.of_nat i - Z.of_nat (List.length (st_layers (o_struct o))) - 1) = Ok l.
Proof. intros H. assert (N : nth_error (obj_iter o) (S i) = Some l).
  { rewrite obj_iter_eq. cbn [nth_error]. rewrite nth_error_app1; [exact H|]. apply nth_error_Some. congruence. }
  apply obj_get_nat in N. rewrite obj_len_eq in N. destruct N as [N1 N2]. split; [rewrite <- N1|rewrite <- N2]; f_equal; lia. Qed.
Lemma obj_get_ends o : obj_get o 0 = Ok (st_substrate (o_struct o)) /\ obj_get o (-1) = Ok (st_ambient (o_struct o)).
Proof. split; [reflexivity|]. assert (N : nth_error (obj_iter o) (S (List.length (st_layers (o_struct o)))) = Some (st_ambient (o_struct o))).
  { rewrite obj_iter_eq. cbn [nth_error]. rewrite nth_error_app2 by lia. rewrite Nat.sub_diag. reflexivity. }
  apply obj_get_nat in N. rewrite obj_len_eq in N. destruct N as [_ N2]. rewrite <- N2. f_equal. lia. Qed.
Lemma obj_get_bad o i : (i < - Z.of_nat (List.length (st_layers (o_struct o)) + 2) \/ Z.of_nat (List.length (st_layers (o_struct o)) + 2) <= i)%Z -> obj_get o i = Raise IndexError.
Proof. intros H. rewrite <- obj_len_eq in H. apply norm_idx_None in H. unfold obj_get, py_get. unfold obj_len in H. rewrite H. reflexivity. Qed.
Lemma obj_slice_films o : obj_slice o (Some 1%Z) (Some (-1)%Z) = st_layers (o_struct o).
Proof. unfold obj_slice, py_slice. change (sample_structure (o_struct o)) with (obj_iter o). rewrite obj_iter_eq. set (a := st_substrate _). set (z := st_ambient _). set (l := st_layers _).
  assert (L : List.length (a :: l ++ [z]) = S (S (List.length l))) by (cbn [List.length]; rewrite app_length; cbn; lia). rewrite L.
  assert (C1 : clamp_idx (S (S (List.length l))) 1 = 1) by (unfold clamp_idx; cbn -[Z.min Z.max Z.of_nat]; lia).
  assert (C2 : clamp_idx (S (S (List.length l))) (-1) = S (List.length l)) by (unfold clamp_idx; cbn -[Z.min Z.max Z.of_nat Z.add]; lia).
  rewrite C1, C2. cbn [skipn]. replace (S (List.length l) - 1) with (List.length l) by lia. rewrite firstn_app, Nat.sub_diag, firstn_all. cbn [firstn]. apply app_nil_r. Qed.

(** *** The class of the object never changes *)
Lemma obj_add_layer_class o x i : o_class (fst (obj_add_layer o x i)) = o_class o.
Proof. destruct o as [[|] s]; unfold obj_add_layer; cbn [o_class o_struct]; destruct x as [l|]; cbn [check_layer_type]; try reflexivity; match goal with |- context [let '(_, _) := ?t in _] => destruct t end; reflexivity. Qed.

(** *** Restoring from a dictionary *)
Lemma obj_add_dicts_multi ds : forall s, obj_add_dicts (mkObj CMultilayer s) ds = (mkObj CMultilayer (fst (add_dicts s ds)), snd (add_dicts s ds)).
Proof. induction ds as [|d ds IH]; intros s; [reflexivity|]. cbn [obj_add_dicts add_dicts]. destruct (layer_of_dict d) as [l|e]; [|reflexivity].
  unfold obj_add_layer. cbn [o_class o_struct check_layer_type add_layer obj_with]. apply IH. Qed.
Lemma obj_from_dict_multi s d : obj_from_dict (mkObj CMultilayer s) d = (mkObj CMultilayer (fst (from_dict s d)), snd (from_dict s d)).
Proof. unfold obj_from_dict, from_dict. destruct (ambient_of_dict _) as [a|e]; [|reflexivity]. cbn [obj_set_ambient check_layer_type obj_with o_class o_struct].
  destruct (substrate_of_dict _) as [b|e]; [|reflexivity]. cbn [obj_set_substrate check_layer_type obj_with o_class o_struct]. apply obj_add_dicts_multi. Qed.

Lemma layer_of_dict_kind d l : layer_of_dict d = Ok l -> l_kind l = KLayer.
Proof. unfold layer_of_dict. destruct (d_thickness d), (d_roughness d), (d_sld d); try discriminate. intros H. apply mk_layer_Ok in H. destruct H as (pt & pr & ps & _ & _ & _ & _ & _ & ->). reflexivity. Qed.

Lemma not_constant_layer l : l_kind l = KLayer -> not_constant l = true.
Proof. unfold not_constant. intros ->. reflexivity. Qed.

Lemma los_from_dict s t : storable_sample s -> exists d a b films, to_dict s = Ok d /\ same_layer (st_ambient s) a /\ same_layer (st_substrate s) b /\
  Forall2 same_layer (st_layers s) films /\ Forall (fun l => l_kind l = KLayer) films /\ ambient_layer a /\ substrate_layer b /\ Forall film_layer films /\
  forall c, obj_from_dict (mkObj c t) d = obj_add_dicts (mkObj c (mkStructure a b (st_layers t))) (rev (sd_layers d)) /\ Forall2 (fun x l => layer_of_dict x = Ok l) (rev (sd_layers d)) films.
Proof. intros ((A1 & A2 & A3 & A4) & (B1 & B2 & B3 & B4 & B5) & Hls).
  destruct (ambient_roundtrip _ A1 A2 A3 A4) as (da & a' & Ea & Fa & Sa & Aa & Aa0). destruct (substrate_roundtrip _ B1 B2 B3 B4 B5) as (db & b' & Eb & Fb & Sb & Ab & Ab0).
  destruct (films_roundtrip (st_layers s) Hls) as (ds & ls' & E & F & Sl & FL & _).
  exists (mkSdict da (rev ds) db), a', b', ls'. unfold to_dict. rewrite Ea, Eb. cbn [bind].
  assert (R : mapM layer_to_dict (rev (st_layers s)) = Ok (rev ds)). { apply mapM_Ok_iff. apply Forall2_rev. apply mapM_Ok_iff. exact E. }
  rewrite R. cbn [bind]. split; [reflexivity|]. split; [exact Sa|]. split; [exact Sb|]. split; [exact Sl|]. split.
  { clear - F. induction F as [|x l ds ls H _ IH]; constructor; [apply layer_of_dict_kind in H; exact H|exact IH]. }
  split; [exact Aa|]. split; [exact Ab|]. split; [exact FL|]. intros c. cbn [sd_layers]. rewrite rev_involutive. split; [|exact F].
  unfold obj_from_dict. cbn [sd_ambient sd_substrate sd_layers]. rewrite Fa. cbn [obj_set_ambient check_layer_type obj_with o_class o_struct]. rewrite Fb. cbn [obj_set_substrate check_layer_type obj_with o_class o_struct].
  rewrite rev_involutive. reflexivity. Qed.

Lemma los_two_films s : storable_sample s -> 2 <= List.length (st_layers s) -> exists d o l0, to_dict s = Ok d /\
  obj_from_dict (obj_new CLayerOnSubstrate) d = (o, Some ValueError) /\ o_class o = CLayerOnSubstrate /\ st_layers (o_struct o) = [l0] /\
  exists f0, nth_error (st_layers s) 0 = Some f0 /\ same_layer f0 l0.
Proof. intros H L. destruct (los_from_dict s empty_structure H) as (d & a & b & films & Ed & _ & _ & Sf & K & _ & _ & _ & R). destruct (R CLayerOnSubstrate) as [E F]. clear R.
  exists d. change (obj_new CLayerOnSubstrate) with (mkObj CLayerOnSubstrate empty_structure). rewrite E. cbn [st_layers empty_structure].
  destruct (st_layers s) as [|f0 [|f1 fs]]; cbn [List.length] in L; try lia. inversion Sf as [|? l0 ? ls0 S0 Sf0]; subst. inversion Sf0 as [|? l1 ? ls1 S1 Sf1]; subst.
  inversion F as [|x0 ? xs0 ? X0 F0]; subst. inversion F0 as [|x1 ? xs1 ? X1 F1]; subst. inversion K as [|? ? K0 K']; subst. inversion K' as [|? ? K1 _]; subst.
  cbn [obj_add_dicts]. rewrite X0. unfold obj_add_layer at 1. cbn [o_class o_struct]. unfold los_add_layer at 1. rewrite (not_constant_layer _ K0). cbn [has_variable_layer st_layers add_layer app with_films obj_with].
  rewrite X1. unfold obj_add_layer at 1. cbn [o_class o_struct]. unfold los_add_layer. rewrite (not_constant_layer _ K1). cbn [has_variable_layer st_layers with_films obj_with o_class o_struct]. rewrite (not_constant_layer _ K0).
  eexists _, l0. split; [exact Ed|]. split; [reflexivity|]. split; [reflexivity|]. split; [reflexivity|]. exists f0. split; [reflexivity|exact S0]. Qed.

Lemma los_one_film s : storable_sample s -> List.length (st_layers s) <= 1 -> exists d o, to_dict s = Ok d /\
  obj_from_dict (obj_new CLayerOnSubstrate) d = (o, None) /\ o_class o = CLayerOnSubstrate /\ same_sample s (o_struct o).
Proof. intros H L. destruct (los_from_dict s empty_structure H) as (d & a & b & films & Ed & Sa & Sb & Sf & K & _ & _ & _ & R). destruct (R CLayerOnSubstrate) as [E F]. clear R.
  exists d. change (obj_new CLayerOnSubstrate) with (mkObj CLayerOnSubstrate empty_structure). rewrite E. cbn [st_layers empty_structure]. unfold same_sample.
  destruct (st_layers s) as [|f0 [|f1 fs]]; cbn [List.length] in L; try lia; inversion Sf as [|? l0 ? ls0 S0 Sf0]; subst.
  - inversion F; subst. cbn [obj_add_dicts]. eexists. split; [exact Ed|]. split; [reflexivity|]. split; [reflexivity|]. split; [exact Sa|split; [exact Sb|constructor]].
  - inversion Sf0; subst. inversion F as [|x0 ? xs0 ? X0 F0]; subst. inversion F0; subst. inversion K as [|? ? K0 _]; subst. cbn [obj_add_dicts]. rewrite X0. unfold obj_add_layer. cbn [o_class o_struct].
    unfold los_add_layer. rewrite (not_constant_layer _ K0). cbn [has_variable_layer st_layers add_layer app with_films obj_with st_ambient st_substrate].
    eexists. split; [exact Ed|]. split; [reflexivity|]. split; [reflexivity|]. cbn [o_struct st_ambient st_substrate st_layers]. split; [exact Sa|]. split; [exact Sb|]. constructor; [exact S0|constructor]. Qed.

(** *** Right classes *)
Lemma ordinary_add o l i : ordinary_sample (o_struct o) -> film_layer l -> ordinary_sample (o_struct (fst (obj_add_layer o (ALayer l) i))).
Proof. intros (Hs & Hl & Ha) F.
  assert (K : Forall film_layer (fst (add_layer (st_layers (o_struct o)) l i))).
  { destruct i as [|i|]; cbn [add_layer fst]; [apply Forall_app; split; [exact Hl|constructor; [exact F|constructor]]| |exact Hl].
    apply Forall_forall. intros y Hy. apply py_insert_In in Hy. destruct Hy as [->|Hy]; [exact F|]. rewrite Forall_forall in Hl. apply Hl, Hy. }
  destruct o as [[|] s]; unfold obj_add_layer; cbn [o_class o_struct check_layer_type] in *.
  - destruct (add_layer (st_layers s) l i) as [ls e]. split; [exact Hs|]. split; [exact K|exact Ha].
  - unfold los_add_layer. destruct (not_constant l); [destruct (has_variable_layer _ _)|]; [split; [exact Hs|split; [exact Hl|exact Ha]]| |];
      destruct (add_layer (st_layers s) l i) as [ls e]; (split; [exact Hs|split; [exact K|exact Ha]]). Qed.

Lemma ordinary_add_dicts ds films : Forall2 (fun x l => layer_of_dict x = Ok l) ds films -> Forall film_layer films ->
  forall o, ordinary_sample (o_struct o) -> ordinary_sample (o_struct (fst (obj_add_dicts o ds))).
Proof. induction 1 as [|x l ds films X F IH]; intros FF o O; [exact O|]. cbn [obj_add_dicts]. rewrite X. inversion FF; subst.
  pose proof (ordinary_add o l INext O ltac:(assumption)) as O1. destruct (obj_add_layer o (ALayer l) INext) as [o1 [e|]]; [exact O1|]. apply IH; assumption. Qed.

Lemma right_step o p : right_class p -> ordinary_sample (o_struct o) -> ordinary_sample (o_struct (fst (obj_step o p))).
Proof. destruct p as [[l|]|[l|]|[l|] i|d]; cbn [right_class obj_step]; intros R O; try exact O.
  - destruct O as (Hs & Hl & Ha). split; [exact Hs|]. split; [exact Hl|exact R].
  - destruct O as (Hs & Hl & Ha). split; [exact R|]. split; [exact Hl|exact Ha].
  - apply ordinary_add; assumption.
  - destruct o as [[|] s]; exact O.
  - destruct R as (s & S & D). destruct o as [c t]. destruct (los_from_dict s t S) as (d' & a & b & films & Ed & _ & _ & _ & _ & Aa & Ab & FL & R).
    rewrite Ed in D. injection D as <-. destruct (R c) as [E F]. rewrite E. apply (ordinary_add_dicts _ films F FL). destruct O as (Hs & Hl & Ha). split; [exact Ab|]. split; [exact Hl|exact Aa]. Qed.
Lemma right_run ps : forall o, Forall right_class ps -> ordinary_sample (o_struct o) -> ordinary_sample (o_struct (obj_run o ps)).
Proof. unfold obj_run. induction ps as [|p ps IH]; intros o R O; [exact O|]. inversion R; subst. cbn [fold_left]. apply IH; [assumption|]. apply right_step; assumption. Qed.
Lemma ordinary_new c : ordinary_sample (o_struct (obj_new c)).
Proof. split; [|split]; [|constructor|]; repeat split; try apply named_const. Qed.

(** A substrate object among the film layers *)
Lemma film_without_thickness s l : ordinary_sample s -> l_thickness l = None -> exists o qs, obj_add_layer (mkObj CMultilayer s) (ALayer l) INext = (o, None) /\
  thicknesses (o_struct o) = Ok qs /\ S (List.length qs) = List.length (st_layers (o_struct o)).
Proof. intros O T. pose proof (ordinary_films s O) as (Ht & _ & _). destruct O as (Hs & Hl & Ha). eexists.
  destruct (collect_thickness_films (st_layers s) [l; st_ambient s] [] Ht) as (qs & E & F).
  { cbn [collect_thickness]. rewrite T, (proj1 Ha). reflexivity. }
  exists qs. split; [reflexivity|]. unfold thicknesses, sample_structure, obj_with, with_films, add_layer. cbn [o_struct o_class st_substrate st_ambient st_layers].
  split.
  - cbn [app collect_thickness]. rewrite (proj1 Hs). rewrite <- app_assoc. cbn [app]. rewrite E, app_nil_r. reflexivity.
  - apply Forall2_len in F. rewrite app_length. cbn [List.length]. lia. Qed.

(** *** Copies *)
Lemma obj_copy_eq o : Forall well_formed (all_layers (o_struct o)) -> obj_copy o = Ok (mkObj CMultilayer (o_struct o)).
Proof. intros W. unfold obj_copy. destruct (o_struct o) as [a b ls] eqn:E. unfold all_layers in W. cbn [st_substrate st_layers st_ambient] in W.
  inversion W as [|? ? Wb W']; subst. apply Forall_app in W'. destruct W' as [Wl Wa]. inversion Wa as [|? ? Wa' _]; subst.
  unfold structure_copy. cbn [st_ambient st_substrate st_layers]. rewrite (layer_copy_wf _ Wa'), (layer_copy_wf _ Wb). cbn [bind].
  rewrite (mapM_map layer_copy (fun l => l) ls); [rewrite map_id; reflexivity|]. intros l Hl. apply layer_copy_wf. rewrite Forall_forall in Wl. apply Wl, Hl. Qed.
