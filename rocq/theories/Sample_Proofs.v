From Coq Require Import Reals Lra.
From Verif Require Import Py Str Sample_Model Sample_Spec.
Local Open Scope string_scope.

Lemma Rltb_spec a b : Rltb a b = true <-> (a < b)%R.
Proof. unfold Rltb; destruct (Rlt_dec a b); split; intros; auto; try discriminate; contradiction. Qed.
Lemma Rleb_spec a b : Rleb a b = true <-> (a <= b)%R.
Proof. unfold Rleb; destruct (Rle_dec a b); split; intros; auto; try discriminate; contradiction. Qed.
Lemma Reqb_spec a b : Reqb a b = true <-> a = b.
Proof. unfold Reqb; destruct (Req_EM_T a b); split; intros; auto; try discriminate; contradiction. Qed.

Lemma comparable_dec a b : (is_cpx a || is_cpx b) && negb (is_np a || is_np b) = false <-> comparable a b.
Proof. unfold comparable. destruct a as [x|[|] x y], b as [z|[|] z w]; simpl; intuition discriminate. Qed.

Lemma num_lt_true a b : num_lt a b = Ok true <-> comparable a b /\ num_below a b.
Proof. unfold num_lt. destruct (_ && negb _) eqn:E.
  - split; [discriminate|]. intros [H _]; apply comparable_dec in H; congruence.
  - apply comparable_dec in E. unfold num_below. split.
    + intros H; inversion H as [H1]. rewrite orb_true_iff, andb_true_iff, !Rltb_spec, Reqb_spec in H1; tauto.
    + intros [_ H]; f_equal. rewrite orb_true_iff, andb_true_iff, !Rltb_spec, Reqb_spec; tauto. Qed.

Lemma num_lt_false a b : num_lt a b = Ok false <-> comparable a b /\ ~ num_below a b.
Proof. split.
  - intros H. assert (Hc : comparable a b).
    { unfold num_lt in H; destruct (_ && negb _) eqn:E in H; [discriminate|]. now apply comparable_dec. }
    split; [assumption|]. intros Hb. assert (num_lt a b = Ok true) by (apply num_lt_true; auto). congruence.
  - intros [Hc Hb]. unfold num_lt. pose proof Hc as Hc'. apply comparable_dec in Hc; rewrite Hc.
    f_equal. apply not_true_is_false. rewrite orb_true_iff, andb_true_iff, !Rltb_spec, Reqb_spec. unfold num_below in Hb; tauto. Qed.

Lemma num_ge_false a b : num_ge a b = Ok false <-> comparable a b /\ num_below a b.
Proof. unfold num_ge. destruct (_ && negb _) eqn:E.
  - split; [discriminate|]. intros [H _]; apply comparable_dec in H; congruence.
  - apply comparable_dec in E. unfold num_below.
    assert (X : (Rltb (num_re b) (num_re a) || Reqb (num_re a) (num_re b) && Rleb (num_im b) (num_im a)) = false
      <-> ((num_re a < num_re b)%R \/ (num_re a = num_re b /\ (num_im a < num_im b)%R))).
    { rewrite orb_false_iff, andb_false_iff. rewrite <- !not_true_iff_false, Rltb_spec, Reqb_spec, Rleb_spec.
      split; intros H; destruct (Rtotal_order (num_re a) (num_re b)) as [?|[?|?]]; try lra. }
    split; intros H; [split; [assumption|]|f_equal]; [inversion H; apply X; assumption|apply X; apply H]. Qed.

Lemma mk_range_Ok lo hi n p : mk_range lo hi n = Ok p <-> p = Range lo hi n /\ comparable lo hi /\ num_below lo hi.
Proof. unfold mk_range. rewrite <- num_ge_false. destruct (num_ge lo hi) as [[|]|]; simpl; split; intros H; try discriminate.
  - destruct H; discriminate.
  - inversion H; auto.
  - destruct H as [-> _]; reflexivity.
  - destruct H; discriminate. Qed.

Lemma param_copy_Ok p q : param_copy p = Ok q <-> q = p /\ valid_param p.
Proof. destruct p as [lo hi n|v n]; simpl.
  - rewrite mk_range_Ok. tauto.
  - split; [intros H; inversion H; auto|]. intros [-> _]; reflexivity. Qed.

Lemma param_copy_valid p : valid_param p -> param_copy p = Ok p.
Proof. intros; apply param_copy_Ok; auto. Qed.

(** ** Constructors *)

Lemma dict_to_complex_jnum j : dict_to_complex j = jnum j.
Proof. destruct j; reflexivity. Qed.

Lemma set_param_Ok n i p : set_param n i = Ok p <-> denotes n i p.
Proof. destruct i as [q|l|v]; cbn [set_param denotes].
  - apply param_copy_Ok.
  - destruct l as [|a [|b l]]; cbn [py_get norm_idx].
    + split; [discriminate|contradiction].
    + split; [discriminate|contradiction].
    + assert (E0 : py_get (a :: b :: l) 0 = Ok a) by (apply (py_get_nat (a :: b :: l) 0); reflexivity).
      assert (E1 : py_get (a :: b :: l) 1 = Ok b) by (apply (py_get_nat (a :: b :: l) 1); reflexivity).
      rewrite E0; cbn [bind]; rewrite E1; cbn [bind].
      rewrite !dict_to_complex_jnum, mk_range_Ok. split; intros [-> H]; split; auto.
  - rewrite dict_to_complex_jnum. split; [intros H; inversion H; auto|intros ->; reflexivity]. Qed.

Lemma check_nonneg_Ok p : check_nonneg p = Ok tt <-> nonneg_min p.
Proof. unfold check_nonneg, nonneg_min. rewrite <- num_lt_false.
  destruct (num_lt (p_min p) (Flt 0)) as [[|]|]; simpl; split; congruence. Qed.

Lemma bind_Ok A B (x : res A) (f : A -> res B) b : bind x f = Ok b <-> exists a, x = Ok a /\ f a = Ok b.
Proof. destruct x as [a|e]; simpl; split.
  - eauto.
  - intros (a' & H & H'); inversion H; subst; auto.
  - discriminate.
  - intros (a' & H & _); discriminate. Qed.

Lemma mk_layer_Ok name t r s l : mk_layer name t r s = Ok l <->
  exists pt pr ps, denotes "thickness" t pt /\ denotes "roughness" r pr /\ denotes "sld" s ps /\
    nonneg_min pt /\ nonneg_min pr /\ l = mkLayer KLayer name (Some pt) (Some pr) (Some ps).
Proof. unfold mk_layer. rewrite !bind_Ok. split.
  - intros (pt & Ht & H). rewrite bind_Ok in H; destruct H as (pr & Hr & H).
    rewrite bind_Ok in H; destruct H as (ps & Hs & H).
    rewrite bind_Ok in H; destruct H as ([] & H1 & H). rewrite bind_Ok in H; destruct H as ([] & H2 & H).
    inversion H; subst. exists pt, pr, ps. rewrite <- !set_param_Ok, <- !check_nonneg_Ok. auto 10.
  - intros (pt & pr & ps & Ht & Hr & Hs & H1 & H2 & ->).
    apply set_param_Ok in Ht, Hr, Hs. apply check_nonneg_Ok in H1, H2.
    exists pt; split; [assumption|]. rewrite Hr; cbn [bind]; rewrite Hs; cbn [bind]; rewrite H1; cbn [bind];
    rewrite H2; reflexivity. Qed.

(** ** Labels *)


(** [q] is the relabelled copy of an attribute of layer [l]. *)
Definition labelled (n : string) (l : layer) (o : option param) (q : param) : Prop :=
  exists p, o = Some p /\ valid_param p /\ q = set_pname (l_name l ++ "_" ++ n) p.

Lemma relabel_named n l p : valid_param p -> p_name p = Some n ->
  relabel l p = Ok (set_pname (l_name l ++ "_" ++ n) p).
Proof. intros Hv Hn. unfold relabel. rewrite param_copy_valid by assumption. cbn [bind].
  unfold label; rewrite Hn. reflexivity. Qed.

Lemma pname_str_set n p : pname_str (set_pname n p) = n.
Proof. destruct p; reflexivity. Qed.

Lemma collect_thickness_films ls rest ps : Forall (fun l => named "thickness" (l_thickness l)) ls ->
  collect_thickness rest = Ok ps ->
  exists qs, collect_thickness (ls ++ rest) = Ok (qs ++ ps)%list /\
    Forall2 (fun l q => labelled "thickness" l (l_thickness l) q) ls qs.
Proof. intros H Hr; induction H as [|l ls Hl Hls IH]; [exists []; split; [exact Hr|constructor]|].
  destruct IH as (qs & E & F). destruct Hl as (p & Hp & Hv & Hn). cbn [collect_thickness app].
  rewrite Hp, (relabel_named "thickness" l p Hv Hn); cbn [bind]. rewrite E; cbn [bind].
  eexists (_ :: qs); split; [reflexivity|]. constructor; [exists p; auto|assumption]. Qed.

Lemma collect_roughness_films ls rest ps : Forall (fun l => named "roughness" (l_roughness l)) ls ->
  collect_roughness rest = Ok ps ->
  exists qs, collect_roughness (ls ++ rest) = Ok (qs ++ ps)%list /\
    Forall2 (fun l q => labelled "roughness" l (l_roughness l) q) ls qs.
Proof. intros H Hr; induction H as [|l ls Hl Hls IH]; [exists []; split; [exact Hr|constructor]|].
  destruct IH as (qs & E & F). destruct Hl as (p & Hp & Hv & Hn). cbn [collect_roughness app].
  rewrite Hp, (relabel_named "roughness" l p Hv Hn); cbn [bind]. rewrite E; cbn [bind].
  eexists (_ :: qs); split; [reflexivity|]. constructor; [exists p; auto|assumption]. Qed.

Lemma collect_sld_films ls : Forall (fun l => named "sld" (l_sld l)) ls ->
  exists qs, collect_sld ls = Ok qs /\ Forall2 (fun l q => labelled "sld" l (l_sld l) q) ls qs.
Proof. intros H; induction H as [|l ls Hl Hls IH]; [exists []; split; [reflexivity|constructor]|].
  destruct IH as (qs & E & F). destruct Hl as (p & Hp & Hv & Hn). cbn [collect_sld].
  rewrite Hp, (relabel_named "sld" l p Hv Hn); cbn [bind]. rewrite E; cbn [bind].
  eexists (_ :: qs); split; [reflexivity|]. constructor; [exists p; auto|assumption]. Qed.

Lemma ordinary_films s : ordinary_sample s ->
  Forall (fun l => named "thickness" (l_thickness l)) (st_layers s) /\
  Forall (fun l => named "roughness" (l_roughness l)) (st_substrate s :: st_layers s) /\
  Forall (fun l => named "sld" (l_sld l)) (all_layers s).
Proof. intros (Hs & Hl & Ha). repeat split.
  - eapply Forall_impl; [|exact Hl]. intros l (H & _); exact H.
  - constructor; [apply Hs|]. eapply Forall_impl; [|exact Hl]. intros l (_ & H & _); exact H.
  - unfold all_layers. constructor; [apply Hs|]. apply Forall_app; split.
    + eapply Forall_impl; [|exact Hl]. intros l (_ & _ & H); exact H.
    + constructor; [apply Ha|constructor]. Qed.

Lemma thicknesses_ordinary s : ordinary_sample s ->
  exists qs, thicknesses s = Ok qs /\ Forall2 (fun l q => labelled "thickness" l (l_thickness l) q) (st_layers s) qs.
Proof. intros H. pose proof (ordinary_films s H) as (Ht & _ & _). destruct H as (Hs & Hl & Ha).
  unfold thicknesses, sample_structure. cbn [app collect_thickness]. rewrite (proj1 Hs).
  destruct (collect_thickness_films (st_layers s) [st_ambient s] [] Ht) as (qs & E & F).
  { simpl. rewrite (proj1 Ha). reflexivity. }
  exists qs. rewrite app_nil_r in E. auto. Qed.

Lemma roughnesses_ordinary s : ordinary_sample s ->
  exists qs, roughnesses s = Ok qs /\
    Forall2 (fun l q => labelled "roughness" l (l_roughness l) q) (st_substrate s :: st_layers s) qs.
Proof. intros H. pose proof (ordinary_films s H) as (_ & Hr & _). destruct H as (Hs & Hl & Ha).
  unfold roughnesses, sample_structure. 
  destruct (collect_roughness_films (st_substrate s :: st_layers s) [st_ambient s] [] Hr) as (qs & E & F).
  { simpl. destruct Ha as (_ & -> & _). reflexivity. }
  exists qs. rewrite app_nil_r in E. auto. Qed.

Lemma slds_ordinary s : ordinary_sample s ->
  exists qs, slds s = Ok qs /\ Forall2 (fun l q => labelled "sld" l (l_sld l) q) (all_layers s) qs.
Proof. intros H. pose proof (ordinary_films s H) as (_ & _ & Hr). apply (collect_sld_films (all_layers s) Hr). Qed.

Lemma labelled_names n (f : layer -> option param) ls qs :
  Forall2 (fun l q => labelled n l (f l) q) ls qs -> map pname_str qs = labels_of n ls.
Proof. induction 1 as [|l q ls qs (p & _ & _ & ->) _ IH]; [reflexivity|].
  simpl. rewrite pname_str_set, IH. reflexivity. Qed.

Lemma label_names_ordinary s : ordinary_sample s ->
  label_names s = Ok (labels_of "thickness" (st_layers s) ++ labels_of "roughness" (st_substrate s :: st_layers s) ++
                      labels_of "sld" (all_layers s))%list.
Proof. intros H. unfold label_names.
  destruct (thicknesses_ordinary s H) as (ts & -> & Ft). destruct (roughnesses_ordinary s H) as (rs & -> & Fr).
  destruct (slds_ordinary s H) as (ss & -> & Fs). cbn [bind].
  rewrite (labelled_names _ _ _ _ Ft), (labelled_names _ _ _ _ Fr), (labelled_names _ _ _ _ Fs). reflexivity. Qed.

Lemma length_labels_of n ls : List.length (labels_of n ls) = List.length ls.
Proof. apply map_length. Qed.

(** ** Distinctness *)

Lemma suffix_clash (a b x y : string) (n1 n2 : string) :
  a ++ "_" ++ n1 = b ++ "_" ++ n2 -> has_char "_" n1 = false -> has_char "_" n2 = false -> a = b /\ n1 = n2.
Proof. intros H H1 H2. apply append_split in H. destruct H as [(m & -> & H)|(m & -> & H)].
  - destruct m as [|c m]; simpl in H; inversion H; subst; [rewrite append_nil_r; auto|].
    rewrite has_char_app in H1. simpl in H1. rewrite orb_true_r in H1; discriminate.
  - destruct m as [|c m]; simpl in H; inversion H; subst; [rewrite append_nil_r; auto|].
    rewrite has_char_app in H2. simpl in H2. rewrite orb_true_r in H2; discriminate. Qed.

Lemma in_labels_of x n ls : In x (labels_of n ls) <-> exists l, In l ls /\ x = l_name l ++ "_" ++ n.
Proof. unfold labels_of. rewrite in_map_iff. split; intros (l & A & B); exists l; auto. Qed.

Lemma labels_of_NoDup n ls : NoDup (map l_name ls) -> NoDup (labels_of n ls).
Proof. induction ls as [|l ls IH]; simpl; intros H; [constructor|]. inversion H as [|? ? Hn Hd]; subst.
  constructor; [|auto]. intros Hi. apply in_labels_of in Hi. destruct Hi as (l' & Hl' & E).
  apply (append_inj_r (l_name l) (l_name l') ("_" ++ n)) in E. apply Hn. rewrite E. apply in_map; assumption. Qed.

Lemma labels_of_disjoint n m ls ks x : n <> m -> has_char "_" n = false -> has_char "_" m = false ->
  In x (labels_of n ls) -> In x (labels_of m ks) -> False.
Proof. intros Hnm H1 H2 A B. apply in_labels_of in A, B. destruct A as (l & _ & A), B as (k & _ & B).
  rewrite A in B. apply suffix_clash in B; auto. destruct B; contradiction. Qed.

Lemma NoDup_app_iff A (a b : list A) : NoDup (a ++ b) <-> NoDup a /\ NoDup b /\ (forall x, In x a -> In x b -> False).
Proof. induction a as [|x a IH]; simpl.
  - split; [intros H; repeat split; [constructor|assumption|intros ? []]|tauto].
  - split.
    + intros H; inversion H as [|? ? Hn Hd]; subst. apply IH in Hd. destruct Hd as (Ha & Hb & Hx).
      rewrite in_app_iff in Hn. repeat split; [constructor; tauto|assumption|].
      intros y [->|Hy] Hb'; [tauto|eauto].
    + intros (Ha & Hb & Hx). inversion Ha as [|? ? Hn Hd]; subst. constructor.
      * rewrite in_app_iff; intros [?|?]; [auto|eapply Hx; eauto].
      * apply IH; repeat split; auto. intros y H1 H2; eapply Hx; eauto. Qed.

Lemma label_names_NoDup s ns : ordinary_sample s -> NoDup (map l_name (all_layers s)) ->
  label_names s = Ok ns -> NoDup ns.
Proof. intros H Hd E. rewrite (label_names_ordinary s H) in E. match type of E with Ok ?a = Ok ?b => assert (Eb : b = a) by congruence; rewrite Eb in * |- *; clear E Eb end.
  assert (Hall := Hd). unfold all_layers in Hd. simpl in Hd. rewrite map_app in Hd. inversion Hd as [|? ? Hs Hl]; subst.
  assert (Hsl : NoDup (map l_name (st_substrate s :: st_layers s))).
  { simpl. apply NoDup_app_iff in Hl. constructor; [intros Hi; apply Hs, in_or_app; auto|apply Hl]. }
  apply NoDup_app_iff; repeat split.
  - apply labels_of_NoDup. inversion Hsl; assumption.
  - apply NoDup_app_iff; repeat split.
    + apply labels_of_NoDup; assumption.
    + apply labels_of_NoDup; assumption.
    + intros x A B. refine (labels_of_disjoint _ _ _ _ _ _ _ _ A B); [discriminate|reflexivity|reflexivity].
  - intros x A B. apply in_app_iff in B. destruct B as [B|B];
    (refine (labels_of_disjoint _ _ _ _ _ _ _ _ A B); [discriminate|reflexivity|reflexivity]). Qed.

Lemma NoDup_map_inv_pos A B (f : A -> B) l i j x y :
  NoDup (map f l) -> nth_error l i = Some x -> nth_error l j = Some y -> f x = f y -> i = j.
Proof. intros Hn Hi Hj Hf. eapply NoDup_nth_error.
  - exact Hn.
  - rewrite map_length. apply nth_error_Some; congruence.
  - rewrite !nth_error_map, Hi, Hj. simpl; congruence. Qed.

Lemma label_names_collide s ns i j l k : ordinary_sample s -> label_names s = Ok ns ->
  nth_error (all_layers s) i = Some l -> nth_error (all_layers s) j = Some k -> i <> j -> l_name l = l_name k ->
  ~ NoDup ns.
Proof. intros H E Hi Hj Hne Hname Hnd. rewrite (label_names_ordinary s H) in E. match type of E with Ok ?a = Ok ?b => assert (Eb : b = a) by congruence; rewrite Eb in * |- *; clear E Eb end.
  apply NoDup_app_iff in Hnd. destruct Hnd as (_ & Hnd & _). apply NoDup_app_iff in Hnd. destruct Hnd as (_ & Hnd & _).
  apply Hne. eapply (NoDup_map_inv_pos _ _ _ _ _ _ _ _ Hnd Hi Hj). simpl. now rewrite Hname. Qed.

(** ** Dictionary round trip *)

Lemma complex_dict_same v : same_num v (dict_to_complex (complex_to_dict v)).
Proof. destruct v as [x|np re im]; simpl; [split; reflexivity|].
  destruct (Req_EM_T im 0); split; reflexivity. Qed.

Lemma valid_real_param n p : real_param n p -> valid_param p /\ p_name p = Some n.
Proof. destruct p as [[a|? ? ?] [b|? ? ?] [m|]|[a|? ? ?] [m|]]; simpl; try contradiction.
  - intros [H ->]. split; [split; [left; auto|left; exact H]|reflexivity].
  - intros ->; auto. Qed.

Lemma real_param_roundtrip n p : real_param n p -> set_param n (pdict_input (parse_param p)) = Ok p.
Proof. intros H. apply set_param_Ok. pose proof (valid_real_param n p H) as (Hv & Hn).
  destruct p as [[a|? ? ?] [b|? ? ?] [m|]|[a|? ? ?] [m|]]; simpl in *; try contradiction.
  - destruct H as [_ ->]; auto.
  - now subst. Qed.

Lemma sld_roundtrip p : storable_sld (Some p) ->
  exists q, set_param "sld" (pdict_input (parse_param p)) = Ok q /\ same_values p q /\ p_name q = Some "sld" /\
            valid_param q.
Proof. destruct p as [lo hi n|v n].
  - intros H. destruct lo as [a|], hi as [b|], n as [m|]; simpl in H; try contradiction.
    exists (Range (Flt a) (Flt b) (Some m)). destruct H as [Hl ->].
    split; [apply real_param_roundtrip; simpl; auto|]. simpl. repeat split; auto; left; auto.
  - simpl. destruct n as [m|]; [|contradiction]. intros ->.
    eexists; split; [reflexivity|]. simpl. split; [apply complex_dict_same|auto]. Qed.

Lemma const_roundtrip n p : is_const p = true ->
  exists q, set_param_const n (pdict_input (parse_param p)) = Ok (Some q) /\ same_values p q /\ p_name q = Some n /\
            valid_param q /\ is_const q = true.
Proof. destruct p as [lo hi m|v m]; simpl; [discriminate|]. intros _.
  eexists; split; [reflexivity|]. simpl. split; [apply complex_dict_same|auto]. Qed.

Lemma same_values_refl p : same_values p p.
Proof. destruct p; simpl; unfold same_num; auto. Qed.

Lemma nonneg_min_real n p : real_param n p -> (0 <= num_re (p_min p))%R -> nonneg_min p.
Proof. destruct p as [[a|? ? ?] [b|? ? ?] [m|]|[a|? ? ?] [m|]]; simpl; try contradiction; intros _ H;
  (split; [left; auto|]; unfold num_below; simpl; lra). Qed.

Lemma film_roundtrip l : storable_film l ->
  exists d l', layer_to_dict l = Ok d /\ layer_of_dict d = Ok l' /\ same_layer l l' /\ film_layer l' /\ film_layer l.
Proof. intros ((pt & Ht & Hrt & Hpt) & (pr & Hr & Hrr & Hpr) & Hs). destruct l as [k n t r s]; simpl in *; subst.
  destruct s as [ps|]; [|contradiction].
  destruct (sld_roundtrip ps Hs) as (q & Eq & Sq & Nq & Vq).
  assert (Hsf : named "sld" (Some ps)).
  { exists ps; split; [reflexivity|]. destruct ps as [[a|] [b|] [m|]|v [m|]]; simpl in Hs; try contradiction.
    - destruct Hs as [Hs ->]; split; [split; left; auto|reflexivity].
    - subst; split; simpl; auto. }
  pose proof (valid_real_param _ _ Hrt) as (Vt & Nt). pose proof (valid_real_param _ _ Hrr) as (Vr & Nr).
  unfold layer_to_dict; simpl. eexists; eexists; split; [reflexivity|].
  unfold layer_of_dict; simpl. split.
  - apply mk_layer_Ok. exists pt, pr, q. rewrite <- !set_param_Ok.
    split; [apply real_param_roundtrip; assumption|]. split; [apply real_param_roundtrip; assumption|].
    split; [assumption|]. split; [eapply nonneg_min_real; eauto|]. split; [eapply nonneg_min_real; eauto|reflexivity].
  - split; [|split].
    + repeat split; simpl; auto using same_values_refl.
    + repeat split; simpl; [exists pt|exists pr|exists q]; auto.
    + repeat split; simpl; [exists pt|exists pr|]; auto. Qed.

Lemma ambient_roundtrip a : l_thickness a = None -> l_roughness a = None -> storable_sld (l_sld a) ->
  const_opt (l_sld a) ->
  exists d a', layer_to_dict a = Ok d /\ ambient_of_dict d = Ok a' /\ same_layer a a' /\ ambient_layer a' /\ ambient_layer a.
Proof. destruct a as [k n t r s]; simpl; intros -> -> Hs Hc. destruct s as [ps|]; [|contradiction].
  destruct (const_roundtrip "sld" ps (Hc ps eq_refl)) as (q & Eq & Sq & Nq & Vq & _).
  unfold layer_to_dict; simpl. eexists; eexists; split; [reflexivity|].
  unfold ambient_of_dict, mk_ambient; simpl. rewrite Eq; simpl. split; [reflexivity|].
  split; [repeat split; simpl; auto|]. split; [repeat split; simpl; exists q; auto|].
  repeat split; simpl. exists ps; split; [reflexivity|].
  specialize (Hc ps eq_refl). destruct ps as [|v [m|]]; simpl in *; try discriminate; try contradiction.
  subst; auto. Qed.

Lemma substrate_roundtrip a : l_thickness a = None -> storable_real "roughness" (l_roughness a) ->
  const_opt (l_roughness a) -> storable_sld (l_sld a) -> const_opt (l_sld a) ->
  exists d a', layer_to_dict a = Ok d /\ substrate_of_dict d = Ok a' /\ same_layer a a' /\ substrate_layer a' /\
               substrate_layer a.
Proof. destruct a as [k n t r s]; simpl; intros -> (pr & -> & Hrr & Hpr) Hcr Hs Hc. destruct s as [ps|]; [|contradiction].
  destruct (const_roundtrip "sld" ps (Hc ps eq_refl)) as (q & Eq & Sq & Nq & Vq & _).
  specialize (Hcr pr eq_refl). pose proof (valid_real_param _ _ Hrr) as (Vr & Nr).
  unfold layer_to_dict; simpl. eexists; eexists; split; [reflexivity|].
  unfold substrate_of_dict, mk_substrate; simpl.
  destruct pr as [|[x|] [m|]]; simpl in Hrr, Hcr; try discriminate; try contradiction. subst m.
  simpl. rewrite Eq; simpl.
  assert (E : check_nonneg (Const (Flt x) (Some "roughness")) = Ok tt).
  { apply check_nonneg_Ok. eapply nonneg_min_real with (n := "roughness"); simpl; auto. }
  rewrite E; simpl. split; [reflexivity|].
  split; [repeat split; simpl; auto|]. split.
  - repeat split; simpl; [exists (Const (Flt x) (Some "roughness"))|exists q]; auto.
  - repeat split; simpl; [exists (Const (Flt x) (Some "roughness")); auto|].
    exists ps; split; [reflexivity|]. specialize (Hc ps eq_refl). destruct ps as [|v [m|]]; simpl in *; try discriminate; try contradiction.
    subst; auto. Qed.

Lemma films_roundtrip ls : Forall storable_film ls ->
  exists ds ls', mapM layer_to_dict ls = Ok ds /\ Forall2 (fun d l' => layer_of_dict d = Ok l') ds ls' /\
    Forall2 same_layer ls ls' /\ Forall film_layer ls' /\ Forall film_layer ls.
Proof. induction 1 as [|l ls Hl Hls (ds & ls' & E & F & S & FL & FL0)].
  - exists [], []; repeat split; constructor.
  - destruct (film_roundtrip l Hl) as (d & l' & E1 & E2 & E3 & E4 & E5).
    exists (d :: ds), (l' :: ls'). simpl. rewrite E1; simpl; rewrite E; simpl. repeat split; constructor; auto. Qed.

Lemma add_dicts_Ok ds ls' : Forall2 (fun d l' => layer_of_dict d = Ok l') ds ls' ->
  forall s, add_dicts s ds = (mkStructure (st_ambient s) (st_substrate s) (st_layers s ++ ls'), None).
Proof. induction 1 as [|d l ds ls' H _ IH]; intros s; simpl.
  - rewrite app_nil_r. destruct s; reflexivity.
  - rewrite H, IH. simpl. rewrite <- app_assoc. reflexivity. Qed.

Lemma Forall2_rev A B (P : A -> B -> Prop) l m : Forall2 P l m -> Forall2 P (rev l) (rev m).
Proof. induction 1 as [|x y l m Hxy H IH]; simpl; [constructor|]. apply Forall2_app; auto. Qed.

Lemma dict_roundtrip_any s t : storable_sample s ->
  exists d s', to_dict s = Ok d /\ same_sample s s' /\ ordinary_sample s' /\ ordinary_sample s /\
    from_dict t d = (mkStructure (st_ambient s') (st_substrate s') (st_layers t ++ st_layers s'), None).
Proof. intros ((A1 & A2 & A3 & A4) & (B1 & B2 & B3 & B4 & B5) & Hls).
  destruct (ambient_roundtrip _ A1 A2 A3 A4) as (da & a' & EA & EA' & SA & FA & FA0).
  destruct (substrate_roundtrip _ B1 B2 B3 B4 B5) as (db & b' & EB & EB' & SB & FB & FB0).
  destruct (films_roundtrip (rev (st_layers s))) as (ds & ls' & E & F & S & FL & FL0).
  { apply Forall_rev; assumption. }
  exists (mkSdict da ds db), (mkStructure a' b' (rev ls')).
  split; [unfold to_dict; rewrite EA; simpl; rewrite EB; simpl; rewrite E; reflexivity|].
  apply Forall2_rev in S. rewrite rev_involutive in S.
  split; [split; [exact SA|split; [exact SB|exact S]]|].
  split; [split; [exact FB|split; [apply Forall_rev; assumption|exact FA]]|].
  split; [split; [assumption|split; [|assumption]]; apply Forall_rev in FL0; rewrite rev_involutive in FL0; assumption|].
  unfold from_dict; simpl. rewrite EA', EB'. rewrite (add_dicts_Ok (rev ds) (rev ls')); [reflexivity|].
  apply Forall2_rev; assumption. Qed.

Lemma same_layer_names ls ks : Forall2 same_layer ls ks -> map l_name ls = map l_name ks.
Proof. induction 1 as [|l k ls ks (H & _) _ IH]; simpl; congruence. Qed.

Lemma labels_of_names n ls ks : map l_name ls = map l_name ks -> labels_of n ls = labels_of n ks.
Proof. revert ks; induction ls as [|l ls IH]; intros [|k ks]; simpl; intros H; try discriminate; [reflexivity|].
  injection H; intros H2 H1. rewrite H1, (IH ks H2). reflexivity. Qed.

Lemma same_sample_labels s t : same_sample s t -> ordinary_sample s -> ordinary_sample t -> label_names s = label_names t.
Proof. intros (Ha & Hb & Hl) Hs Ht. rewrite (label_names_ordinary s Hs), (label_names_ordinary t Ht).
  pose proof (same_layer_names _ _ Hl) as N. destruct Ha as (Na & _), Hb as (Nb & _).
  unfold all_layers.
  rewrite (labels_of_names "thickness" _ _ N).
  rewrite (labels_of_names "roughness" (st_substrate s :: st_layers s) (st_substrate t :: st_layers t)) by (simpl; congruence).
  rewrite (labels_of_names "sld" (st_substrate s :: _) (st_substrate t :: st_layers t ++ [st_ambient t])); [reflexivity|].
  simpl. rewrite !map_app. simpl. congruence. Qed.

Lemma dict_roundtrip s : storable_sample s ->
  exists d s', to_dict s = Ok d /\ from_dict empty_structure d = (s', None) /\ same_sample s s' /\
    label_names s' = label_names s.
Proof. intros H. destruct (dict_roundtrip_any s empty_structure H) as (d & s' & E & S & O' & O & F).
  exists d, s'. split; [assumption|]. rewrite F. simpl. split; [destruct s'; reflexivity|].
  split; [assumption|]. symmetry; apply same_sample_labels; assumption. Qed.

(** ** Constructed samples are ordinary *)

Lemma denotes_plain n i p : plain i -> denotes n i p -> named n (Some p).
Proof. destruct i as [q|l|v]; simpl; intros H D; [contradiction| |].
  - destruct l as [|a [|b l]]; try contradiction. destruct D as [-> Hv]. eexists; split; [reflexivity|]. split; [assumption|reflexivity].
  - subst. eexists; split; [reflexivity|]. simpl; auto. Qed.

Lemma mk_layer_film name t r s l : plain t -> plain r -> plain s -> mk_layer name t r s = Ok l -> film_layer l.
Proof. intros Ht Hr Hs H. apply mk_layer_Ok in H. destruct H as (pt & pr & ps & A & B & C & _ & _ & ->).
  split; [|split]; simpl; [exact (denotes_plain _ _ _ Ht A)|exact (denotes_plain _ _ _ Hr B)|exact (denotes_plain _ _ _ Hs C)]. Qed.

Lemma set_param_const_scalar n i : scalar i -> exists v, i = PIVal v /\ set_param_const n i = Ok (Some (Const (jnum v) (Some n))).
Proof. destruct i as [|?|v]; simpl; try contradiction. intros _; exists v; rewrite dict_to_complex_jnum; auto. Qed.

Lemma named_const n v : named n (Some (Const v (Some n))).
Proof. eexists; split; [reflexivity|]; simpl; auto. Qed.

Lemma mk_constant_layer_Ok name t r s : scalar t -> scalar r -> scalar s -> forall l,
  mk_constant_layer name t r s = Ok l <->
  exists vt vr vs, t = PIVal vt /\ r = PIVal vr /\ s = PIVal vs /\
    nonneg_min (Const (jnum vt) None) /\ nonneg_min (Const (jnum vr) None) /\
    l = mkLayer KConstantLayer name (Some (Const (jnum vt) (Some "thickness"))) (Some (Const (jnum vr) (Some "roughness")))
          (Some (Const (jnum vs) (Some "sld"))).
Proof. intros Ht Hr Hs l. unfold mk_constant_layer.
  destruct (set_param_const_scalar "thickness" t Ht) as (vt & -> & ->).
  destruct (set_param_const_scalar "roughness" r Hr) as (vr & -> & ->).
  destruct (set_param_const_scalar "sld" s Hs) as (vs & -> & ->). simpl. rewrite bind_Ok. split.
  - intros ([] & A & H). rewrite bind_Ok in H. destruct H as ([] & B & H). inversion H; subst.
    apply check_nonneg_Ok in A, B. exists vt, vr, vs. repeat split; auto; first [apply A|apply B].
  - intros (vt' & vr' & vs' & E1 & E2 & E3 & A & B & ->). inversion E1; inversion E2; inversion E3; subst.
    exists tt. split; [apply check_nonneg_Ok; exact A|]. rewrite bind_Ok. exists tt.
    split; [apply check_nonneg_Ok; exact B|reflexivity]. Qed.

Lemma mk_substrate_Ok name r s : scalar r -> scalar s -> forall l,
  mk_substrate name r s = Ok l <->
  exists vr vs, r = PIVal vr /\ s = PIVal vs /\ nonneg_min (Const (jnum vr) None) /\
    l = mkLayer KSubstrate name None (Some (Const (jnum vr) (Some "roughness"))) (Some (Const (jnum vs) (Some "sld"))).
Proof. intros Hr Hs l. unfold mk_substrate.
  destruct (set_param_const_scalar "roughness" r Hr) as (vr & -> & ->).
  destruct (set_param_const_scalar "sld" s Hs) as (vs & -> & ->). simpl. rewrite bind_Ok. split.
  - intros ([] & A & H). inversion H; subst. apply check_nonneg_Ok in A. exists vr, vs. repeat split; auto; apply A.
  - intros (vr' & vs' & E2 & E3 & A & ->). inversion E2; inversion E3; subst.
    exists tt. split; [apply check_nonneg_Ok; exact A|reflexivity]. Qed.

Lemma mk_ambient_Ok name s : scalar s -> exists v, s = PIVal v /\
  mk_ambient name s = Ok (mkLayer KAmbient name None None (Some (Const (jnum v) (Some "sld")))).
Proof. intros Hs. unfold mk_ambient. destruct (set_param_const_scalar "sld" s Hs) as (v & -> & ->). exists v; auto. Qed.

Lemma built_film_film l : built_film l -> film_layer l.
Proof. intros [n t r s l' Ht Hr Hs H|n t r s l' Ht Hr Hs H].
  - exact (mk_layer_film _ _ _ _ _ Ht Hr Hs H).
  - apply mk_constant_layer_Ok in H; auto. destruct H as (vt & vr & vs & _ & _ & _ & _ & _ & ->).
    repeat split; simpl; apply named_const. Qed.

Lemma built_sample_ordinary s : built_sample s -> ordinary_sample s.
Proof. intros (Ha & Hb & Hl). split; [|split].
  - destruct Hb as [->|(n & r & v & H)]; [repeat split; simpl; apply named_const|].
    apply mk_substrate_Ok in H; simpl; auto. destruct H as (vr & vs & _ & _ & _ & E). rewrite E.
    repeat split; simpl; apply named_const.
  - eapply Forall_impl; [|exact Hl]. apply built_film_film.
  - destruct Ha as [->|(n & v & H)]; [repeat split; simpl; apply named_const|].
    destruct (mk_ambient_Ok n (PIVal v) I) as (v' & _ & E). rewrite E in H. inversion H as [H1]; subst.
    repeat split; simpl; apply named_const. Qed.

(** ** Copies *)
