(** Proofs about the file helpers. *)
From Coq Require Import Reals Lra.
From Verif Require Import Py Str Arr Spec_Model Fio_Model SpecFile_Spec Spec_Proofs Fio_Proofs P08Loader_Proofs Path_Model Utils_Model Utils_Spec Path_Proofs FileFitter_Model.
Local Open Scope R_scope.
Local Open Scope string_scope.

Lemma seqb_ok a b : String.eqb a b = true <-> a = b. Proof. apply String.eqb_eq. Qed.

(** ** Extensions *)
Lemma ensure_ends name : endswith ".h5" (ensure_h5_extension name) = true \/ endswith ".hdf5" (ensure_h5_extension name) = true.
Proof. unfold ensure_h5_extension. destruct (endswith ".h5" name) eqn:A; cbn [orb negb]; [left; exact A|].
  destruct (endswith ".hdf5" name) eqn:B; cbn [negb]; [right; exact B|]. left. apply endswith_iff. exists name. reflexivity. Qed.
Lemma ensure_same name : endswith ".h5" name = true \/ endswith ".hdf5" name = true -> ensure_h5_extension name = name.
Proof. unfold ensure_h5_extension. intros [-> | ->]; [|rewrite orb_true_r]; reflexivity. Qed.
Lemma ensure_idem name : ensure_h5_extension (ensure_h5_extension name) = ensure_h5_extension name.
Proof. apply ensure_same, ensure_ends. Qed.
Lemma ensure_other name : endswith ".h5" name = false -> endswith ".hdf5" name = false -> ensure_h5_extension name = name ++ ".h5".
Proof. unfold ensure_h5_extension. intros -> ->. reflexivity. Qed.

(** ** HDF5 files *)
Lemma dict_get_app {V} (a b : list (string * V)) k : dict_get String.eqb (a ++ b)%list k = match dict_get String.eqb a k with Some v => Some v | None => dict_get String.eqb b k end.
Proof. induction a as [|[k' v] a IH]; [reflexivity|]. cbn [app dict_get]. destruct (String.eqb k' k); [reflexivity|exact IH]. Qed.
Lemma dict_get_del {V} (d : list (string * V)) k k' : dict_get String.eqb (dict_del d k) k' = if String.eqb k k' then None else dict_get String.eqb d k'.
Proof. unfold dict_del. induction d as [|[a v] d IH]; cbn [filter fst dict_get]; [destruct (String.eqb k k'); reflexivity|].
  destruct (String.eqb a k) eqn:E; cbn [negb].
  - rewrite IH. apply String.eqb_eq in E. subst a. destruct (String.eqb k k'); reflexivity.
  - cbn [dict_get]. rewrite IH. destruct (String.eqb a k') eqn:F; [|reflexivity]. apply String.eqb_eq in F. subst a.
    rewrite String.eqb_sym, E. reflexivity. Qed.
Lemma get_override f k a k' : dict_get String.eqb (override f k a) k' = if String.eqb k k' then Some (NData a) else dict_get String.eqb f k'.
Proof. unfold override. cbv zeta. rewrite dict_get_app. cbn [dict_get].
  assert (G : dict_get String.eqb (match dict_get String.eqb f k with Some _ => dict_del f k | None => f end) k' = if String.eqb k k' then None else dict_get String.eqb f k').
  { destruct (dict_get String.eqb f k) eqn:E; [apply dict_get_del|]. destruct (String.eqb k k') eqn:F; [|reflexivity]. apply String.eqb_eq in F. subst k'. exact E. }
  rewrite G. destruct (String.eqb k k'); [reflexivity|]. destruct (dict_get String.eqb f k'); reflexivity. Qed.
Lemma get_set {V} (d : list (string * V)) k v k' : dict_get String.eqb (dict_set String.eqb d k v) k' = if String.eqb k k' then Some v else dict_get String.eqb d k'.
Proof. apply dict_get_set, seqb_ok. Qed.

Lemma finite_values_In l x : In x (finite_values l) <-> In (Some x) l.
Proof. induction l as [|[y|] l IH]; cbn [finite_values In]; [tauto| |].
  - rewrite IH. split; [intros [-> |H]; [left; reflexivity|right; exact H]|]. intros [[= ->]|H]; [left; reflexivity|right; exact H].
  - rewrite IH. split; [intros H; right; exact H|]. intros [H|H]; [discriminate|exact H]. Qed.
Lemma fold_min l : forall x, In (fold_left Rmin l x) (x :: l) /\ forall y, In y (x :: l) -> fold_left Rmin l x <= y.
Proof. induction l as [|z l IH]; intros x; cbn [fold_left].
  - split; [left; reflexivity|]. intros y [-> |[]]. apply Rle_refl.
  - destruct (IH (Rmin x z)) as [A B]. split.
    + destruct A as [A|A]; [|right; right; exact A]. rewrite <- A. unfold Rmin. destruct (Rle_dec x z); [left|right; left]; reflexivity.
    + intros y [-> |[-> |H]].
      * eapply Rle_trans; [apply B; left; reflexivity|apply Rmin_l].
      * eapply Rle_trans; [apply B; left; reflexivity|apply Rmin_r].
      * apply B. right. exact H. Qed.
Lemma fold_max l : forall x, In (fold_left Rmax l x) (x :: l) /\ forall y, In y (x :: l) -> y <= fold_left Rmax l x.
Proof. induction l as [|z l IH]; intros x; cbn [fold_left].
  - split; [left; reflexivity|]. intros y [-> |[]]. apply Rle_refl.
  - destruct (IH (Rmax x z)) as [A B]. split.
    + destruct A as [A|A]; [|right; right; exact A]. rewrite <- A. unfold Rmax. destruct (Rle_dec x z); [right; left|left]; reflexivity.
    + intros y [-> |[-> |H]].
      * eapply Rle_trans; [|apply B; left; reflexivity]. apply Rmax_l.
      * eapply Rle_trans; [|apply B; left; reflexivity]. apply Rmax_r.
      * apply B. right. exact H. Qed.
Lemma col_min_ok l : column_min l (col_min l).
Proof. unfold col_min, column_min. destruct (finite_values l) as [|x v] eqn:E.
  - intros x H. apply finite_values_In in H. rewrite E in H. exact H.
  - destruct (fold_min v x) as [A B]. split; [apply finite_values_In; rewrite E; exact A|]. intros y H. apply B. rewrite <- E. apply finite_values_In, H. Qed.
Lemma col_max_ok l : column_max l (col_max l).
Proof. unfold col_max, column_max. destruct (finite_values l) as [|x v] eqn:E.
  - intros x H. apply finite_values_In in H. rewrite E in H. exact H.
  - destruct (fold_max v x) as [A B]. split; [apply finite_values_In; rewrite E; exact A|]. intros y H. apply B. rewrite <- E. apply finite_values_In, H. Qed.

(** Attributes *)
Lemma min_max_differ a b : a ++ "_min" <> b ++ "_max".
Proof. intros H. apply append_inj_len in H; [|reflexivity]. destruct H as [_ H]. discriminate. Qed.
Lemma label_attr_keys t k : In k (map fst (label_attrs t)) -> exists l, In l (map fst (lt_cols t)) /\ (k = l ++ "_min" \/ k = l ++ "_max").
Proof. unfold label_attrs. rewrite concat_map, map_map. intros H. apply in_concat in H as (x & H & K). apply in_map_iff in H as ([l c] & <- & H).
  cbn [map fst] in K. exists l. split; [apply (in_map fst _ _ H)|]. destruct K as [<-|[<-|[]]]; [left|right]; reflexivity. Qed.
Lemma set_attrs_other l old k : ~ In k (map fst l) -> dict_get String.eqb (set_attrs old l) k = dict_get String.eqb old k.
Proof. apply (set_list_other String.eqb seqb_ok). Qed.
Lemma set_attrs_in l : forall old k v, NoDup (map fst l) -> In (k, v) l -> dict_get String.eqb (set_attrs old l) k = Some v.
Proof. induction l as [|[a w] l IH]; intros old k v N H; [contradiction|]. cbn [map fst] in N. inversion N as [|? ? Hn N']; subst. destruct H as [[= -> ->]|H].
  - unfold set_attrs. cbn [fold_left fst snd]. change (dict_get String.eqb (set_attrs (dict_set String.eqb old k v) l) k = Some v).
    rewrite set_attrs_other by exact Hn. rewrite get_set, String.eqb_refl. reflexivity.
  - unfold set_attrs. cbn [fold_left fst snd]. apply IH; [exact N'|exact H]. Qed.
Definition unit_names : list string := ["number_of_layers"; "num_curves"; "q_unit"; "thickness_unit"; "roughness_uni"; "sld_unit"].
Lemma unit_not_label u l : In u unit_names -> u <> l ++ "_min" /\ u <> l ++ "_max".
Proof. intros H. split; intros E.
  - assert (F : endswith "_min" u = true) by (apply endswith_iff; exists l; exact E). unfold unit_names in H. cbn [In] in H.
    repeat (destruct H as [<-|H]; [discriminate F|]). exact H.
  - assert (F : endswith "_max" u = true) by (apply endswith_iff; exists l; exact E). unfold unit_names in H. cbn [In] in H.
    repeat (destruct H as [<-|H]; [discriminate F|]). exact H. Qed.
Lemma NoDup_label_attrs t : NoDup (map fst (lt_cols t)) -> NoDup (map fst (label_attrs t)).
Proof. destruct t as [n cols]. unfold label_attrs. cbn [lt_cols]. induction cols as [|[l c] cols IH]; intros H; [constructor|].
  cbn [map fst snd List.concat app] in *. inversion H as [|? ? Hn H']; subst.
  assert (K : forall e, (e = "_min" \/ e = "_max") -> ~ In (l ++ e) (map fst (label_attrs (mkLtable n cols)))).
  { intros e He J. apply label_attr_keys in J as (l' & Hl & [E|E]); cbn [lt_cols] in Hl; destruct He as [-> | ->].
    - apply append_inj_r in E. subst l'. contradiction.
    - symmetry in E. exact (min_max_differ _ _ E).
    - exact (min_max_differ _ _ E).
    - apply append_inj_r in E. subst l'. contradiction. }
  constructor; [|constructor].
  - intros [J|J]; [symmetry in J; exact (min_max_differ _ _ J)|]. exact (K "_min" (or_introl eq_refl) J).
  - exact (K "_max" (or_intror eq_refl)).
  - exact (IH H'). Qed.
Lemma attrs_NoDup layers n t : NoDup (map fst (lt_cols t)) -> NoDup (map fst (fixed_attrs layers n ++ label_attrs t)%list).
Proof. intros H. rewrite map_app. change (map fst (fixed_attrs layers n)) with unit_names. apply NoDup_label_attrs in H.
  assert (D : forall u, In u unit_names -> ~ In u (map fst (label_attrs t))).
  { intros u Hu J. apply label_attr_keys in J as (l & _ & [E|E]); destruct (unit_not_label u l Hu); contradiction. }
  revert D. assert (U : NoDup unit_names) by (repeat constructor; cbn [In]; intuition discriminate). revert U. generalize unit_names. intros us U D.
  induction us as [|u us IH]; [exact H|]. cbn [app]. inversion U; subst. constructor.
  - intros J. apply in_app_or in J as [J|J]; [contradiction|]. exact (D u (or_introl eq_refl) J).
  - apply IH; [assumption|]. intros v Hv. apply D. right. exact Hv. Qed.
Lemma label_attr_In t l c : In (l, c) (lt_cols t) -> In (l ++ "_min", ANum (col_min c)) (label_attrs t) /\ In (l ++ "_max", ANum (col_max c)) (label_attrs t).
Proof. intros H. unfold label_attrs. split; apply in_concat; eexists.
  - split; [exact (in_map (fun kc => [(fst kc ++ "_min", ANum (col_min (snd kc))); (fst kc ++ "_max", ANum (col_max (snd kc)))]) _ _ H)|]. left. reflexivity.
  - split; [exact (in_map (fun kc => [(fst kc ++ "_min", ANum (col_min (snd kc))); (fst kc ++ "_max", ANum (col_max (snd kc)))]) _ _ H)|]. right. left. reflexivity. Qed.

Lemma save_data_ok fs name q refl t layers a : old_info fs (ensure_h5_extension name) = Some a ->
  exists fs', save_data fs name q refl t layers = Ok fs' /\
    load_data fs' (ensure_h5_extension name) = Ok (mkLoaded (Some q) (Some refl) t (set_attrs a (fixed_attrs layers (lt_rows t) ++ label_attrs t)%list)) /\
    (forall k, k <> "q_values" -> k <> "reflectivity" -> k <> "labels" -> k <> "info" ->
       dict_get String.eqb (opened fs' (ensure_h5_extension name)) k = dict_get String.eqb (opened fs (ensure_h5_extension name)) k) /\
    (forall p, p <> ensure_h5_extension name -> dict_get String.eqb fs' p = dict_get String.eqb fs p).
Proof. intros H. assert (H' : match dict_get String.eqb (opened fs (ensure_h5_extension name)) "info" with None => Some [] | Some (NGroup a) => Some a | Some _ => None end = Some a).
  { unfold old_info in H. unfold opened. destruct (dict_get String.eqb fs (ensure_h5_extension name)); [exact H|exact H]. }
  clear H. revert H'. unfold save_data. cbv zeta. generalize (ensure_h5_extension name). intros n H. unfold require_group. rewrite get_override.
  change (String.eqb "q_values" "info") with false.
  assert (E : match dict_get String.eqb (opened fs n) "info" with None => Ok [] | Some (NGroup a) => Ok a | Some _ => Raise TypeError end = Ok a).
  { destruct (dict_get String.eqb (opened fs n) "info") as [[x|x|x]|]; try discriminate; congruence. }
  cbv iota. rewrite E. cbn [bind]. eexists. split; [reflexivity|]. split; [|split].
  - unfold load_data. rewrite get_set, String.eqb_refl. unfold get_array. rewrite !get_set, !get_override, !get_set, !get_override. reflexivity.
  - intros k K1 K2 K3 K4. unfold opened at 1. rewrite get_set, String.eqb_refl. rewrite get_set, get_override, get_set, get_override.
    apply String.eqb_neq in K1, K2, K3, K4. rewrite !(String.eqb_sym _ k), K1, K2, K3, K4. reflexivity.
  - intros p Hp. rewrite get_set. apply not_eq_sym, String.eqb_neq in Hp. rewrite Hp. reflexivity. Qed.
Lemma save_two_ok k1 k2 fs name a b n : n = ensure_h5_extension name ->
  forall k, dict_get String.eqb (opened (save_two k1 k2 fs name a b) n) k =
    if String.eqb k2 k then Some (NData b) else if String.eqb k1 k then Some (NData a) else dict_get String.eqb (opened fs n) k.
Proof. intros -> k. unfold save_two. cbv zeta. unfold opened at 1. rewrite get_set, String.eqb_refl, !get_override. reflexivity. Qed.
Lemma save_two_files k1 k2 fs name a b p : p <> ensure_h5_extension name -> dict_get String.eqb (save_two k1 k2 fs name a b) p = dict_get String.eqb fs p.
Proof. intros H. unfold save_two. cbv zeta. rewrite get_set. apply not_eq_sym, String.eqb_neq in H. rewrite H. reflexivity. Qed.
Lemma load_opened fs n f : dict_get String.eqb fs n = Some f -> opened fs n = f.
Proof. unfold opened. intros ->. reflexivity. Qed.
Lemma save_two_load k1 k2 fs name a b p d : (forall k, In k ["q_values"; "reflectivity"; "labels"; "info"] -> k <> k1 /\ k <> k2) ->
  load_data fs p = Ok d -> load_data (save_two k1 k2 fs name a b) p = Ok d.
Proof. intros K H. destruct (String.eqb_spec p (ensure_h5_extension name)) as [E|E].
  - unfold load_data in *. destruct (dict_get String.eqb fs p) as [f|] eqn:F; [|discriminate].
    assert (G : exists f', dict_get String.eqb (save_two k1 k2 fs name a b) p = Some f').
    { unfold save_two. cbv zeta. rewrite get_set. rewrite E, String.eqb_refl. eauto. }
    destruct G as [f' G]. rewrite G. pose proof (save_two_ok k1 k2 fs name a b p E) as S. rewrite (load_opened _ _ _ G), (load_opened _ _ _ F) in S.
    assert (S' : forall k, In k ["q_values"; "reflectivity"; "labels"; "info"] -> dict_get String.eqb f' k = dict_get String.eqb f k).
    { intros k Hk. rewrite S. destruct (K k Hk) as [A B]. apply not_eq_sym, String.eqb_neq in A, B. rewrite A, B. reflexivity. }
    unfold get_array in *. rewrite !S' by (cbn [In]; tauto). exact H.
  - unfold load_data in *. rewrite save_two_files by exact E. exact H. Qed.

(** ** Directories of models *)
Lemma strip_plain name : plain name -> plain (strip_file_extension name).
Proof. intros H. unfold strip_file_extension, splitext. unfold plain in *. unfold basename. rewrite !(rsplit_none slash name) by exact H.
  pose proof (rsplit_inv dot name) as R. destruct (rsplit_char dot name) as [[a e]|]; [|exact H]. destruct R as [E _].
  destruct (all_are dot a); [exact H|]. cbn [fst append]. rewrite E, has_char_app in H. apply orb_false_iff in H. apply H. Qed.
Lemma join_base d x : plain x -> basename (path_join d x) = x.
Proof. intros Hx. unfold path_join. rewrite (not_slash_start _ Hx). unfold plain in Hx. destruct (String.eqb_spec d "") as [-> |Hd]; cbn [orb].
  - cbn [append]. unfold basename. rewrite rsplit_none by exact Hx. reflexivity.
  - destruct (endswith "/" d) eqn:E.
    + apply endswith_iff in E as [a ->]. unfold basename. replace ((a ++ "/") ++ x) with (a ++ String slash x) by (rewrite append_assoc; reflexivity).
      rewrite rsplit_some by exact Hx. reflexivity.
    + unfold basename. change ("/" ++ x) with (String slash x). rewrite rsplit_some by exact Hx. reflexivity. Qed.
Lemma join_ends d x c : plain (x ++ String c "") -> dir_result (path_join d (x ++ String c "")).
Proof. intros Hx. right. right. exists (if String.eqb d "" || endswith "/" d then d ++ x else d ++ "/" ++ x), c.
  assert (Hc : Ascii.eqb c slash = false).
  { unfold plain in Hx. rewrite has_char_app in Hx. apply orb_false_iff in Hx as [_ Hx]. cbn [has_char] in Hx. rewrite orb_false_r in Hx. rewrite Ascii.eqb_sym. exact Hx. }
  split; [exact Hc|]. unfold path_join. rewrite (not_slash_start _ Hx). destruct (String.eqb d "" || endswith "/" d); rewrite !append_assoc; reflexivity. Qed.
Lemma last_char x : x <> "" -> exists y c, x = y ++ String c "".
Proof. induction x as [|d x IH]; [congruence|]. intros _. destruct x as [|e x]; [exists "", d; reflexivity|].
  destruct IH as (y & c & E); [discriminate|]. exists (String d y), c. rewrite E. reflexivity. Qed.
Lemma create_ok fs d x : plain x -> undotted x -> x <> "" ->
  exists fs', create_save_directory fs (path_join d x) = Ok fs' /\ dir_exists fs' (path_join d x) = true /\ forall p, dir_exists fs p = true -> dir_exists fs' p = true.
Proof. intros Hx Hd Hn. unfold create_save_directory, strip_file_extension. rewrite splitext_undotted by (rewrite join_base by exact Hx; exact Hd). cbn [fst].
  destruct (dir_exists fs (path_join d x)) eqn:E; [exists fs; repeat split; [exact E|intros p H; exact H]|].
  assert (N : path_join d x <> "").
  { destruct (last_char x Hn) as (y & c & ->). destruct (join_ends d y c Hx) as [Q|[[Q _]|(t & e & _ & Q)]]; [|exact Q|rewrite Q; destruct t; discriminate].
    exfalso. pose proof (join_base d _ Hx) as B. rewrite Q in B. destruct y; discriminate. }
  assert (M : makedirs fs (path_join d x) = Ok (fs ++ ancestors (place_of (path_join d x)))%list).
  { unfold makedirs. destruct (String.eqb_spec (path_join d x) ""); [contradiction|]. rewrite E. reflexivity. }
  eexists. split; [exact M|]. split; [exact (makedirs_exists _ _ _ M)|]. intros p. apply exists_app. Qed.
Lemma make_save_path_ok fs p ts : plain ts ->
  exists fs' path, make_save_path fs p ts = Ok (fs', path) /\ basename path = ts ++ ".h5" /\ dir_exists fs' (dirname path) = true /\
    dirname path = path_join (model_base p) "models" /\ forall d, dir_exists fs d = true -> dir_exists fs' d = true.
Proof. intros Hts. unfold make_save_path. cbv zeta. destruct (create_ok fs (model_base p) "models" eq_refl eq_refl ltac:(discriminate)) as (fs' & E & X & K).
  rewrite E. cbn [bind]. eexists fs', _. split; [reflexivity|].
  assert (P : plain (ts ++ ".h5")) by (unfold plain in *; rewrite has_char_app, Hts; reflexivity).
  destruct (join_parts (path_join (model_base p) "models") (ts ++ ".h5")) as [D B]; [apply (join_ends (model_base p) "model" "s"); reflexivity|exact P|].
  rewrite D, B. repeat split; assumption. Qed.
Lemma make_tensorboard_ok fs p ts graphs : plain ts -> undotted ts -> ts <> "" ->
  exists fs', make_tensorboard_callback fs p ts graphs = Ok (fs', path_join (path_join (model_base p) graphs) ts) /\
    dir_exists fs' (path_join (path_join (model_base p) graphs) ts) = true /\ forall d, dir_exists fs d = true -> dir_exists fs' d = true.
Proof. intros A B C. unfold make_tensorboard_callback. cbv zeta. destruct (create_ok fs (path_join (model_base p) graphs) ts A B C) as (fs' & E & X & K).
  rewrite E. exists fs'. repeat split; assumption. Qed.
(** The directory of a model whose name has no dot *)
Lemma model_base_undotted pre name : dir_prefix pre -> plain name -> undotted name -> model_base (pre ++ name) = pre ++ name.
Proof. intros Hp Hn Hd. destruct (dirname_prefix pre name Hp Hn) as (d & E & B & J). unfold model_base. rewrite E, B. unfold strip_file_extension.
  rewrite splitext_undotted; [apply J, Hn|]. unfold basename. unfold plain in Hn. rewrite rsplit_none by exact Hn. exact Hd. Qed.
Lemma model_base_dotted pre name e : dir_prefix pre -> plain name -> all_are dot name = false -> plain e -> undotted e ->
  model_base (pre ++ name ++ "." ++ e) = pre ++ name.
Proof. intros Hp Hn Ha He Hd. assert (P : plain (name ++ "." ++ e)) by (unfold plain in *; rewrite !has_char_app, Hn, He; reflexivity).
  destruct (dirname_prefix pre _ Hp P) as (d & E & B & J). unfold model_base. rewrite E, B. unfold strip_file_extension.
  rewrite (splitext_name name e Hn He Hd Ha). apply J, Hn. Qed.
Lemma join_named a x y : plain x -> plain y -> x <> "" -> path_join (a ++ x) y = a ++ x ++ "/" ++ y.
Proof. intros Hx Hy Hn. destruct (last_char x Hn) as (t & c & ->). unfold path_join. rewrite (not_slash_start _ Hy).
  assert (Hc : Ascii.eqb c slash = false).
  { unfold plain in Hx. rewrite has_char_app in Hx. apply orb_false_iff in Hx as [_ Hx]. cbn [has_char] in Hx. rewrite orb_false_r in Hx. rewrite Ascii.eqb_sym. exact Hx. }
  rewrite <- append_assoc. rewrite (endswith_snoc (a ++ t) c Hc).
  replace (String.eqb ((a ++ t) ++ String c "") "") with false by (symmetry; apply String.eqb_neq; destruct (a ++ t); discriminate).
  cbn [orb]. rewrite !append_assoc. reflexivity. Qed.
Lemma save_path_text fs pre name ts : dir_prefix pre -> plain name -> undotted name -> name <> "" -> plain ts ->
  exists fs', make_save_path fs (pre ++ name) ts = Ok (fs', pre ++ name ++ "/models/" ++ ts ++ ".h5") /\ dir_exists fs' (pre ++ name ++ "/models") = true.
Proof. intros Hp Hn Hd Hne Hts. destruct (make_save_path_ok fs (pre ++ name) ts Hts) as (fs' & path & E & B & X & D & _). unfold make_save_path in *. cbv zeta in *.
  rewrite (model_base_undotted pre name Hp Hn Hd) in *.
  assert (M : path_join (pre ++ name) "models" = pre ++ name ++ "/models") by exact (join_named pre name "models" Hn eq_refl Hne).
  rewrite M in *. assert (T : path_join (pre ++ name ++ "/models") (ts ++ ".h5") = pre ++ name ++ "/models/" ++ ts ++ ".h5").
  { replace (pre ++ name ++ "/models") with ((pre ++ name ++ "/") ++ "models") by (rewrite !append_assoc; reflexivity).
    rewrite (join_named (pre ++ name ++ "/") "models" (ts ++ ".h5") eq_refl).
    - rewrite !append_assoc. reflexivity.
    - unfold plain in *. rewrite has_char_app, Hts. reflexivity.
    - discriminate. }
  rewrite T in *. exists fs'. split; [|rewrite <- D; exact X]. destruct (create_save_directory fs (pre ++ name ++ "/models")); cbn [bind] in *; [|discriminate].
  injection E as -> _. reflexivity. Qed.
Lemma log_dir_text fs pre name ts graphs : dir_prefix pre -> plain name -> undotted name -> name <> "" -> plain ts -> undotted ts -> ts <> "" -> plain graphs -> graphs <> "" ->
  exists fs', make_tensorboard_callback fs (pre ++ name) ts graphs = Ok (fs', pre ++ name ++ "/" ++ graphs ++ "/" ++ ts) /\
    dir_exists fs' (pre ++ name ++ "/" ++ graphs ++ "/" ++ ts) = true.
Proof. intros Hp Hn Hd Hne Hts Hut Hnt Hg Hng. destruct (make_tensorboard_ok fs (pre ++ name) ts graphs Hts Hut Hnt) as (fs' & E & X & _).
  rewrite (model_base_undotted pre name Hp Hn Hd) in *. rewrite (join_named pre name graphs Hn Hg Hne) in *.
  assert (T : path_join (pre ++ name ++ "/" ++ graphs) ts = pre ++ name ++ "/" ++ graphs ++ "/" ++ ts).
  { replace (pre ++ name ++ "/" ++ graphs) with ((pre ++ name ++ "/") ++ graphs) by (rewrite !append_assoc; reflexivity).
    rewrite (join_named (pre ++ name ++ "/") graphs ts Hg Hts Hng). rewrite !append_assoc. reflexivity. }
  rewrite T in *. exists fs'. split; assumption. Qed.

(** ** Time stamps *)
Definition digit (k : N) : ascii := ascii_of_N (48 + k).
Definition below (n : nat) : list N := map N.of_nat (seq 0 n).
Lemma below_In n k : (k < N.of_nat n)%N -> In k (below n).
Proof. intros H. unfold below. apply in_map_iff. exists (N.to_nat k). split; [lia|]. apply in_seq. lia. Qed.
Lemma two_digits k : (k < 100)%N -> two k = String (digit (k / 10)) (String (digit (k mod 10)) "").
Proof. intros H. assert (C : forallb (fun k => String.eqb (two k) (String (digit (k / 10)) (String (digit (k mod 10)) ""))) (below 100) = true) by (vm_compute; reflexivity).
  rewrite forallb_forall in C. apply String.eqb_eq, C, below_In. exact H. Qed.
Lemma four_digits y : (1000 <= y <= 9999)%N ->
  decimal y = String (digit (y / 100 / 10)) (String (digit ((y / 100) mod 10)) (String (digit (y mod 100 / 10)) (String (digit (y mod 100 mod 10)) ""))).
Proof. intros H. assert (C : forallb (fun k => (k <? 1000)%N || String.eqb (decimal k) (String (digit (k / 100 / 10)) (String (digit ((k / 100) mod 10))
      (String (digit (k mod 100 / 10)) (String (digit (k mod 100 mod 10)) ""))))) (below (100 * 100)) = true) by (vm_compute; reflexivity).
  rewrite forallb_forall in C. specialize (C y (below_In (100 * 100) y ltac:(change (N.of_nat (100 * 100)) with 10000%N; lia))).
  apply orb_true_iff in C as [C|C]; [apply N.ltb_lt in C; lia|]. apply String.eqb_eq, C. Qed.
Lemma digit_N k : (k < 10)%N -> N_of_ascii (digit k) = (48 + k)%N.
Proof. intros H. apply N_ascii_embedding. lia. Qed.
Lemma digit_inj k l : (k < 10)%N -> (l < 10)%N -> digit k = digit l -> k = l.
Proof. intros Hk Hl E. apply (f_equal N_of_ascii) in E. rewrite !digit_N in E by assumption. lia. Qed.
Lemma before_digit k l x y : (k < 10)%N -> (l < 10)%N -> (text_before (String (digit k) x) (String (digit l) y) <-> (k < l)%N \/ k = l /\ text_before x y).
Proof. intros Hk Hl. cbn [text_before]. rewrite !digit_N by assumption. split.
  - intros [H|[H T]]; [left; lia|right]. split; [apply digit_inj; assumption|exact T].
  - intros [H|[-> T]]; [left; lia|right; split; [reflexivity|exact T]]. Qed.
Lemma before_two a b x y : (a < 100)%N -> (b < 100)%N -> (text_before (two a ++ x) (two b ++ y) <-> (a < b)%N \/ a = b /\ text_before x y).
Proof. intros Ha Hb. rewrite !two_digits by assumption. cbn [append].
  pose proof (N.div_mod' a 10) as Da. pose proof (N.div_mod' b 10) as Db.
  pose proof (N.mod_lt a 10 ltac:(discriminate)) as Ma. pose proof (N.mod_lt b 10 ltac:(discriminate)) as Mb.
  assert (a / 10 < 10)%N by (apply N.div_lt_upper_bound; lia). assert (b / 10 < 10)%N by (apply N.div_lt_upper_bound; lia).
  rewrite !before_digit by assumption. generalize dependent (a / 10)%N. generalize dependent (b / 10)%N. generalize dependent (a mod 10)%N. generalize dependent (b mod 10)%N.
  intros mb Mb ma Ma qb Db Hqb qa Da Hqa. split.
  - intros [H|[H [K|[K T]]]]; [left; lia|left; lia|right; split; [lia|exact T]].
  - intros [H|[H T]]; [|right; split; [lia|right; split; [lia|exact T]]].
    destruct (N.lt_trichotomy qa qb) as [L|[L|L]]; [left; exact L|right; split; [exact L|left; lia]|exfalso; lia]. Qed.
Lemma before_year a b x y : (1000 <= a <= 9999)%N -> (1000 <= b <= 9999)%N -> (text_before (decimal a ++ x) (decimal b ++ y) <-> (a < b)%N \/ a = b /\ text_before x y).
Proof. intros Ha Hb. rewrite !four_digits by assumption.
  assert (L : forall c, (1000 <= c <= 9999)%N -> (c / 100 < 100)%N /\ (c mod 100 < 100)%N).
  { intros c Hc. split; [apply N.div_lt_upper_bound; lia|apply N.mod_lt; discriminate]. }
  destruct (L a Ha) as [A1 A2]. destruct (L b Hb) as [B1 B2]. pose proof (N.div_mod' a 100) as Da. pose proof (N.div_mod' b 100) as Db.
  pose proof (before_two (a / 100) (b / 100) (two (a mod 100) ++ x) (two (b mod 100) ++ y) A1 B1) as P1. pose proof (before_two (a mod 100) (b mod 100) x y A2 B2) as P2.
  rewrite P2 in P1. rewrite !two_digits in P1 by assumption. cbn [append] in P1 |- *. rewrite P1.
  clear P1 P2 L. generalize dependent (a / 100)%N. generalize dependent (b / 100)%N. generalize dependent (a mod 100)%N. generalize dependent (b mod 100)%N.
  intros mb Mb ma Ma qb Db Hqb qa Da Hqa. split.
  - intros [H|[H [K|[K T]]]]; [left; lia|left; lia|right; split; [lia|exact T]].
  - intros [H|[H T]]; [|right; split; [lia|right; split; [lia|exact T]]].
    destruct (N.lt_trichotomy qa qb) as [L|[L|L]]; [left; exact L|right; split; [exact L|left; lia]|exfalso; lia]. Qed.
Lemma before_same c x y : text_before (String c x) (String c y) <-> text_before x y.
Proof. cbn [text_before]. split; [intros [H|[_ H]]; [lia|exact H]|intros H; right; split; [reflexivity|exact H]]. Qed.
Lemma stamp_before a b sa sb : dt_valid a -> dt_valid b -> make_timestamp a "YMD" = Ok sa -> make_timestamp b "YMD" = Ok sb ->
  (text_before sa sb <-> before (dt_list a) (dt_list b)).
Proof. intros (Y & M & D & Hh & Mi & Se) (Y' & M' & D' & Hh' & Mi' & Se'). unfold make_timestamp. cbv zeta.
  change (String.eqb "YMD" "DMY") with false. change (String.eqb "YMD" "MDY") with false. change (String.eqb "YMD" "YMD") with true. cbv iota.
  intros [= <-] [= <-]. unfold dt_list. cbn [before].
  rewrite before_year by assumption. cbn [append].
  rewrite before_same, before_two, before_same, before_two, before_same, before_two, before_two by lia.
  replace (two (dt_sec a)) with (two (dt_sec a) ++ "") by apply append_nil_r. replace (two (dt_sec b)) with (two (dt_sec b) ++ "") by apply append_nil_r.
  rewrite before_two by lia. cbn [text_before]. tauto. Qed.
Lemma two_inj a b : (a < 100)%N -> (b < 100)%N -> two a = two b -> a = b.
Proof. intros Ha Hb E. rewrite !two_digits in E by assumption. injection E as E1 E2.
  pose proof (N.div_mod' a 10) as Da. pose proof (N.div_mod' b 10) as Db.
  apply digit_inj in E1; [|apply N.div_lt_upper_bound; lia|apply N.div_lt_upper_bound; lia].
  apply digit_inj in E2; [|apply N.mod_lt; discriminate|apply N.mod_lt; discriminate]. congruence. Qed.
Lemma two_length a : (a < 100)%N -> String.length (two a) = 2%nat.
Proof. intros H. rewrite two_digits by exact H. reflexivity. Qed.
Lemma year_length a : (1000 <= a <= 9999)%N -> String.length (decimal a) = 4%nat.
Proof. intros H. rewrite four_digits by exact H. reflexivity. Qed.
Lemma app_split a b x y : String.length a = String.length b -> a ++ x = b ++ y -> a = b /\ x = y.
Proof. revert b; induction a as [|c a IH]; intros [|d b]; cbn [String.length append]; intros L H; try discriminate; [split; [reflexivity|exact H]|].
  injection H as -> H. injection L as L. destruct (IH b L H) as [-> ->]. split; reflexivity. Qed.
Lemma stamp_inj style a b s : dt_valid a -> dt_valid b -> make_timestamp a style = Ok s -> make_timestamp b style = Ok s -> a = b.
Proof. intros (Y & M & D & Hh & Mi & Se) (Y' & M' & D' & Hh' & Mi' & Se') A B. unfold make_timestamp in *. cbv zeta in *.
  destruct a as [ay am ad ah ai as_], b as [b_y bm bd bh bi bs]. cbn [dt_year dt_month dt_day dt_hour dt_min dt_sec] in *.
  assert (Q : forall x, two x ++ "" = two x) by (intros; apply append_nil_r).
  assert (F : ay = b_y /\ am = bm /\ ad = bd /\ ah = bh /\ ai = bi /\ as_ = bs).
  { destruct (String.eqb style "DMY"); [|destruct (String.eqb style "MDY"); [|destruct (String.eqb style "YMD"); [|discriminate]]];
    injection A as <-; injection B as B.
    - apply app_split in B as [E1 B]; [|rewrite !two_length by lia; reflexivity]. injection B as B.
      apply app_split in B as [E2 B]; [|rewrite !two_length by lia; reflexivity]. injection B as B.
      apply app_split in B as [E3 B]; [|rewrite !year_length by lia; reflexivity]. injection B as B.
      apply app_split in B as [E4 B]; [|rewrite !two_length by lia; reflexivity].
      apply app_split in B as [E5 E6]; [|rewrite !two_length by lia; reflexivity].
      apply two_inj in E1, E2, E4, E5, E6; try lia. apply dec_inj in E3. repeat split; congruence.
    - apply app_split in B as [E1 B]; [|rewrite !two_length by lia; reflexivity]. injection B as B.
      apply app_split in B as [E2 B]; [|rewrite !two_length by lia; reflexivity]. injection B as B.
      apply app_split in B as [E3 B]; [|rewrite !year_length by lia; reflexivity]. injection B as B.
      apply app_split in B as [E4 B]; [|rewrite !two_length by lia; reflexivity].
      apply app_split in B as [E5 E6]; [|rewrite !two_length by lia; reflexivity].
      apply two_inj in E1, E2, E4, E5, E6; try lia. apply dec_inj in E3. repeat split; congruence.
    - apply app_split in B as [E3 B]; [|rewrite !year_length by lia; reflexivity]. injection B as B.
      apply app_split in B as [E1 B]; [|rewrite !two_length by lia; reflexivity]. injection B as B.
      apply app_split in B as [E2 B]; [|rewrite !two_length by lia; reflexivity]. injection B as B.
      apply app_split in B as [E4 B]; [|rewrite !two_length by lia; reflexivity].
      apply app_split in B as [E5 E6]; [|rewrite !two_length by lia; reflexivity].
      apply two_inj in E1, E2, E4, E5, E6; try lia. apply dec_inj in E3. repeat split; congruence. }
  destruct F as (-> & -> & -> & -> & -> & ->). reflexivity. Qed.
Definition digits_only (s : string) : Prop := str_forall (fun c => match digit_val c with Some _ => true | None => false end) s = true.
Lemma two_only k : digits_only (two k).
Proof. unfold digits_only, two, pad. rewrite str_forall_app. apply andb_true_iff. split; [|apply dec_digits].
  generalize (2 - String.length (decimal k))%nat. intros n. induction n as [|n IH]; [reflexivity|exact IH]. Qed.
Lemma digits_plain s c : digits_only s -> digit_val c = None -> has_char c s = false.
Proof. intros H Hc. apply (no_char_forall c _ s H). rewrite Hc. reflexivity. Qed.
Lemma stamp_plain now : exists ts, make_timestamp now "YMD" = Ok ts /\ plain ts /\ undotted ts /\ ts <> "".
Proof. eexists. split; [reflexivity|]. unfold plain, undotted. rewrite !has_char_app.
  assert (A : forall k, has_char "/" (two k) = false) by (intros k; apply digits_plain; [apply two_only|reflexivity]).
  assert (B : forall k, has_char "." (two k) = false) by (intros k; apply digits_plain; [apply two_only|reflexivity]).
  assert (A' : forall k, has_char "/" (decimal k) = false) by (intros k; apply digits_plain; [apply dec_digits|reflexivity]).
  assert (B' : forall k, has_char "." (decimal k) = false) by (intros k; apply digits_plain; [apply dec_digits|reflexivity]).
  rewrite !A, !B, A', B'. repeat split. destruct (decimal (dt_year now)); discriminate. Qed.
Lemma setup_ok fs pre name now : dir_prefix pre -> plain name -> undotted name -> name <> "" ->
  exists ts fs', make_timestamp now "YMD" = Ok ts /\
    setup_training fs (pre ++ name) now = Ok (fs', (pre ++ name ++ "/tb_graphs/" ++ ts, pre ++ name ++ "/models/" ++ ts ++ ".h5", ts)) /\
    dir_exists fs' (pre ++ name ++ "/models") = true /\ dir_exists fs' (pre ++ name ++ "/tb_graphs/" ++ ts) = true.
Proof. intros Hp Hn Hd Hne. destruct (stamp_plain now) as (ts & E & P & U & N). exists ts. unfold setup_training. rewrite E. cbn [bind].
  destruct (log_dir_text fs pre name ts "tb_graphs" Hp Hn Hd Hne P U N eq_refl ltac:(discriminate)) as (fs1 & E1 & X1). rewrite E1. cbn [bind].
  destruct (save_path_text fs1 pre name ts Hp Hn Hd Hne P) as (fs2 & E2 & X2). rewrite E2. cbn [bind].
  exists fs2. repeat split; [exact X2|].
  destruct (make_save_path_ok fs1 (pre ++ name) ts P) as (fs2' & path' & E3 & _ & _ & _ & K). rewrite E2 in E3. injection E3 as <- _. apply K, X1. Qed.

(** ** Saving curves *)
Lemma scan_path_text pre base n : dir_prefix pre -> plain base -> scan_save_path (pre ++ base) n = pre ++ "scan" ++ int_text n ++ "_" ++ base.
Proof. intros Hp Hb. destruct (dirname_prefix pre base Hp Hb) as (d & E & B & J). unfold scan_save_path. rewrite E, B, str_int_text. apply J.
  unfold plain in *. rewrite !has_char_app. rewrite int_text_plain, Hb. reflexivity. Qed.
Lemma scan_path_parts path n : dirname (scan_save_path path n) = dirname path /\ basename (scan_save_path path n) = "scan" ++ int_text n ++ "_" ++ basename path.
Proof. unfold scan_save_path. rewrite str_int_text. apply join_parts; [apply dirname_result|]. pose proof (basename_plain path) as B. unfold plain in *.
  rewrite !has_char_app. rewrite int_text_plain, B. reflexivity. Qed.
Lemma scan_path_inj path n m : scan_save_path path n = scan_save_path path m -> n = m.
Proof. intros E. pose proof (proj2 (scan_path_parts path n)) as A. pose proof (proj2 (scan_path_parts path m)) as B. rewrite E in A. rewrite A in B.
  apply append_inj_l in B. apply append_inj_r in B. apply int_text_inj, B. Qed.
Section Saved.
Variable fmt : fl -> string.
Lemma save_curve_ok fs path q y : List.length y = List.length q ->
  exists lines, save_curve fmt fs path q y = Ok (dict_set String.eqb fs path lines) /\ curve_file fmt q y lines.
Proof. intros L. unfold save_curve, to_column. rewrite L, Nat.eqb_refl. cbn [bind]. eexists. split; [reflexivity|]. split.
  - rewrite map_length, combine_length, L. apply Nat.min_id.
  - intros i a b Ha Hb. rewrite nth_error_map. assert (C : nth_error (combine q y) i = Some (a, b)).
    { clear L. revert y i Ha Hb. induction q as [|x q IH]; intros [|z y] [|i]; cbn [nth_error combine]; try discriminate; [congruence|]. apply IH. }
    rewrite C. reflexivity. Qed.
Lemma one_value_saved fs path r x : r_refl r = [x] ->
  exists lines, save_predicted fmt fs path r = Ok (dict_set String.eqb fs path lines) /\ curve_file fmt (r_q r) (repeat x (List.length (r_q r))) lines.
Proof. intros E. destruct (save_curve_ok fs path (r_q r) (repeat x (List.length (r_q r))) (repeat_length _ _)) as (lines & H & C). exists lines. split; [|exact C].
  rewrite <- H. unfold save_predicted, save_curve, to_column. rewrite E, repeat_length, Nat.eqb_refl. cbn [List.length]. destruct (Nat.eqb_spec 1 (List.length (r_q r))) as [<-|]; reflexivity. Qed.
Lemma other_lengths_rejected fs path r : List.length (r_refl r) <> List.length (r_q r) -> List.length (r_refl r) <> 1%nat -> save_predicted fmt fs path r = Raise ValueError.
Proof. intros A B. unfold save_predicted, save_curve, to_column. rewrite (proj2 (Nat.eqb_neq _ _) A). destruct (r_refl r) as [|y [|]]; try reflexivity. contradiction. Qed.
Section Series.
Variables (save : disk -> string -> fit_result -> res disk) (curve : fit_result -> list fl).
Hypothesis save_is : forall fs p r, save fs p r = save_curve fmt fs p (r_q r) (curve r).
Lemma save_series_ok path l : (forall r, In r l -> List.length (curve r) = List.length (r_q r)) -> NoDup (map r_scan l) ->
  forall fs, exists fs', foldM (fun fs r => save fs (scan_save_path path (r_scan r)) r) fs l = Ok fs' /\
    (forall r, In r l -> exists lines, dict_get String.eqb fs' (scan_save_path path (r_scan r)) = Some lines /\ curve_file fmt (r_q r) (curve r) lines) /\
    (forall p, (forall r, In r l -> p <> scan_save_path path (r_scan r)) -> dict_get String.eqb fs' p = dict_get String.eqb fs p).
Proof. induction l as [|r l IH]; intros HL N fs; cbn [foldM].
  - exists fs. repeat split. intros r [].
  - cbn [map] in N. inversion N as [|? ? Hn N']; subst. rewrite save_is.
    destruct (save_curve_ok fs (scan_save_path path (r_scan r)) (r_q r) (curve r) (HL r (or_introl eq_refl))) as (lines & E & C). rewrite E. cbn [bind].
    destruct (IH (fun r' H => HL r' (or_intror H)) N' (dict_set String.eqb fs (scan_save_path path (r_scan r)) lines)) as (fs' & E' & A & B).
    exists fs'. split; [exact E'|]. split.
    + intros r' [<-|H]; [|apply A, H]. exists lines. split; [|exact C]. rewrite B.
      * rewrite get_set, String.eqb_refl. reflexivity.
      * intros r' H K. apply scan_path_inj in K. apply Hn. rewrite K. apply in_map, H.
    + intros p Hp. rewrite B by (intros r' H; apply Hp; right; exact H). rewrite get_set.
      assert (K : scan_save_path path (r_scan r) <> p) by (apply not_eq_sym, Hp; left; reflexivity). apply String.eqb_neq in K. rewrite K. reflexivity. Qed.
End Series.
End Saved.

(** ** The statements *)
Lemma predicted_series_ok fmt fs pre base se : dir_prefix pre -> plain base ->
  (forall r, In r (se_list se) -> List.length (r_refl r) = List.length (r_q r)) -> NoDup (map r_scan (se_list se)) ->
  exists fs', save_predicted_series fmt fs (pre ++ base) se = Ok fs' /\
    (forall r, In r (se_list se) -> exists lines,
       dict_get String.eqb fs' (pre ++ "scan" ++ int_text (r_scan r) ++ "_" ++ base) = Some lines /\ curve_file fmt (r_q r) (r_refl r) lines) /\
    (forall p, (forall r, In r (se_list se) -> p <> pre ++ "scan" ++ int_text (r_scan r) ++ "_" ++ base) -> dict_get String.eqb fs' p = dict_get String.eqb fs p).
Proof. intros Hp Hb L N. destruct (save_series_ok fmt (save_predicted fmt) r_refl (fun _ _ _ => eq_refl) (pre ++ base) (se_list se) L N fs) as (fs' & E & A & B).
  exists fs'. split; [exact E|]. split.
  - intros r H. rewrite <- (scan_path_text pre base (r_scan r) Hp Hb). exact (A r H).
  - intros p H. apply B. intros r K. rewrite (scan_path_text pre base (r_scan r) Hp Hb). exact (H r K). Qed.
Lemma corrected_series_ok fmt fs pre base se : dir_prefix pre -> plain base ->
  (forall r, In r (se_list se) -> List.length (r_corrected r) = List.length (r_q r)) -> NoDup (map r_scan (se_list se)) ->
  exists fs', save_corrected_series fmt fs (pre ++ base) se = Ok fs' /\
    (forall r, In r (se_list se) -> exists lines,
       dict_get String.eqb fs' (pre ++ "scan" ++ int_text (r_scan r) ++ "_" ++ base) = Some lines /\ curve_file fmt (r_q r) (r_corrected r) lines) /\
    (forall p, (forall r, In r (se_list se) -> p <> pre ++ "scan" ++ int_text (r_scan r) ++ "_" ++ base) -> dict_get String.eqb fs' p = dict_get String.eqb fs p).
Proof. intros Hp Hb L N. destruct (save_series_ok fmt (save_corrected fmt) r_corrected (fun _ _ _ => eq_refl) (pre ++ base) (se_list se) L N fs) as (fs' & E & A & B).
  exists fs'. split; [exact E|]. split.
  - intros r H. rewrite <- (scan_path_text pre base (r_scan r) Hp Hb). exact (A r H).
  - intros p H. apply B. intros r K. rewrite (scan_path_text pre base (r_scan r) Hp Hb). exact (H r K). Qed.
Lemma scan_names_differ path n m : n <> m -> basename (scan_save_path path n) <> basename (scan_save_path path m) /\ scan_save_path path n <> scan_save_path path m.
Proof. intros H. split; intros E; apply H; [|exact (scan_path_inj path n m E)]. rewrite !(proj2 (scan_path_parts path _)) in E.
  apply append_inj_l in E. apply append_inj_r in E. apply int_text_inj, E. Qed.
Lemma round_trip fs name q refl t layers a : (endswith ".h5" name = true \/ endswith ".hdf5" name = true) -> old_info fs name = Some a -> NoDup (map fst (lt_cols t)) ->
  exists fs' d, save_data fs name q refl t layers = Ok fs' /\ load_data fs' name = Ok d /\
    lo_q d = Some q /\ lo_refl d = Some refl /\ lo_labels d = t /\
    (forall l c, In (l, c) (lt_cols t) -> exists lo hi, dict_get String.eqb (lo_info d) (l ++ "_min") = Some (ANum lo) /\ column_min c lo /\
                                                   dict_get String.eqb (lo_info d) (l ++ "_max") = Some (ANum hi) /\ column_max c hi) /\
    dict_get String.eqb (lo_info d) "number_of_layers" = Some (AInt layers) /\ dict_get String.eqb (lo_info d) "num_curves" = Some (AInt (Z.of_nat (lt_rows t))) /\
    dict_get String.eqb (lo_info d) "q_unit" = Some (AStr "1/A") /\ dict_get String.eqb (lo_info d) "thickness_unit" = Some (AStr "A") /\
    dict_get String.eqb (lo_info d) "roughness_uni" = Some (AStr "A") /\ dict_get String.eqb (lo_info d) "sld_unit" = Some (AStr "1e-6 1/A^2") /\
    forall p, p <> name -> dict_get String.eqb fs' p = dict_get String.eqb fs p.
Proof. intros X I N. pose proof (save_data_ok fs name q refl t layers a) as S. rewrite (ensure_same name X) in S. destruct (S I) as (fs' & E & L & _ & O).
  exists fs'. eexists. split; [exact E|]. split; [exact L|]. cbn [lo_q lo_refl lo_labels lo_info]. split; [reflexivity|]. split; [reflexivity|]. split; [reflexivity|].
  pose proof (attrs_NoDup layers (lt_rows t) t N) as ND.
  split.
  { intros l c H. destruct (label_attr_In t l c H) as [A B]. exists (col_min c), (col_max c).
    split; [apply set_attrs_in; [exact ND|apply in_or_app; right; exact A]|]. split; [apply col_min_ok|].
    split; [apply set_attrs_in; [exact ND|apply in_or_app; right; exact B]|]. apply col_max_ok. }
  repeat split; try (apply set_attrs_in; [exact ND|apply in_or_app; left; cbn [fixed_attrs In]; tauto]). exact O. Qed.
Lemma name_differs name : name ++ ".h5" <> name.
Proof. intros E. apply (f_equal String.length) in E. rewrite length_append in E. cbn [String.length] in E. lia. Qed.
Lemma same_name_unchanged fs name q refl t layers a : endswith ".h5" name = false -> endswith ".hdf5" name = false -> old_info fs (name ++ ".h5") = Some a ->
  exists fs', save_data fs name q refl t layers = Ok fs' /\ load_data fs' name = load_data fs name.
Proof. intros A B I. pose proof (save_data_ok fs name q refl t layers a) as S. rewrite (ensure_other name A B) in S. destruct (S I) as (fs' & E & _ & _ & O).
  exists fs'. split; [exact E|]. unfold load_data. rewrite (O name (not_eq_sym (name_differs name))). reflexivity. Qed.
Lemma save_directory_exists fs p ts : plain ts ->
  exists fs' path, make_save_path fs p ts = Ok (fs', path) /\ basename path = ts ++ ".h5" /\ dir_exists fs' (dirname path) = true /\
    forall d, dir_exists fs d = true -> dir_exists fs' d = true.
Proof. intros H. destruct (make_save_path_ok fs p ts H) as (fs' & path & A & B & C & _ & D). exists fs', path. repeat split; assumption. Qed.
Lemma save_paths_differ fs1 fs2 pre1 name1 pre2 name2 ts1 ts2 fs1' fs2' path :
  dir_prefix pre1 -> plain name1 -> undotted name1 -> name1 <> "" -> dir_prefix pre2 -> plain name2 -> undotted name2 -> name2 <> "" -> plain ts1 -> plain ts2 ->
  make_save_path fs1 (pre1 ++ name1) ts1 = Ok (fs1', path) -> make_save_path fs2 (pre2 ++ name2) ts2 = Ok (fs2', path) ->
  pre1 ++ name1 = pre2 ++ name2 /\ ts1 = ts2.
Proof. intros P1 N1 U1 E1 P2 N2 U2 E2 T1 T2 A B.
  destruct (make_save_path_ok fs1 (pre1 ++ name1) ts1 T1) as (x1 & y1 & A1 & B1 & _ & _ & _). rewrite A in A1. injection A1 as <- <-.
  destruct (make_save_path_ok fs2 (pre2 ++ name2) ts2 T2) as (x2 & y2 & A2 & B2 & _ & _ & _). rewrite B in A2. injection A2 as <- <-.
  rewrite B1 in B2. apply append_inj_r in B2. subst ts2. split; [|reflexivity].
  destruct (save_path_text fs1 pre1 name1 ts1 P1 N1 U1 E1 T1) as (z1 & Q1 & _). rewrite A in Q1. injection Q1 as _ Q1.
  destruct (save_path_text fs2 pre2 name2 ts1 P2 N2 U2 E2 T2) as (z2 & Q2 & _). rewrite B in Q2. injection Q2 as _ Q2.
  rewrite Q1 in Q2. rewrite <- !append_assoc in Q2. rewrite !append_assoc in Q2.
  rewrite <- (append_assoc pre1 name1), <- (append_assoc pre2 name2) in Q2. apply append_inj_r in Q2. exact Q2. Qed.
Lemma dotted_same fs pre name e ts : dir_prefix pre -> plain name -> all_are dot name = false -> plain e -> undotted e -> undotted name ->
  make_save_path fs (pre ++ name ++ "." ++ e) ts = make_save_path fs (pre ++ name) ts /\
  make_tensorboard_callback fs (pre ++ name ++ "." ++ e) ts "tb_graphs" = make_tensorboard_callback fs (pre ++ name) ts "tb_graphs".
Proof. intros P N A E U UN. unfold make_save_path, make_tensorboard_callback. rewrite (model_base_dotted pre name e P N A E U), (model_base_undotted pre name P N UN). split; reflexivity. Qed.
Lemma other_style now style : ~ In style ["DMY"; "MDY"; "YMD"] -> make_timestamp now style = Raise KeyError.
Proof. intros H. cbn [In] in H. unfold make_timestamp. cbv zeta. destruct (String.eqb_spec style "DMY"); [subst; tauto|].
  destruct (String.eqb_spec style "MDY"); [subst; tauto|]. destruct (String.eqb_spec style "YMD"); [subst; tauto|]. reflexivity. Qed.
Lemma stale_attribute fs name q refl t layers a k v : old_info fs (ensure_h5_extension name) = Some a -> dict_get String.eqb a k = Some v ->
  ~ In k ["number_of_layers"; "num_curves"; "q_unit"; "thickness_unit"; "roughness_uni"; "sld_unit"] ->
  (forall l, In l (map fst (lt_cols t)) -> k <> l ++ "_min" /\ k <> l ++ "_max") ->
  exists fs' d, save_data fs name q refl t layers = Ok fs' /\ load_data fs' (ensure_h5_extension name) = Ok d /\ dict_get String.eqb (lo_info d) k = Some v.
Proof. intros I G F L. destruct (save_data_ok fs name q refl t layers a I) as (fs' & E & D & _ & _). exists fs'. eexists. split; [exact E|]. split; [exact D|].
  cbn [lo_info]. rewrite set_attrs_other; [exact G|]. rewrite map_app. intros H. apply in_app_or in H as [H|H]; [exact (F H)|].
  apply label_attr_keys in H as (l & Hl & [H|H]); destruct (L l Hl); contradiction. Qed.
Lemma new_file_attributes fs name q refl t layers : dict_get String.eqb fs (ensure_h5_extension name) = None ->
  exists fs' d, save_data fs name q refl t layers = Ok fs' /\ load_data fs' (ensure_h5_extension name) = Ok d /\
    forall k v, dict_get String.eqb (lo_info d) k = Some v ->
      In k ["number_of_layers"; "num_curves"; "q_unit"; "thickness_unit"; "roughness_uni"; "sld_unit"] \/
      exists l, In l (map fst (lt_cols t)) /\ (k = l ++ "_min" \/ k = l ++ "_max").
Proof. intros H. assert (I : old_info fs (ensure_h5_extension name) = Some []) by (unfold old_info; rewrite H; reflexivity).
  destruct (save_data_ok fs name q refl t layers [] I) as (fs' & E & D & _ & _). exists fs'. eexists. split; [exact E|]. split; [exact D|]. cbn [lo_info].
  intros k v G. apply dict_get_some_In in G. apply (in_map fst) in G. cbn [fst] in G. apply (set_list_keys String.eqb seqb_ok) in G as [G|[]].
  rewrite map_app in G. apply in_app_or in G as [G|G]; [left; exact G|right; apply label_attr_keys, G]. Qed.
Lemma entry_opened fs n k : entry_of fs n k = dict_get String.eqb (opened fs n) k.
Proof. unfold entry_of, opened. destruct (dict_get String.eqb fs n); reflexivity. Qed.
Lemma noise_saved fs name x levels :
  let fs' := save_noise fs name x levels in let n := ensure_h5_extension name in
  entry_of fs' n "shot_noise" = Some (NData x) /\ entry_of fs' n "shot_noise_levels" = Some (NData levels) /\
  (forall k, k <> "shot_noise" -> k <> "shot_noise_levels" -> entry_of fs' n k = entry_of fs n k) /\ forall p, p <> n -> dict_get String.eqb fs' p = dict_get String.eqb fs p.
Proof. cbv zeta. unfold save_noise. repeat split.
  - rewrite entry_opened, (save_two_ok _ _ _ _ _ _ _ eq_refl). reflexivity.
  - rewrite entry_opened, (save_two_ok _ _ _ _ _ _ _ eq_refl). reflexivity.
  - intros k A B. rewrite !entry_opened, (save_two_ok _ _ _ _ _ _ _ eq_refl). apply not_eq_sym, String.eqb_neq in A, B. rewrite A, B. reflexivity.
  - intros p. apply save_two_files. Qed.
Lemma background_saved fs name x levels :
  let fs' := save_background fs name x levels in let n := ensure_h5_extension name in
  entry_of fs' n "background" = Some (NData x) /\ entry_of fs' n "background_levels" = Some (NData levels) /\
  (forall k, k <> "background" -> k <> "background_levels" -> entry_of fs' n k = entry_of fs n k) /\ forall p, p <> n -> dict_get String.eqb fs' p = dict_get String.eqb fs p.
Proof. cbv zeta. unfold save_background. repeat split.
  - rewrite entry_opened, (save_two_ok _ _ _ _ _ _ _ eq_refl). reflexivity.
  - rewrite entry_opened, (save_two_ok _ _ _ _ _ _ _ eq_refl). reflexivity.
  - intros k A B. rewrite !entry_opened, (save_two_ok _ _ _ _ _ _ _ eq_refl). apply not_eq_sym, String.eqb_neq in A, B. rewrite A, B. reflexivity.
  - intros p. apply save_two_files. Qed.
Lemma data_kept fs name x levels p d : load_data fs p = Ok d ->
  load_data (save_noise fs name x levels) p = Ok d /\ load_data (save_background fs name x levels) p = Ok d.
Proof. intros H. split; apply save_two_load; try exact H; intros k K; cbn [In] in K; repeat (destruct K as [<-|K]; [split; discriminate|]); destruct K. Qed.
Lemma entries_kept fs name q refl t layers fs' k : save_data fs name q refl t layers = Ok fs' ->
  k <> "q_values" -> k <> "reflectivity" -> k <> "labels" -> k <> "info" -> entry_of fs' (ensure_h5_extension name) k = entry_of fs (ensure_h5_extension name) k.
Proof. intros H A B C D. destruct (old_info fs (ensure_h5_extension name)) as [a|] eqn:I.
  - destruct (save_data_ok fs name q refl t layers a I) as (fs2 & E & _ & K & _). rewrite H in E. injection E as <-. rewrite !entry_opened. apply K; assumption.
  - exfalso. unfold old_info in I. unfold save_data in H. cbv zeta in H. unfold require_group in H. rewrite get_override in H. change (String.eqb "q_values" "info") with false in H. cbv iota in H.
    unfold opened in H. destruct (dict_get String.eqb fs (ensure_h5_extension name)) as [f|]; [|discriminate I].
    destruct (dict_get String.eqb f "info") as [[y|y|y]|]; try discriminate I; discriminate H. Qed.
