(** The exports and plots of the P08 tools. *)
From Coq Require Import Reals Lra Sorted.
From Flocq Require Import Core.Raux.
From Verif Require Import Py Str Arr Footprint_Model Spec_Model Spec_Proofs Fio_Model Fio_Proofs P08_Model P08_Spec P08Scan_Spec Footprint_Proofs P08_Proofs P08Loader_Proofs
  Utils_Proofs ScanFit_Model ScanFit_Spec ScanFit_Proofs ScanFits_Proofs.
Local Open Scope R_scope.
Local Open Scope string_scope.

(** ** Export *)
Lemma position_first n l k : nth_error l k = Some n -> ~ In n (firstn k l) -> position n l = Some k.
Proof. revert k. induction l as [|m l IH]; intros [|k] E H; try discriminate; cbn [nth_error position firstn] in *.
  - injection E as ->. rewrite String.eqb_refl. reflexivity.
  - destruct (String.eqb m n) eqn:Em; [apply String.eqb_eq in Em; subst m; exfalso; apply H; left; reflexivity|]. rewrite (IH k E); [reflexivity|]. intros Z. apply H. right. exact Z. Qed.
Lemma motor_index_ok s name n x : motor_column s name n x -> py_get (f_positions s) (Z.of_nat (motor_index s name)) = Ok x /\ py_get (f_motor_names s) (Z.of_nat (motor_index s name)) = Ok n.
Proof. intros (k & En & Ex & H). assert (E : motor_index s name = k).
  { unfold motor_index. destruct name as [m|]; [|symmetry; exact H]. destruct H as [-> H]. rewrite (position_first n _ k En H). reflexivity. }
  rewrite E. split; apply py_get_nat; assumption. Qed.
Lemma one_region s det name q imgs : pictures_of s det imgs -> name <> "all" ->
  (result <- extract_rois s [(name, corners q)] ;; d <- match dict_get String.eqb result det with Some d => Ok d | None => Raise KeyError end ;; data_col d name) = Ok (sums_in s q imgs).
Proof. intros (F & Ei) Hn. pose proof (extract_rois_ok s [(name, q)] F) as E. cbn [map fst snd] in E. rewrite E; [|repeat constructor; cbn; intuition congruence]. cbn [bind].
  rewrite (dict_get_map (sums_of _ [(name, q)])), Ei. cbn [option_map bind sums_of map fst snd]. unfold data_col. cbn [dict_get].
  destruct (String.eqb "all" name) eqn:Ea; [apply String.eqb_eq in Ea; congruence|]. rewrite String.eqb_refl. reflexivity. Qed.
Lemma attenuated_length {A} col (f : A -> fl) imgs : List.length (attenuated col f imgs) = List.length imgs.
Proof. unfold attenuated. rewrite map_length, combine_length, seq_length. lia. Qed.
Lemma export_ok fmt4 fmt6 fs s det q file name n x imgs (bck : option rectangle) : pictures_of s det imgs -> motor_column s name n x ->
  export2ascii fmt4 fmt6 fs s det (corners q) file name (option_map corners bck) =
  Ok (dict_set String.eqb fs file (text_lines fmt4 fmt6 x (match bck with None => sums_in s q imgs | Some b => entrywise fsub (sums_in s q imgs) (sums_in s b imgs) end))).
Proof. intros P M. destruct (motor_index_ok _ _ _ _ M) as (Ex & En). unfold export2ascii. rewrite (one_region s det "fit_roi" q imgs P ltac:(discriminate)). cbn [bind].
  destruct bck as [b|]; cbn [option_map].
  - rewrite (one_region s det "bck_int" b imgs P ltac:(discriminate)). cbn [bind]. rewrite vec_op_same by (unfold sums_in; rewrite !attenuated_length; reflexivity). cbn [bind]. rewrite Ex. cbn [bind]. rewrite En. reflexivity.
  - cbn [bind]. rewrite Ex. cbn [bind]. rewrite En. reflexivity. Qed.
Lemma export_unknown fmt4 fmt6 fs s det roi file m bck : ~ In m (f_motor_names s) -> export2ascii fmt4 fmt6 fs s det roi file (Some m) bck = export2ascii fmt4 fmt6 fs s det roi file None bck.
Proof. intros H. unfold export2ascii, motor_index. replace (position m (f_motor_names s)) with (None : option nat); [reflexivity|].
  symmetry. induction (f_motor_names s) as [|a l IH]; [reflexivity|]. cbn [position]. destruct (String.eqb a m) eqn:E; [apply String.eqb_eq in E; subst a; exfalso; apply H; left; reflexivity|].
  rewrite IH; [reflexivity|]. intros Z. apply H. right. exact Z. Qed.
Lemma lines_count fmt4 fmt6 x y : List.length (text_lines fmt4 fmt6 x y) = Nat.min (List.length x) (List.length y).
Proof. unfold text_lines. rewrite map_length. apply combine_length. Qed.

(** ** Pictures in a file *)
Lemma write_hdf_ok m file s det more imgs : f_detectors s = det :: more -> dict_get String.eqb (f_images s) det = Some (S3 imgs) ->
  write_hdf m file s = Ok (mkMedia (m_images m) (dict_set String.eqb (m_stacks m) file imgs) (m_raw m)).
Proof. intros Ed Ei. unfold write_hdf. rewrite Ed. change (py_get (det :: more) 0) with (Ok det). cbn [bind]. rewrite Ei. reflexivity. Qed.
Lemma write_hdf_line m file s det more lines : f_detectors s = det :: more -> dict_get String.eqb (f_images s) det = Some (S2 lines) -> write_hdf m file s = Raise IndexError.
Proof. intros Ed Ei. unfold write_hdf. rewrite Ed. change (py_get (det :: more) 0) with (Ok det). cbn [bind]. rewrite Ei. reflexivity. Qed.

(** ** Panels *)
Lemma leb_total a b : str_leb a b = false -> String.compare b a <> Gt.
Proof. unfold str_leb. rewrite (String.compare_antisym b a). destruct (String.compare a b); cbn; congruence. Qed.
Lemma insert_in_order x l : in_order l -> in_order (insert_sorted x l).
Proof. unfold in_order. induction l as [|y l IH]; intros H; cbn [insert_sorted]; [repeat constructor|]. destruct (str_leb x y) eqn:E.
  - constructor; [exact H|]. constructor. unfold str_leb in E. destruct (String.compare x y); congruence.
  - inversion H as [|? ? H1 H2]; subst. constructor; [apply IH, H1|]. destruct l as [|z l]; cbn [insert_sorted].
    + constructor. apply leb_total, E.
    + destruct (str_leb x z); constructor; [apply leb_total, E|]. inversion H2; assumption. Qed.
Lemma sort_in_order l : in_order (sort_strings l).
Proof. induction l as [|x l IH]; [constructor|]. apply insert_in_order, IH. Qed.
Lemma compare_trans a b c : String.compare a b <> Gt -> String.compare b c <> Gt -> String.compare a c <> Gt.
Proof. revert b c. induction a as [|x a IH]; intros [|y b] [|z c] H1 H2; cbn [String.compare] in *; try congruence.
  unfold Ascii.compare in *. destruct (N.compare_spec (N_of_ascii x) (N_of_ascii y)) as [Exy|Lxy|Lxy]; [|clear H1|congruence];
    destruct (N.compare_spec (N_of_ascii y) (N_of_ascii z)) as [Eyz|Lyz|Lyz]; try congruence;
    destruct (N.compare_spec (N_of_ascii x) (N_of_ascii z)) as [Exz|Lxz|Lxz]; try congruence; try lia.
  exact (IH b c H1 H2). Qed.
Lemma order_strong l : in_order l -> StronglySorted (fun a b => String.compare a b <> Gt) l.
Proof. apply Sorted_StronglySorted. exact compare_trans. Qed.
Lemma filter_in_order p l : StronglySorted (fun a b => String.compare a b <> Gt) l -> StronglySorted (fun a b => String.compare a b <> Gt) (filter p l).
Proof. induction 1 as [|x l S IH F]; [constructor|]. cbn [filter]. destruct (p x); [|exact IH]. constructor; [exact IH|]. apply Forall_forall. intros y Hy. apply filter_In in Hy as [Hy _]. rewrite Forall_forall in F. apply F, Hy. Qed.

(** the grid *)
Lemma grid_root n k : (k * k < n + k)%nat -> (n <= k * k + k)%nat -> Ztrunc (sqrt (INR n) + 1 / 2) = Z.of_nat k.
Proof. intros H1 H2. assert (Hs : 0 <= sqrt (INR n)) by apply sqrt_pos. rewrite Ztrunc_floor by lra. apply Zfloor_imp. rewrite plus_IZR, <- INR_IZR_INZ.
  assert (H1' : (k * k + 1 <= n + k)%nat) by lia. apply le_INR in H1'. apply le_INR in H2. rewrite ?plus_INR, ?mult_INR in *. cbn [INR] in H1'. pose proof (pos_INR n). pose proof (pos_INR k).
  pose proof (sqrt_sqrt (INR n) H) as Q. split; nra. Qed.

Lemma const_map {A B} (a : B) (l : list A) : map (fun _ => a) l = repeat a (List.length l).
Proof. induction l as [|x l IH]; [reflexivity|]. cbn. f_equal. exact IH. Qed.
Lemma vec_op_scalar f l a : vec_op f l [a] = Ok (entrywise f l (map (fun _ => a) l)).
Proof. unfold vec_op, entrywise, bdim. cbn [List.length]. destruct l as [|x [|y l]]; [reflexivity|reflexivity|].
  replace (Nat.eqb (List.length (x :: y :: l)) 1) with false by reflexivity. cbn [Nat.eqb bind]. apply (f_equal Ok). unfold bop. cbn [stretch].
  apply (f_equal (fun r => map _ (combine _ r))). generalize (x :: y :: l). intros m. induction m as [|v m IH]; [reflexivity|]. cbn. f_equal. exact IH. Qed.
Lemma mapM_numbered {B} (G : Z) (F : Z * string -> res B) (h : Z -> string -> B) : forall keys st, (1 <= st)%nat ->
  (forall c k, In k keys -> F (c, k) = if negb ((1 <=? c)%Z && (c <=? G)%Z) then Raise ValueError else Ok (h c k)) ->
  mapM F (combine (map Z.of_nat (seq st (List.length keys))) keys) =
  if (Z.of_nat (st + List.length keys) <=? G + 1)%Z || Nat.eqb (List.length keys) 0 then Ok (map (fun ck => h (fst ck) (snd ck)) (combine (map Z.of_nat (seq st (List.length keys))) keys)) else Raise ValueError.
Proof. induction keys as [|k keys IH]; intros st Hst H; [cbn; rewrite orb_true_r; reflexivity|].
  cbn [List.length seq map combine mapM]. rewrite H by (left; reflexivity). replace ((1 <=? Z.of_nat st)%Z) with true by (symmetry; apply Z.leb_le; lia). cbn [andb Nat.eqb].
  rewrite orb_false_r. destruct (Z.leb_spec (Z.of_nat st) G) as [L|L]; cbn [negb bind].
  - rewrite IH; [|lia|intros c j Hj; apply H; right; exact Hj]. replace (S st + List.length keys)%nat with (st + S (List.length keys))%nat by lia.
    destruct (Z.leb_spec (Z.of_nat (st + S (List.length keys))) (G + 1)) as [M|M]; [reflexivity|]. destruct keys; [cbn [List.length] in M; lia|]. cbn [List.length Nat.eqb orb bind]. reflexivity.
  - destruct (Z.leb_spec (Z.of_nat (st + S (List.length keys))) (G + 1)); [lia|reflexivity]. Qed.

Section Panels.
  Variables (s : fscan) (det : string) (rois : list (string * rectangle)) (imgs : list image) (name : option string) (xname : string) (x : list fl).
  Hypothesis P : pictures_of s det imgs.
  Hypothesis M : motor_column s name xname x.
  Hypothesis N : NoDup ("all" :: map fst rois).
  Hypothesis W : Forall (fun kq => proper (snd kq)) rois.
  Hypothesis L : List.length x = List.length imgs.
  Let rs := map (fun kq => (fst kq, corners (snd kq))) rois.
  Let keys := filter (fun k => negb (String.eqb k "background")) (sort_strings ("all" :: map fst rois)).
  Lemma keys_perm : Permutation (panel_names rois) keys.
  Proof. unfold keys, panel_names. change ("all" :: filter (fun k => negb (String.eqb k "background")) (map fst rois)) with (filter (fun k => negb (String.eqb k "background")) ("all" :: map fst rois)).
    generalize ("all" :: map fst rois). intros l. pose proof (sort_perm l) as Q. induction Q as [|a l l' Q IH|a b l|l l' l'' Q1 IH1 Q2 IH2]; cbn [filter].
    - constructor.
    - destruct (negb (String.eqb a "background")); [constructor|]; exact IH.
    - destruct (negb (String.eqb a "background")), (negb (String.eqb b "background")); try apply Permutation_refl. constructor.
    - eapply Permutation_trans; eassumption. Qed.
  Lemma keys_order : in_order keys.
  Proof. unfold keys. apply StronglySorted_Sorted, filter_in_order, order_strong, sort_in_order. Qed.
  Lemma rois_get k : dict_get String.eqb rs k = option_map corners (dict_get String.eqb rois k).
  Proof. apply dict_get_map. Qed.
  Lemma area_ok k q : dict_get String.eqb rois k = Some q -> proper q -> roi_area rs k = Ok (Z.of_nat (pixels q)).
  Proof. intros E Hq. unfold roi_area. rewrite rois_get, E. destruct q as [[[l b] r] t]. destruct Hq as [H1 H2]. cbn [option_map bind corners]. unfold roi4.
    change (py_get [Z.of_nat l; Z.of_nat b; Z.of_nat r; Z.of_nat t] 2) with (Ok (Z.of_nat r)). change (py_get [Z.of_nat l; Z.of_nat b; Z.of_nat r; Z.of_nat t] 0) with (Ok (Z.of_nat l)).
    change (py_get [Z.of_nat l; Z.of_nat b; Z.of_nat r; Z.of_nat t] 3) with (Ok (Z.of_nat t)). change (py_get [Z.of_nat l; Z.of_nat b; Z.of_nat r; Z.of_nat t] 1) with (Ok (Z.of_nat b)). cbn [bind pixels].
    apply (f_equal Ok). rewrite Nat2Z.inj_mul, !Nat2Z.inj_sub by lia. reflexivity. Qed.
  Lemma divided_per v n : divided v (Z.of_nat n) = per n v.
  Proof. unfold divided, per. rewrite INR_IZR_INZ. reflexivity. Qed.
  Let result := ("all", sums_all s imgs) :: map (fun kq => (fst kq, sums_in s (snd kq) imgs)) rois.
  Lemma result_get k : k <> "all" -> dict_get String.eqb result k = option_map (fun q => sums_in s q imgs) (dict_get String.eqb rois k).
  Proof. intros H. unfold result. cbn [dict_get]. destruct (String.eqb "all" k) eqn:E; [apply String.eqb_eq in E; congruence|]. apply (dict_get_map (fun q => sums_in s q imgs)). Qed.
  Lemma result_keys : map fst result = "all" :: map fst rois.
  Proof. unfold result. cbn [map fst]. rewrite map_map. reflexivity. Qed.
  Lemma plots_number : (match dict_get String.eqb rois "background" with Some _ => List.length result - 1 | None => List.length result end)%nat = List.length (panel_names rois).
  Proof. unfold result, panel_names. cbn [List.length]. rewrite map_length.
    assert (G : forall l : list (string * rectangle), NoDup (map fst l) -> List.length l = (List.length (filter (fun k => negb (String.eqb k "background")) (map fst l)) + match dict_get String.eqb l "background" with Some _ => 1 | None => 0 end)%nat).
    { induction l as [|[k q] l IH]; intros Nl; [reflexivity|]. inversion Nl as [|? ? Nk Nl']; subst. cbn [map fst filter dict_get List.length] in *. rewrite (IH Nl').
      destruct (String.eqb k "background") eqn:E; cbn [negb List.length]; [|lia]. apply String.eqb_eq in E. subst k. rewrite (dict_get_not_In l "background" Nk). lia. }
    inversion N as [|? ? _ N']; subst. specialize (G rois N'). destruct (dict_get String.eqb rois "background"); lia. Qed.
  Definition panel_y (k : string) : list fl :=
    entrywise fsub (if String.eqb k "all" then per (List.length imgs) (sums_all s imgs) else match dict_get String.eqb rois k with Some q => per (pixels q) (sums_in s q imgs) | None => [] end) (background_of s rois imgs).
  Lemma background_length : List.length (background_of s rois imgs) = List.length imgs.
  Proof. unfold background_of. destruct (dict_get String.eqb rois "background") as [q|]; [unfold per, sums_in; rewrite map_length; apply attenuated_length|apply map_length]. Qed.
  Lemma panels_ok root : (root * root < List.length (panel_names rois) + root)%nat -> (List.length (panel_names rois) <= root * root + root)%nat ->
    plot_rois s det rs name = if (Nat.leb (List.length (panel_names rois)) (root * root))%nat
      then Ok (map (fun ck => mkPanel (Z.of_nat root) (fst ck) (snd ck) xname x (panel_y (snd ck))) (combine (map Z.of_nat (seq 1 (List.length keys))) keys)) else Raise ValueError.
  Proof. intros R1 R2. destruct (motor_index_ok _ _ _ _ M) as (Ex & En). destruct P as (F & Ei). unfold plot_rois. rewrite Ex. cbn [bind]. rewrite En. cbn [bind].
    unfold rs. rewrite (extract_rois_ok s rois F N). cbn [bind]. rewrite (dict_get_map (sums_of _ rois)), Ei. cbn [option_map bind]. fold rs.
    change (sums_of (dict_get String.eqb (f_data s) "atten_position") rois (S3 imgs)) with result.
    rewrite (result_get "background") by discriminate. unfold bind at 1.
    assert (Eb : match option_map (fun q => sums_in s q imgs) (dict_get String.eqb rois "background") with
                 | Some b => a <- roi_area rs "background";; Ok (divided b a, (List.length result - 1)%nat)
                 | None => Ok ([Some 0], List.length result) end = Ok (match dict_get String.eqb rois "background" with Some q => per (pixels q) (sums_in s q imgs) | None => [Some 0] end, List.length (panel_names rois))).
    { rewrite <- plots_number. destruct (dict_get String.eqb rois "background") as [q|] eqn:Eq; [|reflexivity]. cbn [option_map].
      rewrite (area_ok _ q Eq) by (rewrite Forall_forall in W; apply (W ("background", q)), dict_get_some_In, Eq). cbn [bind]. rewrite divided_per. reflexivity. }
    rewrite Eb. clear Eb. rewrite (grid_root _ root R1 R2). rewrite result_keys. fold keys.
    set (bg := match dict_get String.eqb rois "background" with Some q => per (pixels q) (sums_in s q imgs) | None => [Some 0] end).
    assert (Eg : forall v, List.length v = List.length imgs -> vec_op fsub v bg = Ok (entrywise fsub v (background_of s rois imgs))).
    { intros v Lv. unfold bg, background_of. destruct (dict_get String.eqb rois "background") as [q|].
      - rewrite vec_op_same; [reflexivity|]. unfold per, sums_in. rewrite map_length, attenuated_length. exact Lv.
      - rewrite vec_op_scalar. apply (f_equal (fun r => Ok (entrywise fsub v r))). rewrite !const_map, Lv. reflexivity. }
    rewrite (mapM_numbered (Z.of_nat root * Z.of_nat root) _ (fun c k => mkPanel (Z.of_nat root) c k xname x (panel_y k))).
    - replace (List.length keys) with (List.length (panel_names rois)) by (apply Permutation_length, keys_perm).
      destruct (Nat.leb_spec (List.length (panel_names rois)) (root * root)) as [Q|Q].
      + replace ((Z.of_nat (1 + List.length (panel_names rois)) <=? Z.of_nat root * Z.of_nat root + 1)%Z) with true by (symmetry; apply Z.leb_le; lia). reflexivity.
      + replace ((Z.of_nat (1 + List.length (panel_names rois)) <=? Z.of_nat root * Z.of_nat root + 1)%Z) with false by (symmetry; apply Z.leb_gt; lia). reflexivity.
    - lia.
    - intros c k Hk. assert (Hp : In k (panel_names rois)) by (apply (Permutation_in k (Permutation_sym keys_perm)), Hk).
      destruct (negb _); [reflexivity|]. unfold panel_y. destruct (String.eqb k "all") eqn:Ek.
      + apply String.eqb_eq in Ek. subst k. cbn [bind]. unfold data_col. unfold result at 1. cbn [dict_get String.eqb Ascii.eqb Bool.eqb bind]. rewrite divided_per, Eg by (unfold per, sums_all; rewrite map_length; apply attenuated_length). cbn [bind].
        unfold entrywise at 1. rewrite map_length, combine_length, background_length. unfold per at 1, sums_all at 1. rewrite map_length, attenuated_length, Nat.min_id, L, Nat.eqb_refl. reflexivity.
      + apply String.eqb_neq in Ek. destruct Hp as [Hp|Hp]; [congruence|]. apply filter_In in Hp as [Hp _]. destruct (dict_get_In rois k Hp) as (q & Eq).
        rewrite (area_ok k q Eq) by (rewrite Forall_forall in W; apply (W (k, q)), dict_get_some_In, Eq). cbn [bind]. unfold data_col. rewrite (result_get k Ek), Eq. cbn [option_map bind].
        rewrite divided_per, Eg by (unfold per, sums_in; rewrite map_length; apply attenuated_length). cbn [bind].
        unfold entrywise at 1. rewrite map_length, combine_length, background_length. unfold per at 1, sums_in at 1. rewrite map_length, attenuated_length, Nat.min_id, L, Nat.eqb_refl. reflexivity. Qed.
End Panels.

(** ** Statements about the panels *)
Lemma numbered_fst {A} (l : list A) : map fst (combine (map Z.of_nat (seq 1 (List.length l))) l) = map Z.of_nat (seq 1 (List.length l)).
Proof. apply map_fst_combine. rewrite map_length. apply seq_length. Qed.
Lemma numbered_snd {A} (l : list A) st : map snd (combine (map Z.of_nat (seq st (List.length l))) l) = l.
Proof. revert st. induction l as [|a l IH]; intros st; [reflexivity|]. cbn. f_equal. apply IH. Qed.
Section Shown.
  Variables (s : fscan) (det : string) (rois : list (string * rectangle)) (imgs : list image) (name : option string) (xname : string) (x : list fl).
  Hypothesis P : pictures_of s det imgs.
  Hypothesis M : motor_column s name xname x.
  Hypothesis N : NoDup ("all" :: map fst rois).
  Hypothesis W : Forall (fun kq => proper (snd kq)) rois.
  Hypothesis L : List.length x = List.length imgs.
  Let rs := map (fun kq => (fst kq, corners (snd kq))) rois.
  Lemma panels_shown k : (k * k < List.length (panel_names rois) + k)%nat -> (List.length (panel_names rois) <= k * k)%nat ->
    exists panels, plot_rois s det rs name = Ok panels /\ Permutation (panel_names rois) (map pn_ylabel panels) /\ in_order (map pn_ylabel panels) /\
      map pn_number panels = map Z.of_nat (seq 1 (List.length panels)) /\ Forall (fun p => pn_grid p = Z.of_nat k) panels.
  Proof. intros R1 R2. pose proof (panels_ok s det rois imgs name xname x P M N W L k R1 ltac:(lia)) as E. rewrite (proj2 (Nat.leb_le _ _) R2) in E.
    eexists. split; [exact E|]. rewrite !map_map. cbn [pn_ylabel pn_number].
    set (keys := filter (fun k => negb (String.eqb k "background")) (sort_strings ("all" :: map fst rois))).
    change (map (fun x0 => snd x0) (combine (map Z.of_nat (seq 1 (List.length keys))) keys)) with (map snd (combine (map Z.of_nat (seq 1 (List.length keys))) keys)).
    change (map (fun x0 => fst x0) (combine (map Z.of_nat (seq 1 (List.length keys))) keys)) with (map fst (combine (map Z.of_nat (seq 1 (List.length keys))) keys)).
    rewrite numbered_snd, numbered_fst. split; [apply keys_perm|]. split; [apply keys_order|]. split.
    - rewrite map_length, combine_length, map_length, seq_length, Nat.min_id. reflexivity.
    - apply Forall_map, Forall_forall. intros ck _. reflexivity. Qed.
  Lemma panels_refused k : (k * k < List.length (panel_names rois))%nat -> (List.length (panel_names rois) <= k * k + k)%nat -> plot_rois s det rs name = Raise ValueError.
  Proof. intros R1 R2. pose proof (panels_ok s det rois imgs name xname x P M N W L k ltac:(lia) R2) as E. rewrite (proj2 (Nat.leb_gt _ _) R1) in E. exact E. Qed.
  Lemma root_exists n : (0 < n)%nat -> exists k, (k * k < n + k)%nat /\ (n <= k * k + k)%nat.
  Proof. intros Hn. induction n as [|n IH]; [lia|]. destruct n as [|n]; [exists 1%nat; lia|]. destruct IH as (k & H1 & H2); [lia|].
    destruct (Nat.le_gt_cases (S (S n)) (k * k + k)); [exists k; lia|exists (S k); nia]. Qed.
  Lemma shown_panel panels p : plot_rois s det rs name = Ok panels -> In p panels ->
    pn_x p = x /\ pn_xlabel p = xname /\ pn_y p = panel_y s rois imgs (pn_ylabel p) /\ In (pn_ylabel p) (panel_names rois).
  Proof. intros E Hp. destruct (root_exists (List.length (panel_names rois))) as (k & H1 & H2); [cbn; lia|].
    pose proof (panels_ok s det rois imgs name xname x P M N W L k H1 H2) as Q. unfold rs in E. rewrite Q in E. destruct (Nat.leb _ _); [|discriminate]. injection E as <-.
    apply in_map_iff in Hp as (ck & <- & Hc). cbn. repeat split.
    destruct ck as [c key]. apply in_combine_r in Hc. cbn [snd]. exact (Permutation_in _ (Permutation_sym (keys_perm rois)) Hc). Qed.
  Lemma panel_region panels p : plot_rois s det rs name = Ok panels -> In p panels ->
    pn_x p = x /\ pn_xlabel p = xname /\ pn_ylabel p <> "background" /\
    forall q, In (pn_ylabel p, q) rois -> pn_y p = entrywise fsub (per (pixels q) (sums_in s q imgs)) (background_of s rois imgs).
  Proof. intros E Hp. destruct (shown_panel panels p E Hp) as (Ex & En & Ey & Hl). split; [exact Ex|]. split; [exact En|]. split.
    - intros Z. rewrite Z in Hl. destruct Hl as [Hl|Hl]; [discriminate|]. apply filter_In in Hl as [_ Hl]. discriminate.
    - intros q Hq. rewrite Ey. unfold panel_y. inversion N as [|? ? Na N']; subst.
      destruct (String.eqb (pn_ylabel p) "all") eqn:Ea; [apply String.eqb_eq in Ea; rewrite Ea in Hq; exfalso; apply Na; apply in_map_iff; exists ("all", q); split; [reflexivity|exact Hq]|].
      rewrite (dict_get_pair rois _ q N' Hq). reflexivity. Qed.
  Lemma panel_all panels p : plot_rois s det rs name = Ok panels -> In p panels ->
    pn_ylabel p = "all" -> pn_y p = entrywise fsub (per (List.length imgs) (sums_all s imgs)) (background_of s rois imgs).
  Proof. intros E Hp Ha. destruct (shown_panel panels p E Hp) as (_ & _ & Ey & _). rewrite Ey, Ha. reflexivity. Qed.
End Shown.
