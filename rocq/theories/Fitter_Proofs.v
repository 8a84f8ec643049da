(** Proofs about the curve fitter: shapes and success. *)
From Coq Require Import Reals Lra.
From Coquelicot Require Import Complex.
From Verif Require Import Py Str Cplx Sample_Model Sample_Spec Sample_Proofs Rng Sampling_Model Sampling_Spec Sampling_Proofs Labels_Proofs
  Reflectivity_Model Reflectivity_Spec Simulation_Model Simulation_Spec Simulation_Proofs Interp_Model Interp_Spec Interp_Proofs Arr
  Preproc_Model Preproc_Spec Preproc_Proofs OutPreproc_Proofs Fitter_Model Fitter_Spec.
Local Open Scope string_scope.
Local Open Scope R_scope.

(** ** Loops *)
Lemma mapS_length S A B (f : S -> A -> res (S * B)) : forall l s s' bs, mapS f s l = Ok (s', bs) -> List.length bs = List.length l.
Proof. induction l as [|a l IH]; intros s s' bs H; simpl in H; [injection H as <- <-; reflexivity|].
  destruct (f s a) as [[s1 b]|] eqn:E; [|discriminate]. cbn [bind] in H. destruct (mapS f s1 l) as [[s2 bs']|] eqn:E2; [|discriminate].
  cbn [bind] in H. injection H as <- <-. simpl. f_equal. eapply IH; eauto. Qed.
Lemma mapS_Forall2 S A B (f : S -> A -> res (S * B)) : forall l s s' bs, mapS f s l = Ok (s', bs) ->
  Forall2 (fun a b => exists s1 s2, f s1 a = Ok (s2, b)) l bs.
Proof. induction l as [|a l IH]; intros s s' bs H; simpl in H; [injection H as <- <-; constructor|].
  destruct (f s a) as [[s1 b]|] eqn:E; [|discriminate]. cbn [bind] in H. destruct (mapS f s1 l) as [[s2 bs']|] eqn:E2; [|discriminate].
  cbn [bind] in H. injection H as <- <-. constructor; [eauto|]. eapply IH; eauto. Qed.
Lemma mapS_total S A B (f : S -> A -> res (S * B)) : forall l, (forall s a, In a l -> exists s' b, f s a = Ok (s', b)) ->
  forall s, exists s' bs, mapS f s l = Ok (s', bs).
Proof. induction l as [|a l IH]; intros H s; [exists s, []; reflexivity|]. cbn [mapS].
  destruct (H s a (or_introl eq_refl)) as (s1 & b & ->). cbn [bind].
  destruct (IH (fun s a Ha => H s a (or_intror Ha)) s1) as (s2 & bs & ->). cbn [bind]. eauto. Qed.
Lemma mapS_fails S A B (f : S -> A -> res (S * B)) e s a l : f s a = Raise e -> mapS f s (a :: l) = Raise e.
Proof. intros H. cbn [mapS]. rewrite H. reflexivity. Qed.

Lemma nth_map_lt {A B} (f : A -> B) l k d d' : (k < List.length l)%nat -> nth k (map f l) d' = f (nth k l d).
Proof. intros H. rewrite nth_indep with (d' := f d) by (rewrite map_length; exact H). apply map_nth. Qed.

(** ** numpy *)
Lemma all_finite_Some l xs : all_finite l = Some xs <-> l = map Some xs.
Proof. split; revert xs; induction l as [|[x|] l IH]; intros xs H; simpl in *.
  - now injection H as <-.
  - destruct (all_finite l) as [ys|]; [|discriminate]. injection H as <-. simpl. f_equal. apply IH. reflexivity.
  - discriminate.
  - destruct xs; [reflexivity|discriminate].
  - destruct xs as [|y ys]; [discriminate|]. injection H as -> H. rewrite (IH _ H). reflexivity.
  - destruct xs; discriminate. Qed.

Lemma argmin_from_spec l : forall i best b pre, List.length pre = i -> (best < i)%nat -> nth best pre 0 = b ->
  (forall j, (j < i)%nat -> b <= nth j pre 0) -> (forall j, (j < best)%nat -> b < nth j pre 0) ->
  let k := argmin_from i best b l in let all := (pre ++ l)%list in
  (k < List.length all)%nat /\ (forall j, (j < List.length all)%nat -> nth k all 0 <= nth j all 0) /\ (forall j, (j < k)%nat -> nth k all 0 < nth j all 0).
Proof. induction l as [|x l IH]; intros i best b pre Hi Hb Hn Hmin Hfst.
  - cbn [argmin_from]. rewrite app_nil_r. split; [lia|]. rewrite Hn. split; [intros j Hj; apply Hmin; lia|exact Hfst].
  - cbn [argmin_from]. replace (pre ++ x :: l)%list with ((pre ++ [x]) ++ l)%list by now rewrite <- app_assoc.
    assert (Hlen : List.length (pre ++ [x]) = Datatypes.S i) by (rewrite app_length; simpl; lia).
    assert (Hx : nth i (pre ++ [x]) 0 = x) by (rewrite app_nth2 by lia; rewrite Hi, Nat.sub_diag; reflexivity).
    assert (Hold : forall j, (j < i)%nat -> nth j (pre ++ [x]) 0 = nth j pre 0) by (intros j Hj; apply app_nth1; lia).
    destruct (Rlt_dec x b) as [Hlt|Hge]; apply IH; try exact Hlen; try lia.
    + exact Hx.
    + intros j Hj. destruct (Nat.eq_dec j i) as [->|]; [rewrite Hx; lra|]. rewrite Hold by lia. specialize (Hmin j ltac:(lia)). lra.
    + intros j Hj. rewrite Hold by lia. specialize (Hmin j ltac:(lia)). lra.
    + rewrite Hold by lia. exact Hn.
    + intros j Hj. destruct (Nat.eq_dec j i) as [->|]; [rewrite Hx; lra|]. rewrite Hold by lia. apply Hmin; lia.
    + intros j Hj. rewrite Hold by lia. apply Hfst; lia. Qed.
Lemma argmin_R_spec l k : argmin_R l = Ok k ->
  (k < List.length l)%nat /\ (forall j, (j < List.length l)%nat -> nth k l 0 <= nth j l 0) /\ (forall j, (j < k)%nat -> nth k l 0 < nth j l 0).
Proof. destruct l as [|x l]; [discriminate|]. intros H. injection H as <-.
  apply (argmin_from_spec l 1 0 x [x]); [reflexivity|lia|reflexivity| |intros j Hj; lia]. intros j Hj. replace j with 0%nat by lia. simpl. lra. Qed.
Lemma argmin_R_total l : l <> [] -> exists k, argmin_R l = Ok k.
Proof. destruct l; [congruence|]. intros _. eexists. reflexivity. Qed.

Lemma argmin_total pick l : pick_ok pick -> l <> [] -> exists k, argmin pick l = Ok k /\ (k < List.length l)%nat.
Proof. intros P H. unfold argmin. destruct l as [|x l]; [congruence|]. destruct (all_finite (x :: l)) as [xs|] eqn:E.
  - apply all_finite_Some in E. destruct (argmin_R_total xs) as (k & Hk); [intros ->; discriminate|]. exists k. split; [exact Hk|].
    apply argmin_R_spec in Hk. rewrite E, map_length. tauto.
  - exists (pick (x :: l)). split; [reflexivity|]. apply P. discriminate. Qed.
Lemma argmin_bound pick l k : pick_ok pick -> argmin pick l = Ok k -> (k < List.length l)%nat.
Proof. intros P H. destruct l as [|x l]; [discriminate|]. destruct (argmin_total pick (x :: l) P ltac:(discriminate)) as (k' & E & L). congruence. Qed.

Lemma interp_fl_total qi q row : List.length row = List.length q -> q <> [] -> exists out, interp_reflectivity qi q row = Ok out /\ List.length out = List.length qi.
Proof. intros L N. eexists. split; [apply interp_total; [now rewrite L|exact N]|apply map_length]. Qed.
Lemma interp_fl_length qi q row out : interp_reflectivity qi q row = Ok out -> List.length out = List.length qi.
Proof. exact (Interp_Proofs.interp_length qi q row out). Qed.

Lemma variant_log_mse_total ref m rows : List.length ref = m -> exists err, variant_log_mse ref m rows = Ok err /\ List.length err = List.length rows.
Proof. intros L. unfold variant_log_mse. rewrite row_op_A2 by (rewrite map_length; exact L). cbn [bind]. eexists. split; [reflexivity|]. now rewrite !map_length. Qed.

(** ** Tables *)
Lemma shaped_slice names n f i : shaped names n f -> (i < n)%nat -> shaped names 1 (frame_slice i f).
Proof. intros (A & B & C) Hi. unfold shaped, frame_slice. cbn [fr_rows fr_cols]. split; [|split].
  - rewrite map_map. exact A.
  - rewrite B. lia.
  - apply Forall_map. eapply Forall_impl; [|exact C]. intros [k c] Hc. cbn [snd] in *. rewrite firstn_length, skipn_length, Hc. lia. Qed.
Lemma nth_firstn_0 A (l : list A) d : nth 0 (firstn 1 l) d = nth 0 l d.
Proof. destruct l; reflexivity. Qed.
Lemma nth_skipn_0 A (l : list A) : forall i d, nth 0 (skipn i l) d = nth i l d.
Proof. induction l as [|x l IH]; intros [|i] d; try reflexivity. simpl. apply IH. Qed.
Lemma slice_row names n f i : shaped names n f -> (i < n)%nat -> frame_row (frame_slice i f) 0 = frame_row f i.
Proof. intros (A & B & C) Hi. unfold frame_row, frame_slice. cbn [fr_cols]. rewrite map_map. apply map_ext_in. intros [k c] Hkc. cbn [snd].
  rewrite (nth_firstn_0 cell). exact (nth_skipn_0 cell c i None). Qed.
Lemma ensure_names f : map fst (fr_cols (ensure_positive f)) = map fst (fr_cols f).
Proof. unfold ensure_positive. cbn [fr_cols]. rewrite map_map. reflexivity. Qed.
Lemma shaped_ensure names n f : shaped names n f -> shaped names n (ensure_positive f).
Proof. intros (A & B & C). split; [rewrite ensure_names; exact A|]. split; [exact B|]. unfold ensure_positive. cbn [fr_cols]. apply Forall_map.
  eapply Forall_impl; [|exact C]. intros [k c] Hc. cbn [snd fst] in *. destruct (sign_free k); [rewrite map_length|]; exact Hc. Qed.

Lemma shaped_tget names n f k : shaped names n f -> In k names -> exists c, tget (fr_cols f) k = Some c /\ List.length c = n.
Proof. intros (A & B & C) Hk. rewrite <- A in Hk. destruct (tget_Some _ _ Hk) as (c & E). exists c. split; [exact E|].
  apply tget_In in E. rewrite Forall_forall in C. apply (C _ E). Qed.
Lemma shaped_append names n n' f f' : shaped names n f -> shaped names n' f' -> shaped names (n + n') (append_frame f f').
Proof. intros S1 S2. pose proof S1 as (A & B & C). pose proof S2 as (A' & B' & C'). unfold append_frame. split; [|split]; cbn [fr_cols fr_rows].
  - rewrite map_map. exact A.
  - congruence.
  - apply Forall_map. rewrite Forall_forall in *. intros [k c] Hkc. cbn [snd fst]. rewrite app_length.
    assert (Hk : In k names) by (rewrite <- A; apply in_map_iff; exists (k, c); auto).
    destruct (shaped_tget _ _ _ _ S2 Hk) as (c' & -> & L). specialize (C _ Hkc). cbn [snd] in C. congruence. Qed.
Lemma shaped_fold names fs : Forall (shaped names 1) fs -> forall k f0, shaped names k f0 -> shaped names (k + List.length fs) (fold_left append_frame fs f0).
Proof. induction 1 as [|f1 fs F1 F IH]; intros k f0 F0; [simpl; now rewrite Nat.add_0_r|].
  cbn [fold_left List.length]. replace (k + Datatypes.S (List.length fs))%nat with ((k + 1) + List.length fs)%nat by lia.
  apply IH. apply shaped_append; assumption. Qed.
Lemma shaped_concat names fs : Forall (shaped names 1) fs -> forall f, concat_frames fs = Ok f -> shaped names (List.length fs) f.
Proof. intros F f H. destruct fs as [|f0 fs]; [discriminate|]. injection H as <-. inversion F as [|? ? F0 F']; subst. exact (shaped_fold names fs F' 1 f0 F0). Qed.
Lemma concat_total fs : fs <> [] -> exists f, concat_frames fs = Ok f.
Proof. destruct fs; [congruence|]. intros _. eexists. reflexivity. Qed.

(** A column of the concatenation *)
Lemma append_tget f f' k : tget (fr_cols (append_frame f f')) k =
  option_map (fun c => c ++ match tget (fr_cols f') k with Some c' => c' | None => repeat None (fr_rows f') end)%list (tget (fr_cols f) k).
Proof. unfold append_frame. cbn [fr_cols]. induction (fr_cols f) as [|[k' c] t IH]; [reflexivity|]. cbn [map tget fst snd].
  destruct (String.eqb_spec k' k) as [->|]; [reflexivity|exact IH]. Qed.

(** Property of the cells of the column [k] *)
Definition col_all (k : string) (P : cell -> Prop) (f : frame) : Prop := forall c, In (k, c) (fr_cols f) -> Forall P c.
Lemma col_all_slice k P f i : col_all k P f -> col_all k P (frame_slice i f).
Proof. intros H c Hc. unfold frame_slice in Hc. cbn [fr_cols] in Hc. apply in_map_iff in Hc. destruct Hc as ([k' c'] & E & Hi). cbn [fst snd] in E. injection E as -> <-.
  apply H in Hi. rewrite Forall_forall in *. intros x Hx. apply Hi. rewrite <- (firstn_skipn i c'). apply in_or_app. right.
  rewrite <- (firstn_skipn 1 (skipn i c')). apply in_or_app. left. exact Hx. Qed.
Lemma col_all_append k (P : cell -> Prop) f f' : P None -> col_all k P f -> col_all k P f' -> col_all k P (append_frame f f').
Proof. intros PN H H' c Hc. unfold append_frame in Hc. cbn [fr_cols] in Hc. apply in_map_iff in Hc. destruct Hc as ([k' c'] & E & Hi). cbn [fst snd] in E. injection E as -> <-.
  apply Forall_app. split; [apply H; exact Hi|]. destruct (tget (fr_cols f') k) as [c1|] eqn:E; [apply H'; apply tget_In; exact E|].
  apply Forall_forall. intros x Hx. apply repeat_spec in Hx. subst. exact PN. Qed.
Lemma col_all_concat k (P : cell -> Prop) fs f : P None -> Forall (col_all k P) fs -> concat_frames fs = Ok f -> col_all k P f.
Proof. intros PN F H. destruct fs as [|f0 fs]; [discriminate|]. injection H as <-. inversion F as [|? ? F0 F']; subst. clear F. revert f0 F0.
  induction F' as [|f1 fs F1 F' IH]; intros f0 F0; [exact F0|]. cbn [fold_left]. apply IH. apply col_all_append; assumption. Qed.
(** ... for tables with the same columns the condition on NaN is not needed *)
Lemma col_all_append' names n n' k P f f' : shaped names n f -> shaped names n' f' -> col_all k P f -> col_all k P f' -> col_all k P (append_frame f f').
Proof. intros S1 S2 H H' c Hc. unfold append_frame in Hc. cbn [fr_cols] in Hc. apply in_map_iff in Hc. destruct Hc as ([k' c'] & E & Hi). cbn [fst snd] in E. injection E as -> <-.
  apply Forall_app. split; [apply H; exact Hi|]. destruct (shaped_tget _ _ _ k S2) as (c1 & E & _).
  - destruct S1 as (A & _). rewrite <- A. apply in_map_iff. exists (k, c'). auto.
  - rewrite E. apply H'. apply tget_In. exact E. Qed.
Lemma col_all_fold' names k P fs : Forall (shaped names 1) fs -> Forall (col_all k P) fs -> forall j f0, shaped names j f0 -> col_all k P f0 ->
  col_all k P (fold_left append_frame fs f0).
Proof. intros FS. induction FS as [|f1 fs S1 FS IH]; intros F j f0 S0 F0; [exact F0|]. inversion F as [|? ? F1 F']; subst. cbn [fold_left].
  apply (IH F' (j + 1)%nat); [apply shaped_append; assumption|eapply col_all_append'; eauto]. Qed.
Lemma col_all_concat' names k P fs f : Forall (shaped names 1) fs -> Forall (col_all k P) fs -> concat_frames fs = Ok f -> col_all k P f.
Proof. intros FS F H. destruct fs as [|f0 fs]; [discriminate|]. injection H as <-. inversion F as [|? ? F0 F']; subst. inversion FS as [|? ? S0 FS']; subst.
  exact (col_all_fold' names k P fs FS' F' 1 f0 S0 F0). Qed.

Lemma sign_free_length s k : length_label s k -> sign_free k = true.
Proof. unfold sign_free. intros [(l & _ & ->)|(l & _ & ->)]; apply Bool.orb_true_iff; [left|right]; apply contains_iff; exists (l_name l ++ "_"), ""; now rewrite !append_assoc, ?append_nil_r. Qed.
Lemma ensure_nonneg s f k : length_label s k -> col_all k nonneg_cell (ensure_positive f).
Proof. intros Hk c Hc. apply sign_free_length in Hk. unfold ensure_positive in Hc. cbn [fr_cols] in Hc. apply in_map_iff in Hc. destruct Hc as ([k' c'] & E & _).
  cbn [fst snd] in E. injection E as -> <-. rewrite Hk. apply Forall_map. apply Forall_forall. intros [z|] _; simpl; [|exact I]. split; [reflexivity|apply Cmod_ge_0]. Qed.

(** ** Prediction *)
Lemma tget_combine (names : list string) (cs : list (list cell)) : List.length cs = List.length names -> forall k, In k names ->
  exists c, tget (combine names cs) k = Some c /\ In c cs.
Proof. revert cs. induction names as [|n names IH]; intros [|c cs] L k Hk; try discriminate; [destruct Hk|]. cbn [combine tget].
  destruct (String.eqb_spec n k) as [->|N]; [exists c; split; [reflexivity|left; reflexivity]|]. destruct Hk as [|Hk]; [congruence|].
  destruct (IH cs ltac:(injection L; auto) k Hk) as (c' & E & Hc). exists c'. split; [exact E|right; exact Hc]. Qed.
Lemma combine_fst A B (a : list A) (b : list B) : List.length b = List.length a -> map fst (combine a b) = a.
Proof. revert b. induction a as [|x a IH]; intros [|y b] L; try discriminate; [reflexivity|]. simpl. f_equal. apply IH. now injection L. Qed.

Definition amb_label (s : structure) : string := l_name (st_ambient s) ++ "_" ++ "sld".
(** The ambient column holds zeros. *)
Definition amb_zero (s : structure) (f : frame) : Prop := col_all (amb_label s) (eq (Some (RtoC 0))) f.

Lemma restore_array s names ps n cs : named_sample s -> all_params s = Ok ps -> label_names s = Ok names ->
  List.length cs = List.length (used_params ps) -> Forall (fun c => List.length c = n) cs ->
  exists f, restore_labels (mkOp (mkPystr "min_to_zero" true) s) (LArray n cs) = Ok f /\ shaped names n f /\
    (forall v nm, l_sld (st_ambient s) = Some (Const v nm) -> num_C v = RtoC 0 -> amb_zero s f) /\
    (forall k p, label_param s k p -> is_const p = true -> tget (fr_cols f) k = Some (repeat (Some (lo_C p)) n)) /\
    (forall k p, label_param s k p -> is_const p = false -> tget (fr_cols f) k =
       option_map (map (renorm_cell (mkPystr "min_to_zero" true) p)) (tget (combine (map pname_str (used_params ps)) cs) k)).
Proof. intros Hs Hps Hn L F.
  assert (LL : List.length cs = List.length (map pname_str (used_params ps))) by (rewrite map_length; exact L).
  assert (E : restore_labels (mkOp (mkPystr "min_to_zero" true) s) (LArray n cs) =
              restore_labels (mkOp (mkPystr "min_to_zero" true) s) (LFrame (mkFrame n (combine (map pname_str (used_params ps)) cs)))).
  { unfold restore_labels. cbn [op_sample]. rewrite Hps. cbn [bind convert_to_dataframe]. rewrite LL, Nat.eqb_refl. reflexivity. }
  rewrite E. clear E.
  destruct (restore_frame s (mkPystr "min_to_zero" true) names ps Hs Hps Hn (mkFrame n (combine (map pname_str (used_params ps)) cs)) eq_refl) as (g & E & En & Ev & Ec).
  { intros k Hk. cbn [fr_cols]. rewrite combine_fst by exact LL. apply (used_name s ps Hs Hps). exact Hk. }
  cbn [fr_rows fr_cols] in *. rewrite E. eexists. split; [reflexivity|].
  assert (ND : NoDup (map fst g)) by (rewrite En; exact (pp_NoDup s names Hs Hn)).
  split; [|split; [|split; [exact Ec|exact Ev]]].
  - split; [exact En|]. split; [reflexivity|]. cbn [fr_cols]. apply Forall_forall. intros [k c] Hkc. cbn [snd].
    pose proof (In_tget g k c ND Hkc) as Eg. assert (Hk : In k names) by (rewrite <- En; apply in_map_iff; exists (k, c); auto).
    destruct (either s names ps Hs Hps Hn k Hk) as [(p & Hp & Hc)|(p & Hp & Hc)].
    + rewrite (Ec k p Hp Hc) in Eg. injection Eg as <-. apply repeat_length.
    + rewrite (Ev k p Hp Hc) in Eg. destruct (tget_combine _ _ LL k) as (c0 & E0 & Hc0).
      { apply (used_name s ps Hs Hps). exists p; auto. }
      rewrite E0 in Eg. cbn [option_map] in Eg. injection Eg as <-. rewrite map_length. rewrite Forall_forall in F. apply F. exact Hc0.
  - intros v nm Ev0 Hv c Hc. cbn [fr_cols] in Hc. apply In_tget in Hc; [|exact ND].
    assert (Hp : label_param s (amb_label s) (Const v nm)).
    { right. right. exists (st_ambient s). split; [|split; [reflexivity|exact Ev0]]. unfold all_layers, sample_structure. simpl. right. apply in_or_app. right. left. reflexivity. }
    rewrite (Ec _ _ Hp eq_refl) in Hc. injection Hc as <-. unfold lo_C. cbn [p_min]. rewrite Hv. apply Forall_forall. intros x Hx. apply repeat_spec in Hx. congruence. Qed.

Lemma amb_zero_ensure s f : clean_names s -> amb_zero s f -> amb_zero s (ensure_positive f).
Proof. intros Cl H c Hc. unfold ensure_positive in Hc. cbn [fr_cols] in Hc. apply in_map_iff in Hc. destruct Hc as ([k' c'] & E & Hi). cbn [fst snd] in E. injection E as -> <-.
  assert (Ef : sign_free (amb_label s) = false).
  { unfold clean_names in Cl. rewrite Forall_forall in Cl. destruct (Cl (st_ambient s)) as [A B].
    { unfold all_layers, sample_structure. simpl. right. apply in_or_app. right. left. reflexivity. }
    pose proof (category_sld (l_name (st_ambient s)) (conj A B)) as K. unfold category in K. unfold sign_free, amb_label.
    destruct (contains "thickness" (l_name (st_ambient s) ++ "_" ++ "sld")); [discriminate|].
    destruct (contains "roughness" (l_name (st_ambient s) ++ "_" ++ "sld")); [discriminate|]. reflexivity. }
  rewrite Ef. apply H. exact Hi. Qed.

Definition good (refl1d : option refl1d_fun) (s : structure) (names : list string) (n : nat) (f : frame) : Prop :=
  shaped names n f /\ (refl1d = None -> amb_zero s f).

Lemma good_ensure refl1d s names n f : clean_names s -> good refl1d s names n f -> good refl1d s names n (ensure_positive f).
Proof. intros Cl [A B]. split; [apply shaped_ensure; exact A|]. intros E. apply amb_zero_ensure; auto. Qed.
Lemma good_slice refl1d s names n f i : good refl1d s names n f -> (i < n)%nat -> good refl1d s names 1 (frame_slice i f).
Proof. intros [A B] Hi. split; [eapply shaped_slice; eauto|]. intros E. apply col_all_slice. exact (B E). Qed.
Lemma good_concat refl1d s names fs f : Forall (good refl1d s names 1) fs -> concat_frames fs = Ok f -> good refl1d s names (List.length fs) f.
Proof. intros F E. assert (FS : Forall (shaped names 1) fs) by (eapply Forall_impl; [|exact F]; intros x H; exact (proj1 H)). split; [apply shaped_concat; assumption|].
  intros En. eapply col_all_concat'; [exact FS| |exact E]. eapply Forall_impl; [|exact F]. intros x H. exact (proj2 H En). Qed.
Lemma good_restore refl1d s names ps n cs : fittable refl1d s -> all_params s = Ok ps -> label_names s = Ok names ->
  List.length cs = List.length (used_params ps) -> Forall (fun c => List.length c = n) cs ->
  exists f, restore_labels (mkOp (mkPystr "min_to_zero" true) s) (LArray n cs) = Ok f /\ good refl1d s names n f.
Proof. intros (Hs & Cl & Hl & He) Hps Hn L F. destruct (restore_array s names ps n cs Hs Hps Hn L F) as (f & E & Sh & Az & _). exists f. split; [exact E|]. split; [exact Sh|].
  intros ->. destruct He as (v & nm & E1 & E2). eapply Az; eauto. Qed.

Section Fit.
  Context {S : Type} (g : rng S) (G : rng_ok g) (refl1d : option refl1d_fun) (pick : list fl -> nat) (Pk : pick_ok pick) (cf : @curve_fit_fun S).
  Context (m : nn_model) (names : list string) (Hf : fittable refl1d (nn_sample m)) (Hn : network_ok m names).

  Lemma columns_shape k rows : List.length (columns_of k rows) = k /\ Forall (fun c => List.length c = List.length rows) (columns_of k rows).
  Proof. unfold columns_of. split; [now rewrite map_length, seq_length|]. apply Forall_map. apply Forall_forall. intros j _. apply map_length. Qed.

  Lemma predict_total rows : rows <> [] -> Forall (fun r => List.length r = List.length (nn_q m)) rows ->
    exists f, predict_labels m rows = Ok f /\ good refl1d (nn_sample m) names (List.length rows) f.
  Proof. intros Hr F. destruct Hn as (_ & Lm & Ls & En & (ps & Eps & Eo) & Hp). unfold predict_labels, standardize, nn_ip. cbn [ip_mean ip_std snd].
    rewrite row_op_A2 by exact Lm. cbn [bind]. rewrite row_op_A2 by exact Ls. cbn [bind].
    match goal with |- exists f, bind (nn_predict m ?r) _ = _ /\ _ => destruct (Hp r) as (out & E & Lo & Fo) end.
    - destruct rows; [congruence|discriminate].
    - apply Forall_map, Forall_map. eapply Forall_impl; [|exact F]. intros r Hlr. simpl. apply length_bop_n; [|exact Ls]. apply length_bop_n; assumption.
    - rewrite E. cbn [bind]. rewrite !map_length in Lo. destruct (columns_shape (nn_out m) out) as [A B].
      destruct (good_restore refl1d (nn_sample m) names ps (List.length out) (columns_of (nn_out m) out) Hf Eps En) as (f & Er & Gf).
      + rewrite A, Eo. reflexivity.
      + exact B.
      + unfold nn_op. rewrite Er. cbn [bind]. eexists. split; [reflexivity|]. rewrite Lo in Gf. apply good_ensure; [exact (proj1 (proj2 Hf))|exact Gf]. Qed.

  (** ** Simulation *)
  Lemma map_fst_app (t : cols) a b : map fst t = (a ++ b)%list -> exists x y, t = (x ++ y)%list /\ map fst x = a /\ map fst y = b.
  Proof. clear. revert t. induction a as [|k a IH]; intros t H; [exists [], t; auto|]. destruct t as [|[k' c] t]; [discriminate|]. injection H as -> H.
    destruct (IH t H) as (x & y & -> & Ex & Ey). exists ((k, c) :: x), y. simpl. repeat split; congruence. Qed.

  Lemma known_table n f : shaped names n f -> exists T Ru Sl, known_cols f = (T ++ Ru ++ Sl)%list /\ label_table (nn_sample m) n T Ru Sl.
  Proof. intros (A & B & C). destruct Hf as ((Ho & _) & _). destruct Hn as (_ & _ & _ & En & _).
    assert (K : map fst (known_cols f) = names) by (unfold known_cols; rewrite map_map; exact A).
    pose proof (f_equal (fun r => match r with Ok l => l | Raise _ => [] end) (eq_trans (eq_sym (label_names_ordinary _ Ho)) En)) as En'. cbv beta iota in En'. rewrite <- En' in K.
    destruct (map_fst_app _ _ _ K) as (T & r & E1 & ET & K2). destruct (map_fst_app _ _ _ K2) as (Ru & Sl & E2 & ER & ES). subst r.
    exists T, Ru, Sl. split; [exact E1|]. repeat split; try assumption. rewrite <- E1. unfold known_cols. apply Forall_map. eapply Forall_impl; [|exact C].
    intros kc Hkc. cbn [snd]. rewrite map_length. exact Hkc. Qed.

  Lemma labels_last s : exists l, labels_of "sld" (all_layers s) = (l ++ [amb_label s])%list.
  Proof. clear. unfold all_layers, sample_structure, labels_of. simpl. rewrite map_app. exists (cons (l_name (st_substrate s) ++ "_" ++ "sld") (map (fun l => l_name l ++ "_" ++ "sld") (st_layers s))). reflexivity. Qed.

  Lemma last_entries_zero n f T Ru Sl : shaped names n f -> amb_zero (nn_sample m) f -> known_cols f = (T ++ Ru ++ Sl)%list ->
    label_table (nn_sample m) n T Ru Sl -> zero_ambient n Sl.
  Proof. intros Sh Az E (_ & _ & ES & F) i Hi. destruct (labels_last (nn_sample m)) as (l & El). rewrite El in ES.
    destruct (map_fst_app _ _ _ ES) as (x & y & -> & _ & Ey). destruct y as [|[k c] [|? ?]]; try discriminate. cbn [map fst] in Ey. assert (Ek : k = amb_label (nn_sample m)) by congruence. clear Ey.
    unfold entries. rewrite map_app. cbn [map snd]. rewrite last_last.
    assert (Hin : In (k, c) (known_cols f)) by (rewrite E; apply in_or_app; right; apply in_or_app; right; apply in_or_app; right; left; reflexivity).
    assert (Lc : List.length c = n). { rewrite Forall_forall in F. apply (F (k, c)). apply in_or_app; right; apply in_or_app; right; apply in_or_app; right; left; reflexivity. }
    unfold known_cols in Hin. apply in_map_iff in Hin. destruct Hin as ([k' c'] & E' & Hi'). cbn [fst snd] in E'. injection E' as -> <-.
    subst k. pose proof (Az c' Hi') as Z. rewrite map_length in Lc. rewrite Forall_forall in Z.
    match goal with |- nth i (map ?h c') _ = _ => refine (eq_trans (nth_map_lt h c' i None _ ltac:(rewrite Lc; exact Hi)) _) end.
    rewrite <- (Z (nth i c' None)); [reflexivity|]. apply nth_In. rewrite Lc. exact Hi. Qed.

  Lemma simulate_frame_total n f s q : good refl1d (nn_sample m) names n f ->
    exists s' cs, simulate_frame g refl1d s q f = Ok (s', cs) /\ List.length cs = n /\ Forall (fun c => List.length c = List.length q) cs.
  Proof. intros [Sh Az]. destruct (known_table n f Sh) as (T & Ru & Sl & E & Lt). pose proof Hf as (Hs & Cl & Hl & He). unfold simulate_frame.
    assert (K : exists s' cs, simulate_reflectivity g refl1d s q (known_cols f) (SNum 0) "refl1d" = Ok (s', cs) /\ List.length cs = n /\ Forall (fun c => List.length c = List.length q) cs).
    { rewrite E. destruct refl1d as [h|] eqn:R.
      - destruct (simulate_refl1d g G h s (nn_sample m) n T Ru Sl q Hl Cl Lt) as (s' & Es). exists s'. eexists. split; [exact Es|]. split; [now rewrite map_length, seq_length|].
        apply Forall_map. apply Forall_forall. intros i _. unfold refl1d_curve. cbn [engine_ok] in He. rewrite He. apply map_length.
      - destruct (simulate_Ok g G None s (nn_sample m) n T Ru Sl q 0 Hl Cl Lt (last_entries_zero n f T Ru Sl Sh (Az eq_refl) E Lt) (Rle_refl 0)) as (s' & cs & Es & L).
        exists s', cs. split; [exact Es|exact L]. }
    destruct K as (s' & cs & -> & L & F). cbn [bind]. exists s'. eexists. split; [reflexivity|]. split; [rewrite map_length, combine_length, seq_length; lia|].
    apply Forall_map. apply Forall_forall. intros [i c] Hi. apply in_combine_r in Hi. rewrite Forall_forall in F. cbn [fst snd]. destruct (row_known f i); [|rewrite map_length]; apply F; exact Hi. Qed.

  (** ** Success *)
  (** What the calls inside the optimisations deliver *)
  Definition fit_good (fit : @fit_fun S) : Prop := forall s rows q dq, q <> [] -> rows <> [] -> Forall (fun c => List.length c = List.length q) rows ->
    exists s' out cs, fit s (A2 (List.length q) rows) q (plain_options dq) = Ok (s', out) /\ fo_refl out = Some cs /\
      List.length cs = List.length rows /\ Forall (fun c => List.length c = List.length q) cs /\
      good refl1d (nn_sample m) names (List.length rows) (fo_params out).

  Lemma normal_total s a d n : 0 <= d -> (0 <= n)%Z -> exists s' xs, np_normal g s a d n = Ok (s', xs) /\ List.length xs = Z.to_nat n.
  Proof using G. intros Hd Hz. unfold np_normal. destruct (Rlt_dec d 0); [lra|]. destruct (n <? 0)%Z eqn:E; [lia|].
    pose proof (normal_length g G s a d (Z.to_nat n)) as L. destruct (rng_normal g s a d (Z.to_nat n)) as [s' xs]. eauto. Qed.

  Lemma optimize_q_total fit s q curve n : fit_good fit -> q <> [] -> List.length curve = List.length q -> (1 <= n)%Z ->
    exists s' d f c, optimize_q g refl1d pick fit m s (nn_q m) q curve n = Ok (s', (d, f, c)) /\ good refl1d (nn_sample m) names 1 f /\ List.length c = List.length q.
  Proof. intros Fg Hq Lc Hz. unfold optimize_q, q_shift_variants. destruct (normal_total s 0 (1/1000) n) as (s1 & ds & -> & Ld); [lra|lia|]. cbn [bind].
    destruct (mapM_exists R (list fl) (fun d => interp_reflectivity (nn_q m) (map (fun x => x + d) q) curve) (fun c => List.length c = List.length (nn_q m)) ds) as (curves & Ec & _ & Fc).
    { intros d _. destruct (interp_fl_total (nn_q m) (map (fun x => x + d) q) curve) as (out & E & L); [now rewrite map_length|destruct q; [congruence|discriminate]|]. eauto. }
    rewrite Ec. cbn [bind]. pose proof (mapM_Ok_length _ _ Ec) as Lcv. pose proof Hn as (Nq & _).
    assert (Nc : curves <> []). { intros ->. simpl in Lcv. rewrite <- Lcv in Ld. lia. }
    destruct (Fg s1 curves (nn_q m) 0 Nq Nc Fc) as (s2 & out & cs & -> & Er & Lcs & Fcs & Gp). cbn [bind].
    destruct (interp_fl_total (nn_q m) q curve Lc Hq) as (ref & -> & Lr). cbn [bind]. rewrite Er.
    destruct (variant_log_mse_total ref (List.length (nn_q m)) cs Lr) as (err & -> & Le). cbn [bind].
    destruct (argmin_total pick err Pk) as (i & -> & Hi). { intros ->. simpl in Le. destruct cs; [|discriminate]. destruct curves; [congruence|discriminate]. } cbn [bind].
    assert (Hi' : (i < List.length curves)%nat) by lia. pose proof (good_slice _ _ _ _ _ i Gp Hi') as Gs.
    destruct (simulate_frame_total 1 (frame_slice i (fo_params out)) s2 q Gs) as (s3 & sim & -> & Ls & Fs). cbn [bind].
    destruct sim as [|c [|? ?]]; try discriminate. cbn [bind]. change (py_get [c] 0) with (Ok c). cbn [bind].
    destruct (nth_error ds i) as [d|] eqn:Ed; [|apply nth_error_None in Ed; lia]. rewrite (py_get_nat ds i Ed). cbn [bind].
    exists s3, d, (frame_slice i (fo_params out)), c. split; [reflexivity|]. split; [exact Gs|]. exact (Forall_inv Fs). Qed.

  Lemma slice_same A B (l : list A) (l' : list B) a b : List.length l = List.length l' -> List.length (py_slice l a b) = List.length (py_slice l' a b).
  Proof. clear. intros L. unfold py_slice. rewrite !firstn_length, !skipn_length, L. reflexivity. Qed.

  Lemma optimize_scaling_total fit s q lo hi curve n dq : fit_good fit -> q <> [] -> List.length curve = List.length q -> (1 <= n)%Z ->
    exists s' k f c, optimize_scaling g pick fit s q lo hi curve n dq = Ok (s', (k, f, c)) /\ good refl1d (nn_sample m) names 1 f /\ List.length c = List.length q.
  Proof. intros Fg Hq Lc Hz. unfold optimize_scaling, curve_scaling_variants. destruct (normal_total s 1 (1/10) n) as (s1 & ks & -> & Ld); [lra|lia|]. cbn [bind].
    set (curves := map _ ks).
    assert (Fc : Forall (fun c => List.length c = List.length q) curves) by (apply Forall_map; apply Forall_forall; intros k _; rewrite map_length; exact Lc).
    assert (Lcv : List.length curves = List.length ks) by apply map_length.
    assert (Nc : curves <> []). { intros Ecv. rewrite Ecv in Lcv. simpl in Lcv. rewrite <- Lcv in Ld. lia. }
    rewrite Lc. destruct (Fg s1 curves q dq Hq Nc Fc) as (s2 & out & cs & -> & Er & Lcs & Fcs & Gp). cbn [bind]. rewrite Er.
    destruct (variant_log_mse_total (py_slice curve (Some (Z.of_nat lo)) (Some (Z.of_nat hi))) (List.length (py_slice q (Some (Z.of_nat lo)) (Some (Z.of_nat hi))))
      (map (fun l => py_slice l (Some (Z.of_nat lo)) (Some (Z.of_nat hi))) cs)) as (err & Ee & Le); [apply slice_same; exact Lc|].
    cbv zeta. rewrite Ee. cbn [bind]. rewrite map_length in Le.
    destruct (argmin_total pick err Pk) as (i & -> & Hi). { intros ->. simpl in Le. destruct cs; [|discriminate]. destruct curves; [congruence|discriminate]. } cbn [bind].
    assert (Hi' : (i < List.length curves)%nat) by lia. pose proof (good_slice _ _ _ _ _ i Gp Hi') as Gs.
    destruct (nth_error cs i) as [c|] eqn:Ec; [|apply nth_error_None in Ec; lia]. rewrite (py_get_nat cs i Ec). cbn [bind].
    destruct (nth_error ks i) as [k|] eqn:Ek; [|apply nth_error_None in Ek; lia]. rewrite (py_get_nat ks i Ek). cbn [bind].
    exists s2, k, (frame_slice i (fo_params out)), c. split; [reflexivity|]. split; [exact Gs|]. rewrite Forall_forall in Fcs. apply Fcs. eapply nth_error_In. exact Ec. Qed.

  Lemma max_total l : l <> [] -> exists x, max_R l = Ok x.
  Proof. clear. destruct l; [congruence|]. intros _. eexists. reflexivity. Qed.
  Lemma min_total l : l <> [] -> exists x, min_R l = Ok x.
  Proof. clear. destruct l; [congruence|]. intros _. eexists. reflexivity. Qed.

  Lemma interpolate_total rows q : q <> [] -> Forall (fun c => List.length c = List.length q) rows ->
    exists out, interpolate_intensity m rows q = Ok out /\ List.length out = List.length rows /\ Forall (fun r => List.length r = List.length (nn_q m)) out.
  Proof. clear. intros Hq F. unfold interpolate_intensity.
    destruct (mapM_exists (list fl) (list fl) (interp_reflectivity (nn_q m) q) (fun c => List.length c = List.length (nn_q m)) rows) as (out & E & _ & Fo).
    { intros c Hc. rewrite Forall_forall in F. apply interp_fl_total; [apply F; exact Hc|exact Hq]. }
    exists out. split; [exact E|]. split; [apply mapM_Ok_length in E; exact E|exact Fo]. Qed.

  Lemma mapS_total_P A B (f : S -> A -> res (S * B)) (P : B -> Prop) l : (forall s a, In a l -> exists s' b, f s a = Ok (s', b) /\ P b) ->
    forall s, exists s' bs, mapS f s l = Ok (s', bs) /\ Forall P bs /\ List.length bs = List.length l.
  Proof. clear. induction l as [|a l IH]; intros H s; [exists s, []; auto|]. cbn [mapS].
    destruct (H s a (or_introl eq_refl)) as (s1 & b & -> & Pb). cbn [bind].
    destruct (IH (fun s a Ha => H s a (or_intror Ha)) s1) as (s2 & bs & -> & F & L). cbn [bind]. exists s2, (b :: bs). split; [reflexivity|]. split; [constructor; assumption|simpl; congruence]. Qed.

  Lemma fit_core_total fit s curve q o : (o_opt_q o = true \/ o_opt_scale o = true -> fit_good fit) -> valid_input curve q -> samples_ok o -> o_polish o = false ->
    exists s' out, fit_core g refl1d pick cf fit m s curve q o = Ok (s', out) /\
      good refl1d (nn_sample m) names (List.length (curves_of curve)) (fo_params out) /\
      (if o_sim o then exists cs, fo_refl out = Some cs /\ List.length cs = List.length (curves_of curve) /\ Forall (fun c => List.length c = List.length q) cs
       else fo_refl out = None).
  Proof. intros Fg (Hq & Hc & Fc & Hw) (Sq & Ss) Hp. unfold fit_core. pose proof Hn as (Nq & _).
    destruct (max_total _ Nq) as (qmax & ->). cbn [bind]. destruct (argmin_R_total (map (fun x => Rabs (x - qmax)) q)) as (i & ->); [destruct q; [congruence|discriminate]|]. cbn [bind].
    destruct (min_total _ Nq) as (qmin & ->). cbn [bind]. destruct (argmin_R_total (map (fun x => Rabs (x - qmin)) q)) as (lo & ->); [destruct q; [congruence|discriminate]|]. cbn [bind]. cbv zeta.
    assert (Ew : match curve with A1 v => (List.length v, [v]) | A2 w rows => (w, rows) end = (List.length q, curves_of curve)).
    { destruct curve as [v|w rows]; cbn [curves_of] in *; [|congruence]. f_equal. exact (Forall_inv Fc). }
    rewrite Ew. clear Ew. set (rows := curves_of curve) in *.
    destruct (interpolate_total (map (map (fun x => fmul x (Some (o_factor o)))) rows) (map (fun x => x + o_dq o) q)) as (ip & -> & Li & Fi).
    { destruct q; [congruence|discriminate]. }
    { apply Forall_map. eapply Forall_impl; [|exact Fc]. intros c Hlc. rewrite !map_length. exact Hlc. }
    cbn [bind]. rewrite map_length in Li.
    assert (H1 : exists s1 shift, (if o_opt_q o then
         '(s, outs) <- mapS (fun s c => '(s, x) <- optimize_q g refl1d pick fit m s (nn_q m) q c (o_nq o) ;; x <- check_row (List.length q) x ;; Ok (s, x)) s rows ;;
         f <- concat_frames (map (fun x => snd (fst x)) outs) ;;
         Ok (s, Some (map (fun x => fst (fst x)) outs, f))
       else Ok (s, None)) = Ok (s1, shift) /\ match shift with None => o_opt_q o = false | Some (ds, _) => o_opt_q o = true /\ List.length ds = List.length rows end).
    { destruct (o_opt_q o) eqn:Eq; [|exists s, None; auto].
      destruct (mapS_total_P (list fl) (R * frame * list fl) (fun s c => '(s, x) <- optimize_q g refl1d pick fit m s (nn_q m) q c (o_nq o) ;; x <- check_row (List.length q) x ;; Ok (s, x))
        (fun x => True) rows) with (s := s) as (s1 & outs & -> & _ & Lo).
      - intros s0 c Hcin. rewrite Forall_forall in Fc. destruct (optimize_q_total fit s0 q c (o_nq o) (Fg (or_introl eq_refl)) Hq (Fc c Hcin) (Sq eq_refl)) as (s' & d & f & c' & -> & _ & L').
        cbn [bind]. unfold check_row. cbn [snd]. rewrite L', bdim_same. cbn [bind]. rewrite Nat.eqb_refl. cbn [bind]. eauto.
      - cbn [bind]. destruct (concat_total (map (fun x => snd (fst x)) outs)) as (f & ->); [destruct outs; [destruct rows; [congruence|discriminate]|discriminate]|]. cbn [bind].
        exists s1. eexists. split; [reflexivity|]. cbv beta iota. rewrite map_length. auto. }
    destruct H1 as (s1 & shift & -> & Hsh). cbn [bind].
    assert (H2 : exists s2 scaling, (if o_opt_scale o then
         '(s, outs) <- mapS (fun s ic =>
             dq <- match shift with None => Ok 0 | Some (ds, _) => py_get ds (Z.of_nat (fst ic)) end ;;
             '(s, x) <- optimize_scaling g pick fit s q lo (i + 1) (snd ic) (o_ns o) dq ;; x <- check_row (List.length q) x ;; Ok (s, x))
           s1 (combine (seq 0 (List.length rows)) rows) ;;
         f <- concat_frames (map (fun x => snd (fst x)) outs) ;;
         Ok (s, Some (map (fun x => fst (fst x)) outs, f))
       else Ok (s1, None)) = Ok (s2, scaling) /\ match scaling with None => o_opt_scale o = false | Some (ks, f) => o_opt_scale o = true /\ List.length ks = List.length rows /\ good refl1d (nn_sample m) names (List.length rows) f end).
    { destruct (o_opt_scale o) eqn:Eq; [|exists s1, None; auto].
      destruct (mapS_total_P (nat * list fl) (R * frame * list fl) (fun s ic =>
             dq <- match shift with None => Ok 0 | Some (ds, _) => py_get ds (Z.of_nat (fst ic)) end ;;
             '(s, x) <- optimize_scaling g pick fit s q lo (i + 1) (snd ic) (o_ns o) dq ;; x <- check_row (List.length q) x ;; Ok (s, x))
        (fun x => good refl1d (nn_sample m) names 1 (snd (fst x))) (combine (seq 0 (List.length rows)) rows)) with (s := s1) as (s2 & outs & -> & Fo & Lo).
      - intros s0 [j c] Hjc. apply combine_seq_In in Hjc. destruct Hjc as [Hj Hcin]. cbn [fst snd].
        assert (Ed : exists dq, match shift with None => Ok 0 | Some (ds, _) => py_get ds (Z.of_nat j) end = Ok dq).
        { destruct shift as [[ds f0]|]; [|eauto]. destruct Hsh as [_ Lds]. destruct (nth_error ds j) as [d|] eqn:E; [|apply nth_error_None in E; lia]. exists d. exact (py_get_nat ds j E). }
        destruct Ed as (dq & ->). cbn [bind]. rewrite Forall_forall in Fc.
        destruct (optimize_scaling_total fit s0 q lo (i + 1) c (o_ns o) dq (Fg (or_intror eq_refl)) Hq (Fc c Hcin) (Ss eq_refl)) as (s' & d & f & c' & -> & Gf & L').
        cbn [bind]. unfold check_row. cbn [snd]. rewrite L', bdim_same. cbn [bind]. rewrite Nat.eqb_refl. cbn [bind]. eauto.
      - rewrite combine_length, seq_length, Nat.min_id in Lo. cbn [bind].
        destruct (concat_total (map (fun x => snd (fst x)) outs)) as (f & Ef); [destruct outs; [destruct rows; [congruence|discriminate]|discriminate]|]. rewrite Ef. cbn [bind].
        exists s2. eexists. split; [reflexivity|]. cbv beta iota. rewrite map_length. split; [reflexivity|]. split; [exact Lo|]. rewrite <- Lo.
        replace (List.length outs) with (List.length (map (fun x : R * frame * list fl => snd (fst x)) outs)) by apply map_length. apply good_concat; [|exact Ef]. apply Forall_map. exact Fo. }
    destruct H2 as (s2 & scaling & -> & Hsc). cbn [bind].
    assert (H3 : exists params, match shift, scaling with Some _, Some (_, f) => Ok f | _, _ => predict_labels m ip end = Ok params /\ good refl1d (nn_sample m) names (List.length rows) params).
    { assert (Hpr : exists params, predict_labels m ip = Ok params /\ good refl1d (nn_sample m) names (List.length rows) params).
      { destruct (predict_total ip) as (f & E & Gf); [intros ->; destruct rows; [congruence|discriminate]|exact Fi|]. exists f. split; [exact E|]. rewrite <- Li. exact Gf. }
      destruct shift as [[ds0 f0]|]; [|exact Hpr]. destruct scaling as [[ks f]|]; [|exact Hpr]. exists f. split; [reflexivity|]. apply Hsc. }
    destruct H3 as (params & -> & Gp). cbn [bind]. rewrite Hp. cbn [bind]. destruct (o_sim o).
    - destruct (simulate_frame_total (List.length rows) params s2 q Gp) as (s3 & cs & -> & Lcs & Fcs). cbn [bind]. exists s3. eexists. split; [reflexivity|]. cbn [fo_params fo_refl]. split; [exact Gp|].
      exists cs. auto.
    - cbn [bind]. exists s2. eexists. split; [reflexivity|]. cbn [fo_params fo_refl]. auto. Qed.

  Lemma fit_plain_good : fit_good (fit_plain g refl1d pick cf m).
  Proof. intros s rows q dq Hq Hr F. destruct (fit_core_total (fun _ _ _ _ => Raise RecursionError) s (A2 (List.length q) rows) q (plain_options dq)) as (s' & out & E & Gp & cs & Er & L & Fcs).
    - intros [H|H]; discriminate H.
    - repeat split; assumption.
    - split; discriminate.
    - reflexivity.
    - exists s', out, cs. repeat split; try assumption; apply Gp. Qed.

  Lemma fit_curve_total s curve q o : valid_input curve q -> samples_ok o -> o_polish o = false ->
    exists s' out, fit_curve g refl1d pick cf m s curve q o = Ok (s', out) /\
      shaped names (List.length (curves_of curve)) (fo_params out) /\
      (if o_sim o then exists cs, fo_refl out = Some cs /\ List.length cs = List.length (curves_of curve) /\ Forall (fun c => List.length c = List.length q) cs
       else fo_refl out = None).
  Proof. intros V So Hp. destruct (fit_core_total (fit_plain g refl1d pick cf m) s curve q o (fun _ => fit_plain_good) V So Hp) as (s' & out & E & Gp & R).
    exists s', out. split; [exact E|]. split; [exact (proj1 Gp)|exact R]. Qed.
End Fit.
