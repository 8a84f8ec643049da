(** The fits of the P08 tools. *)
From Coq Require Import Reals Lra.
From Verif Require Import Py Str Arr Footprint_Model Spec_Model Spec_Proofs Fio_Model Fio_Proofs P08_Model P08_Spec P08Scan_Spec Footprint_Proofs P08_Proofs P08Loader_Proofs
  ScanFit_Model ScanFit_Spec ScanFit_Proofs.
Local Open Scope R_scope.
Local Open Scope string_scope.

Lemma fit_data_ok s det q x y : region_data s det q x y -> fit_data s det (corners q) = Ok (x, y).
Proof. intros (F & (imgs & Ei & ->) & (more & Ep) & Hn). unfold fit_data.
  pose proof (extract_rois_ok s [("fit_roi", q)] F) as E. cbn [map fst snd] in E. rewrite E; [|repeat constructor; cbn; intuition discriminate]. cbn [bind].
  rewrite (dict_get_map (sums_of _ [("fit_roi", q)])). rewrite Ei. cbn [option_map bind sums_of map fst snd]. unfold data_col. cbn [dict_get String.eqb Ascii.eqb Bool.eqb bind].
  rewrite Ep. cbn. destruct (f_motor_names s); [contradiction|]. reflexivity. Qed.

(** ** Start values *)
Lemma slice_first {A} (l : list A) k : py_slice l (Some 0%Z) (Some (Z.of_nat k)) = firstn k l.
Proof. change (Some 0%Z) with (Some (Z.of_nat 0)). rewrite slice_nat, Nat.sub_0_r. reflexivity. Qed.
Lemma start_values_ok type k peaks b : last_value k peaks b -> start_values type k peaks = Ok (start_of type k peaks ++ [b])%list.
Proof. intros (before & n & p & -> & Hb). unfold start_values. rewrite rev_app_distr. cbn [rev app].
  assert (E : py_get (pk_params p) (Z.of_nat k) = Ok b).
  { unfold py_get, norm_idx. assert (k < List.length (pk_params p))%nat by (apply nth_error_Some; rewrite Hb; discriminate).
    replace ((0 <=? Z.of_nat k)%Z && (Z.of_nat k <? Z.of_nat (List.length (pk_params p)))%Z) with true by (symmetry; apply andb_true_intro; split; [apply Z.leb_le|apply Z.ltb_lt]; lia).
    rewrite Nat2Z.id, Hb. reflexivity. }
  rewrite E. cbn [bind]. do 2 f_equal. unfold start_of, of_type. f_equal. apply map_ext. intros kp. apply slice_first. Qed.
Lemma start_values_empty type k : start_values type k [] = Raise UnboundLocalError. Proof. reflexivity. Qed.

(** ** Sums of peaks always have a value if there are parameters. *)
Lemma vec_op_same_length f a b : List.length a = List.length b -> exists c, vec_op f a b = Ok c /\ List.length c = List.length a.
Proof. intros H. rewrite vec_op_same by exact H. eexists. split; [reflexivity|]. rewrite map_length, combine_length. lia. Qed.
Lemma get_small {A} (l : list A) i : (i < List.length l)%nat -> exists v, py_get l (Z.of_nat i) = Ok v.
Proof. intros H. unfold py_get, norm_idx. replace ((0 <=? Z.of_nat i)%Z && (Z.of_nat i <? Z.of_nat (List.length l))%Z) with true by (symmetry; apply andb_true_intro; split; [apply Z.leb_le|apply Z.ltb_lt]; lia).
  rewrite Nat2Z.id. destruct (nth_error l i) eqn:E; [eauto|]. apply nth_error_None in E. lia. Qed.
Lemma get_last {A} (l : list A) : l <> [] -> exists v, py_get l (-1) = Ok v.
Proof. intros H. unfold py_get, norm_idx. replace ((0 <=? -1)%Z && _) with false by reflexivity. destruct l as [|a l]; [contradiction|].
  replace ((- Z.of_nat (List.length (a :: l)) <=? -1)%Z) with true by (symmetry; apply Z.leb_le; cbn [List.length]; lia). cbn [andb Z.ltb Z.compare].
  destruct (nth_error (a :: l) (Z.to_nat (Z.of_nat (List.length (a :: l)) + -1))) eqn:E; [eauto|]. apply nth_error_None in E. cbn [List.length] in E. lia. Qed.
Lemma gauss_total x p : (4 <= List.length p)%nat -> exists c, gauss x p = Ok c /\ List.length c = List.length x.
Proof. intros H. unfold gauss. destruct (get_small p 0) as (a & Ea); [lia|]. destruct (get_small p 1) as (b & Eb); [lia|]. destruct (get_small p 2) as (c & Ec); [lia|]. destruct (get_small p 3) as (d & Ed); [lia|].
  cbn [Z.of_nat Pos.of_succ_nat Pos.succ] in *. rewrite Ea, Eb, Ec, Ed. cbn [bind]. eexists. split; [reflexivity|apply map_length]. Qed.
Lemma lorentz_total x p : (4 <= List.length p)%nat -> exists c, lorentzian x p = Ok c /\ List.length c = List.length x.
Proof. intros H. unfold lorentzian. destruct (get_small p 0) as (a & Ea); [lia|]. destruct (get_small p 1) as (b & Eb); [lia|]. destruct (get_small p 2) as (c & Ec); [lia|]. destruct (get_small p 3) as (d & Ed); [lia|].
  cbn [Z.of_nat Pos.of_succ_nat Pos.succ] in *. rewrite Ea, Eb, Ec, Ed. cbn [bind]. eexists. split; [reflexivity|apply map_length]. Qed.
Lemma voigt_total x p : (6 <= List.length p)%nat -> exists c, pseudo_voigt x p = Ok c /\ List.length c = List.length x.
Proof. intros H. unfold pseudo_voigt. destruct (get_small p 0) as (a & Ea); [lia|]. destruct (get_small p 1) as (b & Eb); [lia|]. destruct (get_small p 2) as (c & Ec); [lia|]. destruct (get_small p 3) as (d & Ed); [lia|].
  destruct (get_small p 4) as (e & Ee); [lia|]. destruct (get_small p 5) as (f & Ef); [lia|].
  cbn [Z.of_nat Pos.of_succ_nat Pos.succ] in *. rewrite Ea, Eb, Ec, Ed, Ee, Ef. cbn [bind].
  destruct (gauss_total x [c; a; b; Some 0]) as (g & Eg & Lg); [cbn; lia|]. destruct (lorentz_total x [a; e; d; Some 0]) as (l & El & Ll); [cbn; lia|]. rewrite Eg, El. cbn [bind].
  destruct (vec_op_same_length fadd g l) as (s & Es & Ls); [congruence|]. rewrite Es. cbn [bind]. eexists. split; [reflexivity|]. rewrite map_length. congruence. Qed.
Lemma peak_sum_total curve k x p : (0 < k)%nat -> (forall q, (k + 1 <= List.length q)%nat -> exists c, curve x q = Ok c /\ List.length c = List.length x) -> p <> [] ->
  exists c, peak_sum curve k x p = Ok c /\ List.length c = List.length x.
Proof. intros Hk H Hp. unfold peak_sum. destruct (get_last p Hp) as (b & Eb).
  assert (G : forall l r, (forall i, In i l -> (i < List.length p / k)%nat) -> List.length r = List.length x ->
    exists c, foldM (fun result idx => q <- curve x (group k p idx ++ [Some 0])%list ;; vec_op fadd result q) r l = Ok c /\ List.length c = List.length x).
  { induction l as [|i l IH]; intros r Hl Hr; [exists r; split; [reflexivity|exact Hr]|]. cbn [foldM].
    destruct (H (group k p i ++ [Some 0])%list) as (c & Ec & Lc).
    { rewrite app_length. cbn [List.length]. unfold group. rewrite slice_nat, firstn_length, skipn_length. specialize (Hl i (or_introl eq_refl)).
      assert ((i + 1) * k <= List.length p)%nat by (pose proof (Nat.mul_div_le (List.length p) k ltac:(lia)); nia). nia. }
    rewrite Ec. cbn [bind]. destruct (vec_op_same_length fadd r c) as (r' & Er & Lr); [congruence|]. rewrite Er. cbn [bind]. apply IH; [intros j Hj; apply Hl; right; exact Hj|congruence]. }
  destruct (G (seq 0 (List.length p / k)) (repeat (Some 0) (List.length x))) as (c & Ec & Lc); [intros i Hi; apply in_seq in Hi; lia|apply repeat_length|].
  rewrite Ec. cbn [bind]. rewrite Eb. cbn [bind]. eexists. split; [reflexivity|]. rewrite map_length. exact Lc. Qed.
Lemma multi_gauss_total x p : p <> [] -> exists c, multi_gauss x p = Ok c /\ List.length c = List.length x.
Proof. apply peak_sum_total; [lia|]. intros q Hq. apply gauss_total. lia. Qed.
Lemma multi_voigt_total x p : p <> [] -> exists c, multi_voigt x p = Ok c /\ List.length c = List.length x.
Proof. apply peak_sum_total; [lia|]. intros q Hq. apply voigt_total. lia. Qed.

(** ** What is shown *)
Lemma plot_curves_ok x ydata : Forall (fun ky => List.length (snd ky) = List.length x) ydata -> plot_curves x ydata = Ok (map (fun ky => shown (fst ky) (snd ky)) ydata).
Proof. intros F. apply mapM_map_ok. intros [k y] Hin. rewrite Forall_forall in F. specialize (F _ Hin). cbn [fst snd] in *. rewrite F, Nat.eqb_refl. reflexivity. Qed.
Lemma set_fresh {A} (f : A -> list fl) (l : list (string * A)) : forall d, NoDup (map fst l) -> (forall n, In n (map fst l) -> ~ In n (map fst d)) ->
  fold_left (fun d na => dict_set String.eqb d (fst na) (f (snd na))) l d = (d ++ map (fun na => (fst na, f (snd na))) l)%list.
Proof. induction l as [|[n a] l IH]; intros d N D; [symmetry; apply app_nil_r|]. cbn [fold_left map fst snd] in *. inversion N as [|? ? Nn N']; subst.
  rewrite (dict_set_fresh String.eqb String.eqb_eq); [|apply D; left; reflexivity]. rewrite IH; [rewrite <- app_assoc; reflexivity|exact N'|].
  intros m Hm. rewrite map_app, in_app_iff. intros [Hd|[Hd|[]]]; [apply (D m (or_intror Hm) Hd)|]. cbn [fst] in Hd. subst m. contradiction. Qed.
Lemma map_fst_combine {A B} (l : list A) (l' : list B) : List.length l = List.length l' -> map fst (combine l l') = l.
Proof. revert l'. induction l as [|a l IH]; intros [|b l'] H; try discriminate; [reflexivity|]. cbn. f_equal. apply IH. injection H as H. exact H. Qed.
Lemma shown_peaks A (curve : list fl -> list fl -> res (list fl)) k params_of (value : A -> R -> R) (good : A -> Prop) xs :
  (1 < k)%nat -> (forall a, List.length (params_of a) = k) ->
  (forall a b, good a -> curve (points xs) (points (params_of a ++ [b])) = Ok (graph (fun x => value a x + b) xs)) ->
  forall ps b names ydata, Forall good ps -> List.length names = List.length ps -> NoDup names -> (forall n, In n names -> ~ In n (map fst ydata)) ->
  Forall (fun ky => List.length (snd ky) = List.length xs) ydata ->
  (d <- add_peak_curves curve k (points xs) (points (List.concat (map params_of ps) ++ [b])) names ydata ;; plot_curves (points xs) d) =
  Ok (map (fun ky => shown (fst ky) (snd ky)) ydata ++ peak_curves value b xs names ps)%list.
Proof. intros Hk Hl Hc ps b names ydata G L N D F. unfold add_peak_curves.
  pose proof (peak_curves_ok A curve k params_of value good xs Hk Hl Hc ps b names ydata [] ps eq_refl G L) as E. cbn [List.length] in E.
  match goal with |- bind ?a _ = _ => replace a with (Ok (ydata ++ map (fun na => (fst na, graph (fun x => value (snd na) x + b) xs)) (combine names ps))%list) end.
  2:{ symmetry. refine (eq_trans E _). apply (f_equal Ok). apply (set_fresh (fun a => graph (fun x => value a x + b) xs) (combine names ps) ydata); rewrite (map_fst_combine names ps L); assumption. }
  cbn [bind]. rewrite plot_curves_ok.
  - rewrite map_app, map_map. reflexivity.
  - rewrite points_length. apply Forall_app. split; [exact F|]. apply Forall_map, Forall_forall. intros na _. apply graph_length. Qed.

Section Fits.
  Variable leastsq : (list fl -> res (list fl)) -> list fl -> res (list fl).

  Lemma simple_fit_shown s det q xs y peaks b0 ps b : region_data s det q (points xs) y -> List.length y = List.length xs -> last_value 3 peaks b0 ->
    leastsq (simple_residual (points xs) y) (start_of "gauss" 3 peaks ++ [b0])%list = Ok (points (List.concat (map g_params ps) ++ [b])) ->
    Forall (fun a => g_width a <> 0) ps -> List.length (names_of "gauss" peaks) = List.length ps -> NoDup ("data" :: "fit" :: names_of "gauss" peaks) ->
    simple_fit leastsq s det (corners q) peaks =
    Ok (shown "data" y :: shown "fit" (graph (fun x => total g_value ps x + b) xs) :: peak_curves g_value b xs (names_of "gauss" peaks) ps).
  Proof. intros D L B E G Ln N. unfold simple_fit. rewrite (fit_data_ok _ _ _ _ _ D). cbn [bind]. rewrite (start_values_ok "gauss" 3 peaks b0 B). cbn [bind]. rewrite E. cbn [bind].
    destruct (multi_gauss_total (points xs) (start_of "gauss" 3 peaks ++ [b0])%list) as (c & Ec & _); [intros Z; apply app_eq_nil in Z as [_ Z]; discriminate|]. rewrite Ec. cbn [bind].
    rewrite multi_gauss_ok by exact G. cbn [bind]. change (map fst (of_type "gauss" peaks)) with (names_of "gauss" peaks).
    inversion N as [|? ? N1 N']; subst. inversion N' as [|? ? N2 N3]; subst.
    refine (eq_trans (shown_peaks gaussian gauss 3 g_params g_value (fun a => g_width a <> 0) xs ltac:(lia) g_params_length (fun a c => g_curve xs a c) ps b _ _ G Ln N3 _ _) _).
    - intros n Hn [Z|[Z|[]]]; cbn [fst] in Z; subst n; [apply N1; right; exact Hn|contradiction].
    - repeat constructor; [exact L|apply graph_length].
    - reflexivity. Qed.
  Lemma simple_fit_empty s det q x y : region_data s det q x y -> simple_fit leastsq s det (corners q) [] = Raise UnboundLocalError.
  Proof. intros D. unfold simple_fit. rewrite (fit_data_ok _ _ _ _ _ D). reflexivity. Qed.
  (** a peak called "fit" *)
  Lemma simple_fit_named_fit s det q xs y p b0 g b : region_data s det q (points xs) y -> List.length y = List.length xs -> pk_type p = "gauss" -> nth_error (pk_params p) 3 = Some b0 ->
    leastsq (simple_residual (points xs) y) (start_of "gauss" 3 [("fit", p)] ++ [b0])%list = Ok (points (g_params g ++ [b])) -> g_width g <> 0 ->
    simple_fit leastsq s det (corners q) [("fit", p)] = Ok [shown "data" y; shown "fit" (graph (fun x => g_value g x + b) xs)].
  Proof. intros D L T Hb E G. unfold simple_fit. rewrite (fit_data_ok _ _ _ _ _ D). cbn [bind]. rewrite (start_values_ok "gauss" 3 [("fit", p)] b0) by (exists [], "fit", p; split; [reflexivity|exact Hb]). cbn [bind]. rewrite E. cbn [bind].
    destruct (multi_gauss_total (points xs) (start_of "gauss" 3 [("fit", p)] ++ [b0])%list) as (c & Ec & _); [intros Z; apply app_eq_nil in Z as [_ Z]; discriminate|]. rewrite Ec. cbn [bind].
    assert (Em := multi_gauss_ok xs [g] b ltac:(repeat constructor; exact G)). cbn [map List.concat] in Em. rewrite app_nil_r in Em. rewrite Em. cbn [bind].
    unfold of_type. cbn [filter snd]. rewrite T. cbn [String.eqb Ascii.eqb Bool.eqb map fst].
    unfold add_peak_curves. cbn [List.length seq combine foldM fst snd].
    rewrite last_point. cbn [bind].
    assert (Eg := group_of gaussian gauss 3 g_params g_value (fun a => g_width a <> 0) xs ltac:(lia) g_params_length (fun a c => g_curve xs a c) [] g [] [b]). cbn [app map List.concat List.length] in Eg. rewrite app_nil_r in Eg. rewrite Eg.
    change [Some b] with (points [b]). rewrite <- points_app, g_curve by exact G. cbn [bind dict_set String.eqb Ascii.eqb Bool.eqb].
    rewrite plot_curves_ok; [reflexivity|]. repeat constructor; cbn [snd]; rewrite points_length; [exact L|apply graph_length]. Qed.
End Fits.

Section Voigt_fit.
  Variable curve_fit : (list fl -> res (list fl)) -> list fl -> list fl -> res (list fl).
  Lemma voigt_fit_shown s det q xs y peaks b0 ps b : region_data s det q (points xs) y -> List.length y = List.length xs -> last_value 5 peaks b0 ->
    curve_fit (voigt_curve (points xs)) (voigt_target y) (start_of "voigt" 5 peaks ++ [b0])%list = Ok (points (List.concat (map v_params ps) ++ [b])) ->
    Forall v_ok ps -> List.length (names_of "voigt" peaks) = List.length ps -> NoDup ("data" :: "before_fit" :: "log_fit" :: names_of "voigt" peaks) ->
    exists before, multi_voigt (points xs) (start_of "voigt" 5 peaks ++ [b0])%list = Ok before /\
    multi_voigt_fit curve_fit s det (corners q) peaks =
    Ok (Some (shown "data" y :: shown "before_fit" before :: shown "log_fit" (graph (fun x => total v_value ps x + b) xs) :: peak_curves v_value b xs (names_of "voigt" peaks) ps)).
  Proof. intros D L B E G Ln N. unfold multi_voigt_fit. rewrite (fit_data_ok _ _ _ _ _ D). cbn [bind]. rewrite (start_values_ok "voigt" 5 peaks b0 B). cbn [bind]. rewrite E.
    destruct (multi_voigt_total (points xs) (start_of "voigt" 5 peaks ++ [b0])%list) as (c & Ec & Lc); [intros Z; apply app_eq_nil in Z as [_ Z]; discriminate|]. exists c. split; [exact Ec|]. rewrite Ec. cbn [bind].
    rewrite multi_voigt_ok by exact G. cbn [bind]. change (map fst (of_type "voigt" peaks)) with (names_of "voigt" peaks).
    inversion N as [|? ? N1 N']; subst. inversion N' as [|? ? N2 N'']; subst. inversion N'' as [|? ? N3 N4]; subst.
    assert (K := shown_peaks voigtian pseudo_voigt 5 v_params v_value v_ok xs ltac:(lia) v_params_length (fun a c => v_curve xs a c) ps b (names_of "voigt" peaks)
      [("data", y); ("before_fit", c); ("log_fit", graph (fun x => total v_value ps x + b) xs)] G Ln N4).
    match goal with |- bind ?a _ = _ => destruct a as [d|] eqn:Ed end; cbn [bind] in *.
    - rewrite K; [reflexivity| |].
      + intros n Hn [Z|[Z|[Z|[]]]]; cbn [fst] in Z; subst n; [apply N1; right; right; exact Hn|apply N2; right; exact Hn|contradiction].
      + rewrite points_length in Lc. repeat constructor; [exact L|exact Lc|apply graph_length].
    - exfalso. assert (Z : Raise e = Ok _) by (apply K; [intros n Hn [Z|[Z|[Z|[]]]]; cbn [fst] in Z; subst n; [apply N1; right; right; exact Hn|apply N2; right; exact Hn|contradiction]|rewrite points_length in Lc; repeat constructor; [exact L|exact Lc|apply graph_length]]). discriminate. Qed.
  Lemma voigt_fit_failed s det q xs y peaks b0 e : region_data s det q (points xs) y -> last_value 5 peaks b0 ->
    curve_fit (voigt_curve (points xs)) (voigt_target y) (start_of "voigt" 5 peaks ++ [b0])%list = Raise e -> multi_voigt_fit curve_fit s det (corners q) peaks = Ok None.
  Proof. intros D B E. unfold multi_voigt_fit. rewrite (fit_data_ok _ _ _ _ _ D). cbn [bind]. rewrite (start_values_ok "voigt" 5 peaks b0 B). cbn [bind]. rewrite E. reflexivity. Qed.
End Voigt_fit.

(** ** Unknown detectors *)
Lemma unknown_detector leastsq curve_fit s det q weights peaks : (forall kv, In kv (f_images s) -> attenuation_fits (dict_get String.eqb (f_data s) "atten_position") (stack_size (snd kv))) ->
  dict_get String.eqb (f_images s) det = None ->
  simple_fit leastsq s det (corners q) peaks = Raise KeyError /\ multi_voigt_fit curve_fit s det (corners q) peaks = Raise KeyError /\ gauss_lorentzian_fit leastsq s det (corners q) peaks weights = Raise KeyError.
Proof. intros F N. assert (E : fit_data s det (corners q) = Raise KeyError).
  { unfold fit_data. pose proof (extract_rois_ok s [("fit_roi", q)] F) as E. cbn [map fst snd] in E. rewrite E; [|repeat constructor; cbn; intuition discriminate]. cbn [bind].
    rewrite (dict_get_map (sums_of _ _) (f_images s) det), N. reflexivity. }
  unfold simple_fit, multi_voigt_fit, gauss_lorentzian_fit. rewrite E. repeat split. Qed.
