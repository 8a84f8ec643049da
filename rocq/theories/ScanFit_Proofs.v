(** Peaks, sums of peaks and their fits. *)
From Coq Require Import Reals Lra.
From Verif Require Import Py Str Arr Footprint_Model Spec_Model Fio_Model P08_Model Footprint_Proofs P08_Proofs ScanFit_Model ScanFit_Spec.
Local Open Scope R_scope.
Local Open Scope string_scope.

(** ** Single peaks *)
Lemma map_points {A} (f : fl -> A) (g : R -> A) xs : (forall x, f (Some x) = g x) -> map f (points xs) = map g xs.
Proof. intros H. induction xs as [|x xs IH]; [reflexivity|]. cbn. rewrite H. f_equal. exact IH. Qed.
Lemma sqrt_sqr_abs a : sqrt (2 * PI * (a * a)) = Rabs a * sqrt (2 * PI).
Proof. rewrite sqrt_mult_alt by (pose proof PI_RGT_0; lra). replace (a * a) with (a²) by reflexivity. rewrite sqrt_Rsqr_abs. ring. Qed.
Lemma two_pi : 0 < sqrt (2 * PI).
Proof. apply sqrt_lt_R0. pose proof PI_RGT_0. lra. Qed.
Lemma gauss_value s m i b x : s <> 0 -> gauss_at (Some s) (Some m) (Some i) (Some b) (Some x) = Some (gauss_peak s m i x + b).
Proof. intros Hs. pose proof PI_RGT_0. assert (Hp : 0 < Rabs s) by (apply Rabs_pos_lt, Hs). pose proof two_pi.
  unfold gauss_at, fsqr, fsqrt, fdiv, fsub, fmul, fadd, fexp, lift2, option_map.
  destruct (Rlt_dec _ 0) as [L|_]; [exfalso; assert (0 < s * s) by (apply Rsqr_pos_lt in Hs; exact Hs); assert (0 < 2 * PI * (s * s)) by (apply Rmult_lt_0_compat; lra); lra|].
  rewrite sqrt_sqr_abs. destruct (Req_EM_T _ 0) as [E|_]; [exfalso; apply Rmult_integral in E as [E|E]; lra|].
  destruct (Req_EM_T s 0); [contradiction|]. f_equal. unfold gauss_peak. do 2 f_equal. apply f_equal. field. exact Hs. Qed.
Lemma gauss_zero m i b x : gauss_at (Some 0) (Some m) (Some i) (Some b) (Some x) = None.
Proof. unfold gauss_at. replace (fdiv (fsub (Some x) (Some m)) (Some 0)) with (None : fl); [destruct (fdiv _ _); reflexivity|].
  unfold fdiv, fsub, lift2. destruct (Req_EM_T 0 0); [reflexivity|contradiction]. Qed.
Lemma gauss_curve s m i b xs : s <> 0 -> gauss (points xs) (points [s; m; i; b]) = Ok (graph (fun x => gauss_peak s m i x + b) xs).
Proof. intros H. apply (f_equal Ok). apply map_points. intros x. apply gauss_value, H. Qed.
Lemma gauss_flat m i b xs : gauss (points xs) (points [0; m; i; b]) = Ok (map (fun _ => None) xs).
Proof. apply (f_equal Ok). apply map_points. intros x. apply gauss_zero. Qed.

Section Gauss.
  Variables s m i : R.
  Hypothesis Hs : s <> 0.
  Hypothesis Hi : 0 < i.
  Lemma gp_const : 0 < i / (Rabs s * sqrt (2 * PI)).
  Proof. apply Rdiv_lt_0_compat; [exact Hi|]. apply Rmult_lt_0_compat; [apply Rabs_pos_lt, Hs|apply two_pi]. Qed.
  Lemma gp_shift d : gauss_peak s m i (m + d) = i / (Rabs s * sqrt (2 * PI)) * exp (- (d * d) / (2 * (s * s))).
  Proof. unfold gauss_peak. do 2 f_equal. replace (m + d - m) with d by ring. reflexivity. Qed.
  Lemma gp_top : gauss_peak s m i m = i / (Rabs s * sqrt (2 * PI)).
  Proof. replace (gauss_peak s m i m) with (gauss_peak s m i (m + 0)) by (f_equal; ring). rewrite gp_shift. replace (- (0 * 0) / (2 * (s * s))) with 0 by (field; exact Hs). rewrite exp_0. ring. Qed.
  Lemma gp_sym d : gauss_peak s m i (m + d) = gauss_peak s m i (m - d).
  Proof. replace (m - d) with (m + - d) by ring. rewrite !gp_shift. do 3 f_equal. ring. Qed.
  Lemma gp_decr d e : 0 <= d < e -> gauss_peak s m i (m + e) < gauss_peak s m i (m + d).
  Proof. intros H. rewrite !gp_shift. apply Rmult_lt_compat_l; [apply gp_const|]. apply exp_increasing.
    assert (0 < s * s) by (apply Rsqr_pos_lt in Hs; exact Hs). unfold Rdiv. apply Rmult_lt_compat_r; [apply Rinv_0_lt_compat; lra|]. assert (d * d < e * e) by nra. lra. Qed.
  Lemma gp_pos x : 0 < gauss_peak s m i x.
  Proof. unfold gauss_peak. apply Rmult_lt_0_compat; [apply gp_const|apply exp_pos]. Qed.
  Lemma gp_half : gauss_peak s m i (m + Rabs s * sqrt (2 * ln 2)) = gauss_peak s m i m / 2.
  Proof. rewrite gp_shift, gp_top. replace (- (Rabs s * sqrt (2 * ln 2) * (Rabs s * sqrt (2 * ln 2))) / (2 * (s * s))) with (- ln 2).
    - rewrite exp_Ropp, exp_ln by lra. reflexivity.
    - replace (Rabs s * sqrt (2 * ln 2) * (Rabs s * sqrt (2 * ln 2))) with ((Rabs s * Rabs s) * (sqrt (2 * ln 2) * sqrt (2 * ln 2))) by ring.
      rewrite sqrt_sqrt by (pose proof ln_lt_2; lra). replace (Rabs s * Rabs s) with (s * s) by (change (s * s) with (s²); rewrite Rsqr_abs; reflexivity). field. exact Hs. Qed.
  Lemma gp_sign x : gauss_peak (- s) m i x = gauss_peak s m i x.
  Proof. unfold gauss_peak. rewrite Rabs_Ropp. do 2 f_equal. f_equal. f_equal. ring. Qed.
End Gauss.

Lemma resonance_denominator w g x : w <> 0 -> g <> 0 -> 0 < (x * x - w * w) * (x * x - w * w) + g * w * (g * w).
Proof. intros Hw Hg. assert (g * w <> 0) by (intros E; apply Rmult_integral in E; tauto). assert (0 < g * w * (g * w)) by (apply Rsqr_pos_lt in H; exact H). pose proof (Rle_0_sqr (x * x - w * w)) as Q. unfold Rsqr in Q. lra. Qed.
Lemma lorentz_value w g i b x : (x * x - w * w) * (x * x - w * w) + g * w * (g * w) <> 0 ->
  lorentz_at (Some w) (Some g) (Some i) (Some b) (Some x) = Some (resonance w g i x + b).
Proof. intros H. unfold lorentz_at, fsqr, fdiv, fsub, fmul, fadd, lift2.
  replace ((x * x - w * w) * (x * x - w * w) + g * g * (w * w)) with ((x * x - w * w) * (x * x - w * w) + g * w * (g * w)) by ring.
  destruct (Req_EM_T _ 0); [contradiction|]. unfold resonance. rewrite Rmult_1_r. reflexivity. Qed.
Lemma lorentz_pole w g i b x : (x * x - w * w) * (x * x - w * w) + g * w * (g * w) = 0 -> lorentz_at (Some w) (Some g) (Some i) (Some b) (Some x) = None.
Proof. intros H. unfold lorentz_at, fsqr, fdiv, fsub, fmul, fadd, lift2.
  replace ((x * x - w * w) * (x * x - w * w) + g * g * (w * w)) with ((x * x - w * w) * (x * x - w * w) + g * w * (g * w)) by ring.
  destruct (Req_EM_T _ 0); [reflexivity|contradiction]. Qed.
Lemma lorentz_curve w g i b xs : w <> 0 -> g <> 0 -> lorentzian (points xs) (points [w; g; i; b]) = Ok (graph (fun x => resonance w g i x + b) xs).
Proof. intros Hw Hg. apply (f_equal Ok). apply map_points. intros x. apply lorentz_value.
  pose proof (resonance_denominator w g x Hw Hg). lra. Qed.

Section Resonance.
  Variables w g i : R.
  Hypothesis Hw : w <> 0.
  Hypothesis Hg : g <> 0.
  Hypothesis Hi : 0 < i.
  Let den x := (x * x - w * w) * (x * x - w * w) + g * w * (g * w).
  Lemma den_pos x : 0 < den x. Proof. apply resonance_denominator; assumption. Qed.
  Lemma res_even x : resonance w g i (- x) = resonance w g i x.
  Proof. unfold resonance. do 4 f_equal; ring. Qed.
  Lemma res_lt x y : den y < den x -> resonance w g i x < resonance w g i y.
  Proof. intros H. unfold resonance. apply Rmult_lt_compat_l; [exact Hi|]. apply Rinv_lt_contravar; [apply Rmult_lt_0_compat; apply den_pos|exact H]. Qed.
  Lemma res_top : resonance w g i w = i / (g * w * (g * w)).
  Proof. unfold resonance. f_equal. ring. Qed.
  Lemma res_max x : x * x <> w * w -> resonance w g i x < resonance w g i w.
  Proof. intros H. apply res_lt. unfold den. assert (0 < (x * x - w * w) * (x * x - w * w)) by (assert (N : x * x - w * w <> 0) by lra; apply Rsqr_pos_lt in N; exact N). lra. Qed.
  Lemma res_half x : x * x = w * w + Rabs (g * w) \/ x * x = w * w - Rabs (g * w) -> resonance w g i x = resonance w g i w / 2.
  Proof. intros H. assert (E : (x * x - w * w) * (x * x - w * w) = g * w * (g * w)).
    { assert (A : Rabs (g * w) * Rabs (g * w) = g * w * (g * w)) by (change (Rabs (g * w) * Rabs (g * w)) with ((Rabs (g * w))²); rewrite <- Rsqr_abs; reflexivity).
      destruct H as [H|H]; rewrite H; rewrite <- A; ring. }
    rewrite res_top. unfold resonance. rewrite E. assert (K : g * w * (g * w) <> 0) by (intros Z; apply Rmult_integral in Z as [Z|Z]; apply Rmult_integral in Z; tauto).
    clear E den. revert K. generalize (g * w * (g * w)). intros k K. field. repeat split; lra. Qed.
  Lemma res_skew d : 0 < w -> 0 < d -> resonance w g i (w + d) < resonance w g i (w - d).
  Proof. intros Pw Pd. apply res_lt. unfold den. assert (0 < w * (d * d * d)) by (repeat apply Rmult_lt_0_compat; assumption).
    assert (((w + d) * (w + d) - w * w) * ((w + d) * (w + d) - w * w) - ((w - d) * (w - d) - w * w) * ((w - d) * (w - d) - w * w) = 8 * (w * (d * d * d))) by ring. lra. Qed.
End Resonance.

(** ** Sums of peaks *)
Lemma points_app a b : points (a ++ b) = (points a ++ points b)%list. Proof. apply map_app. Qed.
Lemma points_length xs : List.length (points xs) = List.length xs. Proof. apply map_length. Qed.
Lemma graph_length f xs : List.length (graph f xs) = List.length xs. Proof. apply map_length. Qed.
Lemma graph_ext f g xs : (forall x, f x = g x) -> graph f xs = graph g xs.
Proof. intros H. unfold graph. apply map_ext. intros x. rewrite H. reflexivity. Qed.
Lemma graph_add f g xs : vec_op fadd (graph f xs) (graph g xs) = Ok (graph (fun x => f x + g x) xs).
Proof. rewrite vec_op_same by (rewrite !graph_length; reflexivity). apply (f_equal Ok). induction xs as [|x xs IH]; [reflexivity|]. cbn. f_equal. exact IH. Qed.
Lemma graph_zero xs : repeat (Some 0 : fl) (List.length (points xs)) = graph (fun _ => 0) xs.
Proof. induction xs as [|x xs IH]; [reflexivity|]. cbn. f_equal. exact IH. Qed.
Lemma graph_shift f b xs : map (fun v => fadd v (Some b)) (graph f xs) = graph (fun x => f x + b) xs.
Proof. induction xs as [|x xs IH]; [reflexivity|]. cbn. f_equal. exact IH. Qed.
Lemma last_point l b : py_get (points (l ++ [b])) (-1) = Ok (Some b).
Proof. unfold py_get, norm_idx. rewrite points_length, app_length. cbn [List.length].
  replace ((0 <=? -1)%Z && _) with false by reflexivity. replace ((- Z.of_nat (List.length l + 1) <=? -1)%Z) with true by (symmetry; apply Z.leb_le; lia). cbn [andb Z.ltb Z.compare].
  replace (Z.to_nat (Z.of_nat (List.length l + 1) + -1)) with (List.length l) by lia. unfold points. rewrite map_app. cbn [map].
  rewrite nth_error_app2 by (rewrite map_length; lia). rewrite map_length, Nat.sub_diag. reflexivity. Qed.

Section PeakSum.
  Variables (A : Type) (curve : list fl -> list fl -> res (list fl)) (k : nat) (params_of : A -> list R) (value : A -> R -> R) (good : A -> Prop) (xs : list R).
  Hypothesis Hk : (1 < k)%nat.
  Hypothesis Hlen : forall a, List.length (params_of a) = k.
  Hypothesis Hcurve : forall a b, good a -> curve (points xs) (points (params_of a ++ [b])) = Ok (graph (fun x => value a x + b) xs).
  Lemma concat_length ps : List.length (List.concat (map params_of ps)) = (List.length ps * k)%nat.
  Proof. induction ps as [|a ps IH]; [reflexivity|]. cbn [map List.concat List.length]. rewrite app_length, IH, Hlen. lia. Qed.
  Lemma group_of pre a rest tail : group k (points (List.concat (map params_of (pre ++ a :: rest)) ++ tail)) (List.length pre) = points (params_of a).
  Proof. unfold group. rewrite slice_nat. unfold points. rewrite skipn_map, firstn_map. apply (f_equal (map Some)).
    rewrite map_app, concat_app. cbn [map List.concat]. rewrite <- !app_assoc.
    replace (List.length pre * k)%nat with (List.length (List.concat (map params_of pre))) by apply concat_length.
    rewrite skipn_app, skipn_all, Nat.sub_diag. cbn [app skipn]. rewrite concat_length.
    replace (List.length pre * k + k - List.length pre * k)%nat with (List.length (params_of a)) by (rewrite Hlen; lia).
    rewrite firstn_app, firstn_all, Nat.sub_diag. cbn [firstn]. apply app_nil_r. Qed.
  Lemma peak_loop ps tail : forall rest pre f, ps = (pre ++ rest)%list -> Forall good rest ->
    foldM (fun result idx => p <- curve (points xs) (group k (points (List.concat (map params_of ps) ++ tail)) idx ++ [Some 0])%list ;; vec_op fadd result p)
      (graph f xs) (seq (List.length pre) (List.length rest)) = Ok (graph (fun x => f x + total value rest x) xs).
  Proof. induction rest as [|a rest IH]; intros pre f E F.
    - cbn [List.length seq foldM]. apply (f_equal Ok), graph_ext. intros x. cbn. ring.
    - inversion F as [|? ? Ga F']; subst. cbn [List.length seq foldM]. rewrite group_of.
      change ([Some 0]) with (points [0]). rewrite <- points_app, Hcurve by exact Ga. cbn [bind]. rewrite graph_add. cbn [bind].
      specialize (IH (pre ++ [a])%list (fun x => f x + (value a x + 0))). rewrite app_length in IH. cbn [List.length] in IH. rewrite Nat.add_1_r in IH. refine (eq_trans (IH ltac:(rewrite <- app_assoc; reflexivity) F') _).
      apply (f_equal Ok), graph_ext. intros x. cbn [total fold_right]. unfold total. cbn. ring. Qed.
  Lemma peak_sum_ok ps b : Forall good ps -> peak_sum curve k (points xs) (points (List.concat (map params_of ps) ++ [b])) = Ok (graph (fun x => total value ps x + b) xs).
  Proof. intros F. unfold peak_sum. match goal with |- context [seq 0 ?n] => replace n with (List.length ps) by (rewrite points_length, app_length, concat_length; apply (Nat.div_unique _ _ _ 1); cbn [List.length]; lia) end.
    rewrite graph_zero. pose proof (peak_loop ps [b] ps [] (fun _ => 0) eq_refl F) as E. cbn [List.length] in E.
    match goal with |- bind ?a _ = _ => replace a with (Ok (graph (fun x => 0 + total value ps x) xs)) by (symmetry; exact E) end. cbn [bind].
    rewrite last_point. cbn [bind]. rewrite graph_shift. apply (f_equal Ok), graph_ext. intros x. ring. Qed.
  (** the curves of the single peaks *)
  Lemma peak_curves_ok ps b : forall names (d : list (string * list fl)) pre rest, ps = (pre ++ rest)%list -> Forall good rest -> List.length names = List.length rest ->
    foldM (fun d iname => v <- py_get (points (List.concat (map params_of ps) ++ [b])) (-1) ;; c <- curve (points xs) (group k (points (List.concat (map params_of ps) ++ [b])) (fst iname) ++ [v])%list ;; Ok (dict_set String.eqb d (snd iname) c))
      d (combine (seq (List.length pre) (List.length names)) names) =
    Ok (fold_left (fun d na => dict_set String.eqb d (fst na) (graph (fun x => value (snd na) x + b) xs)) (combine names rest) d).
  Proof. induction names as [|n names IH]; intros d pre [|a rest] E F L; try discriminate; [reflexivity|]. inversion F as [|? ? Ga F']; subst.
    cbn [List.length seq combine foldM fst snd]. rewrite last_point at 1. cbn [bind]. rewrite group_of. change ([Some b]) with (points [b]). rewrite <- points_app, Hcurve by exact Ga. cbn [bind fold_left fst snd].
    specialize (IH (dict_set String.eqb d n (graph (fun x => value a x + b) xs)) (pre ++ [a])%list rest). rewrite app_length in IH. cbn [List.length] in IH. rewrite Nat.add_1_r in IH. rewrite <- app_assoc in IH. cbn [app] in IH.
    assert (L' : List.length names = List.length rest) by (injection L as L; exact L). exact (IH eq_refl F' L'). Qed.
  (** the order of the peaks *)
  Lemma total_perm ps ps' x : Permutation ps ps' -> total value ps x = total value ps' x.
  Proof. unfold total. induction 1; cbn; lra. Qed.
End PeakSum.

Lemma g_params_length a : List.length (g_params a) = 3%nat. Proof. destruct a as [[s m] i]. reflexivity. Qed.
Lemma v_params_length a : List.length (v_params a) = 5%nat. Proof. destruct a as [[[[p gi] gw] li] lw]. reflexivity. Qed.
Lemma g_curve xs a b : g_width a <> 0 -> gauss (points xs) (points (g_params a ++ [b])) = Ok (graph (fun x => g_value a x + b) xs).
Proof. destruct a as [[s m] i]. apply gauss_curve. Qed.
Lemma v_curve xs a b : v_ok a -> pseudo_voigt (points xs) (points (v_params a ++ [b])) = Ok (graph (fun x => v_value a x + b) xs).
Proof. destruct a as [[[[p gi] gw] li] lw]. intros (Hp & Hg & Hl). unfold pseudo_voigt. cbn [v_params app].
  change (py_get (points [p; gi; gw; li; lw; b]) 0) with (Ok (Some p : fl)). change (py_get (points [p; gi; gw; li; lw; b]) 1) with (Ok (Some gi : fl)).
  change (py_get (points [p; gi; gw; li; lw; b]) 2) with (Ok (Some gw : fl)). change (py_get (points [p; gi; gw; li; lw; b]) 3) with (Ok (Some li : fl)).
  change (py_get (points [p; gi; gw; li; lw; b]) 4) with (Ok (Some lw : fl)). change (py_get (points [p; gi; gw; li; lw; b]) 5) with (Ok (Some b : fl)). cbn [bind].
  change [Some gw; Some p; Some gi; Some 0] with (points [gw; p; gi; 0]). change [Some p; Some lw; Some li; Some 0] with (points [p; lw; li; 0]).
  rewrite gauss_curve, lorentz_curve by assumption. cbn [bind]. rewrite graph_add. cbn [bind]. rewrite graph_shift. apply (f_equal Ok), graph_ext. intros x. unfold v_value, voigt_like. ring. Qed.
Lemma multi_gauss_ok xs ps b : Forall (fun a => g_width a <> 0) ps -> multi_gauss (points xs) (points (List.concat (map g_params ps) ++ [b])) = Ok (graph (fun x => total g_value ps x + b) xs).
Proof. apply (peak_sum_ok gaussian gauss 3 g_params g_value (fun a => g_width a <> 0) xs); [lia|exact g_params_length|]. intros a c. apply g_curve. Qed.
Lemma multi_voigt_ok xs ps b : Forall v_ok ps -> multi_voigt (points xs) (points (List.concat (map v_params ps) ++ [b])) = Ok (graph (fun x => total v_value ps x + b) xs).
Proof. apply (peak_sum_ok voigtian pseudo_voigt 5 v_params v_value v_ok xs); [lia|exact v_params_length|]. intros a c. apply v_curve. Qed.
Lemma gauss_lorentzian_ok xs w g i a b : w <> 0 -> g <> 0 -> g_width a <> 0 ->
  gauss_lorentzian (points xs) (points ([w; g; i] ++ g_params a ++ [b])) = Ok (graph (fun x => resonance w g i x + g_value a x + b) xs).
Proof. destruct a as [[s m] j]. cbn [g_width fst]. intros Hw Hg Hs. unfold gauss_lorentzian. cbn [g_params app].
  change (py_slice (points [w; g; i; s; m; j; b]) (Some 0%Z) (Some 3%Z) ++ [Some 0])%list with (points [w; g; i; 0]).
  change (py_slice (points [w; g; i; s; m; j; b]) (Some 3%Z) (Some 6%Z) ++ [Some 0])%list with (points [s; m; j; 0]).
  change (py_get (points [w; g; i; s; m; j; b]) (-1)) with (Ok (Some b : fl)). change (Nat.eqb (List.length (points [w; g; i; s; m; j; b])) 7) with true. cbn [negb].
  rewrite lorentz_curve, gauss_curve by assumption. cbn [bind]. rewrite graph_zero, graph_add. cbn [bind]. rewrite graph_add. cbn [bind]. rewrite graph_shift.
  apply (f_equal Ok), graph_ext. intros x. cbn [g_value]. ring. Qed.
