(** The fit of a Gaussian and a Lorentzian; residuals of the fits. *)
From Coq Require Import Reals Lra.
From Verif Require Import Py Str Arr Footprint_Model Spec_Model Spec_Proofs Fio_Model Fio_Proofs P08_Model P08_Spec P08Scan_Spec Footprint_Proofs P08_Proofs P08Loader_Proofs
  ScanFit_Model ScanFit_Spec ScanFit_Proofs ScanFits_Proofs.
Local Open Scope R_scope.
Local Open Scope string_scope.

Lemma gl_total x p : List.length p = 7%nat -> exists c, gauss_lorentzian x p = Ok c /\ List.length c = List.length x.
Proof. destruct p as [|p0 [|p1 [|p2 [|p3 [|p4 [|p5 [|p6 [|]]]]]]]]; intros H; try discriminate. unfold gauss_lorentzian.
  change (py_slice [p0; p1; p2; p3; p4; p5; p6] (Some 0%Z) (Some 3%Z) ++ [Some 0])%list with [p0; p1; p2; Some 0].
  change (py_slice [p0; p1; p2; p3; p4; p5; p6] (Some 3%Z) (Some 6%Z) ++ [Some 0])%list with [p3; p4; p5; Some 0].
  change (Nat.eqb (List.length [p0; p1; p2; p3; p4; p5; p6]) 7) with true. cbn [negb].
  destruct (lorentz_total x [p0; p1; p2; Some 0]) as (l & El & Ll); [cbn; lia|]. destruct (gauss_total x [p3; p4; p5; Some 0]) as (g & Eg & Lg); [cbn; lia|]. rewrite El, Eg. cbn [bind].
  destruct (vec_op_same_length fadd (repeat (Some 0) (List.length x)) l) as (r & Er & Lr); [rewrite repeat_length; congruence|]. rewrite Er. cbn [bind]. rewrite repeat_length in Lr.
  destruct (vec_op_same_length fadd r g) as (r' & Er' & Lr'); [congruence|]. rewrite Er'. cbn [bind]. change (py_get [p0; p1; p2; p3; p4; p5; p6] (-1)) with (Ok p6). cbn [bind].
  eexists. split; [reflexivity|]. rewrite map_length. congruence. Qed.

(** ** Start values *)
Section Start.
  Variables (ng nl : string) (pg pl : peak) (s m j w g i b : fl) (rg rl : list fl).
  Hypothesis Tg : pk_type pg = "gauss".
  Hypothesis Tl : pk_type pl = "lorentzian".
  Hypothesis Pg : pk_params pg = s :: m :: j :: rg.
  Hypothesis Pl : pk_params pl = w :: g :: i :: b :: rl.
  Lemma first3 (x y z : fl) r : py_slice (x :: y :: z :: r) (Some 0%Z) (Some 3%Z) = [x; y; z].
  Proof. change (Some 3%Z) with (Some (Z.of_nat 3)). rewrite slice_first. reflexivity. Qed.
  Lemma fourth (x y z t : fl) r : py_get (x :: y :: z :: t :: r) 3 = Ok t.
  Proof. unfold py_get, norm_idx. replace ((0 <=? 3)%Z && (3 <? Z.of_nat (List.length (x :: y :: z :: t :: r)))%Z) with true by (symmetry; apply andb_true_intro; split; [reflexivity|apply Z.ltb_lt; cbn [List.length]; lia]). reflexivity. Qed.
  Lemma gl_start_gl : gl_start [(ng, pg); (nl, pl)] = Ok ([w; g; i; s; m; j; b], [(ng, pg); (nl, pl)]).
  Proof. unfold gl_start. cbn [List.length Nat.eqb negb foldM]. unfold gl_step. cbn [snd fst]. rewrite Tg, Pg. cbn [String.eqb Ascii.eqb Bool.eqb bind]. rewrite Tl, Pl. cbn [String.eqb Ascii.eqb Bool.eqb bind]. rewrite !first3, fourth. reflexivity. Qed.
  Lemma gl_start_lg : gl_start [(nl, pl); (ng, pg)] = Ok ([w; g; i; s; m; j; b], [(nl, pl); (ng, pg)]).
  Proof. unfold gl_start. cbn [List.length Nat.eqb negb foldM]. unfold gl_step. cbn [snd fst]. rewrite Tl, Pl. cbn [String.eqb Ascii.eqb Bool.eqb bind]. rewrite first3, fourth. cbn [bind].
    match goal with |- context [py_set ?l 6 b] => change (py_set l 6 b) with (Ok [w; g; i; Some 0; Some 0; Some 0; b] : res (list fl)) end. cbn [bind]. rewrite Tg, Pg. cbn [String.eqb Ascii.eqb Bool.eqb bind]. rewrite first3. reflexivity. Qed.
End Start.
Lemma gl_start_ll na nb pa pb a0 a1 a2 a3 ra b0 b1 b2 b3 rb : pk_type pa = "lorentzian" -> pk_type pb = "lorentzian" -> pk_params pa = a0 :: a1 :: a2 :: a3 :: ra -> pk_params pb = b0 :: b1 :: b2 :: b3 :: rb ->
  gl_start [(na, pa); (nb, pb)] = Ok ([b0; b1; b2; Some 0; Some 0; Some 0; b3], [(na, pa); (nb, pb)]).
Proof. intros Ta Tb Pa Pb. unfold gl_start. cbn [List.length Nat.eqb negb foldM]. unfold gl_step. cbn [snd fst]. rewrite Ta, Pa. cbn [String.eqb Ascii.eqb Bool.eqb bind]. rewrite first3, fourth. cbn [bind].
  match goal with |- context [py_set ?l 6 a3] => change (py_set l 6 a3) with (Ok [a0; a1; a2; Some 0; Some 0; Some 0; a3] : res (list fl)) end. cbn [bind]. rewrite Tb, Pb. cbn [String.eqb Ascii.eqb Bool.eqb bind]. rewrite first3, fourth. reflexivity. Qed.
Lemma gl_start_gg na nb pa pb : pk_type pa = "gauss" -> pk_type pb = "gauss" -> gl_start [(na, pa); (nb, pb)] = Raise ValueError.
Proof. intros Ta Tb. unfold gl_start. cbn [List.length Nat.eqb negb foldM]. unfold gl_step. cbn [snd fst]. rewrite Ta. cbn [String.eqb Ascii.eqb Bool.eqb bind]. rewrite Tb. reflexivity. Qed.
Lemma gl_start_number peaks : List.length peaks <> 2%nat -> gl_start peaks = Raise ValueError.
Proof. intros H. unfold gl_start. apply Nat.eqb_neq in H. rewrite H. reflexivity. Qed.

Section Fit.
  Variable leastsq : (list fl -> res (list fl)) -> list fl -> res (list fl).
  Variables (s : fscan) (det : string) (q : rectangle) (xs : list R) (y : list fl) (weights : option (list fl)).
  Hypothesis D : region_data s det q (points xs) y.
  Hypothesis L : List.length y = List.length xs.
  Let wts := match weights with Some w => w | None => [Some 0; Some 1; Some 0] end.
  Variables (w g i b : R) (a : gaussian).
  Hypothesis Hw : w <> 0.
  Hypothesis Hg : g <> 0.
  Hypothesis Ha : g_width a <> 0.
  Let result := points ([w; g; i] ++ g_params a ++ [b]).
  (** the curve of one entry *)
  Definition entry_curve (p : peak) : list fl :=
    if String.eqb (pk_type p) "gauss" then graph (fun x => g_value a x + b) xs else graph (fun x => resonance w g i x + b) xs.
  Lemma gl_fit_shown n1 p1 n2 p2 start : gl_start [(n1, p1); (n2, p2)] = Ok (start, [(n1, p1); (n2, p2)]) -> List.length start = 7%nat ->
    leastsq (gl_residual wts (points xs) y) start = Ok result -> NoDup ["data"; "fit"; "start"; n1; n2] ->
    exists c, gauss_lorentzian (points xs) start = Ok c /\ gauss_lorentzian_fit leastsq s det (corners q) [(n1, p1); (n2, p2)] weights =
      Ok [shown "data" y; shown "fit" (graph (fun x => resonance w g i x + g_value a x + b) xs); shown "start" c; shown n1 (entry_curve p1); shown n2 (entry_curve p2)].
  Proof. intros Es Ls El N. destruct (gl_total (points xs) start Ls) as (c & Ec & Lc). exists c. split; [exact Ec|].
    unfold gauss_lorentzian_fit. rewrite (fit_data_ok _ _ _ _ _ D). cbn [bind]. rewrite Es. cbn [bind]. fold wts. rewrite El. cbn [bind]. rewrite Ec. cbn [bind]. unfold result. rewrite gauss_lorentzian_ok by assumption. cbn [bind].
    assert (Eb : py_get (points ([w; g; i] ++ g_params a ++ [b])) (-1) = Ok (Some b)) by (rewrite app_assoc; apply last_point).
    assert (Eg : (py_slice (points ([w; g; i] ++ g_params a ++ [b])) (Some 3%Z) (Some 6%Z) ++ [Some b : fl])%list = points (g_params a ++ [b])) by (destruct a as [[a0 a1] a2]; reflexivity).
    assert (El' : (py_slice (points ([w; g; i] ++ g_params a ++ [b])) (Some 0%Z) (Some 3%Z) ++ [Some b : fl])%list = points [w; g; i; b]) by (destruct a as [[a0 a1] a2]; reflexivity).
    cbn [foldM fst snd]. rewrite Eb. cbn [bind]. rewrite Eg, El', g_curve, lorentz_curve by assumption.
    inversion N as [|? ? N1 N']; subst. inversion N' as [|? ? N2 N'']; subst. inversion N'' as [|? ? N3 N4]; subst. inversion N4 as [|? ? N5 _]; subst. cbn [In] in *.
    assert (F1 : forall y1 y2 y3 v, dict_set String.eqb [("data", y1); ("fit", y2); ("start", y3)] n1 v = [("data", y1); ("fit", y2); ("start", y3); (n1, v)] :> list (string * list fl)).
    { intros. rewrite (dict_set_fresh String.eqb String.eqb_eq); [reflexivity|]. cbn. intuition. }
    assert (F2 : forall y1 y2 y3 y4 v, dict_set String.eqb [("data", y1); ("fit", y2); ("start", y3); (n1, y4)] n2 v = [("data", y1); ("fit", y2); ("start", y3); (n1, y4); (n2, v)] :> list (string * list fl)).
    { intros. rewrite (dict_set_fresh String.eqb String.eqb_eq); [reflexivity|]. cbn. intuition. }
    assert (LE : forall p, List.length (entry_curve p) = List.length xs) by (intros p; unfold entry_curve; destruct (String.eqb _ _); apply graph_length).
    refine (eq_trans (_ : _ = plot_curves (points xs) [("data", y); ("fit", graph (fun x => resonance w g i x + g_value a x + b) xs); ("start", c); (n1, entry_curve p1); (n2, entry_curve p2)]) _).
    - unfold entry_curve. destruct (String.eqb (pk_type p1) "gauss"); cbn [bind]; rewrite F1; destruct (String.eqb (pk_type p2) "gauss"); cbn [bind]; rewrite F2; reflexivity.
    - rewrite plot_curves_ok; [reflexivity|]. rewrite points_length in Lc. repeat constructor; cbn [snd]; rewrite points_length; [exact L|apply graph_length|exact Lc|apply LE|apply LE]. Qed.
  Lemma gl_fit_refused peaks e : gl_start peaks = Raise e -> gauss_lorentzian_fit leastsq s det (corners q) peaks weights = Raise e.
  Proof. intros E. unfold gauss_lorentzian_fit. rewrite (fit_data_ok _ _ _ _ _ D). cbn [bind]. rewrite E. reflexivity. Qed.
End Fit.

(** ** multiFit *)
Lemma multi_fit_fails curve_fit_one s det roi peaks out : (forall f x y p, curve_fit_one f x y = Ok p -> exists v c, f x v = Ok c) -> multi_fit curve_fit_one s det roi peaks <> Ok out.
Proof. intros C H. unfold multi_fit in H. destruct (fit_data s det roi) as [[x y]|]; [|discriminate]. cbn [bind] in H. destruct (start_values "gauss" 3 peaks); [|discriminate]. cbn [bind] in H.
  destruct (curve_fit_one swapped_fitfunc x y) as [p|] eqn:E; [|discriminate]. destruct (C _ _ _ _ E) as (v & c & Z). discriminate. Qed.

(** ** Residuals *)
Lemma ln10 : 0 < ln 10. Proof. rewrite <- ln_1. apply ln_increasing; lra. Qed.
Lemma lg_inj a b : 0 < a -> 0 < b -> lg a = lg b -> a = b.
Proof. unfold lg. intros Ha Hb E. pose proof ln10. apply ln_inv; try assumption. apply (Rmult_eq_reg_r (/ ln 10)); [exact E|]. apply Rinv_neq_0_compat. lra. Qed.
Lemma flog_pos a : 0 < a -> flog10 (Some a) = Some (lg a).
Proof. intros H. unfold flog10. destruct (Rlt_dec 0 a); [reflexivity|contradiction]. Qed.
Lemma map_flog (sh : R) fs : Forall (fun f => 0 < f + sh) fs -> map (fun v => flog10 (fadd v (Some sh))) (points fs) = points (map (fun f => lg (f + sh)) fs).
Proof. induction 1 as [|f fs Hf F IH]; [reflexivity|]. cbn [points map] in *. f_equal; [exact (flog_pos _ Hf)|exact IH]. Qed.
Lemma map_flog0 fs : Forall (fun f => 0 < f) fs -> map flog10 (points fs) = points (map lg fs).
Proof. induction 1 as [|f fs Hf F IH]; [reflexivity|]. cbn [points map] in *. f_equal; [exact (flog_pos _ Hf)|exact IH]. Qed.
Lemma points_sub us vs : List.length us = List.length vs -> vec_op fsub (points us) (points vs) = Ok (points (map (fun uv => fst uv - snd uv) (combine us vs))).
Proof. intros H. rewrite vec_op_same by (rewrite !points_length; exact H). apply (f_equal Ok). revert vs H. induction us as [|u us IH]; intros [|v vs] H; try discriminate; [reflexivity|].
  cbn [points map combine] in *. f_equal. apply IH. injection H as H. exact H. Qed.
Lemma points_mul us vs : List.length us = List.length vs -> vec_op fmul (points us) (points vs) = Ok (points (map (fun uv => fst uv * snd uv) (combine us vs))).
Proof. intros H. rewrite vec_op_same by (rewrite !points_length; exact H). apply (f_equal Ok). revert vs H. induction us as [|u us IH]; intros [|v vs] H; try discriminate; [reflexivity|].
  cbn [points map combine] in *. f_equal. apply IH. injection H as H. exact H. Qed.
Lemma points_inj us vs : points us = points vs -> us = vs.
Proof. revert vs. induction us as [|u us IH]; intros [|v vs] H; try discriminate; [reflexivity|]. cbn in H. injection H as -> H. f_equal. apply IH, H. Qed.
Lemma points_abs us : map fabs (points us) = points (map Rabs us).
Proof. induction us as [|u us IH]; [reflexivity|]. cbn [points map] in *. f_equal. exact IH. Qed.

Lemma simple_residual_value x p fs ys : multi_gauss x p = Ok (points fs) -> List.length fs = List.length ys -> Forall (fun f => 0 < f) fs -> Forall (fun v => 0 < v) ys ->
  simple_residual x (points ys) p = Ok (points (map (fun fy => Rabs (lg (fst fy) - lg (snd fy))) (combine fs ys))).
Proof. intros E L Ff Fy. unfold simple_residual. rewrite E. cbn [bind]. rewrite !map_flog0 by assumption. rewrite points_sub by (rewrite !map_length; exact L). cbn [bind]. rewrite points_abs, map_map. apply (f_equal (fun l => Ok (points l))).
  clear E Ff Fy. revert ys L. induction fs as [|f fs IH]; intros [|v ys] L; try discriminate; [reflexivity|]. cbn [map combine fst snd]. f_equal. apply IH. injection L as L. exact L. Qed.
Lemma zero_residuals (fs ys ws : list R) (sh : R) : List.length fs = List.length ys -> List.length ws = List.length ys -> Forall (fun w => w <> 0) ws -> Forall (fun f => 0 < f + sh) fs -> Forall (fun v => 0 < v + sh) ys ->
  Forall (fun r => r = 0) (map (fun wr => fst wr * snd wr) (combine ws (map (fun fy => Rabs (lg (fst fy + sh) - lg (snd fy + sh))) (combine fs ys)))) <-> fs = ys.
Proof. revert ys ws. induction fs as [|f fs IH]; intros [|v ys] [|w ws] L Lw Fw Ff Fy; try discriminate; [split; intros; [reflexivity|constructor]|].
  inversion Fw as [|? ? Hw Fw']; subst. inversion Ff as [|? ? Hf Ff']; subst. inversion Fy as [|? ? Hv Fy']; subst. cbn [combine map fst snd].
  injection L as L. injection Lw as Lw. specialize (IH ys ws L Lw Fw' Ff' Fy'). split.
  - intros F. inversion F as [|? ? F0 F']; subst. apply IH in F'. subst ys. f_equal. apply Rmult_integral in F0 as [F0|F0]; [contradiction|].
    assert (Z : lg (f + sh) - lg (v + sh) = 0) by (destruct (Req_dec (lg (f + sh) - lg (v + sh)) 0) as [Z|Z]; [exact Z|apply Rabs_no_R0 in Z; contradiction]).
    assert (f + sh = v + sh) by (apply lg_inj; [assumption|assumption|lra]). lra.
  - intros E. injection E as -> E. constructor; [|apply IH; exact E]. rewrite Rminus_diag_eq, Rabs_R0 by reflexivity. ring. Qed.
Lemma simple_residual_zero x p fs ys : multi_gauss x p = Ok (points fs) -> List.length fs = List.length ys -> Forall (fun f => 0 < f) fs -> Forall (fun v => 0 < v) ys ->
  exists rs, simple_residual x (points ys) p = Ok (points rs) /\ (Forall (fun r => r = 0) rs <-> fs = ys).
Proof. intros E L Ff Fy. eexists. split; [apply (simple_residual_value x p fs ys E L Ff Fy)|].
  pose proof (zero_residuals fs ys (repeat 1 (List.length ys)) 0 L (repeat_length _ _)) as Z.
  assert (F1 : Forall (fun w => w <> 0) (repeat 1 (List.length ys))) by (apply Forall_forall; intros w Hw; apply repeat_spec in Hw; lra).
  specialize (Z F1 ltac:(eapply Forall_impl; [|exact Ff]; cbn; intros; lra) ltac:(eapply Forall_impl; [|exact Fy]; cbn; intros; lra)).
  rewrite <- Z. clear Z F1 E Ff Fy. assert (A : forall l n, List.length l = n -> map (fun wr : R * R => fst wr * snd wr) (combine (repeat 1 n) l) = l).
  { induction l as [|r l IH]; intros [|n] Hn; try discriminate; [reflexivity|]. cbn [repeat combine map fst snd]. rewrite IH by (injection Hn as Hn; exact Hn). f_equal. ring. }
  rewrite A by (rewrite map_length, combine_length; lia).
  assert (B : map (fun fy => Rabs (lg (fst fy) - lg (snd fy))) (combine fs ys) = map (fun fy => Rabs (lg (fst fy + 0) - lg (snd fy + 0))) (combine fs ys)) by (apply map_ext; intros fy; rewrite !Rplus_0_r; reflexivity).
  rewrite B. reflexivity. Qed.

Lemma weight_value lo hi h x : weight (Some lo) (Some hi) (Some h) (Some x) = Some (point_weight lo hi h x).
Proof. unfold weight, heaviside, fadd, fmul, fsub, lift2, option_map, point_weight. destruct (Rlt_dec (x - lo) 0), (Rlt_dec (-1 * x + hi) 0), (Rle_dec lo x); try lra; try destruct (Rle_dec x hi); try lra; f_equal; ring. Qed.
Lemma gl_residual_value lo hi h x xs p fs ys : x = points xs -> gauss_lorentzian x p = Ok (points fs) -> List.length fs = List.length ys -> List.length xs = List.length ys ->
  Forall (fun f => 0 < f + 1) fs -> Forall (fun v => 0 < v + 1) ys ->
  gl_residual (points [lo; hi; h]) x (points ys) p =
  Ok (points (map (fun wr => fst wr * snd wr) (combine (map (point_weight lo hi h) xs) (map (fun fy => Rabs (lg (fst fy + 1) - lg (snd fy + 1))) (combine fs ys))))).
Proof. intros -> E L Lx Ff Fy. unfold gl_residual. change (py_get (points [lo; hi; h]) 0) with (Ok (Some lo : fl)). change (py_get (points [lo; hi; h]) 1) with (Ok (Some hi : fl)). change (py_get (points [lo; hi; h]) 2) with (Ok (Some h : fl)).
  cbn [bind]. rewrite E. cbn [bind]. rewrite !map_flog by assumption. rewrite points_sub by (rewrite !map_length; exact L). cbn [bind]. rewrite points_abs, map_map.
  assert (Ew : map (weight (Some lo) (Some hi) (Some h)) (points xs) = points (map (point_weight lo hi h) xs)).
  { rewrite (map_points _ (fun x => Some (point_weight lo hi h x))) by (intros; apply weight_value). unfold points. rewrite map_map. reflexivity. }
  rewrite Ew. rewrite points_mul by (rewrite !map_length, combine_length, !map_length; lia). apply (f_equal (fun l => Ok (points l))). do 2 f_equal.
  clear E Ew Lx Ff Fy. revert ys L. induction fs as [|f fs IH]; intros [|v ys] L; try discriminate; [reflexivity|]. cbn [map combine fst snd]. f_equal. apply IH. injection L as L. exact L. Qed.
Lemma gl_residual_zero lo hi h xs p fs ys : gauss_lorentzian (points xs) p = Ok (points fs) -> List.length fs = List.length ys -> List.length xs = List.length ys ->
  Forall (fun f => 0 < f + 1) fs -> Forall (fun v => 0 < v + 1) ys -> h + 1 <> 0 ->
  exists rs, gl_residual (points [lo; hi; h]) (points xs) (points ys) p = Ok (points rs) /\ (Forall (fun r => r = 0) rs <-> fs = ys).
Proof. intros E L Lx Ff Fy Hh. eexists. split; [apply (gl_residual_value lo hi h _ xs p fs ys eq_refl E L Lx Ff Fy)|].
  apply zero_residuals; [exact L|rewrite map_length; exact Lx| |exact Ff|exact Fy]. apply Forall_map, Forall_forall. intros x _. unfold point_weight. destruct (Rle_dec lo x); [destruct (Rle_dec x hi)|]; lra. Qed.
Lemma voigt_target_value ys : Forall (fun v => 0 < v + 1 / 10) ys -> voigt_target (points ys) = points (map (fun v => lg (v + 1 / 10)) ys).
Proof. apply map_flog. Qed.
Lemma voigt_match x p fs ys : multi_voigt x p = Ok (points fs) -> Forall (fun f => 0 < f + 1) fs -> Forall (fun v => 0 < v + 1 / 10) ys ->
  (voigt_curve x p = Ok (voigt_target (points ys)) <-> fs = map (fun v => v - 9 / 10) ys).
Proof. intros E Ff Fy. unfold voigt_curve. rewrite E. cbn [bind]. rewrite map_flog by exact Ff. rewrite voigt_target_value by exact Fy. clear E. split.
  - intros H. injection H as H. apply points_inj in H. revert ys Fy H. induction fs as [|f fs IH]; intros [|v ys] Fy H; try discriminate; [reflexivity|]. cbn [map] in *. injection H as H0 H.
    inversion Ff as [|? ? Hf Ff']; subst. inversion Fy as [|? ? Hv Fy']; subst. f_equal; [|apply IH; assumption]. apply lg_inj in H0; lra.
  - intros ->. apply (f_equal (fun l => Ok (points l))). rewrite map_map. apply map_ext. intros v. f_equal. lra. Qed.
