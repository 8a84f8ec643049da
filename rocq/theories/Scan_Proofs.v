(** Proofs about loaded scans. *)
From Coq Require Import Reals Lra Sorted.
From Verif Require Import Py Arr Footprint_Model Footprint_Spec Footprint_Proofs SldProfile_Spec Interp_Spec Scan_Model Scan_Spec Trainer_Proofs.
Local Open Scope R_scope.

(** *** Lists *)
Lemma foldM_app A S (f : S -> A -> res S) l l' s : foldM f s (l ++ l') = (s' <- foldM f s l ;; foldM f s' l').
Proof. revert s. induction l as [|a l IH]; intros s; [reflexivity|]. cbn [app foldM]. destruct (f s a); [|reflexivity]. apply IH. Qed.
Lemma nth_error_firstn' A (l : list A) k j : (j < k)%nat -> nth_error (firstn k l) j = nth_error l j.
Proof. revert k j. induction l as [|a l IH]; intros [|k] j H; try lia; [destruct j; reflexivity|]. destruct j as [|j]; [reflexivity|]. cbn. apply IH. lia. Qed.
Lemma nth_error_skipn' A (l : list A) k j : nth_error (skipn k l) j = nth_error l (k + j).
Proof. revert l. induction k as [|k IH]; intros l; [reflexivity|]. destruct l as [|a l]; [destruct j; reflexivity|]. cbn. apply IH. Qed.
Lemma In_firstn A (x : A) k l : In x (firstn k l) -> In x l.
Proof. intros H. rewrite <- (firstn_skipn k l). apply in_app_iff. auto. Qed.
Lemma In_skipn A (x : A) k l : In x (skipn k l) -> In x l.
Proof. intros H. rewrite <- (firstn_skipn k l). apply in_app_iff. auto. Qed.

(** *** Angles *)
Lemma replace_zeros_length l : List.length (replace_zeros l) = List.length l. Proof. apply map_length. Qed.
Lemma replace_zeros_finite A : Forall (fun a => 0 <= a < 360) A -> exists A', replace_zeros (map Some A) = map Some A' /\ scattering_angles A' /\ List.length A' = List.length A.
Proof. intros F. unfold replace_zeros. rewrite map_map. apply (@mapM_some R _ (fun a => 0 < a < 360)). eapply Forall_impl; [|exact F]. cbn beta. intros a H.
  destruct (Req_EM_T a 0); eexists; (split; [reflexivity|lra]). Qed.

(** *** Normalisation *)
Lemma normalize_max_finite J : J <> [] -> all_pos J ->
  exists out, normalize_to_max (map Some J) = Ok (map Some out) /\ List.length out = List.length J /\ all_pos out /\ is_max 1 out.
Proof. intros N P. destruct (fmax_finite J N) as (m & E & M). pose proof (all_pos_max _ _ P M) as Pm. exists (map (Rmult (/ m)) J). unfold normalize_to_max.
  match goal with |- (bind (fmax ?x) _ = _) /\ _ => replace (fmax x) with (Ok (Some m) : res fl) by (symmetry; exact E) end. cbn [bind]. split; [|split; [apply map_length|split]].
  - f_equal. rewrite !map_map. apply map_ext. intros x. rewrite fdiv_Some by lra. f_equal. unfold Rdiv. ring.
  - apply Forall_map. eapply Forall_impl; [|exact P]. cbn beta. intros x Hx. apply Rmult_lt_0_compat; [apply Rinv_0_lt_compat; lra|exact Hx].
  - replace 1 with (/ m * m) by (field; lra). apply is_max_scale; [apply Rinv_0_lt_compat; lra|exact M]. Qed.

Lemma normalize_first_finite J : J <> [] -> all_pos J ->
  exists out, normalize_to_first (map Some J) = Ok (map Some out) /\ List.length out = List.length J /\ all_pos out /\ nth_error out 0 = Some 1.
Proof. intros N P. destruct J as [|x J]; [contradiction|]. pose proof (Forall_inv P) as Px. cbn beta in Px. exists (map (Rmult (/ x)) (x :: J)). unfold normalize_to_first. cbn [map]. split; [|split; [cbn [List.length]; f_equal; apply map_length|split]].
  - f_equal. f_equal; [rewrite fdiv_Some by lra; f_equal; field; lra|]. rewrite !map_map. apply map_ext. intros y. rewrite fdiv_Some by lra. f_equal. unfold Rdiv. ring.
  - change (Forall (fun x0 => 0 < x0) (map (Rmult (/ x)) (x :: J))). apply Forall_map. eapply Forall_impl; [|exact P]. cbn beta. intros y Hy. apply Rmult_lt_0_compat; [apply Rinv_0_lt_compat; lra|exact Hy].
  - cbn [nth_error]. f_equal. field. lra. Qed.

(** *** Scaling *)
Lemma fmul_comm a b : fmul a b = fmul b a.
Proof. destruct a, b; cbn; try reflexivity. f_equal. ring. Qed.
Lemma fmul_assoc a b c : fmul a (fmul b c) = fmul (fmul a b) c.
Proof. destruct a, b, c; cbn; try reflexivity. f_equal. ring. Qed.
Lemma fdiv_scaled k a b : k <> 0 -> fdiv (fmul (Some k) a) (fmul (Some k) b) = fdiv a b.
Proof. intros K. destruct a as [a|], b as [b|]; try reflexivity. cbn [fmul lift2 fdiv]. destruct (Req_EM_T (k * b) 0) as [E|E], (Req_EM_T b 0) as [E'|E'].
  - reflexivity.
  - exfalso. apply Rmult_integral in E. tauto.
  - exfalso. apply E. rewrite E'. ring.
  - f_equal. field. auto. Qed.
Lemma fmax2_scaled k a b : 0 < k -> fmax2 (fmul (Some k) a) (fmul (Some k) b) = fmul (Some k) (fmax2 a b).
Proof. intros K. destruct a as [a|], b as [b|]; try reflexivity. unfold fmax2, fmul. cbn [lift2]. f_equal. apply RmaxRmult. lra. Qed.
Lemma fmax_scaled k l : 0 < k -> fmax (scaled k l) = rmap (fmul (Some k)) (fmax l).
Proof. intros K. destruct l as [|x l]; [reflexivity|]. unfold scaled. cbn [map fmax rmap]. f_equal. revert x. induction l as [|y l IH]; intros x; [reflexivity|]. cbn [map fold_left]. rewrite fmax2_scaled by exact K. apply IH. Qed.

Lemma normalize_scaled k n l : 0 < k -> scan_normalize (Some n) (scaled k l) = scan_normalize (Some n) l.
Proof. intros K. unfold scan_normalize. destruct (String.eqb n "max"); [|destruct (String.eqb n "first"); [|reflexivity]].
  - unfold normalize_to_max. rewrite fmax_scaled by exact K. destruct (fmax l); [|reflexivity]. cbn [rmap bind]. f_equal. unfold scaled. rewrite map_map. apply map_ext. intros x. apply fdiv_scaled. lra.
  - unfold normalize_to_first, scaled. destruct l as [|x l]; [reflexivity|]. cbn [map]. f_equal. f_equal; [apply fdiv_scaled; lra|]. rewrite map_map. apply map_ext. intros y. apply fdiv_scaled. lra. Qed.

Lemma stretch_scaled n k l : stretch n (scaled k l) = scaled k (stretch n l).
Proof. unfold scaled. destruct l as [|x [|y l]]; try reflexivity. cbn [map stretch]. clear. induction n as [|n IH]; [reflexivity|]. cbn [repeat map]. f_equal. exact IH. Qed.
Lemma vec_op_scaled k a b : vec_op fmul (scaled k a) b = rmap (scaled k) (vec_op fmul a b).
Proof. unfold vec_op. unfold scaled at 1. rewrite map_length. destruct (bdim _ _) as [n|e]; [|reflexivity]. cbn [bind rmap]. f_equal. unfold bop. rewrite stretch_scaled.
  generalize (stretch n a) (stretch n b). clear. induction l as [|x l IH]; intros [|y l']; try reflexivity. unfold scaled. cbn [map combine fst snd]. f_equal; [symmetry; apply fmul_assoc|]. apply IH. Qed.

Lemma corrected_scaled erf k n s : 0 < k -> sc_norm s = Some n -> corrected_intensity erf (with_raw s (scaled k (sc_raw s))) = corrected_intensity erf s.
Proof. intros K Hn. assert (E : (match scan_correct erf (with_raw s (scaled k (sc_raw s))) with Raise ValueError => Ok (sc_raw (with_raw s (scaled k (sc_raw s)))) | x => x end)
    = rmap (scaled k) (match scan_correct erf s with Raise ValueError => Ok (sc_raw s) | x => x end)).
  { unfold scan_correct, with_raw. cbn [sc_beam sc_sample sc_shape sc_raw sc_angle]. destruct (sc_beam s) as [b|]; [|reflexivity]. destruct (sc_sample s) as [l|]; [|reflexivity]. destruct (sc_shape s) as [sh|]; [|reflexivity].
    unfold apply_footprint_correction. destruct (get_factors erf (sc_angle s) b l sh) as [fs|e]; cbn [bind]; [|destruct e; reflexivity].
    rewrite vec_op_scaled. destruct (vec_op fmul (sc_raw s) fs) as [v|e]; cbn [rmap]; [reflexivity|]. destruct e; reflexivity. }
  unfold corrected_intensity. rewrite E. destruct (match scan_correct erf s with Raise ValueError => Ok (sc_raw s) | x => x end); cbn [rmap bind]; [|reflexivity]. cbn [with_raw sc_norm]. rewrite Hn. apply normalize_scaled, K. Qed.

(** *** Corrected intensity *)
Lemma corrected_base erf s A I : erf_positive erf -> geometry_ok s -> sc_angle s = map Some A -> sc_raw s = map Some I -> scattering_angles A -> List.length I = List.length A -> all_pos I ->
  exists J, (match scan_correct erf s with Raise ValueError => Ok (sc_raw s) | x => x end) = Ok (map Some J) /\ all_pos J /\ List.length J = List.length I.
Proof. intros He (Gb & Gs) HA HI SA L P. unfold scan_correct.
  destruct (sc_beam s) as [b|]; [|exists I; rewrite HI; repeat split; assumption]. destruct (sc_sample s) as [l|]; [|exists I; rewrite HI; repeat split; assumption].
  destruct (sc_shape s) as [sh|]; [|exists I; rewrite HI; repeat split; assumption]. specialize (Gb b eq_refl). specialize (Gs l eq_refl).
  destruct (String.eqb_spec sh "gauss") as [E1|N1]; [|destruct (String.eqb_spec sh "box") as [E2|N2]].
  3: { unfold apply_footprint_correction, get_factors. rewrite (proj2 (String.eqb_neq _ _) N1), (proj2 (String.eqb_neq _ _) N2). cbn [bind]. exists I. rewrite HI. repeat split; assumption. }
  all: destruct (factors_pos erf b l sh A He Gb Gs SA) as (fs & F & Pf & Lf); [tauto|]; unfold apply_footprint_correction; rewrite HA, F; cbn [bind]; rewrite HI;
    (rewrite vec_op_same; [|rewrite !map_length; congruence]); exists (map (fun xy => fst xy * snd xy) (combine I fs)); (split; [|split]);
    [f_equal; clear; revert fs; induction I as [|x I IH]; intros [|f fs]; try reflexivity; cbn [map combine fst snd]; f_equal; apply IH
    |apply Forall_map, Forall_forall; intros [x f] Hin; cbn [fst snd]; unfold all_pos in *; rewrite Forall_forall in P, Pf; apply Rmult_lt_0_compat; [apply P; apply in_combine_l in Hin; exact Hin|apply Pf; apply in_combine_r in Hin; exact Hin]
    |rewrite map_length, combine_length; lia]. Qed.

Lemma corrected_max erf s A I : erf_positive erf -> geometry_ok s -> sc_angle s = map Some A -> sc_raw s = map Some I -> scattering_angles A -> List.length I = List.length A -> all_pos I -> I <> [] ->
  sc_norm s = Some "max"%string -> exists out, corrected_intensity erf s = Ok (map Some out) /\ List.length out = List.length I /\ all_pos out /\ is_max 1 out.
Proof. intros He G HA HI SA L P N Hn. destruct (corrected_base erf s A I He G HA HI SA L P) as (J & E & PJ & LJ). unfold corrected_intensity. rewrite E, Hn. cbn [bind scan_normalize]. change (("max" =? "max")%string) with true. cbv iota.
  rewrite <- LJ. apply normalize_max_finite; [|exact PJ]. intros ->. destruct I; [contradiction|discriminate]. Qed.
Lemma corrected_first erf s A I : erf_positive erf -> geometry_ok s -> sc_angle s = map Some A -> sc_raw s = map Some I -> scattering_angles A -> List.length I = List.length A -> all_pos I -> I <> [] ->
  sc_norm s = Some "first"%string -> exists out, corrected_intensity erf s = Ok (map Some out) /\ List.length out = List.length I /\ all_pos out /\ nth_error out 0 = Some 1.
Proof. intros He G HA HI SA L P N Hn. destruct (corrected_base erf s A I He G HA HI SA L P) as (J & E & PJ & LJ). unfold corrected_intensity. rewrite E, Hn. cbn [bind scan_normalize]. change (("first" =? "max")%string) with false. change (("first" =? "first")%string) with true. cbv iota.
  rewrite <- LJ. apply normalize_first_finite; [|exact PJ]. intros ->. destruct I; [contradiction|discriminate]. Qed.

Lemma corrected_unnormalised erf s b l sh : sc_norm s = None -> sc_beam s = Some b -> sc_sample s = Some l -> sc_shape s = Some sh -> l <> 0 -> sh = "gauss"%string \/ sh = "box"%string ->
  List.length (sc_raw s) = List.length (sc_angle s) -> corrected_intensity erf s = apply_footprint_correction erf (sc_raw s) (sc_angle s) b l sh.
Proof. intros Hn Hb Hl Hs Nl Sh L. unfold corrected_intensity, scan_correct. rewrite Hb, Hl, Hs, Hn.
  assert (E : exists v, apply_footprint_correction erf (sc_raw s) (sc_angle s) b l sh = Ok v).
  { unfold apply_footprint_correction, get_factors. destruct Sh as [-> | ->].
    - change (("gauss" =? "gauss")%string) with true. cbv iota. unfold gaussian_factors. rewrite py_div_Ok by exact Nl. cbn [bind]. rewrite vec_op_same by (rewrite map_length; exact L). eauto.
    - change (("box" =? "gauss")%string) with false. change (("box" =? "box")%string) with true. cbv iota. unfold box_factors. rewrite py_div_Ok by exact Nl. cbn [bind]. rewrite vec_op_same by (rewrite map_length; exact L). eauto. }
  destruct E as [v E]. rewrite E. reflexivity. Qed.

Lemma invalid_shape erf s sh : sc_shape s = Some sh -> sh <> "gauss"%string -> sh <> "box"%string -> corrected_intensity erf s = scan_normalize (sc_norm s) (sc_raw s).
Proof. intros Hs N1 N2. unfold corrected_intensity, scan_correct. rewrite Hs. destruct (sc_beam s); [|reflexivity]. destruct (sc_sample s); [|reflexivity].
  unfold apply_footprint_correction, get_factors. rewrite (proj2 (String.eqb_neq _ _) N1), (proj2 (String.eqb_neq _ _) N2). reflexivity. Qed.

(** *** Lengths *)
Lemma normalize_length n l c : scan_normalize n l = Ok c -> List.length c = List.length l.
Proof. unfold scan_normalize. destruct n as [n|]; [|intros H; injection H as <-; reflexivity]. destruct (String.eqb n "max"); [|destruct (String.eqb n "first"); [|discriminate]].
  - unfold normalize_to_max. destruct (fmax l); [|discriminate]. cbn [bind]. intros H; injection H as <-. apply map_length.
  - unfold normalize_to_first. destruct l; [discriminate|]. intros H; injection H as <-. cbn [List.length]. f_equal. apply map_length. Qed.
Lemma factors_length erf A b l sh fs : get_factors erf A b l sh = Ok fs -> List.length fs = List.length A.
Proof. unfold get_factors, gaussian_factors, box_factors. destruct (String.eqb sh "gauss"); [|destruct (String.eqb sh "box"); [|discriminate]]; destruct (py_div b l); try discriminate; cbn [bind]; intros H; injection H as <-; apply map_length. Qed.
Lemma corrected_length erf s c : List.length (sc_raw s) = List.length (sc_angle s) -> corrected_intensity erf s = Ok c -> List.length c = List.length (sc_angle s).
Proof. intros L. unfold corrected_intensity. destruct (match scan_correct erf s with Raise ValueError => Ok (sc_raw s) | x => x end) as [v|e] eqn:E; [|discriminate]. cbn [bind]. intros H. rewrite (normalize_length _ _ _ H). clear H.
  unfold scan_correct in E. destruct (sc_beam s); [|injection E as <-; exact L]. destruct (sc_sample s); [|injection E as <-; exact L]. destruct (sc_shape s); [|injection E as <-; exact L].
  unfold apply_footprint_correction in E. destruct (get_factors erf (sc_angle s) _ _ _) as [fs|e] eqn:F; cbn [bind] in E; [|destruct e; try discriminate; injection E as <-; exact L].
  rewrite vec_op_same in E by (rewrite (factors_length _ _ _ _ _ _ F); exact L). injection E as <-. rewrite map_length, combine_length, (factors_length _ _ _ _ _ _ F). lia. Qed.
Lemma q_length s q : scan_q s = Ok q -> List.length q = List.length (sc_angle s).
Proof. unfold scan_q. destruct (py_div _ _); [|discriminate]. cbn [bind]. intros H; injection H as <-. apply map_length. Qed.

(** *** Closest index *)
Lemma argmin_total l : l <> [] -> exists i, argmin l = Ok i.
Proof. destruct l as [|[x|] l]; [contradiction|eexists; reflexivity..]. Qed.

Lemma argmin_from_spec l : forall best bi i pre, (bi < i)%nat -> List.length pre = i -> nth_error pre bi = Some best ->
  (forall j y, nth_error pre j = Some y -> best <= y) -> (forall j y, (j < bi)%nat -> nth_error pre j = Some y -> best < y) ->
  exists x, nth_error (pre ++ l) (argmin_from best bi i (map Some l)) = Some x /\
    (forall j y, nth_error (pre ++ l) j = Some y -> x <= y) /\ (forall j y, (j < argmin_from best bi i (map Some l))%nat -> nth_error (pre ++ l) j = Some y -> x < y).
Proof. induction l as [|z l IH]; intros best bi i pre Hb Hl Hn H1 H2; cbn [map argmin_from].
  - rewrite app_nil_r. exists best. auto.
  - assert (Hz : nth_error (pre ++ [z]) i = Some z) by (rewrite nth_error_app2 by lia; rewrite Hl, Nat.sub_diag; reflexivity).
    assert (Cases : forall j y, nth_error (pre ++ [z]) j = Some y -> (nth_error pre j = Some y /\ (j < i)%nat) \/ (j = i /\ y = z)).
    { intros j y H. destruct (lt_dec j i) as [J|J]; [left; rewrite nth_error_app1 in H by lia; auto|]. right. rewrite nth_error_app2 in H by lia.
      destruct (j - List.length pre)%nat as [|k] eqn:K; [cbn in H; split; [lia|congruence]|]. cbn in H. destruct k; discriminate. }
    destruct (Rlt_dec z best) as [Z|Z].
    + destruct (IH z i (S i) (pre ++ [z])) as (x & Hx & F1 & F2).
      * lia. * rewrite app_length; cbn [List.length]; lia. * exact Hz.
      * intros j y H. destruct (Cases j y H) as [[H' _]|[_ ->]]; [specialize (H1 j y H'); lra|lra].
      * intros j y J H. destruct (Cases j y H) as [[H' _]|[-> _]]; [specialize (H1 j y H'); lra|lia].
      * rewrite <- app_assoc in *. cbn [app] in *. eauto.
    + destruct (IH best bi (S i) (pre ++ [z])) as (x & Hx & F1 & F2).
      * lia. * rewrite app_length; cbn [List.length]; lia. * rewrite nth_error_app1 by lia. exact Hn.
      * intros j y H. destruct (Cases j y H) as [[H' _]|[_ ->]]; [exact (H1 j y H')|lra].
      * intros j y J H. destruct (Cases j y H) as [[H' _]|[-> _]]; [exact (H2 j y J H')|lia].
      * rewrite <- app_assoc in *. cbn [app] in *. eauto. Qed.

Lemma argmin_finite l : l <> [] -> exists i x, argmin (map Some l) = Ok i /\ nth_error l i = Some x /\ (forall j y, nth_error l j = Some y -> x <= y) /\ (forall j y, (j < i)%nat -> nth_error l j = Some y -> x < y).
Proof. destruct l as [|z l]; [contradiction|]. intros _. cbn [map argmin]. destruct (argmin_from_spec l z 0 1 [z]) as (x & Hx & F1 & F2); [lia|reflexivity|reflexivity| | |].
  - intros [|j] y H; [injection H as <-; lra|destruct j; discriminate].
  - intros j y J; lia.
  - exists (argmin_from z 0 1 (map Some l)), x. auto. Qed.

Lemma closest_index_finite l v : l <> [] -> exists i, closest_index (Some v) (map Some l) = Ok (Some i) /\ closest l v i.
Proof. intros N. unfold closest_index. rewrite map_map. cbn [fsub lift2 option_map].
  destruct (argmin_finite (map (fun x => Rabs (x - v)) l)) as (i & d & E & Hn & F1 & F2); [destruct l; [contradiction|discriminate]|]. rewrite map_map in E. cbn beta in E.
  match goal with |- exists i, bind ?t _ = _ /\ _ => replace t with (Ok i : res nat) by (symmetry; exact E) end. cbn [bind]. exists i. split; [reflexivity|].
  rewrite nth_error_map in Hn. destruct (nth_error l i) as [x|] eqn:Ex; [|discriminate]. injection Hn as <-. exists x. split; [exact Ex|]. split.
  - intros j y H. apply (F1 j). rewrite nth_error_map, H. reflexivity.
  - intros j y J H. apply (F2 j); [exact J|]. rewrite nth_error_map, H. reflexivity. Qed.

Lemma closest_index_total v l : l <> [] -> exists o, closest_index v l = Ok o.
Proof. intros N. destruct v as [v|]; [|eexists; reflexivity]. unfold closest_index. destruct (argmin_total (map (fun x => option_map Rabs (fsub x (Some v))) l)) as (i & E); [destruct l; [contradiction|discriminate]|].
  rewrite E. eexists; reflexivity. Qed.

(** *** Range getters *)
Definition bound_lo (b : option nat * option nat) : nat := match fst b with Some i => i | None => 0 end.
Definition bound_hi (n : nat) (b : option nat * option nat) : nat := match snd b with Some i => i | None => n end.

Lemma cut_eq A b (l : list A) : (bound_hi (List.length l) b <= List.length l)%nat -> (bound_lo b <= List.length l)%nat ->
  cut b l = firstn (bound_hi (List.length l) b - bound_lo b) (skipn (bound_lo b) l).
Proof. destruct b as [lo hi]. unfold cut, py_slice, bound_lo, bound_hi. cbn [fst snd]. intros H1 H2.
  assert (K : forall i, (i <= List.length l)%nat -> clamp_idx (List.length l) (Z.of_nat i) = i) by (intros i H; unfold clamp_idx; destruct (Z.of_nat i <? 0)%Z eqn:E; lia).
  destruct lo as [lo|], hi as [hi|]; cbn [option_map]; rewrite ?K by assumption; reflexivity. Qed.

Lemma closest_lt v l o : closest_index v l = Ok o -> match o with Some i => (i < List.length l)%nat | None => v = None end.
Proof. destruct v as [v|]; cbn [closest_index]; [|intros H; injection H as <-; reflexivity]. destruct l as [|x l]; [discriminate|]. set (g := fun x => option_map Rabs (fsub x (Some v))).
  assert (G : forall l' best bi i, (bi < i)%nat -> (argmin_from best bi i l' < i + List.length l')%nat).
  { induction l' as [|[y|] l' IH]; intros best bi i H; cbn [argmin_from List.length]; [lia| |lia]. destruct (Rlt_dec y best).
    - specialize (IH y i (S i) ltac:(lia)). lia. - specialize (IH best bi (S i) ltac:(lia)). lia. }
  cbn [map argmin]. destruct (g x) as [y|]; cbn [bind]; intros H; injection H as <-; cbn [List.length]; [|lia]. specialize (G (map g l) y 0%nat 1%nat ltac:(lia)). rewrite map_length in G. lia. Qed.

Lemma index_closest p v o : p <> [] -> closest_index v (map Some p) = Ok o -> match v with None => o = None | Some v => exists i, o = Some i /\ closest p v i end.
Proof. intros N H. destruct v as [v|]; [|injection H as <-; reflexivity]. destruct (closest_index_finite p v N) as (i & E & C). pose proof (eq_trans (eq_sym E) H) as Q. injection Q as <-. eauto. Qed.
Lemma range_bounds_ok s q qmin qmax : scan_q s = Ok q -> q <> [] -> exists b, range_bounds s qmin qmax = Ok b /\ (bound_lo b <= List.length q)%nat /\ (bound_hi (List.length q) b <= List.length q)%nat /\
  forall p, q = map Some p -> selected p qmin qmax (bound_lo b) (bound_hi (List.length q) b).
Proof. intros Eq N. unfold range_bounds. rewrite Eq. cbn [bind]. destruct (closest_index_total qmin q N) as (lo & El). destruct (closest_index_total qmax q N) as (hi & Eh). rewrite El, Eh. cbn [bind].
  exists (lo, hi). split; [reflexivity|]. pose proof (closest_lt _ _ _ El) as Bl. pose proof (closest_lt _ _ _ Eh) as Bh. unfold bound_lo, bound_hi. cbn [fst snd]. split; [destruct lo; lia|]. split; [destruct hi; lia|].
  intros p ->. assert (Np : p <> []) by (intros ->; contradiction). apply index_closest in El; [|exact Np]. apply index_closest in Eh; [|exact Np]. split.
  - destruct qmin; [destruct El as (i & -> & C); exact C|now subst lo].
  - destruct qmax; [destruct Eh as (i & -> & C); exact C|subst hi; apply map_length]. Qed.

Lemma getters_aligned erf s q c qmin qmax : List.length (sc_raw s) = List.length (sc_angle s) -> scan_q s = Ok q -> corrected_intensity erf s = Ok c -> q <> [] ->
  exists lo n, get_q_range s qmin qmax = Ok (firstn n (skipn lo q)) /\ get_raw_intensity_range s qmin qmax = Ok (firstn n (skipn lo (sc_raw s))) /\
    get_corrected_intensity_range erf s qmin qmax = Ok (firstn n (skipn lo c)) /\
    List.length (firstn n (skipn lo q)) = List.length (firstn n (skipn lo (sc_raw s))) /\ List.length (firstn n (skipn lo q)) = List.length (firstn n (skipn lo c)) /\
    (forall p, q = map Some p -> exists hi, selected p qmin qmax lo hi /\ n = (hi - lo)%nat).
Proof. intros L Eq Ec N. pose proof (q_length _ _ Eq) as Lq. pose proof (corrected_length _ _ _ L Ec) as Lc. destruct (range_bounds_ok s q qmin qmax Eq N) as (b & Eb & B1 & B2 & B3).
  exists (bound_lo b), (bound_hi (List.length q) b - bound_lo b)%nat. unfold get_q_range, get_raw_intensity_range, get_corrected_intensity_range. rewrite Eb, Eq, Ec. cbn [bind].
  rewrite (cut_eq _ b q), (cut_eq _ b (sc_raw s)), (cut_eq _ b c) by (rewrite ?L, ?Lc, <- ?Lq; assumption). rewrite L, Lc, <- Lq.
  do 3 (split; [reflexivity|]). split; [rewrite !firstn_length, !skipn_length; f_equal; congruence|]. split; [rewrite !firstn_length, !skipn_length; f_equal; congruence|]. intros p Hp. exists (bound_hi (List.length q) b). split; [exact (B3 p Hp)|reflexivity]. Qed.
Lemma raw_aligned s q qmin qmax : List.length (sc_raw s) = List.length (sc_angle s) -> scan_q s = Ok q -> q <> [] ->
  exists lo n, get_q_range s qmin qmax = Ok (firstn n (skipn lo q)) /\ get_raw_intensity_range s qmin qmax = Ok (firstn n (skipn lo (sc_raw s))) /\
    List.length (firstn n (skipn lo q)) = List.length (firstn n (skipn lo (sc_raw s))) /\ (forall p, q = map Some p -> exists hi, selected p qmin qmax lo hi /\ n = (hi - lo)%nat).
Proof. intros L Eq N. pose proof (q_length _ _ Eq) as Lq. destruct (range_bounds_ok s q qmin qmax Eq N) as (b & Eb & B1 & B2 & B3).
  exists (bound_lo b), (bound_hi (List.length q) b - bound_lo b)%nat. unfold get_q_range, get_raw_intensity_range. rewrite Eb, Eq. cbn [bind].
  rewrite (cut_eq _ b q), (cut_eq _ b (sc_raw s)) by (rewrite ?L, <- ?Lq; assumption). rewrite L, <- Lq.
  do 2 (split; [reflexivity|]). split; [rewrite !firstn_length, !skipn_length; f_equal; congruence|]. intros p Hp. exists (bound_hi (List.length q) b). split; [exact (B3 p Hp)|reflexivity]. Qed.

Lemma q_range_bounds s q v w : scan_q s = Ok (map Some q) -> q <> [] ->
  exists lo hi, closest q v lo /\ closest q w hi /\
    get_q_range s (Some v) (Some w) = Ok (map Some (firstn (hi - lo) (skipn lo q))) /\
    get_q_range s None (Some w) = Ok (map Some (firstn hi q)) /\
    get_q_range s (Some v) None = Ok (map Some (skipn lo q)) /\ get_q_range s None None = Ok (map Some q).
Proof. intros Eq N. destruct (closest_index_finite q v N) as (lo & E1 & C1). destruct (closest_index_finite q w N) as (hi & E2 & C2). exists lo, hi. split; [exact C1|]. split; [exact C2|].
  assert (Lq : @List.length fl (map Some q) = List.length q) by apply map_length.
  assert (L1 : (lo < List.length q)%nat). { destruct C1 as (x & H & _). apply nth_error_Some. congruence. }
  assert (L2 : (hi < List.length q)%nat). { destruct C2 as (x & H & _). apply nth_error_Some. congruence. }
  assert (G : forall v' w' b, closest_index v' (map Some q) = Ok (fst b) -> closest_index w' (map Some q) = Ok (snd b) -> (bound_lo b <= List.length q)%nat -> (bound_hi (List.length q) b <= List.length q)%nat ->
     get_q_range s v' w' = Ok (map Some (firstn (bound_hi (List.length q) b - bound_lo b) (skipn (bound_lo b) q)))).
  { intros v' w' b H1 H2 B1 B2. unfold get_q_range, range_bounds. rewrite Eq. cbn [bind].
    match goal with |- context [bind (bind ?t _) _] => replace t with (Ok (fst b)) by (symmetry; exact H1) end. cbn [bind].
    match goal with |- context [bind (bind ?t _) _] => replace t with (Ok (snd b)) by (symmetry; exact H2) end. cbn [bind]. rewrite <- surjective_pairing.
    f_equal. rewrite cut_eq by (rewrite Lq; assumption). rewrite Lq, skipn_map', firstn_map. reflexivity. }
  split; [apply (G (Some v) (Some w) (Some lo, Some hi)); cbn [fst snd bound_lo bound_hi]; try assumption; unfold bound_lo, bound_hi; cbn [fst snd]; lia|]. split; [|split].
  - rewrite (G None (Some w) (None, Some hi)); cbn [fst snd]; try assumption; try reflexivity; unfold bound_lo, bound_hi; cbn [fst snd]; try lia. cbn [skipn]. rewrite Nat.sub_0_r. reflexivity.
  - rewrite (G (Some v) None (Some lo, None)); cbn [fst snd]; try assumption; try reflexivity; unfold bound_lo, bound_hi; cbn [fst snd]; try lia. rewrite firstn_all2 by (rewrite skipn_length; lia). reflexivity.
  - rewrite (G None None (None, None)); cbn [fst snd]; try reflexivity; unfold bound_lo, bound_hi; cbn [fst snd]; try lia. cbn [skipn]. rewrite firstn_all2 by lia. reflexivity. Qed.

Lemma sorted_nth q i j x y : increasing q -> (i < j)%nat -> nth_error q i = Some x -> nth_error q j = Some y -> x < y.
Proof. intros S. revert i j x y. induction S as [|a q S IH F]; intros i j x y L Hi Hj; [destruct i; discriminate|]. destruct j as [|j]; [lia|]. cbn in Hj. destruct i as [|i]; cbn in Hi.
  - injection Hi as <-. rewrite Forall_forall in F. apply F. eapply nth_error_In; eauto.
  - apply (IH i j); [lia|assumption..]. Qed.

Lemma closest_range q v w lo hi : increasing q -> v <= w -> closest q v lo -> closest q w hi ->
  (lo <= hi)%nat /\ (forall k x, nth_error q k = Some x -> (k < lo)%nat -> x < v) /\ (forall k x, nth_error q k = Some x -> (lo < k < hi)%nat -> v <= x < w) /\
  (forall k x, nth_error q k = Some x -> (k < hi)%nat -> x < w) /\ (forall k x, nth_error q k = Some x -> (hi < k)%nat -> w <= x).
Proof. intros S VW (a & Ha & A1 & A2) (b & Hb & B1 & B2).
  assert (R1 : forall k x, nth_error q k = Some x -> (k < lo)%nat -> x < v).
  { intros k x Hk K. pose proof (@sorted_nth _ _ _ _ _ S K Hk Ha). specialize (A2 k x K Hk). unfold Rabs in A2. destruct (Rcase_abs (a - v)), (Rcase_abs (x - v)); lra. }
  assert (R4 : forall k x, nth_error q k = Some x -> (k < hi)%nat -> x < w).
  { intros k x Hk K. pose proof (@sorted_nth _ _ _ _ _ S K Hk Hb). specialize (B2 k x K Hk). unfold Rabs in B2. destruct (Rcase_abs (b - w)), (Rcase_abs (x - w)); lra. }
  assert (R5 : forall k x, nth_error q k = Some x -> (hi < k)%nat -> w <= x).
  { intros k x Hk K. pose proof (@sorted_nth _ _ _ _ _ S K Hb Hk). specialize (B1 k x Hk). unfold Rabs in B1. destruct (Rcase_abs (b - w)), (Rcase_abs (x - w)); lra. }
  assert (R3 : forall k x, nth_error q k = Some x -> (lo < k)%nat -> v <= x).
  { intros k x Hk K. pose proof (@sorted_nth _ _ _ _ _ S K Ha Hk). specialize (A1 k x Hk). unfold Rabs in A1. destruct (Rcase_abs (a - v)), (Rcase_abs (x - v)); lra. }
  split; [|split; [exact R1|split; [|split; assumption]]].
  - destruct (le_lt_dec lo hi) as [L|L]; [exact L|exfalso]. pose proof (@sorted_nth _ _ _ _ _ S L Hb Ha) as Lt. specialize (A2 hi b L Hb). specialize (B1 lo a Ha).
    unfold Rabs in A2, B1. destruct (Rcase_abs (a - v)), (Rcase_abs (b - v)), (Rcase_abs (b - w)), (Rcase_abs (a - w)); lra.
  - intros k x Hk [K1 K2]. split; [exact (R3 k x Hk K1)|exact (R4 k x Hk K2)]. Qed.

Lemma closest_self q i x : increasing q -> nth_error q i = Some x -> forall k, closest q x k -> k = i.
Proof. intros S H k (y & Hy & C1 & C2). assert (E : y = x). { specialize (C1 i x H). replace (x - x) with 0 in C1 by ring. rewrite Rabs_R0 in C1. pose proof (Rabs_pos (y - x)). assert (Z : Rabs (y - x) = 0) by lra. destruct (Req_dec (y - x) 0) as [D|D]; [lra|]. pose proof (Rabs_pos_lt _ D). lra. }
  subst y. destruct (Nat.lt_trichotomy k i) as [L|[L|L]]; [|exact L|]; exfalso; [pose proof (sorted_nth _ _ _ _ _ S L Hy H)|pose proof (sorted_nth _ _ _ _ _ S L H Hy)]; lra. Qed.

Lemma range_drops_last s q x : scan_q s = Ok (map Some (q ++ [x])) -> increasing (q ++ [x]) -> get_q_range s None (Some x) = Ok (map Some q).
Proof. intros Eq S. destruct (q_range_bounds s (q ++ [x]) 0 x Eq) as (lo & hi & _ & C & _ & E & _); [destruct q; discriminate|].
  assert (H : nth_error (q ++ [x]) (List.length q) = Some x) by (rewrite nth_error_app2, Nat.sub_diag by lia; reflexivity).
  rewrite (closest_self _ _ _ S H _ C) in E. rewrite E. rewrite firstn_app, Nat.sub_diag, firstn_all. cbn [firstn]. rewrite app_nil_r. reflexivity. Qed.

(** *** Statistics of a series *)
Lemma fold_fmin l : forall x, fold_left fmin2 (map Some l) (Some x) = Some (fold_left Rmin l x).
Proof. induction l as [|y l IH]; intros x; [reflexivity|]. cbn [map fold_left]. rewrite <- IH. reflexivity. Qed.
Lemma fold_Rmin l : forall x, is_min (fold_left Rmin l x) (x :: l).
Proof. induction l as [|y l IH]; intros x; [split; [left; reflexivity|repeat constructor; cbn; lra]|]. cbn [fold_left]. destruct (IH (Rmin x y)) as [I F]. split.
  - destruct I as [I|I]; [|right; right; exact I]. rewrite <- I. unfold Rmin. destruct (Rle_dec x y); [left|right; left]; reflexivity.
  - pose proof (Forall_inv F) as M. cbn beta in M. constructor; [pose proof (Rmin_l x y); lra|]. constructor; [pose proof (Rmin_r x y); lra|exact (Forall_inv_tail F)]. Qed.
Lemma fmin_finite l : l <> [] -> exists m, fmin (map Some l) = Ok (Some m) /\ is_min m l.
Proof. destruct l as [|x l]; [contradiction|]. intros _. exists (fold_left Rmin l x). cbn [map fmin]. rewrite fold_fmin. split; [reflexivity|apply fold_Rmin]. Qed.

Lemma scan_q_finite s A : sc_wavelength s <> 0 -> sc_angle s = map Some A -> scan_q s = Ok (map Some (map (fun a => 4 * PI / sc_wavelength s * sin_half a) A)).
Proof. intros W E. unfold scan_q. rewrite py_div_Ok by exact W. cbn [bind]. rewrite E, !map_map. f_equal. apply map_ext. intros a. unfold fhalf_sin. cbn [option_map fmul lift2]. rewrite half_sin_spec. reflexivity. Qed.

Lemma stats_finite l : Forall (fun s => exists q, scan_q s = Ok (map Some q) /\ q <> []) l ->
  exists st, series_stats l = Ok st /\ Forall2 (fun s t => exists q lo hi, scan_q s = Ok (map Some q) /\ t = (List.length q, Some lo, Some hi) /\ is_min lo q /\ is_max hi q) l st.
Proof. unfold series_stats. induction 1 as [|s l (q & E & N) F (st & Es & Fs)]; [exists []; split; [reflexivity|constructor]|]. cbn [mapM].
  destruct (fmin_finite q N) as (lo & E1 & M1). destruct (fmax_finite q N) as (hi & E2 & M2).
  assert (X : scan_stats s = Ok (List.length q, Some lo, Some hi)).
  { unfold scan_stats. rewrite E. cbn [bind].
    match goal with |- bind ?t _ = _ => replace t with (Ok (Some lo) : res fl) by (symmetry; exact E1) end. cbn [bind].
    match goal with |- bind ?t _ = _ => replace t with (Ok (Some hi) : res fl) by (symmetry; exact E2) end. cbn [bind]. rewrite <- (q_length _ _ E). rewrite map_length. reflexivity. }
  rewrite X, Es. cbn [bind]. eexists; split; [reflexivity|]. constructor; [|exact Fs]. exists q, lo, hi. auto. Qed.

Lemma stats_empty_scan s l : scan_q s = Ok [] -> series_stats (s :: l) = Raise ValueError.
Proof. intros E. unfold series_stats. cbn [mapM]. unfold scan_stats. rewrite E. reflexivity. Qed.

(** *** Trimming *)
Lemma trim_front_skipn A (f : nat) (l : list A) : trim_front (Z.of_nat f) l = skipn f l.
Proof. unfold trim_front, py_slice, clamp_idx. destruct (Z.of_nat f <? 0)%Z eqn:E; [lia|].
  destruct (le_lt_dec f (List.length l)) as [L|L].
  - replace (Z.to_nat (Z.max 0 (Z.min (Z.of_nat f) (Z.of_nat (List.length l))))) with f by lia. apply firstn_all2. rewrite skipn_length. lia.
  - replace (Z.to_nat (Z.max 0 (Z.min (Z.of_nat f) (Z.of_nat (List.length l))))) with (List.length l) by lia. rewrite Nat.sub_diag. cbn [firstn]. rewrite skipn_all2 by lia. reflexivity. Qed.
Lemma trim_back_firstn A (b : nat) (l : list A) : (0 < b)%nat -> trim_back (Z.of_nat b) l = firstn (List.length l - b) l.
Proof. intros B. unfold trim_back, py_slice, clamp_idx. destruct (- Z.of_nat b <? 0)%Z eqn:E; [|lia]. rewrite Nat.sub_0_r. cbn [skipn]. f_equal. lia. Qed.
Lemma trim_back_zero A (l : list A) : trim_back 0 l = [].
Proof. unfold trim_back, py_slice, clamp_idx. cbn [Z.opp Z.ltb Z.compare]. replace (Z.to_nat (Z.max 0 (Z.min 0 (Z.of_nat (List.length l))))) with 0%nat by lia. reflexivity. Qed.

(** *** Attenuator kinks *)
Definition sc_tail (k : nat) (f : R) (l : list R) : list R := firstn k l ++ map (fun x => x * f) (skipn k l).
Lemma scale_tail_finite k f l : scale_tail k (Some f) (map Some l) = map Some (sc_tail k f l).
Proof. unfold scale_tail, sc_tail. rewrite map_app, firstn_map, skipn_map', !map_map. f_equal. Qed.
Lemma sc_tail_length k f l : List.length (sc_tail k f l) = List.length l.
Proof. unfold sc_tail. rewrite app_length, map_length, <- app_length, firstn_skipn. reflexivity. Qed.
Lemma sc_tail_nth k f l j : nth_error (sc_tail k f l) j = if (j <? k)%nat then nth_error l j else option_map (fun x => x * f) (nth_error l j).
Proof. unfold sc_tail. destruct (le_lt_dec k (List.length l)) as [K|K].
  - destruct (j <? k)%nat eqn:J.
    + rewrite nth_error_app1 by (rewrite firstn_length; lia). apply nth_error_firstn'. lia.
    + rewrite nth_error_app2 by (rewrite firstn_length; lia). rewrite firstn_length, nth_error_map, nth_error_skipn'. f_equal. f_equal. lia.
  - rewrite skipn_all2, firstn_all2 by lia. cbn [map]. rewrite app_nil_r. destruct (j <? k)%nat eqn:J; [reflexivity|]. rewrite (proj2 (nth_error_None l j)) by lia. reflexivity. Qed.

Lemma kink_invariant (A : list fl) I : List.length I = List.length A -> Forall (fun x => x <> 0) I -> forall k, (k <= List.length A - 1)%nat ->
  exists l, foldM (kink_step A) (map Some I) (seq 0 k) = Ok (map Some l) /\ List.length l = List.length I /\ Forall (fun x => x <> 0) l /\ nth_error l 0 = nth_error I 0 /\
    (forall j x y x0 y0, nth_error l j = Some x -> nth_error l (j + 1) = Some y -> nth_error I j = Some x0 -> nth_error I (j + 1) = Some y0 ->
       if (j <? k)%nat then (same_angle A j -> y = x) /\ (~ same_angle A j -> y / x = y0 / x0) else y / x = y0 / x0).
Proof. intros L N k. induction k as [|k IH]; intros Hk.
  - exists I. split; [reflexivity|]. split; [reflexivity|]. split; [exact N|]. split; [reflexivity|]. intros j x y x0 y0 H1 H2 H3 H4. cbn. congruence.
  - destruct (IH ltac:(lia)) as (l & E & Ll & Nl & Hh & P). clear IH. rewrite seq_S. cbn [Nat.add]. rewrite foldM_app, E. cbn [bind foldM].
    assert (K1 : exists a, nth_error A k = Some a). { destruct (nth_error A k) eqn:X; [eauto|]. apply nth_error_None in X. lia. }
    assert (K2 : exists b, nth_error A (k + 1) = Some b). { destruct (nth_error A (k + 1)) eqn:X; [eauto|]. apply nth_error_None in X. lia. }
    assert (K3 : exists x, nth_error l k = Some x). { destruct (nth_error l k) eqn:X; [eauto|]. apply nth_error_None in X. lia. }
    assert (K4 : exists x, nth_error l (k + 1) = Some x). { destruct (nth_error l (k + 1)) eqn:X; [eauto|]. apply nth_error_None in X. lia. }
    destruct K1 as [a Ka]. destruct K2 as [b Kb]. destruct K3 as [u Ku]. destruct K4 as [w Kw].
    assert (Gn : forall T (t : list T) i x, nth_error t i = Some x -> py_get t (Z.of_nat i) = Ok x).
    { intros T t i x H. unfold py_get. rewrite norm_idx_of_nat by (apply nth_error_Some; congruence). rewrite H. reflexivity. }
    unfold kink_step. rewrite (Gn _ _ _ _ Ka). cbn [bind]. rewrite (Gn _ _ _ _ Kb). cbn [bind].
    assert (SA : feqb (fsub b a) (Some 0) = true <-> same_angle A k).
    { unfold same_angle. rewrite Ka, Kb. destruct a as [a|], b as [b|]; cbn [fsub lift2 feqb]; (split; [intros H|intros (x & Hx & Hy)]); try discriminate.
      - destruct (Req_EM_T (b - a) 0) as [Z|]; [|discriminate]. exists a. split; [reflexivity|]. replace b with a by lra. reflexivity.
      - injection Hx as ->. injection Hy as ->. destruct (Req_EM_T (x - x) 0); [reflexivity|lra]. }
    assert (Nu : u <> 0) by (rewrite Forall_forall in Nl; eapply Nl, nth_error_In, Ku). assert (Nw : w <> 0) by (rewrite Forall_forall in Nl; eapply Nl, nth_error_In, Kw).
    destruct (feqb (fsub b a) (Some 0)) eqn:Ef.
    + pose proof (proj1 SA eq_refl) as Sk. assert (Ku' : nth_error (map Some l) k = Some (Some u)) by (rewrite nth_error_map, Ku; reflexivity). assert (Kw' : nth_error (map Some l) (k + 1) = Some (Some w)) by (rewrite nth_error_map, Kw; reflexivity).
      pose proof (Gn _ _ _ _ Ku') as G1. pose proof (Gn _ _ _ _ Kw') as G2.
      match goal with |- context [@py_get ?T ?t (Z.of_nat k)] => replace (@py_get T t (Z.of_nat k)) with (@Ok T (Some u)) by (symmetry; exact G1) end. cbn [bind].
      match goal with |- context [@py_get ?T ?t (Z.of_nat (k + 1))] => replace (@py_get T t (Z.of_nat (k + 1))) with (@Ok T (Some w)) by (symmetry; exact G2) end. cbn [bind].
      rewrite fdiv_Some by exact Nw. rewrite scale_tail_finite. exists (sc_tail (k + 1) (u / w) l). split; [reflexivity|]. split; [rewrite sc_tail_length; exact Ll|].
      assert (Nf : u / w <> 0). { unfold Rdiv. intros Z. apply Rmult_integral in Z. destruct Z as [Z|Z]; [contradiction|]. exact (Rinv_neq_0_compat _ Nw Z). }
      split; [|split].
      * unfold sc_tail. apply Forall_app. rewrite Forall_forall in Nl. split; [apply Forall_forall; intros x Hx; apply Nl; eapply In_firstn; exact Hx|]. apply Forall_map, Forall_forall. intros x Hx Z. apply Rmult_integral in Z. destruct Z as [Z|Z]; [|contradiction].
        revert Z. apply Nl. eapply In_skipn; exact Hx.
      * rewrite sc_tail_nth. destruct (0 <? k + 1)%nat eqn:Z; [exact Hh|lia].
      * intros j x y x0 y0 H1 H2 H3 H4. rewrite sc_tail_nth in H1, H2. specialize (P j).
        destruct (Nat.lt_trichotomy j k) as [J|[->|J]].
        -- replace (j <? k + 1)%nat with true in H1 by lia. replace (j + 1 <? k + 1)%nat with true in H2 by lia. specialize (P x y x0 y0 H1 H2 H3 H4). replace (j <? S k)%nat with true by lia. replace (j <? k)%nat with true in P by lia. exact P.
        -- replace (k <? k + 1)%nat with true in H1 by lia. replace (k + 1 <? k + 1)%nat with false in H2 by lia. rewrite Ku in H1. rewrite Kw in H2. injection H1 as <-. injection H2 as <-.
           replace (k <? S k)%nat with true by lia. split; [intros _; field; exact Nw|contradiction].
        -- replace (j <? k + 1)%nat with false in H1 by lia. replace (j + 1 <? k + 1)%nat with false in H2 by lia. destruct (nth_error l j) as [xj|] eqn:Xj; [|discriminate]. destruct (nth_error l (j + 1)) as [yj|] eqn:Yj; [|discriminate].
           cbn [option_map] in H1, H2. injection H1 as <-. injection H2 as <-. specialize (P xj yj x0 y0 eq_refl eq_refl H3 H4). replace (j <? k)%nat with false in P by lia. replace (j <? S k)%nat with false by lia. rewrite <- P.
           assert (xj <> 0) by (rewrite Forall_forall in Nl; eapply Nl, nth_error_In, Xj). field. repeat split; assumption.
    + assert (Sk : ~ same_angle A k) by (intros H; apply SA in H; discriminate). exists l. split; [reflexivity|]. split; [exact Ll|]. split; [exact Nl|]. split; [exact Hh|].
      intros j x y x0 y0 H1 H2 H3 H4. specialize (P j x y x0 y0 H1 H2 H3 H4). destruct (Nat.lt_trichotomy j k) as [J|[->|J]].
      * replace (j <? S k)%nat with true by lia. replace (j <? k)%nat with true in P by lia. exact P.
      * replace (k <? S k)%nat with true by lia. replace (k <? k)%nat with false in P by lia. split; [contradiction|intros _; exact P].
      * replace (j <? S k)%nat with false by lia. replace (j <? k)%nat with false in P by lia. exact P. Qed.

Lemma kinks_removed (A : list fl) I : List.length I = List.length A -> Forall (fun x => x <> 0) I ->
  exists l, correct_discontinuities (map Some I) A = Ok (map Some l) /\ List.length l = List.length I /\ Forall (fun x => x <> 0) l /\ nth_error l 0 = nth_error I 0 /\
    (forall j x y x0 y0, nth_error l j = Some x -> nth_error l (j + 1) = Some y -> nth_error I j = Some x0 -> nth_error I (j + 1) = Some y0 ->
       (same_angle A j -> y = x) /\ (~ same_angle A j -> y / x = y0 / x0)).
Proof. intros L N. destruct (kink_invariant A I L N _ (le_n (List.length A - 1))) as (l & E & Ll & Nl & H & P). exists l. split; [exact E|]. repeat split; try assumption; specialize (P j x y x0 y0 H0 H1 H2 H3).
  all: assert (J : (j < List.length A - 1)%nat) by (assert ((j + 1 < List.length I)%nat) by (apply nth_error_Some; congruence); lia); apply Nat.ltb_lt in J; rewrite J in P; apply P. Qed.
