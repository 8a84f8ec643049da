(** Energy conservation for smooth interfaces, thin layers, symmetry in q. *)
From Coq Require Import Reals Lra Psatz.
From Coquelicot Require Import Complex Hierarchy Derive AutoDerive Continuity.
From Verif Require Import Py Cplx Reflectivity_Model Reflectivity_Spec Reflectivity_Proofs.
Local Open Scope R_scope.

(** Energy flux of the field [v] in a medium with wave vector [k] *)
Definition flux (k : C) (v : vec) : R := Re (Cconj (fst v + snd v) * (k * (snd v - fst v)))%C.

Lemma Cexp_zero_arg (a b : C) : Cexp (a * b * (RtoC 0 * RtoC 0))%C = 1.
Proof. replace (a * b * (RtoC 0 * RtoC 0))%C with (RtoC 0) by ring. apply Cexp_0. Qed.

Lemma smooth_interface (k k' : C) v : k <> 0 ->
  let w := mvec (reflection_matrix k k' 0) v in
  (fst w + snd w = fst v + snd v)%C /\ (k * (snd w - fst w) = k' * (snd v - fst v))%C.
Proof. intros H. assert (K : (2 * k)%C <> 0) by (apply Cmult_neq_0; [apply two_neq_0|assumption]).
  unfold reflection_matrix. rewrite !Cexp_zero_arg, !safe_div_eq by assumption. unfold mvec; cbn [fst snd m00 m01 m10 m11].
  pose proof two_neq_0 as T. rewrite two_eq in *. split; field; auto. Qed.

Lemma flux_interface (k k' : C) v : k <> 0 -> flux k (mvec (reflection_matrix k k' 0) v) = flux k' v.
Proof. intros H. destruct (smooth_interface k k' v H) as [A B]. unfold flux. cbv zeta in A, B. rewrite A, B. reflexivity. Qed.

(** The flux as a function of the distance *)
Definition fl (x y n0 n1 P Q d : R) : R :=
  x * (n1 * exp (2 * y * d) - n0 * exp (- (2 * y * d))) + 2 * y * (P * sin (2 * x * d) + Q * cos (2 * x * d)).

Lemma fl_derive x y n0 n1 P Q d : is_derive (fl x y n0 n1 P Q) d
  (2 * x * y * (n1 * exp (2 * y * d) + n0 * exp (- (2 * y * d)) + 2 * (P * cos (2 * x * d) - Q * sin (2 * x * d)))).
Proof. unfold fl. auto_derive; [exact I|]. ring. Qed.

Lemma fl_mono x y n0 n1 P Q d : 0 <= x -> 0 <= y -> 0 <= n0 -> 0 <= n1 -> P * P + Q * Q = n0 * n1 -> 0 <= d ->
  fl x y n0 n1 P Q 0 <= fl x y n0 n1 P Q d.
Proof. intros Hx Hy H0 H1 E Hd. destruct (MVT_gen (fl x y n0 n1 P Q) 0 d
    (fun d => 2 * x * y * (n1 * exp (2 * y * d) + n0 * exp (- (2 * y * d)) + 2 * (P * cos (2 * x * d) - Q * sin (2 * x * d))))) as (c & _ & Hc).
  - intros t _. apply fl_derive.
  - intros t _. apply continuity_pt_filterlim, (ex_derive_continuous (fl x y n0 n1 P Q)). eexists. apply fl_derive.
  - cut (0 <= fl x y n0 n1 P Q d - fl x y n0 n1 P Q 0); [lra|]. rewrite Hc. rewrite Rminus_0_r.
    apply Rmult_le_pos; [|assumption]. apply Rmult_le_pos; [nra|].
    set (A := exp (2 * y * c)). set (B := exp (- (2 * y * c))). assert (PA : 0 < A) by apply exp_pos. assert (PB : 0 < B) by apply exp_pos.
    assert (AB : A * B = 1) by (unfold A, B; rewrite <- exp_plus, Rplus_opp_r; apply exp_0).
    set (t := P * cos (2 * x * c) - Q * sin (2 * x * c)).
    assert (T : t * t <= n0 * n1).
    { rewrite <- E. unfold t. pose proof (sin2_cos2 (2 * x * c)) as S. unfold Rsqr in S. set (s := sin (2 * x * c)) in *. set (co := cos (2 * x * c)) in *.
      pose proof (Rle_0_sqr (P * s + Q * co)) as SQ. unfold Rsqr in SQ. nra. }
    set (a := n1 * A). set (b := n0 * B). assert (Ha : 0 <= a) by (unfold a; nra). assert (Hb : 0 <= b) by (unfold b; nra).
    assert (ab : a * b = n0 * n1). { unfold a, b. replace (n1 * A * (n0 * B)) with (n0 * n1 * (A * B)) by ring. rewrite AB. ring. }
    assert (T2 : t * t <= a * b) by lra. clearbody a b t. clear - Ha Hb T2. apply Rnot_lt_le. intros L. assert ((a + b) * (a + b) < 4 * (t * t)) by nra. pose proof (Rle_0_sqr (a - b)). unfold Rsqr in *. nra. Qed.

Lemma flux_eq (x y a b c e : R) : flux (x, - y) ((a, b), (c, e)) = x * ((c * c + e * e) - (a * a + b * b)) + 2 * y * (a * e - b * c).
Proof. unfold flux, Re, Cconj, Cmult, Cplus, Cminus, Copp; simpl. ring. Qed.

Lemma flux_translation k d v : 0 <= Re k -> Im k <= 0 -> 0 <= d -> flux k v <= flux k (mvec (translation_matrix k d) v).
Proof. destruct k as [x y0], v as [[a b] [c e]]. unfold Re, Im; simpl. intros Hx Hy Hd. set (y := - y0). replace y0 with (- y) by (unfold y; ring).
  assert (Hy' : 0 <= y) by (unfold y; lra). clearbody y.
  assert (E : forall s, flux (x, - y) (mvec (translation_matrix (x, - y) s) ((a, b), (c, e))) =
    fl x y (a * a + b * b) (c * c + e * e) (a * c + b * e) (a * e - b * c) s).
  { intros s. unfold mvec, translation_matrix; cbn [fst snd m00 m01 m10 m11].
    assert (U : Cexp (- Ci * (x, (- y)%R) * RtoC s)%C = (exp (- (y * s)) * cos (x * s), - (exp (- (y * s)) * sin (x * s)))).
    { unfold Cexp, Ci, Cmult, Copp, RtoC, Re, Im; simpl. f_equal; [f_equal; [f_equal; ring|rewrite <- cos_neg; f_equal; ring]|].
      rewrite Ropp_mult_distr_r, <- sin_neg. f_equal; f_equal; ring. }
    assert (V : Cexp (Ci * (x, (- y)%R) * RtoC s)%C = (exp (y * s) * cos (x * s), exp (y * s) * sin (x * s))).
    { unfold Cexp, Ci, Cmult, RtoC, Re, Im; simpl. f_equal; f_equal; f_equal; ring. }
    rewrite U, V. set (A := exp (y * s)). set (B := exp (- (y * s))). set (co := cos (x * s)). set (si := sin (x * s)).
    assert (AB : A * B = 1) by (unfold A, B; rewrite <- exp_plus, Rplus_opp_r; apply exp_0).
    assert (SC : si * si + co * co = 1) by (exact (sin2_cos2 (x * s))).
    unfold fl. replace (exp (2 * y * s)) with (A * A) by (unfold A; rewrite <- exp_plus; f_equal; ring).
    replace (exp (- (2 * y * s))) with (B * B) by (unfold B; rewrite <- exp_plus; f_equal; ring).
    replace (2 * x * s) with (2 * (x * s)) by ring. rewrite sin_2a, cos_2a. fold co si.
    unfold Cmult, Cplus, RtoC; cbn [fst snd].
    match goal with |- flux _ ((?p, ?q), (?r, ?t)) = _ => replace p with (B * (a * co + b * si)) by ring; replace q with (B * (b * co - a * si)) by ring;
      replace r with (A * (c * co - e * si)) by ring; replace t with (A * (c * si + e * co)) by ring end.
    rewrite flux_eq.
    replace (A * (c * co - e * si) * (A * (c * co - e * si)) + A * (c * si + e * co) * (A * (c * si + e * co)))
      with (A * A * ((c * c + e * e) * (si * si + co * co))) by ring.
    replace (B * (a * co + b * si) * (B * (a * co + b * si)) + B * (b * co - a * si) * (B * (b * co - a * si)))
      with (B * B * ((a * a + b * b) * (si * si + co * co))) by ring.
    replace (B * (a * co + b * si) * (A * (c * si + e * co)) - B * (b * co - a * si) * (A * (c * co - e * si)))
      with ((A * B) * ((a * c + b * e) * (2 * si * co) + (a * e - b * c) * (co * co - si * si))) by ring.
    rewrite AB, SC. ring. }
  rewrite E. eapply Rle_trans; [|apply fl_mono; try assumption; nra].
  rewrite flux_eq. unfold fl. rewrite !Rmult_0_r, Ropp_0, exp_0, sin_0, cos_0. apply Req_le. ring. Qed.

Lemma flux_e2 k : flux k e2 = Re k.
Proof. destruct k as [x y]. unfold e2, RtoC. replace y with (- - y) by ring. rewrite flux_eq. unfold Re; simpl. ring. Qed.

Lemma field_flux q sld : 0 <= Im sld -> forall fs (k : C), k <> 0 ->
  Forall (fun f => 0 <= Im (f_sld f) /\ f_roughness f = 0 /\ 0 <= f_thickness f) fs -> 0 < flux k (field_above q k fs 0 sld).
Proof. intros Hs. induction fs as [|f fs IH]; intros k Hk F; cbn [field_above].
  - rewrite flux_interface by assumption. rewrite flux_e2. exact (proj1 (wave_quadrant q sld Hs)).
  - inversion F as [|? ? (Hf & Hz & Hd) F']; subst. rewrite Hz, flux_interface by assumption. destruct (wave_quadrant q (f_sld f) Hf) as [W1 W2].
    eapply Rlt_le_trans; [apply (IH (wave q (f_sld f))); [apply C_neq_Re; assumption|assumption]|]. apply flux_translation; lra. Qed.

Lemma flux_snd (k : C) (v : vec) : 0 <= Re k -> 0 < flux k v -> snd v <> 0.
Proof. intros Hk H E. destruct k as [x y], v as [[a b] w]. simpl in *. subst w. unfold RtoC in H. replace y with (- - y) in H by ring.
  rewrite flux_eq in H. unfold Re in Hk; simpl in Hk. nra. Qed.

Lemma flux_bound (k : C) (v : vec) (r : C) : 0 < Re k -> Im k <= 0 -> 0 < flux k v -> (fst v = r * snd v)%C ->
  Cmod r <= 1 + 2 * (- Im k / Re k).
Proof. intros Hk Hi H E. destruct k as [x y0], v as [w1 [c e]], r as [u w]. unfold Re, Im in *; simpl in *. subst w1.
  set (y := - y0) in *. replace y0 with (- y) in H by (unfold y; ring). unfold Cmult in H; simpl in H. rewrite flux_eq in H.
  assert (K : 0 < (c * c + e * e) * (x * (1 - (u * u + w * w)) - 2 * y * w)).
  { eapply Rlt_le_trans; [exact H|]. apply Req_le. ring. }
  assert (K2 : 0 < x * (1 - (u * u + w * w)) - 2 * y * w) by nra.
  set (m := Cmod (u, w)). assert (M : m * m = u * u + w * w) by apply Cmod_sqr. assert (M0 : 0 <= m) by apply Cmod_ge_0.
  assert (Mw : - m <= w) by nra.
  assert (Hy : 0 <= y) by (unfold y; lra). set (t := y / x). assert (Ht : 0 <= t) by (unfold t; apply Rmult_le_pos; [assumption|left; apply Rinv_0_lt_compat; assumption]).
  assert (Ht' : y = t * x) by (unfold t; field; lra).
  assert (K3 : 0 < 1 - m * m + 2 * t * m). { assert (0 < x * (1 - m * m + 2 * t * m)) by nra. nra. }
  apply Rnot_lt_le. intros L. nra. Qed.

Lemma vacuum_ratio q : q <> 0 -> - Im (wave q 0) / Re (wave q 0) <= 8 * PI * tiny / (q * q).
Proof. intros Hq. destruct (wave_quadrant q 0) as [W1 W2]; [unfold Im; simpl; lra|].
  pose proof (Csqrt_sqr (RtoC (q / 2) * RtoC (q / 2) - RtoC (4 * PI) * (RtoC 0 + (0, tiny)))%C) as S.
  fold (wave q 0) in S. destruct (wave q 0) as [x y]. unfold Re, Im in *; simpl in *. unfold Cmult, Cminus, Cplus, Copp, RtoC in S; simpl in S.
  injection S as S1 S2. assert (S1' : x * x - y * y = q * q / 4) by (rewrite S1; field). assert (X : q * q / 4 <= x * x) by nra.
  assert (Y : - y * x = 2 * PI * tiny). { assert (S2' : x * y + y * x = - (4 * PI * tiny)) by (rewrite S2; field). lra. }
  pose proof PI_RGT_0. pose proof tiny_pos. assert (Q : 0 < q * q) by nra.
  apply (Rmult_le_reg_r (x * (q * q))); [nra|]. replace (- y / x * (x * (q * q))) with (- y * (q * q)) by (field; lra).
  replace (8 * PI * tiny / (q * q) * (x * (q * q))) with (8 * PI * tiny * x) by (field; lra).
  assert (Cp : 0 < PI * tiny) by nra. apply (Rmult_le_reg_r x); [assumption|].
  replace (- y * (q * q) * x) with ((- y * x) * (q * q)) by ring. rewrite Y.
  replace (8 * PI * tiny * x * x) with (2 * (PI * tiny) * (4 * (x * x))) by ring. replace (2 * PI * tiny) with (2 * (PI * tiny)) by ring.
  apply Rmult_le_compat_l; lra. Qed.

Lemma engine_energy qs s : passive s -> smooth s -> Forall (fun q => q <> 0) qs ->
  exists rs, multilayer_reflectivity qs (thickness_array s) (roughness_array s) (sld_array s) 0 = Ok (map (fun r => Some (clipped r)) rs) /\
    Forall2 (fun q r => Cmod r <= 1 + 16 * PI * tiny / (q * q)) qs rs.
Proof. intros [P1 P2] [S1 S2] F. rewrite engine_stack. 
  exists (map (fun q => (fst (field q s) / snd (field q s))%C) qs).
  assert (K : forall q, q <> 0 -> quot (field q s) = Some (clipped (fst (field q s) / snd (field q s))%C) /\
     Cmod (fst (field q s) / snd (field q s))%C <= 1 + 16 * PI * tiny / (q * q)).
  { intros q Hq. destruct (wave_quadrant q 0) as [W1 W2]; [unfold Im; simpl; lra|].
    assert (Fl : 0 < flux (wave q 0) (field q s)).
    { unfold field. rewrite S2. apply field_flux; [assumption|apply C_neq_Re; assumption|].
      clear - P1 S1. induction P1; constructor; inversion S1; subst; auto. }
    assert (N : snd (field q s) <> 0) by (apply (flux_snd (wave q 0)); [lra|assumption]).
    assert (E : (fst (field q s) = fst (field q s) / snd (field q s) * snd (field q s))%C) by (field; assumption).
    split; [apply quot_ratio; assumption|]. eapply Rle_trans; [eapply flux_bound; [exact W1|lra|exact Fl|exact E]|].
    pose proof (vacuum_ratio q Hq). lra. }
  split.
  - f_equal. rewrite map_map. apply map_ext_Forall. eapply Forall_impl; [|exact F]. intros q Hq. apply K; assumption.
  - induction F as [|q qs Hq F IH]; simpl; constructor; [apply K; assumption|assumption]. Qed.

(** ** A layer without thickness and roughness *)
Lemma thin_layer (k k1 k2 : C) v : k <> 0 -> k1 <> 0 ->
  mvec (reflection_matrix k k1 0) (mvec (translation_matrix k1 0) (mvec (reflection_matrix k1 k2 0) v)) = mvec (reflection_matrix k k2 0) v.
Proof. intros H H1. unfold reflection_matrix, translation_matrix. rewrite !Cexp_zero_arg, !safe_div_eq by (apply Cmult_neq_0; [apply two_neq_0|assumption]).
  unfold mvec; cbn [fst snd m00 m01 m10 m11]. replace (- Ci * k1 * RtoC 0)%C with (RtoC 0) by ring. replace (Ci * k1 * RtoC 0)%C with (RtoC 0) by ring.
  rewrite !Cexp_0. pose proof two_neq_0 as T. rewrite two_eq in *. f_equal; field; auto. Qed.

Lemma field_thin q above rho below sigma sld : wave q rho <> 0 ->
  (match below with [] => sigma | f :: _ => f_roughness f end) = 0 -> forall k : C, k <> 0 -> Forall (fun f => wave q (f_sld f) <> 0) above ->
  field_above q k (above ++ mkFilm 0 0 rho :: below) sigma sld = field_above q k (above ++ below) sigma sld.
Proof. intros H B. induction above as [|f above IH]; intros k Hk F; cbn [app field_above f_sld f_roughness f_thickness].
  - destruct below as [|g below]; cbn [field_above].
    + subst sigma. apply thin_layer; assumption.
    + rewrite B. apply thin_layer; assumption.
  - inversion F; subst. rewrite IH by assumption. reflexivity. Qed.

Lemma engine_thin qs above rho below sigma sld : Forall (fun f => 0 <= Im (f_sld f)) above -> 0 <= Im rho ->
  (match below with [] => sigma | f :: _ => f_roughness f end) = 0 ->
  let two := mkStack (above ++ mkFilm 0 0 rho :: below) sigma sld in
  let one := mkStack (above ++ below) sigma sld in
  multilayer_reflectivity qs (thickness_array two) (roughness_array two) (sld_array two) 0 =
  multilayer_reflectivity qs (thickness_array one) (roughness_array one) (sld_array one) 0.
Proof. intros P Hr B two one. rewrite !engine_stack. f_equal. apply map_ext. intros q. unfold field; simpl.
  rewrite field_thin; [reflexivity|apply wave_neq_0; assumption|assumption|apply wave_neq_0; unfold Im; simpl; lra|].
  eapply Forall_impl; [|exact P]. intros f. apply wave_neq_0. Qed.

(** ** Only the modulus of q matters *)
Lemma wave_even q s : wave (- q) s = wave q s.
Proof. unfold wave. f_equal. f_equal. rewrite <- !RtoC_mult. f_equal. field. Qed.

Lemma engine_even qs th ro sl amb : multilayer_reflectivity (map Ropp qs) th ro sl amb = multilayer_reflectivity qs th ro sl amb.
Proof. unfold multilayer_reflectivity. destruct (Ceq_dec amb 0); [|reflexivity]. destruct (_ && _); [|reflexivity]. f_equal. rewrite map_map. apply map_ext. intros q.
  unfold one_q. destruct (rev ro) as [|r rs]; [reflexivity|]. destruct (map _ (rev sl)) as [|s ss]; [reflexivity|].
  assert (E : forall s, relative_kz (RtoC (- q) / 2)%C s = relative_kz (RtoC q / 2)%C s).
  { intros x. unfold relative_kz. f_equal. f_equal. rewrite RtoC_opp. field. apply two_neq_0. }
  rewrite !E. assert (I : forall ts rs ss M k, interfaces (RtoC (- q) / 2)%C M k ts rs ss = interfaces (RtoC q / 2)%C M k ts rs ss).
  { induction ts as [|t ts IH]; intros [|? ?] [|? ?] M k; simpl; try reflexivity. rewrite E. apply IH. }
  rewrite I. reflexivity. Qed.

(** ** Smooth passive stacks are never degenerate *)
Lemma nevot_smooth (k k1 : C) : 0 < Re k -> 0 < Re k1 -> (nevot_croce k k1 0 * nevot_croce k k1 0)%C <> 1.
Proof. intros H H1 E. pose proof (sum_neq_0 k k1 H H1) as S. unfold nevot_croce in E.
  replace (- (2) * k * k1 * RtoC (0 * 0))%C with (RtoC 0) in E by (rewrite Rmult_0_r; ring). rewrite Cexp_0 in E.
  assert (Z : (2 * 2 * (k * k1))%C = 0).
  { replace (2 * 2 * (k * k1))%C with ((k + k1) * (k + k1) * (1 - (k - k1) / (k + k1) * 1 * ((k - k1) / (k + k1) * 1)))%C by (rewrite two_eq; field; assumption).
    rewrite E. ring. }
  revert Z. apply Cmult_neq_0; apply Cmult_neq_0; auto using two_neq_0, C_neq_Re. Qed.

Lemma smooth_regular q s : passive s -> smooth s -> regular q s.
Proof. intros [P1 P2] [S1 S2]. unfold regular. destruct (wave_quadrant q 0) as [W _]; [unfold Im; simpl; lra|]. revert W. generalize (wave q 0) as k.
  induction (s_films s) as [|f fs IH]; intros k Hk; [exact I|]. inversion P1; subst. inversion S1 as [|? ? [Z _] S1']; subst. cbn [regular_below]. rewrite Z.
  destruct (wave_quadrant q (f_sld f)) as [W _]; [assumption|]. split; [apply nevot_smooth; assumption|]. apply IH; assumption. Qed.

Lemma parratt_smooth q sld : 0 <= Im sld -> forall fs k, 0 < Re k ->
  Forall (fun f => 0 <= Im (f_sld f) /\ f_roughness f = 0 /\ 0 <= f_thickness f) fs -> exists x, parratt q k fs 0 sld = Some x.
Proof. intros Hs. induction fs as [|f fs IH]; intros k Hk F; cbn [parratt]; [eauto|].
  pose proof (field_flux q sld Hs (f :: fs) k (C_neq_Re _ Hk) F) as Fl. inversion F as [|? ? (Hf & Hz & Hd) F']; subst.
  pose proof (proj1 (wave_quadrant q (f_sld f) Hf)) as Hk1. destruct (IH (wave q (f_sld f)) Hk1 F') as (y & E). rewrite E.
  match goal with |- context [Ceq_dec ?a ?b] => destruct (Ceq_dec a b) as [D|D]; [|eauto] end. exfalso.
  assert (P : Forall (fun f => 0 <= Im (f_sld f)) fs) by (eapply Forall_impl; [|exact F']; simpl; tauto).
  destruct (field_parratt q 0 sld Hs fs (wave q (f_sld f)) P Hk1 y E) as [N Q].
  apply flux_snd in Fl; [|lra]. apply Fl. cbn [field_above]. set (k1 := wave q (f_sld f)) in *. set (v := field_above q k1 fs 0 sld) in *.
  rewrite reflection_matrix_eq by assumption. set (r := nevot_croce k k1 (f_roughness f)) in *. set (p := p_elem k k1 (f_roughness f)).
  unfold mvec, translation_matrix; cbn [fst snd m00 m01 m10 m11]. rewrite Q.
  replace (- Ci * k1 * RtoC (f_thickness f))%C with (- (2) * Ci * k1 * RtoC (f_thickness f) + Ci * k1 * RtoC (f_thickness f))%C by (rewrite two_eq; ring).
  rewrite Cexp_plus. set (e1 := Cexp (- (2) * Ci * k1 * RtoC (f_thickness f))%C) in *. set (e3 := Cexp (Ci * k1 * RtoC (f_thickness f))%C).
  replace (r * p * (e1 * e3 * (y * snd v) + 0 * snd v) + p * (0 * (y * snd v) + e3 * snd v))%C with (p * e3 * snd v * (1 + r * (y * e1)))%C by ring.
  rewrite D. ring. Qed.

Lemma amplitude_smooth q s : passive s -> smooth s -> exists r, parratt_amplitude q s = Some r.
Proof. intros [P1 P2] [S1 S2]. unfold parratt_amplitude. rewrite S2. apply parratt_smooth; [assumption|apply wave_quadrant; unfold Im; simpl; lra|].
  clear - P1 S1. induction P1; constructor; inversion S1; subst; auto. Qed.
