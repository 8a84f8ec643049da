(** Decay of the reflectivity with q, total reflection, effect of the roughness of a bare substrate. *)
From Coq Require Import Reals Lra Psatz.
From Coquelicot Require Import Complex.
From Verif Require Import Py Cplx Reflectivity_Model Reflectivity_Spec Reflectivity_Proofs ReflectivityFlux_Proofs ReflectivityDecay_Spec.
Local Open Scope R_scope.

(** Real and imaginary part of a wave vector *)
Lemma wave_parts q s : 0 <= Im s -> exists a b, wave q s = (a, - b) /\ 0 < a /\ 0 < b /\
  a * a - b * b = q * q / 4 - 4 * PI * Re s /\ a * b = 2 * PI * (Im s + tiny).
Proof. intros H. destruct (wave_quadrant q s H) as [W1 W2].
  pose proof (Csqrt_sqr (RtoC (q / 2) * RtoC (q / 2) - RtoC (4 * PI) * (s + (0, tiny)))%C) as S. fold (wave q s) in S.
  destruct (wave q s) as [x y]. destruct s as [u v]. unfold Re, Im in *; simpl in *. unfold Cmult, Cminus, Cplus, Copp, RtoC in S; simpl in S.
  injection S as S1 S2. exists x, (- y). rewrite Ropp_involutive. repeat split; [assumption|lra| |].
  - replace (x * x - - y * - y) with (x * x - y * y) by ring. rewrite S1. field.
  - assert (S2' : x * y + y * x = - (4 * PI * (v + tiny))) by (rewrite S2; field). lra. Qed.

(** Half spaces of the fourth quadrant: a sum is at least as long as the hypotenuse. *)
Lemma Cmod2 z : Cmod z ^ 2 = Re z * Re z + Im z * Im z.
Proof. rewrite <- Cmod_sqr. ring. Qed.

Lemma fresnel_eq q (s s' : C) : 0 <= Im s -> 0 <= Im s' ->
  ((wave q s - wave q s') / (wave q s + wave q s') = RtoC (4 * PI) * (s' - s) / ((wave q s + wave q s') * (wave q s + wave q s')))%C.
Proof. intros H H'. destruct (wave_quadrant q s H) as [W _]. destruct (wave_quadrant q s' H') as [W' _].
  pose proof (sum_neq_0 _ _ W W') as N.
  pose proof (Csqrt_sqr (RtoC (q / 2) * RtoC (q / 2) - RtoC (4 * PI) * (s + (0, tiny)))%C) as S. fold (wave q s) in S.
  pose proof (Csqrt_sqr (RtoC (q / 2) * RtoC (q / 2) - RtoC (4 * PI) * (s' + (0, tiny)))%C) as S'. fold (wave q s') in S'.
  assert (E : (RtoC (4 * PI) * (s' - s) = wave q s * wave q s - wave q s' * wave q s')%C) by (rewrite S, S'; ring).
  rewrite E. field. assumption. Qed.

Lemma Cmod_fresnel q (s s' : C) : 0 <= Im s -> 0 <= Im s' ->
  Cmod ((wave q s - wave q s') / (wave q s + wave q s'))%C = 4 * PI * Cmod (s - s')%C / Cmod (wave q s + wave q s')%C ^ 2.
Proof. intros H H'. rewrite fresnel_eq by assumption. destruct (wave_quadrant q s H) as [W _]. destruct (wave_quadrant q s' H') as [W' _].
  pose proof (sum_neq_0 _ _ W W') as N. rewrite Cmod_div by (apply Cmult_neq_0; assumption). rewrite !Cmod_mult, Cmod_R.
  rewrite Rabs_right by (pose proof PI_RGT_0; lra). replace (s' - s)%C with (- (s - s'))%C by ring. rewrite Cmod_opp. f_equal. f_equal. ring. Qed.

Lemma sum_long q (s s' : C) : 0 <= Im s -> 0 <= Im s' ->
  q * q / 2 - 4 * PI * (Re s + Re s') <= Cmod (wave q s + wave q s')%C ^ 2.
Proof. intros H H'. destruct (wave_parts q s H) as (a & b & -> & A & B & E1 & _). destruct (wave_parts q s' H') as (c & d & -> & C0 & D & E2 & _).
  rewrite Cmod2. unfold Re at 3 4, Im; simpl. nra. Qed.

(** The roughness factor does not amplify above all critical edges. *)
Lemma damped q (s s' : C) : 0 <= Im s -> 0 <= Im s' -> 16 * PI * Re s <= q * q -> 16 * PI * Re s' <= q * q ->
  0 <= Re (wave q s * wave q s')%C.
Proof. intros H H' L L'. destruct (wave_parts q s H) as (a & b & -> & A & B & E1 & _). destruct (wave_parts q s' H') as (c & d & -> & C0 & D & E2 & _).
  unfold Re; simpl. assert (b <= a) by nra. assert (d <= c) by nra. nra. Qed.

Lemma Cmod_nevot (k k' : C) sigma : (k + k')%C <> 0 ->
  Cmod (nevot_croce k k' sigma) = Cmod ((k - k') / (k + k'))%C * exp (- (2 * (sigma * sigma) * Re (k * k')%C)).
Proof. intros N. unfold nevot_croce. rewrite Cmod_mult, Cmod_Cexp. f_equal. f_equal.
  destruct k as [a b], k' as [c d]. unfold Re, RtoC; simpl. ring. Qed.

Lemma exp_neg x : x <= 0 -> exp x <= 1.
Proof. intros H. rewrite <- exp_0. destruct (Rle_lt_or_eq_dec _ _ H) as [L| ->]; [left; apply exp_increasing; assumption|lra]. Qed.

Lemma Re_Cmod z : Re z <= Cmod z.
Proof. apply Cmod_Re. Qed.

Lemma nevot_bound q (s s' : C) sigma V : 0 < q -> 0 <= Im s -> 0 <= Im s' -> Cmod s <= V -> Cmod s' <= V -> 32 * PI * V <= q * q ->
  Cmod (nevot_croce (wave q s) (wave q s') sigma) <= 16 * PI * Cmod (s - s')%C / (q * q).
Proof. intros Hq H H' B B' L. destruct (wave_quadrant q s H) as [W _]. destruct (wave_quadrant q s' H') as [W' _].
  pose proof PI_RGT_0 as P. assert (Q : 0 < q * q) by nra. pose proof (Re_Cmod s). pose proof (Re_Cmod s').
  assert (PV : PI * Cmod s <= PI * V) by nra. assert (PV' : PI * Cmod s' <= PI * V) by nra.
  assert (R1 : PI * Re s <= PI * V) by nra. assert (R2 : PI * Re s' <= PI * V) by nra.
  rewrite Cmod_nevot by (apply sum_neq_0; assumption). rewrite Cmod_fresnel by assumption.
  assert (V0 : 0 <= V) by (pose proof (Cmod_ge_0 s); lra).
  pose proof (damped q s s' H H' ltac:(nra) ltac:(nra)) as D.
  assert (X : exp (- (2 * (sigma * sigma) * Re (wave q s * wave q s')%C)) <= 1).
  { apply exp_neg. pose proof (Rle_0_sqr sigma) as S. unfold Rsqr in S. nra. }
  pose proof (sum_long q s s' H H') as SL. set (m := Cmod (wave q s + wave q s')%C ^ 2) in *.
  assert (M : q * q / 4 <= m) by nra. pose proof (Cmod_ge_0 (s - s')%C) as G. set (g := Cmod (s - s')%C) in *.
  assert (F : 4 * PI * g / m <= 16 * PI * g / (q * q)).
  { apply (Rmult_le_reg_r (m * (q * q))); [nra|]. replace (4 * PI * g / m * (m * (q * q))) with (4 * PI * g * (q * q)) by (field; lra).
    replace (16 * PI * g / (q * q) * (m * (q * q))) with (4 * PI * g * (4 * m)) by (field; lra). apply Rmult_le_compat_l; nra. }
  assert (F0 : 0 <= 4 * PI * g / m). { apply Rmult_le_pos; [nra|]. left. apply Rinv_0_lt_compat. lra. }
  set (e := exp _) in *. nra. Qed.

(** One step of Parratt's recursion *)
Lemma step_bound (r x : C) a b : Cmod r <= a -> Cmod x <= 2 * b -> 0 <= a -> 0 <= b -> a + b <= 1 / 2 ->
  (1 + r * x)%C <> 0 /\ Cmod ((r + x) / (1 + r * x))%C <= 2 * (a + b).
Proof. intros A B A0 B0 L. pose proof (Cmod_ge_0 r) as r0. pose proof (Cmod_ge_0 x) as x0.
  assert (M : Cmod (r * x)%C <= 2 * (a * b)) by (rewrite Cmod_mult; nra).
  assert (AB : 2 * (a * b) <= 1 / 8) by (pose proof (pow2_ge_0 (a - b)); nra).
  assert (D : 1 - 2 * (a * b) <= Cmod (1 + r * x)%C).
  { pose proof (Cmod_triangle (1 + r * x)%C (- (r * x))%C) as T. replace (1 + r * x + - (r * x))%C with (RtoC 1) in T by ring.
    rewrite Cmod_opp, Cmod_R, Rabs_R1 in T. lra. }
  assert (N : (1 + r * x)%C <> 0). { intros E. rewrite E, Cmod_0 in D. lra. }
  split; [assumption|]. rewrite Cmod_div by assumption. pose proof (Cmod_triangle r x) as T.
  apply (Rmult_le_reg_r (Cmod (1 + r * x)%C)); [lra|]. unfold Rdiv. rewrite Rmult_assoc, Rinv_l, Rmult_1_r by lra.
  assert (J : b * (a + b) <= 1 / 4) by nra. assert (J' : 0 <= a * (1 / 4 - b * (a + b))) by (apply Rmult_le_pos; lra).
  apply Rle_trans with (a + 2 * b); [lra|]. apply Rle_trans with (2 * (a + b) * (1 - 2 * (a * b))); [nra|].
  apply Rmult_le_compat_l; lra. Qed.

Lemma variation_nonneg sld : forall fs s, 0 <= variation_below s fs sld.
Proof. induction fs as [|f fs IH]; intros s; cbn [variation_below]; [apply Cmod_ge_0|]. pose proof (IH (f_sld f)). pose proof (Cmod_ge_0 (s - f_sld f)%C). lra. Qed.

Lemma Cmod_step (s s' : C) : Cmod s' <= Cmod s + Cmod (s - s')%C.
Proof. pose proof (Cmod_triangle s (- (s - s'))%C) as T. replace (s + - (s - s'))%C with s' in T by ring. rewrite Cmod_opp in T. assumption. Qed.

Lemma propagation_bound q (s x : C) d : 0 <= Im s -> 0 <= d -> Cmod (x * Cexp (- (2) * Ci * wave q s * RtoC d))%C <= Cmod x.
Proof. intros H Hd. rewrite Cmod_mult, Cmod_Cexp. destruct (wave_quadrant q s H) as [_ W]. pose proof (Cmod_ge_0 x).
  assert (E : exp (Re (- (2) * Ci * wave q s * RtoC d)%C) <= 1).
  { apply exp_neg. destruct (wave q s) as [a b]. unfold Re, Im, RtoC in *; simpl in *. nra. }
  pose proof (exp_pos (Re (- (2) * Ci * wave q s * RtoC d)%C)). nra. Qed.

Lemma parratt_bound q sld V : 0 < q -> 0 <= Im sld -> 32 * PI * V <= q * q -> forall fs s,
  0 <= Im s -> Forall (fun f => 0 <= Im (f_sld f)) fs -> Forall (fun f => 0 <= f_thickness f) fs ->
  Cmod s + variation_below s fs sld <= V -> forall sigma,
  exists x, parratt q (wave q s) fs sigma sld = Some x /\ Cmod x <= 2 * (16 * PI * variation_below s fs sld / (q * q)).
Proof. intros Hq Hs L. pose proof PI_RGT_0 as P. assert (Q : 0 < q * q) by nra.
  induction fs as [|f fs IH]; intros s H F T B sigma; cbn [parratt variation_below] in *.
  - eexists; split; [reflexivity|]. pose proof (Cmod_step s sld). pose proof (Cmod_ge_0 (s - sld)%C) as G.
    pose proof (nevot_bound q s sld sigma V Hq H Hs ltac:(lra) ltac:(lra) L) as N.
    assert (0 <= 16 * PI * Cmod (s - sld)%C / (q * q)). { apply Rmult_le_pos; [nra|]. left. apply Rinv_0_lt_compat. lra. } lra.
  - inversion F as [|? ? Hf F']; subst. inversion T as [|? ? Ht T']; subst.
    pose proof (Cmod_step s (f_sld f)) as St. pose proof (Cmod_ge_0 (s - f_sld f)%C) as G. pose proof (variation_nonneg sld fs (f_sld f)) as Vn.
    destruct (IH (f_sld f) Hf F' T' ltac:(lra) sigma) as (x & E & Bx). rewrite E.
    pose proof (nevot_bound q s (f_sld f) (f_roughness f) V Hq H Hf ltac:(lra) ltac:(lra) L) as N.
    pose proof (propagation_bound q (f_sld f) x (f_thickness f) Hf Ht) as Pb. pose proof (Cmod_ge_0 s) as Cs.
    set (a := 16 * PI * Cmod (s - f_sld f)%C / (q * q)) in *. set (b := 16 * PI * variation_below (f_sld f) fs sld / (q * q)) in *.
    assert (a0 : 0 <= a). { apply Rmult_le_pos; [nra|]. left. apply Rinv_0_lt_compat. lra. }
    assert (b0 : 0 <= b). { apply Rmult_le_pos; [nra|]. left. apply Rinv_0_lt_compat. lra. }
    assert (AB : a + b = 16 * PI * (Cmod (s - f_sld f)%C + variation_below (f_sld f) fs sld) / (q * q)) by (unfold a, b; field; lra).
    assert (ab : a + b <= 1 / 2).
    { rewrite AB. apply (Rmult_le_reg_r (q * q)); [assumption|]. unfold Rdiv. rewrite Rmult_assoc, Rinv_l, Rmult_1_r by lra. nra. }
    set (y := (x * Cexp (- (2) * Ci * wave q (f_sld f) * RtoC (f_thickness f)))%C) in *.
    destruct (step_bound (nevot_croce (wave q s) (wave q (f_sld f)) (f_roughness f)) y a b) as [D K]; try assumption; [lra|].
    destruct (Ceq_dec _ _) as [E0|_]; [contradiction|]. eexists; split; [reflexivity|]. rewrite <- AB. assumption. Qed.

Lemma engine_decay qs s out : passive s -> solid s -> 
  multilayer_reflectivity qs (thickness_array s) (roughness_array s) (sld_array s) 0 = Ok out ->
  Forall2 (fun q o => q <> 0 -> forall x, o = Some x -> x <= (32 * PI * variation s / (q * q)) ^ 2) qs out.
Proof. intros [P1 P2] T H. rewrite engine_stack in H. injection H as <-. induction qs as [|q0 qs IH]; [constructor|]. constructor; [|assumption]. clear IH.
  intros Hq x E. pose proof PI_RGT_0 as P. assert (Q : 0 < q0 * q0) by nra.
  assert (Z : 0 <= Im (RtoC 0)) by (unfold Im; simpl; lra).
  assert (E' : quot (field (Rabs q0) s) = Some x).
  { unfold Rabs. destruct (Rcase_abs q0); [|assumption]. rewrite <- E. f_equal. unfold field. rewrite (wave_even q0 0).
    clear. generalize (wave q0 0) as k. induction (s_films s) as [|f fs IH]; intros k; cbn [field_above]; rewrite wave_even; [reflexivity|]. rewrite IH; reflexivity. }
  assert (QQ : q0 * q0 = Rabs q0 * Rabs q0) by (unfold Rabs; destruct (Rcase_abs q0); ring).
  rewrite QQ in *. assert (Hp : 0 < Rabs q0) by (apply Rabs_pos_lt; assumption). clear E Hq QQ. revert Q E' Hp. generalize (Rabs q0) as q. intros q Q E Hp.
  pose proof (quot_range _ _ E) as X. destruct (Rle_dec (32 * PI * variation s) (q * q)) as [L|L].
  - destruct (parratt_bound q (s_sld s) (variation s) Hp P2 L (s_films s) 0 Z P1 T) with (sigma := s_roughness s) as (r & A & B).
    { rewrite Cmod_0. unfold variation. lra. }
    destruct (field_parratt q (s_roughness s) (s_sld s) P2 (s_films s) (wave q 0) P1 (proj1 (wave_quadrant q 0 Z)) r A) as [N F].
    unfold field in E. rewrite (quot_ratio _ r N F) in E. injection E as <-. unfold clipped.
    eapply Rle_trans; [apply Rmin_r|]. pose proof (Cmod_ge_0 r). apply pow_incr. split; [assumption|]. fold (variation s) in B. 
    eapply Rle_trans; [exact B|]. right. field. lra.
  - apply Rnot_le_lt in L. assert (1 <= 32 * PI * variation s / (q * q)).
    { apply (Rmult_le_reg_r (q * q)); [assumption|]. unfold Rdiv. rewrite Rmult_assoc, Rinv_l, Rmult_1_r by lra. lra. }
    simpl. nra. Qed.

(** ** Bare substrate *)
Lemma vacuum_passive : 0 <= Im (RtoC 0).
Proof. unfold Im; simpl; lra. Qed.

Lemma wave_length q s : Cmod (wave q s) ^ 2 <= q * q / 4 + 4 * PI * (Cmod s + tiny).
Proof. replace (Cmod (wave q s) ^ 2) with (Cmod (wave q s * wave q s)%C) by (rewrite Cmod_mult; ring). unfold wave. rewrite Csqrt_sqr.
  pose proof PI_RGT_0. pose proof tiny_pos.
  unfold Cminus. eapply Rle_trans; [apply Cmod_triangle|]. rewrite Cmod_opp, <- RtoC_mult, Cmod_R, Cmod_mult, Cmod_R, !Rabs_right by nra.
  replace (q / 2 * (q / 2)) with (q * q / 4) by field. apply Rplus_le_compat_l, Rmult_le_compat_l; [lra|].
  eapply Rle_trans; [apply Cmod_triangle|]. apply Rplus_le_compat_l. right. unfold Cmod; simpl. rewrite Rmult_0_l, Rplus_0_l, Rmult_1_r. apply sqrt_square. lra. Qed.

Lemma bare_amplitude q sld : 0 <= Im sld -> 
  Cmod (nevot_croce (wave q 0) (wave q sld) 0) = 4 * PI * Cmod sld / Cmod (wave q 0 + wave q sld)%C ^ 2.
Proof. intros H. destruct (wave_quadrant q sld H) as [W _]. destruct (wave_quadrant q 0 vacuum_passive) as [W0 _].
  rewrite Cmod_nevot by (apply sum_neq_0; assumption). rewrite !Rmult_0_l, Rmult_0_r, Rmult_0_l, Ropp_0, exp_0, Rmult_1_r.
  rewrite Cmod_fresnel by (assumption || exact vacuum_passive). replace (0 - sld)%C with (- sld)%C by ring. rewrite Cmod_opp. reflexivity. Qed.

Lemma bare_porod q sld : 0 <= Im sld -> 16 * PI * Cmod sld < q * q ->
  let r := Cmod (nevot_croce (wave q 0) (wave q sld) 0) in
  4 * PI * Cmod sld / (q * q + 8 * PI * (Cmod sld + 2 * tiny)) <= r <= 4 * PI * Cmod sld / (q * q - 12 * PI * Cmod sld).
Proof. intros H L r. unfold r; clear r. rewrite bare_amplitude by assumption. pose proof PI_RGT_0 as P. pose proof tiny_pos as Tp. pose proof (Cmod_ge_0 sld) as G. pose proof (Re_Cmod sld) as Rc.
  assert (PG : 0 <= PI * Cmod sld) by nra. assert (PT : 0 < PI * tiny) by nra.
  assert (U : Cmod (wave q 0 + wave q sld)%C ^ 2 <= q * q + 8 * PI * (Cmod sld + 2 * tiny)).
  { pose proof (Cmod_triangle (wave q 0) (wave q sld)) as T. pose proof (wave_length q 0) as A. pose proof (wave_length q sld) as B. rewrite Cmod_0 in A.
    pose proof (Cmod_ge_0 (wave q 0)). pose proof (Cmod_ge_0 (wave q sld)). pose proof (Cmod_ge_0 (wave q 0 + wave q sld)%C).
    pose proof (pow2_ge_0 (Cmod (wave q 0) - Cmod (wave q sld))).
    apply Rle_trans with ((Cmod (wave q 0) + Cmod (wave q sld)) ^ 2); [apply pow_incr; lra|]. nra. }
  assert (D : q * q - 12 * PI * Cmod sld <= Cmod (wave q 0 + wave q sld)%C ^ 2).
  { destruct (wave_parts q 0 vacuum_passive) as (a & b & -> & A & B & E1 & _). destruct (wave_parts q sld H) as (c & d & -> & C0 & D & E2 & _).
    rewrite Cmod2. unfold Re, Im in *; simpl in *. set (B0 := q * q / 4 - 4 * PI * Cmod sld). assert (B0p : 0 <= B0) by (unfold B0; lra).
    assert (PR : PI * fst sld <= PI * Cmod sld) by nra. assert (A2 : B0 <= a * a) by (unfold B0; nra). assert (C2 : B0 <= c * c) by (unfold B0; nra).
    assert (AC : B0 <= a * c). { destruct (Rle_dec B0 (a * c)); [assumption|]. exfalso. assert ((a * c) * (a * c) < B0 * B0) by nra. assert (B0 * B0 <= (a * a) * (c * c)) by nra. nra. }
    unfold B0 in *. nra. }
  assert (D0 : 0 < q * q - 12 * PI * Cmod sld) by lra. set (m := Cmod (wave q 0 + wave q sld)%C ^ 2) in *.
  split; apply Rmult_le_compat_l; try lra; apply Rinv_le_contravar; lra. Qed.

Lemma le_div_l x u v : 0 < v -> x <= u / v -> x * v <= u.
Proof. intros H L. apply (Rmult_le_compat_r v) in L; [|lra]. replace (u / v * v) with u in L by (field; lra). assumption. Qed.
Lemma le_div_r x u v : 0 < v -> u / v <= x -> u <= x * v.
Proof. intros H L. apply (Rmult_le_compat_r v) in L; [|lra]. replace (u / v * v) with u in L by (field; lra). assumption. Qed.

(** Rate of convergence *)
Lemma bare_rate q sld : 0 <= Im sld -> 24 * PI * (Cmod sld + tiny) <= q * q -> 
  let r := Cmod (nevot_croce (wave q 0) (wave q sld) 0) in
  Rabs (r * (q * q) - 4 * PI * Cmod sld) * (q * q) <= 96 * (PI * PI) * Cmod sld * (Cmod sld + 2 * tiny).
Proof. intros H L r. pose proof PI_RGT_0 as P. pose proof tiny_pos as Tp. pose proof (Cmod_ge_0 sld) as G.
  assert (PG : 0 <= PI * Cmod sld) by nra. assert (PT : 0 < PI * tiny) by nra.
  destruct (bare_porod q sld H ltac:(lra)) as [A B]. fold r in A, B. set (g := Cmod sld) in *.
  set (Q := q * q) in *. assert (Qp : 0 < Q) by lra.
  assert (A' : 4 * PI * g <= r * (Q + 8 * PI * (g + 2 * tiny))).
  { apply le_div_r in A; [assumption|lra]. }
  assert (B' : r * (Q - 12 * PI * g) <= 4 * PI * g).
  { apply le_div_l in B; [assumption|lra]. }
  assert (r0 : 0 <= r) by apply Cmod_ge_0.
  assert (rQ : r * Q <= 8 * PI * g) by nra.
  assert (Lo : - (8 * PI * (g + 2 * tiny) * r) <= r * Q - 4 * PI * g) by lra. assert (Hi : r * Q - 4 * PI * g <= 12 * PI * g * r) by lra.
  assert (Ab : Rabs (r * Q - 4 * PI * g) <= 12 * PI * (g + 2 * tiny) * r).
  { assert (0 <= PI * g * r) by nra. assert (0 <= PI * tiny * r) by nra. apply Rabs_le. split; nra. }
  apply Rle_trans with (12 * PI * (g + 2 * tiny) * r * Q); [apply Rmult_le_compat_r; lra|].
  replace (12 * PI * (g + 2 * tiny) * r * Q) with (12 * PI * (g + 2 * tiny) * (r * Q)) by ring.
  apply Rle_trans with (12 * PI * (g + 2 * tiny) * (8 * PI * g)); [apply Rmult_le_compat_l; nra|]. right. ring. Qed.

Lemma bare_sim qs sigma sld : 0 <= Im sld ->
  multilayer_reflectivity qs (thickness_array (mkStack [] sigma sld)) (roughness_array (mkStack [] sigma sld)) (sld_array (mkStack [] sigma sld)) 0 =
  Ok (map (fun q => Some (clipped (nevot_croce (wave q 0) (wave q sld) sigma))) qs).
Proof. exact (engine_bare qs sigma sld). Qed.

(** *** Total reflection *)
Lemma total_reflection q rho : below_edge q rho -> 
  1 - 16 * PI * tiny / (q * evanescence q rho) <= clipped (nevot_croce (wave q 0) (wave q (RtoC rho)) 0).
Proof. intros [Hq L]. assert (Hs : 0 <= Im (RtoC rho)) by (unfold Im; simpl; lra).
  destruct (wave_parts q 0 vacuum_passive) as (a & b & Ek & A & B & E1 & E1'). destruct (wave_parts q (RtoC rho) Hs) as (c & d & Ek' & C0 & D & E2 & E2').
  unfold Re, Im in E1, E1', E2, E2'; simpl in E1, E1', E2, E2'. pose proof PI_RGT_0 as P. pose proof tiny_pos as Tp.
  set (kappa := evanescence q rho). assert (Kp : 0 < kappa) by (apply sqrt_lt_R0; nra).
  assert (K2 : kappa * kappa = 4 * PI * rho - q * q / 4). { unfold kappa, evanescence. rewrite sqrt_sqrt by nra. field. }
  assert (Ad : q / 2 <= a) by nra. assert (Dd : kappa <= d) by nra.
  assert (N : Cmod (nevot_croce (wave q 0) (wave q (RtoC rho)) 0) ^ 2 = 1 - 4 * (a * c + b * d) / ((a + c) * (a + c) + (b + d) * (b + d))).
  { destruct (wave_quadrant q (RtoC rho) Hs) as [W _]. destruct (wave_quadrant q 0 vacuum_passive) as [W0 _].
    pose proof (sum_neq_0 _ _ W0 W) as Nz. rewrite Cmod_nevot by assumption. rewrite !Rmult_0_l, Rmult_0_r, Rmult_0_l, Ropp_0, exp_0, Rmult_1_r.
    rewrite Cmod_div by assumption. rewrite Ek, Ek'. unfold Rdiv. rewrite Rpow_mult_distr, pow_inv, !Cmod2.
    unfold Re, Im; simpl. field. nra. }
  unfold clipped. rewrite N. set (T := 16 * PI * tiny / (q * kappa)). assert (Tn : 0 <= T) by (apply Rmult_le_pos; [nra|left; apply Rinv_0_lt_compat; nra]).
  assert (Q : 4 * (a * c + b * d) / ((a + c) * (a + c) + (b + d) * (b + d)) <= T).
  { set (m := (a + c) * (a + c) + (b + d) * (b + d)). assert (M : a * a + d * d <= m) by (unfold m; nra). assert (M0 : 0 < a * a + d * d) by nra.
    assert (X : (a * c + b * d) * (a * d) = 2 * (PI * tiny) * (a * a + d * d)). { replace ((a * c + b * d) * (a * d)) with (a * a * (c * d) + d * d * (a * b)) by ring. rewrite E1', E2'. ring. }
    apply (Rmult_le_reg_r (m * (a * d))); [apply Rmult_lt_0_compat; nra|].
    replace (4 * (a * c + b * d) / m * (m * (a * d))) with (4 * ((a * c + b * d) * (a * d))) by (field; lra). rewrite X.
    assert (Y : q * kappa / 2 <= a * d) by nra.
    assert (Z : 8 * (PI * tiny) <= T * (a * d)).
    { unfold T. replace (16 * PI * tiny / (q * kappa) * (a * d)) with (8 * (PI * tiny) * (a * d * 2 / (q * kappa))) by (field; nra).
      rewrite <- (Rmult_1_r (8 * (PI * tiny))) at 1. apply Rmult_le_compat_l; [nra|]. apply (Rmult_le_reg_r (q * kappa)); [nra|]. unfold Rdiv. rewrite Rmult_assoc, Rinv_l by nra. lra. }
    replace (T * (m * (a * d))) with (m * (T * (a * d))) by ring.
    replace (4 * (2 * (PI * tiny) * (a * a + d * d))) with ((a * a + d * d) * (8 * (PI * tiny))) by ring. apply Rmult_le_compat; nra. }
  apply Rmin_glb; lra. Qed.

(** *** Roughness *)
Lemma nevot_rough (k k' : C) s1 s2 : (k + k')%C <> 0 -> 0 <= Re (k * k')%C -> Rabs s1 <= Rabs s2 ->
  clipped (nevot_croce k k' s2) <= clipped (nevot_croce k k' s1).
Proof. intros N D L. unfold clipped. apply Rle_min_compat_l. apply pow_incr. split; [apply Cmod_ge_0|]. rewrite !Cmod_nevot by assumption.
  apply Rmult_le_compat_l; [apply Cmod_ge_0|]. apply Rsqr_le_abs_1 in L. unfold Rsqr in L.
  assert (X : - (2 * (s2 * s2) * Re (k * k')%C) <= - (2 * (s1 * s1) * Re (k * k')%C)) by nra.
  destruct (Rle_lt_or_eq_dec _ _ X) as [X'| ->]; [left; apply exp_increasing; assumption|lra]. Qed.

Lemma nevot_rough_up (k k' : C) s : (k + k')%C <> 0 -> k <> k' -> Re (k * k')%C < 0 -> Cmod ((k - k') / (k + k'))%C < 1 -> s <> 0 ->
  clipped (nevot_croce k k' 0) < clipped (nevot_croce k k' s).
Proof. intros N N' D L Hs. unfold clipped. rewrite !Cmod_nevot by assumption. rewrite !Rmult_0_l, Rmult_0_r, Rmult_0_l, Ropp_0, exp_0, Rmult_1_r.
  set (f := Cmod _) in *. assert (F : 0 < f). { apply Cmod_gt_0. intros E. apply N'. assert (E2 : (k - k' = (k - k') / (k + k') * (k + k'))%C) by (field; assumption). rewrite E, Cmult_0_l in E2.
    replace k with ((k - k') + k')%C by ring. rewrite E2. ring. }
  assert (S2 : 0 < s * s) by nra. set (e := exp _). assert (Ee : 1 < e). { unfold e. rewrite <- exp_0. apply exp_increasing. nra. }
  rewrite (Rmin_right 1 (f ^ 2)) by (simpl; nra). assert (G : f < f * e) by nra. set (g := f * e) in *.
  apply Rmin_glb_lt; simpl; nra. Qed.

Lemma edge_negative q rho : 0 < q -> q * q < 8 * PI * rho -> Re (wave q 0 * wave q (RtoC rho))%C < 0 /\
  Cmod ((wave q 0 - wave q (RtoC rho)) / (wave q 0 + wave q (RtoC rho)))%C < 1 /\ wave q 0 <> wave q (RtoC rho).
Proof. intros Hq L. assert (Hs : 0 <= Im (RtoC rho)) by (unfold Im; simpl; lra).
  destruct (wave_quadrant q (RtoC rho) Hs) as [W _]. destruct (wave_quadrant q 0 vacuum_passive) as [W0 _]. pose proof (sum_neq_0 _ _ W0 W) as Nz.
  destruct (wave_parts q 0 vacuum_passive) as (a & b & Ek & A & B & E1 & E1'). destruct (wave_parts q (RtoC rho) Hs) as (c & d & Ek' & C0 & D & E2 & E2').
  unfold Re, Im in E1, E1', E2, E2'; simpl in E1, E1', E2, E2'. pose proof PI_RGT_0 as P. pose proof tiny_pos as Tp.
  assert (AD : a < d). { destruct (Rlt_dec a d); [assumption|]. exfalso. assert (d <= a) by lra. assert (b <= c). { apply (Rmult_le_reg_l (a * d)); [nra|]. replace (a * d * b) with (d * (a * b)) by ring. replace (a * d * c) with (a * (c * d)) by ring. rewrite E1', E2'. apply Rmult_le_compat_r; [nra|assumption]. } nra. }
  assert (BC : c < b). { apply (Rmult_lt_reg_l (a * d)); [nra|]. replace (a * d * b) with (d * (a * b)) by ring. replace (a * d * c) with (a * (c * d)) by ring. rewrite E1', E2'. apply Rmult_lt_compat_r; [nra|assumption]. }
  split; [|split].
  - rewrite Ek, Ek'. unfold Re; simpl. nra.
  - rewrite Cmod_div by assumption. assert (M : Cmod (wave q 0 - wave q (RtoC rho))%C < Cmod (wave q 0 + wave q (RtoC rho))%C).
    { apply Rsqr_incrst_0; try apply Cmod_ge_0. unfold Rsqr. rewrite !Cmod_sqr, Ek, Ek'. unfold Re, Im; simpl. nra. }
    pose proof (Cmod_ge_0 (wave q 0 - wave q (RtoC rho))%C). apply (Rmult_lt_reg_r (Cmod (wave q 0 + wave q (RtoC rho))%C)); [lra|]. unfold Rdiv. rewrite Rmult_assoc, Rinv_l by lra. lra.
  - rewrite Ek, Ek'. intros E. injection E as E3 E4. nra. Qed.

(** ** For the engine *)
Lemma map_pointwise {A B} (P : A -> B -> Prop) (f : A -> B) l : Forall (fun a => P a (f a)) l -> Forall2 P l (map f l).
Proof. intros H. induction H; constructor; assumption. Qed.

Lemma engine_decay_numbers qs s : passive s -> solid s -> Forall (fun q => 0 < q /\ 32 * PI * variation s <= q * q) qs ->
  exists xs, multilayer_reflectivity qs (thickness_array s) (roughness_array s) (sld_array s) 0 = Ok (map Some xs) /\
    Forall2 (fun q x => 0 <= x <= (32 * PI * variation s / (q * q)) ^ 2) qs xs.
Proof. intros P T F. pose proof P as [P1 P2]. rewrite engine_stack. induction F as [|q qs [Hq L] F (xs & E & G)]; [exists []; auto|].
  destruct (parratt_bound q (s_sld s) (variation s) Hq P2 L (s_films s) 0 vacuum_passive P1 T ltac:(rewrite Cmod_0; unfold variation; lra) (s_roughness s)) as (r & A & B).
  destruct (field_parratt q (s_roughness s) (s_sld s) P2 (s_films s) (wave q 0) P1 (proj1 (wave_quadrant q 0 vacuum_passive)) r A) as [N Fi].
  pose proof (quot_ratio _ r N Fi) as Q. fold (field q s) in Q. exists (clipped r :: xs). injection E as E. simpl. rewrite Q, E. split; [reflexivity|]. constructor; [|assumption].
  pose proof (engine_decay [q] s [Some (clipped r)] P T) as D. rewrite engine_stack in D. simpl in D. rewrite Q in D. specialize (D eq_refl).
  inversion D as [|? ? ? ? D1 _]; subst. split; [apply (quot_range _ _ Q)|]. apply (D1 ltac:(lra) _ eq_refl). Qed.

Lemma pow2_le x y : 0 <= x -> x <= y -> x ^ 2 <= y ^ 2.
Proof. intros. apply pow_incr. lra. Qed.

Lemma engine_porod qs sld : 0 <= Im sld -> Forall (fun q => 16 * PI * Cmod sld < q * q) qs ->
  exists xs, multilayer_reflectivity qs (thickness_array (mkStack [] 0 sld)) (roughness_array (mkStack [] 0 sld)) (sld_array (mkStack [] 0 sld)) 0 = Ok (map Some xs) /\
  Forall2 (fun q x => (4 * PI * Cmod sld / (q * q + 8 * PI * (Cmod sld + 2 * tiny))) ^ 2 <= x <= (4 * PI * Cmod sld / (q * q - 12 * PI * Cmod sld)) ^ 2) qs xs.
Proof. intros H F. rewrite bare_sim by assumption. eexists; split; [rewrite <- (map_map _ Some); reflexivity|]. apply map_pointwise.
  eapply Forall_impl; [|exact F]. intros q L. cbv beta in *. destruct (bare_porod q sld H L) as [A B]. pose proof PI_RGT_0. pose proof tiny_pos. pose proof (Cmod_ge_0 sld).
  assert (PG : 0 <= PI * Cmod sld) by nra. assert (PT : 0 < PI * tiny) by nra.
  assert (A0 : 0 <= 4 * PI * Cmod sld / (q * q + 8 * PI * (Cmod sld + 2 * tiny))) by (apply Rmult_le_pos; [lra|left; apply Rinv_0_lt_compat; lra]).
  unfold clipped. set (r := Cmod (nevot_croce _ _ _)) in *. split; [|eapply Rle_trans; [apply Rmin_r|apply pow2_le; lra]].
  apply Rmin_glb; [|apply pow2_le; lra]. replace 1 with (1 ^ 2) by ring. apply pow2_le; [assumption|].
  apply (Rmult_le_reg_r (q * q + 8 * PI * (Cmod sld + 2 * tiny))); [lra|]. replace (4 * PI * Cmod sld / (q * q + 8 * PI * (Cmod sld + 2 * tiny)) * (q * q + 8 * PI * (Cmod sld + 2 * tiny))) with (4 * PI * Cmod sld) by (field; lra). lra. Qed.

Lemma engine_porod_limit sld eps : 0 <= Im sld -> 0 < eps -> exists q0, forall q, q0 < q -> 
  exists x, multilayer_reflectivity [q] (thickness_array (mkStack [] 0 sld)) (roughness_array (mkStack [] 0 sld)) (sld_array (mkStack [] 0 sld)) 0 = Ok [Some x] /\
    Rabs (x * q ^ 4 - (4 * PI * Cmod sld) ^ 2) < eps.
Proof. intros H He. pose proof PI_RGT_0 as P. pose proof tiny_pos as Tp. pose proof (Cmod_ge_0 sld) as G. set (g := Cmod sld) in *.
  set (K := 96 * (PI * PI) * g * (g + 2 * tiny)). assert (K0 : 0 <= K) by (unfold K; assert (0 <= PI * PI) by nra; apply Rmult_le_pos; [apply Rmult_le_pos|]; lra).
  assert (PG : 0 <= PI * g) by nra. assert (PT : 0 < PI * tiny) by nra.
  set (M := 1 + 24 * PI * (g + tiny) + K * (12 * PI * g + 1) / eps).
  assert (M1 : 0 <= K * (12 * PI * g + 1) / eps) by (apply Rmult_le_pos; [apply Rmult_le_pos; lra|left; apply Rinv_0_lt_compat; assumption]).
  assert (M2 : 1 <= M) by (unfold M; lra).
  exists M. intros q Hq. assert (QM : M < q * q) by nra. rewrite bare_sim by assumption. eexists; split; [reflexivity|].
  pose proof (bare_rate q sld H ltac:(fold g; unfold M in QM; lra)) as B. cbv zeta in B. fold g in B. fold K in B.
  destruct (bare_porod q sld H ltac:(fold g; unfold M in QM; lra)) as [_ Up]. fold g in Up.
  unfold clipped. set (r := Cmod (nevot_croce _ _ _)) in *. assert (r0 : 0 <= r) by apply Cmod_ge_0. set (Q := q * q) in *.
  assert (Q0 : 0 < Q) by lra. apply le_div_l in Up; [|unfold M in QM; nra].
  assert (rQ : r * Q <= 8 * PI * g). { assert (12 * PI * g <= Q / 2) by (unfold M in QM; lra). nra. }
  assert (r1 : r <= 1). { assert (r * Q <= Q) by (unfold M in QM; lra). apply (Rmult_le_reg_r Q); lra. }
  rewrite Rmin_right by nra. replace (r ^ 2 * q ^ 4) with ((r * Q) ^ 2) by (unfold Q; ring).
  replace ((r * Q) ^ 2 - (4 * PI * g) ^ 2) with ((r * Q - 4 * PI * g) * (r * Q + 4 * PI * g)) by ring. rewrite Rabs_mult, (Rabs_right (r * Q + _)) by nra.
  apply (Rmult_lt_reg_r Q); [assumption|].
  apply Rle_lt_trans with (K * (12 * PI * g + 1)).
  - replace (Rabs (r * Q - 4 * PI * g) * (r * Q + 4 * PI * g) * Q) with (Rabs (r * Q - 4 * PI * g) * Q * (r * Q + 4 * PI * g)) by ring.
    apply Rmult_le_compat; try nra. apply Rmult_le_pos; [apply Rabs_pos|lra].
  - assert (X : K * (12 * PI * g + 1) / eps < Q) by (unfold M in QM; lra). apply (Rmult_lt_compat_r eps) in X; [|assumption]. 
    replace (K * (12 * PI * g + 1) / eps * eps) with (K * (12 * PI * g + 1)) in X by (field; lra). lra. Qed.

Lemma engine_total qs rho : Forall (fun q => below_edge q rho) qs ->
  exists xs, multilayer_reflectivity qs (thickness_array (mkStack [] 0 (RtoC rho))) (roughness_array (mkStack [] 0 (RtoC rho))) (sld_array (mkStack [] 0 (RtoC rho))) 0 = Ok (map Some xs) /\
    Forall2 (fun q x => 1 - 16 * PI * tiny / (q * evanescence q rho) <= x <= 1) qs xs.
Proof. intros F. rewrite bare_sim by (unfold Im; simpl; lra). eexists; split; [rewrite <- (map_map _ Some); reflexivity|]. apply map_pointwise.
  eapply Forall_impl; [|exact F]. intros q L. split; [apply total_reflection; assumption|apply Rmin_l]. Qed.

Lemma engine_rough qs sld s1 s2 : 0 <= Im sld -> Forall (fun q => 16 * PI * Re sld <= q * q) qs -> Rabs s1 <= Rabs s2 ->
  exists xs ys, multilayer_reflectivity qs (thickness_array (mkStack [] s1 sld)) (roughness_array (mkStack [] s1 sld)) (sld_array (mkStack [] s1 sld)) 0 = Ok (map Some xs) /\
    multilayer_reflectivity qs (thickness_array (mkStack [] s2 sld)) (roughness_array (mkStack [] s2 sld)) (sld_array (mkStack [] s2 sld)) 0 = Ok (map Some ys) /\ Forall2 Rle ys xs.
Proof. intros H F L. rewrite !bare_sim by assumption. eexists; eexists; split; [rewrite <- (map_map _ Some); reflexivity|]. split; [rewrite <- (map_map _ Some); reflexivity|].
  induction F as [|q qs B F IH]; [constructor|]. constructor; [|assumption]. 
  destruct (wave_quadrant q sld H) as [W _]. destruct (wave_quadrant q 0 vacuum_passive) as [W0 _].
  apply nevot_rough; [apply sum_neq_0; assumption|apply damped; try assumption; try exact vacuum_passive|assumption]. unfold Re; simpl. nra. Qed.

Lemma engine_rough_below q rho sigma : 0 < q -> q * q < 8 * PI * rho -> sigma <> 0 ->
  exists x y, multilayer_reflectivity [q] (thickness_array (mkStack [] 0 (RtoC rho))) (roughness_array (mkStack [] 0 (RtoC rho))) (sld_array (mkStack [] 0 (RtoC rho))) 0 = Ok [Some x] /\
    multilayer_reflectivity [q] (thickness_array (mkStack [] sigma (RtoC rho))) (roughness_array (mkStack [] sigma (RtoC rho))) (sld_array (mkStack [] sigma (RtoC rho))) 0 = Ok [Some y] /\ x < y.
Proof. intros Hq L Hs. assert (H : 0 <= Im (RtoC rho)) by (unfold Im; simpl; lra). rewrite !bare_sim by assumption.
  eexists; eexists; split; [reflexivity|]. split; [reflexivity|]. destruct (edge_negative q rho Hq L) as (A & B & D).
  destruct (wave_quadrant q (RtoC rho) H) as [W _]. destruct (wave_quadrant q 0 vacuum_passive) as [W0 _].
  apply nevot_rough_up; try assumption. apply sum_neq_0; assumption. Qed.

(** ** Opaque films *)
Lemma clipped_near (r r' : C) e : Cmod (r - r')%C <= e -> Rabs (clipped r - clipped r') <= 2 * e.
Proof. intros H. assert (T1 : Cmod r <= Cmod r' + e).
  { pose proof (Cmod_triangle r' (r - r')%C) as T. replace (r' + (r - r'))%C with r in T by ring. lra. }
  assert (T2 : Cmod r' <= Cmod r + e).
  { pose proof (Cmod_triangle r (- (r - r'))%C) as T. replace (r + - (r - r'))%C with r' in T by ring. rewrite Cmod_opp in T. lra. }
  pose proof (Cmod_ge_0 r). pose proof (Cmod_ge_0 r'). unfold clipped. set (a := Cmod r) in *. set (b := Cmod r') in *. clearbody a b.
  assert (E0 : 0 <= e) by (pose proof (Cmod_ge_0 (r - r')%C); lra).
  assert (G : forall u v, 0 <= u -> 0 <= v -> u <= v + e -> Rmin 1 (u ^ 2) - Rmin 1 (v ^ 2) <= 2 * e).
  { clear - E0. intros u v Hu Hv L. set (w := Rmin 1 v). assert (W : Rmin 1 (v ^ 2) = w ^ 2).
    { unfold w, Rmin. destruct (Rle_dec 1 (v ^ 2)), (Rle_dec 1 v); simpl in *; nra. }
    set (z := Rmin 1 u). assert (Z : Rmin 1 (u ^ 2) = z ^ 2). { unfold z, Rmin. destruct (Rle_dec 1 (u ^ 2)), (Rle_dec 1 u); simpl in *; nra. }
    rewrite W, Z. assert (0 <= z <= 1 /\ 0 <= w <= 1 /\ z <= w + e) as (? & ? & ?).
    { unfold z, w, Rmin. destruct (Rle_dec 1 u), (Rle_dec 1 v); repeat split; lra. }
    replace (z ^ 2 - w ^ 2) with ((z - w) * (z + w)) by ring. nra. }
  apply Rabs_le. pose proof (G a b). pose proof (G b a). split; lra. Qed.

Lemma opaque_step (r x : C) E : Cmod r < 1 -> Cmod x <= E -> E < 1 -> (1 + r * x)%C <> 0 /\ Cmod ((r + x) / (1 + r * x) - r)%C <= 2 * E / (1 - E).
Proof. intros Hr Hx HE. pose proof (Cmod_ge_0 r) as r0. pose proof (Cmod_ge_0 x) as x0.
  assert (M : Cmod (r * x)%C <= E) by (rewrite Cmod_mult; nra).
  assert (D : 1 - E <= Cmod (1 + r * x)%C).
  { pose proof (Cmod_triangle (1 + r * x)%C (- (r * x))%C) as T. replace (1 + r * x + - (r * x))%C with (RtoC 1) in T by ring.
    rewrite Cmod_opp, Cmod_R, Rabs_R1 in T. lra. }
  assert (N : (1 + r * x)%C <> 0). { intros Z. rewrite Z, Cmod_0 in D. lra. }
  split; [assumption|]. replace ((r + x) / (1 + r * x) - r)%C with (x * (1 - r * r) / (1 + r * x))%C by (field; assumption).
  rewrite Cmod_div, Cmod_mult by assumption.
  assert (Q : Cmod (1 - r * r)%C <= 2). { unfold Cminus. eapply Rle_trans; [apply Cmod_triangle|]. rewrite Cmod_opp, Cmod_R, Rabs_R1, Cmod_mult. nra. }
  pose proof (Cmod_ge_0 (1 - r * r)%C). unfold Rdiv. apply Rmult_le_compat; [nra|left; apply Rinv_0_lt_compat; lra|nra|apply Rinv_le_contravar; lra]. Qed.

Lemma fresnel_lt_1 (k k' : C) : 0 < Re k -> 0 < Re k' -> Im k < 0 -> Im k' < 0 -> Cmod (nevot_croce k k' 0) < 1.
Proof. intros A B D E. pose proof (sum_neq_0 _ _ A B) as Nz. rewrite Cmod_nevot by assumption. rewrite !Rmult_0_l, Rmult_0_r, Rmult_0_l, Ropp_0, exp_0, Rmult_1_r.
  rewrite Cmod_div by assumption. assert (M : Cmod (k - k')%C < Cmod (k + k')%C).
  { apply Rsqr_incrst_0; try apply Cmod_ge_0. unfold Rsqr. rewrite !Cmod_sqr. destruct k as [a b], k' as [c d]. unfold Re, Im in *; simpl in *. nra. }
  pose proof (Cmod_ge_0 (k - k')%C). apply (Rmult_lt_reg_r (Cmod (k + k')%C)); [lra|]. unfold Rdiv. rewrite Rmult_assoc, Rinv_l by lra. lra. Qed.

Lemma opaque_amplitude q d rho below sld : 0 <= d -> 0 <= Im rho -> passive (mkStack below 0 sld) -> smooth (mkStack below 0 sld) ->
  veil q d rho < 1 -> exists r, parratt_amplitude q (mkStack (mkFilm d 0 rho :: below) 0 sld) = Some r /\
    Cmod (r - nevot_croce (wave q 0) (wave q rho) 0)%C <= 2 * veil q d rho / (1 - veil q d rho).
Proof. intros Hd Hr [P1 P2] [S1 S2] V. cbn [s_films s_sld s_roughness] in *. unfold parratt_amplitude; cbn [s_films s_sld s_roughness parratt f_sld f_roughness f_thickness].
  destruct (wave_quadrant q 0 vacuum_passive) as [A0 B0]. destruct (wave_quadrant q rho Hr) as [A1 B1].
  assert (F : Forall (fun f => 0 <= Im (f_sld f) /\ f_roughness f = 0 /\ 0 <= f_thickness f) below).
  { clear - P1 S1. induction P1; constructor; inversion S1; subst; auto. }
  destruct (parratt_smooth q sld P2 below (wave q rho) A1 F) as [x E]. rewrite E.
  destruct (field_parratt q 0 sld P2 below (wave q rho) P1 A1 x E) as [N Q].
  pose proof (field_flux q sld P2 below (wave q rho) (C_neq_Re _ A1) F) as Fl.
  pose proof (flux_bound (wave q rho) _ x A1 ltac:(lra) Fl Q) as B.
  set (r := nevot_croce (wave q 0) (wave q rho) 0). assert (R1 : Cmod r < 1) by (apply fresnel_lt_1; assumption).
  set (y := (x * Cexp (- (2) * Ci * wave q rho * RtoC d))%C).
  assert (Y : Cmod y <= veil q d rho).
  { unfold y, veil. rewrite Cmod_mult, Cmod_Cexp. apply Rmult_le_compat; [apply Cmod_ge_0|left; apply exp_pos|lra|].
    right. f_equal. destruct (wave q rho) as [u v]. unfold Re, Im, RtoC; simpl. ring. }
  destruct (opaque_step r y (veil q d rho) R1 Y V) as [D K]. destruct (Ceq_dec _ _) as [Z|_]; [contradiction|]. eexists; split; [reflexivity|exact K]. Qed.

Lemma engine_opaque q d rho below sld : 0 <= d -> 0 <= Im rho -> passive (mkStack below 0 sld) -> smooth (mkStack below 0 sld) -> veil q d rho < 1 ->
  let covered := mkStack (mkFilm d 0 rho :: below) 0 sld in let block := mkStack [] 0 rho in
  exists x y, multilayer_reflectivity [q] (thickness_array covered) (roughness_array covered) (sld_array covered) 0 = Ok [Some x] /\
    multilayer_reflectivity [q] (thickness_array block) (roughness_array block) (sld_array block) 0 = Ok [Some y] /\
    Rabs (x - y) <= 4 * veil q d rho / (1 - veil q d rho).
Proof. intros Hd Hr P S V covered block. destruct (opaque_amplitude q d rho below sld Hd Hr P S V) as (r & E & B).
  exists (clipped r), (clipped (nevot_croce (wave q 0) (wave q rho) 0)). split; [|split].
  - apply (engine_parratt [q] covered [r]); [|repeat constructor; assumption]. destruct P as [P1 P2]. split; [constructor; assumption|assumption].
  - apply (bare_sim [q] 0 rho Hr).
  - eapply Rle_trans; [apply clipped_near; exact B|]. right. unfold Rdiv. ring. Qed.

Lemma veil_pos q d rho : 0 <= Im rho -> 0 < veil q d rho.
Proof. intros H. destruct (wave_quadrant q rho H) as [A B]. unfold veil. apply Rmult_lt_0_compat; [|apply exp_pos].
  assert (0 < - Im (wave q rho) / Re (wave q rho)) by (apply Rmult_lt_0_compat; [lra|apply Rinv_0_lt_compat; assumption]). lra. Qed.

Lemma veil_vanishes q rho eps : 0 <= Im rho -> 0 < eps -> exists d0, 0 <= d0 /\ forall d, d0 <= d -> veil q d rho < eps.
Proof. intros H He. destruct (wave_quadrant q rho H) as [A B]. set (c := 1 + 2 * (- Im (wave q rho) / Re (wave q rho))).
  assert (C1 : 1 < c). { unfold c. assert (0 < - Im (wave q rho) / Re (wave q rho)) by (apply Rmult_lt_0_compat; [lra|apply Rinv_0_lt_compat; assumption]). lra. }
  set (m := - (2 * Im (wave q rho))). assert (M : 0 < m) by (unfold m; lra).
  (* exp (- m d) < 1 / (1 + m d) *)
  exists (c / (eps * m)). assert (P : 0 < c / (eps * m)) by (apply Rmult_lt_0_compat; [lra|apply Rinv_0_lt_compat; nra]). split; [lra|].
  intros d Hd. unfold veil. fold c. replace (2 * Im (wave q rho) * d) with (- (m * d)) by (unfold m; ring). rewrite exp_Ropp.
  assert (X : c <= eps * (m * d)). { apply (Rmult_le_compat_r (eps * m)) in Hd; [|nra]. replace (c / (eps * m) * (eps * m)) with c in Hd by (field; lra). lra. }
  assert (Y : 1 + m * d < exp (m * d)). { apply exp_ineq1. nra. }
  apply (Rmult_lt_reg_r (exp (m * d))); [apply exp_pos|]. rewrite Rmult_assoc, Rinv_l by (pose proof (exp_pos (m * d)); lra). nra. Qed.

Lemma engine_thick q rho eps : 0 <= Im rho -> 0 < eps -> exists d0, forall d below sld, d0 <= d ->
  passive (mkStack below 0 sld) -> smooth (mkStack below 0 sld) ->
  let covered := mkStack (mkFilm d 0 rho :: below) 0 sld in let block := mkStack [] 0 rho in
  exists x y, multilayer_reflectivity [q] (thickness_array covered) (roughness_array covered) (sld_array covered) 0 = Ok [Some x] /\
    multilayer_reflectivity [q] (thickness_array block) (roughness_array block) (sld_array block) 0 = Ok [Some y] /\ Rabs (x - y) <= eps.
Proof. intros H He. destruct (veil_vanishes q rho (Rmin (1 / 2) (eps / 8)) H) as (d0 & D0 & V).
  { apply Rmin_glb_lt; lra. }
  exists d0. intros d below sld Hd P S covered block. specialize (V d Hd). pose proof (Rmin_l (1 / 2) (eps / 8)). pose proof (Rmin_r (1 / 2) (eps / 8)).
  destruct (engine_opaque q d rho below sld ltac:(lra) H P S ltac:(lra)) as (x & y & A & B & K). exists x, y. split; [exact A|]. split; [exact B|].
  eapply Rle_trans; [exact K|]. pose proof (veil_pos q d rho H). apply (Rmult_le_reg_r (1 - veil q d rho)); [lra|].
  replace (4 * veil q d rho / (1 - veil q d rho) * (1 - veil q d rho)) with (4 * veil q d rho) by (field; lra). nra. Qed.
