From Coq Require Import Reals Lra Lia Psatz.
From Coquelicot Require Import Complex.
From Verif Require Import Py Str Cplx Sample_Model Sample_Spec Rng Sampling_Model Sampling_Spec Sampling_Proofs Reflectivity_Model Reflectivity_Spec Reflectivity_Proofs
  ReflectivityDecay_Spec ReflectivityDecay_Proofs Simulation_Model Simulation_Spec Simulation_Proofs Units_Spec Units_Proofs Identify_Spec.
Local Open Scope string_scope.
Local Open Scope R_scope.

Local Notation simulate qs s := (multilayer_reflectivity qs (thickness_array s) (roughness_array s) (sld_array s) 0).
Local Notation bare sigma sld := (mkStack [] sigma sld).

Lemma si_waves qs rho : 0 <= Im rho -> Forall (fun q => wave q (rho * RtoC (10 ^ 14))%C <> 0) qs.
Proof. intros H. apply Forall_forall. intros q _. apply wave_neq_0. destruct rho as [x y]. unfold Cmult, RtoC, Im in *; simpl fst in *; simpl snd in *. pose proof (pow_lt 10 14 ltac:(lra)). nra. Qed.

Lemma engine_indistinct s s' : indistinct s s' -> forall qs, simulate qs (si s) = simulate qs (si s').
Proof. intros I. induction I as [s|s s' I IH|s s' s'' I IH J JH|above d1 d2 sigma tau rho below ss sub P|above d sigma tau rho P]; intros qs.
  - reflexivity.
  - symmetry. apply IH.
  - rewrite IH. apply JH.
  - pose proof (engine_split qs (map si_film above) (d1 * / 10 ^ 10) (d2 * / 10 ^ 10) (sigma * / 10 ^ 10) (tau * / 10 ^ 10) (rho * RtoC (10 ^ 14))%C (map si_film below) (ss * / 10 ^ 10) (sub * RtoC (10 ^ 14))%C (si_waves qs rho P)) as E.
    rewrite <- Rmult_plus_distr_r in E. unfold si; cbn [s_films s_roughness s_sld]. rewrite !map_app. exact E.
  - pose proof (engine_substrate_layer qs (map si_film above) (d * / 10 ^ 10) (sigma * / 10 ^ 10) (tau * / 10 ^ 10) (rho * RtoC (10 ^ 14))%C (si_waves qs rho P)) as E.
    unfold si; cbn [s_films s_roughness s_sld]. rewrite !map_app. exact E. Qed.

Lemma rows_indistinct smp smp' n n' T Ru Sl T' Ru' Sl' i j qs : label_table smp n T Ru Sl -> zero_ambient n Sl -> label_table smp' n' T' Ru' Sl' -> zero_ambient n' Sl' ->
  (i < n)%nat -> (j < n')%nat -> indistinct (row_stack T Ru Sl i) (row_stack T' Ru' Sl' j) -> row_curve qs T Ru Sl i = row_curve qs T' Ru' Sl' j.
Proof. intros Lt Za Lt' Za' Hi Hj I. rewrite (row_curve_si smp n), (row_curve_si smp' n') by (auto). apply engine_indistinct, I. Qed.

Lemma Forall2_seq_nth {A} (P : nat -> A -> Prop) n : forall k l, Forall2 P (seq k n) l -> forall i, (i < n)%nat -> exists c, nth_error l i = Some c /\ P (k + i)%nat c.
Proof. induction n as [|n IH]; intros k l F i Hi; [lia|]. inversion F as [|? c ? l' H F']; subst. destruct i as [|i]; [exists c; rewrite Nat.add_0_r; auto|].
  destruct (IH _ _ F' i ltac:(lia)) as (c' & E & H'). exists c'. split; [exact E|]. replace (k + Datatypes.S i)%nat with (Datatypes.S k + i)%nat by lia. exact H'. Qed.

(** Bare substrates *)
Lemma damped_strict q (s s' : C) : 0 <= Im s -> 0 <= Im s' -> 16 * PI * Re s < q * q -> 16 * PI * Re s' < q * q -> 0 < Re (wave q s * wave q s')%C.
Proof. intros H H' L L'. destruct (wave_parts q s H) as (a & b & -> & A & B & E1 & _). destruct (wave_parts q s' H') as (c & d & -> & C0 & D & E2 & _).
  unfold Re; simpl. assert (b < a) by nra. assert (d < c) by nra. nra. Qed.

Lemma bare_intensity q sld : 0 <= Im sld -> sld <> 0 -> q <> 0 -> 16 * PI * Re sld < q * q ->
  exists f D, 0 < f /\ 0 < D /\ forall sigma, clipped (nevot_croce (wave q 0) (wave q sld) sigma) = (f * exp (- (2 * (sigma * sigma) * D))) ^ 2.
Proof. intros H Hs Hq L. destruct (wave_quadrant q sld H) as [W W']. assert (V : 0 <= Im 0) by (unfold Im; simpl; lra). destruct (wave_quadrant q 0 V) as [W0 W0'].
  assert (D : 0 < Re (wave q 0 * wave q sld)%C). { apply damped_strict; try assumption. unfold Re; simpl. nra. }
  pose proof (sum_neq_0 _ _ W0 W) as N. pose proof (fresnel_lt_1 _ _ W0 W W0' W') as F1. pose proof (Cmod_fresnel q 0 sld V H) as F2.
  rewrite Cmod_nevot in F1 by assumption. rewrite !Rmult_0_l, Rmult_0_r, Rmult_0_l, Ropp_0, exp_0, Rmult_1_r in F1.
  assert (F0 : 0 < Cmod ((wave q 0 - wave q sld) / (wave q 0 + wave q sld))%C).
  { rewrite F2. apply Rdiv_lt_0_compat; [|apply pow_lt, Cmod_gt_0, N]. pose proof PI_RGT_0. apply Rmult_lt_0_compat; [lra|]. apply Cmod_gt_0. intros E. apply Hs. replace sld with (0 - (0 - sld))%C by ring. rewrite E. ring. }
  exists (Cmod ((wave q 0 - wave q sld) / (wave q 0 + wave q sld))%C), (Re (wave q 0 * wave q sld)%C). split; [exact F0|]. split; [exact D|]. intros s. unfold clipped. rewrite Cmod_nevot by assumption.
  set (f := Cmod _) in *. set (e := exp _). assert (E : 0 < e <= 1). { split; [apply exp_pos|]. unfold e. rewrite <- exp_0. assert (X : - (2 * (s * s) * Re (wave q 0 * wave q sld)%C) <= 0) by (pose proof (Rle_0_sqr s) as Q; unfold Rsqr in Q; nra).
    destruct X as [X|X]; [left; apply exp_increasing, X|rewrite X; lra]. }
  apply Rmin_right. assert (M : 0 <= f * e <= 1). { split; [apply Rmult_le_pos; lra|]. rewrite <- (Rmult_1_r 1). apply Rmult_le_compat; lra. }
  rewrite <- (pow1 2). apply pow_incr. exact M. Qed.

Lemma bare_roughness q sld s1 s2 : 0 <= Im sld -> sld <> 0 -> q <> 0 -> 16 * PI * Re sld < q * q -> simulate [q] (bare s1 sld) = simulate [q] (bare s2 sld) -> Rabs s1 = Rabs s2.
Proof. intros H Hs Hq L E. rewrite !bare_sim in E by assumption. cbn [map] in E. destruct (bare_intensity q sld H Hs Hq L) as (f & D & F0 & D0 & G). rewrite !G in E. injection E as E.
  pose proof (exp_pos (- (2 * (s1 * s1) * D))) as P1. pose proof (exp_pos (- (2 * (s2 * s2) * D))) as P2. set (e1 := exp (- (2 * (s1 * s1) * D))) in *. set (e2 := exp (- (2 * (s2 * s2) * D))) in *.
  assert (X : e1 = e2). { assert (f * e1 = f * e2); [|nra]. pose proof (Rmult_lt_0_compat _ _ F0 P1). pose proof (Rmult_lt_0_compat _ _ F0 P2). nra. }
  apply exp_inv in X. apply Rsqr_eq_abs_0. unfold Rsqr. nra. Qed.

Lemma bare_sld sld sld' q1 : 0 <= Im sld -> 0 <= Im sld' -> (forall q, q1 < q -> simulate [q] (bare 0 sld) = simulate [q] (bare 0 sld')) -> Cmod sld = Cmod sld'.
Proof. intros H H' E. assert (X : (4 * PI * Cmod sld) ^ 2 = (4 * PI * Cmod sld') ^ 2).
  { apply Rminus_diag_uniq. apply cond_eq. intros eps Pe. rewrite Rminus_0_r.
    destruct (engine_porod_limit sld (eps / 2) H ltac:(lra)) as (q0 & A). destruct (engine_porod_limit sld' (eps / 2) H' ltac:(lra)) as (q0' & A').
    pose (q := Rmax q1 (Rmax q0 q0') + 1). pose proof (Rmax_l q1 (Rmax q0 q0')). pose proof (Rmax_r q1 (Rmax q0 q0')). pose proof (Rmax_l q0 q0'). pose proof (Rmax_r q0 q0').
    destruct (A q ltac:(unfold q; lra)) as (x & Ex & B). destruct (A' q ltac:(unfold q; lra)) as (x' & Ex' & B'). rewrite E in Ex by (unfold q; lra). rewrite Ex' in Ex. injection Ex as ->.
    apply Rabs_def2 in B. apply Rabs_def2 in B'. apply Rabs_def1; lra. }
  pose proof PI_RGT_0. pose proof (Cmod_ge_0 sld). pose proof (Cmod_ge_0 sld'). assert (4 * PI * Cmod sld = 4 * PI * Cmod sld'); [|nra]. 
  assert (0 <= 4 * PI * Cmod sld) by (apply Rmult_le_pos; lra). assert (0 <= 4 * PI * Cmod sld') by (apply Rmult_le_pos; lra). nra. Qed.
