(** Proofs about binary64 arithmetic *)
From Coq Require Import Reals ZArith Lia Lra Psatz List Bool.
From Flocq Require Import Core IEEE754.BinarySingleNaN IEEE754.Binary IEEE754.Bits Relative Plus_error Mult_error.
From Verif Require Import Float64 FloatTrain Double_Model Double_Spec.
Import ListNotations.
Local Open Scope R_scope.
#[local] Existing Instances Hp Hpe.

Lemma b64_plus_finite x y : b64fin x = true -> b64fin y = true -> Rabs (rnd64 (b64R x + b64R y)) < bpow radix2 1024 ->
  b64R (add64 x y) = rnd64 (b64R x + b64R y) /\ b64fin (add64 x y) = true.
Proof. intros Fx Fy H. pose proof (Binary.Bplus_correct 53 1024 Hp Hpe binop_nan_pl64 mode_NE x y Fx Fy) as G.
  rewrite Rlt_bool_true in G by exact H. destruct G as (G1 & G2 & _). split; [exact G1|exact G2]. Qed.

Lemma b64_mult_finite x y : b64fin x = true -> b64fin y = true -> Rabs (rnd64 (b64R x * b64R y)) < bpow radix2 1024 ->
  b64R (mul64 x y) = rnd64 (b64R x * b64R y) /\ b64fin (mul64 x y) = true.
Proof. intros Fx Fy H. pose proof (Binary.Bmult_correct 53 1024 Hp Hpe binop_nan_pl64 mode_NE x y) as G.
  rewrite Rlt_bool_true in G by exact H. destruct G as (G1 & G2 & _). split; [exact G1|]. rewrite Fx, Fy in G2. exact G2. Qed.

Lemma b64_abs x : b64R (abs64 x) = Rabs (b64R x) /\ b64fin (abs64 x) = b64fin x.
Proof. split; [apply B2R_Babs|apply is_finite_Babs]. Qed.

Lemma two64_R : b64R two64 = 2 /\ b64fin two64 = true.
Proof. split; [|reflexivity]. change (b64R two64) with (F2R (Float radix2 4503599627370496 (-51))). unfold F2R; simpl. lra. Qed.

Lemma lt64_spec x y : b64fin x = true -> b64fin y = true -> lt64 x y = true <-> b64R x < b64R y.
Proof. intros Fx Fy. unfold lt64, b64_compare. rewrite (Binary.Bcompare_correct 53 1024 x y Fx Fy). destruct (Rcompare_spec (b64R x) (b64R y)); split; intros; try lra; try discriminate; reflexivity. Qed.
Lemma lt64_false x y : b64fin x = true -> b64fin y = true -> lt64 x y = false -> b64R y <= b64R x.
Proof. intros Fx Fy H. destruct (Rle_lt_dec (b64R y) (b64R x)) as [L|L]; [assumption|]. apply lt64_spec in L; try assumption. congruence. Qed.

Lemma rnd_fix x : rnd64 (b64R x) = b64R x.
Proof. apply round_generic; [auto with typeclass_instances|apply b64_format]. Qed.

Lemma rnd_bounded x e : (-1074 <= e)%Z -> Rabs x <= bpow radix2 e -> Rabs (rnd64 x) <= bpow radix2 e.
Proof. intros He H. apply (abs_round_le_generic radix2 (FLT_exp (-1074) 53) ZnearestE); [|exact H]. apply generic_format_bpow. unfold FLT_exp. lia. Qed.

Lemma rnd_below x e : (-1074 <= e < 1024)%Z -> Rabs x <= bpow radix2 e -> Rabs (rnd64 x) < bpow radix2 1024.
Proof. intros He H. apply Rle_lt_trans with (bpow radix2 e); [apply rnd_bounded; [lia|exact H]|]. apply bpow_lt. lia. Qed.

Lemma u_ro_bound : u_ro radix2 53 / (1 + u_ro radix2 53) <= bpow radix2 (-53).
Proof. assert (H : u_ro radix2 53 = bpow radix2 (-53)) by (unfold u_ro; rewrite bpow_plus; change (- (53))%Z with (-53)%Z; change (bpow radix2 1) with 2; field).
  rewrite H. assert (P : 0 < bpow radix2 (-53)) by apply bpow_gt_0. set (u := bpow radix2 (-53)) in *. clearbody u. 
  apply (Rmult_le_reg_r (1 + u)); [lra|]. replace (u / (1 + u) * (1 + u)) with u by (field; lra). nra. Qed.

(** A sum of two numbers is rounded with a relative error only. *)
Lemma rnd_sum x y : exists e, Rabs e <= bpow radix2 (-53) /\ rnd64 (b64R x + b64R y) = (b64R x + b64R y) * (1 + e).
Proof. destruct (FLT_plus_error_N_ex radix2 (-1074) 53 (fun x => negb (Z.even x)) (b64R x) (b64R y) (b64_format x) (b64_format y)) as (e & E & Q).
  exists e. split; [|exact Q]. eapply Rle_trans; [exact E|]. exact u_ro_bound. Qed.
Lemma rnd_diff x y : exists e, Rabs e <= bpow radix2 (-53) /\ rnd64 (b64R x - b64R y) = (b64R x - b64R y) * (1 + e).
Proof. destruct (FLT_plus_error_N_ex radix2 (-1074) 53 (fun x => negb (Z.even x)) (b64R x) (- b64R y) (b64_format x) (generic_format_opp _ _ _ (b64_format y))) as (e & E & Q).
  exists e. split; [|exact Q]. eapply Rle_trans; [exact E|]. exact u_ro_bound. Qed.

Lemma bp_1000_1001 : bpow radix2 1001 = 2 * bpow radix2 1000.
Proof. change 1001%Z with (1 + 1000)%Z. rewrite bpow_plus. reflexivity. Qed.
Lemma bp_1001_1002 : bpow radix2 1002 = 2 * bpow radix2 1001.
Proof. change 1002%Z with (1 + 1001)%Z. rewrite bpow_plus. reflexivity. Qed.
Lemma u_small : 0 < bpow radix2 (-53) <= / 1000000.
Proof. split; [apply bpow_gt_0|]. unfold bpow. apply Rinv_le_contravar; [lra|]. apply IZR_le. vm_compute. discriminate. Qed.

(** ** Restoring labels *)
Section Restore.
  Context (lo hi : binary64).
  Hypothesis (Flo : b64fin lo = true) (Fhi : b64fin hi = true) (Hlt : b64R lo < b64R hi).
  Hypothesis (Mlo : Rabs (b64R lo) <= bpow radix2 1000) (Mhi : Rabs (b64R hi) <= bpow radix2 1000).

  Lemma span_eq : b64R (sub64 hi lo) = rnd64 (b64R hi - b64R lo) /\ b64fin (sub64 hi lo) = true /\ 0 < rnd64 (b64R hi - b64R lo) <= bpow radix2 1001.
  Proof. assert (B : Rabs (b64R hi - b64R lo) <= bpow radix2 1001).
    { rewrite bp_1000_1001. unfold Rminus. eapply Rle_trans; [apply Rabs_triang|]. rewrite Rabs_Ropp. lra. }
    destruct (b64_minus_finite hi lo Fhi Flo (rnd_below _ 1001 ltac:(lia) B)) as [E F]. split; [exact E|]. split; [exact F|].
    split; [apply (span_pos lo hi Hlt)|]. eapply Rle_trans; [apply Rle_abs|]. apply rnd_bounded; [lia|exact B]. Qed.

  Lemma restore_value y : b64fin y = true -> 0 <= b64R y <= 1 ->
    b64fin (b64_restore lo hi y) = true /\
    b64R (b64_restore lo hi y) = rnd64 (rnd64 (b64R y * rnd64 (b64R hi - b64R lo)) + b64R lo).
  Proof. intros Fy Hy. destruct span_eq as (Es & Fs & S0 & S1). set (s := rnd64 (b64R hi - b64R lo)) in *.
    assert (P : 0 <= b64R y * s <= s) by nra.
    assert (Bp : Rabs (b64R y * s) <= bpow radix2 1001) by (rewrite Rabs_pos_eq; lra).
    destruct (b64_mult_finite y (sub64 hi lo) Fy Fs) as [Em Fm]; [rewrite Es; exact (rnd_below _ 1001 ltac:(lia) Bp)|].
    rewrite Es in Em. unfold b64_restore.
    assert (Br : Rabs (rnd64 (b64R y * s) + b64R lo) <= bpow radix2 1002).
    { eapply Rle_trans; [apply Rabs_triang|]. pose proof (rnd_bounded _ 1001 ltac:(lia) Bp). rewrite bp_1001_1002. pose proof bp_1000_1001. pose proof (bpow_gt_0 radix2 1000). lra. }
    destruct (b64_plus_finite (mul64 y (sub64 hi lo)) lo Fm Flo) as [Ea Fa]; [rewrite Em; exact (rnd_below _ 1002 ltac:(lia) Br)|].
    split; [exact Fa|]. rewrite Ea, Em. reflexivity. Qed.

  Lemma restore_lower y : b64fin y = true -> 0 <= b64R y <= 1 -> b64R lo <= b64R (b64_restore lo hi y).
  Proof. intros Fy Hy. destruct (restore_value y Fy Hy) as [_ ->]. destruct span_eq as (_ & _ & S0 & _). rewrite <- (rnd_fix lo) at 1. apply rnd64_le.
    assert (0 <= rnd64 (b64R y * rnd64 (b64R hi - b64R lo))) by (rewrite <- rnd64_0; apply rnd64_le; nra). lra. Qed.

  Lemma restore_monotone y z : b64fin y = true -> b64fin z = true -> 0 <= b64R y -> b64R y <= b64R z -> b64R z <= 1 ->
    b64R (b64_restore lo hi y) <= b64R (b64_restore lo hi z).
  Proof. intros Fy Fz A B D. destruct (restore_value y Fy) as [_ ->]; [lra|]. destruct (restore_value z Fz) as [_ ->]; [lra|].
    destruct span_eq as (_ & _ & S0 & _). apply rnd64_le, Rplus_le_compat_r, rnd64_le. nra. Qed.

  Lemma restore_zero y : b64fin y = true -> b64R y = 0 -> b64R (b64_restore lo hi y) = b64R lo.
  Proof. intros Fy E. destruct (restore_value y Fy) as [_ ->]; [lra|]. rewrite E, Rmult_0_l, rnd64_0, Rplus_0_l. apply rnd_fix. Qed.

  Let M := Rmax (Rabs (b64R lo)) (Rabs (b64R hi)).

  Lemma M_bounds : Rabs (b64R lo) <= M /\ Rabs (b64R hi) <= M /\ 0 <= M.
  Proof. unfold M. pose proof (Rmax_l (Rabs (b64R lo)) (Rabs (b64R hi))). pose proof (Rmax_r (Rabs (b64R lo)) (Rabs (b64R hi))). pose proof (Rabs_pos (b64R lo)). lra. Qed.

  Lemma restore_upper y : b64fin y = true -> 0 <= b64R y <= 1 -> b64R (b64_restore lo hi y) <= b64R hi + 4 * bpow radix2 (-53) * M.
  Proof. intros Fy Hy. destruct (restore_value y Fy Hy) as [_ ->]. destruct span_eq as (Es & Fs & S0 & _). destruct M_bounds as (Ml & Mh & M0). apply Rabs_le_inv in Ml. apply Rabs_le_inv in Mh.
    destruct (rnd_diff hi lo) as (e & Ee & Q). pose proof u_small as U. set (u := bpow radix2 (-53)) in *. apply Rabs_le_inv in Ee.
    assert (P : rnd64 (b64R y * rnd64 (b64R hi - b64R lo)) <= rnd64 (b64R hi - b64R lo)).
    { apply Rle_trans with (rnd64 (rnd64 (b64R hi - b64R lo))); [apply rnd64_le; nra|]. rewrite <- Es, rnd_fix. lra. }
    apply Rle_trans with (rnd64 (rnd64 (b64R hi - b64R lo) + b64R lo)); [apply rnd64_le; lra|].
    rewrite <- Es. destruct (rnd_sum (sub64 hi lo) lo) as (e' & Ee' & Q'). rewrite Q', Es, Q. fold u in Ee'. apply Rabs_le_inv in Ee'.
    set (a := b64R hi) in *. set (b := b64R lo) in *. 
    replace (((a - b) * (1 + e) + b) * (1 + e')) with (a + (a - b) * e + (a + (a - b) * e) * e') by ring.
    assert (X : (a - b) * e <= 2 * M * u) by nra. assert (X' : - (2 * M * u) <= (a - b) * e) by nra.
    assert (Y : (a + (a - b) * e) * e' <= (M + 2 * M * u) * u). { set (w := a + (a - b) * e) in *. assert (- (M + 2 * M * u) <= w <= M + 2 * M * u) by (unfold w; lra). nra. }
    assert (Z : 2 * M * u * u <= M * u) by nra. lra. Qed.

  (** Normalising and restoring *)
  Lemma roundtrip x : b64fin x = true -> b64R lo <= b64R x <= b64R hi ->
    Rabs (b64R (b64_restore lo hi (b64_normalize lo hi x)) - b64R x) <= bpow radix2 (-50) * M + bpow radix2 (-1070) * (1 + M).
  Proof. intros Fx Hx. destruct span_eq as (Es & Fs & S0 & S1). destruct M_bounds as (Ml & Mh & M0). apply Rabs_le_inv in Ml. apply Rabs_le_inv in Mh.
    destruct (normalize_value lo hi Flo Fhi Hlt Fs x Fx Hx) as (Fy & Ey & By). destruct (restore_value _ Fy By) as [_ ->]. rewrite Ey in *.
    destruct (rnd_diff hi lo) as (e & Ee & Q). destruct (rnd_diff x lo) as (f & Ef & Q1). pose proof u_small as U.
    assert (BH : bpow radix2 (-50) = 8 * bpow radix2 (-53)) by (change (-50)%Z with (3 + -53)%Z; rewrite bpow_plus; reflexivity).
    assert (BE : bpow radix2 (-1070) = 32 * bpow radix2 (-1075)) by (change (-1070)%Z with (5 + -1075)%Z; rewrite bpow_plus; reflexivity).
    rewrite BH, BE.
    assert (D0 : 0 <= rnd64 (b64R x - b64R lo)) by (rewrite <- rnd64_0; apply rnd64_le; lra).
    assert (D1 : rnd64 (b64R x - b64R lo) <= rnd64 (b64R hi - b64R lo)) by (apply rnd64_le; lra).
    set (s := rnd64 (b64R hi - b64R lo)) in *. set (d := rnd64 (b64R x - b64R lo)) in *.
    assert (dsB : 0 <= d / s <= 1).
    { split; [apply Rmult_le_pos; [assumption|left; apply Rinv_0_lt_compat; assumption]|]. apply (Rmult_le_reg_r s); [assumption|]. unfold Rdiv. rewrite Rmult_assoc, Rinv_l by lra. lra. }
    pose proof (rnd64_error (d / s)) as E1. rewrite (Rabs_pos_eq (d / s)) in E1 by lra. set (y := rnd64 (d / s)) in *.
    pose proof (rnd64_error (y * s)) as E2. rewrite (Rabs_pos_eq (y * s)) in E2 by nra. set (p := rnd64 (y * s)) in *.
    pose proof (rnd64_error (p + b64R lo)) as E3. set (z := rnd64 (p + b64R lo)) in *.
    set (u := bpow radix2 (-53)) in *. assert (H0 : 0 < bpow radix2 (-1075)) by apply bpow_gt_0.
    assert (H1 : bpow radix2 (-1075) <= u) by (apply bpow_le; lia). set (h := bpow radix2 (-1075)) in *.
    set (a := b64R hi) in *. set (b := b64R lo) in *. set (c := b64R x) in *.
    apply Rabs_le_inv in Ee, Ef, E1, E2. clearbody s d y p z u h M a b c. clear - Hx Ml Mh M0 Ee Q Ef Q1 U S0 D0 D1 dsB By E1 E2 E3 H0 H1 Hlt.
    assert (ab : 0 <= a - b <= 2 * M) by lra. assert (uM : 0 <= u * M) by (apply Rmult_le_pos; lra).
    assert (abe : (a - b) * e <= 2 * M * u). { apply Rle_trans with ((a - b) * u); [apply Rmult_le_compat_l; lra|apply Rmult_le_compat_r; lra]. }
    assert (Sb : s <= 2 * M + 2 * (u * M)) by lra. assert (Sb' : s <= 3 * M) by (assert (u * M <= / 1000000 * M) by (apply Rmult_le_compat_r; lra); lra).
    assert (us : u * s <= 2 * (u * M) + 2 * (u * (u * M))). { replace (2 * (u * M) + 2 * (u * (u * M))) with (u * (2 * M + 2 * (u * M))) by ring. apply Rmult_le_compat_l; lra. }
    assert (hs : h * s <= 3 * (h * M)). { replace (3 * (h * M)) with (h * (3 * M)) by ring. apply Rmult_le_compat_l; lra. }
    assert (Ys : - (u * s + h * s) <= y * s - d <= u * s + h * s).
    { assert (ds : d = d / s * s) by (field; lra). set (r := d / s) in *. clearbody r. rewrite ds. replace (y * s - r * s) with ((y - r) * s) by ring.
      assert (ur : u * r <= u * 1) by (apply Rmult_le_compat_l; lra). replace (u * s + h * s) with ((u + h) * s) by ring. 
      split; [rewrite Ropp_mult_distr_l|]; apply Rmult_le_compat_r; lra. }
    assert (yS : 0 <= y * s <= s). { split; [apply Rmult_le_pos; lra|]. replace s with (1 * s) at 2 by ring. apply Rmult_le_compat_r; lra. }
    assert (uyS : u * (y * s) <= u * s) by (apply Rmult_le_compat_l; lra).
    assert (Pd : - (2 * (u * s) + h * s + h) <= p - d <= 2 * (u * s) + h * s + h) by lra.
    assert (Dc : - (2 * (u * M)) <= d - (c - b) <= 2 * (u * M)).
    { rewrite Q1. replace ((c - b) * (1 + f) - (c - b)) with ((c - b) * f) by ring. replace (2 * (u * M)) with ((2 * M) * u) by ring.
      split; [apply Rle_trans with ((c - b) * - u); [|apply Rmult_le_compat_l; lra]|apply Rle_trans with ((c - b) * u); [apply Rmult_le_compat_l; lra|]].
      - replace ((c - b) * - u) with (- ((c - b) * u)) by ring. apply Ropp_le_contravar, Rmult_le_compat_r; lra.
      - apply Rmult_le_compat_r; lra. }
    set (E := 6 * (u * M) + 4 * (u * (u * M)) + 3 * (h * M) + h).
    assert (hM : 0 <= h * M) by (apply Rmult_le_pos; lra). assert (uuM : 0 <= u * (u * M)) by (apply Rmult_le_pos; lra).
    assert (E0 : 0 <= E) by (unfold E; lra).
    assert (Pb : - E <= p + b - c <= E) by (unfold E; lra).
    assert (Pa : Rabs (p + b) <= M + E) by (apply Rabs_le; lra).
    assert (E3' : Rabs (z - (p + b)) <= u * (M + E) + h). { eapply Rle_trans; [exact E3|]. apply Rplus_le_compat_r, Rmult_le_compat_l; lra. }
    apply Rabs_le_inv in E3'. apply Rabs_le.
    assert (T : E + (u * (M + E) + h) <= 8 * u * M + 32 * h * (1 + M)).
    { assert (X1 : u * (u * M) <= / 1000000 * (u * M)) by (apply Rmult_le_compat_r; lra).
      assert (X2 : u * (u * (u * M)) <= / 1000000 * (u * (u * M))) by (apply Rmult_le_compat_r; lra).
      assert (X3 : u * (h * M) <= / 1000000 * (h * M)) by (apply Rmult_le_compat_r; lra). assert (X4 : u * h <= / 1000000 * h) by (apply Rmult_le_compat_r; lra).
      replace (E + (u * (M + E) + h)) with (7 * (u * M) + 10 * (u * (u * M)) + 4 * (u * (u * (u * M))) + 3 * (h * M) + 3 * (u * (h * M)) + 2 * h + u * h) by (unfold E; ring).
      replace (8 * u * M + 32 * h * (1 + M)) with (8 * (u * M) + 32 * h + 32 * (h * M)) by ring. lra. }
    split; lra. Qed.
End Restore.

(** ** Limits of the fit *)
Lemma limits_inside b v : b64fin b = true -> b64fin v = true -> 0 <= b64R b <= bpow radix2 20 -> Rabs (b64R v) <= bpow radix2 1000 ->
  let lower := fst (b64_limits b v) in let upper := snd (b64_limits b v) in
  b64fin lower = true /\ b64fin upper = true /\ b64R lower <= b64R v <= b64R upper /\
  b64R lower = rnd64 (b64R v - rnd64 (b64R b * Rabs (b64R v))) /\ b64R upper = rnd64 (b64R v + rnd64 (b64R b * Rabs (b64R v))).
Proof. intros Fb Fv Hb Hv lower upper. destruct (b64_abs v) as [Ea Fa]. rewrite Fv in Fa. pose proof (Rabs_pos (b64R v)) as V0.
  assert (Bp : Rabs (b64R b * Rabs (b64R v)) <= bpow radix2 1020).
  { rewrite Rabs_pos_eq by (apply Rmult_le_pos; lra). change 1020%Z with (20 + 1000)%Z. rewrite bpow_plus. apply Rmult_le_compat; lra. }
  destruct (b64_mult_finite b (abs64 v) Fb Fa) as [Em Fm]; [rewrite Ea; exact (rnd_below _ 1020 ltac:(lia) Bp)|]. rewrite Ea in Em.
  assert (D0 : 0 <= rnd64 (b64R b * Rabs (b64R v))) by (rewrite <- rnd64_0; apply rnd64_le, Rmult_le_pos; lra).
  pose proof (rnd_bounded _ 1020 ltac:(lia) Bp) as Bd. set (d := rnd64 (b64R b * Rabs (b64R v))) in *. rewrite (Rabs_pos_eq d) in Bd by assumption.
  assert (Q : bpow radix2 1021 = 2 * bpow radix2 1020) by (change 1021%Z with (1 + 1020)%Z; rewrite bpow_plus; reflexivity).
  assert (Q' : bpow radix2 1000 <= bpow radix2 1020) by (apply bpow_le; lia). pose proof (Rabs_le_inv _ _ Hv) as Hv'.
  destruct (b64_minus_finite v (mul64 b (abs64 v)) Fv Fm) as [El Fl]; [rewrite Em; apply (rnd_below _ 1021); [lia|apply Rabs_le; lra]|].
  destruct (b64_plus_finite v (mul64 b (abs64 v)) Fv Fm) as [Eu Fu]; [rewrite Em; apply (rnd_below _ 1021); [lia|apply Rabs_le; lra]|].
  rewrite Em in El, Eu. unfold lower, upper, b64_limits; cbn [fst snd]. rewrite El, Eu. split; [exact Fl|]. split; [exact Fu|]. split; [|auto].
  rewrite <- (rnd_fix v) at 2 3. split; apply rnd64_le; lra. Qed.

(** A number plus more than the 2^52-th part of it is rounded to a greater number. *)
Lemma succ_gap v : 0 < b64R v -> bpow radix2 (-1000) <= b64R v -> succ radix2 (FLT_exp (-1074) 53) (b64R v) <= b64R v + bpow radix2 (-52) * b64R v.
Proof. intros H L. rewrite succ_eq_pos by lra. apply Rplus_le_compat_l. rewrite ulp_neq_0 by lra. unfold cexp. set (m := mag radix2 (b64R v)).
  assert (B : bpow radix2 (m - 1) <= Rabs (b64R v)) by (apply bpow_mag_le; lra). rewrite Rabs_pos_eq in B by lra.
  assert (Mb : (-1000 < m)%Z). { apply mag_gt_bpow. rewrite Rabs_pos_eq; lra. }
  unfold FLT_exp. rewrite Z.max_l by lia. replace (m - 53)%Z with (-52 + (m - 1))%Z by lia. rewrite bpow_plus. apply Rmult_le_compat_l; [apply bpow_ge_0|exact B]. Qed.

Lemma round_up_strict v d : bpow radix2 (-1000) <= b64R v -> bpow radix2 (-52) * b64R v <= d -> b64R v < rnd64 (b64R v + d).
Proof. intros L Hd. pose proof (bpow_gt_0 radix2 (-1000)) as P. assert (V : 0 < b64R v) by lra.
  apply Rlt_le_trans with (succ radix2 (FLT_exp (-1074) 53) (b64R v)); [apply succ_gt_id; lra|].
  assert (F : generic_format radix2 (FLT_exp (-1074) 53) (succ radix2 (FLT_exp (-1074) 53) (b64R v))) by (apply generic_format_succ; [auto with typeclass_instances|apply b64_format]).
  rewrite <- (round_generic radix2 (FLT_exp (-1074) 53) ZnearestE _ F). apply rnd64_le. pose proof (succ_gap v V L). lra. Qed.

Lemma limits_distinct b v : b64fin b = true -> b64fin v = true -> bpow radix2 (-52) <= b64R b <= bpow radix2 20 ->
  bpow radix2 (-900) <= Rabs (b64R v) <= bpow radix2 1000 ->
  b64R (fst (b64_limits b v)) < b64R (snd (b64_limits b v)).
Proof. intros Fb Fv Hb Hv. pose proof (bpow_gt_0 radix2 (-52)) as P. destruct (limits_inside b v Fb Fv ltac:(lra) (proj2 Hv)) as (_ & _ & [B1 B2] & El & Eu).
  set (d := rnd64 (b64R b * Rabs (b64R v))) in *.
  assert (D : bpow radix2 (-52) * Rabs (b64R v) <= d).
  { unfold d. apply Rle_trans with (rnd64 (bpow radix2 (-52) * Rabs (b64R v))); [|apply rnd64_le, Rmult_le_compat_r; [apply Rabs_pos|lra]].
    right. symmetry. apply round_generic; [auto with typeclass_instances|]. rewrite Rmult_comm. apply mult_bpow_exact_FLT.
    - apply generic_format_abs, b64_format.
    - assert (M : (-900 < mag radix2 (Rabs (b64R v)))%Z) by (apply mag_gt_bpow; rewrite Rabs_Rabsolu; lra). lia. }
  assert (G : bpow radix2 (-1000) <= bpow radix2 (-900)) by (apply bpow_le; lia).
  destruct (Rle_lt_dec 0 (b64R v)) as [V|V].
  - rewrite (Rabs_pos_eq (b64R v)) in * by lra. pose proof (round_up_strict v d ltac:(lra) D). rewrite Eu. lra.
  - rewrite (Rabs_left (b64R v)) in * by lra. set (w := Binary.Bopp 53 1024 unop_nan_pl64 v). assert (W : b64R w = - b64R v) by (apply B2R_Bopp).
    pose proof (round_up_strict w d ltac:(rewrite W; lra) ltac:(rewrite W; lra)) as S. rewrite W in S.
    assert (El' : b64R (fst (b64_limits b v)) = - rnd64 (- b64R v + d)).
    { rewrite El. replace (b64R v - d) with (- (- b64R v + d)) by ring. unfold rnd64. apply round_NE_opp. }
    lra. Qed.

(** ** Folding *)
Lemma fold_below lo hi v : b64fin lo = true -> b64fin hi = true -> b64fin v = true ->
  Rabs (b64R lo) <= bpow radix2 1000 -> Rabs (b64R v) <= bpow radix2 1000 -> b64R v < b64R lo ->
  b64fin (b64_fold lo hi v) = true /\ b64R lo <= b64R (b64_fold lo hi v) /\
  ((b64R lo - b64R v) * (1 + bpow radix2 (-52)) <= b64R hi - b64R lo -> b64R (b64_fold lo hi v) <= b64R hi).
Proof. intros Fl Fh Fv Ml Mv L. unfold b64_fold. rewrite (proj2 (lt64_spec v lo Fv Fl) L). apply Rabs_le_inv in Ml. apply Rabs_le_inv in Mv.
  destruct (b64_minus_finite lo v Fl Fv) as [Ed Fd]; [apply (rnd_below _ 1001); [lia|rewrite bp_1000_1001; apply Rabs_le; lra]|].
  destruct (rnd_diff lo v) as (e & Ee & Q). pose proof u_small as U. apply Rabs_le_inv in Ee.
  assert (U2 : bpow radix2 (-52) = 2 * bpow radix2 (-53)) by (change (-52)%Z with (1 + -53)%Z; rewrite bpow_plus; reflexivity).
  assert (Db : Rabs (rnd64 (b64R lo - b64R v)) <= bpow radix2 1001) by (apply rnd_bounded; [lia|rewrite bp_1000_1001; apply Rabs_le; lra]). apply Rabs_le_inv in Db.
  destruct two64_R as [E2 F2].
  assert (X : rnd64 (2 * b64R (sub64 lo v)) = 2 * b64R (sub64 lo v)).
  { apply round_generic; [auto with typeclass_instances|]. rewrite Rmult_comm. change 2 with (bpow radix2 1). apply mult_bpow_pos_exact_FLT; [apply b64_format|lia]. }
  pose proof bp_1000_1001 as B1. pose proof bp_1001_1002 as B2. assert (B3 : bpow radix2 1003 = 2 * bpow radix2 1002) by (change 1003%Z with (1 + 1002)%Z; rewrite bpow_plus; reflexivity).
  pose proof (bpow_gt_0 radix2 1000) as B0.
  destruct (b64_mult_finite two64 (sub64 lo v) F2 Fd) as [Em Fm]; [rewrite E2; apply (rnd_below _ 1002); [lia|rewrite Ed, B2; apply Rabs_le; lra]|].
  rewrite E2, X, Ed in Em.
  destruct (b64_plus_finite v (mul64 two64 (sub64 lo v)) Fv Fm) as [Ea Fa]; [rewrite Em; apply (rnd_below _ 1003); [lia|rewrite B3, B2; apply Rabs_le; lra]|].
  rewrite Em in Ea. split; [exact Fa|]. rewrite Ea, Q. set (w := b64R lo - b64R v) in *. assert (W : 0 < w) by (unfold w; lra).
  replace (b64R v) with (b64R lo - w) by (unfold w; ring). split.
  - rewrite <- (rnd_fix lo) at 1. apply rnd64_le. assert (w * - (/ 1000000) <= w * e) by (apply Rmult_le_compat_l; lra). lra.
  - intros Hh. rewrite U2 in Hh. rewrite <- (rnd_fix hi). apply rnd64_le. assert (w * e <= w * bpow radix2 (-53)) by (apply Rmult_le_compat_l; lra). lra. Qed.

Lemma fold_above lo hi v : b64fin lo = true -> b64fin hi = true -> b64fin v = true ->
  Rabs (b64R hi) <= bpow radix2 1000 -> Rabs (b64R v) <= bpow radix2 1000 -> b64R lo <= b64R hi -> b64R hi < b64R v ->
  b64fin (b64_fold lo hi v) = true /\ b64R (b64_fold lo hi v) <= b64R hi /\
  ((b64R v - b64R hi) * (1 + bpow radix2 (-52)) <= b64R hi - b64R lo -> b64R lo <= b64R (b64_fold lo hi v)).
Proof. intros Fl Fh Fv Mh Mv Hlh L. unfold b64_fold.
  destruct (lt64 v lo) eqn:Z; [apply (lt64_spec v lo Fv Fl) in Z; lra|]. clear Z. rewrite (proj2 (lt64_spec hi v Fh Fv) L). apply Rabs_le_inv in Mh. apply Rabs_le_inv in Mv.
  destruct (b64_minus_finite hi v Fh Fv) as [Ed Fd]; [apply (rnd_below _ 1001); [lia|rewrite bp_1000_1001; apply Rabs_le; lra]|].
  destruct (rnd_diff hi v) as (e & Ee & Q). pose proof u_small as U. apply Rabs_le_inv in Ee.
  assert (U2 : bpow radix2 (-52) = 2 * bpow radix2 (-53)) by (change (-52)%Z with (1 + -53)%Z; rewrite bpow_plus; reflexivity).
  assert (Db : Rabs (rnd64 (b64R hi - b64R v)) <= bpow radix2 1001) by (apply rnd_bounded; [lia|rewrite bp_1000_1001; apply Rabs_le; lra]). apply Rabs_le_inv in Db.
  destruct two64_R as [E2 F2].
  assert (X : rnd64 (2 * b64R (sub64 hi v)) = 2 * b64R (sub64 hi v)).
  { apply round_generic; [auto with typeclass_instances|]. rewrite Rmult_comm. change 2 with (bpow radix2 1). apply mult_bpow_pos_exact_FLT; [apply b64_format|lia]. }
  pose proof bp_1000_1001 as B1. pose proof bp_1001_1002 as B2. assert (B3 : bpow radix2 1003 = 2 * bpow radix2 1002) by (change 1003%Z with (1 + 1002)%Z; rewrite bpow_plus; reflexivity).
  pose proof (bpow_gt_0 radix2 1000) as B0.
  destruct (b64_mult_finite two64 (sub64 hi v) F2 Fd) as [Em Fm]; [rewrite E2; apply (rnd_below _ 1002); [lia|rewrite Ed, B2; apply Rabs_le; lra]|].
  rewrite E2, X, Ed in Em.
  destruct (b64_plus_finite v (mul64 two64 (sub64 hi v)) Fv Fm) as [Ea Fa]; [rewrite Em; apply (rnd_below _ 1003); [lia|rewrite B3, B2; apply Rabs_le; lra]|].
  rewrite Em in Ea. split; [exact Fa|]. rewrite Ea, Q. set (w := b64R hi - b64R v) in *. assert (W : w < 0) by (unfold w; lra).
  assert (Ev : b64R v = b64R hi - w) by (unfold w; ring). rewrite Ev. clearbody w. split.
  - rewrite <- (rnd_fix hi) at 2. apply rnd64_le. assert (- w * - (/ 1000000) <= - w * e) by (apply Rmult_le_compat_l; lra). lra.
  - intros Hh. rewrite U2 in Hh. replace (b64R hi - w - b64R hi) with (- w) in Hh by ring. rewrite <- (rnd_fix lo) at 1. apply rnd64_le. assert (- w * e <= - w * bpow radix2 (-53)) by (apply Rmult_le_compat_l; lra). lra. Qed.

Lemma fold_inside lo hi v : b64fin lo = true -> b64fin hi = true -> b64fin v = true -> b64R lo <= b64R v <= b64R hi -> b64_fold lo hi v = v.
Proof. intros Fl Fh Fv H. unfold b64_fold. destruct (lt64 v lo) eqn:A; [apply (lt64_spec v lo Fv Fl) in A; lra|]. destruct (lt64 hi v) eqn:B; [apply (lt64_spec hi v Fh Fv) in B; lra|reflexivity]. Qed.

(** ** Number of values *)
Lemma bolster_bounds n f : (Z.of_nat n <= 2 ^ 53)%Z -> 0 <= f <= 1 -> (0 <= b64_bolster n f)%Z /\ (0 <= b64_uniform n f)%Z.
Proof. intros Hn Hf. unfold b64_uniform, b64_bolster. pose proof (pos_INR n) as N.
  assert (A : 0 <= rnd64 (INR n * f) <= INR n).
  { split; [rewrite <- rnd64_0; apply rnd64_le, Rmult_le_pos; lra|]. rewrite <- (rnd64_INR n Hn) at 2. apply rnd64_le. rewrite <- (Rmult_1_r (INR n)) at 2. apply Rmult_le_compat_l; lra. }
  set (p := rnd64 (INR n * f)) in *. 
  assert (H : 0 <= rnd64 (p / 2) <= INR n / 2).
  { split; [rewrite <- rnd64_0; apply rnd64_le; lra|].
    assert (F : rnd64 (INR n / 2) = INR n / 2).
    { unfold rnd64. apply round_generic; [auto with typeclass_instances|]. unfold Rdiv. destruct (Nat.eq_dec n 0) as [->|Z].
      - simpl. rewrite Rmult_0_l. apply generic_format_0.
      - replace (/ 2) with (bpow radix2 (-1)) by reflexivity. apply mult_bpow_exact_FLT.
        + pose proof (rnd64_INR n Hn) as E. rewrite <- E. apply generic_format_round; auto with typeclass_instances.
        + assert (M : (0 < mag radix2 (INR n))%Z) by (apply mag_gt_bpow; rewrite Rabs_pos_eq by lra; change (bpow radix2 0) with (INR 1); apply le_INR; lia). lia. }
    rewrite <- F. apply rnd64_le. lra. }
  pose proof (Zfloor_lb (rnd64 (p / 2))) as L. split.
  - apply Zfloor_lub. simpl. lra.
  - rewrite INR_IZR_INZ in H. assert (Q : IZR (2 * Zfloor (rnd64 (p / 2))) <= IZR (Z.of_nat n)) by (rewrite mult_IZR; lra). apply le_IZR in Q. lia. Qed.

(** ** Interpolation *)
Lemma between_left x0 y0 x1 y1 : b64fin x0 = true -> b64fin y0 = true -> b64fin (b64_slope x0 y0 x1 y1) = true ->
  b64fin (b64_between x0 y0 x1 y1 x0) = true /\ b64R (b64_between x0 y0 x1 y1 x0) = b64R y0.
Proof. intros Fx Fy Fs. unfold b64_between.
  destruct (b64_minus_finite x0 x0 Fx Fx) as [Ed Fd]; [rewrite Rminus_diag_eq, rnd64_0, Rabs_R0 by reflexivity; apply bpow_gt_0|].
  rewrite Rminus_diag_eq, rnd64_0 in Ed by reflexivity.
  destruct (b64_mult_finite _ _ Fs Fd) as [Em Fm]; [rewrite Ed, Rmult_0_r, rnd64_0, Rabs_R0; apply bpow_gt_0|]. rewrite Ed, Rmult_0_r, rnd64_0 in Em.
  destruct (b64_plus_finite _ y0 Fm Fy) as [Ea Fa]; [rewrite Em, Rplus_0_l, rnd_fix; apply Binary.abs_B2R_lt_emax|].
  split; [exact Fa|]. rewrite Ea, Em, Rplus_0_l. apply rnd_fix. Qed.

Lemma minus_value x y : b64fin x = true -> b64fin y = true -> b64fin (sub64 x y) = true -> b64R (sub64 x y) = rnd64 (b64R x - b64R y).
Proof. intros Fx Fy F. apply b64_minus_finite; [exact Fx|exact Fy|]. apply b64_minus_overflow; assumption. Qed.
Lemma plus_value x y : b64fin x = true -> b64fin y = true -> b64fin (add64 x y) = true -> b64R (add64 x y) = rnd64 (b64R x + b64R y).
Proof. intros Fx Fy Ff. pose proof (Binary.Bplus_correct 53 1024 Hp Hpe binop_nan_pl64 mode_NE x y Fx Fy) as G.
  destruct (Rlt_bool_spec (Rabs (round radix2 (SpecFloat.fexp 53 1024) (round_mode mode_NE) (b64R x + b64R y))) (bpow radix2 1024)) as [H|H]; [exact (proj1 G)|].
  destruct G as (G & _). exfalso. change (Binary.Bplus 53 1024 Hp Hpe binop_nan_pl64 mode_NE x y) with (add64 x y) in G. destruct (add64 x y); simpl in G; discriminate. Qed.
Lemma mult_value x y : b64fin (mul64 x y) = true -> b64R (mul64 x y) = rnd64 (b64R x * b64R y).
Proof. intros Ff. pose proof (Binary.Bmult_correct 53 1024 Hp Hpe binop_nan_pl64 mode_NE x y) as G.
  destruct (Rlt_bool_spec (Rabs (round radix2 (SpecFloat.fexp 53 1024) (round_mode mode_NE) (b64R x * b64R y))) (bpow radix2 1024)) as [H|H]; [exact (proj1 G)|].
  exfalso. change (Binary.Bmult 53 1024 Hp Hpe binop_nan_pl64 mode_NE x y) with (mul64 x y) in G. destruct (mul64 x y); simpl in G; discriminate. Qed.
Lemma div_value x y : b64R y <> 0 -> b64fin (div64 x y) = true -> b64R (div64 x y) = rnd64 (b64R x / b64R y).
Proof. intros Hy Ff. pose proof (Binary.Bdiv_correct 53 1024 Hp Hpe binop_nan_pl64 mode_NE x y Hy) as G.
  destruct (Rlt_bool_spec (Rabs (round radix2 (SpecFloat.fexp 53 1024) (round_mode mode_NE) (b64R x / b64R y))) (bpow radix2 1024)) as [H|H]; [exact (proj1 G)|].
  exfalso. change (Binary.Bdiv 53 1024 Hp Hpe binop_nan_pl64 mode_NE x y) with (div64 x y) in G. destruct (div64 x y); simpl in G; discriminate. Qed.
Lemma rnd64_sign x : (0 <= x -> 0 <= rnd64 x) /\ (x <= 0 -> rnd64 x <= 0).
Proof. pose proof rnd64_0 as Z. split; intros H; apply rnd64_le in H; lra. Qed.
Lemma between_value x0 y0 x1 y1 x : no_overflow x0 y0 x1 y1 x -> b64R x0 < b64R x1 -> exists s, b64R (b64_between x0 y0 x1 y1 x) = rnd64 (rnd64 (s * rnd64 (b64R x - b64R x0)) + b64R y0) /\
  s = rnd64 (rnd64 (b64R y1 - b64R y0) / rnd64 (b64R x1 - b64R x0)) /\ (b64R y0 <= b64R y1 -> 0 <= s) /\ (b64R y1 <= b64R y0 -> s <= 0).
Proof. intros (F0 & G0 & F1 & G1 & F & Fd & Fe & Fs & Fx & Fm & Fa) L. exists (b64R (b64_slope x0 y0 x1 y1)). unfold b64_between. unfold b64_slope at 1. rewrite (plus_value _ _ Fm G0 Fa), (mult_value _ _ Fm), (minus_value _ _ F F0 Fx).
  split; [reflexivity|]. pose proof (span_pos x0 x1 L) as E. unfold b64_slope. rewrite (div_value _ _ ltac:(rewrite (minus_value _ _ F1 F0 Fe); lra) Fs), (minus_value _ _ F1 F0 Fe), (minus_value _ _ G1 G0 Fd). split; [reflexivity|].
  assert (I : 0 < / rnd64 (b64R x1 - b64R x0)) by (apply Rinv_0_lt_compat, E). destruct (rnd64_sign (b64R y1 - b64R y0)) as [P N].
  split; intros H; apply rnd64_sign; unfold Rdiv; [specialize (P ltac:(lra))|specialize (N ltac:(lra))]; nra. Qed.
Lemma between_sides x0 y0 x1 y1 x : no_overflow x0 y0 x1 y1 x -> b64R x0 < b64R x1 -> b64R x0 <= b64R x ->
  (b64R y0 <= b64R y1 -> b64R y0 <= b64R (b64_between x0 y0 x1 y1 x)) /\ (b64R y1 <= b64R y0 -> b64R (b64_between x0 y0 x1 y1 x) <= b64R y0).
Proof. intros H L Lx. destruct (between_value _ _ _ _ _ H L) as (s & -> & _ & S1 & S2). assert (D : 0 <= rnd64 (b64R x - b64R x0)) by (apply rnd64_sign; lra).
  split; intros Hy; [specialize (S1 Hy)|specialize (S2 Hy)].
  - rewrite <- (rnd_fix y0) at 1. apply rnd64_le. assert (0 <= rnd64 (s * rnd64 (b64R x - b64R x0))) by (apply rnd64_sign; nra). lra.
  - rewrite <- (rnd_fix y0) at 2. apply rnd64_le. assert (rnd64 (s * rnd64 (b64R x - b64R x0)) <= 0) by (apply rnd64_sign; nra). lra. Qed.
Lemma between_monotone x0 y0 x1 y1 x x' : no_overflow x0 y0 x1 y1 x -> no_overflow x0 y0 x1 y1 x' -> b64R x0 < b64R x1 -> b64R x <= b64R x' ->
  (b64R y0 <= b64R y1 -> b64R (b64_between x0 y0 x1 y1 x) <= b64R (b64_between x0 y0 x1 y1 x')) /\ (b64R y1 <= b64R y0 -> b64R (b64_between x0 y0 x1 y1 x') <= b64R (b64_between x0 y0 x1 y1 x)).
Proof. intros H H' L Lx. destruct (between_value _ _ _ _ _ H L) as (s & -> & -> & S1 & S2). destruct (between_value _ _ _ _ _ H' L) as (s' & -> & -> & _ & _). set (s := rnd64 (_ / _)) in *.
  assert (D : rnd64 (b64R x - b64R x0) <= rnd64 (b64R x' - b64R x0)) by (apply rnd64_le; lra).
  split; intros Hy; [specialize (S1 Hy)|specialize (S2 Hy)]; apply rnd64_le, Rplus_le_compat_r, rnd64_le; nra. Qed.

(** ** Normalisation *)
Lemma normalize_to_one m x : b64fin m = true -> b64fin x = true -> 0 < b64R m -> 0 <= b64R x <= b64R m ->
  b64fin (div64 x m) = true /\ 0 <= b64R (div64 x m) <= 1 /\ b64R (div64 x m) = rnd64 (b64R x / b64R m).
Proof. intros Fm Fx Hm Hx. assert (B : 0 <= b64R x / b64R m <= 1).
  { split; [apply Rmult_le_pos; [lra|left; apply Rinv_0_lt_compat; lra]|]. apply (Rmult_le_reg_r (b64R m)); [lra|]. unfold Rdiv. rewrite Rmult_assoc, Rinv_l by lra. lra. }
  assert (R : 0 <= rnd64 (b64R x / b64R m) <= 1) by (rewrite <- rnd64_0, <- rnd64_1; split; apply rnd64_le; lra).
  destruct (b64_div_finite x m ltac:(lra)) as [E F]; [rewrite Rabs_pos_eq by lra; pose proof one_below_max; lra|]. rewrite E, F. auto. Qed.

Lemma normalize_max m l : In m l -> 0 < b64R m -> Forall (fun x => b64fin x = true /\ 0 <= b64R x <= b64R m) l ->
  Forall (fun y => b64fin y = true /\ 0 <= b64R y <= 1) (b64_normalize_to m l) /\ Exists (fun y => b64R y = 1) (b64_normalize_to m l) /\
  (forall i j x x' y y', nth_error l i = Some x -> nth_error l j = Some x' -> nth_error (b64_normalize_to m l) i = Some y -> nth_error (b64_normalize_to m l) j = Some y' ->
     b64R x <= b64R x' -> b64R y <= b64R y').
Proof. intros I Hm F. assert (Fm : b64fin m = true) by (rewrite Forall_forall in F; apply F; assumption). split; [|split].
  - unfold b64_normalize_to. rewrite Forall_map. eapply Forall_impl; [|exact F]. intros x [Fx Hx]. destruct (normalize_to_one m x Fm Fx Hm Hx) as (A & B & _). auto.
  - apply Exists_exists. exists (div64 m m). split; [apply (in_map (fun x => div64 x m)); assumption|]. destruct (normalize_to_one m m Fm Fm Hm ltac:(lra)) as (_ & _ & ->).
    unfold Rdiv. rewrite Rinv_r by lra. apply rnd64_1.
  - intros i j x x' y y' A B D E L. pose proof (eq_trans (eq_sym (map_nth_error (fun x => div64 x m) i l A)) D) as D'. pose proof (eq_trans (eq_sym (map_nth_error (fun x => div64 x m) j l B)) E) as E'. injection D' as <-. injection E' as <-.
    rewrite Forall_forall in F. destruct (F x (nth_error_In _ _ A)) as [Fx Hx]. destruct (F x' (nth_error_In _ _ B)) as [Fx' Hx'].
    destruct (normalize_to_one m x Fm Fx Hm Hx) as (_ & _ & ->). destruct (normalize_to_one m x' Fm Fx' Hm Hx') as (_ & _ & ->).
    apply rnd64_le. apply Rmult_le_compat_r; [left; apply Rinv_0_lt_compat; lra|assumption]. Qed.
