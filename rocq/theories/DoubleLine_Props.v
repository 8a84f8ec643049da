(** Properties C71 and C158: the values of the limits of a fit and of interpolated curves in double precision. *)
From Coq Require Import Reals ZArith Lia Lra Psatz List.
From Flocq Require Import Core IEEE754.BinarySingleNaN IEEE754.Binary IEEE754.Bits.
From Verif Require Import Float64 FloatTrain Double_Model Double_Spec Double_Proofs Double_Props DoubleMse_Proofs DoubleScale_Props DoubleNorm_Props.
Import ListNotations.
Local Open Scope R_scope.

(** One rounding with relative error [u] and absolute error [t] *)
Definition near (u t x r : R) : Prop := Rabs (r - x) <= u * Rabs x + t.
Lemma near_rnd x : near (bpow radix2 (-53)) (bpow radix2 (-1075)) x (rnd64 x).
Proof. apply rnd64_error. Qed.

(** The arithmetic of [v - p] and [v + p] for a rounded product [p] *)
Lemma limit_error u t v b p r : 0 <= u <= / 16 -> 0 <= t -> 0 <= b <= 1 -> near u t (b * Rabs v) p -> near u t (v + p) r -> Rabs (r - (v + b * Rabs v)) <= 4 * u * Rabs v + 4 * t.
Proof. unfold near. intros U T B P R. pose proof (Rabs_pos v) as V. assert (W : 0 <= b * Rabs v <= Rabs v) by (split; [apply Rmult_le_pos; lra|]; rewrite <- (Rmult_1_l (Rabs v)) at 2; apply Rmult_le_compat_r; lra).
  rewrite (Rabs_pos_eq (b * Rabs v)) in P by lra. assert (X : u * (b * Rabs v) <= u * Rabs v) by (apply Rmult_le_compat_l; lra). assert (Y : 0 <= u * Rabs v) by (apply Rmult_le_pos; lra). assert (Y' : u * Rabs v <= / 16 * Rabs v) by (apply Rmult_le_compat_r; lra).
  apply Rabs_le_inv in P. pose proof (Rabs_triang v p) as Tr. assert (Pp : Rabs p <= Rabs v + u * Rabs v + t) by (apply Rabs_le; lra). assert (K : u * Rabs (v + p) <= u * (2 * Rabs v + (u * Rabs v + t))) by (apply Rmult_le_compat_l; lra).
  rewrite Rmult_plus_distr_l in K. assert (K' : u * (u * Rabs v + t) <= / 16 * (u * Rabs v + t)) by (apply Rmult_le_compat_r; lra). apply Rabs_le_inv in R. apply Rabs_le. split; nra. Qed.
Lemma near_opp u t x r : near u t x r -> near u t (- x) (- r).
Proof. unfold near. intros H. replace (- r - - x) with (- (r - x)) by ring. rewrite !Rabs_Ropp. exact H. Qed.

(** ** C71 *)
(** The limits of a fit are the exact ones up to two roundings. *)
Theorem C71_double_value b v : b64fin b = true -> moderate v -> 0 <= b64R b <= 1 ->
  Rabs (b64R (fst (b64_limits b v)) - (b64R v - b64R b * Rabs (b64R v))) <= bpow radix2 (-51) * Rabs (b64R v) + bpow radix2 (-1073) /\
  Rabs (b64R (snd (b64_limits b v)) - (b64R v + b64R b * Rabs (b64R v))) <= bpow radix2 (-51) * Rabs (b64R v) + bpow radix2 (-1073).
Proof. intros Fb [Fv Mv] Hb. assert (B : 1 <= bpow radix2 20) by (simpl; lra). destruct (limits_inside b v Fb Fv ltac:(lra) Mv) as (_ & _ & _ & E & E'). rewrite E, E'. clear B E E'.
  change (-51)%Z with (2 + -53)%Z. change (-1073)%Z with (2 + -1075)%Z. rewrite !bpow_plus. change (bpow radix2 2) with 4.
  assert (U : 0 <= bpow radix2 (-53) <= / 16) by (split; [apply bpow_ge_0|change (/ 16) with (bpow radix2 (-4)); apply bpow_le; lia]). pose proof (bpow_ge_0 radix2 (-1075)) as T.
  pose proof (near_rnd (b64R b * Rabs (b64R v))) as P. set (p := rnd64 (b64R b * Rabs (b64R v))) in *. pose proof (near_rnd (b64R v + p)) as R. pose proof (near_opp _ _ _ _ (near_rnd (b64R v - p))) as R'. replace (- (b64R v - p)) with (- b64R v + p) in R' by ring.
  set (u := bpow radix2 (-53)) in *. set (t := bpow radix2 (-1075)) in *. clearbody u t. split; [|exact (limit_error u t _ _ _ _ U T Hb P R)]. rewrite <- (Rabs_Ropp (b64R v)) in P.
  pose proof (limit_error u t _ _ _ _ U T Hb P R') as K. rewrite (Rabs_Ropp (b64R v)) in K. rewrite <- Rabs_Ropp. replace (- (rnd64 (b64R v - p) - (b64R v - b64R b * Rabs (b64R v)))) with (- rnd64 (b64R v - p) - (- b64R v + b64R b * Rabs (b64R v))) by ring. exact K. Qed.
Print Assumptions C71_double_value.

(** The arithmetic of [slope * (x - x0) + y0] *)
Lemma line_error u t Q h e f k s p y r : 0 <= u <= / 16 -> 0 <= t -> Rabs e <= u -> Rabs f <= u -> Rabs k <= u -> near u t (Q * ((1 + f) / (1 + e))) s -> near u t (s * (h * (1 + k))) p -> near u t (p + y) r ->
  Rabs (r - (y + Q * h)) <= 16 * u * (Rabs (Q * h) + Rabs y) + 4 * t * (1 + Rabs h).
Proof. unfold near. intros U T E F K S P R. apply Rabs_le_inv in E, F. pose proof (quotient_error 1 e f u ltac:(lra) U E F) as G. rewrite !Rmult_1_l, Rmult_1_r in G. set (g := (1 + f) / (1 + e)) in *. clearbody g.
  rewrite (Rabs_mult Q h). pose proof (Rabs_pos Q) as q0. pose proof (Rabs_pos h) as h0. pose proof (Rabs_pos y) as y0.
  assert (A : Rabs (Q * g - Q) <= 5 / 2 * u * Rabs Q) by (replace (Q * g - Q) with (Q * (g - 1)) by ring; rewrite Rabs_mult, Rmult_comm; apply Rmult_le_compat_r; assumption).
  assert (A' : Rabs (Q * g) <= Rabs Q + 5 / 2 * u * Rabs Q) by (replace (Q * g) with (Q + (Q * g - Q)) by ring; eapply Rle_trans; [apply Rabs_triang|lra]).
  assert (uq : 0 <= u * Rabs Q) by (apply Rmult_le_pos; lra). assert (uq' : u * (u * Rabs Q) <= / 16 * (u * Rabs Q)) by (apply Rmult_le_compat_r; lra).
  assert (B : Rabs (s - Q) <= 4 * (u * Rabs Q) + t).
  { replace (s - Q) with ((s - Q * g) + (Q * g - Q)) by ring. eapply Rle_trans; [apply Rabs_triang|]. assert (u * Rabs (Q * g) <= u * (Rabs Q + 5 / 2 * u * Rabs Q)) by (apply Rmult_le_compat_l; lra). nra. }
  assert (H1 : Rabs (h * (1 + k) - h) <= u * Rabs h) by (replace (h * (1 + k) - h) with (k * h) by ring; rewrite Rabs_mult; apply Rmult_le_compat_r; assumption). set (H := h * (1 + k)) in *. clearbody H.
  assert (H2 : Rabs H <= 17 / 16 * Rabs h). { replace H with (h + (H - h)) by ring. eapply Rle_trans; [apply Rabs_triang|]. assert (u * Rabs h <= / 16 * Rabs h) by (apply Rmult_le_compat_r; lra). lra. }
  set (m := u * (Rabs Q * Rabs h)). set (n := t * Rabs h). assert (m0 : 0 <= m) by (unfold m; apply Rmult_le_pos; [lra|apply Rmult_le_pos; assumption]). assert (n0 : 0 <= n) by (unfold n; apply Rmult_le_pos; assumption).
  assert (C : Rabs (s * H - Q * h) <= 6 * m + 2 * n).
  { replace (s * H - Q * h) with ((s - Q) * H + Q * (H - h)) by ring. eapply Rle_trans; [apply Rabs_triang|]. rewrite !Rabs_mult. assert (X : Rabs (s - Q) * Rabs H <= (4 * (u * Rabs Q) + t) * (17 / 16 * Rabs h)) by (apply Rmult_le_compat; try apply Rabs_pos; assumption).
    assert (Y : Rabs Q * Rabs (H - h) <= Rabs Q * (u * Rabs h)) by (apply Rmult_le_compat_l; assumption). replace ((4 * (u * Rabs Q) + t) * (17 / 16 * Rabs h)) with (17 / 4 * m + 17 / 16 * n) in X by (unfold m, n; field). replace (Rabs Q * (u * Rabs h)) with m in Y by (unfold m; ring). lra. }
  set (D := Rabs Q * Rabs h) in *. assert (D0 : Rabs (Q * h) = D) by apply Rabs_mult. assert (um : u * m <= / 16 * m) by (apply Rmult_le_compat_r; lra). assert (un : u * n <= / 16 * n) by (apply Rmult_le_compat_r; lra). assert (ut : u * t <= / 16 * t) by (apply Rmult_le_compat_r; lra).
  assert (C' : Rabs (s * H) <= D + (6 * m + 2 * n)) by (replace (s * H) with (Q * h + (s * H - Q * h)) by ring; eapply Rle_trans; [apply Rabs_triang|lra]).
  assert (P' : Rabs (p - Q * h) <= 8 * m + 3 * n + t).
  { replace (p - Q * h) with ((p - s * H) + (s * H - Q * h)) by ring. eapply Rle_trans; [apply Rabs_triang|]. assert (X : u * Rabs (s * H) <= u * (D + (6 * m + 2 * n))) by (apply Rmult_le_compat_l; lra). replace (u * (D + (6 * m + 2 * n))) with (m + 6 * (u * m) + 2 * (u * n)) in X by (unfold m; ring). lra. }
  assert (P2 : Rabs (p + y) <= D + Rabs y + (8 * m + 3 * n + t)). { replace (p + y) with (Q * h + y + (p - Q * h)) by ring. eapply Rle_trans; [apply Rabs_triang|]. pose proof (Rabs_triang (Q * h) y). lra. }
  replace (r - (y + Q * h)) with ((r - (p + y)) + (p - Q * h)) by ring. eapply Rle_trans; [apply Rabs_triang|]. assert (X : u * Rabs (p + y) <= u * (D + Rabs y + (8 * m + 3 * n + t))) by (apply Rmult_le_compat_l; lra).
  replace (u * (D + Rabs y + (8 * m + 3 * n + t))) with (m + u * Rabs y + 8 * (u * m) + 3 * (u * n) + u * t) in X by (unfold m; ring). assert (0 <= u * Rabs y) by (apply Rmult_le_pos; lra).
  replace (16 * u * (D + Rabs y) + 4 * t * (1 + Rabs h)) with (16 * m + 16 * (u * Rabs y) + 4 * t + 4 * n) by (unfold m, n; ring). lra. Qed.

(** ** C158 *)
(** An interpolated value is the exact one up to rounding. *)
Theorem C158_value x0 y0 x1 y1 x : no_overflow x0 y0 x1 y1 x -> b64R x0 < b64R x1 ->
  let d := (b64R y1 - b64R y0) / (b64R x1 - b64R x0) * (b64R x - b64R x0) in
  Rabs (b64R (b64_between x0 y0 x1 y1 x) - (b64R y0 + d)) <= bpow radix2 (-49) * (Rabs d + Rabs (b64R y0)) + bpow radix2 (-1073) * (1 + Rabs (b64R x - b64R x0)).
Proof. intros N L d. destruct (between_value _ _ _ _ _ N L) as (s & -> & Es & _). destruct (rnd_diff x1 x0) as (e & Ee & Q1). destruct (rnd_diff y1 y0) as (f & Ef & Q2). destruct (rnd_diff x x0) as (k & Ek & Q3). rewrite Q1, Q2 in Es. rewrite Q3.
  change (-49)%Z with (4 + -53)%Z. change (-1073)%Z with (2 + -1075)%Z. rewrite !bpow_plus. change (bpow radix2 4) with 16. change (bpow radix2 2) with 4.
  assert (U : 0 <= bpow radix2 (-53) <= / 16) by (split; [apply bpow_ge_0|change (/ 16) with (bpow radix2 (-4)); apply bpow_le; lia]). pose proof (bpow_ge_0 radix2 (-1075)) as T. pose proof Ee as Ee'. apply Rabs_le_inv in Ee'.
  replace ((b64R y1 - b64R y0) * (1 + f) / ((b64R x1 - b64R x0) * (1 + e))) with ((b64R y1 - b64R y0) / (b64R x1 - b64R x0) * ((1 + f) / (1 + e))) in Es by (field; split; lra).
  unfold d. refine (line_error _ _ _ _ e f k s _ _ _ U T Ee Ef Ek _ (near_rnd _) (near_rnd _)). rewrite Es. apply near_rnd. Qed.
Print Assumptions C158_value.
Example C158_value_example : no_overflow f01 f03 f09 f1 f03 /\ b64R f01 < b64R f09.
Proof. split; [repeat split; reflexivity|apply lt64_spec; reflexivity]. Qed.
Example C71_value_example : b64fin f01 = true /\ moderate f09 /\ 0 <= b64R f01 <= 1.
Proof. destruct double_examples as (A & B & _). split; [reflexivity|]. split; [exact B|exact A]. Qed.
