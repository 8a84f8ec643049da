(** Complex square root (principal branch, as np.sqrt) and complex exponential (np.exp). *)
From Coq Require Import Reals Lra Psatz.
From Coquelicot Require Import Complex.
Local Open Scope R_scope.

Definition Csqrt (z : C) : C :=
  (sqrt ((Cmod z + Re z) / 2), (if Rle_dec 0 (Im z) then 1 else -1) * sqrt ((Cmod z - Re z) / 2)).

Definition Cexp (z : C) : C := (exp (Re z) * cos (Im z), exp (Re z) * sin (Im z)).

Lemma Cmod_sqr z : Cmod z * Cmod z = Re z * Re z + Im z * Im z.
Proof. unfold Cmod, Re, Im. rewrite sqrt_sqrt; [ring|]. nra. Qed.

Lemma Cmod_Re z : - Cmod z <= Re z <= Cmod z.
Proof. pose proof (Cmod_sqr z). pose proof (Cmod_ge_0 z). split; nra. Qed.

Lemma Cmod_Re_lt z : Im z <> 0 -> - Cmod z < Re z < Cmod z.
Proof. intros H. pose proof (Cmod_sqr z). pose proof (Cmod_ge_0 z). assert (0 < Im z * Im z) by nra. split; nra. Qed.

Lemma Csqrt_sqr z : (Csqrt z * Csqrt z)%C = z.
Proof. pose proof (Cmod_Re z) as B. pose proof (Cmod_sqr z) as M. destruct z as [x y]. unfold Csqrt, Cmult, Re, Im in *. simpl fst in *; simpl snd in *.
  set (m := Cmod (x, y)) in *. set (a := sqrt ((m + x) / 2)). set (b := sqrt ((m - x) / 2)).
  assert (Ha : a * a = (m + x) / 2) by (apply sqrt_sqrt; lra). assert (Hb : b * b = (m - x) / 2) by (apply sqrt_sqrt; lra).
  assert (Hab : 2 * (a * b) = Rabs y).
  { unfold a, b. rewrite <- sqrt_mult by lra. replace ((m + x) / 2 * ((m - x) / 2)) with ((y / 2) * (y / 2)) by nra.
    rewrite sqrt_Rsqr_abs || (change (y / 2 * (y / 2)) with (Rsqr (y / 2)); rewrite sqrt_Rsqr_abs).
    unfold Rdiv. rewrite Rabs_mult, (Rabs_right (/ 2)) by lra. lra. }
  f_equal; destruct (Rle_dec 0 y).
  - nra.
  - nra.
  - rewrite Rabs_right in Hab by lra. nra.
  - rewrite Rabs_left in Hab by lra. nra. Qed.

Lemma Csqrt_Re z : 0 <= Re (Csqrt z).
Proof. unfold Csqrt, Re; simpl. apply sqrt_pos. Qed.

(** Below the real axis the root lies in the fourth quadrant. *)
Lemma Csqrt_quadrant z : Im z < 0 -> 0 < Re (Csqrt z) /\ Im (Csqrt z) < 0.
Proof. intros H. pose proof (Cmod_Re_lt z ltac:(lra)). unfold Csqrt, Re at 1, Im at 1; simpl.
  destruct (Rle_dec 0 (Im z)); [lra|]. split; [apply sqrt_lt_R0; lra|].
  assert (0 < sqrt ((Cmod z - Re z) / 2)) by (apply sqrt_lt_R0; lra). lra. Qed.

Lemma Cexp_0 : Cexp 0 = 1.
Proof. unfold Cexp, RtoC, Re, Im; simpl. rewrite exp_0, cos_0, sin_0. f_equal; ring. Qed.

Lemma Cexp_plus (a b : C) : Cexp (a + b)%C = (Cexp a * Cexp b)%C.
Proof. destruct a as [a a1], b as [b b1]. unfold Cexp, Cmult, Cplus, Re, Im. simpl fst; simpl snd. rewrite exp_plus, cos_plus, sin_plus. f_equal; ring. Qed.

Lemma Cexp_neq_0 (a : C) : Cexp a <> 0.
Proof. intros E. assert (K : (Cexp a * Cexp (- a))%C = RtoC 1) by (rewrite <- Cexp_plus, <- Cexp_0; f_equal; ring).
  rewrite E in K. rewrite Cmult_0_l in K. apply RtoC_inj in K. lra. Qed.

Lemma Cexp_opp (a : C) : Cexp (- a)%C = (/ Cexp a)%C.
Proof. assert (K : (Cexp a * Cexp (- a))%C = RtoC 1) by (rewrite <- Cexp_plus, <- Cexp_0; f_equal; ring).
  rewrite <- (Cmult_1_r (/ Cexp a)%C), <- K, Cmult_assoc, Cinv_l, Cmult_1_l by apply Cexp_neq_0. reflexivity. Qed.

Lemma Cmod_Cexp a : Cmod (Cexp a) = exp (Re a).
Proof. unfold Cmod, Cexp; simpl. replace (_ + _) with (exp (Re a) * exp (Re a)).
  - apply sqrt_square. left; apply exp_pos.
  - pose proof (sin2_cos2 (Im a)) as K. unfold Rsqr in K. nra. Qed.

Lemma C_neq_Re z : 0 < Re z -> z <> 0.
Proof. intros H E. rewrite E in H. unfold Re, RtoC in H; simpl in H. lra. Qed.
