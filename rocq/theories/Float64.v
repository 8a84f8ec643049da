(** Label normalisation and its inverse in IEEE binary64 arithmetic (Flocq), the arithmetic numpy uses for real columns.
    Source: /repo/mlreflect/training/preprocessing.py 148-158 (min_to_zero). *)
From Coq Require Import Reals Lra ZArith Lia.
From Flocq Require Import Core IEEE754.BinarySingleNaN IEEE754.Binary IEEE754.Bits Plus_error.
Local Open Scope R_scope.

Notation b64R := (Binary.B2R 53 1024).
Notation b64fin := (Binary.is_finite 53 1024).
#[local] Instance Hp : Prec_gt_0 53.
Proof. reflexivity. Qed.
#[local] Instance Hpe : Prec_lt_emax 53 1024.
Proof. reflexivity. Qed.

(** binary64 subtraction and division, rounding to nearest even *)
Definition sub64 : binary64 -> binary64 -> binary64 := Binary.Bminus 53 1024 Hp Hpe binop_nan_pl64 mode_NE.
Definition div64 : binary64 -> binary64 -> binary64 := Binary.Bdiv 53 1024 Hp Hpe binop_nan_pl64 mode_NE.
Definition rnd64 (x : R) : R := round radix2 (FLT_exp (-1074) 53) ZnearestE x.

(** preprocessing.py 153-155: [(x - min) / (max - min)], each operation rounded to nearest even *)
Definition b64_normalize (lo hi x : binary64) : binary64 :=
  div64 (sub64 x lo) (sub64 hi lo).

(* ------------------------------------------------------------------ *)
Lemma fexp64 : SpecFloat.fexp 53 1024 = FLT_exp (-1074) 53.
Proof. reflexivity. Qed.

Lemma rnd64_le x y : x <= y -> rnd64 x <= rnd64 y.
Proof. apply round_le; auto with typeclass_instances. Qed.
Lemma rnd64_0 : rnd64 0 = 0.
Proof. apply round_0; auto with typeclass_instances. Qed.
Lemma rnd64_1 : rnd64 1 = 1.
Proof. apply round_generic; auto with typeclass_instances. replace 1 with (bpow radix2 0) by reflexivity. apply generic_format_bpow. unfold FLT_exp. lia. Qed.
Lemma b64_format x : generic_format radix2 (FLT_exp (-1074) 53) (b64R x).
Proof. exact (generic_format_B2R 53 1024 x). Qed.

Lemma one_below_max : 1 < bpow radix2 1024.
Proof. replace 1 with (bpow radix2 0) by reflexivity. apply bpow_lt. lia. Qed.

Lemma b64_minus_finite x y : b64fin x = true -> b64fin y = true -> Rabs (rnd64 (b64R x - b64R y)) < bpow radix2 1024 ->
  b64R (sub64 x y) = rnd64 (b64R x - b64R y) /\ b64fin (sub64 x y) = true.
Proof. intros Fx Fy H. pose proof (Binary.Bminus_correct 53 1024 Hp Hpe binop_nan_pl64 mode_NE x y Fx Fy) as G.
  rewrite Rlt_bool_true in G by exact H. destruct G as (G1 & G2 & _). split; [exact G1|exact G2]. Qed.

Lemma b64_minus_overflow x y : b64fin x = true -> b64fin y = true -> b64fin (sub64 x y) = true -> Rabs (rnd64 (b64R x - b64R y)) < bpow radix2 1024.
Proof. intros Fx Fy Ff. pose proof (Binary.Bminus_correct 53 1024 Hp Hpe binop_nan_pl64 mode_NE x y Fx Fy) as G.
  destruct (Rlt_bool_spec (Rabs (round radix2 (SpecFloat.fexp 53 1024) (round_mode mode_NE) (b64R x - b64R y))) (bpow radix2 1024)) as [H|H]; [exact H|].
  destruct G as (G & _). exfalso.
  assert (Hf : b64fin (sub64 x y) = false).
  { change (Binary.Bminus 53 1024 Hp Hpe binop_nan_pl64 mode_NE x y) with (sub64 x y) in G.
    destruct (sub64 x y); try reflexivity; simpl in G; discriminate. }
  congruence. Qed.

Lemma b64_div_finite x y : b64R y <> 0 -> Rabs (rnd64 (b64R x / b64R y)) < bpow radix2 1024 ->
  b64R (div64 x y) = rnd64 (b64R x / b64R y) /\ b64fin (div64 x y) = b64fin x.
Proof. intros Hy H. pose proof (Binary.Bdiv_correct 53 1024 Hp Hpe binop_nan_pl64 mode_NE x y Hy) as G.
  rewrite Rlt_bool_true in G by exact H. destruct G as (G1 & G2 & _). split; [exact G1|exact G2]. Qed.

Section Normalize.
  Context (lo hi : binary64).
  Hypothesis (Flo : b64fin lo = true) (Fhi : b64fin hi = true) (Hlt : b64R lo < b64R hi) (Fspan : b64fin (sub64 hi lo) = true).

  Lemma span_pos : 0 < rnd64 (b64R hi - b64R lo).
  Proof. assert (H : 0 <= rnd64 (b64R hi - b64R lo)) by (rewrite <- rnd64_0; apply rnd64_le; lra).
    assert (N : rnd64 (b64R hi - b64R lo) <> 0).
    { unfold Rminus. apply (round_plus_neq_0 radix2 (FLT_exp (-1074) 53) ZnearestE); [apply b64_format|apply generic_format_opp, b64_format|lra]. }
    lra. Qed.

  Lemma normalize_value x : b64fin x = true -> b64R lo <= b64R x <= b64R hi ->
    b64fin (b64_normalize lo hi x) = true /\
    b64R (b64_normalize lo hi x) = rnd64 (rnd64 (b64R x - b64R lo) / rnd64 (b64R hi - b64R lo)) /\
    0 <= b64R (b64_normalize lo hi x) <= 1.
  Proof. intros Fx Hx. pose proof span_pos as Hs. pose proof (b64_minus_overflow hi lo Fhi Flo Fspan) as Hb.
    destruct (b64_minus_finite hi lo Fhi Flo Hb) as [Es _].
    assert (H0 : 0 <= rnd64 (b64R x - b64R lo)) by (rewrite <- rnd64_0; apply rnd64_le; lra).
    assert (H1 : rnd64 (b64R x - b64R lo) <= rnd64 (b64R hi - b64R lo)) by (apply rnd64_le; lra).
    destruct (b64_minus_finite x lo Fx Flo) as [Ex Fd].
    { rewrite Rabs_pos_eq by exact H0. rewrite Rabs_pos_eq in Hb by lra. lra. }
    set (q := rnd64 (b64R x - b64R lo) / rnd64 (b64R hi - b64R lo)).
    assert (Hq : 0 <= q <= 1).
    { unfold q. assert (Hqq : rnd64 (b64R x - b64R lo) / rnd64 (b64R hi - b64R lo) * rnd64 (b64R hi - b64R lo) = rnd64 (b64R x - b64R lo)) by (field; lra).
      split; apply (Rmult_le_reg_r (rnd64 (b64R hi - b64R lo))); lra. }
    assert (Hr : 0 <= rnd64 q <= 1) by (rewrite <- rnd64_0, <- rnd64_1; split; apply rnd64_le; lra).
    destruct (b64_div_finite (sub64 x lo) (sub64 hi lo)) as [Ed Ff].
    - rewrite Es. lra.
    - rewrite Ex, Es. fold q. rewrite Rabs_pos_eq by lra. pose proof one_below_max. lra.
    - unfold b64_normalize. rewrite Ed, Ff, Ex, Es. fold q. auto. Qed.

  Lemma normalize_ends : b64R (b64_normalize lo hi lo) = 0 /\ b64R (b64_normalize lo hi hi) = 1.
  Proof. pose proof span_pos as Hs. split.
    - destruct (normalize_value lo Flo) as (_ & -> & _); [lra|]. rewrite Rminus_diag_eq by reflexivity. rewrite rnd64_0. unfold Rdiv. rewrite Rmult_0_l. apply rnd64_0.
    - destruct (normalize_value hi Fhi) as (_ & -> & _); [lra|]. unfold Rdiv. rewrite Rinv_r by lra. apply rnd64_1. Qed.

  Lemma normalize_monotone x y : b64fin x = true -> b64fin y = true -> b64R lo <= b64R x -> b64R x <= b64R y -> b64R y <= b64R hi ->
    b64R (b64_normalize lo hi x) <= b64R (b64_normalize lo hi y).
  Proof. intros Fx Fy Hx Hxy Hy. destruct (normalize_value x Fx) as (_ & -> & _); [lra|]. destruct (normalize_value y Fy) as (_ & -> & _); [lra|].
    apply rnd64_le. apply Rmult_le_compat_r; [left; apply Rinv_0_lt_compat, span_pos|]. apply rnd64_le. lra. Qed.
End Normalize.

Lemma normalize64 lo hi : b64fin lo = true -> b64fin hi = true -> b64R lo < b64R hi -> b64fin (sub64 hi lo) = true ->
  (forall x, b64fin x = true -> b64R lo <= b64R x <= b64R hi ->
     b64fin (b64_normalize lo hi x) = true /\ 0 <= b64R (b64_normalize lo hi x) <= 1) /\
  b64R (b64_normalize lo hi lo) = 0 /\ b64R (b64_normalize lo hi hi) = 1 /\
  (forall x y, b64fin x = true -> b64fin y = true -> b64R lo <= b64R x -> b64R x <= b64R y -> b64R y <= b64R hi ->
     b64R (b64_normalize lo hi x) <= b64R (b64_normalize lo hi y)).
Proof. intros A B D E. destruct (normalize_ends lo hi A B D E) as [E0 E1]. split; [|split; [exact E0|split; [exact E1|]]].
  - intros x Fx Hx. destruct (normalize_value lo hi A B D E x Fx Hx) as (F & _ & G). split; assumption.
  - intros x y. apply normalize_monotone; assumption. Qed.
