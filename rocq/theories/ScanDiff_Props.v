(** Property C191: the distance of two curves in the P08 tools. *)
From Coq Require Import Reals Lra Lia.
From Verif Require Import Py Arr Footprint_Model Spec_Model ScanFit_Model ScanDiff_Model.
Local Open Scope R_scope.

(** The sum of the decadic logarithms of all ratios, without their signs *)
Definition log_distance (a b : list R) : R := fold_right Rplus 0 (map (fun p => Rabs (ln (fst p / snd p)) / ln 10) (combine a b)).
Definition positive (a : list R) : Prop := Forall (fun x => 0 < x) a.
Lemma ln10_pos : 0 < ln 10.
Proof. rewrite <- ln_1. apply ln_increasing; lra. Qed.
Lemma ln_div x y : 0 < x -> 0 < y -> ln (x / y) = ln x - ln y.
Proof. intros A B. unfold Rdiv. rewrite ln_mult, ln_Rinv; [lra|exact B|exact A|apply Rinv_0_lt_compat; exact B]. Qed.
Lemma vec_same f (a b : list fl) : List.length a = List.length b -> vec_op f a b = Ok (map (fun xy => f (fst xy) (snd xy)) (combine a b)).
Proof. intros E. unfold vec_op. rewrite <- E, bdim_same. cbn [bind]. rewrite bop_same by exact E. reflexivity. Qed.
Lemma flog10_pos x : 0 < x -> flog10 (Some x) = Some (ln x / ln 10).
Proof. intros H. unfold flog10. destruct (Rlt_dec 0 x); [reflexivity|contradiction]. Qed.

Theorem C191_value a b : positive a -> positive b -> List.length a = List.length b -> diff_func (map Some a) (map Some b) = Ok (Some (log_distance a b)).
Proof. intros A B L. unfold diff_func. rewrite vec_same by (rewrite !map_length; exact L). cbn [bind]. f_equal. unfold log_distance. revert b B L. induction A as [|x a Hx A IH]; intros [|y b] B L; try discriminate; [reflexivity|]. inversion B as [|? ? Hy B']; subst. injection L as L.
  specialize (IH b B' L). cbn [map combine fold_right fst snd]. rewrite !flog10_pos by assumption. cbn [fst snd]. unfold fsum in *. cbn [fold_right]. rewrite IH. unfold fsub, fadd, lift2, fabs, option_map. f_equal. f_equal. pose proof ln10_pos.
  rewrite ln_div by assumption. replace (ln x / ln 10 - ln y / ln 10) with ((ln x - ln y) / ln 10) by (field; lra). unfold Rdiv. rewrite Rabs_mult, (Rabs_pos_eq (/ ln 10)); [reflexivity|]. left. apply Rinv_0_lt_compat. exact H. Qed.
Print Assumptions C191_value.
Lemma term_pos x y : 0 <= Rabs (ln (x / y)) / ln 10.
Proof. pose proof ln10_pos. apply Rmult_le_pos; [apply Rabs_pos|left; apply Rinv_0_lt_compat; assumption]. Qed.
Lemma distance_pos a b : 0 <= log_distance a b.
Proof. unfold log_distance. induction (combine a b) as [|[x y] l IH]; cbn; [lra|]. pose proof (term_pos x y). lra. Qed.
(** For positive curves of one length it is a metric, *)
Theorem C191_metric a b c : positive a -> positive b -> positive c -> List.length a = List.length b -> List.length b = List.length c ->
  exists ab ba bc ac, diff_func (map Some a) (map Some b) = Ok (Some ab) /\ diff_func (map Some b) (map Some a) = Ok (Some ba) /\ diff_func (map Some b) (map Some c) = Ok (Some bc) /\ diff_func (map Some a) (map Some c) = Ok (Some ac) /\
  0 <= ab /\ ab = ba /\ ac <= ab + bc /\ (ab = 0 <-> a = b).
Proof. intros A B C L M. exists (log_distance a b), (log_distance b a), (log_distance b c), (log_distance a c). do 4 (split; [apply C191_value; congruence || assumption|]). split; [apply distance_pos|]. pose proof ln10_pos as T. split; [|split].
  - clear C M c. revert b B L. unfold log_distance. induction A as [|x a Hx A IH]; intros [|y b] B L; try discriminate; [reflexivity|]. inversion B; subst. injection L as L. cbn. rewrite (IH b) by assumption. rewrite !ln_div by assumption. rewrite Rabs_minus_sym. reflexivity.
  - revert b c B C L M. unfold log_distance. induction A as [|x a Hx A IH]; intros [|y b] [|z c] B C L M; try discriminate; [cbn; lra|]. inversion B; inversion C; subst. injection L as L. injection M as M. cbn. specialize (IH b c ltac:(assumption) ltac:(assumption) L M). rewrite !ln_div by assumption.
    assert (Q : Rabs (ln x - ln z) / ln 10 <= Rabs (ln x - ln y) / ln 10 + Rabs (ln y - ln z) / ln 10). { unfold Rdiv. rewrite <- Rmult_plus_distr_r. apply Rmult_le_compat_r; [left; apply Rinv_0_lt_compat; exact T|]. replace (ln x - ln z) with ((ln x - ln y) + (ln y - ln z)) by ring. apply Rabs_triang. } lra.
  - clear C M c. split.
    + revert b B L. induction A as [|x a Hx A IH]; intros [|y b] B L; try discriminate; [reflexivity|]. inversion B; subst. injection L as L. intros E. change (log_distance (x :: a) (y :: b)) with (Rabs (ln (x / y)) / ln 10 + log_distance a b) in E. pose proof (term_pos x y). pose proof (distance_pos a b).
      f_equal; [|apply IH; try assumption; lra]. assert (Z : Rabs (ln (x / y)) / ln 10 = 0) by lra. unfold Rdiv in Z. apply Rmult_integral in Z. destruct Z as [Z|Z]; [|exfalso; apply (Rinv_neq_0_compat (ln 10)); lra].
      apply ln_inv; try assumption. change (x * / y) with (x / y) in Z. rewrite ln_div in Z by assumption. destruct (Req_dec (ln x - ln y) 0) as [Q|Q]; [lra|]. apply Rabs_no_R0 in Q. contradiction.
    + intros <-. clear B L. unfold log_distance. induction A as [|x a Hx A IH]; [reflexivity|]. cbn. rewrite IH. unfold Rdiv. rewrite Rinv_r by lra. rewrite ln_1, Rabs_R0. lra. Qed.
Print Assumptions C191_metric.
(** which a common factor does not change. *)
Theorem C191_factor k a b : 0 < k -> positive a -> positive b -> List.length a = List.length b -> diff_func (map Some (map (Rmult k) a)) (map Some (map (Rmult k) b)) = diff_func (map Some a) (map Some b).
Proof. intros K A B L. assert (P : forall l, positive l -> positive (map (Rmult k) l)) by (intros l; induction 1; constructor; [nra|assumption]). rewrite !C191_value; auto; [|rewrite !map_length; exact L]. do 2 f_equal.
  revert b B L. unfold log_distance. induction A as [|x a Hx A IH]; intros [|y b] B L; try discriminate; [reflexivity|]. inversion B; subst. injection L as L. cbn. rewrite (IH b) by assumption. do 4 f_equal. field. lra. Qed.
Print Assumptions C191_factor.
(** A value that is not positive in one of the curves makes it infinite or NaN; curves of different lengths other than 1 are refused. *)
Theorem C191_not_positive a b : List.length a = List.length b -> (Exists (fun x => x <= 0) a \/ Exists (fun x => x <= 0) b) -> diff_func (map Some a) (map Some b) = Ok None.
Proof. intros L H. unfold diff_func. rewrite vec_same by (rewrite !map_length; exact L). cbn [bind]. f_equal. assert (Z : forall x, x <= 0 -> flog10 (Some x) = None) by (intros x Hx; unfold flog10; destruct (Rlt_dec 0 x); [lra|reflexivity]).
  revert b L H. induction a as [|x a IH]; intros [|y b] L H; try discriminate; [destruct H as [H|H]; inversion H|]. injection L as L. cbn [map combine fst snd]. unfold fsum in *. cbn [fold_right].
  assert (C : x <= 0 \/ y <= 0 \/ (Exists (fun x => x <= 0) a \/ Exists (fun x => x <= 0) b)) by (destruct H as [H|H]; inversion H; subst; auto). destruct C as [C|[C|C]].
  - rewrite (Z x C). reflexivity.
  - rewrite (Z y C). destruct (flog10 (Some x)); reflexivity.
  - rewrite (IH b L C). destruct (fabs _); reflexivity. Qed.
Print Assumptions C191_not_positive.
Theorem C191_lengths a b : List.length a <> List.length b -> List.length a <> 1%nat -> List.length b <> 1%nat -> diff_func a b = Raise ValueError.
Proof. intros L A B. unfold diff_func, vec_op. rewrite !map_length. unfold bdim. repeat match goal with |- context [Nat.eqb ?x ?y] => destruct (Nat.eqb_spec x y); try contradiction; try congruence end. reflexivity. Qed.
Print Assumptions C191_lengths.
Example C191_example : positive [1; 2] /\ positive [2; 3] /\ List.length [1; 2] = List.length [2; 3] /\ Exists (fun x => x <= 0) [1; 0].
Proof. split; [repeat constructor; lra|]. split; [repeat constructor; lra|]. split; [reflexivity|]. right. left. lra. Qed.
