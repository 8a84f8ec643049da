(** Proofs about logarithmic interpolation. *)
From Coq Require Import Reals Lra Sorted.
From Verif Require Import Py Arr Interp_Model Interp_Spec.
Local Open Scope R_scope.

Lemma ln10_pos : 0 < ln 10. Proof. rewrite <- ln_1. apply ln_increasing; lra. Qed.
Lemma pow_log x : 0 < x -> Rpower 10 (log10 x) = x.
Proof. intros H. unfold Rpower, log10. replace (ln x / ln 10 * ln 10) with (ln x); [apply exp_ln, H|]. field. pose proof ln10_pos. lra. Qed.
Lemma log10_le x y : 0 < x -> x <= y -> log10 x <= log10 y.
Proof. intros H [L|E]; [|rewrite E; lra]. unfold log10. apply Rmult_le_compat_r; [left; apply Rinv_0_lt_compat, ln10_pos|]. left. apply ln_increasing; assumption. Qed.
Lemma pow_le x y : x <= y -> Rpower 10 x <= Rpower 10 y.
Proof. intros H. apply Rle_Rpower; lra. Qed.
Lemma log10_mult c x : 0 < c -> 0 < x -> log10 (c * x) = log10 c + log10 x.
Proof. intros. unfold log10. rewrite ln_mult by assumption. field. pose proof ln10_pos. lra. Qed.

(** The interpolated logarithm *)
(** The interpolated logarithm *)
(** The interpolated logarithm *)
(** The interpolated logarithm *)
Definition value (x : R) (q : list R) (row : list fl) : lg :=
  match combine q (map log_value row) with [] => LNan | (x0, y0) :: rest => if Rlt_dec x x0 then y0 else interp_from x x0 y0 rest end.

Lemma interp_total qi q row : List.length q = List.length row -> q <> [] -> interp_reflectivity qi q row = Ok (map (fun x => pow10 (value x q row)) qi).
Proof. intros L N. unfold interp_reflectivity. rewrite (proj2 (Nat.eqb_eq _ _) L). cbn [negb]. destruct q as [|q0 q]; [contradiction|].
  destruct row as [|r0 r]; [discriminate|]. simpl Nat.eqb. cbv iota. induction qi as [|x qi IH]; [reflexivity|].
  cbn [mapM map combine interp bind] in *. rewrite IH. reflexivity. Qed.

Lemma interp_errors qi q row : interp_reflectivity qi q row = Raise ValueError <-> (List.length q <> List.length row \/ q = []).
Proof. destruct (Nat.eq_dec (List.length q) (List.length row)) as [E|N].
  - destruct q as [|q0 q]; [unfold interp_reflectivity; rewrite <- E; split; auto|]. rewrite interp_total; [|exact E|discriminate].
    split; [discriminate|]. intros [H|H]; [contradiction|discriminate].
  - unfold interp_reflectivity. apply Nat.eqb_neq in N. rewrite N. apply Nat.eqb_neq in N. split; auto. Qed.

Lemma pow_log_value v : 0 <= v -> pow10 (log_value (Some v)) = Some v.
Proof. intros H. unfold log_value. destruct (Rlt_dec 0 v) as [P|P]; [cbn [pow10]; now rewrite pow_log|]. destruct (Req_EM_T v 0) as [->|N]; [reflexivity|]. lra. Qed.

(** *** Values *)
Lemma interp_from_left q : forall x0 y0 ys, StronglySorted Rlt (x0 :: q) -> interp_from x0 x0 y0 (combine q ys) = y0.
Proof. intros x0 y0 ys H. destruct q as [|x1 q]; [reflexivity|]. destruct ys as [|y1 ys]; [reflexivity|]. simpl. apply StronglySorted_inv in H. destruct H as [_ F]. apply Forall_inv in F.
  destruct (Rlt_dec x0 x1); [|contradiction]. destruct (Req_EM_T x0 x0); [reflexivity|contradiction]. Qed.

Lemma interp_from_at q : forall x0 y0 ys i d e, StronglySorted Rlt (x0 :: q) -> List.length q = List.length ys -> (i < List.length q)%nat ->
  interp_from (nth i q d) x0 y0 (combine q ys) = nth i ys e.
Proof. induction q as [|x1 q IH]; intros x0 y0 ys i d e H L Hi; [simpl in Hi; lia|]. destruct ys as [|y1 ys]; [discriminate|].
  apply StronglySorted_inv in H. destruct H as [H F]. cbn [combine interp_from].
  assert (G : ~ nth i (x1 :: q) d < x1). { destruct i; simpl; [apply Rlt_irrefl|]. apply StronglySorted_inv in H. destruct H as [_ F1]. rewrite Forall_forall in F1. simpl in Hi. specialize (F1 (nth i q d) (nth_In q d (proj2 (Nat.succ_lt_mono i (List.length q)) Hi))). apply Rle_not_lt; lra. }
  destruct (Rlt_dec (nth i (x1 :: q) d) x1); [contradiction|]. destruct i; simpl.
  - apply interp_from_left, H.
  - apply IH; [assumption|simpl in L; lia|simpl in Hi; lia]. Qed.

Lemma value_at q row i d e : increasing q -> List.length q = List.length row -> (i < List.length q)%nat -> value (nth i q d) q row = log_value (nth i row e).
Proof. intros H L Hi. destruct q as [|x0 q]; [simpl in Hi; lia|]. destruct row as [|r0 r]; [discriminate|]. unfold value. cbn [map combine]. destruct i; simpl nth.
  - destruct (Rlt_dec x0 x0); [lra|]. apply interp_from_left, H.
  - assert (G : ~ nth i q d < x0). { apply StronglySorted_inv in H. destruct H as [_ F1]. rewrite Forall_forall in F1. simpl in Hi. specialize (F1 (nth i q d) (nth_In q d (proj2 (Nat.succ_lt_mono i (List.length q)) Hi))). apply Rle_not_lt; lra. }
    destruct (Rlt_dec (nth i q d) x0); [contradiction|]. simpl in L, Hi.
    rewrite (interp_from_at q x0 (log_value r0) (map log_value r) i d (log_value e)); [|assumption|rewrite map_length; lia|lia]. apply map_nth. Qed.

Lemma value_left x q0 q r0 r : x <= q0 -> increasing (q0 :: q) -> value x (q0 :: q) (r0 :: r) = log_value r0.
Proof. intros H I. unfold value. simpl. destruct (Rlt_dec x q0); [reflexivity|]. replace x with q0 by lra. apply interp_from_left, I. Qed.

Lemma interp_from_right x : forall q x0 y0 ys, List.length q = List.length ys -> Forall (fun a => a <= x) q ->
  interp_from x x0 y0 (combine q ys) = last ys y0.
Proof. induction q as [|x1 q IH]; intros x0 y0 ys L F; destruct ys as [|y1 ys]; try discriminate; [reflexivity|]. cbn [combine interp_from].
  pose proof (Forall_inv F). destruct (Rlt_dec x x1); [lra|]. rewrite IH; [|simpl in L; lia|exact (Forall_inv_tail F)].
  clear. revert y0 y1. induction ys as [|y2 ys IH]; intros; [reflexivity|]. change (last (y2 :: ys) y1 = last (y2 :: ys) y0). rewrite <- (IH y1 y2), <- (IH y0 y2). reflexivity. Qed.

Lemma last_map A B (f : A -> B) l d : last (map f l) (f d) = f (last l d).
Proof. induction l as [|a [|b l] IH]; try reflexivity. exact IH. Qed.

Lemma value_right x q0 q r0 r : Forall (fun a => a <= x) (q0 :: q) -> List.length q = List.length r -> value x (q0 :: q) (r0 :: r) = log_value (last r r0).
Proof. intros F L. unfold value. cbn [map combine]. pose proof (Forall_inv F). destruct (Rlt_dec x q0); [lra|]. rewrite interp_from_right; [|rewrite map_length; assumption|exact (Forall_inv_tail F)].
  apply last_map. Qed.

(** Values whose power lies between [a] and [b] *)
Definition power_in (a b : R) (y : lg) : Prop := match pow10 y with Some v => a <= v <= b | None => False end.
Lemma segment_bound a b x x0 y0 x1 y1 : x0 <= x < x1 -> power_in a b y0 -> power_in a b y1 -> power_in a b (segment x x0 y0 x1 y1).
Proof. intros Hx H0 H1. unfold power_in in *. destruct y0 as [| |u], y1 as [| |w]; cbn [pow10 segment] in *; try tauto.
  set (t := (x - x0) / (x1 - x0)). assert (T : 0 <= t <= 1).
  { unfold t. split; [apply Rmult_le_pos; [lra|left; apply Rinv_0_lt_compat; lra]|]. apply Rmult_le_reg_r with (x1 - x0); [lra|]. unfold Rdiv. rewrite Rmult_assoc, Rinv_l by lra. lra. }
  replace ((w - u) / (x1 - x0) * (x - x0) + u) with (t * w + (1 - t) * u) by (unfold t; field; lra).
  destruct (Rle_dec u w) as [L|L].
  - assert (G : u <= t * w + (1 - t) * u <= w) by nra. destruct G as [G1 G2]. apply pow_le in G1, G2. lra.
  - assert (G : w <= t * w + (1 - t) * u <= u) by nra. destruct G as [G1 G2]. apply pow_le in G1, G2. lra. Qed.

Lemma interp_from_bound x a b : forall q x0 y0 ys, StronglySorted Rlt (x0 :: q) -> x0 <= x -> power_in a b y0 -> Forall (power_in a b) ys ->
  power_in a b (interp_from x x0 y0 (combine q ys)).
Proof. induction q as [|x1 q IH]; intros x0 y0 ys S H0 B F; [exact B|]. destruct ys as [|y1 ys]; [exact B|]. cbn [combine interp_from].
  apply StronglySorted_inv in S. destruct S as [S F0]. apply Forall_inv in F0. pose proof (Forall_inv F) as B1. destruct (Rlt_dec x x1).
  - destruct (Req_EM_T x x0); [exact B|]. apply segment_bound; [lra|assumption..].
  - apply IH; [assumption|lra|assumption|exact (Forall_inv_tail F)]. Qed.

Lemma value_bound x q r a b : increasing q -> q <> [] -> List.length q = List.length r -> 0 <= a -> Forall (fun y => a <= y <= b) r ->
  power_in a b (value x q (map Some r)).
Proof. intros S N L A F. destruct q as [|x0 q]; [contradiction|]. destruct r as [|r0 r]; [discriminate|].
  assert (M : Forall (power_in a b) (map log_value (map Some (r0 :: r)))).
  { rewrite map_map. apply Forall_map. eapply Forall_impl; [|exact F]. intros y Y. unfold power_in. rewrite pow_log_value by lra. exact Y. }
  unfold value. cbn [map combine] in *. destruct (Rlt_dec x x0); [exact (Forall_inv M)|]. apply interp_from_bound; [assumption|lra|exact (Forall_inv M)|exact (Forall_inv_tail M)]. Qed.

(** *** Scaling and shifting *)
Definition lg_add (k : R) (y : lg) : lg := match y with LFin v => LFin (k + v) | y => y end.
Lemma pow10_add c y : 0 < c -> pow10 (lg_add (log10 c) y) = option_map (Rmult c) (pow10 y).
Proof. intros C. destruct y as [| |v]; cbn [lg_add pow10 option_map]; [reflexivity|now rewrite Rmult_0_r|]. rewrite Rpower_plus, pow_log by exact C. reflexivity. Qed.
Lemma log_value_scale c x : 0 < c -> log_value (option_map (Rmult c) x) = lg_add (log10 c) (log_value x).
Proof. intros C. destruct x as [r|]; [|reflexivity]. unfold option_map, log_value. destruct (Rlt_dec 0 r) as [P|P].
  - destruct (Rlt_dec 0 (c * r)) as [P'|P']; [cbn [lg_add]; now rewrite log10_mult|]. exfalso. apply P'. now apply Rmult_lt_0_compat.
  - destruct (Rlt_dec 0 (c * r)) as [P'|P']; [exfalso; nra|]. destruct (Req_EM_T r 0) as [->|N].
    + destruct (Req_EM_T (c * 0) 0) as [_|E]; [reflexivity|]. exfalso. apply E. ring.
    + destruct (Req_EM_T (c * r) 0) as [E|_]; [|reflexivity]. exfalso. apply Rmult_integral in E. destruct E; [lra|contradiction]. Qed.

Lemma interp_from_add x k : forall q x0 y0 ys, interp_from x x0 (lg_add k y0) (combine q (map (lg_add k) ys)) = lg_add k (interp_from x x0 y0 (combine q ys)).
Proof. induction q as [|x1 q IH]; intros x0 y0 ys; [reflexivity|]. destruct ys as [|y1 ys]; [reflexivity|]. cbn [map combine interp_from]. destruct (Rlt_dec x x1); [|apply IH].
  destruct (Req_EM_T x x0); [reflexivity|]. destruct y0, y1; try reflexivity. cbn [lg_add segment]. f_equal. unfold Rdiv. ring. Qed.

Lemma value_scale x q row c : 0 < c -> value x q (map (option_map (Rmult c)) row) = lg_add (log10 c) (value x q row).
Proof. intros C. destruct q as [|x0 q]; [reflexivity|]. destruct row as [|r0 r]; [reflexivity|].
  assert (M : map log_value (map (option_map (Rmult c)) (r0 :: r)) = map (lg_add (log10 c)) (map log_value (r0 :: r))).
  { rewrite !map_map. apply map_ext. intros y. apply log_value_scale, C. }
  unfold value. rewrite M. cbn [map combine]. destruct (Rlt_dec x x0); [reflexivity|]. apply interp_from_add. Qed.

Lemma segment_shift x k x0 y0 x1 y1 : segment (x + k) (x0 + k) y0 (x1 + k) y1 = segment x x0 y0 x1 y1.
Proof. unfold segment. replace (x1 + k - (x0 + k)) with (x1 - x0) by ring. replace (x + k - (x0 + k)) with (x - x0) by ring. reflexivity. Qed.
Lemma interp_from_shift x k : forall q x0 y0 ys, interp_from (x + k) (x0 + k) y0 (combine (map (fun a => a + k) q) ys) = interp_from x x0 y0 (combine q ys).
Proof. induction q as [|x1 q IH]; intros x0 y0 ys; [reflexivity|]. destruct ys as [|y1 ys]; [reflexivity|]. cbn [map combine interp_from].
  destruct (Rlt_dec (x + k) (x1 + k)), (Rlt_dec x x1); try lra; [|apply IH]. destruct (Req_EM_T (x + k) (x0 + k)), (Req_EM_T x x0); try lra; [reflexivity|]. apply segment_shift. Qed.

Lemma value_shift x k q row : value (x + k) (map (fun a => a + k) q) row = value x q row.
Proof. destruct q as [|x0 q]; [reflexivity|]. destruct row as [|r0 r]; [reflexivity|]. unfold value. cbn [map combine].
  destruct (Rlt_dec (x + k) (x0 + k)), (Rlt_dec x x0); try lra; [reflexivity|apply interp_from_shift]. Qed.

(** *** Statements about the function *)
Lemma interp_cases qi q row : interp_reflectivity qi q row = Raise ValueError /\ (List.length q <> List.length row \/ q = []) \/
  interp_reflectivity qi q row = Ok (map (fun x => pow10 (value x q row)) qi) /\ List.length q = List.length row /\ q <> [].
Proof. destruct (Nat.eq_dec (List.length q) (List.length row)) as [L|L]; [destruct q as [|q0 q]|].
  - left. split; [apply interp_errors; auto|auto].
  - right. split; [apply interp_total; [exact L|discriminate]|]. split; [exact L|discriminate].
  - left. split; [apply interp_errors; auto|auto]. Qed.

Lemma interp_scale qi q row c : 0 < c -> interp_reflectivity qi q (map (option_map (Rmult c)) row) = rmap (map (option_map (Rmult c))) (interp_reflectivity qi q row).
Proof. intros C. destruct (interp_cases qi q row) as [[E H]|[E [L N]]]; rewrite E; cbn [rmap].
  - apply interp_errors. rewrite map_length. exact H.
  - rewrite interp_total; [|rewrite map_length; exact L|exact N]. cbn [rmap bind]. f_equal. rewrite map_map. apply map_ext. intros x. rewrite value_scale, pow10_add by exact C. reflexivity. Qed.

Lemma interp_shift qi q row k : interp_reflectivity (map (fun a => a + k) qi) (map (fun a => a + k) q) row = interp_reflectivity qi q row.
Proof. destruct (interp_cases qi q row) as [[E H]|[E [L N]]]; rewrite E.
  - apply interp_errors. rewrite map_length. destruct H as [H|H]; [left; exact H|right; rewrite H; reflexivity].
  - rewrite interp_total; [|rewrite map_length; exact L|destruct q; [contradiction|discriminate]]. f_equal. rewrite map_map. apply map_ext. intros x. f_equal. apply value_shift. Qed.

Lemma nth_some r i d : @nth fl i (map Some r) (Some d) = Some (nth i r d).
Proof. exact (map_nth Some r d i). Qed.
Lemma nonnegative_nth r i d : nonnegative_curve r -> (i < List.length r)%nat -> 0 <= nth i r d.
Proof. intros P H. unfold nonnegative_curve in P. rewrite Forall_forall in P. apply P, nth_In, H. Qed.

Lemma interp_point x i q r d : increasing q -> nonnegative_curve r -> List.length q = List.length r -> (i < List.length q)%nat -> x = nth i q d ->
  interp_reflectivity [x] q (map Some r) = Ok [Some (nth i r d)].
Proof. intros I P L Hi ->. rewrite interp_total; [|rewrite map_length; assumption|intros ->; simpl in Hi; lia]. cbn [map]. rewrite (value_at q (map Some r) i d (Some d)); [|assumption|rewrite map_length; assumption|assumption].
  rewrite nth_some. rewrite pow_log_value; [reflexivity|]. apply nonnegative_nth; [assumption|lia]. Qed.

Lemma interp_exact q r : increasing q -> nonnegative_curve r -> List.length q = List.length r -> q <> [] -> interp_reflectivity q q (map Some r) = Ok (map Some r).
Proof. intros I P L N. rewrite interp_total; [|rewrite map_length; assumption|assumption]. f_equal. apply nth_ext with (d := None) (d' := Some 0); [rewrite !map_length; assumption|].
  intros i Hi. rewrite map_length in Hi. rewrite nth_some. rewrite nth_indep with (d' := (fun x => pow10 (value x q (map Some r))) 0) by (rewrite map_length; assumption).
  rewrite (map_nth (fun x => pow10 (value x q (map Some r)))). rewrite (value_at q (map Some r) i 0 (Some 0)); [|assumption|rewrite map_length; assumption|assumption].
  rewrite nth_some. apply pow_log_value. apply nonnegative_nth; [assumption|lia]. Qed.

Lemma interp_below x q0 q r0 r : increasing (q0 :: q) -> nonnegative_curve (r0 :: r) -> List.length q = List.length r -> x <= q0 ->
  interp_reflectivity [x] (q0 :: q) (map Some (r0 :: r)) = Ok [Some r0].
Proof. intros I P L H. rewrite interp_total; [|rewrite map_length; simpl; lia|discriminate]. cbn [map]. rewrite value_left by assumption. rewrite pow_log_value; [reflexivity|exact (Forall_inv P)]. Qed.

Lemma nonnegative_last r : forall r0, nonnegative_curve (r0 :: r) -> 0 <= last r r0.
Proof. induction r as [|a r IH]; intros r0 P; [exact (Forall_inv P)|].
  assert (last (a :: r) r0 = last r a) as ->. { clear. revert a r0. induction r as [|b r IH]; intros; [reflexivity|]. change (last (b :: r) r0 = last (b :: r) a). rewrite (IH b r0), (IH b a). reflexivity. }
  apply IH, (Forall_inv_tail P). Qed.
Lemma interp_above x q0 q r0 r : Forall (fun a => a <= x) (q0 :: q) -> nonnegative_curve (r0 :: r) -> List.length q = List.length r ->
  interp_reflectivity [x] (q0 :: q) (map Some (r0 :: r)) = Ok [Some (last r r0)].
Proof. intros I P L. rewrite interp_total; [|rewrite map_length; simpl; lia|discriminate]. cbn [map]. rewrite value_right; [|assumption|rewrite map_length; assumption].
  rewrite last_map, pow_log_value; [reflexivity|]. apply nonnegative_last, P. Qed.

Lemma interp_bound qi q r a b : increasing q -> q <> [] -> List.length q = List.length r -> 0 <= a -> Forall (fun y => a <= y <= b) r ->
  exists out, interp_reflectivity qi q (map Some r) = Ok (map Some out) /\ List.length out = List.length qi /\ Forall (fun y => a <= y <= b) out.
Proof. intros I N L A F. rewrite interp_total; [|rewrite map_length; assumption|assumption].
  induction qi as [|x qi IH]; [exists []; repeat split; constructor|]. destruct IH as (out & E & Lo & Fo). pose proof (value_bound x q r a b I N L A F) as V. unfold power_in in V.
  destruct (pow10 (value x q (map Some r))) as [v|] eqn:Ev; [|contradiction]. exists (v :: out). cbn [map]. injection E as E. rewrite E. split; [|split].
  - f_equal. f_equal. exact Ev.
  - cbn. now rewrite Lo.
  - constructor; assumption. Qed.

(** A positive curve stays positive. *)
Definition is_fin (y : lg) : Prop := match y with LFin _ => True | _ => False end.
Lemma interp_from_fin x : forall q x0 y0 ys, is_fin y0 -> Forall is_fin ys -> is_fin (interp_from x x0 y0 (combine q ys)).
Proof. induction q as [|x1 q IH]; intros x0 y0 ys H F; [exact H|]. destruct ys as [|y1 ys]; [exact H|]. cbn [combine interp_from]. pose proof (Forall_inv F) as H1.
  destruct (Rlt_dec x x1); [|apply IH; [exact H1|exact (Forall_inv_tail F)]]. destruct (Req_EM_T x x0); [exact H|]. destruct y0, y1; try contradiction; exact I. Qed.
Lemma interp_positive qi q r : q <> [] -> List.length q = List.length r -> positive_curve r ->
  exists out, interp_reflectivity qi q (map Some r) = Ok (map Some out) /\ List.length out = List.length qi /\ positive_curve out.
Proof. intros N L P. rewrite interp_total; [|rewrite map_length; assumption|assumption].
  assert (V : forall x, exists y, value x q (map Some r) = LFin y).
  { intros x. assert (F : is_fin (value x q (map Some r))).
    - destruct q as [|x0 q]; [contradiction|]. destruct r as [|r0 r]; [discriminate|]. unfold value. cbn [map combine].
      assert (F0 : forall v, 0 < v -> is_fin (log_value (Some v))) by (intros v Hv; unfold log_value; destruct (Rlt_dec 0 v); [exact I|contradiction]).
      destruct (Rlt_dec x x0); [apply F0, (Forall_inv P)|]. apply interp_from_fin; [apply F0, (Forall_inv P)|]. rewrite map_map. apply Forall_map. eapply Forall_impl; [|exact (Forall_inv_tail P)]. exact F0.
    - destruct (value x q (map Some r)) as [| |y]; try contradiction. eauto. }
  induction qi as [|x qi IH]; [exists []; repeat split; constructor|]. destruct IH as (out & E & Lo & Fo). destruct (V x) as (y & Ey). exists (Rpower 10 y :: out). cbn [map]. injection E as E. rewrite E, Ey.
  split; [reflexivity|]. split; [cbn; now rewrite Lo|]. constructor; [apply exp_pos|exact Fo]. Qed.

(** *** Between two neighbouring points *)
Lemma interp_from_segment x : forall q x0 y0 ys i d e, StronglySorted Rlt (x0 :: q) -> List.length q = List.length ys -> (i < List.length q)%nat ->
  nth i (x0 :: q) d < x < nth i q d ->
  interp_from x x0 y0 (combine q ys) = segment x (nth i (x0 :: q) d) (nth i (y0 :: ys) e) (nth i q d) (nth i ys e).
Proof. induction q as [|x1 q IH]; intros x0 y0 ys i d e S L Hi B; [simpl in Hi; lia|]. destruct ys as [|y1 ys]; [discriminate|].
  cbn [combine interp_from]. pose proof (StronglySorted_inv S) as [S1 F]. pose proof (Forall_inv F) as F1. destruct i as [|i].
  - cbn [nth] in *. destruct (Rlt_dec x x1) as [Hx|Hx]; [|lra]. destruct (Req_EM_T x x0); [lra|reflexivity].
  - cbn [List.length] in L, Hi. change (nth (Datatypes.S i) (x0 :: x1 :: q) d) with (nth i (x1 :: q) d) in *. change (nth (Datatypes.S i) (x1 :: q) d) with (nth i q d) in *.
    change (nth (Datatypes.S i) (y0 :: y1 :: ys) e) with (nth i (y1 :: ys) e). change (nth (Datatypes.S i) (y1 :: ys) e) with (nth i ys e).
    assert (G : x1 <= nth i (x1 :: q) d).
    { destruct i as [|i]; [apply Rle_refl|]. cbn [nth]. pose proof (StronglySorted_inv S1) as [_ F2]. rewrite Forall_forall in F2. left. apply F2, nth_In. lia. }
    destruct (Rlt_dec x x1) as [Hx|Hx]; [lra|]. apply IH; [exact S1|lia|lia|exact B]. Qed.

Lemma value_between x i q row d e : increasing q -> List.length q = List.length row -> (S i < List.length q)%nat -> nth i q d < x < nth (S i) q d ->
  value x q row = segment x (nth i q d) (log_value (nth i row e)) (nth (S i) q d) (log_value (nth (S i) row e)).
Proof. intros I L Hi B. destruct q as [|x0 q]; [simpl in Hi; lia|]. destruct row as [|r0 r]; [discriminate|].
  cbn [List.length] in L, Hi. unfold value. cbn [map combine]. change (nth (S i) (x0 :: q) d) with (nth i q d) in *. change (nth (S i) (r0 :: r) e) with (nth i r e).
  assert (G : x0 <= nth i (x0 :: q) d).
  { destruct i as [|i]; [apply Rle_refl|]. cbn [nth]. pose proof (StronglySorted_inv I) as [_ F2]. rewrite Forall_forall in F2. left. apply F2, nth_In. lia. }
  destruct (Rlt_dec x x0) as [Hx|Hx]; [lra|]. rewrite (interp_from_segment x q x0 (log_value r0) (map log_value r) i d (log_value e)); [|exact I|rewrite map_length; lia|lia|exact B].
  rewrite map_nth. change (log_value r0 :: map log_value r) with (map log_value (r0 :: r)). rewrite map_nth. reflexivity. Qed.

Lemma log_value_pos v : 0 < v -> log_value (Some v) = LFin (log10 v).
Proof. intros H. unfold log_value. destruct (Rlt_dec 0 v); [reflexivity|contradiction]. Qed.
Lemma log_pow y : log10 (Rpower 10 y) = y.
Proof. unfold log10, Rpower. rewrite ln_exp. field. pose proof ln10_pos. lra. Qed.

Lemma interp_log_linear x i q r d : increasing q -> nonnegative_curve r -> List.length q = List.length r -> (S i < List.length q)%nat ->
  0 < nth i r d -> 0 < nth (S i) r d -> nth i q d <= x <= nth (S i) q d ->
  exists v, interp_reflectivity [x] q (map Some r) = Ok [Some v] /\ 0 < v /\
    log10 v = log10 (nth i r d) + (x - nth i q d) / (nth (S i) q d - nth i q d) * (log10 (nth (S i) r d) - log10 (nth i r d)).
Proof. intros I P L Hi P0 P1 B.
  assert (D : nth i q d < nth (S i) q d).
  { clear - I Hi. revert i Hi. induction I as [|x q I IH F]; intros i Hi; [simpl in Hi; lia|]. destruct i as [|i].
    - destruct q as [|x1 q]; [simpl in Hi; lia|]. exact (Forall_inv F).
    - simpl in Hi. apply (IH i). lia. }
  destruct (Req_EM_T x (nth i q d)) as [E0|N0].
  { exists (nth i r d). rewrite (interp_point x i q r d I P L ltac:(lia) E0). split; [reflexivity|]. split; [exact P0|]. rewrite E0. field. lra. }
  destruct (Req_EM_T x (nth (S i) q d)) as [E1|N1].
  { exists (nth (S i) r d). rewrite (interp_point x (S i) q r d I P L Hi E1). split; [reflexivity|]. split; [exact P1|]. rewrite E1. field. lra. }
  rewrite interp_total; [|rewrite map_length; assumption|intros ->; simpl in Hi; lia]. cbn [map].
  rewrite (value_between x i q (map Some r) d (Some d)); [|assumption|rewrite map_length; assumption|assumption|lra].
  rewrite !nth_some, !log_value_pos by assumption. cbn [segment pow10]. eexists. split; [reflexivity|]. split; [apply exp_pos|]. rewrite log_pow. field. lra. Qed.

(** Next to a zero the curve is zero; next to a negative number or NaN it is NaN. *)
Lemma interp_zero x i q r d : increasing q -> nonnegative_curve r -> List.length q = List.length r -> (S i < List.length q)%nat ->
  nth i r d = 0 \/ nth (S i) r d = 0 -> nth i q d < x < nth (S i) q d -> interp_reflectivity [x] q (map Some r) = Ok [Some 0].
Proof. intros I P L Hi Z B. rewrite interp_total; [|rewrite map_length; assumption|intros ->; simpl in Hi; lia]. cbn [map].
  rewrite (value_between x i q (map Some r) d (Some d)); [|assumption|rewrite map_length; assumption|assumption|assumption]. rewrite !nth_some.
  pose proof (nonnegative_nth r i d P ltac:(lia)) as G0. pose proof (nonnegative_nth r (S i) d P ltac:(lia)) as G1.
  assert (K : forall v, 0 <= v -> log_value (Some v) = LMinf /\ v = 0 \/ exists y, log_value (Some v) = LFin y /\ 0 < v).
  { intros v Hv. unfold log_value. destruct (Rlt_dec 0 v); [right; eauto|]. destruct (Req_EM_T v 0); [left; auto|lra]. }
  destruct (K _ G0) as [[-> _]|(y0 & -> & H0)], (K _ G1) as [[-> _]|(y1 & -> & H1)]; try reflexivity. exfalso. destruct Z; lra. Qed.
Lemma interp_nan x i q (row : list fl) d (e : fl) : increasing q -> List.length q = List.length row -> (S i < List.length q)%nat ->
  (forall v, nth i row e = Some v -> v < 0) \/ (forall v, nth (S i) row e = Some v -> v < 0) -> nth i q d < x < nth (S i) q d ->
  interp_reflectivity [x] q row = Ok [None].
Proof. intros I L Hi Z B. rewrite interp_total; [|assumption|intros ->; simpl in Hi; lia]. cbn [map].
  rewrite (value_between x i q row d e) by assumption.
  assert (K : forall y : fl, (forall v, y = Some v -> v < 0) -> log_value y = LNan).
  { intros [v|] H; [|reflexivity]. specialize (H v eq_refl). unfold log_value. destruct (Rlt_dec 0 v); [lra|]. destruct (Req_EM_T v 0); [lra|reflexivity]. }
  destruct Z as [Z|Z]; rewrite (K _ Z); [reflexivity|]. destruct (log_value (nth i row e)); reflexivity. Qed.

Lemma interp_length qi q row out : interp_reflectivity qi q row = Ok out -> List.length out = List.length qi.
Proof. intros H. destruct (interp_cases qi q row) as [[E _]|[E _]]; [congruence|]. rewrite E in H. injection H as <-. apply map_length. Qed.
