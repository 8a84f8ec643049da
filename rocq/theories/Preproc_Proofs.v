From Coq Require Import Reals Lra.
From Coquelicot Require Import Complex.
From Verif Require Import Py Str Cplx Sample_Model Sample_Spec Sample_Proofs Sampling_Model Arr Preproc_Model Preproc_Spec.
Local Open Scope string_scope.
Local Open Scope R_scope.

(** ** Sums *)
Lemma sum_map_add l c : sum (map (fun x => x - c) l) = sum l - INR (List.length l) * c.
Proof. induction l as [|x l IH]; [simpl; lra|]. cbn [map sum fold_right]. change (fold_right Rplus 0 ?l) with (sum l).
  cbn [List.length]. rewrite S_INR. change (fold_right Rplus 0 (map (fun x => x - c) l)) with (sum (map (fun x => x - c) l)).
  rewrite IH. change (fold_right Rplus 0 l) with (sum l). lra. Qed.

Lemma sum_map_div l c : c <> 0 -> sum (map (fun x => x / c) l) = sum l / c.
Proof. intros H. induction l as [|x l IH]; [simpl; field; exact H|]. unfold sum in *. simpl. rewrite IH. field. exact H. Qed.

Lemma INR_len_pos A (l : list A) : l <> [] -> 0 < INR (List.length l).
Proof. destruct l; [congruence|]. intros _. cbn [List.length]. rewrite S_INR. pose proof (pos_INR (List.length l)). lra. Qed.

Lemma avg_centred l : l <> [] -> avg (map (fun x => x - avg l) l) = 0.
Proof. intros H. unfold avg at 1. rewrite sum_map_add, map_length. unfold avg. pose proof (INR_len_pos _ l H). field. lra. Qed.

Lemma dev_centred l : l <> [] -> dev (map (fun x => x - avg l) l) = dev l.
Proof. intros H. unfold dev. rewrite avg_centred by exact H. rewrite map_map. f_equal. f_equal. apply map_ext. intros x. f_equal. lra. Qed.

Lemma sum_nonneg l : Forall (fun x => 0 <= x) l -> 0 <= sum l.
Proof. induction 1 as [|x l Hx _ IH]; [simpl; lra|]. unfold sum in *. simpl. lra. Qed.

Lemma sum_zero l : Forall (fun x => 0 <= x) l -> sum l = 0 -> Forall (fun x => x = 0) l.
Proof. induction 1 as [|x l Hx Hl IH]; [constructor|]. intros E. pose proof (sum_nonneg l Hl) as Hs. unfold sum in *. simpl in E.
  constructor; [lra|]. apply IH. lra. Qed.

Lemma squares_nonneg l c : Forall (fun x => 0 <= x) (map (fun x => (x - c) ^ 2) l).
Proof. apply Forall_forall. intros y Hy. apply in_map_iff in Hy. destruct Hy as (x & <- & _). apply pow2_ge_0. Qed.

Lemma avg_nonneg l : Forall (fun x => 0 <= x) l -> 0 <= avg l.
Proof. intros H. unfold avg. pose proof (sum_nonneg l H). destruct l as [|x l']; [unfold sum; simpl; unfold Rdiv; rewrite Rmult_0_l; lra|].
  apply Rmult_le_pos; [assumption|]. left. apply Rinv_0_lt_compat, INR_len_pos. discriminate. Qed.

Lemma dev_zero l : l <> [] -> (dev l = 0 <-> exists x, Forall (eq x) l).
Proof. intros H. unfold dev. split.
  - intros E. apply sqrt_eq_0 in E; [|apply avg_nonneg, squares_nonneg].
    unfold avg in E at 1. rewrite map_length in E. pose proof (INR_len_pos _ l H).
    assert (E' : sum (map (fun x => (x - avg l) ^ 2) l) = 0).
    { apply (Rmult_eq_reg_r (/ INR (List.length l))); [|apply Rinv_neq_0_compat; lra]. unfold Rdiv in E. rewrite E. lra. }
    apply sum_zero in E'; [|apply squares_nonneg]. exists (avg l). apply Forall_forall. intros x Hx.
    rewrite Forall_forall in E'. specialize (E' ((x - avg l) ^ 2)). assert (Hz : (x - avg l) ^ 2 = 0) by (apply E', in_map_iff; eauto).
    simpl in Hz. rewrite Rmult_1_r in Hz. apply Rmult_integral in Hz. lra.
  - intros (x & F).
    assert (Es : sum l = INR (List.length l) * x).
    { clear H. induction F as [|y l <- F IH]; [simpl; lra|]. cbn [List.length]. rewrite S_INR. unfold sum in *. simpl. rewrite IH. lra. }
    pose proof (INR_len_pos _ l H). assert (Ea : avg l = x) by (unfold avg; rewrite Es; field; lra).
    rewrite Ea. assert (Ez : sum (map (fun y => (y - x) ^ 2) l) = 0).
    { clear -F. induction F as [|y l <- F IH]; [reflexivity|]. unfold sum in *. cbn [map fold_right]. rewrite IH. ring. }
    unfold avg. rewrite Ez. unfold Rdiv. rewrite Rmult_0_l. apply sqrt_0. Qed.

Lemma avg_standardised l : l <> [] -> dev l <> 0 -> avg (map (fun x => (x - avg l) / dev l) l) = 0.
Proof. intros H Hd. unfold avg at 1. rewrite map_length. rewrite <- (map_map (fun x => x - avg l) (fun x => x / dev l)).
  rewrite sum_map_div by exact Hd. rewrite sum_map_add. unfold avg. pose proof (INR_len_pos _ l H). field. split; [lra|exact Hd]. Qed.

Lemma dev_standardised l : l <> [] -> dev l <> 0 -> dev (map (fun x => (x - avg l) / dev l) l) = 1.
Proof. intros H Hd. unfold dev at 1. rewrite avg_standardised by assumption. rewrite map_map.
  assert (E : avg (map (fun x => ((x - avg l) / dev l - 0) ^ 2) l) = 1).
  { assert (Hm : map (fun x => ((x - avg l) / dev l - 0) ^ 2) l = map (fun y => y / (dev l * dev l)) (map (fun x => (x - avg l) ^ 2) l)).
    { rewrite map_map. apply map_ext. intros x. field. exact Hd. }
    unfold avg at 1. rewrite Hm, sum_map_div by (apply Rmult_integral_contrapositive; auto). rewrite !map_length.
    assert (Hs : dev l * dev l = avg (map (fun x => (x - avg l) ^ 2) l)) by (unfold dev; apply sqrt_sqrt, avg_nonneg, squares_nonneg).
    rewrite Hs. unfold avg at 2. rewrite map_length. pose proof (INR_len_pos _ l H). 
    assert (Hz : sum (map (fun x => (x - avg l) ^ 2) l) <> 0).
    { intros Hz. apply Hd. unfold dev. unfold avg at 1. rewrite Hz. unfold Rdiv. rewrite Rmult_0_l. apply sqrt_0. }
    field. split; [lra|exact Hz]. }
  rewrite E. apply sqrt_1. Qed.

(** ** The model's statistics *)
Lemma finite_values_Some l xs : finite_values l = Some xs <-> l = map Some xs.
Proof. revert xs. induction l as [|[x|] l IH]; intros xs; simpl.
  - split; [intros H; inversion H; reflexivity|destruct xs; [reflexivity|discriminate]].
  - split.
    + destruct (finite_values l) as [ys|]; [|discriminate]. intros H; inversion H; subst. simpl. f_equal. now apply IH.
    + destruct xs as [|y ys]; [discriminate|]. intros H. injection H as -> H. apply IH in H. rewrite H. reflexivity.
  - split; [discriminate|destruct xs; discriminate]. Qed.

Lemma finite_values_None l : finite_values l = None -> fsum l = None.
Proof. induction l as [|[x|] l IH]; cbn [finite_values]; [discriminate| |reflexivity].
  destruct (finite_values l); [discriminate|]. intros _. change (fsum (Some x :: l)) with (fadd (Some x) (fsum l)). rewrite IH by reflexivity. reflexivity. Qed.

Lemma fmean_statistic l : fmean l = statistic avg l.
Proof. unfold statistic. destruct (finite_values l) as [xs|] eqn:E.
  - apply finite_values_Some in E. subst l. destruct xs as [|x xs].
    + unfold fmean. simpl. destruct (Req_EM_T 0 0); congruence.
    + apply fmean_finite. discriminate.
  - unfold fmean. rewrite finite_values_None by exact E. reflexivity. Qed.

Lemma fstd_finite xs : xs <> [] -> fstd (map Some xs) = Some (dev xs).
Proof. intros H. unfold fstd. rewrite fmean_finite by exact H. change (fold_right Rplus 0 xs / INR (List.length xs)) with (avg xs).
  assert (E : map (fun x => fmul (fsub x (Some (avg xs))) (fsub x (Some (avg xs)))) (map Some xs) = map Some (map (fun x => (x - avg xs) ^ 2) xs)).
  { rewrite !map_map. apply map_ext. intros x. simpl. f_equal. ring. }
  rewrite E. rewrite fmean_finite by (destruct xs; [congruence|discriminate]).
  change (fold_right Rplus 0 ?l / INR (List.length ?l)) with (avg l). simpl.
  destruct (Rlt_dec _ 0) as [Hl|_]; [|reflexivity].
  exfalso. exact (Rlt_not_le _ _ Hl (avg_nonneg _ (squares_nonneg xs (avg xs)))). Qed.

(** The standard deviation is taken of the centred column; it equals that of the column itself. *)
Lemma centred_std l : fstd (map (fun x => fsub x (fmean l)) l) = statistic dev l.
Proof. rewrite fmean_statistic. unfold statistic. destruct (finite_values l) as [[|x xs]|] eqn:E.
  - apply finite_values_Some in E. subst l. unfold fstd, fmean. simpl. destruct (Req_EM_T 0 0); [reflexivity|congruence].
  - apply finite_values_Some in E. subst l. rewrite map_map.
    replace (map (fun x0 => fsub (Some x0) (Some (avg (x :: xs)))) (x :: xs)) with (map Some (map (fun y => y - avg (x :: xs)) (x :: xs)))
      by (rewrite map_map; reflexivity).
    rewrite fstd_finite by discriminate. rewrite dev_centred by discriminate. reflexivity.
  - unfold fstd. destruct l as [|y l]; [discriminate|].
    assert (E1 : fmean (map (fun x => fsub x None) (y :: l)) = None).
    { unfold fmean. replace (fsum (map (fun x => fsub x None) (y :: l))) with (@None R); [reflexivity|].
      simpl. unfold fsub at 1, lift2. destruct y; reflexivity. }
    rewrite E1. simpl. unfold fsub at 1, lift2. destruct y; simpl; reflexivity. Qed.

Lemma column_centred m rows mean j : Forall (fun r => List.length r = m) rows -> List.length mean = m -> (j < m)%nat ->
  forall f, column j (map (fun r => bop f m r mean) rows) = map (fun x => f x (nth j mean None)) (column j rows).
Proof. intros Hw Hl Hj f. unfold column. rewrite !map_map. apply map_ext_in. intros r Hr.
  rewrite Forall_forall in Hw. specialize (Hw r Hr). rewrite <- Hw. apply nth_bop; lia. Qed.

Lemma wf_bop f m rows v : Forall (fun r => List.length r = m) rows -> List.length v = m ->
  Forall (fun r => List.length r = m) (map (fun r => bop f m r v) rows).
Proof. intros Hw Hl. apply Forall_forall. intros r' Hr. apply in_map_iff in Hr. destruct Hr as (r & <- & Hr).
  rewrite Forall_forall in Hw. specialize (Hw r Hr). rewrite <- Hw at 1. rewrite length_bop; congruence. Qed.

Definition spec_mean m rows := by_column fmean m rows.
Definition spec_std m rows := by_column (statistic dev) m rows.

Lemma std_centred m rows : Forall (fun r => List.length r = m) rows ->
  by_column fstd m (map (fun r => bop fsub m r (by_column fmean m rows)) rows) = spec_std m rows.
Proof. intros Hw. unfold spec_std, by_column at 1. apply map_ext_in. intros j Hj. apply in_seq in Hj.
  rewrite column_centred; [|exact Hw|apply length_by_column|lia]. rewrite nth_by_column by lia. apply centred_std. Qed.

Lemma mean_statistics m rows : column_statistics avg m rows (by_column fmean m rows).
Proof. split; [apply length_by_column|]. intros j Hj. rewrite nth_by_column by exact Hj. apply fmean_statistic. Qed.
Lemma std_statistics m rows : column_statistics dev m rows (spec_std m rows).
Proof. split; [apply length_by_column|]. intros j Hj. unfold spec_std. rewrite nth_by_column by exact Hj. reflexivity. Qed.

Lemma column_statistics_unique f m rows v w : column_statistics f m rows v -> column_statistics f m rows w -> v = w.
Proof. intros [A B] [A' B']. apply (@nth_ext fl _ _ None None); [etransitivity; [exact A|symmetry; exact A']|]. intros j Hj. rewrite A in Hj. rewrite B, B' by lia. reflexivity. Qed.

Lemma statistic_dev_zero l : statistic dev l = Some 0 <-> l <> [] /\ exists x, Forall (eq (Some x)) l.
Proof. unfold statistic. destruct (finite_values l) as [[|x xs]|] eqn:E.
  - apply finite_values_Some in E. subst l. simpl. split; [discriminate|intros [H _]; exfalso; apply H; reflexivity].
  - apply finite_values_Some in E. subst l. split.
    + intros H. injection H as H. apply dev_zero in H; [|discriminate]. destruct H as (y & F). split; [discriminate|].
      exists y. apply Forall_forall. intros z Hz. apply in_map_iff in Hz. destruct Hz as (z' & <- & Hz). rewrite Forall_forall in F. f_equal. auto.
    + intros (_ & y & F). f_equal. apply dev_zero; [discriminate|]. exists y. apply Forall_forall. intros z Hz.
      rewrite Forall_forall in F. assert (Hs : Some y = Some z) by (apply F, in_map; exact Hz). congruence.
  - split; [discriminate|]. intros (Hn & x & F). exfalso.
    assert (Hl : l = map Some (repeat x (List.length l))).
    { clear -F. induction F as [|y l <- F IH]; [reflexivity|]. simpl. f_equal. exact IH. }
    apply finite_values_Some in Hl. congruence. Qed.

Lemma zero_std m rows : existsb is_zero (spec_std m rows) = true <-> has_constant_column m rows.
Proof. rewrite existsb_exists. unfold has_constant_column. split.
  - intros (x & Hx & Hz). unfold spec_std, by_column in Hx. apply in_map_iff in Hx. destruct Hx as (j & <- & Hj). apply in_seq in Hj.
    assert (Hs : statistic dev (column j rows) = Some 0).
    { destruct (statistic dev (column j rows)) as [r|]; simpl in Hz; [|discriminate]. apply Reqb_spec in Hz. congruence. }
    apply statistic_dev_zero in Hs. destruct Hs as (Hn & x & F). split; [destruct rows; [exfalso; apply Hn; reflexivity|discriminate]|].
    exists j, x. split; [lia|]. unfold column in F. rewrite Forall_map in F. apply Forall_forall. rewrite Forall_forall in F. intros r Hr. symmetry. auto.
  - intros (Hn & j & x & Hj & F). exists (Some 0). split; [|simpl; apply Reqb_spec; reflexivity].
    unfold spec_std, by_column. apply in_map_iff. exists j. split; [|apply in_seq; lia].
    apply statistic_dev_zero. split; [unfold column; destruct rows; [exfalso; apply Hn; reflexivity|discriminate]|]. exists x.
    unfold column. rewrite Forall_map. apply Forall_forall. rewrite Forall_forall in F. intros r Hr. symmetry. auto. Qed.

Definition standardized m rows : arr :=
  A2 m (map (fun r => bop fdiv m r (spec_std m rows)) (map (fun r => bop fsub m r (by_column fmean m rows)) rows)).

Lemma standardize_fresh m rows : Forall (fun r => List.length r = m) rows ->
  (has_constant_column m rows -> standardize ip_new (A2 m rows) = (ip_new, Raise ValueError)) /\
  (~ has_constant_column m rows -> standardize ip_new (A2 m rows) =
     (mkIp (Some (by_column fmean m rows)) (Some (spec_std m rows)), Ok (standardized m rows))).
Proof. intros Hw. unfold standardize. cbn [ip_mean ip_std ip_new]. rewrite row_op_A2 by apply length_by_column.
  rewrite std_centred by exact Hw. destruct (existsb is_zero (spec_std m rows)) eqn:E.
  - split; [reflexivity|]. intros H. apply zero_std in E. contradiction.
  - split; [intros H; apply zero_std in H; congruence|]. intros _. f_equal.
    rewrite row_op_A2 by (apply length_by_column). reflexivity. Qed.

(** ** Histories *)
Lemma ip_run_snoc cs c : ip_run (cs ++ [c]) = ip_step (ip_run cs) c.
Proof. unfold ip_run. rewrite fold_left_app. reflexivity. Qed.

Definition stats_state (d : arr) : ip_state :=
  match d with A1 _ => ip_new | A2 m rows => mkIp (Some (by_column fmean m rows)) (Some (spec_std m rows)) end.

Lemma step_fresh_accepted d : wf_arr d -> accepted d -> ip_step ip_new (CStandardize d) = stats_state d.
Proof. destruct d as [v|m rows]; simpl; [tauto|]. intros Hw Ha. destruct (standardize_fresh m rows Hw) as [_ H]. rewrite (H Ha). reflexivity. Qed.

Lemma step_fresh_futile c : wf_call c -> futile c -> ip_step ip_new c = ip_new.
Proof. destruct c as [[v|m rows]|d|]; try reflexivity. simpl. intros Hw Hf. destruct (standardize_fresh m rows Hw) as [H1 H2].
  destruct (existsb is_zero (spec_std m rows)) eqn:E.
  - apply zero_std in E. rewrite (H1 E). reflexivity.
  - exfalso. apply Hf. intros H. apply zero_std in H. congruence. Qed.

Lemma step_frozen mean std c : not_reset c -> ip_step (mkIp (Some mean) (Some std)) c = mkIp (Some mean) (Some std).
Proof. destruct c; try reflexivity. intros H. exfalso. now apply H. Qed.

Lemma run_frozen mean std cs : Forall not_reset cs -> fold_left ip_step cs (mkIp (Some mean) (Some std)) = mkIp (Some mean) (Some std).
Proof. induction 1 as [|c cs H _ IH]; [reflexivity|]. cbn [fold_left]. rewrite step_frozen by exact H. exact IH. Qed.
Lemma run_futile cs : Forall wf_call cs -> Forall futile cs -> fold_left ip_step cs ip_new = ip_new.
Proof. intros Hw; induction 1 as [|c cs H _ IH]; [reflexivity|]. inversion Hw; subst. cbn [fold_left]. rewrite step_fresh_futile by assumption. auto. Qed.

Lemma history_frozen cs d : Forall wf_call cs -> first_since_reset cs d -> ip_run cs = stats_state d /\ exists m rows, d = A2 m rows.
Proof. intros Hw (pre & mid & post & -> & Hp & Hm & Ha & Hn).
  apply Forall_app in Hw. destruct Hw as [Hw1 Hw2]. apply Forall_app in Hw2. destruct Hw2 as [Hw2 Hw3].
  inversion Hw3 as [|? ? Hwd Hw4]; subst. destruct d as [v|m rows]; [destruct Ha|]. split; [|eauto].
  unfold ip_run. rewrite !fold_left_app. cbn [fold_left].
  assert (E : fold_left ip_step pre ip_new = ip_new).
  { destruct Hp as [->|(p & ->)]; [reflexivity|]. rewrite fold_left_app. reflexivity. }
  rewrite E, run_futile by assumption. rewrite step_fresh_accepted by assumption. cbn [stats_state]. apply run_frozen. exact Hn. Qed.

Lemma accepted_dec d : wf_arr d -> accepted d \/ ~ accepted d.
Proof. destruct d as [v|m rows]; simpl; [tauto|]. intros _. destruct (existsb is_zero (spec_std m rows)) eqn:E.
  - right. apply zero_std in E. tauto.
  - left. intros H. apply zero_std in H. congruence. Qed.

(** Every history ends frozen by a first accepted call or fresh. *)
Lemma history_cases cs : Forall wf_call cs -> (exists d, first_since_reset cs d) \/
  (ip_run cs = ip_new /\ exists pre mid, cs = (pre ++ mid)%list /\ (pre = [] \/ exists p, pre = p ++ [CReset])%list /\ Forall futile mid).
Proof. induction cs as [|c cs IH] using rev_ind; intros Hw.
  - right. split; [reflexivity|]. exists [], []. repeat split; auto.
  - apply Forall_app in Hw. destruct Hw as [Hw Hc]. inversion Hc as [|? ? Hc1 _]; subst. specialize (IH Hw).
    assert (Hr : c = CReset \/ not_reset c) by (destruct c; [right; discriminate|right; discriminate|left; reflexivity]).
    destruct Hr as [->|Hr].
    + right. split; [rewrite ip_run_snoc; reflexivity|]. exists (cs ++ [CReset])%list, []. split; [now rewrite app_nil_r|]. split; [right; eauto|constructor].
    + destruct IH as [(d & pre & mid & post & -> & Hp & Hm & Ha & Hn)|(E & pre & mid & -> & Hp & Hm)].
      * left. exists d, pre, mid, (post ++ [c])%list. split; [now rewrite <- !app_assoc|]. repeat split; auto. apply Forall_app; auto.
      * assert (Hf : futile c \/ exists d, c = CStandardize d /\ accepted d).
        { destruct c as [d|d|]; [|left; exact I|left; exact I]. destruct (accepted_dec d Hc1); [right; eauto|left; assumption]. }
        destruct Hf as [Hf|(d & -> & Ha)].
        -- right. rewrite ip_run_snoc, E, step_fresh_futile by assumption. split; [reflexivity|].
           exists pre, (mid ++ [c])%list. split; [now rewrite app_assoc|]. split; [assumption|]. apply Forall_app; auto.
        -- left. exists d, pre, mid, []. rewrite <- app_assoc. repeat split; auto. Qed.

Lemma history_fresh cs : Forall wf_call cs -> (forall d, ~ first_since_reset cs d) -> ip_run cs = ip_new.
Proof. intros Hw H. destruct (history_cases cs Hw) as [(d & Hd)|[E _]]; [destruct (H d Hd)|exact E]. Qed.

Lemma history_saved cs : Forall wf_call cs -> exists b, has_saved (ip_run cs) = Ok b /\ (b = true <-> exists d, first_since_reset cs d).
Proof. intros Hw. destruct (history_cases cs Hw) as [(d & Hd)|[E (pre & mid & Ec & Hp & Hm)]].
  - destruct (history_frozen cs d Hw Hd) as (E & m & rows & ->). rewrite E. exists true. split; [reflexivity|]. split; eauto.
  - rewrite E. exists false. split; [reflexivity|]. split; [discriminate|]. intros (d & Hd). exfalso.
    destruct (history_frozen cs d Hw Hd) as (E' & m & rows & ->). rewrite E' in E. discriminate. Qed.

Lemma history_stats cs m rows : Forall wf_call cs -> first_since_reset cs (A2 m rows) ->
  exists mean std, ip_run cs = mkIp (Some mean) (Some std) /\ column_statistics avg m rows mean /\ column_statistics dev m rows std.
Proof. intros Hw Hd. destruct (history_frozen cs _ Hw Hd) as (E & _). exists (by_column fmean m rows), (spec_std m rows).
  split; [exact E|]. split; [apply mean_statistics|apply std_statistics]. Qed.

Lemma failing_call st d e : snd (standardize st d) = Raise e -> wf_arr d -> fst (standardize st d) = st.
Proof. destruct st as [[mean|] [std|]]; try reflexivity. change (mkIp None None) with ip_new. destruct d as [v|m rows]; [reflexivity|].
  intros E Hw. simpl in Hw. destruct (standardize_fresh m rows Hw) as [H1 H2].
  destruct (existsb is_zero (spec_std m rows)) eqn:Ez; [apply zero_std in Ez; rewrite (H1 Ez); reflexivity|].
  rewrite H2 in E; [discriminate|]. intros H. apply zero_std in H. congruence. Qed.

(** ** Round trip *)
Lemma cell_roundtrip x m s : s <> Some 0 -> m <> None -> s <> None -> fadd (fmul (fdiv (fsub x m) s) s) m = x.
Proof. destruct x as [x|], m as [m|], s as [s|]; intros H1 H2 H3; try congruence; simpl; try reflexivity.
  destruct (Req_EM_T s 0) as [->|Hs]; [congruence|]. simpl. f_equal. field. exact Hs. Qed.

Lemma row_roundtrip r mean std : List.length mean = List.length r -> List.length std = List.length r ->
  Forall (fun s => s <> Some 0 /\ s <> None) std -> Forall (fun m => m <> None) mean ->
  let n := List.length r in bop fadd n (bop fmul n (bop fdiv n (bop fsub n r mean) std) std) mean = r.
Proof. intros Hm Hs Fs Fm n.
  assert (La : List.length (bop fsub n r mean) = n) by (apply length_bop_n; auto).
  assert (Lb : List.length (bop fdiv n (bop fsub n r mean) std) = n) by (apply length_bop_n; auto).
  assert (Lc : List.length (bop fmul n (bop fdiv n (bop fsub n r mean) std) std) = n) by (apply length_bop_n; auto).
  assert (Ld : List.length (bop fadd n (bop fmul n (bop fdiv n (bop fsub n r mean) std) std) mean) = n) by (apply length_bop_n; auto).
  apply (@nth_ext fl _ _ None None); [exact Ld|]. intros j Hj. rewrite Ld in Hj.
  rewrite !nth_bop_n by auto. rewrite Forall_forall in Fs, Fm.
  assert (Is : In (nth j std None) std) by (apply nth_In; lia). assert (Im : In (nth j mean None) mean) by (apply nth_In; lia).
  apply cell_roundtrip; [apply (Fs _ Is)|apply (Fm _ Im)|apply (Fs _ Is)]. Qed.

Lemma revert_standardize st m a : usable st m -> wf_arr a -> last (shape a) 0%nat = m ->
  exists b, standardize st a = (st, Ok b) /\ shape b = shape a /\ revert st b = Ok a.
Proof. intros (mean & std & Em & Es & Lm & Ls & Fm & Fs) Hw Hs. unfold standardize, revert. rewrite Em, Es.
  destruct a as [v|k rows]; simpl in Hs.
  - remember (List.length v) as n eqn:En.
    assert (La : List.length (bop fsub n v mean) = n) by (apply length_bop_n; auto; congruence).
    assert (Lb : List.length (bop fdiv n (bop fsub n v mean) std) = n) by (apply length_bop_n; auto; congruence).
    assert (Lc : List.length (bop fmul n (bop fdiv n (bop fsub n v mean) std) std) = n) by (apply length_bop_n; auto; congruence).
    rewrite row_op_A1 by congruence. cbn [bind]. rewrite <- En. rewrite row_op_A1 by congruence. rewrite La.
    eexists. split; [reflexivity|]. split; [simpl; rewrite Lb; congruence|].
    rewrite row_op_A1 by (rewrite Lb; congruence). rewrite Lb. cbn [bind]. rewrite row_op_A1 by (rewrite Lc; congruence). rewrite Lc.
    f_equal. f_equal. rewrite En. apply row_roundtrip; try assumption; (eapply eq_trans; [eassumption|]; eapply eq_trans; [symmetry; exact Hs|exact En]).
  - subst k. simpl in Hw. rewrite row_op_A2 by exact Lm. cbn [bind]. rewrite row_op_A2 by exact Ls. eexists. split; [reflexivity|].
    split; [simpl; now rewrite !map_length|]. rewrite row_op_A2 by exact Ls. cbn [bind]. rewrite row_op_A2 by exact Lm. f_equal. f_equal.
    rewrite !map_map. rewrite <- (map_id rows) at 2. apply map_ext_in. intros r Hr. rewrite Forall_forall in Hw. specialize (Hw r Hr).
    rewrite <- Hw. apply row_roundtrip; try assumption; (eapply eq_trans; [eassumption|symmetry; exact Hw]). Qed.

Lemma finite_stats_usable m rows : Forall (Forall (fun x => x <> None)) rows -> rows <> [] -> Forall (fun r => List.length r = m) rows ->
  ~ has_constant_column m rows -> usable (stats_state (A2 m rows)) m.
Proof. intros Hf Hn Hw Hc. exists (by_column fmean m rows), (spec_std m rows). repeat split; try apply length_by_column.
  - apply Forall_forall. intros x Hx. unfold by_column in Hx. apply in_map_iff in Hx. destruct Hx as (j & <- & Hj). apply in_seq in Hj.
    rewrite fmean_statistic. unfold statistic. destruct (finite_values (column j rows)) as [[|y ys]|] eqn:E; [| |].
    + apply finite_values_Some in E. destruct rows; [exfalso; apply Hn; reflexivity|discriminate].
    + discriminate.
    + exfalso. assert (Hg : forall l, Forall (fun x => x <> None) l -> finite_values l <> None).
      { clear. induction 1 as [|[x|] l Hx _ IH]; simpl; try congruence. destruct (finite_values l); [discriminate|congruence]. }
      apply (Hg (column j rows)); [|exact E]. unfold column. rewrite Forall_map. apply Forall_forall. intros r Hr.
      rewrite Forall_forall in Hf, Hw. specialize (Hf r Hr). specialize (Hw r Hr). rewrite Forall_forall in Hf. apply Hf, nth_In. lia.
  - apply Forall_forall. intros x Hx. split.
    + intros ->. apply Hc. apply zero_std. apply existsb_exists. exists (Some 0). split; [exact Hx|simpl; apply Reqb_spec; reflexivity].
    + intros ->. unfold spec_std, by_column in Hx. apply in_map_iff in Hx. destruct Hx as (j & E0 & Hj). apply in_seq in Hj.
      unfold statistic in E0. destruct (finite_values (column j rows)) as [[|y ys]|] eqn:E; try discriminate.
      * apply finite_values_Some in E. destruct rows; [exfalso; apply Hn; reflexivity|discriminate].
      * assert (Hg : forall l, Forall (fun x => x <> None) l -> finite_values l <> None).
        { clear. induction 1 as [|[x|] l Hx _ IH]; simpl; try congruence. destruct (finite_values l); [discriminate|congruence]. }
        apply (Hg (column j rows)); [|exact E]. unfold column. rewrite Forall_map. apply Forall_forall. intros r Hr.
        rewrite Forall_forall in Hf, Hw. specialize (Hf r Hr). specialize (Hw r Hr). rewrite Forall_forall in Hf. apply Hf, nth_In. lia. Qed.

Lemma first_standardize_roundtrip m rows : Forall (fun r => List.length r = m) rows -> Forall (Forall (fun x => x <> None)) rows -> rows <> [] ->
  ~ has_constant_column m rows ->
  exists st b, standardize ip_new (A2 m rows) = (st, Ok b) /\ revert st b = Ok (A2 m rows).
Proof. intros Hw Hf Hn Hc. destruct (standardize_fresh m rows Hw) as [_ H]. specialize (H Hc).
  pose proof (finite_stats_usable m rows Hf Hn Hw Hc) as Hu.
  destruct (revert_standardize _ m (A2 m rows) Hu Hw eq_refl) as (b & E & _ & Er).
  exists (stats_state (A2 m rows)), b. split; [|exact Er]. rewrite H. cbn [stats_state]. f_equal.
  unfold standardize in E. cbn [stats_state ip_mean ip_std] in E. rewrite row_op_A2 in E by apply length_by_column. cbn [bind] in E.
  rewrite row_op_A2 in E by apply length_by_column. injection E as <-. reflexivity. Qed.

(** ** Zero mean, unit deviation *)
Lemma standardized_column m rows j xs : Forall (fun r => List.length r = m) rows -> (j < m)%nat -> ~ has_constant_column m rows ->
  entries_of j rows = map Some xs -> xs <> [] ->
  match standardized m rows with
  | A2 _ out => exists ys, entries_of j out = map Some ys /\ List.length ys = List.length xs /\ avg ys = 0 /\ dev ys = 1
  | A1 _ => False
  end.
Proof. intros Hw Hj Hc E Hx. unfold standardized. change entries_of with column in *. 
  rewrite column_centred; [|apply wf_bop; [exact Hw|apply length_by_column]|apply length_by_column|exact Hj].
  rewrite column_centred; [|exact Hw|apply length_by_column|exact Hj].
  unfold spec_std. rewrite !nth_by_column by exact Hj. rewrite E, fmean_statistic. unfold statistic.
  assert (Ef : finite_values (map Some xs) = Some xs) by now apply finite_values_Some. rewrite Ef.
  destruct xs as [|x xs]; [congruence|]. set (l := x :: xs) in *.
  assert (Hd : dev l <> 0).
  { intros Hd. apply Hc. apply dev_zero in Hd; [|discriminate]. destruct Hd as (y & F). split; [intros ->; discriminate|].
    exists j, y. split; [exact Hj|]. apply Forall_forall. intros r Hr. 
    assert (Hi : In (nth j r None) (map Some l)) by (rewrite <- E; unfold column; apply in_map_iff; eauto).
    apply in_map_iff in Hi. destruct Hi as (z & <- & Hz). rewrite Forall_forall in F. rewrite (F z Hz). reflexivity. }
  exists (map (fun x => (x - avg l) / dev l) l). split; [|split; [apply map_length|split; [apply avg_standardised|apply dev_standardised]; [discriminate|exact Hd|discriminate|exact Hd]]].
  rewrite !map_map. apply map_ext. intros z. simpl. destruct (Req_EM_T (dev l) 0); [contradiction|reflexivity]. Qed.

Lemma first_standardize m rows : Forall (fun r => List.length r = m) rows -> ~ has_constant_column m rows ->
  exists st out, standardize ip_new (A2 m rows) = (st, Ok (A2 m out)) /\ List.length out = List.length rows /\
    forall j xs, (j < m)%nat -> entries_of j rows = map Some xs -> xs <> [] ->
      exists ys, entries_of j out = map Some ys /\ avg ys = 0 /\ dev ys = 1.
Proof. intros Hw Hc. destruct (standardize_fresh m rows Hw) as [_ H]. rewrite (H Hc). unfold standardized.
  eexists; eexists; split; [reflexivity|]. split; [now rewrite !map_length|]. intros j xs Hj E Hx.
  destruct (standardized_column m rows j xs Hw Hj Hc E Hx) as (ys & A & _ & B & C). eauto. Qed.

Lemma constant_column_rejected m rows : Forall (fun r => List.length r = m) rows -> has_constant_column m rows ->
  standardize ip_new (A2 m rows) = (ip_new, Raise ValueError).
Proof. intros Hw H. apply standardize_fresh; assumption. Qed.
