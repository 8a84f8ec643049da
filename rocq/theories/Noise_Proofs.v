From Coq Require Import Reals Lra.
From Verif Require Import Py Rng Sampling_Model Sampling_Spec Sampling_Proofs Arr NRng Noise_Model Noise_Spec.
Local Open Scope R_scope.

Lemma tiny_eq : tiny = 1 / 10 ^ 16.
Proof. unfold tiny. lra. Qed.

Lemma length_reshape A n m (l : list A) : List.length (reshape n m l) = n.
Proof. revert l. induction n as [|n IH]; intros l; [reflexivity|]. cbn [reshape List.length]. now rewrite IH. Qed.
Lemma reshape_rows A n m : forall l : list A, List.length l = (n * m)%nat -> Forall (fun r => List.length r = m) (reshape n m l).
Proof. induction n as [|n IH]; intros l Hl; [constructor|]. cbn [reshape]. constructor.
  - rewrite firstn_length, Hl. cbn. lia.
  - apply IH. rewrite skipn_length, Hl. cbn. lia. Qed.
Lemma reshape_In A n m : forall (l : list A) r x, In r (reshape n m l) -> In x r -> In x l.
Proof. induction n as [|n IH]; intros l r x; [intros []|]. cbn [reshape]. intros [<-|Hr] Hx.
  - rewrite <- (firstn_skipn m l). apply in_app_iff. auto.
  - rewrite <- (firstn_skipn m l). apply in_app_iff. right. eapply IH; eassumption. Qed.

Lemma firstn_len A k (l l' : list A) : List.length l = k -> firstn k (l ++ l')%list = l.
Proof. intros <-. rewrite firstn_app, Nat.sub_diag, firstn_O, app_nil_r. apply firstn_all. Qed.
Lemma skipn_len A k (l l' : list A) : List.length l = k -> skipn k (l ++ l')%list = l'.
Proof. intros <-. rewrite skipn_app, Nat.sub_diag, skipn_all. reflexivity. Qed.

Section P.
  Context {S : Type} (g : nrng S) (Hg : nrng_ok g).

  Lemma log_levels_Ok s t n s' ks : log_levels g s t n = Ok (s', ks) -> List.length ks = n /\ Forall (allowed (LvTuple t)) ks.
  Proof. unfold log_levels. destruct t as [|lo [|hi [|]]]; try discriminate. unfold logarithmic.
    destruct (Rle_dec lo 0); [discriminate|]. destruct (Rle_dec hi 0); [discriminate|]. unfold np_uniform.
    replace (Z.of_nat n <? 0)%Z with false by lia. cbn [bind]. destruct (rng_uniform (nr_g g) s (log10 lo) (log10 hi) (Z.to_nat (Z.of_nat n))) as [s1 us] eqn:E.
    intros H. injection H as <- <-. pose proof (uniform_length _ (nr_base Hg) s (log10 lo) (log10 hi) (Z.to_nat (Z.of_nat n))) as L.
    pose proof (uniform_bounds _ (nr_base Hg) s (log10 lo) (log10 hi) (Z.to_nat (Z.of_nat n))) as B. rewrite E in L, B. simpl in L, B.
    split; [rewrite map_length; lia|]. apply Forall_map. eapply Forall_impl; [|exact B]. intros x Hx. simpl.
    rewrite <- (pow10_log10 lo) by lra. rewrite <- (pow10_log10 hi) by lra.
    destruct (Rle_dec (log10 lo) (log10 hi)) as [L1|L1].
    - rewrite Rmin_left, Rmax_right in Hx by exact L1. pose proof (Rpower10_le _ _ L1). rewrite Rmin_left, Rmax_right by assumption. split; apply Rpower10_le; lra.
    - rewrite Rmin_right, Rmax_left in Hx by lra. assert (L2 : log10 hi <= log10 lo) by lra. pose proof (Rpower10_le _ _ L2). rewrite Rmin_right, Rmax_left by assumption. split; apply Rpower10_le; lra. Qed.

  Lemma log_levels_total s lo hi n : 0 < lo -> 0 < hi -> exists s' ks, log_levels g s [lo; hi] n = Ok (s', ks).
  Proof. intros Hl Hh. unfold log_levels, logarithmic. destruct (Rle_dec lo 0); [lra|]. destruct (Rle_dec hi 0); [lra|]. unfold np_uniform.
    replace (Z.of_nat n <? 0)%Z with false by lia. cbn [bind]. destruct (rng_uniform _ _ _ _ _) as [s1 us]. eauto. Qed.

  Lemma spread_values_Ok s sp n s' ks : spread_values g s sp n = Ok (s', ks) -> List.length ks = n /\ Forall (allowed sp) ks.
  Proof. destruct sp as [x|t|]; cbn [spread_values]; [|apply log_levels_Ok|discriminate]. intros H. injection H as <- <-.
    split; [apply repeat_length|]. apply Forall_forall. intros y Hy. apply repeat_spec in Hy. exact Hy. Qed.
  Lemma spread_values_total s sp n : usable_level sp -> exists s' ks, spread_values g s sp n = Ok (s', ks).
  Proof. destruct sp as [x|[|lo [|hi [|]]]|]; cbn [spread_values usable_level]; try contradiction; [eauto|]. intros [A B]. apply log_levels_total; assumption. Qed.
  Lemma allowed_nonneg sp x : usable_level sp -> allowed sp x -> 0 <= x <= highest sp.
  Proof. destruct sp as [y|[|lo [|hi [|]]]|]; cbn; try contradiction; [intros; subst; lra|]. intros [A B] [E F].
    split; [|exact F]. unfold Rmin in E. destruct (Rle_dec lo hi); lra. Qed.
  Lemma allowed_pos sp x : positive_level sp -> allowed sp x -> 0 < x <= highest sp.
  Proof. destruct sp as [y|[|lo [|hi [|]]]|]; cbn; try contradiction; [intros; subst; lra|]. intros [A B] [E F].
    split; [|exact F]. unfold Rmin in E. destruct (Rle_dec lo hi); lra. Qed.
  Lemma positive_usable sp : positive_level sp -> usable_level sp.
  Proof. destruct sp as [y|[|lo [|hi [|]]]|]; cbn; lra || tauto. Qed.

  (** ** The loop *)
  Lemma noise_rows_Ok (P : list fl -> R -> list fl -> Prop) (f : S -> list fl -> R -> res (S * list fl)) : forall rows ks s, 
    (forall s r k, In (r, k) (combine rows ks) -> exists s' r', f s r k = Ok (s', r') /\ P r k r') ->
    exists s' rows', noise_rows f s rows ks = Ok (s', rows') /\ Forall2 (fun rk r' => P (fst rk) (snd rk) r') (combine rows ks) rows'.
  Proof. induction rows as [|r rows IH]; intros ks s H; [exists s, []; split; [reflexivity|constructor]|].
    destruct ks as [|k ks]; [exists s, []; split; [reflexivity|constructor]|]. cbn [noise_rows combine].
    destruct (H s r k) as (s1 & r' & E & Hp); [left; reflexivity|]. rewrite E. cbn [bind].
    destruct (IH ks s1) as (s2 & rows' & E2 & F); [intros; apply H; right; assumption|]. rewrite E2. cbn [bind].
    exists s2, (r' :: rows'). split; [reflexivity|]. constructor; assumption. Qed.

  Lemma apply_noise_Ok (P : list fl -> R -> list fl -> Prop) f s a sp : curves a <> [] -> usable_level sp ->
    (forall r k r', P r k r' -> List.length r' = List.length r) ->
    (forall s r k, In r (curves a) -> allowed sp k -> exists s' r', f s r k = Ok (s', r') /\ P r k r') ->
    exists s' out ks, apply_noise g f s a sp = Ok (s', (out, ks)) /\ shape out = shape a /\
      List.length ks = List.length (curves a) /\ Forall (allowed sp) ks /\ each_curve P a ks out.
  Proof. intros Hne Hu Hlen Hf. unfold apply_noise. destruct (spread_values_total s sp (n_curves a) Hu) as (s1 & ks & E). rewrite E. cbn [bind].
    destruct (spread_values_Ok s sp (n_curves a) s1 ks E) as [Lk Fk].
    destruct a as [v|m rows]; cbn [curves n_curves] in *.
    - destruct ks as [|k [|]]; try discriminate. cbn [py_get norm_idx]. unfold py_get. simpl. inversion Fk; subst.
      destruct (Hf s1 v k) as (s2 & r' & E2 & Hp); [left; reflexivity|assumption|]. rewrite E2. cbn [bind]. do 3 eexists. split; [reflexivity|].
      simpl. split; [f_equal; eauto|]. split; [reflexivity|]. split; [assumption|]. repeat constructor. exact Hp.
    - destruct rows as [|r [|r2 rows]]; [congruence| |].
      + destruct ks as [|k [|]]; try discriminate. unfold py_get. simpl. inversion Fk; subst.
        destruct (Hf s1 r k) as (s2 & r' & E2 & Hp); [left; reflexivity|assumption|]. rewrite E2. cbn [bind]. do 3 eexists. split; [reflexivity|].
        simpl. split; [reflexivity|]. split; [reflexivity|]. split; [assumption|]. repeat constructor. exact Hp.
      + destruct (noise_rows_Ok P f (r :: r2 :: rows) ks s1) as (s2 & rows' & E2 & F).
        { intros s0 r0 k0 Hi. apply Hf; [eapply in_combine_l; exact Hi|]. rewrite Forall_forall in Fk. apply Fk. eapply in_combine_r; exact Hi. }
        rewrite E2. cbn [bind]. exists s2, (A2 m rows'), ks. split; [reflexivity|]. split; [|split; [exact Lk|split; [exact Fk|exact F]]].
        cbn [shape]. f_equal. apply Forall2_len in F. rewrite combine_length in F. rewrite Lk in F. cbn [List.length] in *. lia. Qed.

  (** ** Shot noise *)
  Definition nonneg_entries (r : list fl) : Prop := Forall (fun x => exists v, x = Some v /\ 0 <= v) r.

  Lemma fsqrt_not_neg x : neg_fl (fsqrt x) = false.
  Proof. destruct x as [x|]; [|reflexivity]. simpl. destruct (Rlt_dec x 0); [reflexivity|]. simpl. destruct (Rlt_dec _ 0) as [H|]; [|reflexivity]. pose proof (sqrt_pos x). lra. Qed.

  Lemma shot_row_Ok s r k : exists s' r', shot_row g s r k = Ok (s', r') /\ shot_noise_of g r k r'.
  Proof. unfold shot_row, np_normals.
    assert (E : existsb (fun p : fl * fl => neg_fl (snd p)) (map (fun c => (c, fsqrt (fmul c (Some k)))) r) = false).
    { induction r as [|c r IH]; [reflexivity|]. cbn [map existsb snd]. rewrite fsqrt_not_neg. exact IH. }
    rewrite E. cbn [bind]. destruct (nr_normals g s _) as [s1 xs] eqn:En. do 2 eexists. split; [reflexivity|].
    exists s. rewrite En. unfold clip. rewrite tiny_eq. reflexivity. Qed.

  Lemma shot_noise_length r k r' : shot_noise_of g r k r' -> List.length r' = List.length r.
  Proof. intros (s & ->). rewrite map_length. pose proof (Forall2_len (normals_draws Hg s (map (fun c => (c, fsqrt (fmul c (Some k)))) r))) as L.
    rewrite map_length in L. exact (eq_sym L). Qed.

  Lemma shot_noise_values r k r' : nonneg_entries r -> 0 <= k -> shot_noise_of g r k r' -> Forall (fun x => exists v, x = Some v /\ 1 / 10 ^ 16 <= v) r'.
  Proof. intros Hr Hk (s & ->). pose proof (normals_draws Hg s (map (fun c => (c, fsqrt (fmul c (Some k)))) r)) as F.
    revert F. generalize (snd (nr_normals g s (map (fun c => (c, fsqrt (fmul c (Some k)))) r))). induction Hr as [|x r (v & -> & Hv) _ IH]; intros xs F; inversion F; subst; [constructor|].
    cbn [map]. constructor; [|auto]. simpl in H1. destruct (Rlt_dec (v * k) 0) as [Hl|_].
    - exfalso. pose proof (Rmult_le_pos v k Hv Hk). lra.
    - destruct H1 as [(r0 & ->) _]. simpl. eexists. split; [reflexivity|]. apply Rmax_l. Qed.

  Lemma shot_noise_Ok s a sp : curves a <> [] -> usable_level sp ->
    exists s' out ks, apply_shot_noise g s a sp = Ok (s', (out, ks)) /\ shape out = shape a /\
      List.length ks = List.length (curves a) /\ Forall (allowed sp) ks /\ each_curve (shot_noise_of g) a ks out /\
      (all_values (fun x => 0 <= x) a -> all_values (fun x => 1 / 10 ^ 16 <= x) out).
  Proof. intros Hne Hu. destruct (apply_noise_Ok (shot_noise_of g) (shot_row g) s a sp Hne Hu) as (s' & out & ks & E & Es & L & F & Fc).
    - apply shot_noise_length.
    - intros s0 r k _ _. apply shot_row_Ok.
    - exists s', out, ks. split; [exact E|]. split; [exact Es|]. split; [exact L|]. split; [exact F|]. split; [exact Fc|].
      intros Ha. unfold all_values, each_curve in *. clear E Es Hne. revert ks L F Fc. generalize (curves out) as o. induction Ha as [|r rows Hr _ IH]; intros o ks L F Fc.
      + destruct ks; [|discriminate]. inversion Fc. constructor.
      + destruct ks as [|k ks]; [discriminate|]. inversion F; subst. inversion Fc; subst. constructor.
        * eapply shot_noise_values; [exact Hr|apply (allowed_nonneg sp k Hu); assumption|eassumption].
        * eapply IH; [|eassumption|eassumption]. cbn in L. lia. Qed.

  (** Without spread nothing but the cut remains. *)
  Lemma normals_degenerate s r : Forall2 normal_draw (map (fun c => (c, Some 0)) r) (snd (nr_normals g s (map (fun c => (c, Some 0)) r))) ->
    snd (nr_normals g s (map (fun c => (c, Some 0)) r)) = r.
  Proof. generalize (snd (nr_normals g s (map (fun c => (c, Some 0)) r))). induction r as [|c r IH]; intros xs F; inversion F; subst; [reflexivity|].
    f_equal; [|auto]. destruct c as [c|]; simpl in H1; [apply H1; reflexivity|exact H1]. Qed.

  Lemma shot_noise_zero r r' : nonneg_entries r -> shot_noise_of g r 0 r' -> r' = map (option_map (Rmax (1 / 10 ^ 16))) r.
  Proof. intros Hr (s & ->). f_equal.
    assert (E : map (fun c => (c, fsqrt (fmul c (Some 0)))) r = map (fun c => (c, Some 0)) r).
    { apply map_ext_in. intros c Hc. unfold nonneg_entries in Hr. rewrite Forall_forall in Hr. destruct (Hr c Hc) as (v & -> & Hv). simpl.
      rewrite Rmult_0_r. destruct (Rlt_dec 0 0); [lra|]. now rewrite sqrt_0. }
    rewrite E. apply normals_degenerate. apply (normals_draws Hg). Qed.

  Lemma shot_noise_free s a : curves a <> [] -> all_values (fun x => 0 <= x) a ->
    exists s' out ks, apply_shot_noise g s a (LvNum 0) = Ok (s', (out, ks)) /\ curves out = map (map (option_map (Rmax (1 / 10 ^ 16)))) (curves a).
  Proof. intros Hne Ha. destruct (shot_noise_Ok s a (LvNum 0) Hne (Rle_refl 0)) as (s' & out & ks & E & _ & L & F & Fc & _).
    exists s', out, ks. split; [exact E|]. unfold all_values, each_curve in *. clear E Hne. revert ks L F Fc. generalize (curves out) as o. induction Ha as [|r rows Hr _ IH]; intros o ks L F Fc.
    - destruct ks; [|discriminate]. inversion Fc. reflexivity.
    - destruct ks as [|k ks]; [discriminate|]. inversion F; subst. inversion Fc; subst. cbn [map]. f_equal.
      + simpl in H1. subst k. apply shot_noise_zero; assumption.
      + eapply IH; [|eassumption|eassumption]. cbn in L. lia. Qed.

  (** ** Poisson noise *)
  Lemma poisson_rates r k : nonneg_entries r -> 0 <= k -> Forall (fun x => exists v, x = Some v /\ v * k <= nr_lam_max g) r ->
    exists rates, map (fun c => fmul c (Some k)) r = map Some rates /\ mapM (good_rate g) (map (fun c => fmul c (Some k)) r) = Ok rates.
  Proof. intros Hr Hk Hm. induction Hr as [|x r (v & -> & Hv) _ IH]; [exists []; split; reflexivity|]. inversion Hm as [|? ? (v' & Ev & Hb) Hm']; subst. injection Ev as <-.
    destruct (IH Hm') as (rates & E1 & E2). exists (v * k :: rates). cbn [map]. rewrite E1. split; [reflexivity|].
    rewrite <- E1. cbn [mapM]. rewrite E2. simpl. destruct (Rlt_dec (v * k) 0) as [Hl|_]; [pose proof (Rmult_le_pos v k Hv Hk); lra|].
    destruct (Rlt_dec (nr_lam_max g) (v * k)); [lra|]. reflexivity. Qed.

  Lemma poisson_row_Ok s r k : nonneg_entries r -> 0 < k -> Forall (fun x => exists v, x = Some v /\ v * k <= nr_lam_max g) r ->
    exists s' r', poisson_row g s r k = Ok (s', r') /\ poisson_noise_of g r k r'.
  Proof. intros Hr Hk Hm. destruct (poisson_rates r k Hr) as (rates & E1 & E2); [lra|exact Hm|].
    unfold poisson_row, np_poisson. rewrite E2. cbn [bind]. destruct (nr_poisson g s rates) as [s1 ns] eqn:E. do 2 eexists. split; [reflexivity|].
    exists s, rates. split; [exact E1|]. rewrite E. apply map_ext. intros n. simpl. destruct (Req_EM_T k 0); [lra|]. simpl. rewrite tiny_eq. reflexivity. Qed.
  Lemma poisson_noise_length r k r' : poisson_noise_of g r k r' -> List.length r' = List.length r.
  Proof. intros (s & rates & E & ->). rewrite map_length. pose proof (Forall2_len (poisson_draws Hg s rates)) as L. rewrite <- L.
    rewrite <- (map_length Some rates), <- E, map_length. reflexivity. Qed.

  Lemma poisson_noise_Ok s a sp : curves a <> [] -> positive_level sp -> all_values (fun x => 0 <= x /\ x * highest sp <= nr_lam_max g) a ->
    exists s' out ks, apply_poisson_noise g s a sp = Ok (s', (out, ks)) /\ shape out = shape a /\
      List.length ks = List.length (curves a) /\ Forall (allowed sp) ks /\ each_curve (poisson_noise_of g) a ks out /\
      all_values (fun x => 1 / 10 ^ 16 <= x) out.
  Proof. intros Hne Hu Ha. destruct (apply_noise_Ok (poisson_noise_of g) (poisson_row g) s a sp Hne (positive_usable sp Hu)) as (s' & out & ks & E & Es & L & F & Fc).
    - apply poisson_noise_length.
    - intros s0 r k Hr Hk. unfold all_values in Ha. rewrite Forall_forall in Ha. specialize (Ha r Hr). pose proof (allowed_pos sp k Hu Hk) as Hb. apply poisson_row_Ok.
      + eapply Forall_impl; [|exact Ha]. intros x (v & -> & Hv & _). eauto.
      + lra.
      + eapply Forall_impl; [|exact Ha]. intros x (v & -> & Hv & Hm). exists v. split; [reflexivity|]. eapply Rle_trans; [|exact Hm]. apply Rmult_le_compat_l; lra.
    - exists s', out, ks. split; [exact E|]. split; [exact Es|]. split; [exact L|]. split; [exact F|]. split; [exact Fc|].
      unfold all_values, each_curve in *. clear - Fc. induction Fc as [|rk r' l l' (s0 & rates & _ & ->) _ IH]; constructor; [|exact IH].
      apply Forall_map. apply Forall_forall. intros n _. eexists. split; [reflexivity|]. apply Rmax_l. Qed.

  (** ** Rejected arguments *)
  Lemma noise_TypeError f s a : apply_noise g f s a LvOther = Raise TypeError.
  Proof. reflexivity. Qed.
  Lemma noise_empty f s m sp : usable_level sp -> exists s', apply_noise g f s (A2 m []) sp = Ok (s', (A1 [], [])).
  Proof. intros Hu. unfold apply_noise. destruct (spread_values_total s sp 0 Hu) as (s1 & ks & E). cbn [n_curves List.length]. rewrite E. cbn [bind].
    destruct (spread_values_Ok s sp 0 s1 ks E) as [L _]. destruct ks; [|discriminate]. eauto. Qed.

  Lemma shot_noise_negative r k r' i v : nth_error r i = Some (Some v) -> v * k < 0 -> shot_noise_of g r k r' -> nth_error r' i = Some None.
  Proof. intros Hi Hv (s & ->). pose proof (normals_draws Hg s (map (fun c => (c, fsqrt (fmul c (Some k)))) r)) as F.
    revert F Hi. generalize (snd (nr_normals g s (map (fun c => (c, fsqrt (fmul c (Some k)))) r))). revert i. induction r as [|c r IH]; intros i xs F Hi; [destruct i; discriminate|].
    inversion F; subst. destruct i as [|i]; cbn [map nth_error] in *.
    - injection Hi as ->. simpl in H1. destruct (Rlt_dec (v * k) 0); [|contradiction]. simpl in H1. subst. reflexivity.
    - apply (IH i l'); assumption. Qed.

  (** ** Scaling *)
  Lemma scaling_Ok s a lo hi : exists s' ks out, apply_scaling_factor g s a lo hi = (s', out) /\
    List.length ks = List.length (curves a) /\ Forall (fun k => Rmin lo hi <= k <= Rmax lo hi) ks /\ scaled_by ks a out /\
    (List.length (curves a) <> 1%nat \/ List.length (shape a) = 1%nat -> shape out = shape a) /\
    (List.length (curves a) = 1%nat -> exists r, curves a = [r] /\ shape out = [List.length r]).
  Proof. unfold apply_scaling_factor.
    remember (curves a) as rows eqn:Hc. assert (Er : (match a with A1 v => (List.length v, [v]) | A2 m rows => (m, rows) end) = (match a with A1 v => List.length v | A2 m _ => m end, rows)) by (subst rows; destruct a; reflexivity).
    rewrite Er. destruct (rng_uniform (nr_g g) s lo hi (List.length rows)) as [s1 ks] eqn:E.
    pose proof (uniform_length _ (nr_base Hg) s lo hi (List.length rows)) as L. pose proof (uniform_bounds _ (nr_base Hg) s lo hi (List.length rows)) as B.
    rewrite E in L, B. simpl in L, B. exists s1, ks. eexists. split; [reflexivity|]. split; [exact L|]. split; [exact B|].
    assert (F : Forall2 (fun rk r' => r' = map (fun x => option_map (fun v => v * snd rk) x) (fst rk)) (combine rows ks) (map (fun rk => scale_row (snd rk) (fst rk)) (combine rows ks))).
    { generalize (combine rows ks). induction l as [|rk l IH]; constructor; [|exact IH]. unfold scale_row. apply map_ext. intros [x|]; reflexivity. }
    clear Er E B. symmetry in Hc. rename Hc into Ec. destruct rows as [|r [|r2 rows]].
    - destruct ks; [|discriminate]. cbn. split; [split; [rewrite Ec; reflexivity|]|].
      + unfold each_curve. rewrite Ec. constructor.
      + split; [|discriminate]. intros _. destruct a; cbn in Ec; [discriminate|]. subst. reflexivity.
    - destruct ks as [|k [|]]; try discriminate. cbn [combine map]. split; [split; [rewrite Ec; reflexivity|]|].
      + unfold each_curve. rewrite Ec. exact F.
      + split.
        * intros [H|H]; [exfalso; apply H; reflexivity|]. destruct a; [|discriminate]. cbn in Ec. injection Ec as ->. cbn. unfold scale_row. now rewrite map_length.
        * intros _. exists r. split; [reflexivity|]. cbn. unfold scale_row. now rewrite map_length.
    - destruct ks as [|k [|k2 ks]]; try discriminate. cbn [combine map]. split; [split; [rewrite Ec; exact L|]|].
      + unfold each_curve. rewrite Ec. exact F.
      + split; [|discriminate]. intros _. destruct a as [v|m rs]; cbn in Ec; [discriminate|]. subst rs. cbn [shape List.length]. rewrite map_length, combine_length. cbn in L. do 2 f_equal. lia. Qed.

  Lemma scaling_single_row s m r lo hi : exists s' r', apply_scaling_factor g s (A2 m [r]) lo hi = (s', A1 r') .
  Proof. destruct (scaling_Ok s (A2 m [r]) lo hi) as (s' & ks & out & E & _ & _ & _ & _ & H). destruct (H eq_refl) as (r0 & _ & Hs).
    destruct out as [v|]; [|discriminate]. eauto. Qed.

  (** ** Background *)
  Lemma background_number s n k x d : 0 <= d * x -> exists s' b, generate_background g s n k (LvNum x) d = Ok (s', (b, repeat x n)) /\
    is_matrix n k b /\ Forall (Forall (fun y => y <> None)) b /\ (d = 0 -> b = repeat (repeat (Some x) k) n).
  Proof. intros H. unfold generate_background. destruct (Rlt_dec (d * x) 0); [lra|].
    destruct (rng_normal (nr_g g) s x (d * x) (n * k)) as [s1 xs] eqn:E. pose proof (normal_length _ (nr_base Hg) s x (d * x) (n * k)) as L. rewrite E in L. simpl in L.
    do 2 eexists. split; [reflexivity|]. split; [split; [apply length_reshape|apply reshape_rows; now rewrite map_length]|]. split.
    - apply Forall_forall. intros r Hr. apply Forall_forall. intros y Hy. pose proof (reshape_In _ n k _ r y Hr Hy) as Hi. apply in_map_iff in Hi. destruct Hi as (z & <- & _). discriminate.
    - intros ->. rewrite Rmult_0_l in E. pose proof (normal_degenerate _ (nr_base Hg) s x (n * k)) as D. rewrite E in D. simpl in D. subst xs. clear.
      induction n as [|n IH]; [reflexivity|]. cbn [reshape repeat]. cbn [Nat.mul]. rewrite repeat_app, map_app. 
      assert (Lk : List.length (map Some (repeat x k)) = k) by (rewrite map_length; apply repeat_length).
      rewrite firstn_len, skipn_len by exact Lk. rewrite IH. f_equal. clear. induction k; [reflexivity|]. cbn. now f_equal. Qed.

  Lemma background_negative s n k x d : d * x < 0 -> generate_background g s n k (LvNum x) d = Raise ValueError.
  Proof. intros H. unfold generate_background. destruct (Rlt_dec (d * x) 0); [reflexivity|lra]. Qed.

  Lemma length_tiled (mean : list R) k : List.length (List.concat (map (fun x => repeat x k) mean)) = (List.length mean * k)%nat.
  Proof. induction mean as [|x l IH]; [reflexivity|]. cbn [map List.concat List.length]. rewrite app_length, repeat_length, IH. cbn. lia. Qed.
  Lemma tiled_In (mean : list R) k y : In y (List.concat (map (fun x => repeat x k) mean)) -> In y mean.
  Proof. induction mean as [|x l IH]; [intros []|]. cbn [map List.concat]. rewrite in_app_iff. intros [H|H]; [apply repeat_spec in H; left; congruence|right; auto]. Qed.

  Lemma background_rows k d : forall mean xs, Forall2 normal_draw (map (fun m => (Some m, Some (d * m))) (List.concat (map (fun x => repeat x k) mean))) xs ->
    Forall2 (fun m r => Forall (normal_draw (Some m, Some (d * m))) r) mean (reshape (List.length mean) k xs).
  Proof. induction mean as [|m mean IH]; intros xs F; [constructor|]. cbn [map List.concat List.length reshape] in *. rewrite map_app in F.
    apply Forall2_app_inv_l in F. destruct F as (x1 & x2 & F1 & F2 & ->).
    assert (L : List.length x1 = k) by (apply Forall2_len in F1; rewrite map_length, repeat_length in F1; lia).
    rewrite firstn_len, skipn_len by exact L. constructor; [|apply IH; exact F2].
    clear - F1. revert x1 F1. induction k as [|k IH]; intros x1 F; inversion F; subst; constructor; auto. Qed.

  Lemma background_range s n k lo hi d : 0 < lo -> 0 < hi -> 0 <= d -> exists s' b mean, generate_background g s n k (LvTuple [lo; hi]) d = Ok (s', (b, mean)) /\
    is_matrix n k b /\ List.length mean = n /\ Forall (fun x => Rmin lo hi <= x <= Rmax lo hi) mean /\
    Forall2 (fun m r => Forall (normal_draw (Some m, Some (d * m))) r) mean b.
  Proof. intros Hl Hh Hd. unfold generate_background. destruct (log_levels_total s lo hi n Hl Hh) as (s1 & mean & E). rewrite E. cbn [bind].
    destruct (log_levels_Ok s [lo; hi] n s1 mean E) as [L F]. set (means := List.concat _).
    unfold np_normals. assert (En : existsb (fun p : fl * fl => neg_fl (snd p)) (map (fun m => (Some m, Some (d * m))) means) = false).
    { destruct (existsb _ _) eqn:Ex; [|reflexivity]. apply existsb_exists in Ex. destruct Ex as (p & Hp & Hn). apply in_map_iff in Hp. destruct Hp as (m & <- & Hm). simpl in Hn.
      destruct (Rlt_dec (d * m) 0) as [Hlt|]; [|discriminate]. apply tiled_In in Hm. rewrite Forall_forall in F. specialize (F m Hm). cbn in F.
      assert (0 <= m) by (unfold Rmin in F; destruct (Rle_dec lo hi); lra). pose proof (Rmult_le_pos d m Hd H). lra. }
    rewrite En. cbn [bind]. destruct (nr_normals g s1 _) as [s2 xs] eqn:Ex. pose proof (normals_draws Hg s1 (map (fun m => (Some m, Some (d * m))) means)) as Fd. rewrite Ex in Fd. simpl in Fd.
    exists s2; do 2 eexists. split; [reflexivity|]. split.
    - split; [apply length_reshape|]. apply reshape_rows. apply Forall2_len in Fd. rewrite map_length in Fd. unfold means in Fd. rewrite length_tiled, L in Fd. lia.
    - split; [exact L|]. split; [exact F|]. rewrite <- L. apply background_rows. exact Fd. Qed.

  Lemma background_TypeError s n k d : generate_background g s n k LvOther d = Raise TypeError.
  Proof. reflexivity. Qed.
End P.
