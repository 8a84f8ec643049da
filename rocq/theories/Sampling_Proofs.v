From Coq Require Import Reals Lra ZifyNat ZifyBool.
From Coquelicot Require Import Complex.
From Verif Require Import Py Str Sample_Model Sample_Spec Sample_Proofs Rng Sampling_Model Sampling_Spec.
Local Open Scope string_scope.
Local Open Scope R_scope.

Lemma Int_part_bounds x : IZR (Int_part x) <= x < IZR (Int_part x) + 1.
Proof. destruct (base_Int_part x). lra. Qed.

Lemma Int_part_unique x k : IZR k <= x < IZR k + 1 -> Int_part x = k.
Proof. intros H. pose proof (Int_part_bounds x).
  assert (Int_part x < k + 1)%Z by (apply lt_IZR; rewrite plus_IZR; lra).
  assert (k < Int_part x + 1)%Z by (apply lt_IZR; rewrite plus_IZR; lra). lia. Qed.

Lemma fold1_reflected lo hi x : lo <= hi -> reflected lo hi x (fold1 lo hi x).
Proof. intros H. unfold reflected, fold1. destruct (Rlt_dec x lo), (Rlt_dec hi x); lra. Qed.
Lemma fold1_reflects lo hi l : lo <= hi -> Forall2 (reflected lo hi) l (map (fold1 lo hi) l).
Proof. intros H. induction l as [|x l IH]; constructor; [apply fold1_reflected; exact H|exact IH]. Qed.
Lemma fold1_in lo hi x : lo <= hi -> (Rabs (x - lo) <= hi - lo \/ Rabs (x - hi) <= hi - lo) -> between lo hi (fold1 lo hi x).
Proof. intros H [K|K]; unfold between, fold1; unfold Rabs in K; destruct (Rcase_abs _); repeat destruct (Rlt_dec _ _); lra. Qed.

Section S.
  Context {S : Type} (g : rng S) (G : rng_ok g).

  Lemma np_uniform_Ok s a b n s' xs : np_uniform g s a b n = Ok (s', xs) ->
    (0 <= n)%Z /\ List.length xs = Z.to_nat n /\ (a <= b -> Forall (between a b) xs).
  Proof. unfold np_uniform. destruct (n <? 0)%Z eqn:E; [discriminate|]. intros H. injection H as H.
    assert (Hx : xs = snd (rng_uniform g s a b (Z.to_nat n))) by (rewrite H; reflexivity). subst xs.
    split; [lia|]. split; [apply (uniform_length g G)|]. intros Hab.
    eapply Forall_impl; [|apply (uniform_bounds g G)]. intros x. simpl.
    rewrite Rmin_left, Rmax_right by assumption. auto. Qed.

  Lemma np_normal_Ok s m d n s' xs : np_normal g s m d n = Ok (s', xs) ->
    0 <= d /\ (0 <= n)%Z /\ List.length xs = Z.to_nat n /\
    (forall k, tails_within g k -> Forall (fun x => Rabs (x - m) <= k * d) xs).
  Proof. unfold np_normal. destruct (Rlt_dec d 0); [discriminate|]. destruct (n <? 0)%Z eqn:E; [discriminate|]. intros H. injection H as H.
    assert (Hx : xs = snd (rng_normal g s m d (Z.to_nat n))) by (rewrite H; reflexivity). subst xs.
    split; [lra|]. split; [lia|]. split; [apply (normal_length g G)|]. intros k T. apply T. lra. Qed.

  Lemma np_normal_draw s m d n s' xs : np_normal g s m d n = Ok (s', xs) -> rng_normal g s m d (Z.to_nat n) = (s', xs).
  Proof. unfold np_normal. destruct (Rlt_dec d 0); [discriminate|]. destruct (n <? 0)%Z; [discriminate|]. intros H. injection H as H. exact H. Qed.

  (** ** Bolstered sampling *)
  Lemma bolstered_Ok s lo hi n f w s' xs : bolstered g s lo hi n f w = Ok (s', xs) ->
    exists nb bmin uni bmax, IZR nb <= IZR n * f / 2 < IZR nb + 1 /\ (0 <= nb)%Z /\ (2 * nb <= n)%Z /\
      List.length bmin = Z.to_nat nb /\ List.length bmax = Z.to_nat nb /\ List.length uni = Z.to_nat (n - 2 * nb) /\
      Permutation (map (fold1 lo hi) bmin ++ uni ++ map (fold1 lo hi) bmax)%list xs /\
      0 <= (hi - lo) * w /\
      (lo <= hi -> Forall (between lo hi) uni) /\
      (forall k, tails_within g k -> Forall (fun x => Rabs (x - lo) <= k * ((hi - lo) * w)) bmin /\
                                     Forall (fun x => Rabs (x - hi) <= k * ((hi - lo) * w)) bmax) /\
      (exists s1 s2 s3, rng_normal g s1 lo (w * (hi - lo)) (Z.to_nat nb) = (s2, bmin) /\ rng_normal g s2 hi (w * (hi - lo)) (Z.to_nat nb) = (s3, bmax)).
  Proof. unfold bolstered. set (nb := Int_part (IZR n * f / 2)). intros H.
    destruct (np_uniform g s lo hi (n - 2 * nb)) as [[s1 uni]|] eqn:E1; [|discriminate]; cbn [bind] in H.
    destruct (np_normal g s1 lo ((hi - lo) * w) nb) as [[s2 bmin]|] eqn:E2; [|discriminate]; cbn [bind] in H.
    destruct (np_normal g s2 hi ((hi - lo) * w) nb) as [[s3 bmax]|] eqn:E3; [|discriminate]; cbn [bind] in H.
    injection H as H.
    pose proof (shuffle_perm g G s3 (map (fold1 lo hi) bmin ++ uni ++ map (fold1 lo hi) bmax)%list) as P. rewrite H in P. simpl in P.
    pose proof (np_normal_draw _ _ _ _ _ _ E2) as D2. pose proof (np_normal_draw _ _ _ _ _ _ E3) as D3. rewrite (Rmult_comm (hi - lo)) in D2, D3.
    apply np_uniform_Ok in E1. apply np_normal_Ok in E2, E3.
    destruct E1 as (U1 & U2 & U3), E2 as (A1 & A2 & A3 & A4), E3 as (_ & _ & B3 & B4).
    exists nb, bmin, uni, bmax. split; [apply Int_part_bounds|]. split; [assumption|]. split; [lia|].
    split; [assumption|]. split; [assumption|]. split; [assumption|]. split; [assumption|]. split; [assumption|]. split; [assumption|].
    split; [|exists s1, s2, s3; split; assumption].
    intros k T. split; [apply A4|apply B4]; assumption. Qed.

  Lemma bolstered_length s lo hi n f w s' xs : bolstered g s lo hi n f w = Ok (s', xs) -> List.length xs = Z.to_nat n.
  Proof. intros H. apply bolstered_Ok in H. destruct H as (nb & bmin & uni & bmax & _ & A & B & L1 & L2 & L3 & P & _).
    rewrite <- (Permutation_length P), !app_length, !map_length, L1, L2, L3. lia. Qed.

  Lemma bolstered_total s lo hi n f w : lo <= hi -> (0 <= n)%Z -> 0 <= f <= 1 -> 0 <= w ->
    exists s' xs, bolstered g s lo hi n f w = Ok (s', xs).
  Proof. intros Hl Hn Hf Hw. unfold bolstered. set (nb := Int_part (IZR n * f / 2)).
    pose proof (Int_part_bounds (IZR n * f / 2)) as B. fold nb in B.
    apply IZR_le in Hn as Hn'. assert (P : 0 <= IZR n * f <= IZR n) by nra.
    assert (N0 : (0 <= nb)%Z). { cut (-1 < nb)%Z; [lia|]. apply lt_IZR. lra. }
    assert (N1 : (2 * nb <= n)%Z). { apply le_IZR. rewrite mult_IZR. lra. }
    unfold np_uniform at 1. replace (n - 2 * nb <? 0)%Z with false by lia.
    destruct (rng_uniform g s lo hi (Z.to_nat (n - 2 * nb))) as [s1 uni]; cbn [bind].
    unfold np_normal at 1. destruct (Rlt_dec _ 0); [nra|]. replace (nb <? 0)%Z with false by lia.
    destruct (rng_normal g s1 lo ((hi - lo) * w) (Z.to_nat nb)) as [s2 b]; cbn [bind].
    unfold np_normal. destruct (Rlt_dec _ 0); [nra|]. replace (nb <? 0)%Z with false by lia.
    destruct (rng_normal g s2 hi ((hi - lo) * w) (Z.to_nat nb)) as [s3 c]; cbn [bind].
    destruct (rng_shuffle g s3 _) as [s4 xs]. eauto. Qed.

  Lemma bolstered_between s lo hi n f w s' xs k : lo <= hi -> 0 <= k -> tails_within g k -> k * w <= 1 ->
    bolstered g s lo hi n f w = Ok (s', xs) -> Forall (between lo hi) xs.
  Proof. intros Hl Hk T Hw H. apply bolstered_Ok in H.
    destruct H as (nb & bmin & uni & bmax & _ & A & B & L1 & L2 & L3 & P & Hd & U & N & _). destruct (N k T) as [N1 N2].
    eapply Permutation_Forall; [exact P|].
    assert (K : k * ((hi - lo) * w) <= hi - lo) by nra.
    apply Forall_app; split; [|apply Forall_app; split; [auto|]].
    - apply Forall_map. eapply Forall_impl; [|exact N1]. intros x Hx. apply fold1_in; [assumption|left]. simpl in Hx. lra.
    - apply Forall_map. eapply Forall_impl; [|exact N2]. intros x Hx. apply fold1_in; [assumption|right]. simpl in Hx. lra. Qed.

  (** ** Logarithmic sampling *)
  Lemma ln10_pos : 0 < ln 10.
  Proof. rewrite <- ln_1. apply ln_increasing; lra. Qed.

  Lemma pow10_log10 x : 0 < x -> Rpower 10 (log10 x) = x.
  Proof. intros H. unfold Rpower, log10. replace (ln x / ln 10 * ln 10) with (ln x) by (field; pose proof ln10_pos; lra). apply exp_ln; assumption. Qed.

  Lemma log10_le a b : 0 < a -> a <= b -> log10 a <= log10 b.
  Proof. intros Ha [H| ->]; [|lra]. unfold log10. apply Rmult_le_compat_r; [left; apply Rinv_0_lt_compat, ln10_pos|].
    left. apply ln_increasing; assumption. Qed.

  Lemma Rpower10_le a b : a <= b -> Rpower 10 a <= Rpower 10 b.
  Proof. intros [H| ->]; [|lra]. left. apply Rpower_lt; lra. Qed.

  Lemma logarithmic_Ok s lo hi n s' xs : logarithmic g s lo hi n = Ok (s', xs) ->
    0 < lo /\ 0 < hi /\ (0 <= n)%Z /\ List.length xs = Z.to_nat n /\ (lo <= hi -> Forall (between lo hi) xs).
  Proof. unfold logarithmic. destruct (Rle_dec lo 0); [discriminate|]. destruct (Rle_dec hi 0); [discriminate|].
    destruct (np_uniform g s (log10 lo) (log10 hi) n) as [[s1 us]|] eqn:E; [|discriminate]. cbn [bind]. intros H; injection H as <- <-.
    apply np_uniform_Ok in E. destruct E as (A & B & C). split; [lra|]. split; [lra|]. split; [assumption|].
    split; [rewrite map_length; assumption|]. intros Hl. assert (L : log10 lo <= log10 hi) by (apply log10_le; lra).
    apply Forall_map. eapply Forall_impl; [|exact (C L)]. intros x [X1 X2]. unfold between.
    rewrite <- (pow10_log10 lo) at 1 by lra. rewrite <- (pow10_log10 hi) by lra. split; apply Rpower10_le; assumption. Qed.

  (** ** sample_distribution *)
  Lemma sample_distribution_length s n dp lo hi s' xs : sample_distribution g s n dp lo hi = Ok (s', xs) ->
    List.length xs = Z.to_nat n /\ (0 <= n)%Z.
  Proof. unfold sample_distribution. destruct (String.eqb _ "bolstered").
    - intros H. split; [eapply bolstered_length; eauto|]. apply bolstered_Ok in H. destruct H as (nb & ? & ? & ? & _ & ? & ? & _). lia.
    - destruct (String.eqb _ "uniform").
      + intros H. apply np_uniform_Ok in H. tauto.
      + destruct (String.eqb _ "logarithmic"); [|discriminate]. intros H. apply logarithmic_Ok in H. tauto. Qed.

  Lemma sample_distribution_between s n dp lo hi s' xs : tame g dp -> lo <= hi ->
    sample_distribution g s n dp lo hi = Ok (s', xs) -> Forall (between lo hi) xs.
  Proof. intros T Hl. unfold sample_distribution. destruct (String.eqb_spec (dp_type dp) "bolstered") as [E|E].
    - intros H. destruct (T E) as (k & K0 & K1 & K2). eapply bolstered_between; eauto.
    - destruct (String.eqb _ "uniform").
      + intros H. apply np_uniform_Ok in H. apply H. assumption.
      + destruct (String.eqb _ "logarithmic"); [|discriminate]. intros H. apply logarithmic_Ok in H. apply H. assumption. Qed.

  (** A single value never leaves the range: for one sample nothing is bolstered. *)
  Lemma sample_one s dp lo hi s' xs : lo <= hi -> sample_distribution g s 1 dp lo hi = Ok (s', xs) ->
    exists x, xs = [x] /\ between lo hi x.
  Proof. intros Hl H. pose proof (sample_distribution_length _ _ _ _ _ _ _ H) as [L _].
    destruct xs as [|x [|? ?]]; try discriminate L. exists x; split; [reflexivity|].
    unfold sample_distribution in H. destruct (String.eqb _ "bolstered").
    - apply bolstered_Ok in H. destruct H as (nb & bmin & uni & bmax & _ & A & B & L1 & L2 & L3 & P & _ & U & _).
      assert (nb = 0%Z) by lia. subst nb. destruct bmin; [|discriminate]. destruct bmax; [|discriminate].
      simpl in P. rewrite app_nil_r in P. specialize (U Hl). apply (Permutation_Forall P) in U. inversion U; assumption.
    - destruct (String.eqb _ "uniform").
      + apply np_uniform_Ok in H. destruct H as (_ & _ & U). specialize (U Hl). inversion U; assumption.
      + destruct (String.eqb _ "logarithmic"); [|discriminate].
        apply logarithmic_Ok in H. destruct H as (_ & _ & _ & _ & U). specialize (U Hl). inversion U; assumption. Qed.

  (** ** Parameter.sample *)
  Lemma sample_param_length s p n dp s' cs : sample_param g s p n dp = Ok (s', cs) -> List.length cs = Z.to_nat n /\ (0 <= n)%Z.
  Proof. destruct p as [lo hi nm|v nm]; cbn [sample_param].
    - destruct (Reqb (num_im lo) 0 && Reqb (num_im hi) 0).
      + destruct lo as [a|]; [|discriminate]. destruct hi as [b|]; [|discriminate].
        destruct (sample_distribution g s n dp a b) as [[s1 xs]|] eqn:E; [|discriminate]. cbn [bind]. intros H; injection H as <- <-.
        rewrite map_length. eapply sample_distribution_length; eauto.
      + destruct (sample_distribution g s n dp (num_re lo) (num_re hi)) as [[s1 xs]|] eqn:E1; [|discriminate]. cbn [bind].
        destruct (sample_distribution g s1 n dp (num_im lo) (num_im hi)) as [[s2 ys]|] eqn:E2; [|discriminate]. cbn [bind].
        intros H; injection H as <- <-. apply sample_distribution_length in E1, E2. split; [|tauto].
        etransitivity; [exact (combine_length xs ys)|lia].
    - destruct (n <? 0)%Z eqn:E; [discriminate|]. intros H; injection H as <- <-. rewrite repeat_length. split; [reflexivity|lia]. Qed.

  Lemma sample_param_const s v nm n dp s' cs : sample_param g s (Const v nm) n dp = Ok (s', cs) -> cs = repeat (num_re v, num_im v) (Z.to_nat n).
  Proof. cbn [sample_param]. destruct (n <? 0)%Z; [discriminate|]. intros H; injection H as <- <-. reflexivity. Qed.

  Lemma Forall_repeat A (P : A -> Prop) x n : P x -> Forall P (repeat x n).
  Proof. intros; induction n; simpl; constructor; auto. Qed.

  Lemma Forall_combine A B (P : A -> Prop) (Q : B -> Prop) xs : forall ys, Forall P xs -> Forall Q ys ->
    Forall (fun c => P (fst c) /\ Q (snd c)) (combine xs ys).
  Proof. induction xs as [|x xs IH]; intros [|y ys] H K; simpl; constructor; inversion H; inversion K; subst; auto. Qed.

  Lemma num_below_re a b : num_below a b -> num_re a <= num_re b.
  Proof. intros [H|[H _]]; lra. Qed.

  (** The imaginary range may be reversed (only real parts are ordered); numpy then still draws between its ends for the
      uniform distribution, and for the others we need it ordered. *)
  Lemma sample_param_fits s p n dp s' cs : tame g dp -> valid_param p -> num_im (p_min p) <= num_im (p_max p) ->
    sample_param g s p n dp = Ok (s', cs) -> Forall (fits p) cs.
  Proof. intros T V I. destruct p as [lo hi nm|v nm]; cbn [sample_param p_min p_max] in *.
    - destruct V as [_ V]. apply num_below_re in V. destruct (Reqb (num_im lo) 0 && Reqb (num_im hi) 0) eqn:E0.
      + apply andb_true_iff in E0. rewrite !Reqb_spec in E0. destruct E0 as [E0 E1].
        destruct lo as [a|]; [|discriminate]. destruct hi as [b|]; [|discriminate].
        destruct (sample_distribution g s n dp a b) as [[s1 xs]|] eqn:E; [|discriminate]. cbn [bind]. intros H; injection H as <- <-.
        apply Forall_map. eapply Forall_impl; [|exact (sample_distribution_between _ _ _ _ _ _ _ T V E)].
        intros x Hx. simpl in *. split; [exact Hx|]. unfold between. rewrite Rmin_left, Rmax_right; lra.
      + destruct (sample_distribution g s n dp (num_re lo) (num_re hi)) as [[s1 xs]|] eqn:E1; [|discriminate]. cbn [bind].
        destruct (sample_distribution g s1 n dp (num_im lo) (num_im hi)) as [[s2 ys]|] eqn:E2; [|discriminate]. cbn [bind].
        intros H; injection H as <- <-.
        apply sample_distribution_between in E1; auto. apply sample_distribution_between in E2; auto.
        eapply Forall_impl; [|exact (Forall_combine _ _ _ _ _ _ E1 E2)]. intros c [A B]. simpl. split; [assumption|].
        rewrite Rmin_left, Rmax_right; assumption.
    - destruct (n <? 0)%Z; [discriminate|]. intros H; injection H as <- <-. apply Forall_repeat. reflexivity. Qed.

  (** ** Thickness and roughness *)
  Lemma sample_real_length s p n dp s' xs : sample_real g s p n dp = Ok (s', xs) -> List.length xs = Z.to_nat n /\ (0 <= n)%Z.
  Proof. destruct p as [[a|] [b|] nm|[v|] nm]; cbn [sample_real]; try discriminate.
    - apply sample_distribution_length.
    - destruct (n <? 0)%Z eqn:E; [discriminate|]. intros H; injection H as <- <-. rewrite repeat_length. split; [reflexivity|lia]. Qed.

  Lemma sample_real_fits s p n dp s' xs : tame g dp -> valid_param p ->
    sample_real g s p n dp = Ok (s', xs) -> Forall (fun x => fits p (RtoC x)) xs.
  Proof. intros T V. destruct p as [[a|] [b|] nm|[v|] nm]; cbn [sample_real]; try discriminate.
    - intros H. destruct V as [_ V]. apply num_below_re in V. simpl in V.
      eapply Forall_impl; [|eapply sample_distribution_between; eauto]. intros x Hx. simpl. split; [exact Hx|].
      unfold between. rewrite Rmin_left, Rmax_right; lra.
    - destruct (n <? 0)%Z; [discriminate|]. intros H; injection H as <- <-. apply Forall_repeat. reflexivity. Qed.

  Lemma sample_real_const s v nm n dp s' xs : sample_real g s (Const v nm) n dp = Ok (s', xs) ->
    map RtoC xs = repeat (num_re v, num_im v) (Z.to_nat n).
  Proof. destruct v as [x|]; cbn [sample_real]; [|discriminate]. destruct (n <? 0)%Z; [discriminate|]. intros H; injection H as <- <-.
    induction (Z.to_nat n) as [|k IH]; simpl; [reflexivity|]. rewrite IH. reflexivity. Qed.

  Lemma recouple_length lo hi dp ts : forall s rs s' out, List.length ts = List.length rs -> recouple g s lo hi dp ts rs = Ok (s', out) ->
    List.length out = List.length ts.
  Proof. induction ts as [|t ts IH]; intros s [|r rs] s' out L H; simpl in L; try discriminate; cbn [recouple] in H.
    - injection H as <- <-. reflexivity.
    - injection L as L. destruct (Rlt_dec (max_roughness t) lo); [|destruct (Rlt_dec hi (max_roughness t))].
      + destruct (recouple g s lo hi dp ts rs) as [[s2 o]|] eqn:Q; [|discriminate]. cbn [bind] in H. injection H as <- <-. simpl. f_equal. exact (IH _ _ _ _ L Q).
      + destruct (recouple g s lo hi dp ts rs) as [[s2 o]|] eqn:Q; [|discriminate]. cbn [bind] in H. injection H as <- <-. simpl. f_equal. exact (IH _ _ _ _ L Q).
      + destruct (sample_distribution g s 1 dp lo (max_roughness t)) as [[s1 xs]|]; [|discriminate]. cbn [bind] in H.
        destruct xs as [|x [|? ?]]; try discriminate H.
        destruct (recouple g s1 lo hi dp ts rs) as [[s2 o]|] eqn:Q; [|discriminate]. cbn [bind] in H. injection H as <- <-. simpl. f_equal. exact (IH _ _ _ _ L Q). Qed.

  Definition coupled' (lo hi t r : R) : Prop := between lo hi r /\ (r <= t / 2 \/ (t / 2 < lo /\ r = lo)).

  Lemma recouple_coupled lo hi dp ts : lo <= hi -> forall s rs s' out, Forall (between lo hi) rs -> List.length ts = List.length rs ->
    recouple g s lo hi dp ts rs = Ok (s', out) -> Forall2 (coupled' lo hi) ts out.
  Proof. intros Hl. induction ts as [|t ts IH]; intros s [|r rs] s' out F L H; simpl in L; try discriminate; cbn [recouple] in H.
    - injection H as <- <-. constructor.
    - inversion F; subst. unfold max_roughness in H. destruct (Rlt_dec (t / 2) lo); [|destruct (Rlt_dec hi (t / 2))].
      + destruct (recouple g s lo hi dp ts rs) as [[s2 o]|] eqn:E; [|discriminate]. cbn [bind] in H. injection H as <- <-.
        constructor; [|eapply IH; eauto]. split; [split; lra|right; auto].
      + destruct (recouple g s lo hi dp ts rs) as [[s2 o]|] eqn:E; [|discriminate]. cbn [bind] in H. injection H as <- <-.
        constructor; [|eapply IH; eauto]. unfold between in *. split; [assumption|left; lra].
      + destruct (sample_distribution g s 1 dp lo (t / 2)) as [[s1 xs]|] eqn:E1; [|discriminate]. cbn [bind] in H.
        apply sample_one in E1; [|lra]. destruct E1 as (x & -> & Hx).
        destruct (recouple g s1 lo hi dp ts rs) as [[s2 o]|] eqn:E; [|discriminate]. cbn [bind] in H. injection H as <- <-.
        constructor; [|eapply IH; eauto]. unfold coupled', between in *. split; [split; lra|left; lra]. Qed.

  Lemma roughness_length s p ts dp s' rs : roughness_from_thickness g s p ts dp = Ok (s', rs) -> List.length rs = List.length ts.
  Proof. unfold roughness_from_thickness. destruct (sample_real g s p (Z.of_nat (List.length ts)) dp) as [[s1 xs]|] eqn:E; [|discriminate]. cbn [bind].
    destruct (p_min p) as [lo|]; [|discriminate]. destruct (p_max p) as [hi|]; [|discriminate]. intros H.
    apply sample_real_length in E. destruct E as [E _]. eapply recouple_length; [|exact H]. lia. Qed.

  Lemma roughness_coupled s p ts dp s' rs : tame g dp \/ is_const p = true -> valid_param p -> roughness_from_thickness g s p ts dp = Ok (s', rs) ->
    Forall2 (coupled p) ts rs.
  Proof. intros T V. unfold roughness_from_thickness. destruct (sample_real g s p (Z.of_nat (List.length ts)) dp) as [[s1 xs]|] eqn:E; [|discriminate]. cbn [bind].
    pose proof (sample_real_length _ _ _ _ _ _ E) as [L _].
    assert (F : Forall (fun x => fits p (RtoC x)) xs).
    { destruct T as [T|T]; [eapply sample_real_fits; eauto|]. destruct p as [|v nm]; [discriminate|].
      apply sample_real_const in E. apply Forall_map. rewrite E. apply Forall_repeat. reflexivity. }
    destruct p as [[lo|] [hi|] nm|[v|] nm]; cbn [p_min p_max]; try discriminate; intros H.
    - destruct V as [_ V]. apply num_below_re in V. simpl in V. apply (recouple_coupled lo hi dp ts V) in H; [exact H| |lia].
      eapply Forall_impl; [|exact F]. intros x [Hx _]. exact Hx.
    - apply (recouple_coupled v v dp ts (Rle_refl v)) in H; [exact H| |lia].
      eapply Forall_impl; [|exact F]. intros x Hx. simpl in Hx. injection Hx as ->. split; lra. Qed.

  Lemma roughness_const s v nm ts dp s' rs : roughness_from_thickness g s (Const v nm) ts dp = Ok (s', rs) ->
    map RtoC rs = repeat (num_re v, num_im v) (List.length ts).
  Proof. intros H. pose proof (roughness_length _ _ _ _ _ _ H) as L. pose proof (roughness_coupled s (Const v nm) ts dp s' rs (or_intror eq_refl) I H) as F.
    assert (Hv : exists x, v = Flt x).
    { unfold roughness_from_thickness in H. destruct v as [x|]; [eauto|discriminate]. }
    destruct Hv as [x ->]. clear H. induction F as [|t r ts rs Hc F IH]; [reflexivity|]. simpl in *. rewrite IH by congruence.
    destruct Hc as [[A B] _]. simpl in A, B. f_equal. unfold RtoC. f_equal. lra. Qed.
End S.
