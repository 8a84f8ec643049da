(** Proofs about the way from a sample to a fit: training data, training, fitting. *)
From Coq Require Import Reals Lra.
From Coquelicot Require Import Complex.
From Verif Require Import Py Str Cplx Sample_Model Sample_Spec TrainedModel_Model Rng Sampling_Model Sampling_Spec Simulation_Model Arr Preproc_Model Preproc_Spec Preproc_Proofs OutPreproc_Proofs
  Sample_Proofs Labels_Proofs Simulation_Spec Simulation_Proofs NRng Noise_Model Noise_Spec Noise_Proofs Generator_Model Generator_Spec Generator_Proofs Trainer_Model Trainer_Spec Trainer_Proofs
  Fitter_Model Fitter_Spec Fitter_Proofs FitterOut_Proofs Network_Model Network_Spec Network_Proofs.
Local Open Scope string_scope.
Local Open Scope R_scope.

Lemma in_numbered A (x : A) l : forall k, In x l -> exists i, In (i, x) (combine (seq k (List.length l)) l).
Proof. induction l as [|y l IH]; intros k H; [destruct H|]. cbn. destruct H as [->|H]; [exists k; now left|]. destruct (IH (Datatypes.S k) H) as (i & Hi). exists i. now right. Qed.

Section Data.
  Context {S : Type} (g : nrng S) (Hg : nrng_ok g) (refl1d : option refl1d_fun).

  Lemma known_frame_of n t : known_cols (frame_of n t) = t.
  Proof. unfold known_cols, frame_of. cbn [fr_cols]. rewrite map_map. rewrite <- (map_id t) at 2. apply map_ext. intros [k c]. cbn [fst snd]. rewrite map_map. f_equal.
    rewrite <- (map_id c) at 2. apply map_ext. reflexivity. Qed.

  Definition dummy (smp : structure) (k : nat) : nn_model := mkNN smp [0] [Some 0] [Some 1] k (fun rows => Ok (map (fun _ => repeat None k) rows)).
  Lemma dummy_ok smp names : ordinary_sample smp -> label_names smp = Ok names -> exists k, network_ok (dummy smp k) names.
  Proof. intros Hs En. destruct (all_params_ordinary smp Hs) as (ps & names' & Eps & _). exists (List.length (filter (fun p => negb (is_const p)) ps)).
    split; [discriminate|]. split; [reflexivity|]. split; [reflexivity|]. split; [exact En|]. split; [exists ps; split; [exact Eps|reflexivity]|].
    intros rows _ _. eexists. split; [reflexivity|]. split; [apply map_length|]. apply Forall_map. apply Forall_forall. intros r _. apply repeat_length. Qed.

  Lemma simulate_labels s smp n dp s1 labels qs s0 : fittable refl1d smp -> generate_random_labels (nr_g g) s smp n dp = Ok (s1, labels) ->
    exists s2 rows, simulate_reflectivity (nr_g g) refl1d s0 qs labels (SNum 0) "refl1d" = Ok (s2, rows) /\
      List.length rows = Z.to_nat n /\ Forall (fun r => List.length r = List.length qs) rows.
  Proof. intros Hf El. pose proof Hf as ((Ho & Hnd) & Cl & Hl & He).
    destruct (generated_shape (nr_g g) (nr_base Hg) s smp n _ s1 labels Ho Hnd El) as (Hn & Hln & Hw).
    destruct (dummy_ok smp (map fst labels) Ho Hln) as (k & Hk).
    assert (Gd : good refl1d smp (map fst labels) (Z.to_nat n) (frame_of (Z.to_nat n) labels)).
    { split.
      - split; [cbn; rewrite map_map; reflexivity|]. split; [reflexivity|]. cbn. apply Forall_map. eapply Forall_impl; [|exact Hw]. intros [k' c] Hc. cbn [snd] in *. now rewrite map_length.
      - intros R. rewrite R in He. destruct He as (v & nm & E1 & E2). intros c Hc. cbn [frame_of fr_cols] in Hc. apply in_map_iff in Hc. destruct Hc as ([k' c'] & E & Hi). cbn [fst snd] in E. injection E as -> <-.
        assert (Ec : c' = repeat (num_re v, num_im v) (Z.to_nat n)).
        { apply (generated_constants (nr_g g) (nr_base Hg) s smp n dp s1 labels Ho Hnd El (st_ambient smp) v nm).
          - unfold all_layers, sample_structure. simpl. right. apply in_or_app. right. left. reflexivity.
          - left. split; [exact E1|exact Hi]. }
        subst c'. apply Forall_map. apply Forall_forall. intros x Hx. apply repeat_spec in Hx as ->. f_equal. symmetry. exact E2. }
    destruct (simulate_frame_total (nr_g g) (nr_base Hg) refl1d (dummy smp k) (map fst labels) Hf Hk (Z.to_nat n) (frame_of (Z.to_nat n) labels) s0 qs Gd) as (s2 & cs & E & L & F).
    unfold simulate_frame in E. rewrite known_frame_of in E. bind_as E r Er. destruct r as [s3 rows]. injection E as <- <-. exists s3, rows. split; [reflexivity|].
    rewrite map_length, combine_length, seq_length in L. assert (L' : List.length rows = Z.to_nat n) by lia. split; [exact L'|].
    apply Forall_forall. intros r Hr. destruct (in_numbered _ r rows 0 Hr) as (i & Hi). rewrite Forall_forall in F.
    specialize (F _ (in_map (fun ic => if row_known (frame_of (Z.to_nat n) labels) (fst ic) then snd ic else map (fun _ => None) (snd ic)) _ _ Hi)). cbn [fst snd] in F.
    destruct (row_known _ i); [exact F|]. rewrite map_length in F. exact F. Qed.

  (** ** The statistics *)
  Lemma prepare_ip_result s m rows : wf_arr (A2 m rows) -> (2 <= List.length rows)%nat ->
    exists s' noisy, perturbed m rows noisy /\ List.length noisy = List.length rows /\
      (has_constant_column m noisy -> prepare_ip g s (A2 m rows) = (s', Raise ValueError)) /\
      (~ has_constant_column m noisy -> exists mean std, prepare_ip g s (A2 m rows) = (s', Ok (mkIp (Some mean) (Some std)))).
  Proof. intros W L. unfold prepare_ip.
    destruct (uniform_noise_points g Hg s (A2 m rows) (fst noise_range) (snd noise_range) W) as (s1 & b & E1 & Sh & Wb & F1).
    destruct (uniform_noise_width g s m rows (fst noise_range) (snd noise_range)) as (s1' & mid & E1'). pose proof (eq_trans (eq_sym E1) E1') as Eb. injection Eb as _ ->. rewrite E1. clear E1 E1' s1'.
    destruct (scaling_Ok g Hg s1 (A2 m mid) (fst scaling_range) (snd scaling_range)) as (s2 & ks & out & E2 & Lk & Fk & Hsc & Hsh & _). rewrite E2.
    cbn [curves] in *. pose proof (Forall2_len F1) as Lm.
    assert (Hs2 : shape out = [List.length mid; m]) by (apply Hsh; left; lia).
    destruct out as [v|m' noisy]; [discriminate|]. cbn [shape] in Hs2. injection Hs2 as Ln ->.
    assert (Wn : Forall (fun r => List.length r = m) noisy).
    { destruct Hsc as [_ Hsc]. unfold each_curve in Hsc. cbn [curves] in Hsc. cbn [wf_arr] in Wb. clear - Hsc Wb Lk. revert ks noisy Lk Hsc. induction Wb as [|r mid Hr Wb IH]; intros [|k ks] noisy Lk Hsc; try discriminate;
        cbn [combine] in Hsc; inversion Hsc; subst; constructor; [cbn [fst]; now rewrite map_length|]. eapply IH; [|eassumption]. now injection Lk. }
    exists s2, noisy. split; [exists mid, ks; split; [exact F1|split; [|exact Hsc]]|].
    { eapply Forall_impl; [|exact Fk]. cbn beta. intros k Hk. unfold scaling_range in Hk. cbn [fst snd] in Hk. rewrite Rmin_left, Rmax_right in Hk by lra. exact Hk. }
    split; [lia|]. destruct (standardize_fresh m noisy Wn) as [A B]. split.
    - intros H. rewrite (A H). reflexivity.
    - intros H. rewrite (B H). cbn [bind]. eauto. Qed.

  Lemma generate_result s t n : fittable refl1d (tr_sample t) -> storable_sample (tr_sample t) -> (2 <= n)%Z ->
    exists s' t' e f rows noisy, generate_training_data g refl1d s t n = (s', t', e) /\ tr_sample t' = tr_sample t /\ tr_q t' = tr_q t /\
      tr_data t' = Some (mkTdata f (A2 (List.length (tr_q t)) rows)) /\ List.length rows = Z.to_nat n /\ perturbed (List.length (tr_q t)) rows noisy /\
      (has_constant_column (List.length (tr_q t)) noisy -> e = Some ValueError) /\ (~ has_constant_column (List.length (tr_q t)) noisy -> e = None).
  Proof. intros Hf Hst Hn. pose proof Hf as ((Ho & Hnd) & _).
    destruct (generate_total (nr_g g) (nr_base Hg) s (tr_sample t) n (mkDparams "bolstered" (15 / 100) (1 / 10)) Hst Hnd) as (s1 & labels & El); [right; cbn; split; [reflexivity|lra]|lia|].
    destruct (simulate_labels s (tr_sample t) n _ s1 labels (tr_q t) s1 Hf El) as (s2 & rows & Es & Lr & Fr).
    destruct (prepare_ip_result s2 (List.length (tr_q t)) rows Fr) as (s3 & noisy & P & Ln & A & B); [refine (eq_ind_r (fun k => (2 <= k)%nat) _ Lr); lia|].
    unfold generate_training_data. rewrite El, Es. cbv zeta.
    destruct (existsb is_zero (spec_std (List.length (tr_q t)) noisy)) eqn:Ec.
    - pose proof (proj1 (zero_std _ _) Ec) as Hc. rewrite (A Hc). do 6 eexists. split; [reflexivity|]. cbn [tr_sample tr_q tr_data]. repeat (split; [reflexivity|]). split; [exact Lr|]. split; [exact P|].
      split; [reflexivity|]. intros N. contradiction.
    - assert (Hc : ~ has_constant_column (List.length (tr_q t)) noisy) by (intros H; apply zero_std in H; congruence).
      destruct (B Hc) as (mean & std & E). rewrite E. do 6 eexists. split; [reflexivity|]. cbn [tr_sample tr_q tr_data]. repeat (split; [reflexivity|]). split; [exact Lr|]. split; [exact P|].
      split; [intros N; contradiction|reflexivity]. Qed.

  (** ** Training *)
  Lemma train_total (K : Type) (fit : K -> fit_args -> S -> res (S * K)) rnd k s t names m rows f mean std e bs verbose v :
    (forall k a s, exists s' k', fit k a s = Ok (s', k')) -> has_data t names m rows f -> tr_ip t = Some (mkIp (Some mean) (Some std)) ->
    rounding rnd (List.length rows) -> 0 <= v <= 1 -> (0 < bs)%nat ->
    (Z.of_nat bs <= n_train rnd v (List.length rows))%Z -> (Z.of_nat bs <= Z.of_nat (List.length rows) - n_train rnd v (List.length rows))%Z ->
    exists s' tm, train g rnd fit k s t e (Z.of_nat bs) verbose v = Ok (s', tm).
  Proof. intros Hfit Hd Hip Hr Hv Hb Ht Hval. destruct (part_sizes rnd v rows Hr Hv) as [P1 P2].
    destruct (split_Ok g rnd s t names m rows f bs v Hd Hb) as (s1 & h & gt & gv & prep & rem & ls & rt & rv & lt & lv & E & _); [lia|lia|].
    unfold train. rewrite E. cbn [bind]. match goal with |- context [fit k ?a s1] => destruct (Hfit k a s1) as (s2 & k' & E2) end. rewrite E2. cbn [bind]. rewrite Hip. cbn [ip_mean ip_std]. eauto. Qed.
End Data.

Section EndToEnd.
  Context {S : Type} (g : nrng S) (Hg : nrng_ok g) (refl1d : option refl1d_fun) (rnd : R -> R) (pick : list fl -> nat) (Pk : pick_ok pick) (cf : @curve_fit_fun S).

  Lemma end_to_end (fit : network -> fit_args -> S -> res (S * network)) net smp qs s n k s1 t0 t1 s2 e bs verbose v :
    fittable refl1d smp -> qs <> [] -> keeps_layers fit -> (forall k a s, exists s' k', fit k a s = Ok (s', k')) ->
    variable_count smp k -> built (List.length qs) (prepare_model k) net ->
    trainer_new smp qs = Ok t0 -> generate_training_data g refl1d s t0 n = (s1, t1, None) ->
    rounding rnd (Z.to_nat n) -> 0 <= v <= 1 -> (0 < bs)%nat -> (Z.of_nat bs <= n_train rnd v (Z.to_nat n))%Z -> (Z.of_nat bs <= n - n_train rnd v (Z.to_nat n))%Z ->
    exists s3 tm names, train g rnd fit net s2 t1 e (Z.of_nat bs) verbose v = Ok (s3, tm) /\ label_names smp = Ok names /\
      forall m s4 curve q o, fitter_for tm k m -> valid_input curve q -> samples_ok o -> o_polish o = false ->
        exists s5 out, fit_curve (nr_g g) refl1d pick cf m s4 curve q o = Ok (s5, out) /\ shaped names (List.length (curves_of curve)) (fo_params out).
  Proof. intros Hf Hq K Hfit Hk B Ht Hgen Hr Hv Hb B1 B2. pose proof Hf as (Hs & Cl & Hl & He).
    assert (Et0 : tr_sample t0 = smp /\ tr_q t0 = qs) by (unfold trainer_new in Ht; destruct (all_params smp); [injection Ht as <-; split; reflexivity|discriminate]). destruct Et0 as [Et0 Eq0].
    destruct (generated_data g Hg refl1d s t0 n s1 t1) as (names & rows & f & mean & std & Hn & Hd & Lr & Es & Eq & Hof & Hip); [rewrite Et0; exact Hs|rewrite Et0; exact Hl|exact Hgen|].
    destruct (train_total g network fit rnd net s2 t1 names _ rows f mean std e bs verbose v Hfit Hd Hip) as (s3 & tm & E); try assumption; try (rewrite Lr; assumption).
    { rewrite Lr. lia. }
    destruct (all_params_ordinary smp (proj1 Hs)) as (ps' & names' & _ & En & _).
    exists s3, tm, names'. split; [exact E|]. split; [exact En|]. intros m s4 curve q o Hm Hin Ho Hp.
    destruct (pipeline g refl1d rnd fit net smp qs t0 s n s1 t1 s2 e (Z.of_nat bs) verbose v s3 tm k m Hs Hq K Hk B Ht Hgen E Hm) as (names2 & En2 & Esm & Eqm & Nok & _).
    assert (En3 : names2 = names') by congruence. subst names2.
    destruct (fit_curve_total (nr_g g) (nr_base Hg) refl1d pick Pk cf m names') with (s := s4) (curve := curve) (q := q) (o := o) as (s5 & out & E5 & Sh & _); try assumption.
    { rewrite Esm. exact Hf. }
    exists s5, out. split; assumption. Qed.
End EndToEnd.
