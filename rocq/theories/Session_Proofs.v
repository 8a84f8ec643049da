(** Proofs about sessions. *)
From Coq Require Import Reals Lia.
From Verif Require Import Py Str Sample_Model TrainedModel_Model Rng Sampling_Model Simulation_Model Arr Preproc_Model NRng Noise_Model Generator_Model Trainer_Model Session_Model Session_Spec Sample_Spec TrainedModel_Spec TrainedModel_Proofs.

Lemma put_length {A} (l : list A) i x : List.length (put l i x) = List.length l.
Proof. revert i. induction l as [|y l IH]; intros [|i]; cbn; congruence. Qed.
Lemma put_other {A} (l : list A) i j x : i <> j -> nth_error (put l i x) j = nth_error l j.
Proof. revert i j. induction l as [|y l IH]; intros [|i] [|j] H; cbn; try reflexivity; try congruence. apply IH. congruence. Qed.
Lemma put_same {A} (l : list A) i x : (i < List.length l)%nat -> nth_error (put l i x) i = Some x.
Proof. revert i. induction l as [|y l IH]; intros [|i] H; cbn in *; try lia; [reflexivity|]. apply IH. lia. Qed.
Lemma nth_app_old {A} (l l' : list A) i x : nth_error l i = Some x -> nth_error (l ++ l') i = Some x.
Proof. intros H. rewrite nth_error_app1; [exact H|]. apply nth_error_Some. congruence. Qed.
Lemma nth_app_old' {A} (l l' : list A) i : (i < List.length l)%nat -> nth_error (l ++ l') i = nth_error l i.
Proof. intros H. now apply nth_error_app1. Qed.
Lemma nth_lt {A} (l : list A) i x : nth_error l i = Some x -> (i < List.length l)%nat.
Proof. intros H. apply nth_error_Some. congruence. Qed.
Lemma lt_nth {A} (l : list A) i : (i < List.length l)%nat -> exists x, nth_error l i = Some x.
Proof. intros H. apply nth_error_Some in H. destruct (nth_error l i); [eauto|congruence]. Qed.

Section Proofs.
  Context {S K : Type} (g : nrng S) (refl1d : option refl1d_fun) (rnd : R -> R) (seed : Z -> S) (fresh : nat -> nat -> K)
    (fit : K -> fit_args -> S -> S * K * option exn).
  Local Notation step := (step g refl1d rnd seed fresh fit).
  Local Notation run := (run g refl1d rnd seed fresh fit).

  (** What a step does to the lists of the world *)
  Record later (w w' : world S K) : Prop := {
    l_samples : (List.length (w_samples w) <= List.length (w_samples w'))%nat;
    l_nets : (List.length (w_nets w) <= List.length (w_nets w'))%nat;
    l_trainers : forall t c, nth_error (w_trainers w) t = Some c -> exists c', nth_error (w_trainers w') t = Some c' /\ ct_net c' = ct_net c /\ ct_sample c' = ct_sample c /\ ct_q c' = ct_q c;
    l_models : exists ms, w_models w' = (w_models w ++ ms)%list }.

  Lemma later_refl w : later w w.
  Proof. constructor; [lia|lia|eauto|]. exists []. now rewrite app_nil_r. Qed.
  Lemma later_trans a b c : later a b -> later b c -> later a c.
  Proof. intros [H1 H2 H3 [m1 H4]] [G1 G2 G3 [m2 G4]]. constructor; [lia|lia| |].
    - intros t x H. destruct (H3 t x H) as (y & Hy & E1 & E2 & E3). destruct (G3 t y Hy) as (z & Hz & F1 & F2 & F3). exists z. repeat split; congruence.
    - exists (m1 ++ m2)%list. now rewrite G4, H4, app_assoc. Qed.

  Lemma do_train_later w c t k e b vb v : later w (fst (do_train g rnd fit w c t k e b vb v)).
  Proof. unfold do_train. destruct (prepare_generators g rnd (w_rng w) t b v) as [[s [h [gt gv]]]|x]; [|apply later_refl].
    destruct (fit k _ s) as [[s' k'] ex]. cbv zeta.
    assert (L : forall ms, later w (mkWorld s' (w_samples w) (put (w_nets w) (ct_net c) k') (w_trainers w) (w_models w ++ ms)%list (w_files w))).
    { intros ms. constructor; cbn; [lia|rewrite put_length; lia|eauto|eauto]. }
    pose proof (L []) as L0. rewrite app_nil_r in L0. destruct ex; [exact L0|]. destruct (tr_ip t) as [ip|]; [|exact L0].
    destruct (ip_mean ip); [|exact L0]. destruct (ip_std ip); [apply L|exact L0]. Qed.

  Lemma step_later w o : proper o -> later w (fst (step w o)).
  Proof. intros P. destruct o; cbn [Session_Model.step].
    - constructor; cbn; [rewrite app_length; lia|lia|eauto|exists []; now rewrite app_nil_r].
    - constructor; cbn; [rewrite P; lia|lia|eauto|exists []; now rewrite app_nil_r].
    - constructor; cbn; [lia|lia|eauto|exists []; now rewrite app_nil_r].
    - destruct (reseed _ _ _); [|apply later_refl]. constructor; cbn; [lia|lia|eauto|exists []; now rewrite app_nil_r].
    - destruct (reseed _ _ _); [|apply later_refl]. destruct (nth_error (w_samples w) a); [|apply later_refl].
      destruct (all_params s); (constructor; cbn; [lia|rewrite ?app_length; lia| |exists []; now rewrite app_nil_r]); [|eauto].
      intros t c H. exists c. repeat split. now apply nth_app_old.
    - destruct (nth_error (w_trainers w) t) as [c|] eqn:E; [|apply later_refl]. destruct (look w c) as [tr|]; [|apply later_refl].
      destruct (generate_training_data _ _ _ _ _) as [[s tr'] e]. constructor; cbn; [lia|lia| |exists []; now rewrite app_nil_r].
      intros t' c' H. destruct (Nat.eq_dec t t') as [<-|N]; [|exists c'; rewrite put_other by exact N; auto].
      rewrite put_same by (eapply nth_lt; eassumption). eexists. split; [reflexivity|]. cbn. assert (c' = c) by congruence. subst. auto.
    - destruct (nth_error (w_trainers w) t) as [c|] eqn:E; [|apply later_refl]. destruct (look w c) as [tr|]; [|apply later_refl].
      destruct (nth_error (w_nets w) (ct_net c)); [|apply later_refl]. apply do_train_later.
    - destruct (nth_error (w_models w) m) as [c|]; [|apply later_refl]. destruct (view w c); [|apply later_refl].
      destruct (save_model _ _ _). constructor; cbn; [lia|lia|eauto|exists []; now rewrite app_nil_r].
    - destruct (from_file _ _); [|apply later_refl]. constructor; cbn; [rewrite app_length; lia|rewrite app_length; lia|eauto|eauto]. Qed.

  Lemma run_later os : forall w, Forall proper os -> later w (run w os).
  Proof. induction os as [|o os IH]; intros w P; [apply later_refl|]. inversion P; subst. cbn. apply (later_trans _ (fst (step w o))); [now apply step_later|now apply IH]. Qed.

  Lemma run_app os : forall os' w, run w (os ++ os') = run (run w os) os'.
  Proof. induction os as [|o os IH]; intros os' w; [reflexivity|]. cbn. apply IH. Qed.

  (** Addresses are valid, no two trainers share a network *)
  Record sound (w : world S K) : Prop := {
    s_trainers : forall t c, nth_error (w_trainers w) t = Some c -> (ct_net c < List.length (w_nets w))%nat /\ (ct_sample c < List.length (w_samples w))%nat;
    s_models : forall m c, nth_error (w_models w) m = Some c -> (cm_net c < List.length (w_nets w))%nat /\ (cm_sample c < List.length (w_samples w))%nat;
    s_distinct : forall t t' c c', nth_error (w_trainers w) t = Some c -> nth_error (w_trainers w) t' = Some c' -> ct_net c = ct_net c' -> t = t' }.

  Lemma sound_start s : sound (start s).
  Proof. constructor; cbn; intros [|]; discriminate. Qed.

  Lemma sound_ext w w' : sound w -> (List.length (w_samples w) <= List.length (w_samples w'))%nat -> (List.length (w_nets w) <= List.length (w_nets w'))%nat ->
    w_trainers w' = w_trainers w -> w_models w' = w_models w -> sound w'.
  Proof. intros [H1 H2 H3] L1 L2 E1 E2. constructor; rewrite ?E1, ?E2; [| |exact H3].
    - intros t c H. specialize (H1 t c H). lia.
    - intros t c H. specialize (H2 t c H). lia. Qed.

  Lemma do_train_sound w c t k e b vb v : sound w -> (exists i, nth_error (w_trainers w) i = Some c) -> sound (fst (do_train g rnd fit w c t k e b vb v)).
  Proof. intros W [i Hi]. unfold do_train. destruct (prepare_generators g rnd (w_rng w) t b v) as [[s [h [gt gv]]]|x]; [|exact W].
    destruct (fit k _ s) as [[s' k'] ex]. cbv zeta.
    assert (L : forall ms, (forall m x, nth_error ms m = Some x -> cm_net x = ct_net c /\ cm_sample x = ct_sample c) -> sound (mkWorld s' (w_samples w) (put (w_nets w) (ct_net c) k') (w_trainers w) (w_models w ++ ms)%list (w_files w))).
    { intros ms Hm. destruct W as [H1 H2 H3]. constructor; cbn; rewrite ?put_length; [exact H1| |exact H3].
      intros m x H. destruct (Nat.lt_ge_cases m (List.length (w_models w))) as [L|L]; [rewrite nth_error_app1 in H by exact L; eauto|].
      rewrite nth_error_app2 in H by exact L. destruct (Hm _ _ H) as [-> ->]. eauto. }
    assert (L0 := L []). rewrite app_nil_r in L0. assert (L0' : sound (mkWorld s' (w_samples w) (put (w_nets w) (ct_net c) k') (w_trainers w) (w_models w) (w_files w))) by (apply L0; intros [|]; discriminate).
    destruct ex; [exact L0'|]. destruct (tr_ip t) as [ip|]; [|exact L0'].
    destruct (ip_mean ip); [|exact L0']. destruct (ip_std ip); [|exact L0']. apply L. intros [|[|]] x H; [|discriminate|discriminate]. injection H as <-. auto. Qed.

  Lemma step_sound w o : proper o -> sound w -> sound (fst (step w o)).
  Proof. intros P W. destruct o; cbn [Session_Model.step].
    - apply (sound_ext w); cbn; auto. rewrite app_length. lia.
    - apply (sound_ext w); cbn; auto. rewrite P. lia.
    - apply (sound_ext w); cbn; auto.
    - destruct (reseed _ _ _); [|exact W]. apply (sound_ext w); cbn; auto.
    - destruct (reseed _ _ _); [|exact W]. destruct (nth_error (w_samples w) a) eqn:E; [|exact W].
      destruct (all_params s); cbn; [|apply (sound_ext w); cbn; auto]. apply nth_lt in E. destruct W as [H1 H2 H3].
      assert (N : forall t c, nth_error (w_trainers w ++ [mkCtr a (List.length (w_nets w)) qs None None]) t = Some c ->
        (nth_error (w_trainers w) t = Some c /\ ct_net c < List.length (w_nets w) /\ ct_sample c < List.length (w_samples w))%nat \/ (t = List.length (w_trainers w) /\ ct_net c = List.length (w_nets w) /\ ct_sample c = a)).
      { intros t c H. destruct (Nat.lt_ge_cases t (List.length (w_trainers w))) as [L|L]; [rewrite nth_error_app1 in H by exact L; left; split; eauto|].
        rewrite nth_error_app2 in H by exact L. right. destruct (t - _)%nat as [|[|]] eqn:D in H; try discriminate. injection H as <-. cbn. split; [lia|auto]. }
      constructor; cbn.
      + intros t c H. rewrite app_length. cbn. destruct (N _ _ H) as [(_ & ? & ?)|(_ & ? & ?)]; lia.
      + intros m c H. rewrite app_length. cbn. specialize (H2 m c H). lia.
      + intros t t' c c' H H' Q. destruct (N _ _ H) as [(A & A1 & _)|(A & A1 & _)], (N _ _ H') as [(B & B1 & _)|(B & B1 & _)]; try lia. eauto.
    - destruct (nth_error (w_trainers w) t) as [c|] eqn:E; [|exact W]. destruct (look w c) as [tr|]; [|exact W].
      destruct (generate_training_data _ _ _ _ _) as [[s tr'] e]. cbn. destruct W as [H1 H2 H3].
      assert (N : forall x y, nth_error (put (w_trainers w) t (mkCtr (ct_sample c) (ct_net c) (ct_q c) (tr_data tr') (tr_ip tr'))) x = Some y -> exists z, nth_error (w_trainers w) x = Some z /\ ct_net z = ct_net y /\ ct_sample z = ct_sample y).
      { intros x y H. destruct (Nat.eq_dec t x) as [<-|D]; [|rewrite put_other in H by exact D; eauto]. rewrite put_same in H by (eapply nth_lt; eassumption). injection H as <-. eauto. }
      constructor; cbn; [|exact H2|].
      + intros x y H. destruct (N _ _ H) as (z & Hz & <- & <-). eauto.
      + intros x y cx cy H H' Q. destruct (N _ _ H) as (z & Hz & E1 & _), (N _ _ H') as (z' & Hz' & E1' & _). apply (H3 x y z z' Hz Hz'). congruence.
    - destruct (nth_error (w_trainers w) t) as [c|] eqn:E; [|exact W]. destruct (look w c) as [tr|]; [|exact W].
      destruct (nth_error (w_nets w) (ct_net c)); [|exact W]. apply do_train_sound; eauto.
    - destruct (nth_error (w_models w) m) as [c|]; [|exact W]. destruct (view w c); [|exact W].
      destruct (save_model _ _ _). apply (sound_ext w); cbn; auto.
    - destruct (from_file _ _) as [tm|]; [|exact W]. destruct W as [H1 H2 H3]. constructor; cbn; rewrite ?app_length; cbn.
      + intros t c H. specialize (H1 t c H). lia.
      + intros m c H. destruct (Nat.lt_ge_cases m (List.length (w_models w))) as [L|L]; [rewrite nth_error_app1 in H by exact L; specialize (H2 m c H); lia|].
        rewrite nth_error_app2 in H by exact L. destruct (m - _)%nat as [|[|]] in H; try discriminate. injection H as <-. cbn. lia.
      + exact H3. Qed.

  Lemma run_sound os : forall w, Forall proper os -> sound w -> sound (run w os).
  Proof. induction os as [|o os IH]; intros w P W; [exact W|]. inversion P; subst. cbn. apply IH; [assumption|now apply step_sound]. Qed.
  Lemma reach_sound os s : Forall proper os -> sound (run (start s) os).
  Proof. intros P. apply run_sound; [exact P|apply sound_start]. Qed.

  (** Which steps change a network *)
  Lemma do_train_nets w c t k e b vb v n : n <> ct_net c -> nth_error (w_nets (fst (do_train g rnd fit w c t k e b vb v))) n = nth_error (w_nets w) n.
  Proof. intros N. unfold do_train. destruct (prepare_generators g rnd (w_rng w) t b v) as [[s [h [gt gv]]]|x]; [|reflexivity].
    destruct (fit k _ s) as [[s' k'] ex]. cbv zeta. pose proof (put_other (w_nets w) (ct_net c) n k' (not_eq_sym N)) as Q.
    destruct ex; [exact Q|]. destruct (tr_ip t) as [ip|]; [|exact Q]. destruct (ip_mean ip); [|exact Q]. destruct (ip_std ip); exact Q. Qed.
  Lemma do_train_samples w c t k e b vb v : w_samples (fst (do_train g rnd fit w c t k e b vb v)) = w_samples w.
  Proof. unfold do_train. destruct (prepare_generators g rnd (w_rng w) t b v) as [[s [h [gt gv]]]|x]; [|reflexivity].
    destruct (fit k _ s) as [[s' k'] ex]. cbv zeta.
    destruct ex; [reflexivity|]. destruct (tr_ip t) as [ip|]; [|reflexivity]. destruct (ip_mean ip); [|reflexivity]. destruct (ip_std ip); reflexivity. Qed.

  Lemma step_nets w o n : (n < List.length (w_nets w))%nat -> (forall t c, trains t o -> nth_error (w_trainers w) t = Some c -> ct_net c <> n) ->
    nth_error (w_nets (fst (step w o))) n = nth_error (w_nets w) n.
  Proof. intros L T. destruct o; cbn [Session_Model.step]; try reflexivity.
    - destruct (reseed _ _ _); reflexivity.
    - destruct (reseed _ _ _); [|reflexivity]. destruct (nth_error (w_samples w) a); [|reflexivity]. destruct (all_params s); [|reflexivity].
      cbn. now apply nth_error_app1.
    - destruct (nth_error (w_trainers w) t) as [c|]; [|reflexivity]. destruct (look w c); [|reflexivity]. destruct (generate_training_data _ _ _ _ _) as [[s tr'] e]. reflexivity.
    - destruct (nth_error (w_trainers w) t) as [c|] eqn:E; [|reflexivity]. destruct (look w c); [|reflexivity]. destruct (nth_error (w_nets w) (ct_net c)); [|reflexivity].
      apply do_train_nets. intros Q. exact (T t c eq_refl E (eq_sym Q)).
    - destruct (nth_error (w_models w) m); [|reflexivity]. destruct (view w c); [|reflexivity]. destruct (save_model _ _ _). reflexivity.
    - destruct (from_file _ _); [|reflexivity]. cbn. now apply nth_error_app1. Qed.
  Lemma step_samples w o a : (a < List.length (w_samples w))%nat -> spares a o -> nth_error (w_samples (fst (step w o))) a = nth_error (w_samples w) a.
  Proof. intros L P. destruct o; cbn [Session_Model.step]; try reflexivity.
    - cbn. now apply nth_error_app1.
    - cbn. apply P.
    - destruct (reseed _ _ _); reflexivity.
    - destruct (reseed _ _ _); [|reflexivity]. destruct (nth_error (w_samples w) a0); [|reflexivity]. destruct (all_params s); reflexivity.
    - destruct (nth_error (w_trainers w) t) as [c|]; [|reflexivity]. destruct (look w c); [|reflexivity]. destruct (generate_training_data _ _ _ _ _) as [[s tr'] e]. reflexivity.
    - destruct (nth_error (w_trainers w) t) as [c|] eqn:E; [|reflexivity]. destruct (look w c); [|reflexivity]. destruct (nth_error (w_nets w) (ct_net c)); [|reflexivity].
      cbn. now rewrite do_train_samples.
    - destruct (nth_error (w_models w) m); [|reflexivity]. destruct (view w c); [|reflexivity]. destruct (save_model _ _ _). reflexivity.
    - destruct (from_file _ _); [|reflexivity]. cbn. now apply nth_error_app1. Qed.

  Lemma run_nets os : forall w n, Forall proper os -> sound w -> (n < List.length (w_nets w))%nat ->
    (forall t c o, In o os -> trains t o -> nth_error (w_trainers (run w os)) t = Some c -> ct_net c <> n) ->
    nth_error (w_nets (run w os)) n = nth_error (w_nets w) n.
  Proof. induction os as [|o os IH]; intros w n P W L T; [reflexivity|]. inversion P; subst. cbn in *.
    rewrite IH; [|assumption|now apply step_sound| |].
    - apply step_nets; [exact L|]. intros t c Ht Hc. destruct (l_trainers _ _ (step_later w o H1) t c Hc) as (c' & Hc' & E & _).
      destruct (l_trainers _ _ (run_later os _ H2) t c' Hc') as (c'' & Hc'' & E' & _). rewrite <- E, <- E'. exact (T t c'' o (or_introl eq_refl) Ht Hc'').
    - pose proof (l_nets _ _ (step_later w o H1)). lia.
    - intros t c o' Ho. exact (T t c o' (or_intror Ho)). Qed.
  Lemma run_samples os : forall w a, Forall proper os -> (a < List.length (w_samples w))%nat -> Forall (spares a) os -> nth_error (w_samples (run w os)) a = nth_error (w_samples w) a.
  Proof. induction os as [|o os IH]; intros w a P L T; [reflexivity|]. inversion P; inversion T; subst. cbn in *.
    rewrite IH; try assumption; [now apply step_samples|]. pose proof (l_samples _ _ (step_later w o H1)). lia. Qed.

  (** A trainer with an old network is an old trainer. *)
  Lemma step_trainers w o t c : nth_error (w_trainers (fst (step w o))) t = Some c ->
    (exists c0, nth_error (w_trainers w) t = Some c0 /\ ct_net c0 = ct_net c) \/ (List.length (w_nets w) <= ct_net c)%nat.
  Proof. destruct o; cbn [Session_Model.step]; eauto.
    - destruct (reseed _ _ _); eauto.
    - destruct (reseed _ _ _); [|eauto]. destruct (nth_error (w_samples w) a); [|eauto]. destruct (all_params s); [|eauto]. cbn. intros H.
      destruct (Nat.lt_ge_cases t (List.length (w_trainers w))) as [L|L]; [rewrite nth_error_app1 in H by exact L; eauto|].
      rewrite nth_error_app2 in H by exact L. destruct (t - _)%nat as [|[|]] in H; try discriminate. injection H as <-. right. cbn. lia.
    - destruct (nth_error (w_trainers w) t0) as [c0|] eqn:E; [|eauto]. destruct (look w c0); [|eauto]. destruct (generate_training_data _ _ _ _ _) as [[s tr'] e]. cbn.
      intros H. destruct (Nat.eq_dec t0 t) as [<-|D]; [|rewrite put_other in H by exact D; eauto]. rewrite put_same in H by (eapply nth_lt; eassumption). injection H as <-. eauto.
    - destruct (nth_error (w_trainers w) t0) as [c0|] eqn:E; [|eauto]. destruct (look w c0); [|eauto]. destruct (nth_error (w_nets w) (ct_net c0)); [|eauto].
      unfold do_train. destruct (prepare_generators _ _ _ _ _ _) as [[s [h [gt gv]]]|x]; [|eauto]. destruct (fit k _ s) as [[s' k'] ex]. cbv zeta.
      destruct ex; [eauto|]. destruct (tr_ip a) as [ip|]; [|eauto]. destruct (ip_mean ip); [|eauto]. destruct (ip_std ip); eauto.
    - destruct (nth_error (w_models w) m); [|eauto]. destruct (view w c0); [|eauto]. destruct (save_model _ _ _). eauto.
    - destruct (from_file _ _); eauto. Qed.
  Lemma run_trainers os : forall w t c, Forall proper os -> nth_error (w_trainers (run w os)) t = Some c ->
    (exists c0, nth_error (w_trainers w) t = Some c0 /\ ct_net c0 = ct_net c) \/ (List.length (w_nets w) <= ct_net c)%nat.
  Proof. induction os as [|o os IH]; intros w t c P H; [eauto|]. inversion P; subst. cbn in H. pose proof (l_nets _ _ (step_later w o H2)) as L.
    destruct (IH _ _ _ H3 H) as [(c0 & Hc & E)|E]; [|right; lia]. rewrite <- E. now apply step_trainers in Hc. Qed.

  (** ** A trained model keeps its contents unless its trainer trains again or its sample is changed. *)
  Lemma model_kept s os os' m c : Forall proper os -> Forall proper os' -> nth_error (w_models (run (start s) os)) m = Some c ->
    (forall t, shares_network (run (start s) os) t c -> Forall (fun o => ~ trains t o) os') -> Forall (spares (cm_sample c)) os' ->
    nth_error (w_models (run (run (start s) os) os')) m = Some c /\ view (run (run (start s) os) os') c = view (run (start s) os) c.
  Proof. intros P P' Hm T Sp. pose proof (reach_sound os s P) as W. set (w := run (start s) os) in *. destruct (s_models _ W _ _ Hm) as [L1 L2].
    split.
    - destruct (l_models _ _ (run_later os' w P')) as [ms ->]. now apply nth_app_old.
    - unfold view. rewrite (run_samples os' w (cm_sample c) P' L2 Sp). rewrite (run_nets os' w (cm_net c) P' W L1); [reflexivity|].
      intros t ct o Ho Ht Hc E. destruct (run_trainers os' w t ct P' Hc) as [(c0 & H0 & E0)|L]; [|lia].
      assert (X : shares_network w t c) by (exists c0; split; [exact H0|congruence]). specialize (T t X). rewrite Forall_forall in T. exact (T o Ho Ht). Qed.

  (** ** Training *)
  Lemma trained w t e b vb v w1 : step w (OTrain t e b vb v) = (w1, None) ->
    exists ct st k ip mean std s h gt gv s' k', nth_error (w_trainers w) t = Some ct /\ nth_error (w_samples w) (ct_sample ct) = Some st /\ nth_error (w_nets w) (ct_net ct) = Some k /\
      ct_ip ct = Some ip /\ ip_mean ip = Some mean /\ ip_std ip = Some std /\
      prepare_generators g rnd (w_rng w) (mkTrainer st (ct_q ct) (ct_data ct) (ct_ip ct)) b v = Ok (s, (h, (gt, gv))) /\
      fit k (mkFit h gt gv (Some ip) e vb (prepare_callbacks vb None)) s = (s', k', None) /\
      w1 = mkWorld s' (w_samples w) (put (w_nets w) (ct_net ct) k') (w_trainers w) (w_models w ++ [mkCm (ct_sample ct) (ct_net ct) (map Some (ct_q ct)) mean std])%list (w_files w).
  Proof. cbn [Session_Model.step]. destruct (nth_error (w_trainers w) t) as [ct|] eqn:E1; [|discriminate]. unfold look. destruct (nth_error (w_samples w) (ct_sample ct)) as [st|] eqn:E2; [|discriminate].
    destruct (nth_error (w_nets w) (ct_net ct)) as [k|] eqn:E3; [|discriminate]. unfold do_train. destruct (prepare_generators _ _ _ _ _ _) as [[s [h [gt gv]]]|x] eqn:E4; [|discriminate].
    cbn [tr_ip]. destruct (fit k _ s) as [[s' k'] ex] eqn:E5. cbv zeta. destruct ex; [discriminate|]. destruct (ct_ip ct) as [ip|] eqn:E6; [|discriminate].
    destruct (ip_mean ip) as [mean|] eqn:E7; [|discriminate]. destruct (ip_std ip) as [std|] eqn:E8; [|discriminate]. intros H. injection H as <-.
    exists ct, st, k, ip, mean, std, s, h, gt, gv, s', k'. rewrite E6. repeat split; assumption. Qed.

  Lemma train_new_model w t e b vb v w1 : step w (OTrain t e b vb v) = (w1, None) -> exists c tm, w_models w1 = (w_models w ++ [c])%list /\ shares_network w1 t c /\ view w1 c = Ok tm.
  Proof. intros H. destruct (trained _ _ _ _ _ _ _ H) as (ct & st & k & ip & mean & std & s & h & gt & gv & s' & k' & E1 & E2 & E3 & E4 & E5 & E6 & E7 & E8 & ->).
    exists (mkCm (ct_sample ct) (ct_net ct) (map Some (ct_q ct)) mean std). eexists. split; [reflexivity|]. split; [exists ct; split; [exact E1|reflexivity]|].
    unfold view. cbn. rewrite E2, put_same by (eapply nth_lt; eassumption). reflexivity. Qed.

  Lemma trained_again w t c tm e b vb v w' : shares_network w t c -> view w c = Ok tm ->
    step w (OTrain t e b vb v) = (w', None) ->
    exists a s s' k' c', fit (tm_keras tm) a s = (s', k', None) /\ w_models w' = (w_models w ++ [c'])%list /\
      view w' c = Ok (mkTM (tm_sample tm) k' (tm_q tm) (tm_mean tm) (tm_std tm)) /\ cm_net c' = cm_net c.
  Proof. intros (ct0 & Ht0 & En) V H. destruct (trained _ _ _ _ _ _ _ H) as (ct & st & k & ip & mean & std & s & h & gt & gv & s' & k' & E1 & E2 & E3 & E4 & E5 & E6 & E7 & E8 & ->).
    assert (ct0 = ct) by congruence. subst ct0. unfold view in V. destruct (nth_error (w_samples w) (cm_sample c)) as [st'|] eqn:Es; [|discriminate]. rewrite <- En, E3 in V. injection V as <-. cbn.
    eexists _, _, _, _, (mkCm (ct_sample ct) (ct_net ct) (map Some (ct_q ct)) mean std). split; [exact E8|]. split; [reflexivity|]. split; [|exact En].
    unfold view. cbn. rewrite Es, <- En, put_same by (eapply nth_lt; eassumption). reflexivity. Qed.

  (** ** Files *)
  Lemma step_files w o p : ~ writes p o -> w_files (fst (step w o)) p = w_files w p.
  Proof. intros N. destruct o; cbn [Session_Model.step]; try reflexivity.
    - destruct (reseed _ _ _); reflexivity.
    - destruct (reseed _ _ _); [|reflexivity]. destruct (nth_error (w_samples w) a); [|reflexivity]. destruct (all_params s); reflexivity.
    - destruct (nth_error (w_trainers w) t) as [c|]; [|reflexivity]. destruct (look w c); [|reflexivity]. destruct (generate_training_data _ _ _ _ _) as [[s tr'] e]. reflexivity.
    - destruct (nth_error (w_trainers w) t) as [c|] eqn:E; [|reflexivity]. destruct (look w c); [|reflexivity]. destruct (nth_error (w_nets w) (ct_net c)); [|reflexivity].
      unfold do_train. destruct (prepare_generators _ _ _ _ _ _) as [[s [h [gt gv]]]|x]; [|reflexivity]. destruct (fit k _ s) as [[s' k'] ex]. cbv zeta.
      destruct ex; [reflexivity|]. destruct (tr_ip a) as [ip|]; [|reflexivity]. destruct (ip_mean ip); [|reflexivity]. destruct (ip_std ip); reflexivity.
    - destruct (nth_error (w_models w) m); [|reflexivity]. destruct (view w c) as [tm|]; [|reflexivity]. unfold save_model, fs_set. cbn in N. apply not_eq_sym, String.eqb_neq in N.
      destruct (to_dict (tm_sample tm)); cbn; [|now rewrite N]. destruct (json_dumps a); cbn; now rewrite ?N.
    - destruct (from_file _ _); reflexivity. Qed.
  Lemma run_files os : forall w p, Forall (fun o => ~ writes p o) os -> w_files (run w os) p = w_files w p.
  Proof. induction os as [|o os IH]; intros w p H; [reflexivity|]. inversion H; subst. cbn. rewrite IH by assumption. now apply step_files. Qed.

  Lemma load_saved w os p tm : Forall (fun o => ~ writes p o) os -> from_file (w_files w) p = Ok tm ->
    exists w' c, step (run w os) (OLoad p) = (w', None) /\ w_models w' = (w_models (run w os) ++ [c])%list /\ view w' c = Ok tm.
  Proof. intros H E. cbn [Session_Model.step]. unfold from_file in *. rewrite (run_files os w p H), E. eexists _, _. split; [reflexivity|]. split; [reflexivity|].
    unfold view. cbn. rewrite !nth_error_app2, !Nat.sub_diag by apply le_n. cbn. destruct tm. reflexivity. Qed.

  Lemma save_load_session w m c tm p os : nth_error (w_models w) m = Some c -> view w c = Ok tm -> storable_sample (tm_sample tm) -> ~ has_flat_complex (tm_sample tm) ->
    Forall (fun o => ~ writes p o) os ->
    exists w1 w' c' tm', step w (OSave m p) = (w1, None) /\ step (run w1 os) (OLoad p) = (w', None) /\ w_models w' = (w_models (run w1 os) ++ [c'])%list /\ view w' c' = Ok tm' /\
      tm_keras tm' = tm_keras tm /\ tm_q tm' = tm_q tm /\ tm_mean tm' = tm_mean tm /\ tm_std tm' = tm_std tm /\ same_sample (tm_sample tm) (tm_sample tm') /\ label_names (tm_sample tm') = label_names (tm_sample tm).
  Proof. intros Hm V St Fl N. destruct (save_load (w_files w) p tm St Fl) as (f' & tm' & E1 & E2 & K1 & K2 & K3 & K4 & K5 & K6 & _).
    eexists. destruct (load_saved (mkWorld (w_rng w) (w_samples w) (w_nets w) (w_trainers w) (w_models w) f') os p tm' N E2) as (w' & c' & L1 & L2 & L3).
    exists w', c', tm'. split; [cbn [Session_Model.step]; rewrite Hm, V, E1; reflexivity|]. auto 12. Qed.

  Lemma loaded_kept s os p w os' : Forall proper os -> Forall proper os' -> step (run (start s) os) (OLoad p) = (w, None) ->
    exists c, w_models w = (w_models (run (start s) os) ++ [c])%list /\ (Forall (spares (cm_sample c)) os' -> view (run w os') c = view w c).
  Proof. intros P P' H. pose proof (step_sound (run (start s) os) (OLoad p) I (reach_sound os s P)) as W. pose proof (reach_sound os s P) as W0. rewrite H in W. cbn [fst] in W.
    cbn [Session_Model.step] in H. destruct (from_file (w_files (run (start s) os)) p) as [tm|]; [|discriminate]. injection H as <-. eexists. split; [reflexivity|]. intros Sp.
    unfold view. rewrite (run_samples os' _ _ P') by (cbn; rewrite ?app_length; cbn; lia || exact Sp). 
    rewrite run_nets; [reflexivity|exact P'|exact W|cbn; rewrite app_length; cbn; lia|].
    intros t ct o Ho Ht Hc E. apply (run_trainers os' _ t ct P') in Hc. cbn in Hc, E. rewrite app_length in Hc. cbn in Hc. destruct Hc as [(c0 & H0 & E0)|L]; [|lia].
    destruct (s_trainers _ W0 t c0 H0). lia. Qed.

  (** ** Seeds *)
  Lemma reseed_ok s k : (0 <= k < 2 ^ 32)%Z -> reseed seed s (Some k) = Ok (seed k).
  Proof. intros H. unfold reseed. now rewrite (proj2 (Z.leb_le _ _) (proj1 H)), (proj2 (Z.ltb_lt _ _) (proj2 H)). Qed.
  Lemma with_rng_same (w w' : world S K) s : same_but_rng w w' -> with_rng w s = with_rng w' s.
  Proof. intros (E1 & E2 & E3 & E4 & E5). unfold with_rng. congruence. Qed.
  Lemma seeded_generator w w' a k os : same_but_rng w w' -> (0 <= k < 2 ^ 32)%Z ->
    run w (OGenerator a (Some k) :: os) = run w' (OGenerator a (Some k) :: os).
  Proof. intros E H. cbn [Session_Model.run Session_Model.step]. rewrite !reseed_ok by exact H. cbn [fst]. now rewrite (with_rng_same w w' (seed k) E). Qed.
  Lemma seeded_trainer w w' a qs k os st : same_but_rng w w' -> (0 <= k < 2 ^ 32)%Z -> nth_error (w_samples w) a = Some st ->
    run w (OTrainer a qs (Some k) :: os) = run w' (OTrainer a qs (Some k) :: os).
  Proof. intros E H Hs. cbn [Session_Model.run Session_Model.step]. rewrite !reseed_ok by exact H. pose proof (with_rng_same w w' (seed k) E) as Q. destruct E as (E1 & E2 & E3 & E4 & E5).
    rewrite <- E1, Hs. destruct (all_params st); cbn [fst]; [now rewrite E2, E3, E4, E5|now rewrite Q]. Qed.
  Lemma trainer_rng w w' a qs k : same_but_rng w w' -> same_but_rng (fst (step w (OTrainer a qs None))) (fst (step w' (OTrainer a qs k))) \/ (exists e, reseed seed (w_rng w') k = Raise e).
  Proof. intros E. cbn [Session_Model.step]. destruct (reseed seed (w_rng w') k) as [s|e] eqn:Es; [|eauto]. left. cbn [reseed]. destruct E as (E1 & E2 & E3 & E4 & E5). rewrite <- E1.
    destruct (nth_error (w_samples w) a) as [st|]; [|repeat split; assumption]. destruct (all_params st); repeat split; cbn; rewrite ?E2, ?E3, ?E4, ?E5; auto. Qed.
  Lemma last_seed w a qs k b qs' k' os st : (0 <= k < 2 ^ 32)%Z -> (0 <= k' < 2 ^ 32)%Z -> nth_error (w_samples w) b = Some st ->
    run w (OTrainer a qs (Some k) :: OTrainer b qs' (Some k') :: os) = run w (OTrainer a qs None :: OTrainer b qs' (Some k') :: os).
  Proof. intros H H' Hs. change (run (fst (step w (OTrainer a qs (Some k)))) (OTrainer b qs' (Some k') :: os) = run (fst (step w (OTrainer a qs None))) (OTrainer b qs' (Some k') :: os)).
    symmetry. apply seeded_trainer with (st := st); [|exact H'|].
    - assert (R : same_but_rng w w) by (repeat split). destruct (trainer_rng w w a qs (Some k) R) as [Q|[e Q]]; [exact Q|]. rewrite reseed_ok in Q by exact H. discriminate.
    - rewrite <- Hs. cbn [Session_Model.step reseed]. destruct (nth_error (w_samples w) a); [|reflexivity]. destruct (all_params s); reflexivity. Qed.
  Lemma seeded_step w a k : (0 <= k < 2 ^ 32)%Z -> fst (step w (OGenerator a (Some k))) = with_rng w (seed k).
  Proof. intros H. cbn [Session_Model.step]. rewrite reseed_ok by exact H. reflexivity. Qed.
  Lemma last_seed_labels w a b k k' n d : (0 <= k < 2 ^ 32)%Z -> (0 <= k' < 2 ^ 32)%Z ->
    draw_labels g (run w [OGenerator a (Some k); OGenerator b (Some k')]) a n d = draw_labels g (run w [OGenerator a (Some k')]) a n d.
  Proof. intros H H'. cbn [Session_Model.run]. rewrite !seeded_step by assumption. reflexivity. Qed.
  Lemma bad_seed w a k : ~ (0 <= k < 2 ^ 32)%Z -> step w (OGenerator a (Some k)) = (w, Some ValueError).
  Proof. intros H. cbn [Session_Model.step reseed]. destruct ((0 <=? k) && (k <? 2 ^ 32))%Z eqn:E; [|reflexivity]. exfalso. apply H. apply andb_prop in E. destruct E as [E1 E2]. apply Z.leb_le in E1. apply Z.ltb_lt in E2. auto. Qed.
  Lemma no_seed w a : step w (OGenerator a None) = (w, None).
  Proof. destruct w. reflexivity. Qed.
End Proofs.
