(** Properties of sessions: seeds, shared networks, shared samples (C161, C162, C163). *)
From Coq Require Import Reals Lra Lia.
From Coquelicot Require Import Complex.
From Verif Require Import Py Str Sample_Model Sample_Spec TrainedModel_Model Rng Sampling_Model Simulation_Model Arr Preproc_Model NRng Noise_Model Generator_Model Trainer_Model Network_Model Trainer_Spec TrainedModel_Spec Session_Model Session_Spec Session_Proofs.
From Verif Require Import Sample_Props Training_Props Generator_Props Network_Props.
Local Open Scope string_scope.
Local Open Scope R_scope.

Section C161.
  Context {S K : Type} (g : nrng S) (refl1d : option refl1d_fun) (rnd : R -> R) (seed : Z -> S) (fresh : nat -> nat -> K)
    (fit : K -> fit_args -> S -> S * K * option exn).
  Local Notation step := (step g refl1d rnd seed fresh fit).
  Local Notation run := (run g refl1d rnd seed fresh fit).

  (** ** C161 *)
  (** Whatever happens after a seeded generator or trainer was made does not depend on the random state before. *)
  Theorem C161_seeded_generator w w' a k os : same_but_rng w w' -> (0 <= k < 2 ^ 32)%Z ->
    run w (OGenerator a (Some k) :: os) = run w' (OGenerator a (Some k) :: os).
  Proof. exact (seeded_generator g refl1d rnd seed fresh fit w w' a k os). Qed.
  Theorem C161_seeded_trainer w w' a qs k os st : same_but_rng w w' -> (0 <= k < 2 ^ 32)%Z -> nth_error (w_samples w) a = Some st ->
    run w (OTrainer a qs (Some k) :: os) = run w' (OTrainer a qs (Some k) :: os).
  Proof. exact (seeded_trainer g refl1d rnd seed fresh fit w w' a qs k os st). Qed.
  (** Without a seed nothing is touched; a seed that numpy does not accept raises. *)
  Theorem C161_no_seed w a : step w (OGenerator a None) = (w, None).
  Proof. exact (no_seed g refl1d rnd seed fresh fit w a). Qed.
  Theorem C161_bad_seed w a k : ~ (0 <= k < 2 ^ 32)%Z -> step w (OGenerator a (Some k)) = (w, Some ValueError).
  Proof. exact (bad_seed g refl1d rnd seed fresh fit w a k). Qed.
  (** The seed belongs to the process, not to the object: the last one counts for all. *)
  Theorem C161_last_seed w a qs k b qs' k' os st : (0 <= k < 2 ^ 32)%Z -> (0 <= k' < 2 ^ 32)%Z -> nth_error (w_samples w) b = Some st ->
    run w (OTrainer a qs (Some k) :: OTrainer b qs' (Some k') :: os) = run w (OTrainer a qs None :: OTrainer b qs' (Some k') :: os).
  Proof. exact (last_seed g refl1d rnd seed fresh fit w a qs k b qs' k' os st). Qed.
  Theorem C161_last_seed_labels w a b k k' n d : (0 <= k < 2 ^ 32)%Z -> (0 <= k' < 2 ^ 32)%Z ->
    draw_labels g (run w [OGenerator a (Some k); OGenerator b (Some k')]) a n d = draw_labels g (run w [OGenerator a (Some k')]) a n d.
  Proof. exact (last_seed_labels g refl1d rnd seed fresh fit w a b k k' n d). Qed.
End C161.
Print Assumptions C161_seeded_generator.
Print Assumptions C161_seeded_trainer.
Print Assumptions C161_no_seed.
Print Assumptions C161_bad_seed.
Print Assumptions C161_last_seed.
Print Assumptions C161_last_seed_labels.

(** A film whose thickness may vary *)
Definition sx_sample : structure := mkStructure (mkLayer KAmbient "air" None None (Some (Const (Flt 0) (Some "sld"))))
  (mkLayer KSubstrate "Si" None (Some (Const (Flt 0) (Some "roughness"))) (Some (Const (Flt 2) (Some "sld"))))
  [mkLayer KLayer "film" (Some (Range (Flt 10) (Flt 20) (Some "thickness"))) (Some (Const (Flt 0) (Some "roughness"))) (Some (Const (Flt 3) (Some "sld")))].
Definition sx_labels (t : R) : Sampling_Model.cols :=
  [("film_thickness", [RtoC t]); ("Si_roughness", [RtoC 0]); ("film_roughness", [RtoC 0]); ("Si_sld", [RtoC 2]); ("film_sld", [RtoC 3]); ("air_sld", [RtoC 0])].
Lemma sx_ordinary : ordinary_sample sx_sample.
Proof. unfold ordinary_sample, substrate_layer, ambient_layer, film_layer, named. ex. Qed.
Lemma sx_draw s : exists s', generate_random_labels ex_rng s sx_sample 1 (mkDparams "uniform" 0 0) = Ok (s', sx_labels (if Nat.even s then 10 else 15)).
Proof. assert (E : label_names sx_sample = Ok (map fst (sx_labels 0))).
  { exact (C01_label_order sx_sample sx_ordinary). }
  unfold generate_random_labels. rewrite E. clear E. cbn -[Nat.even Rlt_dec Pos.to_nat]. change (Pos.to_nat 1) with 1%nat. unfold roughness_from_thickness. cbn -[Nat.even Rlt_dec].
  replace (s + 0)%nat with s by lia. unfold max_roughness.
  destruct (Nat.even s); repeat (match goal with |- context [Rlt_dec ?a ?b] => destruct (Rlt_dec a b); try lra end; cbn -[Nat.even Rlt_dec]).
  - change (Pos.to_nat 1) with 1%nat. cbn. eexists. reflexivity.
  - change (Pos.to_nat 1) with 1%nat. cbn. replace ((10 + 20) / 2) with 15 by lra. eexists. reflexivity. Qed.
Definition sx_seed (k : Z) : nat := Z.to_nat k.
Definition sx_fresh (n m : nat) : nat := 0%nat.
Definition sx_fit (k : nat) (a : fit_args) (s : nat) : nat * nat * option exn := (s, Datatypes.S k, None).
Local Notation sx_run := (run ex_nrng (Some wx_flat) (fun x => x) sx_seed sx_fresh sx_fit).
Local Notation sx_step := (step ex_nrng (Some wx_flat) (fun x => x) sx_seed sx_fresh sx_fit).

(** The labels that a generator draws do not only depend on its own seed. *)
Theorem C161_own_seed_refuted : exists (w : world nat nat) a b k k' n d s1 s2 t1 t2, (0 <= k < 2 ^ 32)%Z /\ (0 <= k' < 2 ^ 32)%Z /\
  draw_labels ex_nrng (sx_run w [OGenerator a (Some k)]) a n d = Ok (s1, t1) /\
  draw_labels ex_nrng (sx_run w [OGenerator a (Some k); OGenerator b (Some k')]) a n d = Ok (s2, t2) /\ t1 <> t2.
Proof. destruct (sx_draw 0) as [s1 E1], (sx_draw 1) as [s2 E2]. exists (sx_run (start 7%nat) [OSample sx_sample]), 0%nat, 0%nat, 0%Z, 1%Z, 1%Z, (mkDparams "uniform" 0 0), s1, s2. do 2 eexists.
  split; [lia|]. split; [lia|]. split; [exact E1|]. split; [exact E2|]. cbn. intros H. injection H as H. lra. Qed.
Print Assumptions C161_own_seed_refuted.
Example C161_example : same_but_rng (sx_run (start 7%nat) [OSample sx_sample]) (sx_run (start 8%nat) [OSample sx_sample]) /\
  sx_run (start 7%nat) [OSample sx_sample] <> sx_run (start 8%nat) [OSample sx_sample] /\
  exists s, draw_labels ex_nrng (sx_run (start 7%nat) [OSample sx_sample; OGenerator 0 (Some 3%Z)]) 0 1 (mkDparams "uniform" 0 0) = Ok (s, sx_labels 15).
Proof. split; [repeat split|]. split; [discriminate|]. exact (sx_draw 3). Qed.

Section C162.
  Context {S K : Type} (g : nrng S) (refl1d : option refl1d_fun) (rnd : R -> R) (seed : Z -> S) (fresh : nat -> nat -> K)
    (fit : K -> fit_args -> S -> S * K * option exn).
  Local Notation step := (step g refl1d rnd seed fresh fit).
  Local Notation run := (run g refl1d rnd seed fresh fit).

  (** ** C162 *)
  (** Training returns a new model, which shares the network of its trainer. *)
  Theorem C162_new_model w t e b vb v w1 : step w (OTrain t e b vb v) = (w1, None) ->
    exists c tm, w_models w1 = (w_models w ++ [c])%list /\ shares_network w1 t c /\ view w1 c = Ok tm.
  Proof. exact (train_new_model g refl1d rnd seed fresh fit w t e b vb v w1). Qed.
  (** A trained model keeps its contents unless a trainer with its network trains again or its sample is changed. *)
  Theorem C162_kept s os os' m c : Forall proper os -> Forall proper os' -> nth_error (w_models (run (start s) os)) m = Some c ->
    (forall t, shares_network (run (start s) os) t c -> Forall (fun o => ~ trains t o) os') -> Forall (spares (cm_sample c)) os' ->
    nth_error (w_models (run (run (start s) os) os')) m = Some c /\ view (run (run (start s) os) os') c = view (run (start s) os) c.
  Proof. exact (model_kept g refl1d rnd seed fresh fit s os os' m c). Qed.
  (** At most one trainer shares the network of a model. *)
  Theorem C162_one_trainer s os t t' c : Forall proper os -> shares_network (run (start s) os) t c -> shares_network (run (start s) os) t' c -> t = t'.
  Proof. intros P (a & Ha & Ea) (b & Hb & Eb). apply (s_distinct _ (reach_sound g refl1d rnd seed fresh fit os s P) t t' a b Ha Hb). congruence. Qed.
  (** If its trainer trains again, the network of an earlier model is trained on, while its mean and standard deviation stay. *)
  Theorem C162_trained_again w t c tm e b vb v w' : shares_network w t c -> view w c = Ok tm -> step w (OTrain t e b vb v) = (w', None) ->
    exists a s s' k' c', fit (tm_keras tm) a s = (s', k', None) /\ w_models w' = (w_models w ++ [c'])%list /\
      view w' c = Ok (mkTM (tm_sample tm) k' (tm_q tm) (tm_mean tm) (tm_std tm)) /\ cm_net c' = cm_net c.
  Proof. exact (trained_again g refl1d rnd seed fresh fit w t c tm e b vb v w'). Qed.

  (** ** C163 *)
  (** A model that was saved can be loaded as it was when it was saved, whatever happens in between: the loaded model has its own
      network and its own sample. *)
  Theorem C163_save_load w m c tm p os : nth_error (w_models w) m = Some c -> view w c = Ok tm -> storable_sample (tm_sample tm) -> ~ has_flat_complex (tm_sample tm) ->
    Forall (fun o => ~ writes p o) os ->
    exists w1 w' c' tm', step w (OSave m p) = (w1, None) /\ step (run w1 os) (OLoad p) = (w', None) /\ w_models w' = (w_models (run w1 os) ++ [c'])%list /\ view w' c' = Ok tm' /\
      tm_keras tm' = tm_keras tm /\ tm_q tm' = tm_q tm /\ tm_mean tm' = tm_mean tm /\ tm_std tm' = tm_std tm /\ same_sample (tm_sample tm) (tm_sample tm') /\ label_names (tm_sample tm') = label_names (tm_sample tm).
  Proof. exact (save_load_session g refl1d rnd seed fresh fit w m c tm p os). Qed.
  (** A loaded model is independent of all trainers. *)
  Theorem C163_loaded_kept s os p w os' : Forall proper os -> Forall proper os' -> step (run (start s) os) (OLoad p) = (w, None) ->
    exists c, w_models w = (w_models (run (start s) os) ++ [c])%list /\
      (Forall (spares (cm_sample c)) os' -> view (run w os') c = view w c).
  Proof. exact (loaded_kept g refl1d rnd seed fresh fit s os p w os'). Qed.
End C162.
Print Assumptions C162_new_model.
Print Assumptions C162_kept.
Print Assumptions C162_one_trainer.
Print Assumptions C162_trained_again.
Print Assumptions C163_save_load.
Print Assumptions C163_loaded_kept.

Definition sx_script : list (op nat) := [OSample ex_sample; OTrainer 0 [1/10] None; OGenerate 0 2; OTrain 0 175 1 1 (1/2)].
Lemma sx_proper : Forall proper sx_script.
Proof. repeat constructor. Qed.
Lemma sx_trained : exists w c tm w', w = sx_run (start 0%nat) sx_script /\ w_models w = [c] /\ view w c = Ok tm /\ tm_keras tm = 1%nat /\ tm_sample tm = ex_sample /\
  shares_network w 0 c /\ w_samples w = [ex_sample] /\ cm_sample c = 0%nat /\ sx_step w (OTrain 0 175 1 1 (1/2)) = (w', None).
Proof. destruct wx_generated as (s1 & t1 & Eg).
  destruct (C43_generated_data nat ex_nrng ex_nrng_ok (Some wx_flat) 0%nat (mkTrainer ex_sample [1/10] None None) 2 s1 t1 ex_named) as (names & rows & f & mean & std & _ & Hd & L & Es & Eq & _ & Ei); [discriminate|exact Eg|].
  cbn [tr_sample tr_q] in *. change (Z.to_nat 2) with 2%nat in L.
  assert (G : forall s, exists r, prepare_generators ex_nrng (fun x => x) s t1 1 (1/2) = Ok r).
  { intros s. apply (C92_batch_size nat ex_nrng (fun x => x) s t1 names _ rows f 1 (1/2) Hd); [repeat split; auto|lra|]. rewrite L, ex_half. split; discriminate. }
  assert (Et : mkTrainer ex_sample [1/10] (tr_data t1) (tr_ip t1) = t1) by (destruct t1; cbn in *; congruence).
  assert (T : forall s k ms fl, exists s', sx_step (mkWorld s [ex_sample] [k] [mkCtr 0 0 [1/10] (tr_data t1) (tr_ip t1)] ms fl) (OTrain 0 175 1 1 (1/2)) =
    (mkWorld s' [ex_sample] [Datatypes.S k] [mkCtr 0 0 [1/10] (tr_data t1) (tr_ip t1)] (ms ++ [mkCm 0 0 [Some (1/10)] mean std])%list fl, None)).
  { intros s k ms fl. cbn [Session_Model.step w_trainers nth_error look ct_sample ct_net ct_q ct_data ct_ip w_samples w_nets]. rewrite Et. unfold do_train. cbn [w_rng].
    destruct (G s) as [[s2 [h [gt gv]]] ->]. unfold sx_fit. cbv zeta. rewrite Ei. cbn [ip_mean ip_std w_samples w_nets w_trainers w_models w_files ct_net ct_sample ct_q put map]. eexists. reflexivity. }
  assert (W : exists s' fl, sx_run (start 0%nat) sx_script = mkWorld s' [ex_sample] [1%nat] [mkCtr 0 0 [1/10] (tr_data t1) (tr_ip t1)] [mkCm 0 0 [Some (1/10)] mean std] fl).
  { destruct (T s1 0%nat [] (fun _ => None)) as [s' Es']. exists s', (fun _ => None). unfold sx_script, start. cbn [Session_Model.run].
    replace (sx_step _ (OSample ex_sample)) with (mkWorld 0%nat [ex_sample] ([] : list nat) [] [] (fun _ => None), @None exn) by reflexivity. cbn [fst].
    replace (sx_step _ (OTrainer 0 [1/10] None)) with (mkWorld 0%nat [ex_sample] [0%nat] [mkCtr 0 0 [1/10] None None] [] (fun _ => None), @None exn)
      by (cbn [Session_Model.step reseed w_samples nth_error]; rewrite ex_all_params; reflexivity). cbn [fst].
    replace (sx_step _ (OGenerate 0 2)) with (mkWorld s1 [ex_sample] [0%nat] [mkCtr 0 0 [1/10] (tr_data t1) (tr_ip t1)] [] (fun _ => None), @None exn)
      by (cbn [Session_Model.step w_trainers nth_error look ct_sample ct_net ct_q ct_data ct_ip w_samples w_rng]; rewrite Eg; reflexivity). cbn [fst].
    rewrite Es'. reflexivity. }
  destruct W as (s' & fl & W). destruct (T s' 1%nat [mkCm 0 0 [Some (1/10)] mean std] fl) as [s2 E2].
  eexists _, _, _, _. split; [reflexivity|]. rewrite W. split; [reflexivity|]. split; [reflexivity|]. split; [reflexivity|]. split; [reflexivity|]. split; [eexists; split; reflexivity|].
  split; [reflexivity|]. split; [reflexivity|]. exact E2. Qed.

(** The network of a trained model changes when its trainer trains again. *)
Theorem C162_retraining_refuted : exists os o c tm tm', Forall proper (os ++ [o]) /\ nth_error (w_models (sx_run (start 0%nat) os)) 0 = Some c /\ trains 0 o /\
  view (sx_run (start 0%nat) os) c = Ok tm /\ view (sx_run (start 0%nat) (os ++ [o])) c = Ok tm' /\ tm_keras tm' <> tm_keras tm /\ tm_mean tm' = tm_mean tm /\ tm_std tm' = tm_std tm.
Proof. destruct sx_trained as (w & c & tm & w' & Ew & Em & V & K & _ & Sh & _ & _ & T).
  destruct (C162_trained_again ex_nrng (Some wx_flat) (fun x => x) sx_seed sx_fresh sx_fit w 0 c tm 175 1 1 (1/2) w' Sh V T) as (a & s & s' & k' & c' & F & _ & V' & _).
  exists sx_script, (OTrain 0 175 1 1 (1/2)), c, tm. eexists. split; [repeat constructor|]. rewrite <- Ew, Em. split; [reflexivity|]. split; [reflexivity|]. split; [exact V|].
  split; [rewrite run_app, <- Ew; cbn [Session_Model.run]; rewrite T; exact V'|]. cbn [tm_keras tm_mean tm_std]. split; [|auto]. unfold sx_fit in F. injection F as _ <- . rewrite K. discriminate. Qed.
Print Assumptions C162_retraining_refuted.
Example C162_example : exists c tm, Forall proper sx_script /\ w_models (sx_run (start 0%nat) sx_script) = [c] /\ shares_network (sx_run (start 0%nat) sx_script) 0 c /\
  view (sx_run (start 0%nat) sx_script) c = Ok tm /\ Forall (fun o => ~ trains 0 o) [OTrainer 0 [1/10; 2/10] (Some 5%Z); OTrain 1 175 1 1 (1/2) : op nat].
Proof. destruct sx_trained as (w & c & tm & w' & Ew & Em & V & _ & _ & Sh & _). rewrite <- Ew. exists c, tm. split; [exact sx_proper|]. split; [exact Em|]. split; [exact Sh|]. split; [exact V|]. apply Forall_cons; [intros H; exact H|]. apply Forall_cons; [intros H; discriminate H|constructor]. Qed.

(** The sample of a trained model changes with the sample that the trainer was given. *)
Theorem C163_sample_refuted : exists os f c tm tm' names names', Forall proper (os ++ [OEdit f]) /\ nth_error (w_models (sx_run (start 0%nat) os)) 0 = Some c /\
  view (sx_run (start 0%nat) os) c = Ok tm /\ view (sx_run (start 0%nat) (os ++ [OEdit f])) c = Ok tm' /\
  label_names (tm_sample tm) = Ok names /\ label_names (tm_sample tm') = Ok names' /\ names <> names' /\ tm_keras tm' = tm_keras tm.
Proof. destruct sx_trained as (w & c & tm & w' & Ew & Em & V & K & Es & Sh & Ws & Ec & T).
  assert (N : exists k, nth_error (w_nets w) (cm_net c) = Some k /\ tm = mkTM ex_sample k (cm_q c) (cm_mean c) (cm_std c)).
  { unfold view in V. rewrite Ws, Ec in V. cbn [nth_error] in V. destruct (nth_error (w_nets w) (cm_net c)) as [k|]; [|discriminate]. injection V as <-. eauto. }
  destruct N as (k & Ek & ->).
  exists sx_script, (map (fun _ => sx_sample)), c. do 4 eexists. split; [repeat constructor; intros l; apply map_length|]. rewrite <- Ew, Em. split; [reflexivity|]. split; [exact V|].
  split. { rewrite run_app, <- Ew. cbn [Session_Model.run Session_Model.step fst]. unfold view. cbn [w_samples w_nets]. rewrite Ws, Ec, Ek. reflexivity. }
  split; [exact ex_label_names|]. split; [exact (C01_label_order sx_sample sx_ordinary)|]. split; [discriminate|reflexivity]. Qed.
Print Assumptions C163_sample_refuted.
Example C163_example : exists c tm, w_models (sx_run (start 0%nat) sx_script) = [c] /\ view (sx_run (start 0%nat) sx_script) c = Ok tm /\ storable_sample (tm_sample tm) /\ ~ has_flat_complex (tm_sample tm).
Proof. destruct sx_trained as (w & c & tm & w' & Ew & Em & V & K & Es & _). rewrite <- Ew. exists c, tm. split; [exact Em|]. split; [exact V|]. rewrite Es. exact C05_example. Qed.
