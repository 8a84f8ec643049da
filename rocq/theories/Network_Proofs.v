(** Proofs about networks. *)
From Coq Require Import Reals Lra.
From Coquelicot Require Import Complex.
From Verif Require Import Py Str Cplx Sample_Model Sample_Spec TrainedModel_Model Rng Sampling_Model Simulation_Model Arr Preproc_Model Preproc_Spec OutPreproc_Proofs
  Sample_Proofs Labels_Proofs Simulation_Spec NRng Noise_Model Generator_Model Trainer_Model Trainer_Spec Trainer_Proofs Fitter_Model Fitter_Spec Fitter_Proofs Network_Model Network_Spec.
Local Open Scope R_scope.

(** ** Shapes *)
Fixpoint out_size (n : nat) (specs : list layer_spec) : nat :=
  match specs with [] => n | DenseUnits k :: specs => out_size k specs | ReluUnits :: specs => out_size n specs end.
Lemma forward_length specs : forall n net x, built n specs net -> List.length x = n -> List.length (forward net x) = out_size n specs.
Proof. induction specs as [|[k|] specs IH]; intros n net x H L; destruct net as [|[us|] net]; try (destruct H; fail); try exact L.
  - destruct H as (Lu & _ & H). cbn [forward fold_left out_size]. apply (IH k net); [exact H|]. cbn [layer_output]. rewrite map_length. exact Lu.
  - cbn [forward fold_left out_size]. apply (IH n net); [exact H|]. cbn [layer_output]. rewrite map_length. exact L. Qed.

Lemma built_inputs k n specs net : built n (DenseUnits (Datatypes.S k) :: specs) net -> n_inputs net = Some n.
Proof. destruct net as [|[us|] net]; try (intros []; fail). intros (L & F & _). destruct us as [|[w b] us]; [discriminate|]. cbn. inversion F; subst. reflexivity. Qed.
Lemma predict_built k n specs net rows : built n (DenseUnits (Datatypes.S k) :: specs) net -> rows <> [] ->
  predict net rows = if forallb (fun r => Nat.eqb (List.length r) n) rows then Ok (map (forward net) rows) else Raise ValueError.
Proof. intros H Hr. unfold predict. rewrite (built_inputs k n specs net H). destruct rows; [congruence|reflexivity]. Qed.
Lemma widths (n : nat) (rows : list (list fl)) : Forall (fun r => List.length r = n) rows -> forallb (fun r => Nat.eqb (List.length r) n) rows = true.
Proof. intros F. apply forallb_forall. intros r Hr. apply Nat.eqb_eq. rewrite Forall_forall in F. apply F. exact Hr. Qed.

Lemma prepare_first m : exists specs, prepare_model m = DenseUnits 500 :: specs.
Proof. eexists. reflexivity. Qed.
Lemma prepare_out n m : out_size n (prepare_model m) = m.
Proof. reflexivity. Qed.
Lemma simple_out n m : out_size n (simple_model m) = m.
Proof. reflexivity. Qed.

Lemma predict_prepared n m net rows : built n (prepare_model m) net -> rows <> [] -> Forall (fun r => List.length r = n) rows ->
  predict net rows = Ok (map (forward net) rows) /\ Forall (fun r => List.length r = m) (map (forward net) rows).
Proof. intros H Hr F. destruct (prepare_first m) as (specs & E). pose proof H as H0. rewrite E in H0. split.
  - rewrite (predict_built 499 n specs net rows H0 Hr). now rewrite (widths n rows F).
  - apply Forall_map. eapply Forall_impl; [|exact F]. cbn beta. intros r Hl. rewrite (forward_length _ n net r H Hl). apply prepare_out. Qed.
Lemma predict_wrong n m net rows : built n (prepare_model m) net -> ~ Forall (fun r => List.length r = n) rows -> predict net rows = Raise ValueError.
Proof. intros H F. destruct (prepare_first m) as (specs & E). rewrite E in H.
  assert (Hr : rows <> []) by (intros ->; apply F; constructor).
  rewrite (predict_built 499 n specs net rows H Hr). destruct (forallb _ rows) eqn:Ef; [|reflexivity].
  exfalso. apply F. apply Forall_forall. intros r Hi. rewrite forallb_forall in Ef. specialize (Ef r Hi). now apply Nat.eqb_eq in Ef. Qed.

(** ** Signs *)
Lemma relu_nonneg (l : list fl) : Forall (fun y => forall v, y = Some v -> 0 <= v) (map relu l).
Proof. apply Forall_map. apply Forall_forall. intros [x|] _ v; cbn; intros E; [injection E as <-; apply Rmax_l|discriminate]. Qed.
Lemma forward_snoc net l x : forward (net ++ [l])%list x = layer_output l (forward net x).
Proof. unfold forward. now rewrite fold_left_app. Qed.
Lemma built_snoc specs : forall n net, built n (specs ++ [ReluUnits])%list net -> exists net', net = (net' ++ [Relu])%list.
Proof. induction specs as [|[k|] specs IH]; intros n net H; cbn [app] in H; destruct net as [|[us|] net]; try (destruct H; fail).
  - cbn in H. destruct net; [exists []; reflexivity|destruct H].
  - destruct H as (_ & _ & H). destruct (IH _ _ H) as (net' & ->). exists (Dense us :: net'). reflexivity.
  - destruct (IH _ _ H) as (net' & ->). exists (Relu :: net'). reflexivity. Qed.
Lemma simple_nonneg n m net x : built n (simple_model m) net -> Forall (fun y => forall v, y = Some v -> 0 <= v) (forward net x).
Proof. intros H. destruct (built_snoc [DenseUnits 400; ReluUnits; DenseUnits 800; ReluUnits; DenseUnits 400; ReluUnits; DenseUnits 300; ReluUnits;
   DenseUnits 200; ReluUnits; DenseUnits 100; ReluUnits; DenseUnits m] n net H) as (net' & ->). rewrite forward_snoc. apply relu_nonneg. Qed.

(** ** Finite values *)
Definition relu_R (x : R) : R := Rmax 0 x.
Definition unit_R (xs : list R) (u : list R * R) : R := fold_right Rplus 0 (map (fun xw => fst xw * snd xw) (combine xs (fst u))) + snd u.
Definition layer_R (l : layer) (xs : list R) : list R := match l with Dense us => map (unit_R xs) us | Relu => map relu_R xs end.
Definition forward_R (net : network) (xs : list R) : list R := fold_left (fun x l => layer_R l x) net xs.
Lemma dot_finite xs w : dot (map Some xs) w = Some (fold_right Rplus 0 (map (fun xw => fst xw * snd xw) (combine xs w))).
Proof. revert w. induction xs as [|x xs IH]; intros [|v w]; try reflexivity. cbn. unfold dot in IH. cbn in IH.
  unfold fsum in IH. rewrite IH. reflexivity. Qed.
Lemma layer_finite l xs : layer_output l (map Some xs) = map Some (layer_R l xs).
Proof. destruct l as [us|]; cbn [layer_output layer_R]; rewrite !map_map; apply map_ext; intros a; [|reflexivity].
  unfold unit_output. rewrite dot_finite. reflexivity. Qed.
Lemma forward_finite net : forall xs, forward net (map Some xs) = map Some (forward_R net xs).
Proof. induction net as [|l net IH]; intros xs; [reflexivity|]. unfold forward, forward_R. cbn [fold_left]. rewrite layer_finite. apply IH. Qed.

(** ** Sensitivity *)
Lemma unit_gain_nonneg u : 0 <= unit_gain u.
Proof. unfold unit_gain. induction (fst u) as [|w l IH]; cbn; [lra|]. pose proof (Rabs_pos w). lra. Qed.
Lemma layer_gain_nonneg l : 0 <= layer_gain l.
Proof. destruct l as [us|]; cbn; [|lra]. induction us as [|u us IH]; cbn; [lra|]. eapply Rle_trans; [apply unit_gain_nonneg|apply Rmax_l]. Qed.
Lemma gain_nonneg net : 0 <= gain net.
Proof. induction net as [|l net IH]; cbn; [lra|]. apply Rmult_le_pos; [apply layer_gain_nonneg|exact IH]. Qed.
Lemma dot_close e (E : 0 <= e) w : forall xs ys, close e xs ys ->
  Rabs (fold_right Rplus 0 (map (fun xw => fst xw * snd xw) (combine xs w)) - fold_right Rplus 0 (map (fun xw => fst xw * snd xw) (combine ys w)))
  <= fold_right (fun v acc => Rabs v + acc) 0 w * e.
Proof. induction w as [|v w IH]; intros xs ys H.
  - destruct xs, ys; cbn; rewrite Rminus_0_r, Rabs_R0; lra.
  - destruct H as [|x y xs ys Hxy H]; cbn.
    + rewrite Rminus_0_r, Rabs_R0. apply Rmult_le_pos; [|exact E]. clear. pose proof (unit_gain_nonneg (v :: w, 0)) as P. exact P.
    + specialize (IH xs ys H). match goal with |- Rabs (?a * v + ?b - (?c * v + ?d)) <= _ => replace (a * v + b - (c * v + d)) with ((a - c) * v + (b - d)) by ring end.
      eapply Rle_trans; [apply Rabs_triang|]. rewrite Rmult_plus_distr_r. apply Rplus_le_compat; [|exact IH].
      rewrite Rabs_mult, Rmult_comm. apply Rmult_le_compat_l; [apply Rabs_pos|exact Hxy]. Qed.
Lemma layer_close l e xs ys : 0 <= e -> close e xs ys -> close (layer_gain l * e) (layer_R l xs) (layer_R l ys).
Proof. intros E H. destruct l as [us|]; cbn [layer_R].
  - enough (B : forall b, layer_gain (Dense us) <= b -> close (b * e) (map (unit_R xs) us) (map (unit_R ys) us)) by (apply B; lra).
    induction us as [|u us IH]; intros b Hb; [constructor|]. cbn in Hb. cbn [map]. constructor.
    + unfold unit_R. match goal with |- Rabs (?a + ?c - (?b + ?c)) <= _ => replace (a + c - (b + c)) with (a - b) by ring end.
      eapply Rle_trans; [apply dot_close; eassumption|]. apply Rmult_le_compat_r; [exact E|]. eapply Rle_trans; [|exact Hb]. apply Rmax_l.
    + apply IH. eapply Rle_trans; [|exact Hb]. apply Rmax_r.
  - cbn [layer_gain]. rewrite Rmult_1_l. induction H as [|x y xs ys Hxy H IH]; constructor; [|exact IH].
    eapply Rle_trans; [|exact Hxy]. unfold relu_R, Rmax. destruct (Rle_dec 0 x), (Rle_dec 0 y); unfold Rabs; repeat destruct (Rcase_abs _); lra. Qed.
Lemma forward_close net : forall e xs ys, 0 <= e -> close e xs ys -> close (gain net * e) (forward_R net xs) (forward_R net ys).
Proof. induction net as [|l net IH]; intros e xs ys E H; cbn [gain fold_right]; [now rewrite Rmult_1_l|].
  unfold forward_R. cbn [fold_left]. specialize (IH (layer_gain l * e) (layer_R l xs) (layer_R l ys)).
  replace (layer_gain l * _ * e) with (gain net * (layer_gain l * e)) by (unfold gain; ring). apply IH; [|apply layer_close; assumption].
  apply Rmult_le_pos; [apply layer_gain_nonneg|exact E]. Qed.

Lemma sensitivity net e xs ys : 0 <= e -> close e xs ys ->
  exists us vs, forward net (map Some xs) = map Some us /\ forward net (map Some ys) = map Some vs /\ close (gain net * e) us vs.
Proof. intros E H. exists (forward_R net xs), (forward_R net ys). split; [apply forward_finite|]. split; [apply forward_finite|]. apply forward_close; assumption. Qed.

Lemma predict_close net e xs ys rows rows' : 0 <= e -> close e xs ys -> predict net [map Some xs] = Ok rows -> predict net [map Some ys] = Ok rows' ->
  exists us vs, rows = [map Some us] /\ rows' = [map Some vs] /\ close (gain net * e) us vs.
Proof. intros E H P P'. assert (I : forall r out, predict net [r] = Ok out -> out = [forward net r]).
  { intros r out Q. unfold predict in Q. destruct (forallb _ _); [|discriminate]. now injection Q. }
  apply I in P. apply I in P'. subst. exists (forward_R net xs), (forward_R net ys). rewrite !forward_finite. split; [reflexivity|]. split; [reflexivity|]. apply forward_close; assumption. Qed.

(** ** Reachable outputs *)
Definition zeros (n k : nat) : layer := Dense (repeat (repeat 0 n, 0) k).
Definition constant_layer (n : nat) (ys : list R) : layer := Dense (map (fun y => (repeat 0 n, y)) ys).
Lemma dot_zeros n : forall xs, fold_right Rplus 0 (map (fun xw => fst xw * snd xw) (combine xs (repeat 0 n))) = 0.
Proof. induction n as [|n IH]; intros [|x xs]; cbn; try reflexivity. rewrite IH. ring. Qed.
Lemma constant_output n ys xs : layer_R (constant_layer n ys) xs = ys.
Proof. cbn [constant_layer layer_R]. rewrite map_map. rewrite <- (map_id ys) at 2. apply map_ext. intros y. unfold unit_R. cbn [fst snd]. rewrite dot_zeros. ring. Qed.
Definition constant_net (n : nat) (ys : list R) : network := [zeros n 500; Relu; zeros 500 500; Relu; zeros 500 500; Relu; constant_layer 500 ys].
Lemma zeros_built n k : List.length (repeat (repeat 0 n, 0) k) = k /\ Forall (fun u : list R * R => List.length (fst u) = n) (repeat (repeat 0 n, 0) k).
Proof. split; [apply repeat_length|]. apply Forall_forall. intros u Hu. apply repeat_spec in Hu as ->. apply repeat_length. Qed.
Lemma built_zeros n k specs net : built k specs net -> built n (DenseUnits k :: specs) (zeros n k :: net).
Proof. intros H. exact (conj (proj1 (zeros_built n k)) (conj (proj2 (zeros_built n k)) H)). Qed.
Lemma built_constant n ys : built n [DenseUnits (List.length ys)] [constant_layer n ys].
Proof. refine (conj (map_length _ _) (conj _ I)). apply Forall_map. apply Forall_forall. intros y _. exact (repeat_length 0 n). Qed.
Lemma built_relu n specs net : built n specs net -> built n (ReluUnits :: specs) (Relu :: net).
Proof. intros H. exact H. Qed.
Lemma constant_net_built n ys : built n (prepare_model (List.length ys)) (constant_net n ys).
Proof. refine (built_zeros n 500 _ _ (built_relu 500 _ _ (built_zeros 500 500 _ _ (built_relu 500 _ _ (built_zeros 500 500 _ _ (built_relu 500 _ _ (built_constant 500 ys))))))). Qed.
Lemma constant_net_output n ys xs : forward (constant_net n ys) (map Some xs) = map Some ys.
Proof. rewrite forward_finite. unfold constant_net, forward_R. cbn [fold_left]. now rewrite constant_output. Qed.

(** the same for a SimpleModel *)
Definition simple_net (n : nat) (ys : list R) : network :=
  [zeros n 400; Relu; zeros 400 800; Relu; zeros 800 400; Relu; zeros 400 300; Relu; zeros 300 200; Relu; zeros 200 100; Relu; constant_layer 100 ys; Relu].
Lemma built_constant_relu n ys : built n [DenseUnits (List.length ys); ReluUnits] [constant_layer n ys; Relu].
Proof. destruct (built_constant n ys) as (A & B & _). exact (conj A (conj B I)). Qed.
Lemma simple_net_built n ys : built n (simple_model (List.length ys)) (simple_net n ys).
Proof. refine (built_zeros n 400 _ _ (built_relu 400 _ _ (built_zeros 400 800 _ _ (built_relu 800 _ _ (built_zeros 800 400 _ _ (built_relu 400 _ _
  (built_zeros 400 300 _ _ (built_relu 300 _ _ (built_zeros 300 200 _ _ (built_relu 200 _ _ (built_zeros 200 100 _ _ (built_relu 100 _ _ (built_constant_relu 100 ys))))))))))))). Qed.
Lemma simple_net_output n ys xs : Forall (fun y => 0 <= y) ys -> forward (simple_net n ys) (map Some xs) = map Some ys.
Proof. intros F. rewrite forward_finite. f_equal. unfold simple_net, forward_R. cbn [fold_left]. rewrite constant_output. cbn [layer_R].
  induction F as [|y ys Hy F IH]; [reflexivity|]. cbn [map]. f_equal; [apply Rmax_right; exact Hy|exact IH]. Qed.
Lemma simple_predicts n ys rows : Forall (fun y => 0 <= y) ys -> rows <> [] -> Forall (fun xs => List.length xs = n) rows ->
  predict (simple_net n ys) (map (map Some) rows) = Ok (map (fun _ => map Some ys) rows).
Proof. intros F Hr W. rewrite (predict_built 399 n _ _ _ (simple_net_built n ys)) by (destruct rows; [congruence|discriminate]).
  rewrite widths; [|apply Forall_map; eapply Forall_impl; [|exact W]; intros r H; now rewrite map_length]. rewrite map_map. f_equal. apply map_ext. intros xs. apply simple_net_output. exact F. Qed.
Lemma constant_predicts n ys rows : rows <> [] -> Forall (fun xs => List.length xs = n) rows ->
  predict (constant_net n ys) (map (map Some) rows) = Ok (map (fun _ => map Some ys) rows).
Proof. intros Hr W. rewrite (predict_built 499 n _ _ _ (constant_net_built n ys)) by (destruct rows; [congruence|discriminate]).
  rewrite widths; [|apply Forall_map; eapply Forall_impl; [|exact W]; intros r H; now rewrite map_length]. rewrite map_map. f_equal. apply map_ext. intros xs. apply constant_net_output. Qed.

(** ** From training to fitting *)
Section Pipeline.
  Context {S : Type} (g : nrng S) (Hg : nrng_ok g) (refl1d : option refl1d_fun) (rnd : R -> R).

  Lemma uniform_noise_width s m rows lo hi : exists s' rows', apply_uniform_noise g s (A2 m rows) lo hi = (s', A2 m rows').
  Proof. unfold apply_uniform_noise. destruct (rng_uniform _ _ _ _ _) as [s' us]. eauto. Qed.
  Lemma scaling_width s m rows lo hi s' k rows' : apply_scaling_factor g s (A2 m rows) lo hi = (s', A2 k rows') -> k = m.
  Proof. unfold apply_scaling_factor. destruct (rng_uniform _ _ _ _ _) as [s1 ks].
    destruct (map _ (combine rows ks)) as [|r [|r' rs]]; intros H; try discriminate; injection H as _ <- _; reflexivity. Qed.
  Lemma prepare_ip_width s m rows s' mean std : prepare_ip g s (A2 m rows) = (s', Ok (mkIp (Some mean) (Some std))) -> List.length mean = m /\ List.length std = m.
  Proof. unfold prepare_ip. destruct (uniform_noise_width s m rows (fst noise_range) (snd noise_range)) as (s1 & rows1 & E). rewrite E. clear E.
    destruct (apply_scaling_factor g s1 (A2 m rows1) _ _) as [s2 [v|k rows2]] eqn:E; [discriminate|]. apply scaling_width in E. subst k.
    unfold standardize. cbn [ip_new ip_mean ip_std]. rewrite row_op_A2 by apply length_by_column.
    destruct (existsb is_zero _); [discriminate|]. destruct (row_op fdiv _ _); [|discriminate]. cbn [bind]. intros H. injection H as _ <- <-.
    split; apply length_by_column. Qed.
  Lemma generated_width s t n s' t' mean std : generate_training_data g refl1d s t n = (s', t', None) -> tr_ip t' = Some (mkIp (Some mean) (Some std)) ->
    tr_sample t' = tr_sample t /\ tr_q t' = tr_q t /\ List.length mean = List.length (tr_q t) /\ List.length std = List.length (tr_q t).
  Proof. unfold generate_training_data.
    destruct (generate_random_labels (nr_g g) s (tr_sample t) n _) as [[s1 labels]|e] eqn:El; [|discriminate].
    destruct (simulate_reflectivity (nr_g g) refl1d s1 (tr_q t) labels (SNum 0) "refl1d") as [[s2 rows]|e] eqn:Es; [|discriminate].
    destruct (prepare_ip g s2 (A2 (List.length (tr_q t)) rows)) as [s3 [ip|e]] eqn:Ei; [|discriminate]. intros H. injection H as <- <-. cbn [tr_ip tr_sample tr_q].
    intros H. injection H as ->. apply prepare_ip_width in Ei. tauto. Qed.

  Lemma trained_network fit net s t e bs verbose v s' tm specs n : built n specs net -> keeps_layers fit -> train g rnd fit net s t e bs verbose v = Ok (s', tm) ->
    built n specs (tm_keras tm).
  Proof. intros B K. unfold train. destruct (prepare_generators g rnd s t bs v) as [[s1 [h [gt gv]]]|]; [|discriminate]. cbn [bind].
    destruct (fit net _ s1) as [[s2 k]|] eqn:E; [|discriminate]. cbn [bind]. destruct (tr_ip t) as [ip|]; [|discriminate].
    destruct (ip_mean ip) as [mean|]; [|discriminate]. destruct (ip_std ip) as [std|]; [|discriminate]. intros H. injection H as <- <-. cbn [tm_keras].
    eapply K; eauto. Qed.

  Lemma map_Some_inj (a b : list R) : map Some a = map (@Some R) b -> a = b.
  Proof. revert b. induction a as [|x a IH]; intros [|y b] H; try discriminate; [reflexivity|]. injection H as -> H. f_equal. apply IH. exact H. Qed.

  Lemma network_contract net n k m names : built n (prepare_model k) net -> nn_q m <> [] -> List.length (nn_q m) = n -> List.length (nn_mean m) = n -> List.length (nn_std m) = n ->
    label_names (nn_sample m) = Ok names -> variable_count (nn_sample m) k -> nn_out m = k -> nn_predict m = predict net -> network_ok m names /\ network_rowwise m.
  Proof. intros B Hq Lq Lm Ls En Hk Ek Ep. split.
    - split; [exact Hq|]. split; [congruence|]. split; [congruence|]. split; [exact En|]. split; [rewrite Ek; exact Hk|].
      intros rows Hr F. rewrite Lq in F. destruct (predict_prepared n k net rows B Hr F) as [E W]. exists (map (forward net) rows). rewrite Ep, Ek. split; [exact E|]. split; [apply map_length|exact W].
    - exists (forward net). intros rows Hr F. rewrite Lq in F. rewrite Ep. exact (proj1 (predict_prepared n k net rows B Hr F)). Qed.

  Lemma pipeline (fit : network -> fit_args -> S -> res (S * network)) net smp qs t0 s n s1 t1 s2 e bs verbose v s3 tm k m :
    named_sample smp -> qs <> [] -> keeps_layers fit -> variable_count smp k -> built (List.length qs) (prepare_model k) net ->
    trainer_new smp qs = Ok t0 -> generate_training_data g refl1d s t0 n = (s1, t1, None) -> train g rnd fit net s2 t1 e bs verbose v = Ok (s3, tm) -> fitter_for tm k m ->
    exists names, label_names smp = Ok names /\ nn_sample m = smp /\ nn_q m = qs /\ network_ok m names /\ network_rowwise m.
  Proof. intros Hs Hq K Hk B Ht Hgen Htr (Fs & Fq & Fm & Fd & Fo & Fp).
    unfold trainer_new in Ht. destruct (all_params smp) as [ps|] eqn:Eps; [|discriminate]. injection Ht as <-.
    destruct (trained_model_facts _ _ _ _ _ _ _ _ _ _ _ _ _ _ Htr) as (Ts & Tq & Ti).
    destruct (generated_width _ _ _ _ _ _ _ Hgen Ti) as (Gs & Gq & Lm & Ld). cbn [tr_sample tr_q] in *.
    destruct (all_params_ordinary smp (proj1 Hs)) as (ps' & names & _ & En & _).
    assert (Es : nn_sample m = smp) by congruence.
    assert (Eq : nn_q m = qs) by (apply map_Some_inj; congruence).
    exists names. split; [exact En|]. split; [exact Es|]. split; [exact Eq|].
    apply (network_contract (tm_keras tm) (List.length qs) k m names); try congruence.
    exact (trained_network fit net s2 t1 e bs verbose v s3 tm _ _ B K Htr). Qed.
End Pipeline.

(** ** Restored labels of a SimpleModel *)
Lemma output_columns_shape k out : List.length (output_columns k out) = k /\ Forall (fun c => List.length c = List.length out) (output_columns k out).
Proof. unfold output_columns. split; [now rewrite map_length, seq_length|]. apply Forall_map. apply Forall_forall. intros j _. apply map_length. Qed.
(** a cell that is a real number >= 0 if it is finite *)
Definition pos_cell (c : cell) : Prop := forall z, c = Some z -> exists x, z = RtoC x /\ 0 <= x.
Lemma nth_nonneg (r : list fl) j v : Forall (fun y => forall v, y = Some v -> 0 <= v) r -> nth j r None = Some v -> 0 <= v.
Proof. intros F E. destruct (nth_in_or_default j r None) as [H|H]; [|congruence]. rewrite Forall_forall in F. exact (F _ H _ E). Qed.
Lemma output_columns_pos k out : Forall (Forall (fun y => forall v, y = Some v -> 0 <= v)) out -> Forall (Forall pos_cell) (output_columns k out).
Proof. intros F. unfold output_columns. apply Forall_map. apply Forall_forall. intros j _. apply Forall_map. eapply Forall_impl; [|exact F]. cbn beta. intros r Hr z E.
  destruct (nth j r None) as [v|] eqn:Ev; [|discriminate]. cbn in E. injection E as <-. exists v. split; [reflexivity|]. eapply nth_nonneg; eauto. Qed.

Lemma restored_columns s norm names ps n cs f : named_sample s -> known_norm (literal norm) = true -> all_params s = Ok ps -> label_names s = Ok names ->
  List.length cs = List.length (used_params ps) -> restore_labels (mkOp (literal norm) s) (LArray n cs) = Ok f ->
  forall k p c, label_param s k p -> is_const p = false -> In (k, c) (fr_cols f) -> exists c0, In c0 cs /\ c = map (renorm_cell (literal norm) p) c0.
Proof. intros Hs Hnorm Hps Hn L H k p c Hp Hc Hin.
  assert (LL : List.length cs = List.length (map pname_str (used_params ps))) by (rewrite map_length; exact L).
  assert (E : restore_labels (mkOp (literal norm) s) (LArray n cs) =
              restore_labels (mkOp (literal norm) s) (LFrame (mkFrame n (combine (map pname_str (used_params ps)) cs)))).
  { unfold restore_labels. cbn [op_sample]. rewrite Hps. cbn [bind convert_to_dataframe]. rewrite LL, Nat.eqb_refl. reflexivity. }
  rewrite E in H. clear E.
  destruct (restore_frame s (literal norm) names ps Hs Hps Hn (mkFrame n (combine (map pname_str (used_params ps)) cs)) Hnorm) as (g & E & En & Ev & Ec).
  { intros k' Hk'. cbn [fr_cols]. rewrite combine_fst by exact LL. apply (used_name s ps Hs Hps). exact Hk'. }
  cbn [fr_rows fr_cols] in *. rewrite E in H. injection H as <-. cbn [fr_cols] in Hin.
  assert (ND : NoDup (map fst g)) by (rewrite En; exact (pp_NoDup s names Hs Hn)).
  apply In_tget in Hin; [|exact ND]. destruct (tget_combine _ _ LL k) as (c0 & E0 & Hc0); [apply (used_name s ps Hs Hps); exists p; auto|].
  rewrite (Ev k p Hp Hc), E0 in Hin. injection Hin as <-. exists c0. split; [exact Hc0|reflexivity]. Qed.

Lemma renorm_min p a b x : p_min p = Flt a -> p_max p = Flt b -> renorm_cell (literal "min_to_zero") p (Some (RtoC x)) = Some (RtoC (x * (b - a) + a)).
Proof. intros Ea Eb. unfold renorm_cell. change (is_lit (literal "min_to_zero") "min_to_zero") with true. cbv iota. cbn [cell_map]. unfold hi_C, lo_C. rewrite Ea, Eb.
  f_equal. unfold num_C. cbn. unfold RtoC, Cplus, Cminus, Cmult, Copp. cbn. f_equal; ring. Qed.
Lemma renorm_abs p x : renorm_cell (literal "absolute_max") p (Some (RtoC x)) = Some (RtoC (x * Cmod (hi_C p))).
Proof. unfold renorm_cell. change (is_lit (literal "absolute_max") "min_to_zero") with false. change (is_lit (literal "absolute_max") "absolute_max") with true. cbv iota. cbn [cell_map].
  f_equal. unfold RtoC, Cmult. cbn. f_equal; ring. Qed.

Section Simple.
  Context (s : structure) (Hs : named_sample s) (k n : nat) (Hk : variable_count s k) (net : network) (B : built n (simple_model k) net).
  Context (rows out : list (list fl)) (Hp : predict net rows = Ok out).

  Lemma predict_Ok_inv : out = map (forward net) rows.
  Proof. unfold predict in Hp. destruct rows; [discriminate|]. destruct (forallb _ _); [|discriminate]. now injection Hp. Qed.
  Lemma simple_out_nonneg : Forall (Forall (fun y => forall v, y = Some v -> 0 <= v)) out.
  Proof. rewrite predict_Ok_inv. apply Forall_map. apply Forall_forall. intros r _. eapply simple_nonneg. exact B. Qed.

  Lemma simple_restored norm f name p c : known_norm (literal norm) = true ->
    restore_labels (mkOp (literal norm) s) (LArray (List.length out) (output_columns k out)) = Ok f -> label_param s name p -> is_const p = false -> In (name, c) (fr_cols f) ->
    exists c0, Forall pos_cell c0 /\ c = map (renorm_cell (literal norm) p) c0.
  Proof. intros Hn H Hpar Hc Hin. destruct Hk as (ps & Hps & Ek). destruct (all_params_ordinary s (proj1 Hs)) as (ps' & names & _ & En & _).
    destruct (restored_columns s norm names ps _ _ f Hs Hn Hps En (eq_trans (proj1 (output_columns_shape k out)) Ek) H name p c Hpar Hc Hin) as (c0 & Hc0 & E).
    exists c0. split; [|exact E]. pose proof (output_columns_pos k out simple_out_nonneg) as F. rewrite Forall_forall in F. apply F. exact Hc0. Qed.

  Lemma simple_min f name p a b c : restore_labels (mkOp (literal "min_to_zero") s) (LArray (List.length out) (output_columns k out)) = Ok f ->
    label_param s name p -> is_const p = false -> p_min p = Flt a -> p_max p = Flt b -> a <= b -> In (name, c) (fr_cols f) ->
    Forall (fun x => forall z, x = Some z -> exists v, z = RtoC v /\ a <= v) c.
  Proof. intros H Hpar Hc Ea Eb Hab Hin. destruct (simple_restored "min_to_zero" f name p c eq_refl H Hpar Hc Hin) as (c0 & F & ->).
    apply Forall_map. eapply Forall_impl; [|exact F]. cbn beta. intros [z|] Hz z' E; [|discriminate]. destruct (Hz z eq_refl) as (x & -> & Hx).
    rewrite (renorm_min p a b x Ea Eb) in E. injection E as <-. eexists. split; [reflexivity|]. pose proof (Rmult_le_pos x (b - a) Hx ltac:(lra)). lra. Qed.
  Lemma simple_abs f name p c : restore_labels (mkOp (literal "absolute_max") s) (LArray (List.length out) (output_columns k out)) = Ok f ->
    label_param s name p -> is_const p = false -> In (name, c) (fr_cols f) ->
    Forall (fun x => forall z, x = Some z -> exists v, z = RtoC v /\ 0 <= v) c.
  Proof. intros H Hpar Hc Hin. destruct (simple_restored "absolute_max" f name p c eq_refl H Hpar Hc Hin) as (c0 & F & ->).
    apply Forall_map. eapply Forall_impl; [|exact F]. cbn beta. intros [z|] Hz z' E; [|discriminate]. destruct (Hz z eq_refl) as (x & -> & Hx).
    rewrite renorm_abs in E. injection E as <-. eexists. split; [reflexivity|]. apply Rmult_le_pos; [exact Hx|apply Cmod_ge_0]. Qed.
End Simple.
