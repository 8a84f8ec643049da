(** Proofs about the trainer. *)
From Coq Require Import Reals Lra ZifyNat.
From Flocq Require Import Core.Raux.
From Verif Require Import Py Str Cplx Sample_Model Sample_Spec TrainedModel_Model Rng Sampling_Model Simulation_Model Arr Preproc_Model Preproc_Spec Preproc_Proofs OutPreproc_Proofs Sample_Proofs Labels_Proofs Simulation_Spec Simulation_Proofs
  NRng Noise_Model Noise_Spec Noise_Proofs Generator_Model Generator_Spec Generator_Proofs Float64 FloatTrain Trainer_Model Trainer_Spec.
Local Open Scope R_scope.

(** ** Splitting *)
Lemma slice_to A (l : list A) k : py_slice l None (Some k) = firstn (clamp_idx (List.length l) k) l.
Proof. unfold py_slice. cbn. now rewrite Nat.sub_0_r. Qed.
Lemma slice_from A (l : list A) k : py_slice l (Some k) None = skipn (clamp_idx (List.length l) k) l.
Proof. unfold py_slice. rewrite firstn_all2; [reflexivity|]. rewrite skipn_length. lia. Qed.
Lemma slice_split A (l : list A) k : l = (py_slice l None (Some k) ++ py_slice l (Some k) None)%list.
Proof. rewrite slice_to, slice_from. symmetry. apply firstn_skipn. Qed.
Lemma clamp_id n k : (0 <= k <= Z.of_nat n)%Z -> clamp_idx n k = Z.to_nat k.
Proof. intros H. unfold clamp_idx. destruct (k <? 0)%Z eqn:E; lia. Qed.

Lemma n_train_range rnd v n : rounding rnd n -> 0 <= v <= 1 -> (0 <= n_train rnd v n <= Z.of_nat n)%Z.
Proof. intros (Hm & H0 & H1 & Hn) Hv. unfold n_train. pose proof (pos_INR n) as Hp.
  assert (A : 0 <= rnd (1 - v) <= 1) by (rewrite <- H0 at 1; rewrite <- H1 at 3; split; apply Hm; lra).
  assert (B : 0 <= rnd (rnd (1 - v) * INR n) <= INR n).
  { split; [rewrite <- H0; apply Hm; apply Rmult_le_pos; lra|]. rewrite <- Hn at 2. apply Hm. rewrite <- (Rmult_1_l (INR n)) at 2. apply Rmult_le_compat_r; lra. }
  rewrite Ztrunc_floor by lra. split; [apply Zfloor_lub; simpl; lra|].
  apply le_IZR. eapply Rle_trans; [apply Zfloor_lb|]. rewrite <- INR_IZR_INZ. lra. Qed.

Lemma rounding_exact n : rounding (fun x => x) n.
Proof. repeat split; auto. Qed.
Lemma n_train_floor v n : 0 <= v <= 1 -> IZR (n_train (fun x => x) v n) <= (1 - v) * INR n < IZR (n_train (fun x => x) v n) + 1.
Proof. intros Hv. unfold n_train. pose proof (pos_INR n). rewrite Ztrunc_floor by (apply Rmult_le_pos; lra). split; [apply Zfloor_lb|apply Zfloor_ub]. Qed.
Lemma n_train_double v n : 0 <= v <= 1 -> (Z.of_nat n <= 2 ^ 50)%Z -> (1 - v) * INR n - 2 < IZR (n_train rnd64 v n) < (1 - v) * INR n + 1.
Proof. intros Hv Hn. pose proof (train_product64 v n Hv Hn) as E. apply Rabs_def2 in E. pose proof (pos_INR n) as Hp. unfold n_train.
  assert (H0 : 0 <= rnd64 (rnd64 (1 - v) * INR n)).
  { rewrite <- rnd64_0. apply rnd64_le. apply Rmult_le_pos; [|exact Hp]. rewrite <- rnd64_0. apply rnd64_le. lra. }
  rewrite Ztrunc_floor by exact H0. pose proof (Zfloor_lb (rnd64 (rnd64 (1 - v) * INR n))). pose proof (Zfloor_ub (rnd64 (rnd64 (1 - v) * INR n))). lra. Qed.
Lemma n_train_exact v n : 0 <= v <= 1 -> n_train (fun x => x) v n = Zfloor ((1 - v) * INR n).
Proof. intros Hv. unfold n_train. apply Ztrunc_floor. pose proof (pos_INR n). apply Rmult_le_pos; lra. Qed.

(** ** Tables *)
Lemma length_matrix f : List.length (matrix f) = fr_rows f.
Proof. unfold matrix. now rewrite map_length, seq_length. Qed.
Lemma matrix_rows f : Forall (fun kc => List.length (snd kc) = fr_rows f) (fr_cols f) -> table_rows f (matrix f).
Proof. intros Hw. split; [apply length_matrix|]. intros i r Hi. unfold matrix in Hi.
  assert (Hl : (i < fr_rows f)%nat) by (rewrite <- (length_matrix f); apply nth_error_Some; unfold matrix; congruence).
  erewrite map_nth_error in Hi; [|apply nth_error_nth' with (d := 0%nat); rewrite seq_length; exact Hl]. rewrite seq_nth in Hi by exact Hl. injection Hi as <-.
  unfold is_row. clear - Hw Hl. simpl. induction Hw as [|kc t Hc _ IH]; constructor; [|exact IH]. apply nth_error_nth'. exact (eq_ind _ (fun n => (i < n)%nat) Hl _ (eq_sym Hc)). Qed.

Lemma nth_skipn A (l : list A) : forall k i d, nth i (skipn k l) d = nth (k + i) l d.
Proof. induction l as [|x l IH]; intros [|k] i d; try reflexivity; [destruct i; reflexivity|]. apply IH. Qed.
Lemma nth_firstn A (l : list A) : forall k i d, (i < k)%nat -> nth i (firstn k l) d = nth i l d.
Proof. induction l as [|x l IH]; intros [|k] i d H; try lia; [destruct i; reflexivity|]. destruct i; [reflexivity|]. cbn. apply IH. lia. Qed.
Lemma firstn_seq' k n : (k <= n)%nat -> firstn k (seq 0 n) = seq 0 k.
Proof. intros H. replace n with (k + (n - k))%nat by lia. rewrite seq_app. apply firstn_len. apply seq_length. Qed.
Lemma skipn_seq' k n : (k <= n)%nat -> skipn k (seq 0 n) = seq k (n - k).
Proof. intros H. replace n with (k + (n - k))%nat at 1 by lia. rewrite seq_app. apply skipn_len. apply seq_length. Qed.
Lemma skipn_map' A B (f : A -> B) (l : list A) : forall k, skipn k (map f l) = map f (skipn k l).
Proof. induction l as [|x l IH]; intros [|k]; try reflexivity. apply IH. Qed.

Lemma matrix_to f k : Forall (fun kc => List.length (snd kc) = fr_rows f) (fr_cols f) ->
  matrix (fr_slice f None (Some k)) = py_slice (matrix f) None (Some k).
Proof. intros Hw. rewrite slice_to, length_matrix. unfold matrix, fr_slice. cbn [fr_rows fr_cols]. rewrite slice_to, seq_length.
  pose proof (clamp_idx_le (fr_rows f) k) as Hc. set (c := clamp_idx (fr_rows f) k) in *. rewrite firstn_length, seq_length, Nat.min_l by exact Hc.
  rewrite firstn_map, firstn_seq' by exact Hc. apply map_ext_in. intros i Hi. apply in_seq in Hi. rewrite map_map. apply map_ext_in. intros kc Hkc.
  cbn [snd]. rewrite Forall_forall in Hw. rewrite slice_to, (Hw kc Hkc). fold c. apply nth_firstn. lia. Qed.
Lemma matrix_from f k : Forall (fun kc => List.length (snd kc) = fr_rows f) (fr_cols f) ->
  matrix (fr_slice f (Some k) None) = py_slice (matrix f) (Some k) None.
Proof. intros Hw. rewrite slice_from, length_matrix. unfold matrix, fr_slice. cbn [fr_rows fr_cols]. rewrite slice_from, seq_length.
  pose proof (clamp_idx_le (fr_rows f) k) as Hc. set (c := clamp_idx (fr_rows f) k) in *. rewrite skipn_length, seq_length.
  rewrite skipn_map', skipn_seq' by exact Hc.
  replace (seq c (fr_rows f - c)) with (map (fun i => c + i)%nat (seq 0 (fr_rows f - c))).
  2:{ assert (H : forall n a b, map (fun i => (b + i)%nat) (seq a n) = seq (b + a) n).
      { induction n as [|m IH]; intros a b; [reflexivity|]. cbn. f_equal. rewrite IH. f_equal. lia. }
      rewrite H. f_equal. lia. }
  rewrite map_map. apply map_ext_in. intros i Hi. apply in_seq in Hi. rewrite map_map. apply map_ext_in. intros kc Hkc.
  cbn [snd]. rewrite Forall_forall in Hw. rewrite slice_from, (Hw kc Hkc). fold c. apply nth_skipn. Qed.

Lemma prep_table s names f : named_sample s -> label_frame s names f ->
  exists prep rem, apply_preprocessing (mkOp (literal "min_to_zero") s) (LFrame f) = Ok (prep, rem) /\ fr_rows prep = fr_rows f /\
    Forall (fun kc => List.length (snd kc) = fr_rows prep) (fr_cols prep).
Proof. intros Hs Hf. pose proof Hf as (Hn & Hperm & Hlen). assert (Hv : In "min_to_zero"%string ["min_to_zero"; "absolute_max"]%string) by (simpl; auto).
  destruct (split_off s names f "min_to_zero" Hs Hf Hv) as (prep & rem & E & Er & _ & (p & Ep & Hp) & _). exists prep, rem. split; [exact E|]. split; [exact Er|].
  assert (Hd : NoDup (map fst (fr_cols f))) by (eapply Permutation_NoDup; [exact Hperm|]; exact (label_names_NoDup s names (proj1 Hs) (proj2 Hs) Hn)).
  apply Forall_forall. intros [k c] Hi. cbn [snd].
  assert (Hk : In k (map fst (fr_cols prep))) by (apply in_map_iff; exists (k, c); auto).
  rewrite Ep in Hk. apply filter_In in Hk as [Hkf Hpk].
  assert (Hkn : In k names) by (eapply Permutation_in; [apply Permutation_sym; exact Hperm|exact Hkf]).
  apply (Hp k Hkn) in Hpk as (q & Hq & Hc). apply in_map_iff in Hkf as ([k' c0] & Ek & Hi0). cbn in Ek. subst k'.
  destruct (normalised_column s names f "min_to_zero" k q c0 Hs Hf Hv Hq Hc Hi0) as (prep' & rem' & E' & Hi'). rewrite E in E'. injection E' as <- <-.
  assert (Hdp : NoDup (map fst (fr_cols prep))) by (rewrite Ep; apply NoDup_filter; exact Hd).
  pose proof (In_tget _ _ _ Hdp Hi) as G1. pose proof (In_tget _ _ _ Hdp Hi') as G2. rewrite G1 in G2. injection G2 as ->.
  rewrite map_length. rewrite Forall_forall in Hlen. rewrite Er. exact (Hlen (k, c0) Hi0). Qed.

Section P.
  Context {S K : Type} (g : nrng S) (Hg : nrng_ok g) (refl1d : option refl1d_fun) (rnd : R -> R).

  Lemma gen_new_Ok s h refl m rows labels bs shuffle : nth_error h refl = Some (A2 m rows) -> (bs <= Z.of_nat (List.length rows))%Z ->
    exists s' gn, gen_new g s h refl labels bs shuffle = Ok (s', gn).
  Proof. intros Hr Hb. unfold gen_new, deref. rewrite Hr. cbn [bind]. replace (Z.of_nat (List.length rows) <? bs)%Z with false by lia.
    destruct (do_shuffle g s shuffle (seq 0 (List.length rows))). eauto. Qed.

  (** C43 *)
  Lemma split_Ok s t names m rows f bs v : has_data t names m rows f -> (0 < bs)%nat ->
    (bs <= List.length (py_slice rows None (Some (n_train rnd v (List.length rows)))))%nat ->
    (bs <= List.length (py_slice rows (Some (n_train rnd v (List.length rows))) None))%nat ->
    exists s' h gt gv prep rem ls rows_t rows_v ls_t ls_v,
      prepare_generators g rnd s t (Z.of_nat bs) v = Ok (s', (h, (gt, gv))) /\
      apply_preprocessing (tr_output t) (LFrame f) = Ok (prep, rem) /\ table_rows prep ls /\ List.length ls = List.length rows /\
      rows = (rows_t ++ rows_v)%list /\ ls = (ls_t ++ ls_v)%list /\
      rows_t = py_slice rows None (Some (n_train rnd v (List.length rows))) /\ List.length ls_t = List.length rows_t /\
      generator_over g h m rows_t ls_t bs gt /\ generator_over g h m rows_v ls_v bs gv.
  Proof. intros (Hd & Hs & Hf & Hr) Hb Ht Hv. unfold prepare_generators. rewrite Hd. destruct (prep_table _ _ _ Hs Hf) as (prep & rem & E & Er & Hw).
    unfold tr_output. change (mkPystr "min_to_zero" true) with (literal "min_to_zero"). cbn [td_labels td_refl]. rewrite E. cbn [bind]. rewrite Er, Hr.
    set (k := n_train rnd v (List.length rows)) in *. set (h := [arr_slice (A2 m rows) None (Some k); arr_slice (A2 m rows) (Some k) None]).
    destruct (gen_new_total g s h 0 m (py_slice rows None (Some k)) (matrix (fr_slice prep None (Some k))) bs true eq_refl) as (s1 & gt & E1 & G1); [lia|].
    rewrite E1. cbn [bind].
    destruct (gen_new_total g s1 h 1 m (py_slice rows (Some k) None) (matrix (fr_slice prep (Some k) None)) bs true eq_refl) as (s2 & gv & E2 & G2); [lia|].
    rewrite E2. cbn [bind]. rewrite matrix_to in G1 by exact Hw. rewrite matrix_from in G2 by exact Hw.
    exists s2, h, gt, gv, prep, rem, (matrix prep). do 4 eexists.
    assert (Lm : List.length (matrix prep) = List.length rows) by (rewrite length_matrix; congruence).
    split; [reflexivity|]. split; [reflexivity|]. split; [apply matrix_rows; exact Hw|]. split; [exact Lm|].
    split; [exact (slice_split _ rows k)|]. split; [exact (slice_split _ (matrix prep) k)|]. split; [reflexivity|].
    split; [|split; assumption]. rewrite !slice_to, !firstn_length. rewrite Lm. reflexivity. Qed.

  Lemma split_too_small s t names m rows f bs v : has_data t names m rows f ->
    (Z.of_nat (List.length (py_slice rows None (Some (n_train rnd v (List.length rows))))) < bs)%Z \/
    (Z.of_nat (List.length (py_slice rows (Some (n_train rnd v (List.length rows))) None)) < bs)%Z ->
    prepare_generators g rnd s t bs v = Raise ValueError.
  Proof. intros (Hd & Hs & Hf & Hr) Hc. unfold prepare_generators. rewrite Hd. destruct (prep_table _ _ _ Hs Hf) as (prep & rem & E & Er & Hw).
    unfold tr_output. change (mkPystr "min_to_zero" true) with (literal "min_to_zero"). cbn [td_labels td_refl]. rewrite E. cbn [bind]. rewrite Er, Hr.
    set (k := n_train rnd v (List.length rows)) in *. set (h := [arr_slice (A2 m rows) None (Some k); arr_slice (A2 m rows) (Some k) None]).
    destruct (Z_lt_le_dec (Z.of_nat (List.length (py_slice rows None (Some k)))) bs) as [Hl|Hl].
    - rewrite (gen_new_too_large g s h 0 m (py_slice rows None (Some k))) by (reflexivity || exact Hl). reflexivity.
    - destruct Hc as [Hc|Hc]; [lia|]. destruct (gen_new_Ok s h 0 m (py_slice rows None (Some k)) (matrix (fr_slice prep None (Some k))) bs true eq_refl Hl) as (s1 & gt & ->). cbn [bind].
      rewrite (gen_new_too_large g s1 h 1 m (py_slice rows (Some k) None)) by (reflexivity || exact Hc). reflexivity. Qed.

  Lemma part_sizes v rows : rounding rnd (@List.length (list fl) rows) -> 0 <= v <= 1 ->
    Z.of_nat (List.length (py_slice rows None (Some (n_train rnd v (List.length rows))))) = n_train rnd v (List.length rows) /\
    Z.of_nat (List.length (py_slice rows (Some (n_train rnd v (List.length rows))) None)) = (Z.of_nat (List.length rows) - n_train rnd v (List.length rows))%Z.
  Proof. intros Hr Hv. pose proof (n_train_range rnd v (List.length rows) Hr Hv) as H. rewrite slice_to, slice_from, clamp_id by exact H.
    rewrite firstn_length, skipn_length. split; lia. Qed.

  (** Success exactly when the batch size fits into both parts *)
  Lemma split_iff s t names m rows f bs v : has_data t names m rows f -> rounding rnd (List.length rows) -> 0 <= v <= 1 ->
    ((exists r, prepare_generators g rnd s t bs v = Ok r) <-> (bs <= n_train rnd v (List.length rows) /\ bs <= Z.of_nat (List.length rows) - n_train rnd v (List.length rows))%Z).
  Proof. intros Hd Hr Hv. destruct (part_sizes v rows Hr Hv) as [A B]. split.
    - intros [r E]. destruct (Z_lt_le_dec (n_train rnd v (List.length rows)) bs) as [Hl|Hl].
      { rewrite (split_too_small s t names m rows f bs v Hd) in E by (left; rewrite A; exact Hl). discriminate. }
      destruct (Z_lt_le_dec (Z.of_nat (List.length rows) - n_train rnd v (List.length rows)) bs) as [Hl'|Hl']; [|split; assumption].
      rewrite (split_too_small s t names m rows f bs v Hd) in E by (right; rewrite B; exact Hl'). discriminate.
    - intros [H1 H2]. destruct Hd as (Hd & Hs & Hf & Hn). unfold prepare_generators. rewrite Hd. destruct (prep_table _ _ _ Hs Hf) as (prep & rem & E & Er & Hw).
      unfold tr_output. change (mkPystr "min_to_zero" true) with (literal "min_to_zero"). cbn [td_labels td_refl]. rewrite E. cbn [bind]. rewrite Er, Hn.
      set (k := n_train rnd v (List.length rows)) in *. set (h := [arr_slice (A2 m rows) None (Some k); arr_slice (A2 m rows) (Some k) None]).
      destruct (gen_new_Ok s h 0 m (py_slice rows None (Some k)) (matrix (fr_slice prep None (Some k))) bs true eq_refl) as (s1 & gt & ->); [lia|]. cbn [bind].
      destruct (gen_new_Ok s1 h 1 m (py_slice rows (Some k) None) (matrix (fr_slice prep (Some k) None)) bs true eq_refl) as (s2 & gv & ->); [lia|]. eexists. reflexivity. Qed.

  Lemma n_train_all n : rounding rnd n -> n_train rnd 0 n = Z.of_nat n.
  Proof. intros (_ & _ & H1 & Hn). unfold n_train. rewrite Rminus_0_r, H1, Rmult_1_l, Hn, INR_IZR_INZ. apply Ztrunc_IZR. Qed.
  Lemma no_validation_part s t names m rows f bs : has_data t names m rows f -> rounding rnd (List.length rows) -> (0 < bs)%Z ->
    prepare_generators g rnd s t bs 0 = Raise ValueError.
  Proof. intros Hd Hr Hb. apply (split_too_small s t names m rows f bs 0 Hd). right. destruct (part_sizes 0 rows Hr) as [_ ->]; [lra|].
    rewrite n_train_all by exact Hr. lia. Qed.
  Lemma no_data s t bs v : tr_data t = None -> prepare_generators g rnd s t bs v = Raise ValueError.
  Proof. unfold prepare_generators. now intros ->. Qed.

  (** ** Generation of training data *)
  Lemma prepare_ip_single s m r : exists s', prepare_ip g s (A2 m [r]) = (s', Raise TypeError).
  Proof. unfold prepare_ip, apply_uniform_noise. destruct (rng_uniform _ _ _ _ _) as [s1 us]. cbn [List.length reshape combine map].
    destruct (scaling_single_row g Hg s1 m (map (fun xu : fl * R => fmul (fst xu) (Some (snd xu))) (combine r (firstn m us))) (fst scaling_range) (snd scaling_range)) as (s2 & r' & E).
    cbn [fst snd]. rewrite E. exists s2. reflexivity. Qed.

  Lemma prepare_ip_Ok s refl s' ip : prepare_ip g s refl = (s', Ok ip) -> exists mean std, ip = mkIp (Some mean) (Some std).
  Proof. unfold prepare_ip. destruct (apply_uniform_noise _ _ _ _ _) as [s1 x]. destruct (apply_scaling_factor _ _ _ _ _) as [s2 [v|m rows]]; [discriminate|].
    unfold standardize. cbn [ip_new ip_mean ip_std]. destruct (row_op fsub (A2 m rows) _) as [[v|m' crows]|e]; try discriminate.
    destruct (existsb is_zero _); [discriminate|]. destruct (row_op fdiv _ _); [|discriminate]. cbn [bind]. intros H. injection H as _ <-. eauto. Qed.
End P.

(** Generated data are complete. *)
Section Generated.
  Context {S : Type} (g : nrng S) (Hg : nrng_ok g) (refl1d : option refl1d_fun).

  Lemma simulate_count s qs t d e s' cs : simulate_reflectivity (nr_g g) refl1d s qs t d e = Ok (s', cs) -> List.length cs = n_rows (of_category 0 t).
  Proof. unfold simulate_reflectivity. destruct (_ || _)%bool; [|discriminate]. unfold separate.
    destruct (noisy_q (nr_g g) s qs d (n_rows (of_category 0 t))) as [[s1 qrows]|] eqn:Eq; [|discriminate]. cbn [bind].
    assert (Lq : List.length qrows = n_rows (of_category 0 t)).
    { unfold noisy_q in Eq. destruct d; [|discriminate]. destruct (np_normal _ _ _ _ _) as [[s2 xs]|]; [|discriminate]. cbn [bind] in Eq. injection Eq as _ <-.
      rewrite map_length. apply length_chunks. }
    assert (B : forall X, builtin (of_category 0 t) (of_category 1 t) (of_category 2 t) qrows = Ok X -> List.length X = n_rows (of_category 0 t)).
    { intros X HX. unfold builtin in HX. apply mapM_Ok_length in HX. rewrite combine_length, seq_length in HX. lia. }
    assert (R1 : forall f X, run_refl1d f (of_category 0 t) (of_category 1 t) (of_category 2 t) qrows = Ok X -> List.length X = n_rows (of_category 0 t)).
    { intros f X HX. unfold run_refl1d in HX. destruct (of_category 0 t) as [|a l] eqn:E0; [discriminate|]. destruct (of_category 2 t) eqn:E2; [discriminate|].
      apply mapM_Ok_length in HX. rewrite combine_length, seq_length in HX. lia. }
    destruct refl1d as [f|]; [destruct (String.eqb e "refl1d")|].
    - destruct (run_refl1d f _ _ _ _) eqn:E; [|discriminate]. intros H. injection H as _ <-. eapply R1. exact E.
    - destruct (builtin _ _ _ _) eqn:E; [|discriminate]. intros H. injection H as _ <-. apply B. reflexivity.
    - destruct (builtin _ _ _ _) eqn:E; [|discriminate]. intros H. injection H as _ <-. apply B. reflexivity. Qed.

  Lemma generated_data s t n s' t' : named_sample (tr_sample t) -> st_layers (tr_sample t) <> [] ->
    generate_training_data g refl1d s t n = (s', t', None) ->
    exists names rows f mean std, (0 < n)%Z /\ has_data t' names (List.length (tr_q t)) rows f /\ List.length rows = Z.to_nat n /\
      tr_sample t' = tr_sample t /\ tr_q t' = tr_q t /\ ordered_frame (tr_sample t) names f /\ tr_ip t' = Some (mkIp (Some mean) (Some std)).
  Proof. intros Hs Hne. unfold generate_training_data.
    destruct (generate_random_labels (nr_g g) s (tr_sample t) n _) as [[s1 labels]|e] eqn:El; [|discriminate].
    destruct (generated_shape (nr_g g) (nr_base Hg) s (tr_sample t) n _ s1 labels (proj1 Hs) (proj2 Hs) El) as (Hn & Hln & Hw).
    destruct (simulate_reflectivity (nr_g g) refl1d s1 (tr_q t) labels (SNum 0) "refl1d") as [[s2 rows]|e] eqn:Es; [|discriminate].
    destruct (prepare_ip g s2 (A2 (List.length (tr_q t)) rows)) as [s3 [ip|e]] eqn:Ei; [|discriminate]. intros H. injection H as <- <-.
    destruct (prepare_ip_Ok g _ _ _ _ Ei) as (mean & std & ->).
    exists (map fst labels), rows, (frame_of (Z.to_nat n) labels), mean, std. cbn [tr_sample tr_q tr_ip]. split; [exact Hn|].
    assert (Lr : List.length rows = Z.to_nat n).
    { rewrite (simulate_count _ _ _ _ _ _ _ Es). unfold of_category. rewrite n_rows_table with (n := Z.to_nat n); [reflexivity| |].
      - pose proof (label_names_ordinary (tr_sample t) (proj1 Hs)) as E2. rewrite Hln in E2. injection E2 as E2. destruct (st_layers (tr_sample t)) as [|l ls]; [congruence|].
        cbn in E2. destruct labels as [|[k c] labels]; [discriminate|]. cbn in E2. injection E2 as -> _. cbn [filter fst].
        pose proof (category_thickness (l_name l)) as Ec. cbn [String.append] in Ec. rewrite Ec. cbn. discriminate.
      - apply Forall_forall. intros kc Hkc. apply filter_In in Hkc as [Hkc _]. rewrite Forall_forall in Hw. apply Hw. exact Hkc. }
    assert (Ho : ordered_frame (tr_sample t) (map fst labels) (frame_of (Z.to_nat n) labels)).
    { assert (Em : map fst (fr_cols (frame_of (Z.to_nat n) labels)) = map fst labels) by (cbn; rewrite map_map; reflexivity).
      split; [|exact Em]. split; [exact Hln|]. rewrite Em. split; [apply Permutation_refl|]. cbn. apply Forall_map. cbn.
      eapply Forall_impl; [|exact Hw]. intros kc Hkc. cbv beta. rewrite map_length. exact Hkc. }
    split; [|split; [exact Lr|]; repeat split; auto; apply Ho]. split; [reflexivity|]. split; [exact Hs|]. split; [exact (proj1 Ho)|]. exact (eq_sym Lr). Qed.

  (** One sample: the data are stored, then standardisation fails. *)
  Lemma single_sample s t s' t' e : named_sample (tr_sample t) -> st_layers (tr_sample t) <> [] ->
    generate_training_data g refl1d s t 1 = (s', t', e) -> e <> None /\ tr_ip t' = tr_ip t /\
      (tr_data t' <> tr_data t -> e = Some TypeError).
  Proof. intros Hs Hne. unfold generate_training_data.
    destruct (generate_random_labels (nr_g g) s (tr_sample t) 1 _) as [[s1 labels]|x] eqn:El; [|intros H; injection H as <- <- <-; repeat split; congruence].
    destruct (generated_shape (nr_g g) (nr_base Hg) s (tr_sample t) 1 _ s1 labels (proj1 Hs) (proj2 Hs) El) as (Hn & Hln & Hw).
    destruct (simulate_reflectivity (nr_g g) refl1d s1 (tr_q t) labels (SNum 0) "refl1d") as [[s2 rows]|x] eqn:Es; [|intros H; injection H as <- <- <-; repeat split; congruence].
    assert (Lr : List.length rows = 1%nat).
    { rewrite (simulate_count _ _ _ _ _ _ _ Es). unfold of_category. rewrite n_rows_table with (n := Z.to_nat 1); [reflexivity| |].
      - pose proof (label_names_ordinary (tr_sample t) (proj1 Hs)) as E2. rewrite Hln in E2. injection E2 as E2. destruct (st_layers (tr_sample t)) as [|l ls]; [congruence|].
        cbn in E2. destruct labels as [|[k c] labels]; [discriminate|]. cbn in E2. injection E2 as -> _. cbn [filter fst].
        pose proof (category_thickness (l_name l)) as Ec. cbn [String.append] in Ec. rewrite Ec. cbn. discriminate.
      - apply Forall_forall. intros kc Hkc. apply filter_In in Hkc as [Hkc _]. rewrite Forall_forall in Hw. apply Hw. exact Hkc. }
    destruct rows as [|r [|]]; try discriminate. destruct (prepare_ip_single g Hg s2 (List.length (tr_q t)) r) as (s3 & E3). cbv zeta.
    match goal with |- context [prepare_ip g s2 ?a] => replace (prepare_ip g s2 a) with (s3, @Raise ip_state TypeError) by (symmetry; exact E3) end.
    intros H. injection H as <- <- <-. repeat split; congruence. Qed.
End Generated.

Lemma trained_model_facts S K (g : nrng S) rnd (fit : K -> fit_args -> S -> res (S * K)) k s t e bs verbose v s' tm : train g rnd fit k s t e bs verbose v = Ok (s', tm) ->
  tm_sample tm = tr_sample t /\ tm_q tm = map Some (tr_q t) /\ tr_ip t = Some (mkIp (Some (tm_mean tm)) (Some (tm_std tm))).
Proof. unfold train. destruct (prepare_generators _ _ _ _ _ _) as [[s1 [h [gt gv]]]|]; [|discriminate]. cbn [bind].
  destruct (fit k _ s1) as [[s2 k']|]; [|discriminate]. cbn [bind]. destruct (tr_ip t) as [[[mean|] [std|]]|]; try discriminate.
  cbn [ip_mean ip_std]. intros H. injection H as _ <-. auto. Qed.

(** ** The documented condition on the batch size *)
Lemma documented_condition S (g : nrng S) s t names m rows f bs v : has_data t names m rows f -> 0 <= v <= 1/2 -> IZR bs < v * INR (List.length rows) ->
  exists r, prepare_generators g (fun x => x) s t bs v = Ok r.
Proof. intros Hd Hv Hb. apply (split_iff g (fun x => x) s t names m rows f bs v Hd (rounding_exact _)); [lra|]. rewrite n_train_exact by lra.
  pose proof (pos_INR (List.length rows)) as Hp. set (n := INR (List.length rows)) in *.
  assert (H2 : v * n <= (1 - v) * n) by (apply Rmult_le_compat_r; lra). split; [apply Zfloor_lub; lra|].
  pose proof (Zfloor_lb ((1 - v) * n)) as Hf. apply le_IZR. rewrite minus_IZR, <- INR_IZR_INZ. fold n. lra. Qed.
Lemma documented_condition_fails S (g : nrng S) s t names m rows f : has_data t names m rows f -> List.length rows = 4%nat ->
  IZR 2 < 3/4 * INR (List.length rows) /\ prepare_generators g (fun x => x) s t 2 (3/4) = Raise ValueError.
Proof. intros Hd L. rewrite L. split; [simpl; lra|]. apply (split_too_small g (fun x => x) s t names m rows f 2 (3/4) Hd). left.
  destruct (part_sizes (fun x => x) (3/4) rows (rounding_exact _)) as [-> _]; [lra|]. rewrite n_train_exact by lra. rewrite L.
  replace ((1 - 3 / 4) * INR 4) with (IZR 1) by (simpl; lra). rewrite Zfloor_IZR. lia. Qed.
