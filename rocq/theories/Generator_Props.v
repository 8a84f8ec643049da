(** Properties C38-C44, C89-C92: noise, batch generators and the trainer. *)
From Coq Require Import Reals Lra ZifyNat.
From Coquelicot Require Import Complex.
From Flocq Require Import Core.Raux.
From Verif Require Import Py Str Cplx Sample_Model Sample_Spec Sample_Props TrainedModel_Model Rng Sampling_Model Sampling_Props Simulation_Model Simulation_Props Arr Preproc_Model Preproc_Spec
  NRng Noise_Model Noise_Spec Noise_Proofs Generator_Model Generator_Spec Generator_Proofs Float64 FloatTrain Trainer_Model Trainer_Spec Trainer_Proofs Training_Props.
Local Open Scope string_scope.
Local Open Scope R_scope.

(** ** C38 *)
Theorem C38_epoch_batches S (g : nrng S) : nrng_ok g -> forall h m rows labels bs gn, generator_over g h m rows labels bs gn ->
  let n := List.length rows in
  gen_len gn = Ok (Z.of_nat (n / bs)) /\
  (forall i, (i < n / bs)%nat -> List.length (batch_indexes gn (Z.of_nat i)) = bs /\ Forall (fun j => (j < n)%nat) (batch_indexes gn (Z.of_nat i))) /\
  NoDup (List.concat (batches gn (n / bs))) /\
  exists rest, Permutation (seq 0 n) (List.concat (batches gn (n / bs)) ++ rest) /\ List.length rest = (n mod bs)%nat.
Proof. exact (epoch_batches g). Qed.
Print Assumptions C38_epoch_batches.
(** The number of batches computed in double precision, int(np.floor(n / batch_size)), is the integer quotient. *)
Theorem C38_batch_count_double n bs : (0 < bs)%nat -> (Z.of_nat bs <= 2 ^ 53)%Z -> (Z.of_nat n < 2 ^ 53)%Z ->
  Zfloor (rnd64 (INR n / INR bs)) = Z.of_nat (n / bs).
Proof. exact (floor_div64 n bs). Qed.
Print Assumptions C38_batch_count_double.
Theorem C38_batch_too_large S (g : nrng S) s h refl m rows labels bs shuffle : nth_error h refl = Some (A2 m rows) -> (Z.of_nat (List.length rows) < bs)%Z ->
  gen_new g s h refl labels bs shuffle = Raise ValueError.
Proof. exact (gen_new_too_large g s h refl m rows labels bs shuffle). Qed.
Print Assumptions C38_batch_too_large.

Definition ex_curves : list (list fl) := [[Some 1; Some 2]; [Some 3; Some 5]; [Some 2; Some 4]; [Some 8; Some 1]; [Some 7; Some 6]].
Definition ex_ys : list (list cell) := map (fun x => [Some (RtoC x)]) [1; 2; 3; 4; 5].
Definition ex_heap : heap := [A1 []; A2 2 ex_curves].
(** Reversed indexes: shuffled by the constructor and twice by epochs *)
Definition ex_gen : gen := mkGen 5 2 2 1 ex_ys true [4; 3; 2; 1; 0]%nat.
Example C38_example : generator_over ex_nrng ex_heap 2 ex_curves ex_ys 2 ex_gen.
Proof. exists 0%nat, 1%nat, true. do 2 eexists. exists [7; 0]%nat. split; [reflexivity|]. split; [lia|]. split; reflexivity. Qed.
Example C38_example_batches : batches ex_gen 2 = [[4; 3]; [2; 1]]%nat.
Proof. reflexivity. Qed.
Lemma ex_curves_width : Forall (fun r => List.length r = 2%nat) ex_curves.
Proof. repeat constructor. Qed.

(** ** C39 *)
(** Position [p] of the batch holds the noisy, standardised curve and the label of one and the same sample [j]; earlier parts
    of the heap (the stored reflectivity among them) are unchanged. *)
Theorem C39_noise_generator S (g : nrng S) : nrng_ok g -> forall h m rows labels bs gn i s mean std noise background spread,
  generator_over g h m rows labels bs gn -> Forall (fun r => List.length r = m) rows -> List.length labels = List.length rows ->
  (i < List.length rows / bs)%nat -> List.length mean = m -> List.length std = m -> opt usable_level noise -> opt (fun lv => usable_background lv spread) background ->
  exists s' extra xs ys, noise_getitem g s h (mkIp (Some mean) (Some std)) gn (literal "single") noise background spread (Z.of_nat i) =
      Ok (s', (h ++ extra)%list, mkIp (Some mean) (Some std), (A2 m xs, ys)) /\
    List.length xs = bs /\ List.length ys = bs /\ Forall (fun r => List.length r = m) xs /\
    forall p j, nth_error (batch_indexes gn (Z.of_nat i)) p = Some j ->
      exists curve r1 r2 lab, nth_error rows j = Some curve /\ noise_link g noise curve r1 /\ background_link background spread r1 r2 /\
        nth_error xs p = Some (standardised_row mean std r2) /\ nth_error labels j = Some lab /\ nth_error ys p = Some lab.
Proof. exact (noise_batch g). Qed.
Print Assumptions C39_noise_generator.
Theorem C39_log_generator S (g : nrng S) : nrng_ok g -> forall h m rows labels bs gn i s noise background spread,
  generator_over g h m rows labels bs gn -> Forall (fun r => List.length r = m) rows -> List.length labels = List.length rows ->
  (i < List.length rows / bs)%nat -> opt usable_level noise -> opt (fun lv => usable_background lv spread) background ->
  exists s' extra xs ys, log_getitem g s h gn (literal "single") noise background spread (Z.of_nat i) = Ok (s', (h ++ extra)%list, (A2 m xs, ys)) /\
    List.length xs = bs /\ List.length ys = bs /\ Forall (fun r => List.length r = m) xs /\
    forall p j, nth_error (batch_indexes gn (Z.of_nat i)) p = Some j ->
      exists curve r1 r2 lab, nth_error rows j = Some curve /\ noise_link g noise curve r1 /\ background_link background spread r1 r2 /\
        (exists r3, nth_error xs p = Some r3 /\ Forall2 log_scaled r2 r3) /\ nth_error labels j = Some lab /\ nth_error ys p = Some lab.
Proof. exact (log_batch g). Qed.
Print Assumptions C39_log_generator.
Theorem C39_uniform_generator S (g : nrng S) : nrng_ok g -> forall h m rows labels bs gn i s mean std noise scaling,
  generator_over g h m rows labels bs gn -> Forall (fun r => List.length r = m) rows -> List.length labels = List.length rows ->
  (i < List.length rows / bs)%nat -> (2 <= bs)%nat -> List.length mean = m -> List.length std = m ->
  exists s' xs ys, uniform_getitem g s h (mkIp (Some mean) (Some std)) gn noise scaling (Z.of_nat i) = Ok (s', h, mkIp (Some mean) (Some std), (A2 m xs, ys)) /\
    List.length xs = bs /\ List.length ys = bs /\ Forall (fun r => List.length r = m) xs /\
    forall p j, nth_error (batch_indexes gn (Z.of_nat i)) p = Some j ->
      exists curve k r lab, nth_error rows j = Some curve /\ Rmin (fst scaling) (snd scaling) <= k <= Rmax (fst scaling) (snd scaling) /\
        uniform_link (fst noise) (snd noise) k curve r /\ nth_error xs p = Some (standardised_row mean std r) /\
        nth_error labels j = Some lab /\ nth_error ys p = Some lab.
Proof. exact (uniform_batch g). Qed.
Print Assumptions C39_uniform_generator.
(** BaseGenerator: the rows themselves, changed by the given functions one after the other *)
Theorem C39_base_generator S (g : nrng S) : nrng_ok g -> forall h m rows labels bs gn i, generator_over g h m rows labels bs gn -> Forall (fun r => List.length r = m) rows -> List.length labels = List.length rows ->
  (i < List.length rows / bs)%nat -> exists xs ys, List.length xs = bs /\ List.length ys = bs /\ Forall (fun r => List.length r = m) xs /\
    (forall p j, nth_error (batch_indexes gn (Z.of_nat i)) p = Some j -> exists curve lab, nth_error rows j = Some curve /\ nth_error xs p = Some curve /\ nth_error labels j = Some lab /\ nth_error ys p = Some lab) /\
    base_getitem h gn [] (Z.of_nat i) = Ok (A2 m xs, ys) /\
    forall f fs, base_getitem h gn (fs ++ [f]) (Z.of_nat i) = bind (base_getitem h gn fs (Z.of_nat i)) f.
Proof. exact (base_batch g). Qed.
Print Assumptions C39_base_generator.
Theorem C39_needs_statistics S (g : nrng S) s h gn mode noise background spread i : noise_getitem g s h ip_new gn mode noise background spread i = Raise ValueError.
Proof. exact (no_statistics g s h gn mode noise background spread i). Qed.
Print Assumptions C39_needs_statistics.
Example C39_example : exists s' extra xs ys,
  noise_getitem ex_nrng 0%nat ex_heap (mkIp (Some [Some 4; Some 3]) (Some [Some 1; Some 2])) ex_gen (literal "single") (Some (LvTuple [1/100; 1/10])) (Some (LvNum (1/10))) (1/10) 1 =
      Ok (s', (ex_heap ++ extra)%list, mkIp (Some [Some 4; Some 3]) (Some [Some 1; Some 2]), (A2 2 xs, ys)) /\ List.length xs = 2%nat /\ nth_error ys 0 = Some [Some (RtoC 3)].
Proof. destruct (C39_noise_generator nat ex_nrng ex_nrng_ok ex_heap 2 ex_curves ex_ys 2 ex_gen 1 0%nat [Some 4; Some 3] [Some 1; Some 2] (Some (LvTuple [1/100; 1/10])) (Some (LvNum (1/10))) (1/10) C38_example ex_curves_width eq_refl)
    as (s' & extra & xs & ys & E & L & _ & _ & H); [cbn; lia|reflexivity|reflexivity|simpl; lra|simpl; lra|].
  exists s', extra, xs, ys. split; [exact E|]. split; [exact L|]. destruct (H 0%nat 2%nat eq_refl) as (c & r1 & r2 & lab & _ & _ & _ & _ & A & B). cbn in A. injection A as <-. exact B. Qed.

(** ** C40 *)
Theorem C40_shot_noise_partial S (g : nrng S) : nrng_ok g -> forall s a sp, curves a <> [] -> usable_level sp ->
  exists s' out ks, apply_shot_noise g s a sp = Ok (s', (out, ks)) /\ shape out = shape a /\
    List.length ks = List.length (curves a) /\ Forall (allowed sp) ks /\ each_curve (shot_noise_of g) a ks out /\
    (all_values (fun x => 0 <= x) a -> all_values (fun x => 1 / 10 ^ 16 <= x) out).
Proof. exact (shot_noise_Ok g). Qed.
Print Assumptions C40_shot_noise_partial.
Theorem C40_poisson_noise_partial S (g : nrng S) : nrng_ok g -> forall s a sp, curves a <> [] -> positive_level sp -> all_values (fun x => 0 <= x /\ x * highest sp <= nr_lam_max g) a ->
  exists s' out ks, apply_poisson_noise g s a sp = Ok (s', (out, ks)) /\ shape out = shape a /\
    List.length ks = List.length (curves a) /\ Forall (allowed sp) ks /\ each_curve (poisson_noise_of g) a ks out /\
    all_values (fun x => 1 / 10 ^ 16 <= x) out.
Proof. exact (poisson_noise_Ok g). Qed.
Print Assumptions C40_poisson_noise_partial.
Theorem C40_type_error S (g : nrng S) s a : apply_shot_noise g s a LvOther = Raise TypeError /\ apply_poisson_noise g s a LvOther = Raise TypeError.
Proof. exact (conj (noise_TypeError g (shot_row g) s a) (noise_TypeError g (poisson_row g) s a)). Qed.
Print Assumptions C40_type_error.
(** Without curves the result has another shape; a negative intensity becomes NaN. *)
Theorem C40_no_curves_refuted S (g : nrng S) : nrng_ok g -> forall s m sp, usable_level sp ->
  exists s', apply_shot_noise g s (A2 m []) sp = Ok (s', (A1 [], [])) /\ shape (A1 []) <> shape (A2 m []).
Proof. intros Hg s m sp H. destruct (noise_empty g Hg (shot_row g) s m sp H) as (s' & E). exists s'. split; [exact E|discriminate]. Qed.
Print Assumptions C40_no_curves_refuted.
Theorem C40_negative_intensity_refuted S (g : nrng S) : nrng_ok g -> forall r k r' i v,
  nth_error r i = Some (Some v) -> v * k < 0 -> shot_noise_of g r k r' -> nth_error r' i = Some None.
Proof. exact (shot_noise_negative g). Qed.
Print Assumptions C40_negative_intensity_refuted.
Theorem C40_zero_noise S (g : nrng S) : nrng_ok g -> forall s a, curves a <> [] -> all_values (fun x => 0 <= x) a ->
  exists s' out ks, apply_shot_noise g s a (LvNum 0) = Ok (s', (out, ks)) /\ curves out = map (map (option_map (Rmax (1 / 10 ^ 16)))) (curves a).
Proof. exact (shot_noise_free g). Qed.
Print Assumptions C40_zero_noise.
Lemma ex_curves_positive c : 8 * c <= 1000 -> all_values (fun x => 0 <= x /\ x * (Rmax c 0) <= 1000) (A2 2 ex_curves).
Proof. intros H. assert (Hm : Rmax c 0 <= 125) by (apply Rmax_lub; lra). unfold all_values, ex_curves. cbn [curves].
  repeat constructor; eexists; (split; [reflexivity|]); lra. Qed.
Example C40_example : exists s' out ks, apply_shot_noise ex_nrng 0%nat (A2 2 ex_curves) (LvNum (1/100)) = Ok (s', (out, ks)) /\ all_values (fun x => 1 / 10 ^ 16 <= x) out /\ shape out = [5; 2]%nat.
Proof. destruct (C40_shot_noise_partial nat ex_nrng ex_nrng_ok 0%nat (A2 2 ex_curves) (LvNum (1/100))) as (s' & out & ks & E & Hs & _ & _ & _ & H); [discriminate|simpl; lra|].
  exists s', out, ks. split; [exact E|]. split; [|exact Hs]. apply H. unfold all_values, ex_curves. cbn [curves]. repeat constructor; eexists; (split; [reflexivity|]); lra. Qed.
Example C40_example_poisson : exists s' out ks, apply_poisson_noise ex_nrng 0%nat (A2 2 ex_curves) (LvNum 100) = Ok (s', (out, ks)) /\ all_values (fun x => 1 / 10 ^ 16 <= x) out.
Proof. destruct (C40_poisson_noise_partial nat ex_nrng ex_nrng_ok 0%nat (A2 2 ex_curves) (LvNum 100)) as (s' & out & ks & E & _ & _ & _ & _ & H); [discriminate|simpl; lra| |eauto].
  cbn [highest]. change (nr_lam_max ex_nrng) with 1000. replace 100 with (Rmax 100 0) by (apply Rmax_left; lra). apply ex_curves_positive. lra. Qed.

(** ** C41 *)
Theorem C41_scaling_partial S (g : nrng S) : nrng_ok g -> forall s a lo hi, exists s' ks out, apply_scaling_factor g s a lo hi = (s', out) /\
  List.length ks = List.length (curves a) /\ Forall (fun k => Rmin lo hi <= k <= Rmax lo hi) ks /\ scaled_by ks a out /\
  (List.length (curves a) <> 1%nat \/ List.length (shape a) = 1%nat -> shape out = shape a) /\
  (List.length (curves a) = 1%nat -> exists r, curves a = [r] /\ shape out = [List.length r]).
Proof. exact (scaling_Ok g). Qed.
Print Assumptions C41_scaling_partial.
(** A two-dimensional array with one curve comes back one-dimensional. *)
Theorem C41_single_curve_refuted S (g : nrng S) : nrng_ok g -> forall s m r lo hi, exists s' r', apply_scaling_factor g s (A2 m [r]) lo hi = (s', A1 r').
Proof. exact (scaling_single_row g). Qed.
Print Assumptions C41_single_curve_refuted.
Example C41_example : exists s' ks out, apply_scaling_factor ex_nrng 0%nat (A2 2 ex_curves) (9/10) (11/10) = (s', out) /\ scaled_by ks (A2 2 ex_curves) out /\ shape out = [5; 2]%nat.
Proof. destruct (C41_scaling_partial nat ex_nrng ex_nrng_ok 0%nat (A2 2 ex_curves) (9/10) (11/10)) as (s' & ks & out & E & _ & _ & H & Hs & _). exists s', ks, out. split; [exact E|].
  split; [exact H|]. apply Hs. left. discriminate. Qed.

(** ** C42 *)
(** The level of the batch is an array of one element, which the noise functions reject. *)
Theorem C42_noise_refuted S (g : nrng S) : nrng_ok g -> forall h m rows labels bs gn i s mean std lo hi background spread,
  generator_over g h m rows labels bs gn -> Forall (fun r => List.length r = m) rows -> (i < List.length rows / bs)%nat -> 0 < lo -> 0 < hi ->
  noise_getitem g s h (mkIp (Some mean) (Some std)) gn (literal "batch") (Some (LvTuple [lo; hi])) background spread (Z.of_nat i) = Raise TypeError.
Proof. exact (batch_mode_noise g). Qed.
Print Assumptions C42_noise_refuted.
Theorem C42_background_refuted S (g : nrng S) : nrng_ok g -> forall h m rows labels bs gn i s mean std lo hi spread,
  generator_over g h m rows labels bs gn -> Forall (fun r => List.length r = m) rows -> (i < List.length rows / bs)%nat -> 0 < lo -> 0 < hi ->
  noise_getitem g s h (mkIp (Some mean) (Some std)) gn (literal "batch") None (Some (LvTuple [lo; hi])) spread (Z.of_nat i) = Raise TypeError.
Proof. exact (batch_mode_background g). Qed.
Print Assumptions C42_background_refuted.
Theorem C42_no_ranges S (g : nrng S) s h ip gn mode spread i :
  noise_getitem g s h ip gn mode None None spread i = noise_getitem g s h ip gn (literal "single") None None spread i.
Proof. exact (no_ranges g s h ip gn mode spread i). Qed.
Print Assumptions C42_no_ranges.
(** Modes are compared by identity: any other string object is rejected, even one that spells "single". *)
Theorem C42_other_mode S (g : nrng S) : nrng_ok g -> forall h m rows labels bs gn i s mean std mode lv background spread,
  generator_over g h m rows labels bs gn -> Forall (fun r => List.length r = m) rows -> (i < List.length rows / bs)%nat ->
  is_lit mode "single" = false -> is_lit mode "batch" = false ->
  noise_getitem g s h (mkIp (Some mean) (Some std)) gn mode (Some lv) background spread (Z.of_nat i) = Raise ValueError.
Proof. exact (other_mode g). Qed.
Print Assumptions C42_other_mode.
Example C42_example : noise_getitem ex_nrng 0%nat ex_heap (mkIp (Some [Some 4; Some 3]) (Some [Some 1; Some 2])) ex_gen (literal "batch") (Some (LvTuple [1/100; 1/10])) None (1/10) 1 = Raise TypeError.
Proof. apply (C42_noise_refuted nat ex_nrng ex_nrng_ok ex_heap 2 ex_curves ex_ys 2 ex_gen 1 0%nat); [exact C38_example|exact ex_curves_width|cbn; lia|lra|lra]. Qed.
Example C42_example_mode : is_lit (mkPystr "single" false) "single" = false /\ is_lit (mkPystr "single" false) "batch" = false.
Proof. split; reflexivity. Qed.

(** ** C43 *)
(** Every split fraction and every rounding of the floating-point operations *)
Theorem C43_split S (g : nrng S) rnd s t names m rows f bs v : has_data t names m rows f -> (0 < bs)%nat ->
  (bs <= List.length (py_slice rows None (Some (n_train rnd v (List.length rows)))))%nat ->
  (bs <= List.length (py_slice rows (Some (n_train rnd v (List.length rows))) None))%nat ->
  exists s' h gt gv prep rem ls rows_t rows_v ls_t ls_v,
    prepare_generators g rnd s t (Z.of_nat bs) v = Ok (s', (h, (gt, gv))) /\
    apply_preprocessing (tr_output t) (LFrame f) = Ok (prep, rem) /\ table_rows prep ls /\ List.length ls = List.length rows /\
    rows = (rows_t ++ rows_v)%list /\ ls = (ls_t ++ ls_v)%list /\
    rows_t = py_slice rows None (Some (n_train rnd v (List.length rows))) /\ List.length ls_t = List.length rows_t /\
    generator_over g h m rows_t ls_t bs gt /\ generator_over g h m rows_v ls_v bs gv.
Proof. exact (split_Ok g rnd s t names m rows f bs v). Qed.
Print Assumptions C43_split.
Theorem C43_part_sizes rnd v (rows : list (list fl)) : rounding rnd (List.length rows) -> 0 <= v <= 1 ->
  Z.of_nat (List.length (py_slice rows None (Some (n_train rnd v (List.length rows))))) = n_train rnd v (List.length rows) /\
  Z.of_nat (List.length (py_slice rows (Some (n_train rnd v (List.length rows))) None)) = (Z.of_nat (List.length rows) - n_train rnd v (List.length rows))%Z.
Proof. exact (part_sizes rnd v rows). Qed.
Print Assumptions C43_part_sizes.
Theorem C43_double_precision n : (Z.of_nat n <= 2 ^ 53)%Z -> rounding rnd64 n.
Proof. intros H. exact (conj rnd64_le (conj rnd64_0 (conj rnd64_1 (rnd64_INR n H)))). Qed.
Print Assumptions C43_double_precision.
(** The number of training samples is the integer part of (1 - val_split) * n; in double precision it may be off by one. *)
Theorem C43_train_count v n : 0 <= v <= 1 -> IZR (n_train (fun x => x) v n) <= (1 - v) * INR n < IZR (n_train (fun x => x) v n) + 1.
Proof. exact (n_train_floor v n). Qed.
Print Assumptions C43_train_count.
Theorem C43_train_count_double v n : 0 <= v <= 1 -> (Z.of_nat n <= 2 ^ 50)%Z -> (1 - v) * INR n - 2 < IZR (n_train rnd64 v n) < (1 - v) * INR n + 1.
Proof. exact (n_train_double v n). Qed.
Print Assumptions C43_train_count_double.
(** The data that generate_training_data stores satisfy the assumption, and the preprocessor is ready. *)
Theorem C43_generated_data S (g : nrng S) : nrng_ok g -> forall refl1d s t n s' t', named_sample (tr_sample t) -> st_layers (tr_sample t) <> [] ->
  generate_training_data g refl1d s t n = (s', t', None) ->
  exists names rows f mean std, (0 < n)%Z /\ has_data t' names (List.length (tr_q t)) rows f /\ List.length rows = Z.to_nat n /\
    tr_sample t' = tr_sample t /\ tr_q t' = tr_q t /\ ordered_frame (tr_sample t) names f /\ tr_ip t' = Some (mkIp (Some mean) (Some std)).
Proof. exact (generated_data g). Qed.
Print Assumptions C43_generated_data.
Theorem C43_no_data S K (g : nrng S) rnd fit (k : K) s t e bs verbose v : tr_data t = None -> train g rnd fit k s t e bs verbose v = Raise ValueError.
Proof. intros H. unfold train. rewrite (no_data g rnd s t bs v H). reflexivity. Qed.
Print Assumptions C43_no_data.
(** The trained model carries the sample, the q values and the statistics of the trainer. *)
Theorem C43_trained_model S K (g : nrng S) rnd fit (k : K) s t e bs verbose v s' tm : train g rnd fit k s t e bs verbose v = Ok (s', tm) ->
  tm_sample tm = tr_sample t /\ tm_q tm = map Some (tr_q t) /\ tr_ip t = Some (mkIp (Some (tm_mean tm)) (Some (tm_std tm))).
Proof. exact (trained_model_facts S K g rnd fit k s t e bs verbose v s' tm). Qed.
Print Assumptions C43_trained_model.

Definition ex_trainer : trainer := mkTrainer ex_sample [1/10; 2/10] (Some (mkTdata ex_frame (A2 2 ex_rows))) (Some (mkIp (Some [Some 2; Some 3]) (Some [Some 1; Some 4]))).
Lemma ex_has_data : has_data ex_trainer ex_names 2 ex_rows ex_frame.
Proof. split; [reflexivity|]. split; [exact ex_named|]. split; [exact (proj1 ex_ordered)|reflexivity]. Qed.
Lemma ex_half : n_train (fun x => x) (1/2) 2 = 1%Z.
Proof. rewrite n_train_exact by lra. replace ((1 - 1 / 2) * INR 2) with (IZR 1) by (simpl; lra). apply Zfloor_IZR. Qed.
Example C43_example : exists s' h gt gv ls_t ls_v, prepare_generators ex_nrng (fun x => x) 0%nat ex_trainer 1 (1/2) = Ok (s', (h, (gt, gv))) /\
  generator_over ex_nrng h 2 [[Some 1; Some 2]] ls_t 1 gt /\ generator_over ex_nrng h 2 [[Some 3; Some 5]] ls_v 1 gv /\ List.length ls_t = 1%nat.
Proof. assert (Hn : n_train (fun x => x) (1/2) (List.length ex_rows) = 1%Z) by exact ex_half.
  destruct (C43_split nat ex_nrng (fun x => x) 0%nat ex_trainer ex_names 2 ex_rows ex_frame 1 (1/2) ex_has_data)
    as (s' & h & gt & gv & prep & rem & ls & rt & rv & lt & lv & E & _ & _ & _ & Er & _ & Et & L & G1 & G2); [lia|rewrite Hn; exact (le_n 1)|rewrite Hn; exact (le_n 1)|].
  rewrite Hn in Et. cbn in Et. subst rt. injection Er as <-. exists s', h, gt, gv, lt, lv. auto. Qed.

(** ** C44 *)
Theorem C44_number S (g : nrng S) : nrng_ok g -> forall s n k x d, 0 <= d * x -> exists s' b, generate_background g s n k (LvNum x) d = Ok (s', (b, repeat x n)) /\
  is_matrix n k b /\ Forall (Forall (fun y => y <> None)) b /\ (d = 0 -> b = repeat (repeat (Some x) k) n).
Proof. exact (background_number g). Qed.
Print Assumptions C44_number.
Theorem C44_range S (g : nrng S) : nrng_ok g -> forall s n k lo hi d, 0 < lo -> 0 < hi -> 0 <= d ->
  exists s' b mean, generate_background g s n k (LvTuple [lo; hi]) d = Ok (s', (b, mean)) /\
    is_matrix n k b /\ List.length mean = n /\ Forall (fun x => Rmin lo hi <= x <= Rmax lo hi) mean /\
    Forall2 (fun m r => Forall (normal_draw (Some m, Some (d * m))) r) mean b.
Proof. exact (background_range g). Qed.
Print Assumptions C44_range.
Theorem C44_errors S (g : nrng S) s n k x d : generate_background g s n k LvOther d = Raise TypeError /\ (d * x < 0 -> generate_background g s n k (LvNum x) d = Raise ValueError).
Proof. exact (conj (background_TypeError g s n k d) (background_negative g s n k x d)). Qed.
Print Assumptions C44_errors.
Example C44_example : exists s' b mean, generate_background ex_nrng 0%nat 3 2 (LvTuple [1/100; 1/10]) (1/10) = Ok (s', (b, mean)) /\ is_matrix 3 2 b /\ List.length mean = 3%nat.
Proof. destruct (C44_range nat ex_nrng ex_nrng_ok 0%nat 3 2 (1/100) (1/10) (1/10)) as (s' & b & mean & E & A & B & _); try lra. eauto 10. Qed.

(** ** C89 *)
Theorem C89_single_curve_refuted S (g : nrng S) : nrng_ok g -> forall h m rows labels gn i s mean std noise scaling,
  generator_over g h m rows labels 1 gn -> Forall (fun r => List.length r = m) rows -> List.length labels = List.length rows ->
  (i < List.length rows)%nat -> List.length mean = m -> List.length std = m ->
  exists s' x y, uniform_getitem g s h (mkIp (Some mean) (Some std)) gn noise scaling (Z.of_nat i) = Ok (s', h, mkIp (Some mean) (Some std), (A1 x, [y])) /\ List.length x = m.
Proof. exact (uniform_single g). Qed.
Print Assumptions C89_single_curve_refuted.
Theorem C89_uniform_shape_partial S (g : nrng S) : nrng_ok g -> forall h m rows labels bs gn i s mean std noise scaling,
  generator_over g h m rows labels bs gn -> Forall (fun r => List.length r = m) rows -> List.length labels = List.length rows ->
  (i < List.length rows / bs)%nat -> (2 <= bs)%nat -> List.length mean = m -> List.length std = m ->
  exists s' x ys, uniform_getitem g s h (mkIp (Some mean) (Some std)) gn noise scaling (Z.of_nat i) = Ok (s', h, mkIp (Some mean) (Some std), (x, ys)) /\
    shape x = [bs; m] /\ List.length ys = bs.
Proof. intros Hg h m rows labels bs gn i s mean std noise scaling H1 H2 H3 H4 H5 H6 H7.
  destruct (uniform_batch g Hg h m rows labels bs gn i s mean std noise scaling H1 H2 H3 H4 H5 H6 H7) as (s' & xs & ys & E & L & L' & _).
  exists s', (A2 m xs), ys. split; [exact E|]. split; [cbn; congruence|exact L']. Qed.
Print Assumptions C89_uniform_shape_partial.
Definition ex_gen1 : gen := mkGen 5 1 2 1 ex_ys false [0; 1; 2; 3; 4]%nat.
Example C89_example : exists s' x y, uniform_getitem ex_nrng 0%nat ex_heap (mkIp (Some [Some 4; Some 3]) (Some [Some 1; Some 2])) ex_gen1 noise_range scaling_range 3 =
  Ok (s', ex_heap, mkIp (Some [Some 4; Some 3]) (Some [Some 1; Some 2]), (A1 x, [y])) /\ List.length x = 2%nat.
Proof. apply (C89_single_curve_refuted nat ex_nrng ex_nrng_ok ex_heap 2 ex_curves ex_ys ex_gen1 3); try reflexivity; [|exact ex_curves_width|cbn; lia].
  exists 0%nat, 1%nat, false. do 2 eexists. exists [1; 2; 3]%nat. split; [reflexivity|]. split; [lia|]. split; reflexivity. Qed.

(** ** C90 *)
Theorem C90_callback_verbosity_refuted S K (g : nrng S) rnd (k : K) s t e bs verbose v s' h gt gv : prepare_generators g rnd s t bs v = Ok (s', (h, (gt, gv))) ->
  forall fit, train g rnd fit k s t e bs verbose v =
    ('(s'', k') <- fit k (mkFit h gt gv (tr_ip t) e verbose 1) s' ;;
     match tr_ip t with
     | None => Raise AttributeError
     | Some ip => match ip_mean ip, ip_std ip with Some mean, Some std => Ok (s'', mkTM (tr_sample t) k' (map Some (tr_q t)) mean std) | _, _ => Raise TypeError end
     end).
Proof. intros E fit. unfold train. rewrite E. reflexivity. Qed.
Print Assumptions C90_callback_verbosity_refuted.
Example C90_example : prepare_callbacks 0 None = 1%Z.
Proof. reflexivity. Qed.

(** ** C91 *)
Theorem C91_one_sample_refuted S (g : nrng S) : nrng_ok g -> forall refl1d s t s' t' e, named_sample (tr_sample t) -> st_layers (tr_sample t) <> [] ->
  generate_training_data g refl1d s t 1 = (s', t', e) -> e <> None /\ tr_ip t' = tr_ip t /\ (tr_data t' <> tr_data t -> e = Some TypeError).
Proof. exact (single_sample g). Qed.
Print Assumptions C91_one_sample_refuted.
Theorem C91_nonpositive S (g : nrng S) refl1d s t n : (n <= 0)%Z -> generate_training_data g refl1d s t n = (s, t, Some ValueError).
Proof. intros H. unfold generate_training_data. rewrite (C18_nonpositive_count S (nr_g g) s (tr_sample t) n _ H). reflexivity. Qed.
Print Assumptions C91_nonpositive.
Example C91_example : named_sample ex_sample /\ st_layers ex_sample <> [].
Proof. split; [exact ex_named|discriminate]. Qed.

(** ** C92 *)
Theorem C92_batch_size S (g : nrng S) rnd s t names m rows f bs v : has_data t names m rows f -> rounding rnd (List.length rows) -> 0 <= v <= 1 ->
  ((exists r, prepare_generators g rnd s t bs v = Ok r) <->
   (bs <= n_train rnd v (List.length rows) /\ bs <= Z.of_nat (List.length rows) - n_train rnd v (List.length rows))%Z).
Proof. exact (split_iff g rnd s t names m rows f bs v). Qed.
Print Assumptions C92_batch_size.
(** The documented condition (smaller than val_split times the set size) is enough up to val_split = 1/2, not beyond. *)
Theorem C92_documented_condition_partial S (g : nrng S) s t names m rows f bs v : has_data t names m rows f -> 0 <= v <= 1/2 -> IZR bs < v * INR (List.length rows) ->
  exists r, prepare_generators g (fun x => x) s t bs v = Ok r.
Proof. exact (documented_condition S g s t names m rows f bs v). Qed.
Print Assumptions C92_documented_condition_partial.
Theorem C92_documented_condition_refuted S (g : nrng S) s t names m rows f : has_data t names m rows f -> List.length rows = 4%nat ->
  IZR 2 < 3/4 * INR (List.length rows) /\ prepare_generators g (fun x => x) s t 2 (3/4) = Raise ValueError.
Proof. exact (documented_condition_fails S g s t names m rows f). Qed.
Print Assumptions C92_documented_condition_refuted.
Theorem C92_no_validation S (g : nrng S) rnd s t names m rows f bs : has_data t names m rows f -> rounding rnd (List.length rows) -> (0 < bs)%Z ->
  prepare_generators g rnd s t bs 0 = Raise ValueError.
Proof. exact (no_validation_part g rnd s t names m rows f bs). Qed.
Print Assumptions C92_no_validation.
Definition ex_frame4 : frame := mkFrame 4 (map (fun kc => (fst kc, snd kc ++ snd kc)%list) (fr_cols ex_frame)).
Example C92_example : has_data (mkTrainer ex_sample [1/10; 2/10] (Some (mkTdata ex_frame4 (A2 2 (ex_rows ++ ex_rows)))) None) ex_names 2 (ex_rows ++ ex_rows) ex_frame4.
Proof. split; [reflexivity|]. split; [exact ex_named|]. split; [|reflexivity]. split; [exact ex_label_names|]. split; [apply Permutation_refl|]. repeat constructor. Qed.

(** ** C120 *)
Theorem C120_uniform_noise S (g : nrng S) : nrng_ok g -> forall s a lo hi, wf_arr a -> exists s' b, apply_uniform_noise g s a lo hi = (s', b) /\ shape b = shape a /\ wf_arr b /\
  Forall2 (point_factors lo hi) (curves a) (curves b).
Proof. exact (uniform_noise_points g). Qed.
Print Assumptions C120_uniform_noise.
Example C120_example : exists s' b, apply_uniform_noise ex_nrng 0%nat (A1 [Some 1; None]) (9/10) (11/10) = (s', b) /\ shape b = [2%nat] /\ Forall2 (point_factors (9/10) (11/10)) [[Some 1; None]] (curves b).
Proof. destruct (C120_uniform_noise nat ex_nrng ex_nrng_ok 0%nat (A1 [Some 1; None]) (9/10) (11/10) I) as (s' & b & E & Sh & _ & F). exists s', b. split; [exact E|]. split; assumption. Qed.
