(** Properties C14-C18: random sampling and label generation. *)
From Coq Require Import Reals Lra.
From Coquelicot Require Import Complex.
From Verif Require Import Py Str Sample_Model Sample_Spec Sample_Proofs Sample_Props Rng Sampling_Model Sampling_Spec
  Sampling_Proofs Labels_Proofs.
Local Open Scope string_scope.
Local Open Scope R_scope.

(** ** C14 *)
Theorem C14_range_sampling S (g : rng S) : rng_ok g -> forall s p n dp s' cs,
  dp_type dp <> "bolstered" -> valid_param p -> num_im (p_min p) <= num_im (p_max p) ->
  sample_param g s p n dp = Ok (s', cs) -> fitting_column n p cs.
Proof. exact (range_sampling g). Qed.
Print Assumptions C14_range_sampling.

(** Uniform sampling of a real range never fails; logarithmic sampling succeeds exactly on positive ranges. *)
Theorem C14_succeeds_exactly S (g : rng S) s lo hi nm n dp : (0 <= n)%Z -> lo <= hi ->
  (dp_type dp = "uniform" -> exists s' cs, sample_param g s (Range (Flt lo) (Flt hi) nm) n dp = Ok (s', cs)) /\
  (dp_type dp = "logarithmic" ->
    ((exists s' cs, sample_param g s (Range (Flt lo) (Flt hi) nm) n dp = Ok (s', cs)) <-> 0 < lo)).
Proof. exact (range_sampling_succeeds g s lo hi nm n dp). Qed.
Print Assumptions C14_succeeds_exactly.

Example C14_example : exists s' x y z, sample_param ex_rng 0%nat (Range (Cpx false 1 0) (Cpx false 3 1) None) 3 (mkDparams "uniform" 0 0) = Ok (s', [(1, (0 + 1) / 2); x; (y, z)]).
Proof. do 4 eexists. unfold sample_param, Reqb. simpl. destruct (Req_EM_T 0 0); [|contradiction]. destruct (Req_EM_T 1 0); [lra|]. reflexivity. Qed.

(** ** C15 *)
Theorem C15_bolstered_count S (g : rng S) : rng_ok g -> forall s lo hi n f w, lo <= hi -> (0 <= n)%Z -> 0 <= f <= 1 -> 0 <= w ->
  exists s' xs nb s1 s2 s3 bmin uni bmax fmin fmax, sample_distribution g s n (mkDparams "bolstered" f w) lo hi = Ok (s', xs) /\
    List.length xs = Z.to_nat n /\
    IZR nb <= IZR n * f / 2 < IZR nb + 1 /\ List.length bmin = Z.to_nat nb /\ List.length bmax = Z.to_nat nb /\
    List.length uni = Z.to_nat (n - 2 * nb) /\ Forall (between lo hi) uni /\
    rng_normal g s1 lo (w * (hi - lo)) (Z.to_nat nb) = (s2, bmin) /\ rng_normal g s2 hi (w * (hi - lo)) (Z.to_nat nb) = (s3, bmax) /\
    Forall2 (reflected lo hi) bmin fmin /\ Forall2 (reflected lo hi) bmax fmax /\
    Permutation (fmin ++ uni ++ fmax)%list xs.
Proof. exact (bolstered_count g). Qed.
Print Assumptions C15_bolstered_count.

(** Outside [0, 1] the fraction can make the call fail. *)
Theorem C15_fraction_above_two_fails S (g : rng S) s lo hi n f w : (0 < n)%Z -> 2 < IZR n * (f - 1) -> 
  sample_distribution g s n (mkDparams "bolstered" f w) lo hi = Raise ValueError.
Proof. exact (bolstered_fails g s lo hi n f w). Qed.
Print Assumptions C15_fraction_above_two_fails.

Example C15_example : exists s' xs, sample_distribution ex_rng 0%nat 3 (mkDparams "bolstered" 1 (1/10)) 0 1 = Ok (s', xs) /\
  List.length xs = 3%nat.
Proof. destruct (bolstered_count ex_rng ex_rng_ok 0%nat 0 1 3 1 (1/10)) as (s' & xs & _ & _ & _ & _ & _ & _ & _ & _ & _ & H & L & _); try lra; [lia|]. eauto. Qed.

(** ** C16: folding reflects once, so a draw more than one span outside of the range stays outside. *)
Theorem C16_bolstered_in_range_partial S (g : rng S) : rng_ok g -> forall s lo hi n f w s' xs k,
  lo <= hi -> 0 <= k -> tails_within g k -> k * w <= 1 ->
  sample_distribution g s n (mkDparams "bolstered" f w) lo hi = Ok (s', xs) -> Forall (between lo hi) xs.
Proof. exact (bolstered_in_range g). Qed.
Print Assumptions C16_bolstered_in_range_partial.

Theorem C16_fold_exact lo hi x y : lo <= hi -> reflected lo hi x y ->
  (between lo hi y <-> between (lo - (hi - lo)) (hi + (hi - lo)) x).
Proof. exact (reflected_iff lo hi x y). Qed.
Print Assumptions C16_fold_exact.

Theorem C16_bolstered_in_range_refuted : exists S (g : rng S) s s' xs, rng_ok g /\
  sample_distribution g s 2 (mkDparams "bolstered" 1 1) 0 1 = Ok (s', xs) /\ ~ Forall (between 0 1) xs.
Proof. exact bolstered_leaves_range. Qed.
Print Assumptions C16_bolstered_in_range_refuted.

Example C16_example : tails_within ex_rng 10 /\ 10 * (1/10) <= 1.
Proof. split; [apply ex_rng_tails; lra|lra]. Qed.

(** ** C17 *)
Theorem C17_roughness_coupled S (g : rng S) : rng_ok g -> forall s smp n dp s' t,
  ordinary_sample smp -> NoDup (map l_name (all_layers smp)) -> tame g dp ->
  generate_random_labels g s smp n dp = Ok (s', t) ->
  forall l pr ct cr, In l (st_layers smp) -> l_roughness l = Some pr ->
  In (l_name l ++ "_thickness", ct) t -> In (l_name l ++ "_roughness", cr) t ->
  Forall2 (fun t r => coupled pr (fst t) (fst r)) ct cr.
Proof. exact (generated_coupled g). Qed.
Print Assumptions C17_roughness_coupled.

Theorem C17_uniform_is_tame S (g : rng S) dp : dp_type dp <> "bolstered" -> tame g dp.
Proof. exact (uniform_tame g dp). Qed.
Print Assumptions C17_uniform_is_tame.

(** All drawn parameters lie in their ranges. *)
Theorem C17_labels_in_range S (g : rng S) : rng_ok g -> forall s smp n dp s' t,
  ordinary_sample smp -> NoDup (map l_name (all_layers smp)) -> tame g dp ->
  generate_random_labels g s smp n dp = Ok (s', t) ->
  forall l p c, In l (all_layers smp) -> num_im (p_min p) <= num_im (p_max p) ->
  (l_sld l = Some p /\ In (l_name l ++ "_sld", c) t) \/ (l_thickness l = Some p /\ In (l_name l ++ "_thickness", c) t) \/
    (l_roughness l = Some p /\ In (l_name l ++ "_roughness", c) t) ->
  fitting_column n p c.
Proof. exact (generated_in_range g). Qed.
Print Assumptions C17_labels_in_range.

Example C17_example : exists s' t ct cr, generate_random_labels ex_rng 0%nat ex_sample 4 (mkDparams "uniform" 0 0) = Ok (s', t) /\
  In ("film_thickness", ct) t /\ In ("film_roughness", cr) t /\ List.length ct = 4%nat /\ List.length cr = 4%nat.
Proof. exact (generated_film ex_sample ex_film C03_example C02_example ltac:(simpl; auto) 4 ltac:(lia)). Qed.

(** ** C18 *)
Theorem C18_table_shape S (g : rng S) : rng_ok g -> forall s smp n dp s' t,
  ordinary_sample smp -> NoDup (map l_name (all_layers smp)) ->
  generate_random_labels g s smp n dp = Ok (s', t) ->
  (0 < n)%Z /\ label_names smp = Ok (map fst t) /\ Forall (fun kc => List.length (snd kc) = Z.to_nat n) t.
Proof. exact (generated_shape g). Qed.
Print Assumptions C18_table_shape.

Theorem C18_constant_columns S (g : rng S) : rng_ok g -> forall s smp n dp s' t,
  ordinary_sample smp -> NoDup (map l_name (all_layers smp)) ->
  generate_random_labels g s smp n dp = Ok (s', t) ->
  forall l v nm c, In l (all_layers smp) ->
  (l_sld l = Some (Const v nm) /\ In (l_name l ++ "_sld", c) t) \/
    (l_thickness l = Some (Const v nm) /\ In (l_name l ++ "_thickness", c) t) \/
    (l_roughness l = Some (Const v nm) /\ In (l_name l ++ "_roughness", c) t) ->
  c = repeat (num_re v, num_im v) (Z.to_nat n).
Proof. exact (generated_constants g). Qed.
Print Assumptions C18_constant_columns.

Theorem C18_generation_succeeds S (g : rng S) : rng_ok g -> forall s smp n dp,
  storable_sample smp -> NoDup (map l_name (all_layers smp)) -> safe_dist dp -> (0 < n)%Z ->
  exists s' t, generate_random_labels g s smp n dp = Ok (s', t).
Proof. exact (generate_total g). Qed.
Print Assumptions C18_generation_succeeds.

Theorem C18_nonpositive_count S (g : rng S) s smp n dp : (n <= 0)%Z -> generate_random_labels g s smp n dp = Raise ValueError.
Proof. exact (generate_nonpositive g s smp n dp). Qed.
Print Assumptions C18_nonpositive_count.

Example C18_example : exists s' t, generate_random_labels ex_rng 0%nat ex_sample 4 (mkDparams "bolstered" (1/2) (1/10)) = Ok (s', t).
Proof. apply (generate_total ex_rng ex_rng_ok); [exact C03_example|exact C02_example| |lia]. right. simpl. split; [reflexivity|]. lra. Qed.
