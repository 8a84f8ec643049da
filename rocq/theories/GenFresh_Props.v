(** Property C188: a UniformNoiseGenerator whose preprocessor has no statistics, and generators with too few labels.
    Sources: /repo/mlreflect/training/noise_generator.py (28-46, 80-109, 122-132, 142-169), preprocessing.py (40-60); the models are Generator_Model and Preproc_Model. *)
From Coq Require Import Reals Lra Lia.
From Coquelicot Require Import Complex.
From Verif Require Import Py Str Cplx Arr Preproc_Model Preproc_Spec Preproc_Proofs NRng Noise_Model Noise_Spec Noise_Proofs Generator_Model Generator_Spec Generator_Proofs Generator_Props.
Local Open Scope string_scope.
Local Open Scope R_scope.

Lemma standardized_rows m x : Forall (fun c => List.length c = m) x -> standardized m x = A2 m (map (standardised_row (by_column fmean m x) (spec_std m x)) x).
Proof. intros Hw. pose proof (standardise_rows (by_column fmean m x) (spec_std m x) m x (length_by_column _ _ _) (length_by_column _ _ _) Hw) as E.
  unfold standardize in E. cbn [ip_mean ip_std] in E. rewrite row_op_A2 in E by apply length_by_column. cbn [bind] in E. rewrite row_op_A2 in E by apply length_by_column. injection E as E. unfold standardized. f_equal. exact E. Qed.
Lemma pick_short {A} (l : list A) : forall idx, Exists (fun i => (List.length l <= i)%nat) idx -> pick l idx = Raise IndexError.
Proof. unfold pick. induction 1 as [i idx Hi|i idx _ IH]; cbn [mapM]; [apply nth_error_None in Hi; rewrite Hi; reflexivity|].
  destruct (nth_error l i); cbn [bind]; [|reflexivity]. rewrite IH. reflexivity. Qed.

Section Fresh.
  Context {S : Type} (g : nrng S) (Hg : nrng_ok g).

  Lemma uniform_fresh h m rows labels bs gn i s noise scaling :
    generator_over g h m rows labels bs gn -> Forall (fun r => List.length r = m) rows -> List.length labels = List.length rows ->
    (i < List.length rows / bs)%nat -> (2 <= bs)%nat ->
    exists noisy, List.length noisy = bs /\ Forall (fun r => List.length r = m) noisy /\
      (forall p j, nth_error (batch_indexes gn (Z.of_nat i)) p = Some j ->
         exists curve k r, nth_error rows j = Some curve /\ Rmin (fst scaling) (snd scaling) <= k <= Rmax (fst scaling) (snd scaling) /\ uniform_link (fst noise) (snd noise) k curve r /\ nth_error noisy p = Some r) /\
      ((has_constant_column m noisy /\ uniform_getitem g s h ip_new gn noise scaling (Z.of_nat i) = Raise ValueError) \/
       (~ has_constant_column m noisy /\ exists s' mean std ys, column_statistics avg m noisy mean /\ column_statistics dev m noisy std /\ List.length ys = bs /\
          (forall p j, nth_error (batch_indexes gn (Z.of_nat i)) p = Some j -> nth_error ys p = nth_error labels j) /\
          uniform_getitem g s h ip_new gn noise scaling (Z.of_nat i) = Ok (s', h, mkIp (Some mean) (Some std), (A2 m (map (standardised_row mean std) noisy), ys)))).
  Proof. intros Hgn Hw Hl Hi Hb. destruct (picked g Hg h m rows labels bs gn Hgn Hw i Hi) as (x & Ex & Fx & Lx & Wx).
    destruct (picked_labels g Hg h m rows labels bs gn Hgn i Hi Hl) as (y & Ey & Fy).
    assert (Hx : x <> []) by (destruct x; [cbn in Lx; lia|discriminate]).
    destruct (uniform_scaled g Hg s m x (fst noise) (snd noise) (fst scaling) (snd scaling) Wx Hx) as (s1 & s2 & a & b & xs & E1 & E2 & Ec & Eb & F).
    assert (Eb' : b = A2 m xs) by (destruct x as [|? [|]]; [congruence|cbn in Lx; lia|exact Eb]). subst b.
    assert (Lb : List.length (batch_indexes gn (Z.of_nat i)) = bs) by (exact (batch_length g Hg h m rows labels bs gn Hgn i Hi)).
    assert (Wxs : Forall (fun c => List.length c = m) xs).
    { clear - F Wx. induction F as [|r r' x xs (k & _ & Hk) _ IH]; constructor; inversion Wx; subst; [|auto]. eapply uniform_link_length. exact Hk. }
    pose proof (Forall2_len F) as L3. exists xs. split; [lia|]. split; [exact Wxs|]. split.
    { intros p j Hp. destruct (Forall2_nth_l _ _ _ _ _ _ _ Fx Hp) as (curve & Hc & Hcr). destruct (Forall2_nth_l _ _ _ _ _ _ _ F Hc) as (r & Hr & k & Bk & Hk). exists curve, k, r. auto. }
    unfold uniform_getitem. rewrite (deref_refl g Hg h m rows labels bs gn Hgn). cbn [bind]. rewrite Ex. cbn [bind]. rewrite E1, E2. destruct (standardize_fresh m xs Wxs) as [C1 C2].
    destruct (existsb is_zero (spec_std m xs)) eqn:Z; [left|right].
    - apply zero_std in Z. split; [exact Z|]. rewrite (C1 Z). reflexivity.
    - assert (N : ~ has_constant_column m xs) by (intros H; apply zero_std in H; congruence). split; [exact N|]. rewrite (C2 N). cbn [bind]. rewrite Ey. cbn [bind]. rewrite standardized_rows by exact Wxs.
      exists s2, (by_column fmean m xs), (spec_std m xs), y. split; [apply mean_statistics|]. split; [apply std_statistics|]. split; [apply Forall2_len in Fy; lia|]. split; [|reflexivity].
      intros p j Hp. destruct (Forall2_nth_l _ _ _ _ _ _ _ Fy Hp) as (lab & Hlab & Hlr). congruence. Qed.
End Fresh.

(** ** C188 *)
(** With a preprocessor without statistics the first batch, after noise and scaling, gives the mean and standard deviation that are saved; it is refused if one of its columns is constant. *)
Theorem C188_first_batch S (g : nrng S) : nrng_ok g -> forall h m rows labels bs gn i s noise scaling,
  generator_over g h m rows labels bs gn -> Forall (fun r => List.length r = m) rows -> List.length labels = List.length rows -> (i < List.length rows / bs)%nat -> (2 <= bs)%nat ->
  exists noisy, List.length noisy = bs /\ Forall (fun r => List.length r = m) noisy /\
    (forall p j, nth_error (batch_indexes gn (Z.of_nat i)) p = Some j ->
       exists curve k r, nth_error rows j = Some curve /\ Rmin (fst scaling) (snd scaling) <= k <= Rmax (fst scaling) (snd scaling) /\ uniform_link (fst noise) (snd noise) k curve r /\ nth_error noisy p = Some r) /\
    ((has_constant_column m noisy /\ uniform_getitem g s h ip_new gn noise scaling (Z.of_nat i) = Raise ValueError) \/
     (~ has_constant_column m noisy /\ exists s' mean std ys, column_statistics avg m noisy mean /\ column_statistics dev m noisy std /\ List.length ys = bs /\
        (forall p j, nth_error (batch_indexes gn (Z.of_nat i)) p = Some j -> nth_error ys p = nth_error labels j) /\
        uniform_getitem g s h ip_new gn noise scaling (Z.of_nat i) = Ok (s', h, mkIp (Some mean) (Some std), (A2 m (map (standardised_row mean std) noisy), ys)))).
Proof. exact (uniform_fresh g). Qed.
Print Assumptions C188_first_batch.
(** All later batches are standardised with the statistics of the first one, whatever they contain. *)
Theorem C188_later_batches S (g : nrng S) : nrng_ok g -> forall h m rows labels bs gn i s noise scaling s1 h1 ip1 b1 states s3 gn' i',
  generator_over g h m rows labels bs gn -> Forall (fun r => List.length r = m) rows -> List.length labels = List.length rows -> (i < List.length rows / bs)%nat -> (i' < List.length rows / bs)%nat -> (2 <= bs)%nat ->
  uniform_getitem g s h ip_new gn noise scaling (Z.of_nat i) = Ok (s1, h1, ip1, b1) -> epochs g states gn = gn' ->
  exists mean std s4 xs ys, ip1 = mkIp (Some mean) (Some std) /\ h1 = h /\ uniform_getitem g s3 h1 ip1 gn' noise scaling (Z.of_nat i') = Ok (s4, h, ip1, (A2 m xs, ys)) /\ List.length ys = bs /\
    forall p j, nth_error (batch_indexes gn' (Z.of_nat i')) p = Some j -> exists curve c r, nth_error rows j = Some curve /\ Rmin (fst scaling) (snd scaling) <= c <= Rmax (fst scaling) (snd scaling) /\
      uniform_link (fst noise) (snd noise) c curve r /\ nth_error xs p = Some (standardised_row mean std r).
Proof. intros Hg h m rows labels bs gn i s noise scaling s1 h1 ip1 b1 states s3 gn' i' Hgn Hw Hl Hi Hi' Hb E Ek.
  destruct (uniform_fresh g Hg h m rows labels bs gn i s noise scaling Hgn Hw Hl Hi Hb) as (noisy & _ & _ & _ & [(_ & B)|(_ & s' & mean & std & ys & [Lm _] & [Ls _] & _ & _ & B)]); rewrite B in E; [discriminate|]. injection E as <- <- <- <-.
  assert (Hgn' : generator_over g h m rows labels bs gn') by (rewrite <- Ek; apply generator_later; exact Hgn).
  destruct (uniform_batch g Hg h m rows labels bs gn' i' s3 mean std noise scaling Hgn' Hw Hl Hi' Hb Lm Ls) as (s4 & xs & ys' & B' & _ & L & _ & K).
  exists mean, std, s4, xs, ys'. split; [reflexivity|]. split; [reflexivity|]. split; [exact B'|]. split; [exact L|]. intros p j Hp. destruct (K p j Hp) as (curve & c & r & lab & A & B0 & C & D & _). exists curve, c, r. auto. Qed.
Print Assumptions C188_later_batches.
(** A batch of one curve is one-dimensional and cannot give statistics. *)
Theorem C188_single_curve S (g : nrng S) : nrng_ok g -> forall h m rows labels gn i s noise scaling,
  generator_over g h m rows labels 1 gn -> Forall (fun r => List.length r = m) rows -> (i < List.length rows)%nat ->
  uniform_getitem g s h ip_new gn noise scaling (Z.of_nat i) = Raise TypeError.
Proof. intros Hg h m rows labels gn i s noise scaling Hgn Hw Hi. rewrite <- (Nat.div_1_r (List.length rows)) in Hi. destruct (picked g Hg h m rows labels 1 gn Hgn Hw i Hi) as (x & Ex & _ & Lx & Wx).
  destruct x as [|r [|]]; try discriminate.
  destruct (uniform_scaled g Hg s m [r] (fst noise) (snd noise) (fst scaling) (snd scaling) Wx) as (s1 & s2 & a & b & xs & E1 & E2 & Ec & (r' & Eb) & F); [discriminate|]. subst b.
  unfold uniform_getitem. rewrite (deref_refl g Hg h m rows labels 1 gn Hgn). cbn [bind]. rewrite Ex. cbn [bind]. rewrite E1, E2. reflexivity. Qed.
Print Assumptions C188_single_curve.

(** The generator [gn] with other labels *)
Definition relabelled (gn : gen) (labels : list (list cell)) : gen := mkGen (gn_n gn) (gn_bs gn) (gn_input gn) (gn_refl gn) labels (gn_shuffle gn) (gn_idx gn).
(** The constructors accept fewer labels than curves; a batch with a curve that has no label then raises IndexError. *)
Theorem C188_missing_labels S (g : nrng S) gn labels i : Exists (fun j => (List.length labels <= j)%nat) (batch_indexes gn i) ->
  (forall h fs r, base_getitem h gn fs i = Ok r -> base_getitem h (relabelled gn labels) fs i = Raise IndexError) /\
  (forall s h ip mode noise background spread r, noise_getitem g s h ip gn mode noise background spread i = Ok r -> noise_getitem g s h ip (relabelled gn labels) mode noise background spread i = Raise IndexError) /\
  (forall s h ip noise scaling r, uniform_getitem g s h ip gn noise scaling i = Ok r -> uniform_getitem g s h ip (relabelled gn labels) noise scaling i = Raise IndexError) /\
  (forall s h mode noise background spread r, log_getitem g s h gn mode noise background spread i = Ok r -> log_getitem g s h (relabelled gn labels) mode noise background spread i = Raise IndexError).
Proof. intros Hx. assert (P : pick labels (batch_indexes gn i) = Raise IndexError) by (apply pick_short; exact Hx).
  assert (B : batch_indexes (relabelled gn labels) i = batch_indexes gn i) by reflexivity. split; [|split; [|split]].
  - intros h fs r E. unfold base_getitem in *. rewrite B. cbn [relabelled gn_refl gn_labels]. destruct (deref h (gn_refl gn)) as [a|]; cbn [bind] in *; [|discriminate]. destruct (fancy a (batch_indexes gn i)); cbn [bind] in *; [|discriminate]. rewrite P. reflexivity.
  - intros s h ip mode noise background spread r E. unfold noise_getitem in *. rewrite B. change (noisy_batch g s h (relabelled gn labels)) with (noisy_batch g s h gn). cbn [relabelled gn_labels].
    destruct (has_saved ip) as [[|]|]; cbn [bind negb] in *; try discriminate. destruct (noisy_batch _ _ _ _ _ _ _ _ _) as [[s1 [h1 r1]]|]; cbn [bind] in *; [|discriminate]. destruct (deref h1 r1) as [a|]; cbn [bind] in *; [|discriminate].
    destruct (standardize ip a) as [ip' [x|]]; cbn [bind] in *; [|discriminate]. rewrite P. reflexivity.
  - intros s h ip noise scaling r E. unfold uniform_getitem in *. rewrite B. cbn [relabelled gn_refl gn_labels]. destruct (deref h (gn_refl gn)) as [a|]; cbn [bind] in *; [|discriminate]. destruct (fancy a (batch_indexes gn i)); cbn [bind] in *; [|discriminate].
    destruct (apply_uniform_noise _ _ _ _ _) as [s1 x1]. destruct (apply_scaling_factor _ _ _ _ _) as [s2 x2]. destruct (standardize ip x2) as [ip' [x|]]; cbn [bind] in *; [|discriminate]. rewrite P. reflexivity.
  - intros s h mode noise background spread r E. unfold log_getitem in *. rewrite B. change (noisy_batch g s h (relabelled gn labels)) with (noisy_batch g s h gn). cbn [relabelled gn_labels].
    destruct (noisy_batch _ _ _ _ _ _ _ _ _) as [[s1 [h1 r1]]|]; cbn [bind] in *; [|discriminate]. destruct (deref h1 r1) as [a|]; cbn [bind] in *; [|discriminate]. rewrite P. reflexivity. Qed.
Print Assumptions C188_missing_labels.

Example C188_example : generator_over ex_nrng ex_heap 2 ex_curves ex_ys 2 ex_gen /\ Forall (fun r => List.length r = 2%nat) ex_curves /\ List.length ex_ys = List.length ex_curves /\ (1 < List.length ex_curves / 2)%nat.
Proof. split; [exact C38_example|]. split; [exact ex_curves_width|]. split; [reflexivity|cbn; lia]. Qed.
Example C188_example_labels : Exists (fun j => (List.length (firstn 2 ex_ys) <= j)%nat) (batch_indexes ex_gen 1).
Proof. vm_compute. first [left; lia|right; left; lia]. Qed.
