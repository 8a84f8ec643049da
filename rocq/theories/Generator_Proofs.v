From Coq Require Import Reals Lra.
From Verif Require Import Py Str Rng Sampling_Model Arr Preproc_Model Preproc_Spec NRng Noise_Model Noise_Spec Noise_Proofs Generator_Model Generator_Spec.
Local Open Scope R_scope.

(** ** Lists *)
Lemma Forall2_nth_l A B (P : A -> B -> Prop) l l' p a : Forall2 P l l' -> nth_error l p = Some a -> exists b, nth_error l' p = Some b /\ P a b.
Proof. intros F. revert p. induction F as [|x y l l' H _ IH]; intros [|p] E; try discriminate; cbn in *.
  - injection E as <-. eauto.
  - auto. Qed.
Lemma Forall2_imp A B (P Q : A -> B -> Prop) l l' : (forall a b, P a b -> Q a b) -> Forall2 P l l' -> Forall2 Q l l'.
Proof. intros H F. induction F; constructor; auto. Qed.
Lemma Forall2_map_r A B C (P : A -> C -> Prop) (f : B -> C) l l' : Forall2 (fun a b => P a (f b)) l l' -> Forall2 P l (map f l').
Proof. intros F. induction F; constructor; auto. Qed.
Lemma Forall2_combine_l A B C (P : A -> C -> Prop) (l : list A) (ks : list B) (l' : list C) : List.length ks = List.length l ->
  Forall2 (fun rk r' => P (fst rk) r') (combine l ks) l' -> Forall2 P l l'.
Proof. revert ks l'. induction l as [|a l IH]; intros [|k ks] l' L F; try discriminate; cbn in *; inversion F; subst; constructor; [assumption|]. eapply IH; [|eassumption]. lia. Qed.

Lemma firstn_plus A a b (l : list A) : firstn (a + b) l = (firstn a l ++ firstn b (skipn a l))%list.
Proof. revert l. induction a as [|a IH]; intros l; [reflexivity|]. destruct l as [|x l]; cbn; [now rewrite firstn_nil|]. now rewrite IH. Qed.

Lemma NoDup_app_l A (l l' : list A) : NoDup (l ++ l')%list -> NoDup l.
Proof. induction l as [|a l IH]; cbn; intros H; [constructor|]. inversion H as [|? ? N D]; subst. constructor; [|auto]. intros Hi. apply N, in_app_iff. auto. Qed.

Lemma py_slice_nat A (l : list A) a b : (a <= b)%nat -> (b <= List.length l)%nat -> py_slice l (Some (Z.of_nat a)) (Some (Z.of_nat b)) = firstn (b - a) (skipn a l).
Proof. intros H1 H2. unfold py_slice. rewrite !clamp_idx_nat. rewrite !Nat.min_l by lia. reflexivity. Qed.

Lemma pick_Ok A (l : list A) idx : Forall (fun i => (i < List.length l)%nat) idx ->
  exists l', pick l idx = Ok l' /\ Forall2 (fun i x => nth_error l i = Some x) idx l'.
Proof. unfold pick. induction 1 as [|i idx Hi _ IH]; [exists []; split; [reflexivity|constructor]|]. destruct IH as (l' & E & F).
  cbn [mapM]. destruct (nth_error l i) as [x|] eqn:Ex; [|apply nth_error_None in Ex; lia]. cbn [bind]. rewrite E. cbn [bind]. exists (x :: l'). split; [reflexivity|]. constructor; assumption. Qed.

Lemma nth_error_alloc h a : nth_error (fst (alloc h a)) (snd (alloc h a)) = Some a.
Proof. cbn. rewrite nth_error_app2 by lia. rewrite Nat.sub_diag. reflexivity. Qed.

(** ** The generator's index list *)
Section P.
  Context {S : Type} (g : nrng S) (Hg : nrng_ok g).

  Lemma shuffle_permutes s b l : Permutation l (snd (do_shuffle g s b l)).
  Proof. destruct b; cbn; [apply (perm_perm Hg)|apply Permutation_refl]. Qed.

  Lemma epochs_keep states : forall gn gn', epochs g states gn = gn' ->
    gn_n gn' = gn_n gn /\ gn_bs gn' = gn_bs gn /\ gn_input gn' = gn_input gn /\ gn_refl gn' = gn_refl gn /\ gn_labels gn' = gn_labels gn /\
    Permutation (gn_idx gn) (gn_idx gn').
  Proof. unfold epochs. induction states as [|s states IH]; intros gn gn' H.
    - cbn in H. subst gn'. repeat split; auto.
    - cbn [fold_left] in H. unfold epoch_end at 2 in H. pose proof (shuffle_permutes s (gn_shuffle gn) (gn_idx gn)) as Hp.
      destruct (do_shuffle g s (gn_shuffle gn) (gn_idx gn)) as [s1 idx]. simpl in Hp. cbn [snd] in H. apply IH in H. cbn in H. destruct H as (A & B & D & E & F & G).
      repeat split; auto. eapply Permutation_trans; eassumption. Qed.

  Lemma generator_facts h m rows labels bs gn : generator_over g h m rows labels bs gn ->
    (0 < bs <= List.length rows)%nat /\ gn_n gn = List.length rows /\ gn_bs gn = Z.of_nat bs /\ gn_input gn = m /\
    nth_error h (gn_refl gn) = Some (A2 m rows) /\ gn_labels gn = labels /\ Permutation (seq 0 (List.length rows)) (gn_idx gn).
  Proof. intros (s & refl & sh & s1 & gn0 & states & Hr & Hb & Hn & He). unfold gen_new, deref in Hn. rewrite Hr in Hn. cbn [bind] in Hn.
    destruct (Z.of_nat (List.length rows) <? Z.of_nat bs)%Z eqn:Eb; [discriminate|].
    pose proof (shuffle_permutes s sh (seq 0 (List.length rows))) as Hp. destruct (do_shuffle g s sh (seq 0 (List.length rows))) as [s0 idx]. simpl in Hp.
    injection Hn as <- <-. apply epochs_keep in He. cbn in He. destruct He as (A & B & D & E & F & G).
    split; [lia|]. repeat split; auto; [rewrite E; exact Hr|]. eapply Permutation_trans; eassumption. Qed.

  Section Over.
    Context (h : heap) (m : nat) (rows : list (list fl)) (labels : list (list cell)) (bs : nat) (gn : gen).
    Hypothesis (Hgn : generator_over g h m rows labels bs gn).
    Let n := List.length rows.

    Lemma idx_length : List.length (gn_idx gn) = n.
    Proof. destruct (generator_facts _ _ _ _ _ _ Hgn) as (_ & _ & _ & _ & _ & _ & P). apply Permutation_length in P. rewrite seq_length in P. unfold n. lia. Qed.
    Lemma idx_lt : Forall (fun i => (i < n)%nat) (gn_idx gn).
    Proof. destruct (generator_facts _ _ _ _ _ _ Hgn) as (_ & _ & _ & _ & _ & _ & P). eapply Permutation_Forall; [exact P|]. apply Forall_forall. intros i Hi. apply in_seq in Hi. unfold n. lia. Qed.

    Lemma gen_len_Ok : gen_len gn = Ok (Z.of_nat (n / bs)).
    Proof. destruct (generator_facts _ _ _ _ _ _ Hgn) as (Hb & En & Eb & _). unfold gen_len. rewrite Eb, En.
      replace (Z.of_nat bs =? 0)%Z with false by lia. rewrite <- Nat2Z.inj_div.
      replace (Z.of_nat (List.length rows / bs) <? 0)%Z with false by lia. reflexivity. Qed.

    Lemma batch_inside i : (i < n / bs)%nat -> ((i + 1) * bs <= n)%nat.
    Proof. intros H. destruct (generator_facts _ _ _ _ _ _ Hgn) as (Hb & _). pose proof (Nat.mul_div_le n bs). nia. Qed.

    Lemma batch_eq i : (i < n / bs)%nat -> batch_indexes gn (Z.of_nat i) = firstn bs (skipn (i * bs) (gn_idx gn)).
    Proof. intros H. pose proof (batch_inside i H) as Hi. destruct (generator_facts _ _ _ _ _ _ Hgn) as (Hb & _ & Eb & _). unfold batch_indexes. rewrite Eb.
      replace (Z.of_nat i * Z.of_nat bs)%Z with (Z.of_nat (i * bs)) by lia. replace ((Z.of_nat i + 1) * Z.of_nat bs)%Z with (Z.of_nat ((i + 1) * bs)) by lia.
      rewrite py_slice_nat; [|lia|rewrite idx_length; exact Hi]. f_equal. lia. Qed.

    Lemma batch_length i : (i < n / bs)%nat -> List.length (batch_indexes gn (Z.of_nat i)) = bs.
    Proof. intros H. pose proof (batch_inside i H) as Hi. rewrite batch_eq by exact H. rewrite firstn_length, skipn_length, idx_length. lia. Qed.

    Lemma batch_lt i : (i < n / bs)%nat -> Forall (fun j => (j < n)%nat) (batch_indexes gn (Z.of_nat i)).
    Proof. intros H. rewrite batch_eq by exact H. apply Forall_forall. intros j Hj. pose proof idx_lt as F. rewrite Forall_forall in F. apply F.
      rewrite <- (firstn_skipn (i * bs) (gn_idx gn)). apply in_app_iff. right. rewrite <- (firstn_skipn bs (skipn (i * bs) (gn_idx gn))). apply in_app_iff. auto. Qed.

    Lemma batches_concat k : (k <= n / bs)%nat -> List.concat (batches gn k) = firstn (k * bs) (gn_idx gn).
    Proof. unfold batches. induction k as [|k IH]; intros H; [reflexivity|]. rewrite seq_S, map_app, List.concat_app. cbn [map List.concat Nat.add]. rewrite app_nil_r, IH by lia.
      rewrite batch_eq by lia. replace (Datatypes.S k * bs)%nat with (k * bs + bs)%nat by lia.
      symmetry. apply firstn_plus. Qed.

    Lemma epoch_batches : gen_len gn = Ok (Z.of_nat (n / bs)) /\
      (forall i, (i < n / bs)%nat -> List.length (batch_indexes gn (Z.of_nat i)) = bs /\ Forall (fun j => (j < n)%nat) (batch_indexes gn (Z.of_nat i))) /\
      NoDup (List.concat (batches gn (n / bs))) /\
      exists rest, Permutation (seq 0 n) (List.concat (batches gn (n / bs)) ++ rest) /\ List.length rest = (n mod bs)%nat.
    Proof. split; [exact gen_len_Ok|]. split; [intros i Hi; split; [apply batch_length|apply batch_lt]; exact Hi|].
      destruct (generator_facts _ _ _ _ _ _ Hgn) as (Hb & _ & _ & _ & _ & _ & P). rewrite batches_concat by lia.
      assert (D : NoDup (gn_idx gn)) by (eapply Permutation_NoDup; [exact P|apply seq_NoDup]).
      rewrite <- (firstn_skipn (n / bs * bs) (gn_idx gn)) in D. split.
      - apply NoDup_app_l in D. exact D.
      - exists (skipn (n / bs * bs) (gn_idx gn)). rewrite firstn_skipn. split; [exact P|]. rewrite skipn_length, idx_length.
        pose proof (Nat.div_mod n bs ltac:(lia)). lia. Qed.

    (** ** Data *)
    Hypothesis (Hw : Forall (fun r => List.length r = m) rows).
    Context (i : nat).
    Hypothesis (Hi : (i < n / bs)%nat).
    Let idx := batch_indexes gn (Z.of_nat i).

    Lemma deref_refl : deref h (gn_refl gn) = Ok (A2 m rows).
    Proof. destruct (generator_facts _ _ _ _ _ _ Hgn) as (_ & _ & _ & _ & E & _). unfold deref. rewrite E. reflexivity. Qed.

    Lemma picked : exists x, fancy (A2 m rows) idx = Ok (A2 m x) /\ Forall2 (fun j r => nth_error rows j = Some r) idx x /\
      List.length x = bs /\ Forall (fun r => List.length r = m) x.
    Proof. destruct (pick_Ok _ rows idx (batch_lt i Hi)) as (x & E & F). exists x. unfold fancy. rewrite E. cbn [bind]. split; [reflexivity|]. split; [exact F|]. split.
      - apply Forall2_len in F. unfold idx in F. rewrite batch_length in F by exact Hi. exact (eq_sym F).
      - clear E. induction F as [|j r l l' E _ IH]; constructor; [|exact IH]. rewrite Forall_forall in Hw. apply Hw. eapply nth_error_In; exact E. Qed.

    Lemma picked_labels : List.length labels = n -> exists y, pick (gn_labels gn) idx = Ok y /\ Forall2 (fun j l => nth_error labels j = Some l) idx y.
    Proof. intros Hl. destruct (generator_facts _ _ _ _ _ _ Hgn) as (_ & _ & _ & _ & _ & El & _). rewrite El. apply pick_Ok. pose proof (batch_lt i Hi) as F.
      eapply Forall_impl; [|exact F]. intros j Hj. cbv beta. rewrite Hl. exact Hj. Qed.
  End Over.

  (** ** Noise and background *)
  Lemma noise_step_Ok s hh r m x noise : nth_error hh r = Some (A2 m x) -> x <> [] -> Forall (fun c => List.length c = m) x -> opt usable_level noise ->
    exists s' h' r' x', noise_step g s hh r (literal "single") noise = Ok (s', (h', r')) /\
      (exists extra, h' = (hh ++ extra)%list) /\ (r <= r')%nat /\ nth_error h' r' = Some (A2 m x') /\ Forall2 (noise_link g noise) x x' /\
      Forall (fun c => List.length c = m) x'.
  Proof. intros Hr Hx Hw Hn. unfold noise_step. destruct noise as [lv|]; cbn [opt noise_link] in *.
    - unfold deref. rewrite Hr. cbn [bind]. change (is_lit (literal "single") "single") with true. cbn [bind].
      destruct (shot_noise_Ok g Hg s (A2 m x) lv Hx Hn) as (s' & out & ks & E & Es & L & F & Fc & _). rewrite E. cbn [bind].
      destruct out as [v|m' x']; [discriminate|]. cbn in Es. injection Es as El ->. cbn [curves] in *.
      do 4 eexists. split; [reflexivity|]. split; [exists [A2 m x']; reflexivity|]. split; [apply Nat.lt_le_incl; apply nth_error_Some; congruence|].
      split; [apply (nth_error_alloc hh (A2 m x'))|]. 
      assert (F2 : Forall2 (fun r r' => exists k, allowed lv k /\ shot_noise_of g r k r') x x').
      { unfold each_curve in Fc. cbn [curves] in Fc. apply (Forall2_combine_l _ _ _ _ x ks x' L). clear - Fc F.
        assert (Hc : forall rk, In rk (combine x ks) -> allowed lv (snd rk)).
        { intros [r k] Hi. rewrite Forall_forall in F. apply F. eapply in_combine_r. exact Hi. }
        revert Hc Fc. generalize (combine x ks). intros l Hc Fc. induction Fc as [|rk r' l l' H _ IH]; constructor.
        - exists (snd rk). split; [apply Hc; left; reflexivity|exact H].
        - apply IH. intros; apply Hc; right; assumption. }
      split; [exact F2|]. clear - F2 Hw Hg. induction F2 as [|r r' l l' (k & _ & Hs) _ IH]; constructor.
      + inversion Hw; subst. eapply shot_noise_length; [exact Hg|exact Hs].
      + inversion Hw; auto.
    - do 4 eexists. split; [reflexivity|]. split; [exists []; symmetry; apply app_nil_r|]. split; [lia|]. split; [exact Hr|]. split; [|exact Hw].
      clear. induction x; constructor; [reflexivity|assumption]. Qed.

  Lemma Forall2_repeat_l A B (P : A -> B -> Prop) a n l : List.length l = n -> Forall (P a) l -> Forall2 P (repeat a n) l.
  Proof. intros <- F. induction F; constructor; assumption. Qed.

  Lemma background_levels s n k lv d : usable_background lv d -> exists s' b levels, generate_background g s n k lv d = Ok (s', (b, levels)) /\
    is_matrix n k b /\ Forall (allowed lv) levels /\ Forall2 (fun x r => Forall (normal_draw (Some x, Some (d * x))) r) levels b.
  Proof. destruct lv as [x|[|lo [|hi [|]]]|]; cbn [usable_background]; try contradiction.
    - intros H. destruct (background_number g Hg s n k x d H) as (s' & b & E & Hm & Hf & Hd). exists s', b, (repeat x n). split; [exact E|]. split; [exact Hm|]. split.
      + apply Forall_forall. intros y Hy. apply repeat_spec in Hy. exact Hy.
      + destruct Hm as [L _]. apply Forall2_repeat_l; [exact L|]. destruct (Req_EM_T (d * x) 0) as [E0|N0].
        * unfold generate_background in E. destruct (Rlt_dec (d * x) 0); [discriminate|]. rewrite E0 in E. pose proof (normal_degenerate _ (nr_base Hg) s x (n * k)) as D.
          destruct (rng_normal (nr_g g) s x 0 (n * k)) as [s1 xs]. simpl in D. subst xs. injection E as _ <-. apply Forall_forall. intros r Hr. apply Forall_forall. intros y Hy.
          pose proof (reshape_In _ n k _ r y Hr Hy) as Hi. apply in_map_iff in Hi. destruct Hi as (z & <- & Hz). apply repeat_spec in Hz. subst z. cbn. split; [eauto|reflexivity].
        * apply Forall_forall. intros r Hr. apply Forall_forall. intros y Hy. rewrite Forall_forall in Hf. specialize (Hf r Hr). rewrite Forall_forall in Hf. specialize (Hf y Hy).
          destruct y as [y|]; [|exfalso; apply Hf; reflexivity]. cbn. split; [eauto|]. intros; contradiction.
    - intros (Hl & Hh & Hd). destruct (background_range g Hg s n k lo hi d Hl Hh Hd) as (s' & b & mean & E & Hm & L & F & F2). exists s', b, mean. auto. Qed.

  Lemma background_step_Ok s hh r m x background spread : nth_error hh r = Some (A2 m x) -> Forall (fun c => List.length c = m) x -> opt (fun lv => usable_background lv spread) background ->
    exists s' x', background_step g s hh r m (literal "single") background spread = Ok (s', match background with None => hh | Some _ => set_nth hh r (A2 m x') end) /\
      Forall2 (background_link background spread) x x' /\ Forall (fun c => List.length c = m) x'.
  Proof. intros Hr Hw Hb. unfold background_step. destruct background as [lv|]; cbn [opt background_link] in *.
    - unfold deref. rewrite Hr. cbn [bind]. change (is_lit (literal "single") "single") with true. cbn [bind].
      destruct (background_levels s (List.length x) m lv spread Hb) as (s' & b & levels & E & (L & Fm) & Fa & F2). rewrite E. cbn [bind]. unfold iadd.
      rewrite Nat.eqb_refl. rewrite L, Nat.eqb_refl. cbn [andb bind]. do 2 eexists. split; [reflexivity|].
      assert (Lv : List.length levels = List.length x) by (apply Forall2_len in F2; congruence).
      clear E Hr. revert b levels L Fm Fa F2 Lv. induction x as [|c x IH]; intros b levels L Fm Fa F2 Lv.
      + destruct b; [|discriminate]. split; constructor.
      + destruct b as [|b0 b]; [discriminate|]. destruct levels as [|l0 levels]; [discriminate|]. inversion Fm; subst. inversion Fa; subst. inversion F2; subst. inversion Hw as [|? ? Hc0 Hw0]; subst.
        cbn in L, Lv. destruct (IH Hw0 b levels) as [I1 I2]; [lia|assumption|assumption|assumption|lia|].
        cbn [combine map]. split; constructor; try assumption.
        * exists b0, l0. repeat split; auto.
        * cbn [fst snd]. rewrite map_length, combine_length. lia.
    - exists s, x. split; [reflexivity|]. split; [|exact Hw]. clear. induction x; constructor; [reflexivity|assumption]. Qed.

  (** ** Standardisation with saved statistics *)
  Lemma row_formula mean std r m : List.length mean = m -> List.length std = m -> List.length r = m ->
    bop fdiv m (bop fsub m r mean) std = standardised_row mean std r.
  Proof. intros Lm Ls Lr. pose proof (length_bop_n fsub m r mean Lr Lm) as Lb.
    assert (E1 : bop fsub m r mean = map (fun xy => fsub (fst xy) (snd xy)) (combine r mean)).
    { rewrite <- Lr. apply bop_same. rewrite Lr, Lm. reflexivity. }
    assert (E2 : bop fdiv m (bop fsub m r mean) std = map (fun xy => fdiv (fst xy) (snd xy)) (combine (bop fsub m r mean) std)).
    { rewrite <- Lb at 1. apply bop_same. rewrite Lb, Ls. reflexivity. }
    rewrite E2, E1. unfold standardised_row. clear. revert r std. induction mean as [|a mean IH]; intros r std; [destruct r; reflexivity|].
    destruct r as [|x r]; [reflexivity|]. destruct std as [|d std]; [reflexivity|]. cbn [combine map fst snd]. f_equal. apply IH. Qed.
  Lemma standardise_rows mean std m x : List.length mean = m -> List.length std = m -> Forall (fun c => List.length c = m) x ->
    standardize (mkIp (Some mean) (Some std)) (A2 m x) = (mkIp (Some mean) (Some std), Ok (A2 m (map (standardised_row mean std) x))).
  Proof. intros Lm Ls Hw. unfold standardize. cbn [ip_mean ip_std]. rewrite row_op_A2 by exact Lm. cbn [bind]. rewrite row_op_A2 by exact Ls. rewrite map_map.
    do 3 f_equal. apply map_ext_in. intros r Hr. rewrite Forall_forall in Hw. specialize (Hw r Hr). unfold standardised_row.
    apply row_formula; assumption. Qed.

  Lemma standardise_row1 mean std r : List.length mean = List.length r -> List.length std = List.length r ->
    standardize (mkIp (Some mean) (Some std)) (A1 r) = (mkIp (Some mean) (Some std), Ok (A1 (standardised_row mean std r))).
  Proof. intros Lm Ls. pose proof (standardise_rows mean std (List.length r) [r] Lm Ls) as H. unfold standardize in *. cbn [ip_mean ip_std] in *.
    rewrite row_op_A2 in H by exact Lm. cbn [bind] in H. rewrite row_op_A2 in H by exact Ls. 
    assert (H' : [bop fdiv (List.length r) (bop fsub (List.length r) r mean) std] = [standardised_row mean std r]).
    { assert (G := H ltac:(repeat constructor)). cbn [map] in G. congruence. }
    rewrite row_op_A1 by exact Lm. cbn [bind]. rewrite row_op_A1.
    - rewrite length_bop_n by congruence. assert (E : bop fdiv (List.length r) (bop fsub (List.length r) r mean) std = standardised_row mean std r) by congruence. rewrite E. reflexivity.
    - rewrite length_bop_n by congruence. exact Ls. Qed.

  Lemma length_standardised mean std r m : List.length mean = m -> List.length std = m -> List.length r = m -> List.length (standardised_row mean std r) = m.
  Proof. intros Lm Ls Lr. unfold standardised_row. rewrite map_length, !combine_length. rewrite Lm, Ls, Lr. rewrite !Nat.min_id. reflexivity. Qed.

  Lemma set_nth_app_r A (l l' : list A) k x : (List.length l <= k)%nat -> exists l'', set_nth (l ++ l')%list k x = (l ++ l'')%list.
  Proof. revert k. induction l as [|a l IH]; intros k H; cbn in *; [eexists; reflexivity|]. destruct k as [|k]; [lia|]. destruct (IH k) as (l'' & E); [lia|]. cbn. rewrite E. eauto. Qed.

  (** The batch after noise and background, in a new array *)
  Lemma noisy_batch_Ok h m rows labels bs gn i s noise background spread :
    generator_over g h m rows labels bs gn -> Forall (fun r => List.length r = m) rows -> (i < List.length rows / bs)%nat ->
    opt usable_level noise -> opt (fun lv => usable_background lv spread) background ->
    exists s' extra r x, noisy_batch g s h gn (literal "single") noise background spread (batch_indexes gn (Z.of_nat i)) = Ok (s', ((h ++ extra)%list, r)) /\
      nth_error (h ++ extra)%list r = Some (A2 m x) /\ Forall (fun c => List.length c = m) x /\
      Forall2 (fun j c => exists curve r1, nth_error rows j = Some curve /\ noise_link g noise curve r1 /\ background_link background spread r1 c) (batch_indexes gn (Z.of_nat i)) x.
  Proof. intros Hgn Hw Hi Hn Hb. destruct (picked h m rows labels bs gn Hgn Hw i Hi) as (x & Ex & Fx & Lx & Wx).
    unfold noisy_batch. rewrite (deref_refl h m rows labels bs gn Hgn). cbn [bind]. rewrite Ex. cbn [bind]. cbn [alloc]. set (h1 := (h ++ [A2 m x])%list).
    destruct (generator_facts _ _ _ _ _ _ Hgn) as (Hbs & _ & _ & Ei & _). rewrite Ei.
    assert (Hx : x <> []) by (destruct x; [cbn in Lx; lia|discriminate]).
    destruct (noise_step_Ok s h1 (List.length h) m x noise (nth_error_alloc h (A2 m x)) Hx Wx Hn) as (s2 & h2 & r2 & x2 & E2 & (ex2 & Eh2) & Lr & Er2 & F2 & W2).
    rewrite E2. cbn [bind].
    destruct (background_step_Ok s2 h2 r2 m x2 background spread Er2 W2 Hb) as (s3 & x3 & E3 & F3 & W3). rewrite E3. cbn [bind].
    set (h3 := match background with None => h2 | Some _ => set_nth h2 r2 (A2 m x3) end).
    assert (Er3 : nth_error h3 r2 = Some (A2 m x3)).
    { unfold h3. destruct background as [lv|].
      - rewrite nth_error_set_nth. rewrite Nat.eqb_refl. destruct (r2 <? List.length h2)%nat eqn:El; [reflexivity|]. apply Nat.ltb_ge in El. apply nth_error_None in El. congruence.
      - cbn [background_link] in F3. assert (x3 = x2) by (clear - F3; induction F3; congruence). congruence. }
    assert (Eh3 : exists extra, h3 = (h ++ extra)%list).
    { unfold h3. rewrite Eh2. unfold h1. rewrite <- !app_assoc. destruct background; [|eauto]. apply set_nth_app_r. exact Lr. }
    destruct Eh3 as (extra & Eh3). rewrite Eh3 in *. exists s3, extra, r2, x3. split; [reflexivity|]. split; [exact Er3|]. split; [exact W3|].
    clear - Fx F2 F3. revert x2 x3 F2 F3. induction Fx as [|j c idx x Hc _ IH]; intros x2 x3 F2 F3; inversion F2; subst; inversion F3; subst; constructor; [eauto 10|]. eapply IH; eassumption. Qed.

  Lemma noise_batch h m rows labels bs gn i s mean std noise background spread :
    generator_over g h m rows labels bs gn -> Forall (fun r => List.length r = m) rows -> List.length labels = List.length rows ->
    (i < List.length rows / bs)%nat -> List.length mean = m -> List.length std = m -> opt usable_level noise -> opt (fun lv => usable_background lv spread) background ->
    exists s' extra xs ys, noise_getitem g s h (mkIp (Some mean) (Some std)) gn (literal "single") noise background spread (Z.of_nat i) =
        Ok (s', (h ++ extra)%list, mkIp (Some mean) (Some std), (A2 m xs, ys)) /\
      List.length xs = bs /\ List.length ys = bs /\ Forall (fun r => List.length r = m) xs /\
      forall p j, nth_error (batch_indexes gn (Z.of_nat i)) p = Some j ->
        exists curve r1 r2 lab, nth_error rows j = Some curve /\ noise_link g noise curve r1 /\ background_link background spread r1 r2 /\
          nth_error xs p = Some (standardised_row mean std r2) /\ nth_error labels j = Some lab /\ nth_error ys p = Some lab.
  Proof. intros Hgn Hw Hl Hi Lm Ls Hn Hb. destruct (noisy_batch_Ok h m rows labels bs gn i s noise background spread Hgn Hw Hi Hn Hb) as (s3 & extra & r & x & E & Er & W & F).
    destruct (picked_labels h m rows labels bs gn Hgn i Hi Hl) as (y & Ey & Fy).
    unfold noise_getitem. cbn [has_saved ip_mean ip_std bind negb]. rewrite E. cbn [bind]. unfold deref. rewrite Er. cbn [bind].
    rewrite standardise_rows by assumption. cbn [bind]. rewrite Ey. cbn [bind].
    exists s3, extra, (map (standardised_row mean std) x), y. split; [reflexivity|].
    assert (Lb : List.length (batch_indexes gn (Z.of_nat i)) = bs) by (exact (batch_length h m rows labels bs gn Hgn i Hi)).
    pose proof (Forall2_len F) as L3. split; [rewrite map_length; lia|]. split; [apply Forall2_len in Fy; lia|]. split.
    { apply Forall_map. eapply Forall_impl; [|exact W]. intros c Hc. apply length_standardised; assumption. }
    intros p j Hp. destruct (Forall2_nth_l _ _ _ _ _ _ _ F Hp) as (c & Hc & curve & r1 & K1 & K2 & K3). destruct (Forall2_nth_l _ _ _ _ _ _ _ Fy Hp) as (lab & Hlab & Hlr).
    exists curve, r1, c, lab. repeat split; try assumption. apply map_nth_error. exact Hc. Qed.

  Lemma log_batch h m rows labels bs gn i s noise background spread :
    generator_over g h m rows labels bs gn -> Forall (fun r => List.length r = m) rows -> List.length labels = List.length rows ->
    (i < List.length rows / bs)%nat -> opt usable_level noise -> opt (fun lv => usable_background lv spread) background ->
    exists s' extra xs ys, log_getitem g s h gn (literal "single") noise background spread (Z.of_nat i) = Ok (s', (h ++ extra)%list, (A2 m xs, ys)) /\
      List.length xs = bs /\ List.length ys = bs /\ Forall (fun r => List.length r = m) xs /\
      forall p j, nth_error (batch_indexes gn (Z.of_nat i)) p = Some j ->
        exists curve r1 r2 lab, nth_error rows j = Some curve /\ noise_link g noise curve r1 /\ background_link background spread r1 r2 /\
          (exists r3, nth_error xs p = Some r3 /\ Forall2 log_scaled r2 r3) /\ nth_error labels j = Some lab /\ nth_error ys p = Some lab.
  Proof. intros Hgn Hw Hl Hi Hn Hb. destruct (noisy_batch_Ok h m rows labels bs gn i s noise background spread Hgn Hw Hi Hn Hb) as (s3 & extra & r & x & E & Er & W & F).
    destruct (picked_labels h m rows labels bs gn Hgn i Hi Hl) as (y & Ey & Fy).
    unfold log_getitem. rewrite E. cbn [bind]. unfold deref. rewrite Er. cbn [bind]. rewrite Ey. cbn [bind amap].
    exists s3, extra, (map (map log_entry) x), y. split; [reflexivity|].
    assert (Lb : List.length (batch_indexes gn (Z.of_nat i)) = bs) by (exact (batch_length h m rows labels bs gn Hgn i Hi)).
    pose proof (Forall2_len F) as L3. split; [rewrite map_length; lia|]. split; [apply Forall2_len in Fy; lia|]. split.
    { apply Forall_map. eapply Forall_impl; [|exact W]. intros c Hc. cbv beta. rewrite map_length. exact Hc. }
    intros p j Hp. destruct (Forall2_nth_l _ _ _ _ _ _ _ F Hp) as (c & Hc & curve & r1 & K1 & K2 & K3). destruct (Forall2_nth_l _ _ _ _ _ _ _ Fy Hp) as (lab & Hlab & Hlr).
    exists curve, r1, c, lab. repeat split; try assumption. exists (map log_entry c). split; [apply map_nth_error; exact Hc|]. clear. induction c as [|x c IH]; constructor; [|exact IH].
    unfold log_scaled, log_entry. split.
    - intros v -> Hv. destruct (Rle_dec v 0); [lra|]. reflexivity.
    - intros H. destruct x as [v|]; [|reflexivity]. specialize (H v eq_refl). destruct (Rle_dec v 0); [reflexivity|contradiction]. Qed.

  (** ** Batch mode *)
  Lemma batch_mode_noise h m rows labels bs gn i s mean std lo hi background spread :
    generator_over g h m rows labels bs gn -> Forall (fun r => List.length r = m) rows -> (i < List.length rows / bs)%nat -> 0 < lo -> 0 < hi ->
    noise_getitem g s h (mkIp (Some mean) (Some std)) gn (literal "batch") (Some (LvTuple [lo; hi])) background spread (Z.of_nat i) = Raise TypeError.
  Proof. intros Hgn Hw Hi Hlo Hhi. destruct (picked h m rows labels bs gn Hgn Hw i Hi) as (x & Ex & _).
    unfold noise_getitem. cbn [has_saved ip_mean ip_std bind negb]. unfold noisy_batch. rewrite (deref_refl h m rows labels bs gn Hgn). cbn [bind]. rewrite Ex. cbn [bind]. cbn [alloc].
    unfold noise_step. pose proof (nth_error_alloc h (A2 m x)) as En. cbn [fst snd alloc] in En. unfold deref. rewrite En. cbn [bind].
    change (is_lit (literal "batch") "single") with false. change (is_lit (literal "batch") "batch") with true. cbn [batch_level].
    destruct (log_levels_total g s lo hi 1 Hlo Hhi) as (s1 & ks & ->). reflexivity. Qed.

  Lemma batch_mode_background h m rows labels bs gn i s mean std lo hi spread :
    generator_over g h m rows labels bs gn -> Forall (fun r => List.length r = m) rows -> (i < List.length rows / bs)%nat -> 0 < lo -> 0 < hi ->
    noise_getitem g s h (mkIp (Some mean) (Some std)) gn (literal "batch") None (Some (LvTuple [lo; hi])) spread (Z.of_nat i) = Raise TypeError.
  Proof. intros Hgn Hw Hi Hlo Hhi. destruct (picked h m rows labels bs gn Hgn Hw i Hi) as (x & Ex & _).
    unfold noise_getitem. cbn [has_saved ip_mean ip_std bind negb]. unfold noisy_batch. rewrite (deref_refl h m rows labels bs gn Hgn). cbn [bind]. rewrite Ex. cbn [bind]. cbn [alloc].
    unfold noise_step. cbn [bind]. unfold background_step. pose proof (nth_error_alloc h (A2 m x)) as En. cbn [fst snd alloc] in En. unfold deref. rewrite En. cbn [bind].
    change (is_lit (literal "batch") "single") with false. change (is_lit (literal "batch") "batch") with true. cbn [batch_level].
    destruct (log_levels_total g s lo hi 1 Hlo Hhi) as (s1 & ks & ->). reflexivity. Qed.

  Lemma no_ranges s h ip gn mode spread i : noise_getitem g s h ip gn mode None None spread i = noise_getitem g s h ip gn (literal "single") None None spread i.
  Proof. reflexivity. Qed.
  Lemma other_mode h m rows labels bs gn i s mean std mode lv background spread :
    generator_over g h m rows labels bs gn -> Forall (fun r => List.length r = m) rows -> (i < List.length rows / bs)%nat ->
    is_lit mode "single" = false -> is_lit mode "batch" = false ->
    noise_getitem g s h (mkIp (Some mean) (Some std)) gn mode (Some lv) background spread (Z.of_nat i) = Raise ValueError.
  Proof. intros Hgn Hw Hi M1 M2. destruct (picked h m rows labels bs gn Hgn Hw i Hi) as (x & Ex & _).
    unfold noise_getitem. cbn [has_saved ip_mean ip_std bind negb]. unfold noisy_batch. rewrite (deref_refl h m rows labels bs gn Hgn). cbn [bind]. rewrite Ex. cbn [bind]. cbn [alloc].
    unfold noise_step. pose proof (nth_error_alloc h (A2 m x)) as En. cbn [fst snd alloc] in En. unfold deref. rewrite En. cbn [bind]. rewrite M1, M2. reflexivity. Qed.

  (** ** Uniform noise and scaling *)
  Lemma uniform_rows lo hi m : forall rows us, List.length us = (List.length rows * m)%nat -> Forall (fun u => Rmin lo hi <= u <= Rmax lo hi) us ->
    Forall (fun r => List.length r = m) rows ->
    Forall2 (fun r r' => exists vs, List.length vs = List.length r /\ Forall (fun u => Rmin lo hi <= u <= Rmax lo hi) vs /\ r' = map (fun xu => fmul (fst xu) (Some (snd xu))) (combine r vs)) rows
      (map (fun ru => map (fun xu => fmul (fst xu) (Some (snd xu))) (combine (fst ru) (snd ru))) (combine rows (reshape (List.length rows) m us))).
  Proof. induction rows as [|r rows IH]; intros us L B Hw; [constructor|]. cbn [List.length reshape combine map fst snd]. inversion Hw as [|? ? Hr Hw']; subst. cbn in L. constructor.
    - exists (firstn (List.length r) us). split; [rewrite firstn_length; lia|]. split; [|reflexivity]. rewrite <- (firstn_skipn (List.length r) us) in B. apply Forall_app in B. apply B.
    - apply IH; [rewrite skipn_length; lia| |exact Hw']. rewrite <- (firstn_skipn (List.length r) us) in B. apply Forall_app in B. apply B. Qed.

  Lemma uniform_noise_Ok s m rows lo hi : Forall (fun r => List.length r = m) rows ->
    exists s' rows', apply_uniform_noise g s (A2 m rows) lo hi = (s', A2 m rows') /\
      Forall2 (fun r r' => exists vs, List.length vs = List.length r /\ Forall (fun u => Rmin lo hi <= u <= Rmax lo hi) vs /\ r' = map (fun xu => fmul (fst xu) (Some (snd xu))) (combine r vs)) rows rows'.
  Proof. intros Hw. unfold apply_uniform_noise. destruct (rng_uniform (nr_g g) s lo hi (List.length rows * m)) as [s1 us] eqn:E.
    pose proof (uniform_length _ (nr_base Hg) s lo hi (List.length rows * m)) as L. pose proof (uniform_bounds _ (nr_base Hg) s lo hi (List.length rows * m)) as B. rewrite E in L, B. simpl in L, B.
    do 2 eexists. split; [reflexivity|]. apply uniform_rows; assumption. Qed.

  Lemma factors_of lo hi r us : List.length us = List.length r -> Forall (fun u => Rmin lo hi <= u <= Rmax lo hi) us ->
    point_factors lo hi r (map (fun xu => fmul (fst xu) (Some (snd xu))) (combine r us)).
  Proof. intros L B. exists us. split; [exact L|]. split; [exact B|]. split; [rewrite map_length, combine_length, L; apply Nat.min_id|]. clear B.
    revert us L. induction r as [|y r IH]; intros [|v us] L [|i] x u Hx Hu; try discriminate; cbn [nth_error combine map fst snd] in *.
    - injection Hx as <-. injection Hu as <-. destruct y; reflexivity.
    - apply IH; [cbn in L; lia|exact Hx|exact Hu]. Qed.
  Lemma uniform_noise_points s a lo hi : wf_arr a -> exists s' b, apply_uniform_noise g s a lo hi = (s', b) /\ shape b = shape a /\ wf_arr b /\
    Forall2 (point_factors lo hi) (curves a) (curves b).
  Proof. destruct a as [v|m rows]; intros Hw.
    - unfold apply_uniform_noise. destruct (rng_uniform (nr_g g) s lo hi (List.length v)) as [s1 us] eqn:E.
      pose proof (uniform_length _ (nr_base Hg) s lo hi (List.length v)) as L. pose proof (uniform_bounds _ (nr_base Hg) s lo hi (List.length v)) as B. rewrite E in L, B. simpl in L, B.
      do 2 eexists. split; [reflexivity|]. split; [cbn [shape]; rewrite map_length, combine_length, L, Nat.min_id; reflexivity|]. split; [exact I|].
      constructor; [|constructor]. apply factors_of; assumption.
    - destruct (uniform_noise_Ok s m rows lo hi Hw) as (s' & rows' & E & F). exists s', (A2 m rows'). split; [exact E|].
      assert (F' : Forall2 (point_factors lo hi) rows rows').
      { clear - F. induction F as [|r r' l l' (us & L & B & ->) _ IH]; constructor; [apply factors_of; assumption|exact IH]. }
      split; [cbn [shape]; rewrite (Forall2_len F); reflexivity|]. split; [|exact F']. cbn [wf_arr] in *. clear - F' Hw. induction F' as [|r r' l l' (us & _ & _ & L & _) _ IH]; [constructor|].
      inversion Hw; subst. constructor; [exact L|apply IH; assumption]. Qed.

  Lemma scaled_uniform lo hi k r vs : List.length vs = List.length r -> Forall (fun u => Rmin lo hi <= u <= Rmax lo hi) vs ->
    uniform_link lo hi k r (map (fun x => option_map (fun v => v * k) x) (map (fun xu => fmul (fst xu) (Some (snd xu))) (combine r vs))).
  Proof. intros L B. exists vs. split; [exact L|]. split; [exact B|]. rewrite map_map. apply map_ext. intros [[x|] u]; reflexivity. Qed.

  (** The noisy, scaled batch: two-dimensional from two curves on, one-dimensional for a single curve *)
  Lemma uniform_scaled s m x nlo nhi klo khi : Forall (fun r => List.length r = m) x -> x <> [] ->
    exists s1 s2 a b xs, apply_uniform_noise g s (A2 m x) nlo nhi = (s1, a) /\ apply_scaling_factor g s1 a klo khi = (s2, b) /\
      curves b = xs /\ (match x with [_] => exists r, b = A1 r | _ => b = A2 m xs end) /\
      Forall2 (fun r r' => exists k, Rmin klo khi <= k <= Rmax klo khi /\ uniform_link nlo nhi k r r') x xs.
  Proof. intros Hw Hx. destruct (uniform_noise_Ok s m x nlo nhi Hw) as (s1 & x1 & E1 & F1).
    destruct (scaling_Ok g Hg s1 (A2 m x1) klo khi) as (s2 & ks & b & E2 & L & B & [_ Sc] & Sh1 & Sh2).
    exists s1, s2, (A2 m x1), b, (curves b). split; [exact E1|]. split; [exact E2|]. split; [reflexivity|].
    pose proof (Forall2_len F1) as L1. split.
    - destruct x as [|r [|r2 x]]; [congruence| |].
      + destruct Sh2 as (r' & _ & Es); [cbn in *; lia|]. destruct b; [eauto|discriminate].
      + assert (Hs : shape b = shape (A2 m x1)) by (apply Sh1; left; cbn [curves]; rewrite <- L1; cbn; lia). destruct b as [v|m' xs]; [discriminate|]. cbn in Hs. injection Hs as _ ->. reflexivity.
    - unfold each_curve in Sc. cbn [curves] in *.
      assert (Hk : Forall2 (fun r1 r' => exists k, Rmin klo khi <= k <= Rmax klo khi /\ r' = map (fun x => option_map (fun v => v * k) x) r1) x1 (curves b)).
      { apply (Forall2_combine_l _ _ _ _ x1 ks (curves b) L). 
        assert (Hc : forall rk, In rk (combine x1 ks) -> Rmin klo khi <= snd rk <= Rmax klo khi).
        { intros [r k] Hi. rewrite Forall_forall in B. apply (B k). eapply in_combine_r. exact Hi. }
        revert Hc Sc. generalize (combine x1 ks). intros l Hc Fc. induction Fc as [|rk r' l l' H _ IH]; constructor.
        - exists (snd rk). split; [apply Hc; left; reflexivity|exact H].
        - apply IH. intros; apply Hc; right; assumption. }
      clear - F1 Hk. revert Hk. generalize (curves b). induction F1 as [|r r1 x x1 (vs & Lv & Bv & ->) _ IH]; intros xs Hk; inversion Hk as [|? r' ? xs' (k & Bk & ->) Hk']; subst; constructor; [|auto].
      exists k. split; [exact Bk|]. apply scaled_uniform; assumption. Qed.

  Lemma uniform_link_length lo hi k r r' : uniform_link lo hi k r r' -> List.length r' = List.length r.
  Proof. intros (us & L & _ & ->). rewrite map_length, combine_length, L. apply Nat.min_id. Qed.

  Lemma uniform_batch h m rows labels bs gn i s mean std noise scaling :
    generator_over g h m rows labels bs gn -> Forall (fun r => List.length r = m) rows -> List.length labels = List.length rows ->
    (i < List.length rows / bs)%nat -> (2 <= bs)%nat -> List.length mean = m -> List.length std = m ->
    exists s' xs ys, uniform_getitem g s h (mkIp (Some mean) (Some std)) gn noise scaling (Z.of_nat i) = Ok (s', h, mkIp (Some mean) (Some std), (A2 m xs, ys)) /\
      List.length xs = bs /\ List.length ys = bs /\ Forall (fun r => List.length r = m) xs /\
      forall p j, nth_error (batch_indexes gn (Z.of_nat i)) p = Some j ->
        exists curve k r lab, nth_error rows j = Some curve /\ Rmin (fst scaling) (snd scaling) <= k <= Rmax (fst scaling) (snd scaling) /\
          uniform_link (fst noise) (snd noise) k curve r /\ nth_error xs p = Some (standardised_row mean std r) /\
          nth_error labels j = Some lab /\ nth_error ys p = Some lab.
  Proof. intros Hgn Hw Hl Hi Hb Lm Ls. destruct (picked h m rows labels bs gn Hgn Hw i Hi) as (x & Ex & Fx & Lx & Wx).
    destruct (picked_labels h m rows labels bs gn Hgn i Hi Hl) as (y & Ey & Fy).
    assert (Hx : x <> []) by (destruct x; [cbn in Lx; lia|discriminate]).
    destruct (uniform_scaled s m x (fst noise) (snd noise) (fst scaling) (snd scaling) Wx Hx) as (s1 & s2 & a & b & xs & E1 & E2 & Ec & Eb & F).
    assert (Eb' : b = A2 m xs) by (destruct x as [|? [|]]; [congruence|cbn in Lx; lia|exact Eb]). subst b.
    unfold uniform_getitem. rewrite (deref_refl h m rows labels bs gn Hgn). cbn [bind]. rewrite Ex. cbn [bind]. rewrite E1, E2.
    assert (Wxs : Forall (fun c => List.length c = m) xs).
    { clear - F Wx. induction F as [|r r' x xs (k & _ & Hk) _ IH]; constructor; inversion Wx; subst; [|auto]. eapply uniform_link_length. exact Hk. }
    rewrite standardise_rows by assumption. cbn [bind]. rewrite Ey. cbn [bind].
    exists s2, (map (standardised_row mean std) xs), y. split; [reflexivity|].
    assert (Lb : List.length (batch_indexes gn (Z.of_nat i)) = bs) by (exact (batch_length h m rows labels bs gn Hgn i Hi)).
    pose proof (Forall2_len F) as L3. split; [rewrite map_length; lia|]. split; [apply Forall2_len in Fy; lia|]. split.
    { apply Forall_map. eapply Forall_impl; [|exact Wxs]. intros c Hc. apply length_standardised; assumption. }
    intros p j Hp. destruct (Forall2_nth_l _ _ _ _ _ _ _ Fx Hp) as (curve & Hc & Hcr). destruct (Forall2_nth_l _ _ _ _ _ _ _ Fy Hp) as (lab & Hlab & Hlr).
    destruct (Forall2_nth_l _ _ _ _ _ _ _ F Hc) as (r & Hr & k & Bk & Hk). exists curve, k, r, lab. split; [exact Hcr|]. split; [exact Bk|]. split; [exact Hk|].
    split; [apply map_nth_error; exact Hr|]. split; assumption. Qed.

  Lemma uniform_single h m rows labels gn i s mean std noise scaling :
    generator_over g h m rows labels 1 gn -> Forall (fun r => List.length r = m) rows -> List.length labels = List.length rows ->
    (i < List.length rows)%nat -> List.length mean = m -> List.length std = m ->
    exists s' x y, uniform_getitem g s h (mkIp (Some mean) (Some std)) gn noise scaling (Z.of_nat i) = Ok (s', h, mkIp (Some mean) (Some std), (A1 x, [y])) /\ List.length x = m.
  Proof. intros Hgn Hw Hl Hi Lm Ls. rewrite <- (Nat.div_1_r (List.length rows)) in Hi. destruct (picked h m rows labels 1 gn Hgn Hw i Hi) as (x & Ex & Fx & Lx & Wx).
    destruct (picked_labels h m rows labels 1 gn Hgn i Hi Hl) as (y & Ey & Fy).
    destruct x as [|r [|]]; try discriminate. 
    destruct (uniform_scaled s m [r] (fst noise) (snd noise) (fst scaling) (snd scaling) Wx) as (s1 & s2 & a & b & xs & E1 & E2 & Ec & (r' & Eb) & F); [discriminate|]. subst b. cbn [curves] in Ec. subst xs.
    inversion F as [|? ? ? ? (k & _ & Hk) _]; subst. apply uniform_link_length in Hk. pose proof (Forall_inv Wx) as Hr. cbv beta in Hr.
    pose proof (eq_trans Hk Hr) as Lr. clear Hk Hr.
    unfold uniform_getitem. rewrite (deref_refl h _ rows labels 1 gn Hgn). cbn [bind]. rewrite Ex. cbn [bind]. rewrite E1, E2.
    rewrite standardise_row1; [|exact (eq_sym Lr)|rewrite Lr; assumption]. cbn [bind]. rewrite Ey. cbn [bind].
    pose proof (batch_length h _ rows labels 1 gn Hgn i Hi) as Lb. pose proof (Forall2_len Fy) as Ly. rewrite Lb in Ly. destruct y as [|y [|]]; cbn in Ly; try discriminate.
    exists s2; do 2 eexists. split; [reflexivity|]. apply length_standardised; first [reflexivity|assumption]. Qed.

  (** ** Construction *)
  Lemma gen_new_too_large s h refl m rows labels bs shuffle : nth_error h refl = Some (A2 m rows) -> (Z.of_nat (List.length rows) < bs)%Z ->
    gen_new g s h refl labels bs shuffle = Raise ValueError.
  Proof. intros Hr Hb. unfold gen_new, deref. rewrite Hr. cbn [bind]. replace (Z.of_nat (List.length rows) <? bs)%Z with true by lia. reflexivity. Qed.
  Lemma gen_new_total s h refl m rows labels bs shuffle : nth_error h refl = Some (A2 m rows) -> (0 < bs <= List.length rows)%nat ->
    exists s' gn, gen_new g s h refl labels (Z.of_nat bs) shuffle = Ok (s', gn) /\ generator_over g h m rows labels bs gn.
  Proof. intros Hr Hb. unfold gen_new, deref. rewrite Hr. cbn [bind]. replace (Z.of_nat (List.length rows) <? Z.of_nat bs)%Z with false by lia.
    destruct (do_shuffle g s shuffle (seq 0 (List.length rows))) as [s1 idx] eqn:E. do 2 eexists. split; [reflexivity|].
    exists s, refl, shuffle, s1. do 1 eexists. exists []. split; [exact Hr|]. split; [lia|]. split; [|reflexivity].
    unfold gen_new, deref. rewrite Hr. cbn [bind]. replace (Z.of_nat (List.length rows) <? Z.of_nat bs)%Z with false by lia. rewrite E. reflexivity. Qed.
  (** A generator stays one after further epochs and when arrays are added to the heap. *)
  Lemma generator_later h m rows labels bs gn states : generator_over g h m rows labels bs gn -> generator_over g h m rows labels bs (epochs g states gn).
  Proof. intros (s & refl & sh & s1 & gn0 & ss & Hr & Hb & Hn & He). exists s, refl, sh, s1, gn0, (ss ++ states)%list. split; [exact Hr|]. split; [exact Hb|]. split; [exact Hn|]. unfold epochs in *. rewrite fold_left_app, He. reflexivity. Qed.
  Lemma generator_grown h extra m rows labels bs gn : generator_over g h m rows labels bs gn -> generator_over g (h ++ extra)%list m rows labels bs gn.
  Proof. intros (s & refl & sh & s1 & gn0 & ss & Hr & Hb & Hn & He). assert (Hr' : nth_error (h ++ extra)%list refl = Some (A2 m rows)) by (rewrite nth_error_app1; [exact Hr|apply nth_error_Some; congruence]).
    exists s, refl, sh, s1, gn0, ss. split; [exact Hr'|]. split; [exact Hb|]. split; [|exact He]. unfold gen_new, deref in *. rewrite Hr in Hn. rewrite Hr'. exact Hn. Qed.
  (** ** Batches without noise *)
  Lemma base_batch h m rows labels bs gn i : generator_over g h m rows labels bs gn -> Forall (fun r => List.length r = m) rows -> List.length labels = List.length rows ->
    (i < List.length rows / bs)%nat -> exists xs ys, List.length xs = bs /\ List.length ys = bs /\ Forall (fun r => List.length r = m) xs /\
      (forall p j, nth_error (batch_indexes gn (Z.of_nat i)) p = Some j -> exists curve lab, nth_error rows j = Some curve /\ nth_error xs p = Some curve /\ nth_error labels j = Some lab /\ nth_error ys p = Some lab) /\
      base_getitem h gn [] (Z.of_nat i) = Ok (A2 m xs, ys) /\
      forall f fs, base_getitem h gn (fs ++ [f]) (Z.of_nat i) = bind (base_getitem h gn fs (Z.of_nat i)) f.
  Proof. intros Hgn Hw Hl Hi. destruct (picked h m rows labels bs gn Hgn Hw i Hi) as (x & Ex & Fx & Lx & Wx). destruct (picked_labels h m rows labels bs gn Hgn i Hi Hl) as (y & Ey & Fy).
    exists x, y. split; [exact Lx|]. split; [pose proof (Forall2_len Fy); pose proof (Forall2_len Fx); congruence|]. split; [exact Wx|]. split; [|split].
    - intros p j Hp. destruct (Forall2_nth_l _ _ _ _ _ _ _ Fx Hp) as (c & Hc & Ec). destruct (Forall2_nth_l _ _ _ _ _ _ _ Fy Hp) as (l & Hl' & El). exists c, l. auto.
    - unfold base_getitem. rewrite (deref_refl h m rows labels bs gn Hgn). cbn [bind]. rewrite Ex. cbn [bind]. rewrite Ey. reflexivity.
    - intros f fs. unfold base_getitem. rewrite (deref_refl h m rows labels bs gn Hgn). cbn [bind]. rewrite Ex. cbn [bind]. rewrite Ey. cbn [bind]. generalize (A2 m x, y). clear.
      induction fs as [|f0 fs IH]; intros xy; cbn [foldM app bind]; [destruct (f xy); reflexivity|]. destruct (f0 xy) as [xy'|e]; [apply IH|reflexivity]. Qed.
  Lemma no_statistics s h gn mode noise background spread i : noise_getitem g s h ip_new gn mode noise background spread i = Raise ValueError.
  Proof. reflexivity. Qed.
End P.
