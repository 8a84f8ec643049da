(** Proofs about the values that the curve fitter returns. *)
From Coq Require Import Reals Lra.
From Coquelicot Require Import Complex.
From Verif Require Import Py Str Cplx Sample_Model Sample_Spec Sample_Proofs Rng Sampling_Model Sampling_Spec Sampling_Proofs Labels_Proofs
  Reflectivity_Model Reflectivity_Spec Simulation_Model Simulation_Spec Simulation_Proofs Interp_Model Interp_Spec Interp_Proofs Arr
  Preproc_Model Preproc_Spec Preproc_Proofs OutPreproc_Proofs Fitter_Model Fitter_Spec Fitter_Proofs FitterOut_Proofs Polish_Proofs Choice_Proofs FitterValue_Spec.
Local Open Scope string_scope.
Local Open Scope R_scope.

(** ** Predictions *)
Lemma scaled_eq m n r : List.length r = n -> List.length (nn_mean m) = n -> List.length (nn_std m) = n ->
  bop fdiv n (bop fsub n r (nn_mean m)) (nn_std m) = FitterValue_Spec.scaled m r.
Proof. intros L1 L2 L3. assert (La : List.length (bop fsub n r (nn_mean m)) = n) by (apply length_bop_n; assumption).
  assert (Lb : List.length (combine (nn_mean m) (nn_std m)) = n) by (rewrite combine_length; lia).
  assert (Lc : List.length (FitterValue_Spec.scaled m r) = n) by (unfold FitterValue_Spec.scaled; rewrite map_length, combine_length; lia).
  apply (@nth_ext fl _ _ None None); [rewrite length_bop_n by assumption; symmetry; exact Lc|]. intros j Hj. rewrite length_bop_n in Hj by assumption.
  rewrite (nth_bop_n _ n) by assumption. rewrite (nth_bop_n _ n) by assumption.
  unfold FitterValue_Spec.scaled.
  match goal with |- _ = nth j (map ?h ?l) None => refine (eq_sym (eq_trans (nth_map_lt h l j (None, (None, None)) None _) _)) end.
  - rewrite combine_length. lia.
  - rewrite combine_nth by exact (eq_trans L1 (eq_sym Lb)). rewrite combine_nth by exact (eq_trans L2 (eq_sym L3)). reflexivity. Qed.

Lemma renorm_value p y : renorm_cell (mkPystr "min_to_zero" true) p (option_map RtoC y) = option_map (label_value p) y.
Proof. unfold renorm_cell. change (is_lit (mkPystr "min_to_zero" true) "min_to_zero") with true. cbv iota. destruct y as [y|]; reflexivity. Qed.

Lemma nth_error_columns k out j i : (j < k)%nat -> (i < List.length out)%nat -> exists c, nth_error (columns_of k out) j = Some c /\ nth_error c i = Some (option_map RtoC (nth j (nth i out []) None)).
Proof. intros Hj Hi. unfold columns_of. eexists. split.
  - rewrite nth_error_map. rewrite (nth_error_nth' (seq 0 k) 0%nat) by (rewrite seq_length; exact Hj). rewrite seq_nth by exact Hj. reflexivity.
  - rewrite nth_error_map. rewrite (nth_error_nth' out []) by exact Hi. reflexivity. Qed.

Section Values.
  Context (m : nn_model) (names : list string) (Hs : named_sample (nn_sample m)) (Hn : network_ok m names).


  Lemma predict_outputs rows f : rows <> [] -> Forall (fun r => List.length r = List.length (nn_q m)) rows -> predict_labels m rows = Ok f ->
    exists outs f0, nn_predict m (map (FitterValue_Spec.scaled m) rows) = Ok outs /\ List.length outs = List.length rows /\
      Forall (fun r => List.length r = nn_out m) outs /\
      restore_labels (nn_op m) (LArray (List.length outs) (columns_of (nn_out m) outs)) = Ok f0 /\ f = ensure_positive f0.
  Proof. intros Hr F H. pose proof Hn as (_ & Lm & Ls & _ & _ & Hp). unfold predict_labels, standardize, nn_ip in H. cbn [ip_mean ip_std snd] in H.
    rewrite row_op_A2 in H by exact Lm. cbn [bind] in H. rewrite row_op_A2 in H by exact Ls. cbn [bind] in H. rewrite map_map in H.
    assert (E : map (fun r => bop fdiv (List.length (nn_q m)) (bop fsub (List.length (nn_q m)) r (nn_mean m)) (nn_std m)) rows = map (FitterValue_Spec.scaled m) rows).
    { apply map_ext_in. intros r Hin. rewrite Forall_forall in F. apply scaled_eq; [apply F; exact Hin|assumption..]. }
    replace (map (fun r => bop fdiv (List.length (nn_q m)) (bop fsub (List.length (nn_q m)) r (nn_mean m)) (nn_std m)) rows) with (map (FitterValue_Spec.scaled m) rows) in H by (symmetry; exact E).
    destruct (Hp (map (FitterValue_Spec.scaled m) rows)) as (outs & Eo & Lo & Fo).
    - destruct rows; [congruence|discriminate].
    - apply Forall_map. eapply Forall_impl; [|exact F]. intros r Lr. rewrite <- (scaled_eq m _ r Lr Lm Ls). apply length_bop_n; [apply length_bop_n; assumption|assumption].
    - rewrite Eo in H. cbn [bind] in H. bind_as H f0 Ef. injection H as <-. rewrite map_length in Lo. exists outs, f0. auto. Qed.

  Lemma restored_cells outs f0 : Forall (fun r => List.length r = nn_out m) outs -> restore_labels (nn_op m) (LArray (List.length outs) (columns_of (nn_out m) outs)) = Ok f0 ->
    (forall i r j k p y, nth_error outs i = Some r -> nth_error r j = Some y -> output_label (nn_sample m) j k -> label_param (nn_sample m) k p -> is_const p = false ->
       cell_at f0 k i = Some (option_map (label_value p) y)) /\
    (forall i k p, (i < List.length outs)%nat -> label_param (nn_sample m) k p -> is_const p = true -> cell_at f0 k i = Some (Some (num_C (p_min p)))).
  Proof. intros F H. pose proof Hn as (_ & _ & _ & En & (ps & Eps & Eo) & _).
    destruct (columns_shape (nn_out m) outs) as [A B].
    destruct (restore_array (nn_sample m) names ps (List.length outs) (columns_of (nn_out m) outs) Hs Eps En) as (f & E & _ & _ & Ec & Ev); [rewrite A; exact Eo|exact B|].
    unfold nn_op in H. rewrite E in H. injection H as <-. split.
    - intros i r j k p y Hi Hj (ps' & Eps' & Hk) Hp Hc. rewrite Eps in Eps'. injection Eps' as <-. unfold cell_at. rewrite (Ev k p Hp Hc).
      assert (Hi' : (i < List.length outs)%nat) by (apply nth_error_Some; congruence).
      assert (Hj' : (j < nn_out m)%nat). { rewrite Forall_forall in F. rewrite <- (F r) by (eapply nth_error_In; exact Hi). apply nth_error_Some. congruence. }
      destruct (nth_error_columns (nn_out m) outs j i Hj' Hi') as (c & Ecol & Ecell).
      assert (Et : tget (combine (map pname_str (used_params ps)) (columns_of (nn_out m) outs)) k = Some c).
      { apply In_tget; [rewrite combine_fst; [exact (NoDup_sub (nn_sample m) names ps Hs Eps En _)|rewrite map_length, A; exact Eo]|].
        apply nth_error_In with (n := j). clear -Hk Ecol. unfold used_params. revert Hk Ecol. generalize (columns_of (nn_out m) outs) as cs. revert j. induction (map pname_str (filter (fun p => negb (is_const p)) ps)) as [|n ns IH]; intros [|j] [|c0 cs] Hk Ec; try discriminate; cbn [nth_error combine] in *.
        - congruence.
        - apply IH; assumption. }
      rewrite Et. cbn [option_map]. rewrite nth_error_map, Ecell. cbn [option_map]. f_equal. rewrite (nth_error_nth outs i [] Hi), (nth_error_nth r j None Hj). apply renorm_value.
    - intros i k p Hi Hp Hc. unfold cell_at. rewrite (Ec k p Hp Hc). rewrite nth_error_repeat by exact Hi. reflexivity. Qed.
End Values.

Lemma cell_at_ensure f k i : cell_at (ensure_positive f) k i = option_map (fun c : cell => if sign_free k then option_map (fun z => RtoC (Cmod z)) c else c) (cell_at f k i).
Proof. unfold cell_at. rewrite ensure_tget. destruct (tget (fr_cols f) k) as [c|]; [|reflexivity]. cbn [option_map]. destruct (sign_free k); [apply nth_error_map|]. destruct (nth_error c i); reflexivity. Qed.

(** A label is that of a length or that of an SLD. *)
Lemma label_sign s k p : clean_names s -> label_param s k p -> (length_label s k /\ sign_free k = true) \/ (~ length_label s k /\ sign_free k = false).
Proof. intros Cl Hp.
  assert (K : length_label s k -> sign_free k = true) by apply sign_free_length.
  destruct Hp as [(l & Hl & -> & _)|[(l & Hl & -> & _)|(l & Hl & -> & _)]].
  - left. assert (Q : length_label s (l_name l ++ "_" ++ "thickness")). { left. exists l. split; [|reflexivity]. unfold all_layers, sample_structure. simpl. right. apply in_or_app. left. exact Hl. } auto.
  - left. assert (Q : length_label s (l_name l ++ "_" ++ "roughness")).
    { right. exists l. split; [|reflexivity]. unfold all_layers, sample_structure. simpl. destruct Hl as [->|Hl]; [left; reflexivity|right; apply in_or_app; left; exact Hl]. } auto.
  - right. assert (E : sign_free (l_name l ++ "_" ++ "sld") = false). { apply sign_free_sld. unfold clean_names in Cl. rewrite Forall_forall in Cl. apply Cl. exact Hl. }
    split; [|exact E]. intros Q. rewrite (K Q) in E. discriminate. Qed.

Section Predicted.
  Context {S : Type} (g : rng S) (refl1d : option refl1d_fun) (pick : list fl -> nat) (cf : @curve_fit_fun S).
  Context (m : nn_model) (names : list string) (Hs : named_sample (nn_sample m)) (Hn : network_ok m names).

  Lemma stage_inputs curve q o ip : valid_input curve q -> interp_stage m curve q o = Ok ip ->
    on_trained_q m o q (curves_of curve) ip /\ ip <> [] /\ Forall (fun r => List.length r = List.length (nn_q m)) ip.
  Proof. clear Hs Hn. intros (Hq & Hc & F & _) H. unfold interp_stage, interpolate_intensity in H. apply mapM_Ok_iff in H.
    split; [|split].
    - unfold on_trained_q. revert H. generalize (curves_of curve) as cs. intros cs. revert ip. induction cs as [|c cs IH]; intros ip H; inversion H; subst; constructor; auto.
    - intros ->. inversion H as [E|]. destruct (curves_of curve); [congruence|discriminate].
    - eapply Forall2_right; [exact H|]. intros c x _ E. eapply interp_fl_length. exact E. Qed.

  Lemma predicted_values s curve q o s' out : clean_names (nn_sample m) -> valid_input curve q -> ~ both o -> o_polish o = false ->
    fit_curve g refl1d pick cf m s curve q o = Ok (s', out) ->
    exists ins outs, on_trained_q m o q (curves_of curve) ins /\ nn_predict m (map (FitterValue_Spec.scaled m) ins) = Ok outs /\ List.length outs = List.length (curves_of curve) /\
      predicted_cells (nn_sample m) outs (fo_params out).
  Proof. intros Cl V Nb Hp H. apply unoptimised_params in H; [|assumption..]. destruct H as (ip & Ei & Ep). destruct (stage_inputs curve q o ip V Ei) as (Q & Ne & F).
    destruct (predict_outputs m names Hn ip _ Ne F Ep) as (outs & f0 & Eo & Lo & Fo & Er & ->). exists ip, outs. split; [exact Q|]. split; [exact Eo|].
    split; [rewrite Lo; symmetry; exact (Forall2_len Q)|]. destruct (restored_cells m names Hs Hn outs f0 Fo Er) as [A B]. split.
    - intros i r j k p y Hi Hj Hk Hl Hc. rewrite cell_at_ensure. replace (cell_at f0 k i) with (Some (option_map (label_value p) y)) by (symmetry; exact (A i r j k p y Hi Hj Hk Hl Hc)). cbn [option_map].
      destruct (label_sign _ _ _ Cl Hl) as [[L ->]|[L ->]]; split; intros K; try contradiction; [destruct y; reflexivity|reflexivity].
    - intros i k p Hi Hl Hc. rewrite cell_at_ensure, (B i k p Hi Hl Hc). cbn [option_map]. destruct (label_sign _ _ _ Cl Hl) as [[L ->]|[L ->]]; split; intros K; try contradiction; reflexivity. Qed.
End Predicted.

(** ** Simulations *)
Definition only_row (i : nat) (t : cols) : cols := map (fun kc => (fst kc, [nth i (snd kc) (RtoC 0)])) t.
Lemma only_entries i t : entries 0 (only_row i t) = entries i t.
Proof. unfold entries, only_row. rewrite map_map. reflexivity. Qed.
Lemma only_table s n i T Ru Sl : label_table s n T Ru Sl -> label_table s 1 (only_row i T) (only_row i Ru) (only_row i Sl).
Proof. intros (A & B & C & _). unfold only_row. split; [rewrite map_map; exact A|]. split; [rewrite map_map; exact B|]. split; [rewrite map_map; exact C|].
  rewrite !Forall_app. repeat split; apply Forall_map; apply Forall_forall; reflexivity. Qed.
Lemma nth_seq_map {B} (h : nat -> B) n i c : nth_error (map h (seq 0 n)) i = Some c -> c = h i.
Proof. rewrite nth_error_map. destruct (nth_error (seq 0 n) i) as [x|] eqn:E; [|discriminate]. intros H. injection H as <-. f_equal.
  assert (Hi : (i < n)%nat). { rewrite <- (seq_length n 0). apply nth_error_Some. congruence. }
  rewrite (nth_error_nth' (seq 0 n) 0%nat) in E by (rewrite seq_length; exact Hi). rewrite seq_nth in E by exact Hi. injection E as <-. reflexivity. Qed.

Section Curves.
  Context {S : Type} (g : rng S) (G : rng_ok g) (refl1d : option refl1d_fun) (m : nn_model) (names : list string) (Hf : fittable refl1d (nn_sample m)) (Hn : network_ok m names).

  Lemma row_known_iff n f i : shaped names n f -> (i < n)%nat -> (row_known f i = true <-> exists t, row_is f i t) /\ (row_known f i = false <-> Exists (fun kc => nth i (snd kc) None = None) (fr_cols f)).
  Proof. clear. intros (_ & _ & F) Hi. unfold row_known, row_is. induction F as [|[k c] t L F IH]; cbn [forallb map fst snd].
    - split; split; intros H; try discriminate; try exact eq_refl; [exists []; reflexivity|inversion H].
    - cbn [snd] in L. rewrite (nth_indep c (Some (RtoC 0)) None) by (rewrite L; exact Hi). destruct IH as [I1 I2]. destruct (nth i c None) as [z|] eqn:E.
      + rewrite andb_true_l. split.
        * rewrite I1. split; intros (u & Hu); [exists ((k, z) :: u); exact (f_equal2 cons (f_equal (pair k) E) Hu)|]. destruct u as [|[k' z'] u]; [discriminate|]. exists u. cbn [map] in Hu. injection Hu as _ _ Hu. exact Hu.
        * rewrite I2. split; intros H; [right; exact H|]. inversion H as [? ? Hx|]; subst; [|assumption]. cbn [snd] in Hx. pose proof (eq_trans (eq_sym E) Hx). discriminate.
      + rewrite andb_false_l. split; split; intros H; try discriminate.
        * destruct H as ([|[k' z'] u] & Hu); [discriminate|]. cbn [map fst snd] in Hu. injection Hu as _ Hz _. pose proof (eq_trans (eq_sym E) Hz). discriminate.
        * left. cbn [snd]. exact E.
        * reflexivity. Qed.

  Lemma known_only f i t : row_is f i t -> map (fun kz => (fst kz, [snd kz])) t = only_row i (known_cols f).
  Proof. clear. unfold row_is, only_row, known_cols. rewrite map_map. cbn [fst snd]. revert t. induction (fr_cols f) as [|[k c] l IH]; intros [|[k' z] t] H; try discriminate; [reflexivity|].
    cbn [map fst snd] in *. injection H as -> Hz H. rewrite (IH t H). f_equal. f_equal. f_equal.
    change (RtoC 0) with ((fun c : cell => match c with Some z => z | None => RtoC 0 end) None). rewrite map_nth. rewrite Hz. reflexivity. Qed.

  Lemma simulated_rows n f s q s' cs : good refl1d (nn_sample m) names n f -> simulate_frame g refl1d s q f = Ok (s', cs) ->
    forall i c, nth_error cs i = Some c ->
      (forall t, row_is f i t -> curve_of g refl1d q t c) /\ (Exists (fun kc => nth i (snd kc) None = None) (fr_cols f) -> c = map (fun _ => None) q).
  Proof. intros [Sh Az] H i c Hc. destruct (known_table refl1d m names Hf Hn n f Sh) as (T & Ru & Sl & E & Lt). pose proof Hf as (Hs & Cl & Hl & He).
    unfold simulate_frame in H. bind_as H sc Esc. destruct sc as [s1 cs0]. injection H as <- <-.
    rewrite nth_error_map in Hc. destruct (nth_error (combine (seq 0 (List.length cs0)) cs0) i) as [[i0 c0]|] eqn:Ei; [|discriminate].
    assert (Q : i0 = i /\ nth_error cs0 i = Some c0 /\ (i < List.length cs0)%nat).
    { clear -Ei. assert (K : forall l k i0 i c0, nth_error (combine (seq k (List.length l)) l) i = Some (i0, c0) -> i0 = (k + i)%nat /\ nth_error l i = Some (c0 : list fl) /\ (i < List.length l)%nat).
      { induction l as [|x l IH]; intros k j0 [|j] c1 H; try discriminate; cbn [List.length seq combine nth_error] in H.
        - injection H as <- <-. split; [lia|]. split; [reflexivity|simpl; lia].
        - apply IH in H. cbn [nth_error List.length]. destruct H as (-> & H & L). split; [lia|]. split; [exact H|lia]. }
      apply K in Ei. exact Ei. }
    destruct Q as (-> & Ec0 & Hi). cbn [option_map fst snd] in Hc. injection Hc as <-.
    assert (Main : (i < n)%nat /\ List.length c0 = List.length q /\ forall t, row_is f i t -> curve_of g refl1d q t c0).
    { rewrite E in Esc. destruct refl1d as [h|] eqn:R.
      - destruct (simulate_refl1d g G h s (nn_sample m) n T Ru Sl q Hl Cl Lt) as (s2 & Es). rewrite Es in Esc. injection Esc as <- <-.
        rewrite map_length, seq_length in Hi. apply nth_seq_map in Ec0. subst c0. split; [exact Hi|]. split; [cbn [engine_ok] in He; unfold refl1d_curve; rewrite He; apply map_length|].
        intros t Ht s0. rewrite (known_only f i t Ht), E. unfold only_row. rewrite !map_app. fold (only_row i T) (only_row i Ru) (only_row i Sl).
        destruct (simulate_refl1d g G h s0 (nn_sample m) 1 _ _ _ q Hl Cl (only_table _ _ i _ _ _ Lt)) as (s3 & ->). exists s3. cbn [seq map]. unfold refl1d_curve. rewrite !only_entries. reflexivity.
      - pose proof (last_entries_zero m names n f T Ru Sl Sh (Az eq_refl) E Lt) as Z.
        destruct (simulate_exact g G None s (nn_sample m) n T Ru Sl q Hl Cl Lt Z) as (s2 & cs1 & Es & F).
        assert (Eb : forall s t, simulate_reflectivity g None s q t (SNum 0) "builtin" = simulate_reflectivity g None s q t (SNum 0) "refl1d") by reflexivity.
        rewrite <- Eb, Es in Esc. injection Esc as <- <-. pose proof (Forall2_len F) as L. rewrite seq_length in L. rewrite <- L in Hi. split; [exact Hi|].
        assert (Er : row_curve q T Ru Sl i = Ok c0).
        { clear -F Ec0 Hi. assert (K : forall k n cs, Forall2 (fun i c => row_curve q T Ru Sl i = Ok c) (seq k n) cs -> forall i, nth_error cs i = Some c0 -> row_curve q T Ru Sl (k + i) = Ok c0).
          { intros k n0. revert k. induction n0 as [|n0 IH]; intros k cs H; inversion H as [|? ? ? ? A B]; subst; intros [|j] Hj; try discriminate; cbn [nth_error] in Hj.
            - injection Hj as <-. rewrite Nat.add_0_r. exact A.
            - rewrite <- Nat.add_succ_comm. exact (IH _ _ B j Hj). }
          exact (K 0%nat n cs1 F i Ec0). }
        split; [destruct (row_curve_total (nn_sample m) n T Ru Sl q i Lt (Z i Hi)) as (c' & Ec' & L'); rewrite Er in Ec'; injection Ec' as <-; exact L'|].
        intros t Ht s0. rewrite (known_only f i t Ht), E. unfold only_row. rewrite !map_app. fold (only_row i T) (only_row i Ru) (only_row i Sl).
        destruct (simulate_exact g G None s0 (nn_sample m) 1 _ _ _ q Hl Cl (only_table _ _ i _ _ _ Lt)) as (s3 & cs2 & Es3 & F3).
        { intros j Hj. assert (j = 0)%nat by lia. subst j. rewrite only_entries. exact (Z i Hi). }
        exists s3. rewrite <- Eb, Es3. cbn [seq] in F3. inversion F3 as [|? c2 ? ? A B]; subst. inversion B; subst. unfold row_curve in A. rewrite !only_entries in A. fold (row_curve q T Ru Sl i) in A. rewrite Er in A. injection A as <-. reflexivity. }
    destruct Main as (Hin & Lc & K). destruct (row_known_iff n f i Sh Hin) as [K1 K2]. destruct (row_known f i).
    - split; [exact K|]. intros Ex. apply K2 in Ex. discriminate.
    - split; [intros t Ht; destruct K1 as [_ K1]; discriminate (K1 (ex_intro _ t Ht))|]. intros _. clear -Lc. revert q Lc. induction c0 as [|x c0 IH]; intros [|y q] L; try discriminate; [reflexivity|]. cbn [map]. f_equal. apply IH. now injection L. Qed.
End Curves.

Section Whole.
  Context {S : Type} (g : rng S) (G : rng_ok g) (refl1d : option refl1d_fun) (pick : list fl -> nat) (Pk : pick_ok pick) (cf : @curve_fit_fun S) (Cf : curve_fit_ok cf).
  Context (m : nn_model) (names : list string) (Hf : fittable refl1d (nn_sample m)) (Hn : network_ok m names).

  (** C143 *)
  Lemma returned_curves s curve q o s' out cs : valid_input curve q -> samples_ok o -> fit_curve g refl1d pick cf m s curve q o = Ok (s', out) -> fo_refl out = Some cs ->
    forall i c, nth_error cs i = Some c ->
      (forall t, row_is (fo_params out) i t -> curve_of g refl1d q t c) /\
      (Exists (fun kc => nth i (snd kc) None = None) (fr_cols (fo_params out)) -> c = map (fun _ => None) q).
  Proof. intros V So H Er. destruct (fit_curve_stages g G refl1d pick Pk cf m names Hf Hn s curve q o s' out V So H) as (lo & hi & s2 & s3 & p0 & Gp & _ & Epol & Es).
    pose proof Hn as (_ & _ & _ & En & (ps & Eps & _) & _).
    pose proof (polish_good g refl1d cf Cf m names ps Hf Eps En _ _ _ _ _ _ _ _ _ _ Gp Epol) as Gf.
    destruct (o_sim o); [|congruence]. destruct Es as (s4 & cs' & Es & Er'). assert (cs' = cs) by congruence. subst cs'.
    exact (simulated_rows g G refl1d m names Hf Hn _ _ _ _ _ _ Gf Es). Qed.
End Whole.

(** ** C142 *)
Lemma abs_nonneg c : nonneg_cell c -> option_map (fun z => RtoC (Cmod z)) c = c.
Proof. destruct c as [[x y]|]; [|reflexivity]. intros [A B]. cbn [fst snd] in *. subst y. cbn [option_map]. change (x, 0) with (RtoC x). rewrite Cmod_R, Rabs_right by lra. reflexivity. Qed.
Lemma ensure_same s names f : clean_names s -> named_sample s -> label_names s = Ok names -> map fst (fr_cols f) = names ->
  (forall k c, length_label s k -> In (k, c) (fr_cols f) -> Forall nonneg_cell c) -> ensure_positive f = f.
Proof. intros Cl Hs Hn Ef Hp. unfold ensure_positive. destruct f as [n t]. cbn [fr_rows fr_cols] in *. f_equal. rewrite <- (map_id t) at 2. apply map_ext_in. intros [k c] Hin. cbn [fst snd]. f_equal.
  destruct (all_params_ordinary s (proj1 Hs)) as (ps & names' & Eps & En' & _). assert (names' = names) by congruence. subst names'.
  assert (Hk : In k names) by (rewrite <- Ef; exact (in_map fst _ _ Hin)).
  destruct (either s names ps Hs Eps Hn k Hk) as [(p & Hl & _)|(p & Hl & _)]; destruct (label_sign s k p Cl Hl) as [[L ->]|[_ ->]]; try reflexivity.
  all: pose proof (Hp k c L Hin) as F; rewrite <- (map_id c) at 2; apply map_ext_in; intros x Hx; rewrite Forall_forall in F; apply abs_nonneg; apply F; exact Hx. Qed.

Lemma columns_ext n (t t' : table) : map fst t = map fst t' -> NoDup (map fst t) -> Forall (fun kc => List.length (snd kc) = n) t -> Forall (fun kc => List.length (snd kc) = n) t' ->
  (forall k i, In k (map fst t) -> (i < n)%nat -> match tget t k with Some c => nth_error c i | None => None end = match tget t' k with Some c => nth_error c i | None => None end) -> t = t'.
Proof. revert t'. induction t as [|[k c] t IH]; intros [|[k' c'] t'] E Nd F F' H; try discriminate; [reflexivity|]. cbn [map fst] in E. injection E as <- E.
  inversion F as [|? ? L F1]; subst. inversion F' as [|? ? L' F1']; subst. inversion Nd as [|? ? Ni Nd1]; subst. cbn [snd] in *.
  assert (c = c'). { apply nth_error_ext. intros i. destruct (Nat.lt_ge_cases i (List.length c)) as [Hi|Hi].
    - specialize (H k i (or_introl eq_refl) Hi). cbn [tget] in H. rewrite String.eqb_refl in H. exact H.
    - rewrite (proj2 (nth_error_None c i)) by exact Hi. rewrite (proj2 (nth_error_None c' i)) by lia. reflexivity. }
  subst c'. f_equal. apply IH; [exact E|exact Nd1|exact F1|exact F1'|]. intros k0 i Hk Hi. specialize (H k0 i (or_intror Hk) Hi). cbn [tget] in H.
  destruct (String.eqb k k0) eqn:Ek; [|exact H]. apply String.eqb_eq in Ek. subst k0. contradiction. Qed.

Section Perfect.
  Context {S : Type} (g : rng S) (G : rng_ok g) (refl1d : option refl1d_fun) (pick : list fl -> nat) (Pk : pick_ok pick) (cf : @curve_fit_fun S) (Cf : curve_fit_ok cf).
  Context (m : nn_model) (names : list string) (Hf : fittable refl1d (nn_sample m)) (Hn : network_ok m names).
  Let Hs : named_sample (nn_sample m) := proj1 Hf.

  Lemma recovered s curve q o s' out f ins outs : valid_input curve q -> samples_ok o -> ~ both o -> o_polish o = false ->
    shaped names (List.length (curves_of curve)) f -> constants_hold (nn_sample m) f ->
    (forall k c, length_label (nn_sample m) k -> In (k, c) (fr_cols f) -> Forall nonneg_cell c) ->
    on_trained_q m o q (curves_of curve) ins -> nn_predict m (map (FitterValue_Spec.scaled m) ins) = Ok outs -> right_outputs (nn_sample m) outs f ->
    fit_curve g refl1d pick cf m s curve q o = Ok (s', out) -> fo_params out = f.
  Proof. intros V So Nb Hp Sh Ch Nn Q Eo Ro H. pose proof Hf as (_ & Cl & _). pose proof Hn as (_ & Lm & Lsd & En & (ps & Eps & Eno) & Hpr).
    destruct (fit_curve_shape g G refl1d pick Pk cf Cf m names Hf Hn s curve q o s' out V So H) as [Sh' _].
    destruct (predicted_values g refl1d pick cf m names Hs Hn s curve q o s' out Cl V Nb Hp H) as (ip & outs' & Q' & Eo' & Lo & [A B]).
    assert (ip = ins). { clear -Q Q'. unfold on_trained_q in *. revert ins Q. induction Q' as [|c x l l' E Q' IH]; intros ins Q; inversion Q; subst; [reflexivity|]. f_equal; [congruence|apply IH; assumption]. }
    subst ip. rewrite Eo in Eo'. injection Eo' as <-.
    assert (Fo : Forall (fun r => List.length r = nn_out m) outs).
    { destruct (Hpr (map (FitterValue_Spec.scaled m) ins)) as (o' & Eo' & _ & F); [| |rewrite Eo in Eo'; injection Eo' as <-; exact F].
      - intros E. apply map_eq_nil in E. subst ins. inversion Q as [E|]. destruct V as (_ & V & _). congruence.
      - apply Forall_map. eapply Forall2_right; [exact Q|]. intros c x _ E. apply interp_fl_length in E. rewrite <- (scaled_eq m _ x E Lm Lsd). apply length_bop_n; [apply length_bop_n; assumption|assumption]. }
    set (n := List.length (curves_of curve)) in *. pose proof Sh as (Sn & Sr & Sc). pose proof Sh' as (Sn' & Sr' & Sc').
    assert (Nd : NoDup names) by exact (pp_NoDup (nn_sample m) names Hs En).
    assert (E : fr_cols (fo_params out) = fr_cols f).
    { apply (columns_ext n); [congruence|rewrite Sn'; exact Nd|exact Sc'|exact Sc|]. rewrite Sn'. intros k i Hk Hi. change (cell_at (fo_params out) k i = cell_at f k i).
      assert (Hcol : exists c, In (k, c) (fr_cols f) /\ tget (fr_cols f) k = Some c /\ List.length c = n).
      { rewrite <- Sn in Hk. apply in_map_iff in Hk. destruct Hk as ([k' c] & E & Hin). cbn [fst] in E. subst k'. exists c. split; [exact Hin|]. split; [apply In_tget; [rewrite Sn; exact Nd|exact Hin]|]. rewrite Forall_forall in Sc. exact (Sc _ Hin). }
      destruct Hcol as (c & Hin & Et & Lc). unfold cell_at at 2. rewrite Et.
      destruct (nth_error c i) as [z|] eqn:Ez; [|apply nth_error_None in Ez; lia].
      assert (Pz : length_label (nn_sample m) k -> nonneg_cell z). { intros L. specialize (Nn k c L Hin). rewrite Forall_forall in Nn. apply Nn. eapply nth_error_In. exact Ez. }
      destruct (either (nn_sample m) names ps Hs Eps En k Hk) as [(p & Hl & Hc)|(p & Hl & Hc)].
      - assert (Z : z = Some (num_C (p_min p))). { specialize (Ch k p c Hl Hc Hin). rewrite Forall_forall in Ch. symmetry. apply Ch. eapply nth_error_In. exact Ez. }
        destruct (B i k p ltac:(rewrite Lo; exact Hi) Hl Hc) as [B1 B2]. destruct (label_sign _ _ _ Cl Hl) as [[L _]|[L _]].
        + refine (eq_trans (B1 L) _). rewrite <- (abs_nonneg z (Pz L)), Z. reflexivity.
        + rewrite Z. exact (B2 L).
      - assert (Hu : In k (map pname_str (used_params ps))) by (apply (used_name (nn_sample m) ps Hs Eps); exists p; auto). apply In_nth_error in Hu. destruct Hu as (j & Hj).
        assert (Ho : output_label (nn_sample m) j k) by (exists ps; split; [exact Eps|exact Hj]).
        destruct (nth_error outs i) as [r|] eqn:Er; [|apply nth_error_None in Er; lia].
        assert (Hj' : (j < List.length r)%nat). { rewrite Forall_forall in Fo. rewrite (Fo r (nth_error_In _ _ Er)), Eno, <- (map_length pname_str). apply nth_error_Some. unfold used_params in Hj. congruence. }
        destruct (nth_error r j) as [y|] eqn:Ey; [|apply nth_error_None in Ey; lia].
        pose proof (Ro i r j k p y Er Ey Ho Hl Hc) as Hz. unfold cell_at in Hz. rewrite Et, Ez in Hz. injection Hz as Hz.
        destruct (A i r j k p y Er Ey Ho Hl Hc) as [A1 A2]. destruct (label_sign _ _ _ Cl Hl) as [[L _]|[L _]].
        + refine (eq_trans (A1 L) _). rewrite <- (abs_nonneg z (Pz L)), Hz. destruct y; reflexivity.
        + rewrite Hz. exact (A2 L). }
    destruct (fo_params out) as [n1 t1], f as [n2 t2]. cbn [fr_rows fr_cols] in *. subst t2. congruence. Qed.

  Lemma reproduced s curve q o s' out f ins outs : valid_input curve q -> samples_ok o -> ~ both o -> o_polish o = false -> o_sim o = true ->
    shaped names (List.length (curves_of curve)) f -> constants_hold (nn_sample m) f ->
    (forall k c, length_label (nn_sample m) k -> In (k, c) (fr_cols f) -> Forall nonneg_cell c) ->
    on_trained_q m o q (curves_of curve) ins -> nn_predict m (map (FitterValue_Spec.scaled m) ins) = Ok outs -> right_outputs (nn_sample m) outs f ->
    (forall i c, nth_error (curves_of curve) i = Some c -> exists t, row_is f i t /\ curve_of g refl1d q t c) ->
    fit_curve g refl1d pick cf m s curve q o = Ok (s', out) -> fo_params out = f /\ fo_refl out = Some (curves_of curve).
  Proof. intros V So Nb Hp Hsim Sh Ch Nn Q Eo Ro Hsm H. pose proof (recovered s curve q o s' out f ins outs V So Nb Hp Sh Ch Nn Q Eo Ro H) as Ef. split; [exact Ef|].
    destruct (fit_curve_stages g G refl1d pick Pk cf m names Hf Hn s curve q o s' out V So H) as (_ & _ & _ & s3 & _ & _ & _ & _ & Es). rewrite Hsim in Es. destruct Es as (s4 & cs & _ & Er). rewrite Er. f_equal.
    destruct (fit_curve_shape g G refl1d pick Pk cf Cf m names Hf Hn s curve q o s' out V So H) as [_ Lcs]. destruct (Lcs cs Er) as [L _]. clear Lcs.
    apply nth_error_ext. intros i. destruct (nth_error cs i) as [c|] eqn:Ec.
    - destruct (nth_error (curves_of curve) i) as [c'|] eqn:Ec'; [|apply nth_error_None in Ec'; assert (i < List.length cs)%nat by (apply nth_error_Some; congruence); lia].
      destruct (Hsm i c' Ec') as (t & Ht & Hc'). destruct (returned_curves g G refl1d pick Pk cf Cf m names Hf Hn s curve q o s' out cs V So H Er i c Ec) as [K _]. rewrite Ef in K. specialize (K t Ht).
      destruct (K s) as (s5 & E5). destruct (Hc' s) as (s6 & E6). rewrite E5 in E6. injection E6 as _ ->. reflexivity.
    - symmetry. apply nth_error_None. apply nth_error_None in Ec. lia. Qed.
End Perfect.

(** ** C144 *)
Lemma log_all c xs : map flog10 c = map Some xs -> exists r, c = map Some r /\ positive_row r /\ xs = map Interp_Model.log10 r.
Proof. revert xs. induction c as [|x c IH]; intros [|y xs] H; try discriminate; [exists []; split; [reflexivity|split; [constructor|reflexivity]]|].
  cbn [map] in H. injection H as Hx H. destruct (IH xs H) as (r & -> & P & ->). destruct x as [x|]; [|discriminate]. unfold flog10 in Hx. destruct (Rlt_dec 0 x) as [Px|]; [|discriminate]. injection Hx as <-.
  exists (x :: r). split; [reflexivity|]. split; [constructor; assumption|reflexivity]. Qed.
Lemma log_error_sum d r : log_error d r = sum_squares (map Interp_Model.log10 r) (map Interp_Model.log10 d) / INR (List.length (combine d r)).
Proof. unfold log_error, avg, sum_squares. rewrite map_length. f_equal. f_equal. revert r. induction d as [|x d IH]; intros [|y r]; try reflexivity. cbn [combine map fst snd]. f_equal; [ring|apply IH]. Qed.
Lemma log_error_le d r r' : List.length r = List.length d -> List.length r' = List.length d ->
  sum_squares (map Interp_Model.log10 r') (map Interp_Model.log10 d) <= sum_squares (map Interp_Model.log10 r) (map Interp_Model.log10 d) -> log_error d r' <= log_error d r.
Proof. intros L L' H. rewrite !log_error_sum, !combine_length, L, L', Nat.min_id. destruct d as [|x d].
  - destruct r; [|discriminate]. destruct r'; [|discriminate]. apply Rle_refl.
  - unfold Rdiv. apply Rmult_le_compat_r; [|exact H]. left. apply Rinv_0_lt_compat. apply lt_0_INR. simpl. lia. Qed.

Lemma row_is_row names f f' i j t : map fst (fr_cols f) = names -> map fst (fr_cols f') = names -> frame_row f i = frame_row f' j -> row_is f i t -> row_is f' j t.
Proof. intros A B. rewrite <- A in B. clear A. unfold frame_row, row_is. revert B. generalize (fr_cols f') as t'. revert t. induction (fr_cols f) as [|[k c] l IH]; intros t [|[k' c'] l'] B E H; try discriminate; [exact H|].
  cbn [map fst snd] in *. injection B as -> B. injection E as Ec E. destruct t as [|[k0 z] t]; [discriminate|]. cbn [map fst snd] in *. injection H as -> Hz H.
  exact (f_equal2 cons (f_equal (pair k0) (eq_trans (eq_sym Ec) Hz)) (IH t l' B E H)). Qed.
Lemma ensure_row f f' i j : map fst (fr_cols f) = map fst (fr_cols f') -> frame_row f i = frame_row f' j -> frame_row (ensure_positive f) i = frame_row (ensure_positive f') j.
Proof. unfold frame_row, ensure_positive. cbn [fr_cols]. rewrite !map_map. cbn [fst snd]. generalize (fr_cols f') as l'. induction (fr_cols f) as [|[k c] l IH]; intros [|[k' c'] l'] B E; try discriminate; [reflexivity|].
  cbn [map fst snd] in *. injection B as -> B. injection E as Ec E. refine (f_equal2 cons _ (IH l' B E)). destruct (sign_free k'); [|exact Ec].
  change (@None C) with (option_map (fun z => RtoC (Cmod z)) (@None C)). rewrite !map_nth. exact (f_equal _ Ec). Qed.
Lemma cell_at_row names f f' i j k : map fst (fr_cols f) = names -> map fst (fr_cols f') = names -> (forall kc, In kc (fr_cols f) -> (i < List.length (snd kc))%nat) -> (forall kc, In kc (fr_cols f') -> (j < List.length (snd kc))%nat) ->
  frame_row f i = frame_row f' j -> cell_at f k i = cell_at f' k j.
Proof. intros A B. rewrite <- A in B. clear A. unfold frame_row, cell_at. revert B. generalize (fr_cols f') as t'. induction (fr_cols f) as [|[k0 c] l IH]; intros [|[k' c'] l'] B P Q E; try discriminate; [reflexivity|].
  cbn [map fst snd] in *. injection B as -> B. injection E as Ec E. cbn [tget]. destruct (String.eqb k0 k) eqn:Ek.
  - specialize (P _ (or_introl eq_refl)). specialize (Q _ (or_introl eq_refl)). cbn [snd] in P, Q. exact (eq_trans (nth_error_nth' c (None : cell) P) (eq_trans (f_equal Some Ec) (eq_sym (nth_error_nth' c' (None : cell) Q)))).
  - apply IH; [exact B|intros kc H; apply P; right; exact H|intros kc H; apply Q; right; exact H|exact E]. Qed.

Section Descent.
  Context {S : Type} (g : rng S) (G : rng_ok g) (refl1d : option refl1d_fun) (cf : @curve_fit_fun S) (Cf : curve_fit_descends cf).
  Context (m : nn_model) (names : list string) (ps : list param) (Hf : fittable refl1d (nn_sample m)) (Hn : network_ok m names) (Hps : all_params (nn_sample m) = Ok ps).
  Let Hs : named_sample (nn_sample m) := proj1 Hf.
  Let Hnm : label_names (nn_sample m) = Ok names := proj1 (proj2 (proj2 (proj2 Hn))).

  Lemma model_value q xs f s0 s0' c0 : good refl1d (nn_sample m) names 1 f -> restore_labels (nn_op m) (LArray 1 (map (fun x => [option_map RtoC x]) xs)) = Ok f ->
    fitting_model g refl1d q (nn_op m) s0 xs = Ok (s0', map Some c0) -> c0 <> [] ->
    exists t r, row_is f 0 t /\ curve_of g refl1d q t (map Some r) /\ positive_row r /\ c0 = map Interp_Model.log10 r.
  Proof. clear Cf. intros Gf Er H Ne. unfold fitting_model in H. rewrite Er in H. cbn [bind] in H. bind_as H sc Es. destruct sc as [s1 cs]. bind_as H c Ec. injection H as _ Hc.
    destruct (log_all c c0 Hc) as (r & -> & P & ->). destruct cs as [|c1 cs]; [discriminate|]. change (py_get (c1 :: cs) 0) with (Ok c1) in Ec. injection Ec as ->.
    destruct (simulated_rows g G refl1d m names Hf Hn 1 f s0 q s1 _ Gf Es 0%nat _ eq_refl) as [A B].
    destruct (row_known_iff names 1 f 0%nat (proj1 Gf) ltac:(lia)) as [K1 K2]. destruct (row_known f 0) eqn:K.
    - destruct (proj1 K1 eq_refl) as (t & Ht). exists t, r. split; [exact Ht|]. split; [exact (A t Ht)|]. split; [exact P|reflexivity].
    - exfalso. pose proof (B (proj1 K2 eq_refl)) as E. destruct r as [|x r]; [apply Ne; reflexivity|]. destruct q; discriminate. Qed.

  Lemma prep_columns labels prep rem : shaped names 1 labels -> apply_preprocessing (nn_op m) (LFrame labels) = Ok (prep, rem) ->
    fr_rows prep = 1%nat /\ map fst (fr_cols prep) = map pname_str (used_params ps) /\ Forall (fun kc => List.length (snd kc) = 1%nat) (fr_cols prep).
  Proof. clear Cf. intros Sh E. destruct (preprocessed refl1d m names ps Hf Hps Hnm labels 1 Sh) as (t & r & E' & En & Ev). rewrite E in E'. injection E' as -> ->. cbn [fr_rows fr_cols].
    split; [reflexivity|]. split; [exact En|]. assert (Nd : NoDup (map fst t)) by (rewrite En; exact (NoDup_sub (nn_sample m) names ps Hs Hps Hnm _)).
    apply Forall_forall. intros [k c] Hk. cbn [snd]. assert (Hu : In k (map pname_str (used_params ps))) by (rewrite <- En; exact (in_map fst _ _ Hk)).
    apply (used_name (nn_sample m) ps Hs Hps) in Hu. destruct Hu as (p & Hp & Hc). specialize (Ev k p Hp Hc). rewrite (In_tget _ _ _ Nd Hk) in Ev.
    destruct (tget (fr_cols labels) k) as [c0|] eqn:Et; [|discriminate]. cbn [option_map] in Ev. injection Ev as ->. rewrite map_length. destruct Sh as (_ & _ & F). rewrite Forall_forall in F. exact (F _ (tget_In _ _ _ Et)). Qed.

  Lemma start_columns prep start : Forall (fun kc => List.length (snd kc) = 1%nat) (fr_cols prep) -> start_values prep = Ok start ->
    map snd (fr_cols prep) = map (fun x => [option_map RtoC x]) start.
  Proof. clear. unfold start_values. revert start. induction (fr_cols prep) as [|[k c] l IH]; intros start F H; inversion F as [|? ? L F']; subst; cbn [mapM] in H.
    - injection H as <-. reflexivity.
    - bind_as H x Ex. bind_as H xs Exs. injection H as <-. cbn [map snd] in *. refine (f_equal2 cons _ (IH xs F' eq_refl)). destruct c as [|z [|]]; try discriminate. change (py_get [z] 0) with (Ok z) in Ex. cbn [bind] in Ex.
      destruct z as [[a b]|]; cbn [real_cell fst snd] in Ex.
      + destruct (Req_EM_T b 0) as [->|]; [|discriminate]. injection Ex as <-. reflexivity.
      + injection Ex as <-. reflexivity. Qed.

  Lemma start_value labels prep rem start k lo hi nm v j : shaped names 1 labels -> apply_preprocessing (nn_op m) (LFrame labels) = Ok (prep, rem) -> start_values prep = Ok start ->
    label_param (nn_sample m) k (Range (Flt lo) (Flt hi) nm) -> lo < hi -> tget (fr_cols labels) k = Some [Some (RtoC v)] -> nth_error (map pname_str (used_params ps)) j = Some k ->
    nth_error start j = Some (Some ((v - lo) / (hi - lo))).
  Proof. clear Cf. intros Sh E Es Hp Hlt Hv Hj. destruct (prep_columns labels prep rem Sh E) as (_ & _ & F). pose proof (start_columns prep start F Es) as Ec.
    destruct (preprocessed refl1d m names ps Hf Hps Hnm labels 1 Sh) as (t & r & E' & En & Ev). rewrite E in E'. injection E' as -> ->. cbn [fr_cols] in *.
    specialize (Ev k _ Hp eq_refl). rewrite Hv in Ev. cbn [option_map map] in Ev. change (mkPystr "min_to_zero" true) with (literal "min_to_zero") in Ev. rewrite (min_to_zero_cell lo hi nm v Hlt) in Ev.
    assert (Nd : NoDup (map fst t)) by (rewrite En; exact (NoDup_sub (nn_sample m) names ps Hs Hps Hnm _)).
    rewrite <- En, nth_error_map in Hj. destruct (nth_error t j) as [[k' c']|] eqn:Ej; [|discriminate]. cbn [option_map fst] in Hj. injection Hj as ->.
    rewrite (In_tget t k c' Nd (nth_error_In _ _ Ej)) in Ev. injection Ev as ->.
    pose proof (f_equal (fun l => nth_error l j) Ec) as K. cbv beta in K. rewrite !nth_error_map, Ej in K. cbn [option_map snd] in K.
    unfold fl in *. destruct (nth_error start j) as [[x|]|]; try discriminate K. pose proof (f_equal (fun o : option (list cell) => match o with Some [Some z] => fst z | _ => 0 end) K) as K'. cbn in K'. rewrite K'. reflexivity. Qed.

  Lemma starts_restored labels prep rem start : shaped names 1 labels -> constants_hold (nn_sample m) labels -> apply_preprocessing (nn_op m) (LFrame labels) = Ok (prep, rem) -> start_values prep = Ok start ->
    restore_labels (nn_op m) (LArray 1 (map (fun x => [option_map RtoC x]) start)) = Ok labels.
  Proof. clear Cf. intros Sh Ch Ea Es. destruct (prep_columns labels prep rem Sh Ea) as (Pr & Pn & Pc). pose proof (start_columns prep start Pc Es) as Ec. pose proof Sh as (Sn & Sr & Sc).
    assert (Of : ordered_frame (nn_sample m) names labels).
    { split; [|exact Sn]. split; [exact Hnm|]. split; [rewrite Sn; apply Permutation_refl|]. rewrite Sr. exact Sc. }
    destruct (round_trip_ordered (nn_sample m) names labels "min_to_zero" Hs Of Ch (or_introl eq_refl)) as (prep' & rem' & Ea' & _ & Erest); [discriminate|].
    change (mkOp (literal "min_to_zero") (nn_sample m)) with (nn_op m) in Ea', Erest. rewrite Ea in Ea'. injection Ea' as <- <-. rewrite Pr, Ec in Erest. exact Erest. Qed.

  Lemma restored_one xs f k lo hi nm j y : List.length xs = List.length (used_params ps) -> restore_labels (nn_op m) (LArray 1 (map (fun x => [option_map RtoC x]) xs)) = Ok f ->
    label_param (nn_sample m) k (Range (Flt lo) (Flt hi) nm) -> nth_error (map pname_str (used_params ps)) j = Some k -> nth_error xs j = Some (Some y) ->
    tget (fr_cols f) k = Some [Some (RtoC (y * (hi - lo) + lo))].
  Proof. clear Cf. intros L Er Hp Hj Hy. destruct (restore_array (nn_sample m) names ps 1 (map (fun x => [option_map RtoC x]) xs) Hs Hps Hnm) as (f0 & E0 & _ & _ & _ & Ev).
    - refine (eq_trans (map_length _ _) _). exact L.
    - apply Forall_map. apply Forall_forall. reflexivity.
    - unfold nn_op in Er. rewrite E0 in Er. injection Er as <-. rewrite (Ev k _ Hp eq_refl).
      assert (Et : tget (combine (map pname_str (used_params ps)) (map (fun x0 : fl => [option_map RtoC x0]) xs)) k = Some [Some (RtoC y)]).
      { apply In_tget.
        - rewrite combine_fst; [exact (NoDup_sub (nn_sample m) names ps Hs Hps Hnm _)|]. rewrite !map_length. exact L.
        - apply nth_error_In with (n := j). clear -Hj Hy. revert xs j Hj Hy. induction (map pname_str (used_params ps)) as [|n0 ns IH]; intros [|b bs] [|j] Hj Hb; try discriminate; cbn [nth_error map combine] in *; [|apply IH; assumption].
          injection Hj as ->. injection Hb as ->. reflexivity. }
      refine (eq_trans (f_equal (option_map _) Et) _). cbn [option_map map]. rewrite renorm_real. reflexivity. Qed.

  Lemma single_column labels k v : shaped names 1 labels -> cell_at labels k 0 = Some (Some (RtoC v)) -> tget (fr_cols labels) k = Some [Some (RtoC v)].
  Proof. clear. intros (_ & _ & F) H. unfold cell_at in H. destruct (tget (fr_cols labels) k) as [c|] eqn:E; [|discriminate]. rewrite Forall_forall in F. pose proof (F _ (tget_In _ _ _ E)) as L. cbn [snd] in L.
    destruct c as [|z [|]]; try discriminate. cbn [nth_error] in H. injection H as ->. reflexivity. Qed.

  Lemma polished_row s q data labels fr s' f : good refl1d (nn_sample m) names 1 labels -> constants_hold (nn_sample m) labels -> nonneg_constants (nn_sample m) ->
    polishable (nn_sample m) fr labels 0 -> (List.length (used_params ps) <= List.length fr)%nat -> least_squares g refl1d cf s q data labels (nn_op m) fr = Ok (s', f) ->
    ensure_positive f = f /\ good refl1d (nn_sample m) names 1 f /\
    exists d t r t' r', data = map Some d /\ positive_row d /\ row_is labels 0 t /\ curve_of g refl1d q t (map Some r) /\ positive_row r /\ List.length r = List.length d /\
      row_is f 0 t' /\ curve_of g refl1d q t' (map Some r') /\ positive_row r' /\ List.length r' = List.length d /\ log_error d r' <= log_error d r.
  Proof. intros Gl Ch Nc Po Lf H. pose proof Gl as [Sh _]. pose proof Sh as (Sn & Sr & Sc).
    unfold least_squares in H. bind_as H pc Ea. destruct pc as [prep rem]. cbn [fst] in H. bind_as H start Es. bind_as H r Er. destruct r as [s1 popt]. bind_as H f' Ef. injection H as <- <-.
    destruct (prep_columns labels prep rem Sh Ea) as (Pr & Pn & Pc). pose proof (start_columns prep start Pc Es) as Ec.
    assert (Ls : List.length start = List.length (used_params ps)).
    { rewrite <- (map_length pname_str), <- Pn, map_length, <- (map_length snd), Ec. symmetry. apply map_length. }
    destruct (bounds_length start fr) as [L1 L2].
    assert (Each : forall j, (j < List.length start)%nat -> exists k lo hi nm v fj, nth_error (map pname_str (used_params ps)) j = Some k /\ label_param (nn_sample m) k (Range (Flt lo) (Flt hi) nm) /\ lo < hi /\
      tget (fr_cols labels) k = Some [Some (RtoC v)] /\ nth_error fr j = Some fj /\ nth_error start j = Some (Some ((v - lo) / (hi - lo))) /\
      (let x := (v - lo) / (hi - lo) in tolerance (x - fj * Rabs x) < fj * Rabs x /\ tolerance (x + fj * Rabs x) < fj * Rabs x) /\ (length_label (nn_sample m) k -> fj * Rabs (v - lo) <= v)).
    { intros j Hj. destruct (nth_error (map pname_str (used_params ps)) j) as [k|] eqn:Ek; [|apply nth_error_None in Ek; rewrite map_length in Ek; lia].
      pose proof (nth_error_In _ _ Ek) as Hu. apply (used_name (nn_sample m) ps Hs Hps) in Hu. destruct Hu as (p & Hp & Hc).
      destruct (nth_error fr j) as [fj|] eqn:Efr; [|apply nth_error_None in Efr; lia].
      destruct (Po j k p fj) as (lo & hi & nm & v & -> & Hlt & Hv & Ht & Hl); [exists ps; split; [exact Hps|exact Ek]|exact Hp|exact Efr|].
      pose proof (single_column labels k v Sh Hv) as Hv'. exists k, lo, hi, nm, v, fj. do 5 (split; [first [reflexivity|assumption]|]). split; [|split; assumption].
      exact (start_value labels prep rem start k lo hi nm v j Sh Ea Es Hp Hlt Hv' Ek). }
    assert (Bn : forall j x fj, nth_error start j = Some (Some x) -> nth_error fr j = Some fj ->
      nth_error (lower_bounds start fr) j = Some (Some (x - fj * Rabs x)) /\ nth_error (upper_bounds start fr) j = Some (Some (x + fj * Rabs x))).
    { intros j x fj Hx Hfj. split; exact (nth_error_zip _ _ _ _ _ _ _ _ _ Hx Hfj). }
    assert (W : well_within start (lower_bounds start fr) (upper_bounds start fr)).
    { split; [rewrite L1; lia|]. split; [rewrite L2; lia|]. intros j Hj. destruct (Each j Hj) as (k & lo & hi & nm & v & fj & _ & _ & _ & _ & Hfj & Hx & (T1 & T2) & _).
      destruct (Bn j _ fj Hx Hfj) as [B1 B2]. eexists _, _, _. split; [exact Hx|]. split; [exact B1|]. split; [exact B2|]. cbv zeta in *. lra. }
    destruct (Cf _ _ _ _ _ _ _ _ _ W Er) as (Lp & (_ & _ & Wi) & s2 & s2' & c0 & s3 & s3' & c1 & y & E0 & E1 & Ey & Ne & Lc0 & Lc1 & Le).
    assert (Lpo : List.length popt = List.length (used_params ps)) by congruence.
    destruct (good_restore refl1d (nn_sample m) names ps 1 (map (fun x => [option_map RtoC x]) popt) Hf Hps Hnm) as (f0 & Ef0 & Gf).
    { refine (eq_trans (map_length _ _) _). exact Lpo. } { apply Forall_map. apply Forall_forall. reflexivity. }
    unfold nn_op in Ef. rewrite Ef0 in Ef. injection Ef as ->. change (mkOp (mkPystr "min_to_zero" true) (nn_sample m)) with (nn_op m) in Ef0.
    pose proof (starts_restored labels prep rem start Sh Ch Ea Es) as Rs.
    split; [|split; [exact Gf|]].
    - apply (ensure_same (nn_sample m) names f' (proj1 (proj2 Hf)) Hs Hnm (proj1 (proj1 Gf))). intros k c Lk Hin.
      assert (Hk : In k names) by (rewrite <- (proj1 (proj1 Gf)); exact (in_map fst _ _ Hin)).
      assert (Nd : NoDup (map fst (fr_cols f'))) by (rewrite (proj1 (proj1 Gf)); exact (pp_NoDup (nn_sample m) names Hs Hnm)).
      pose proof (In_tget _ _ _ Nd Hin) as Et.
      destruct (either (nn_sample m) names ps Hs Hps Hnm k Hk) as [(p & Hp & Hc)|(p & Hp & Hc)].
      + destruct (restore_array (nn_sample m) names ps 1 (map (fun x => [option_map RtoC x]) popt) Hs Hps Hnm) as (f1 & Ef1 & _ & _ & Ec1 & _).
        { refine (eq_trans (map_length _ _) _). exact Lpo. } { apply Forall_map. apply Forall_forall. reflexivity. }
        change (mkOp (mkPystr "min_to_zero" true) (nn_sample m)) with (nn_op m) in Ef1. rewrite Ef0 in Ef1. injection Ef1 as <-. pose proof (Ec1 k p Hp Hc) as K. rewrite Et in K. injection K as ->.
        destruct (Nc k p Hp Lk Hc) as (a & Ea' & Pa). constructor; [|constructor]. unfold lo_C. rewrite Ea'. split; [reflexivity|exact Pa].
      + assert (Hu : In k (map pname_str (used_params ps))) by (apply (used_name (nn_sample m) ps Hs Hps); exists p; auto). apply In_nth_error in Hu. destruct Hu as (j & Hj).
        assert (Hj' : (j < List.length start)%nat) by (rewrite Ls, <- (map_length pname_str); apply nth_error_Some; congruence).
        destruct (Each j Hj') as (k' & lo & hi & nm & v & fj & Ek & Hp' & Hlt & _ & Hfj & Hx & _ & Hl). rewrite Hj in Ek. injection Ek as <-.
        destruct (Bn j _ fj Hx Hfj) as [B1 _]. destruct (Wi j) as (y' & a & b & Ey' & Ea' & _ & Hy' & _); [lia|]. rewrite B1 in Ea'. injection Ea' as <-.
        pose proof (restored_one popt f' k lo hi nm j y' Lpo Ef0 Hp' Hj Ey') as K. rewrite Et in K. injection K as ->. constructor; [|constructor]. split; [reflexivity|]. cbn [fst RtoC].
        specialize (Hl Lk). set (x := (v - lo) / (hi - lo)) in *. assert (Hd : 0 < hi - lo) by lra. assert (Ex : x * (hi - lo) = v - lo) by (unfold x; field; lra).
        assert (Eabs : Rabs x * (hi - lo) = Rabs (v - lo)). { rewrite <- Ex, Rabs_mult, (Rabs_right (hi - lo)) by lra. reflexivity. }
        assert (Q : (x - fj * Rabs x) * (hi - lo) <= y' * (hi - lo)) by (apply Rmult_le_compat_r; lra).
        replace ((x - fj * Rabs x) * (hi - lo)) with (x * (hi - lo) - fj * (Rabs x * (hi - lo))) in Q by ring. rewrite Ex, Eabs in Q. lra.
    - destruct (log_all data y Ey) as (d & -> & Pd & ->). rewrite map_length in Lc0, Lc1.
      destruct (model_value q start labels s2 s2' c0 Gl Rs E0) as (t & r & Ht & Hr & Pr0 & ->); [destruct c0; [destruct d; [exfalso; apply Ne; reflexivity|discriminate]|discriminate]|].
      destruct (model_value q popt f' s3 s3' c1 Gf Ef0 E1) as (t' & r' & Ht' & Hr' & Pr1 & ->); [destruct c1; [destruct d; [exfalso; apply Ne; reflexivity|discriminate]|discriminate]|].
      rewrite map_length in Lc0, Lc1. exists d, t, r, t', r'. split; [reflexivity|]. do 9 (split; [assumption|]). apply log_error_le; assumption. Qed.
End Descent.

Section Polished.
  Context {S : Type} (g : rng S) (G : rng_ok g) (refl1d : option refl1d_fun) (pick : list fl -> nat) (Pk : pick_ok pick) (cf : @curve_fit_fun S) (Cf : curve_fit_ok cf) (Cd : curve_fit_descends cf).
  Context (m : nn_model) (names : list string) (Hf : fittable refl1d (nn_sample m)) (Hn : network_ok m names) (Nc : nonneg_constants (nn_sample m)).
  Let Hs : named_sample (nn_sample m) := proj1 Hf.
  Let Hnm : label_names (nn_sample m) = Ok names := proj1 (proj2 (proj2 (proj2 Hn))).

  Definition row_constants (f : frame) (i : nat) : Prop := forall k p, label_param (nn_sample m) k p -> is_const p = true -> cell_at f k i = Some (Some (num_C (p_min p))).

  Lemma constants_plain s curve q o s' out i : valid_input curve q -> ~ both o -> o_polish o = false -> fit_curve g refl1d pick cf m s curve q o = Ok (s', out) ->
    (i < List.length (curves_of curve))%nat -> row_constants (fo_params out) i.
  Proof. clear Cf Cd G Pk. intros V Nb Hp H Hi k p Hl Hc. destruct (predicted_values g refl1d pick cf m names Hs Hn s curve q o s' out (proj1 (proj2 Hf)) V Nb Hp H) as (ins & outs & _ & _ & Lo & _ & K).
    destruct (K i k p ltac:(rewrite Lo; exact Hi) Hl Hc) as [K1 K2]. destruct (label_sign _ _ _ (proj1 (proj2 Hf)) Hl) as [[L _]|[L _]]; [|exact (K2 L)].
    refine (eq_trans (K1 L) _). destruct (Nc k p Hl L Hc) as (a & -> & Pa). f_equal. f_equal. unfold num_C. cbn [num_re num_im]. change (a, 0) with (RtoC a). rewrite Cmod_R, Rabs_right by lra. reflexivity. Qed.

  Lemma slice_constants n f i : shaped names n f -> (i < n)%nat -> row_constants f i -> constants_hold (nn_sample m) (frame_slice i f).
  Proof. clear Cf Cd G Pk. intros (A & B & F) Hi K k p c Hl Hc Hin. specialize (K k p Hl Hc). unfold frame_slice in Hin. cbn [fr_cols] in Hin. apply in_map_iff in Hin. destruct Hin as ([k' c'] & E & Hin). cbn [fst snd] in E. injection E as -> <-.
    assert (Nd : NoDup (map fst (fr_cols f))) by (rewrite A; exact (pp_NoDup (nn_sample m) names Hs Hnm)). unfold cell_at in K. rewrite (In_tget _ _ _ Nd Hin) in K.
    destruct (nth_error_split c' i K) as (l1 & l2 & -> & L). rewrite <- L. rewrite skipn_app, skipn_all, Nat.sub_diag. cbn [skipn app firstn]. constructor; [reflexivity|constructor]. Qed.

  Lemma wp_not o : o_polish (without_polishing o) = false. Proof. reflexivity. Qed.

  Lemma unpolished_run s curve q o s' out : valid_input curve q -> samples_ok o -> fit_curve g refl1d pick cf m s curve q o = Ok (s', out) ->
    exists lo hi s0 out0 s2 s3, fit_curve g refl1d pick cf m s curve q (without_polishing o) = Ok (s0, out0) /\ good refl1d (nn_sample m) names (List.length (curves_of curve)) (fo_params out0) /\
      window m q = Ok (lo, hi) /\ polish_stage g refl1d cf m s2 (List.length (curves_of curve)) lo hi (curves_of curve) q o (fo_params out0) = Ok (s3, fo_params out).
  Proof. clear Cf Cd Nc. intros V So H. unfold fit_curve in H.
    destruct (fit_core_total g G refl1d pick Pk cf m names Hf Hn (fit_plain g refl1d pick cf m) s curve q (without_polishing o)
      (fun _ => fit_plain_good g G refl1d pick Pk cf m names Hf Hn) V So eq_refl) as (s0 & out0 & E0 & Gp & _).
    pose proof E0 as E0'. apply fit_core_inv in H. destruct H as (lo & hi & ip & s1 & shift & s2 & sc & p0 & s3 & p & Ew & Ei & E1 & E2 & E3 & E4 & <- & _ & _ & Er).
    apply fit_core_inv in E0'. destruct E0' as (lo' & hi' & ip' & s1' & shift' & s2' & sc' & p0' & s3' & p' & Ew' & Ei' & E1' & E2' & E3' & E4' & Ep' & _).
    change (interp_stage m curve q (without_polishing o)) with (interp_stage m curve q o) in Ei'.
    change (shift_stage g refl1d pick (fit_plain g refl1d pick cf m) m s (width curve q) (curves_of curve) q (without_polishing o)) with
      (shift_stage g refl1d pick (fit_plain g refl1d pick cf m) m s (width curve q) (curves_of curve) q o) in E1'.
    rewrite E1 in E1'. injection E1' as <- <-. rewrite Ew in Ew'. injection Ew' as <- <-.
    change (scale_stage g pick (fit_plain g refl1d pick cf m) s1 (width curve q) lo hi (curves_of curve) q (without_polishing o) shift) with
      (scale_stage g pick (fit_plain g refl1d pick cf m) s1 (width curve q) lo hi (curves_of curve) q o shift) in E2'.
    rewrite E2 in E2'. injection E2' as <- <-. rewrite Ei in Ei'. injection Ei' as <-. rewrite E3 in E3'. injection E3' as <-.
    unfold polish_stage in E4'. cbn [o_polish without_polishing] in E4'. injection E4' as <- <-. rewrite (interp_length m _ _ _ _ Ei) in E4.
    exists lo, hi, s0, out0, s2, s3. split; [exact E0|]. split; [exact Gp|]. split; [exact Ew|]. rewrite Ep'. exact E4. Qed.

  Lemma constants_unpolished s curve q o s' out i : valid_input curve q -> samples_ok o -> o_polish o = false -> fit_curve g refl1d pick cf m s curve q o = Ok (s', out) ->
    (i < List.length (curves_of curve))%nat -> row_constants (fo_params out) i.
  Proof. intros V So Hp H Hi. assert (D : both o \/ ~ both o). { unfold both. destruct (o_opt_q o), (o_opt_scale o); [left; auto|right..]; intros []; discriminate. }
    destruct D as [B|B]; [|exact (constants_plain s curve q o s' out i V B Hp H Hi)].
    destruct (both_chosen g G refl1d pick Pk cf m names Hf Hn s curve q o s' out V B Hp H) as (lo & hi & ds & ks & _ & _ & _ & _ & _ & K).
    destruct (nth_error (curves_of curve) i) as [c|] eqn:Ec; [|apply nth_error_None in Ec; lia]. destruct (K i c Ec) as (d & k & best & _ & _ & _ & Hsc & Erow).
    assert (Lc : List.length c = List.length q). { destruct V as (_ & _ & F & _). rewrite Forall_forall in F. apply F. eapply nth_error_In. exact Ec. }
    pose proof (scaling_choice_shaped g G refl1d pick Pk cf m names Hf Hn q lo hi c (o_ns o) d k best (proj1 V) Lc Hsc) as Shb.
    destruct (fit_curve_shape g G refl1d pick Pk cf Cf m names Hf Hn s curve q o s' out V So H) as [Sh _].
    destruct Hsc as (s4 & s1 & ks' & s5 & out' & cs & j & _ & Efit & _ & Ej & -> & _).
    set (cv := A2 (List.length c) (map (fun k => map (fun x => fmul x (Some k)) c) ks')) in *.
    assert (V' : valid_input cv q).
    { split; [exact (proj1 V)|]. cbn [curves_of cv]. split; [destruct ks'; [destruct j|]; discriminate|]. split; [|exact Lc]. apply Forall_map. apply Forall_forall. intros k' _. rewrite map_length. exact Lc. }
    assert (Hj : (j < List.length (curves_of cv))%nat) by (cbn [curves_of cv]; rewrite map_length; apply nth_error_Some; congruence).
    pose proof (constants_plain s1 cv q (variant_options d) s5 out' j V' ltac:(intros [Q _]; discriminate) eq_refl Efit Hj) as Kc.
    destruct (fit_curve_shape g G refl1d pick Pk cf Cf m names Hf Hn s1 cv q (variant_options d) s5 out' V' ltac:(split; discriminate) Efit) as [Sh' _].
    assert (In1 : forall n f i, shaped names n f -> (i < n)%nat -> forall kc, In kc (fr_cols f) -> (i < List.length (snd kc))%nat).
    { clear. intros n f i (_ & _ & F) Hi kc Hin. rewrite Forall_forall in F. rewrite (F kc Hin). exact Hi. }
    intros k0 p Hl Hc. rewrite <- (Kc k0 p Hl Hc). rewrite (cell_at_row names (fo_params out) (frame_slice j (fo_params out')) i 0 k0 (proj1 Sh) (proj1 Shb) (In1 _ _ _ Sh Hi) (In1 _ _ _ Shb (Nat.lt_0_succ 0)) Erow).
    apply (cell_at_row names); [exact (proj1 Shb)|exact (proj1 Sh')|exact (In1 _ _ _ Shb (Nat.lt_0_succ 0))|exact (In1 _ _ _ Sh' Hj)|]. eapply slice_row; [exact Sh'|exact Hj]. Qed.

  Lemma slice_cell n f i k : shaped names n f -> (i < n)%nat -> cell_at (frame_slice i f) k 0 = cell_at f k i.
  Proof. clear. intros Sh Hi. pose proof (shaped_slice names n f i Sh Hi) as Sh1. apply (cell_at_row names); [exact (proj1 Sh1)|exact (proj1 Sh)| | |eapply slice_row; [exact Sh|exact Hi]].
    - destruct Sh1 as (_ & _ & F). intros kc Hin. rewrite Forall_forall in F. rewrite (F kc Hin). lia.
    - destruct Sh as (_ & _ & F). intros kc Hin. rewrite Forall_forall in F. rewrite (F kc Hin). exact Hi. Qed.

  (** C144 *)
  Lemma polishing_improves s curve q o s' out : valid_input curve q -> samples_ok o -> o_polish o = true -> fit_curve g refl1d pick cf m s curve q o = Ok (s', out) ->
    exists lo hi s0 out0, nearest_window m q lo hi /\ fit_curve g refl1d pick cf m s curve q (without_polishing o) = Ok (s0, out0) /\
      forall i c, nth_error (curves_of curve) i = Some c -> polishable (nn_sample m) (o_bounds o) (fo_params out0) i ->
        exists d t r t' r', part lo hi c = map Some d /\ row_is (fo_params out0) i t /\ curve_of g refl1d (part lo hi q) t (map Some r) /\
          row_is (fo_params out) i t' /\ curve_of g refl1d (part lo hi q) t' (map Some r') /\ positive_row d /\ positive_row r /\ positive_row r' /\
          List.length r = List.length d /\ List.length r' = List.length d /\ log_error d r' <= log_error d r.
  Proof. intros V So Hp H. destruct (unpolished_run s curve q o s' out V So H) as (lo & hi & s0 & out0 & s2 & s3 & E0 & G0 & Ew & Ep). exists lo, hi, s0, out0.
    pose proof Hn as (Qn & _ & _ & _ & (ps & Eps & _) & _).
    split; [exact (window_spec m q lo hi Ew)|]. split; [exact E0|]. intros i c Hc Po.
    pose proof (polish_needs g G refl1d pick Pk cf Cf m names Hf Hn s curve q o s' out ps V So Hp Eps H) as Lf.
    assert (Hi : (i < List.length (curves_of curve))%nat) by (apply nth_error_Some; congruence).
    pose proof (constants_unpolished s curve q (without_polishing o) s0 out0 i V So eq_refl E0 Hi) as Kc.
    pose proof (slice_constants _ _ i (proj1 G0) Hi Kc) as Ch. pose proof (good_slice _ _ _ _ _ i G0 Hi) as Gs.
    assert (Po' : polishable (nn_sample m) (o_bounds o) (frame_slice i (fo_params out0)) 0).
    { intros j k p f Hj Hl Hfj. destruct (Po j k p f Hj Hl Hfj) as (a & b & nm & v & A & B & C & D). exists a, b, nm, v. split; [exact A|]. split; [exact B|]. split; [|exact D].
      refine (eq_trans (slice_cell _ _ i k (proj1 G0) Hi) C). }
    unfold polish_stage in Ep. rewrite Hp in Ep. bind_as Ep rr Er. destruct rr as [s4 fs]. bind_as Ep f Ef. injection Ep as <- Eout.
    pose proof (mapS_length _ _ _ _ _ _ _ _ Er) as Lfs. rewrite seq_length in Lfs. apply mapS_Forall2 in Er.
    assert (Gall : Forall (good refl1d (nn_sample m) names 1) fs).
    { eapply Forall2_right; [exact Er|]. intros j f' Hj (s5 & s6 & E). apply in_seq in Hj. unfold polish_one in E. bind_as E row Erow.
      eapply (least_squares_inv g refl1d cf Cf m names ps Hf Eps Hnm) in E; [|eapply shaped_slice; [exact (proj1 G0)|lia]]. destruct E as (? & ? & ? & _ & _ & _ & _ & E). exact E. }
    assert (K : exists fi, nth_error fs i = Some fi /\ exists s5 s6, polish_one g refl1d cf m lo hi (curves_of curve) q o (fo_params out0) s5 i = Ok (s6, fi)).
    { assert (Hseq : nth_error (seq 0 (List.length (curves_of curve))) i = Some i) by (rewrite (nth_error_nth' _ 0%nat) by (rewrite seq_length; exact Hi); rewrite seq_nth by exact Hi; reflexivity).
      clear -Er Hseq. revert Hseq. generalize i at 1 3 as j. intros j. revert j. induction Er as [|a b l l' E Er IH]; intros [|j] Hj; try discriminate; cbn [nth_error] in *; [injection Hj as ->; exists b; auto|]. apply IH. exact Hj. }
    destruct K as (fi & Hfi & s5 & s6 & E). unfold polish_one in E. bind_as E row Erow.
    assert (row = c). { pose proof (py_get_nat _ _ Hc) as Q. congruence. } subst row. rewrite !slice_part in E.
    destruct (polished_row g G refl1d cf Cd m names ps Hf Hn Eps _ _ _ _ _ _ _ Gs Ch Nc Po' Lf E) as (Ee & Gfi & d & t & r & t' & r' & Ed & Pd & Ht & Hr & Pr & Lr & Ht' & Hr' & Pr' & Lr' & Le).
    exists d, t, r, t', r'. split; [exact Ed|]. split.
    { eapply (row_is_row names); [exact (proj1 (proj1 Gs))|exact (proj1 (proj1 G0))|eapply slice_row; [exact (proj1 G0)|exact Hi]|exact Ht]. }
    split; [exact Hr|]. split; [|repeat (split; [assumption|]); exact Le].
    assert (FS : Forall (shaped names 1) fs) by (eapply Forall_impl; [|exact Gall]; intros x Hx; exact (proj1 Hx)).
    pose proof (proj1 (good_concat refl1d (nn_sample m) names fs f Gall Ef)) as Shc.
    pose proof (concat_rows names fs f (pp_NoDup (nn_sample m) names Hs Hnm) FS Ef i fi Hfi) as Erow'.
    rewrite <- Eout. apply (row_is_row names fi _ 0 i t'); [exact (proj1 (proj1 Gfi))|rewrite ensure_names; exact (proj1 Shc)| |exact Ht'].
    rewrite <- Ee at 1. symmetry. apply ensure_row; [rewrite (proj1 Shc), (proj1 (proj1 Gfi)); reflexivity|exact Erow']. Qed.
End Polished.
