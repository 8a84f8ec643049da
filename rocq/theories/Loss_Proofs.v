(** Proofs for C182. *)
From Coq Require Import Reals Lra.
From Coquelicot Require Import Complex.
From Verif Require Import Py Str Cplx Sample_Model Rng Sampling_Model Reflectivity_Model Simulation_Model Interp_Model Arr Preproc_Model
  Preproc_Spec Fitter_Model Fitter_Spec Fitter_Proofs FitterOut_Proofs Choice_Proofs FileFitter_Model FileFitter_Spec FileFitter_Proofs FileRange_Proofs.
Local Open Scope R_scope.

Section Loss.
  Context {S : Type} (g : rng S) (refl1d : option refl1d_fun).
  Lemma loss_by_model qs o s labels data : log_mse_loss g refl1d qs o s labels data =
    ('(s', c) <- fitting_model g refl1d qs o s labels ;; e <- mean_squared_error (A1 (map flog10 data)) (A1 c) ;; Ok (s', e)).
  Proof. unfold log_mse_loss, fitting_model. destruct (restore_labels _ _) as [f|e]; [|reflexivity]. cbn [bind]. destruct (simulate_frame _ _ _ _ _) as [[s' cs]|e]; [|reflexivity]. cbn [bind].
    destruct (py_get cs 0) as [c|e]; reflexivity. Qed.
  Lemma loss_value qs o s labels d s' c : fitting_model g refl1d qs o s labels = Ok (s', map Some c) -> d <> [] -> List.length d = List.length c -> positive_row d ->
    log_mse_loss g refl1d qs o s labels (map Some d) = Ok (s', [Some (square_error (map Interp_Model.log10 d) c)]).
  Proof. intros E Hd L P. rewrite loss_by_model, E. cbn [bind]. rewrite flog10_pos by exact P. rewrite mse_vector; [reflexivity|destruct d; [congruence|discriminate]|rewrite map_length; exact L]. Qed.
  Lemma loss_error qs o s labels data e : fitting_model g refl1d qs o s labels = Raise e -> log_mse_loss g refl1d qs o s labels data = Raise e.
  Proof. intros E. rewrite loss_by_model, E. reflexivity. Qed.
  Lemma loss_lengths qs o s labels data s' c : fitting_model g refl1d qs o s labels = Ok (s', c) -> List.length data <> List.length c ->
    log_mse_loss g refl1d qs o s labels data = Raise ValueError.
  Proof. intros E L. rewrite loss_by_model, E. cbn [bind]. rewrite mse_lengths; [reflexivity|]. cbn [arr_len]. rewrite map_length. exact L. Qed.
  Lemma loss_undefined qs o s labels data s' c : fitting_model g refl1d qs o s labels = Ok (s', c) -> List.length data = List.length c -> Exists not_positive data \/ In None c ->
    log_mse_loss g refl1d qs o s labels data = Ok (s', [None]).
  Proof. intros E L H. rewrite loss_by_model, E. cbn [bind]. unfold mean_squared_error. cbn [arr_len arr_sub]. rewrite map_length, L, Nat.eqb_refl. cbn [negb].
    rewrite row_op_A1 by (rewrite map_length; symmetry; exact L). cbn [bind map].
    assert (I : In None (map flog10 data) \/ In None c).
    { destruct H as [H|H]; [left|right; exact H]. apply Exists_exists in H. destruct H as (x & Hx & E0). apply in_map_iff. exists x. split; [exact (not_positive_log x E0)|exact Hx]. }
    f_equal. f_equal. f_equal. unfold fmean. rewrite fsum_none; [reflexivity|]. apply in_map_iff. exists None. split; [reflexivity|]. unfold bop. rewrite stretch_same.
    replace (List.length (map flog10 data)) with (List.length c) by (rewrite map_length; symmetry; exact L). rewrite stretch_same.
    apply exists_none_zip; [rewrite map_length; symmetry; exact L|reflexivity|intros [x|]; reflexivity|exact I]. Qed.
End Loss.

Lemma log10_inj x y : 0 < x -> 0 < y -> Interp_Model.log10 x = Interp_Model.log10 y -> x = y.
Proof. intros Hx Hy H. unfold Interp_Model.log10 in H. assert (L : ln 10 <> 0) by (apply Rgt_not_eq; rewrite <- ln_1; apply ln_increasing; lra).
  apply ln_inv; [exact Hx|exact Hy|]. apply (Rmult_eq_compat_r (ln 10)) in H. unfold Rdiv in H. rewrite !Rmult_assoc, Rinv_l, !Rmult_1_r in H by exact L. exact H. Qed.
Lemma log10_rows a : forall b, positive_row a -> positive_row b -> map Interp_Model.log10 a = map Interp_Model.log10 b -> a = b.
Proof. induction a as [|x a IH]; intros [|y b] Pa Pb H; try discriminate; [reflexivity|]. inversion Pa; subst. inversion Pb; subst. cbn [map] in H. injection H as Hx H.
  f_equal; [apply log10_inj; assumption|apply IH; assumption]. Qed.
