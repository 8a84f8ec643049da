(** Property C182: the loss of labels. *)
From Coq Require Import Reals Lra.
From Coquelicot Require Import Complex.
From Verif Require Import Py Str Cplx Sample_Model Rng Sampling_Model Reflectivity_Model Simulation_Model Interp_Model Arr Preproc_Model
  Preproc_Spec Sampling_Spec Sampling_Proofs Fitter_Model Fitter_Spec Choice_Proofs FileFitter_Spec FitterValue_Props Loss_Proofs.
Local Open Scope R_scope.

(** ** C182 *)
(** The loss compares the logarithms of the data with the very values that the function given to curve_fit returns for the same labels. *)
Theorem C182_value S (g : rng S) refl1d qs o s labels d s' c : fitting_model g refl1d qs o s labels = Ok (s', map Some c) -> d <> [] -> List.length d = List.length c -> positive_row d ->
  log_mse_loss g refl1d qs o s labels (map Some d) = Ok (s', [Some (square_error (map Interp_Model.log10 d) c)]).
Proof. exact (loss_value g refl1d qs o s labels d s' c). Qed.
Print Assumptions C182_value.
(** It is 0 for the data's own labels only: *)
Theorem C182_zero_iff S (g : rng S) refl1d qs o s labels d s' c : fitting_model g refl1d qs o s labels = Ok (s', map Some (map Interp_Model.log10 c)) ->
  d <> [] -> List.length d = List.length c -> positive_row d -> positive_row c ->
  exists e, log_mse_loss g refl1d qs o s labels (map Some d) = Ok (s', [Some e]) /\ 0 <= e /\ (e = 0 <-> d = c).
Proof. intros E Hd L Pd Pc. exists (square_error (map Interp_Model.log10 d) (map Interp_Model.log10 c)).
  pose proof (loss_value g refl1d qs o s labels d s' _ E Hd ltac:(rewrite map_length; exact L) Pd) as V. split; [exact V|]. split.
  - refine (mse_nonneg (A1 (map Some (map Interp_Model.log10 d))) (A1 (map Some (map Interp_Model.log10 c))) _ _ (mse_vector _ _ _ _) (or_introl eq_refl)).
    + destruct d; [congruence|discriminate].
    + rewrite !map_length; exact L.
  - rewrite square_error_zero; [|destruct d; [congruence|discriminate]|rewrite !map_length; exact L]. split; [apply log10_rows; assumption|intros ->; reflexivity]. Qed.
Print Assumptions C182_zero_iff.
Theorem C182_undefined S (g : rng S) refl1d qs o s labels data s' c : fitting_model g refl1d qs o s labels = Ok (s', c) -> List.length data = List.length c -> Exists not_positive data \/ In None c ->
  log_mse_loss g refl1d qs o s labels data = Ok (s', [None]).
Proof. exact (loss_undefined g refl1d qs o s labels data s' c). Qed.
Print Assumptions C182_undefined.
Theorem C182_lengths S (g : rng S) refl1d qs o s labels data s' c : fitting_model g refl1d qs o s labels = Ok (s', c) -> List.length data <> List.length c ->
  log_mse_loss g refl1d qs o s labels data = Raise ValueError.
Proof. exact (loss_lengths g refl1d qs o s labels data s' c). Qed.
Print Assumptions C182_lengths.
Theorem C182_error S (g : rng S) refl1d qs o s labels data e : fitting_model g refl1d qs o s labels = Raise e -> log_mse_loss g refl1d qs o s labels data = Raise e.
Proof. exact (loss_error g refl1d qs o s labels data e). Qed.
Print Assumptions C182_error.
(** A film of 150 Å with intensity [w] for thickness [w]: loss 0 for the data of its own curve, not for another one *)
Example C182_example s : exists s1 e1 s2 e2,
  log_mse_loss ex_rng (Some (fun_engine (fun w => w))) [1; 2] (nn_op (const_nn 0)) s [Some ((150 - 100) / 200)] (map Some [150; 150]) = Ok (s1, [Some e1]) /\ e1 = 0 /\
  log_mse_loss ex_rng (Some (fun_engine (fun w => w))) [1; 2] (nn_op (const_nn 0)) s [Some ((150 - 100) / 200)] (map Some [150; 100]) = Ok (s2, [Some e2]) /\ e2 <> 0.
Proof. destruct (thick_model (fun w => w) 0 150 s ltac:(lra)) as (s' & E).
  destruct (C182_zero_iff nat ex_rng _ _ _ _ _ [150; 150] s' [150; 150] E) as (e1 & E1 & _ & Z1); [discriminate|reflexivity|repeat constructor; lra..|].
  destruct (C182_zero_iff nat ex_rng _ _ _ _ _ [150; 100] s' [150; 150] E) as (e2 & E2 & _ & Z2); [discriminate|reflexivity|repeat constructor; lra..|].
  exists s', e1, s', e2. split; [exact E1|]. split; [apply Z1; reflexivity|]. split; [exact E2|]. intros H. apply Z2 in H. injection H as H. lra. Qed.
