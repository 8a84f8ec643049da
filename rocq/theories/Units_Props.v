(** Properties C176 and C177: simulated curves in the units of the labels, and generated training data. *)
From Coq Require Import Reals Lra Lia.
From Coquelicot Require Import Complex.
From Verif Require Import Py Str Cplx Sample_Model Sample_Spec Sample_Proofs Rng Sampling_Model Sampling_Spec Sampling_Proofs Labels_Proofs Sampling_Props Reflectivity_Model Reflectivity_Spec
  Reflectivity_Proofs ReflectivityDecay_Spec ReflectivityFlux_Proofs Simulation_Model Simulation_Spec Simulation_Proofs Simulation_Props Units_Spec Units_Proofs.
Local Open Scope string_scope.
Local Open Scope R_scope.

(** ** C176: the units of the labels *)
(** Every curve is the prediction of Parratt's recursion with q in 1/Å, lengths in Å and scattering length densities in 1e-6 1/Å². *)
Theorem C176_units S (g : rng S) refl1d s smp n T Ru Sl qs : rng_ok g ->
  st_layers smp <> [] -> clean_names smp -> label_table smp n T Ru Sl -> zero_ambient n Sl -> (forall i, (i < n)%nat -> passive (row_stack T Ru Sl i)) ->
  exists s' cs, simulate_reflectivity g refl1d s qs (T ++ Ru ++ Sl)%list (SNum 0) "builtin" = Ok (s', cs) /\
    Forall2 (fun i c => Forall2 (fun q o => predicted q (row_stack T Ru Sl i) o) qs c) (seq 0 n) cs.
Proof. intros G Hl Cl Lt Za P. destruct (simulate_exact g G refl1d s smp n T Ru Sl qs Hl Cl Lt Za) as (s' & cs & E & F). exists s', cs. split; [exact E|].
  apply (Forall2_impl_seq _ _ _ _ _ F). intros i c Hi Hc. apply (curve_units smp n); auto. Qed.
Print Assumptions C176_units.

(** The recursion is defined for smooth interfaces. *)
Theorem C176_smooth_defined q s : passive s -> smooth s -> exists r, label_amplitude q s = Some r.
Proof. intros P [A B]. rewrite <- (amplitude_si q s P). apply amplitude_smooth; [apply si_passive, P|]. split; cbn [si s_films s_roughness]; [|rewrite B; ring].
  apply Forall_map. eapply Forall_impl; [|exact A]. intros f [F0 F1]. cbn [si_film f_roughness f_thickness]. pose proof (Rinv_0_lt_compat _ (pow_lt 10 10 ltac:(lra))). split; [rewrite F0; ring|nra]. Qed.
Print Assumptions C176_smooth_defined.

(** The decay of C152 in these units *)
Theorem C176_decay S (g : rng S) refl1d s smp n T Ru Sl qs : rng_ok g ->
  st_layers smp <> [] -> clean_names smp -> label_table smp n T Ru Sl -> zero_ambient n Sl ->
  (forall i, (i < n)%nat -> passive (row_stack T Ru Sl i) /\ solid (row_stack T Ru Sl i)) ->
  exists s' cs, simulate_reflectivity g refl1d s qs (T ++ Ru ++ Sl)%list (SNum 0) "builtin" = Ok (s', cs) /\
    Forall2 (fun i c => Forall2 (fun q o => q <> 0 -> forall x, o = Some x -> 0 <= x <= (32 * PI * (variation (row_stack T Ru Sl i) / 10 ^ 6) / (q * q)) ^ 2) qs c) (seq 0 n) cs.
Proof. intros G Hl Cl Lt Za P. destruct (simulate_exact g G refl1d s smp n T Ru Sl qs Hl Cl Lt Za) as (s' & cs & E & F). exists s', cs. split; [exact E|].
  apply (Forall2_impl_seq _ _ _ _ _ F). intros i c Hi Hc. destruct (P i Hi) as [P1 P2]. destruct (curve_range smp n _ _ _ _ _ _ Lt Hc) as [L R].
  pose proof (Forall2_and _ _ _ _ _ _ (curve_decay smp n _ _ _ _ _ _ Lt (Za i Hi) P1 P2 Hc) (Forall2_range _ _ qs c L R)) as K. clear - K. induction K as [|q o qs c [K1 K2] K IH]; constructor; [|exact IH].
  intros N x Hx. split; [apply (K2 x Hx)|apply (K1 N x Hx)]. Qed.
Print Assumptions C176_decay.

Example C176_example : row_stack ex_T ex_Ru ex_Sl 0 = mkStack [mkFilm 200 5 (RtoC 10)] 1 (RtoC 20) /\ passive (row_stack ex_T ex_Ru ex_Sl 0) /\ solid (row_stack ex_T ex_Ru ex_Sl 0).
Proof. split; [reflexivity|]. split; [split; [repeat constructor|]; unfold Im; simpl; lra|]. repeat constructor. unfold row_stack; simpl. lra. Qed.

(** ** C177: generated training data *)
(** Whatever is drawn, every curve is the predicted one for the stack of its row. *)
Theorem C177_generated_data S (g : rng S) refl1d s smp n dp s1 t qs : rng_ok g -> ordinary_sample smp -> NoDup (map l_name (all_layers smp)) -> clean_names smp -> st_layers smp <> [] -> tame g dp ->
  passive_sample smp -> solid_sample smp -> vacuum_above smp -> generate_random_labels g s smp n dp = Ok (s1, t) ->
  exists T Ru Sl s2 cs, t = (T ++ Ru ++ Sl)%list /\ simulate_reflectivity g refl1d s1 qs t (SNum 0) "builtin" = Ok (s2, cs) /\
    Forall2 (fun i c => let st := row_stack T Ru Sl i in passive st /\ solid st /\ Forall2 (fun q o => predicted q st o /\ forall x, o = Some x -> 0 <= x <= 1) qs c) (seq 0 (Z.to_nat n)) cs.
Proof. intros G Ho Nd Cl Hl Ta P D V E. destruct (generated_table g G s smp n dp s1 t Ho Nd E) as (T & Ru & Sl & Et & Lt).
  pose proof (generated_ambient g G s smp n dp s1 t Ho Nd E T Ru Sl V Et Lt) as Za. destruct (simulate_exact g G refl1d s1 smp (Z.to_nat n) T Ru Sl qs Hl Cl Lt Za) as (s2 & cs & Es & F).
  exists T, Ru, Sl, s2, cs. split; [exact Et|]. split; [rewrite Et; exact Es|]. apply (Forall2_impl_seq _ _ _ _ _ F). intros i c Hi Hc.
  destruct (generated_stack g G s smp n dp s1 t Ho Nd E T Ru Sl i Ta P D Et Lt Hi) as [P1 P2]. split; [exact P1|]. split; [exact P2|]. destruct (curve_range smp _ _ _ _ _ _ _ Lt Hc) as [L R].
  apply (Forall2_and _ _ _ _ _ _ (curve_units smp _ _ _ _ _ _ _ Lt (Za i Hi) P1 Hc)). exact (Forall2_range _ _ qs c L R). Qed.
Print Assumptions C177_generated_data.

(** Generation and simulation succeed for every sample that can be stored. *)
Theorem C177_succeeds S (g : rng S) refl1d s smp n dp qs : rng_ok g -> storable_sample smp -> NoDup (map l_name (all_layers smp)) -> clean_names smp -> st_layers smp <> [] ->
  safe_dist dp -> (0 < n)%Z -> vacuum_above smp ->
  exists s1 t s2 cs, generate_random_labels g s smp n dp = Ok (s1, t) /\ simulate_reflectivity g refl1d s1 qs t (SNum 0) "builtin" = Ok (s2, cs) /\
    List.length cs = Z.to_nat n /\ Forall (fun c => List.length c = List.length qs /\ Forall (fun o => forall x, o = Some x -> 0 <= x <= 1) c) cs.
Proof. intros G St Nd Cl Hl Sd Hn V. destruct (generate_total g G s smp n dp St Nd Sd Hn) as (s1 & t & E). pose proof (storable_ordinary _ St) as Ho.
  destruct (generated_table g G s smp n dp s1 t Ho Nd E) as (T & Ru & Sl & Et & Lt). pose proof (generated_ambient g G s smp n dp s1 t Ho Nd E T Ru Sl V Et Lt) as Za.
  destruct (simulate_exact g G refl1d s1 smp (Z.to_nat n) T Ru Sl qs Hl Cl Lt Za) as (s2 & cs & Es & F). exists s1, t, s2, cs. split; [exact E|]. split; [rewrite Et; exact Es|].
  split; [apply Forall2_len in F; rewrite seq_length in F; auto|]. clear - F Lt. induction F as [|i c l cs H F IH]; constructor; [|exact IH]. exact (curve_range smp _ _ _ _ _ _ _ Lt H). Qed.
Print Assumptions C177_succeeds.

Example C177_example : storable_sample ex_one /\ NoDup (map l_name (all_layers ex_one)) /\ clean_names ex_one /\ passive_sample ex_one /\ solid_sample ex_one /\ vacuum_above ex_one /\
  tame ex_rng (mkDparams "uniform" 0 0).
Proof. assert (R0 : forall nm n0 v, nm = n0 -> 0 <= v -> storable_real n0 (Some (Const (Flt v) (Some nm)))) by (intros; eexists; split; [reflexivity|]; cbn; auto).
  split; [|split; [|split; [|split; [|split; [|split]]]]].
  - split; [repeat split; intros p Hp; injection Hp as <-; reflexivity|]. split; [|repeat constructor; cbn; try lra; eexists; repeat split; cbn; try lra].
    split; [reflexivity|]. split; [apply R0; [reflexivity|lra]|]. repeat split; intros p Hp; injection Hp as <-; reflexivity.
  - repeat constructor; simpl; intuition discriminate.
  - exact (proj1 ex_one_table).
  - intros l p Hl Hp. repeat (destruct Hl as [<-|Hl]; [injection Hp as <-; cbn; lra|]). destruct Hl.
  - intros l p [<-|[]] Hp. injection Hp as <-. cbn. lra.
  - exists (Flt 0), (Some "sld"). repeat split; cbn; lra.
  - intros H. discriminate H. Qed.
