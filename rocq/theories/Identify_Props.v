(** Property C183: what a simulated curve tells about the labels. *)
From Coq Require Import Reals Lra Lia.
From Coquelicot Require Import Complex.
From Verif Require Import Py Str Cplx Sample_Model Sample_Spec Rng Sampling_Model Sampling_Spec Sampling_Proofs Sampling_Props Reflectivity_Model Reflectivity_Spec
  Simulation_Model Simulation_Spec Simulation_Proofs Simulation_Props Units_Spec Units_Proofs Identify_Spec Identify_Proofs.
Local Open Scope string_scope.
Local Open Scope R_scope.

Local Notation simulate qs s := (multilayer_reflectivity qs (thickness_array s) (roughness_array s) (sld_array s) 0).
Local Notation bare sigma sld := (mkStack [] sigma sld).

(** ** C183 *)
(** Rows of label tables, of one sample or of two, that describe the same material at every depth have the same curve, whatever the q values. *)
Theorem C183_same_curve S (g : rng S) refl1d smp smp' n n' T Ru Sl T' Ru' Sl' qs s1 s2 i j : rng_ok g ->
  st_layers smp <> [] -> clean_names smp -> label_table smp n T Ru Sl -> zero_ambient n Sl -> (i < n)%nat ->
  st_layers smp' <> [] -> clean_names smp' -> label_table smp' n' T' Ru' Sl' -> zero_ambient n' Sl' -> (j < n')%nat ->
  indistinct (row_stack T Ru Sl i) (row_stack T' Ru' Sl' j) ->
  exists s1' cs s2' cs' c, simulate_reflectivity g refl1d s1 qs (T ++ Ru ++ Sl)%list (SNum 0) "builtin" = Ok (s1', cs) /\
    simulate_reflectivity g refl1d s2 qs (T' ++ Ru' ++ Sl')%list (SNum 0) "builtin" = Ok (s2', cs') /\ nth_error cs i = Some c /\ nth_error cs' j = Some c.
Proof. intros G Hl Cl Lt Za Hi Hl' Cl' Lt' Za' Hj I. destruct (simulate_exact g G refl1d s1 smp n T Ru Sl qs Hl Cl Lt Za) as (s1' & cs & E & F).
  destruct (simulate_exact g G refl1d s2 smp' n' T' Ru' Sl' qs Hl' Cl' Lt' Za') as (s2' & cs' & E' & F').
  destruct (Forall2_seq_nth _ n 0 cs F i Hi) as (c & Ec & Hc). destruct (Forall2_seq_nth _ n' 0 cs' F' j Hj) as (c' & Ec' & Hc'). cbn [Nat.add] in Hc, Hc'.
  rewrite (rows_indistinct smp smp' n n' T Ru Sl T' Ru' Sl' i j qs Lt Za Lt' Za' Hi Hj I) in Hc. rewrite Hc' in Hc. injection Hc as ->. exists s1', cs, s2', cs', c. auto. Qed.
Print Assumptions C183_same_curve.
(** So nothing that depends on the curve alone, no network whatever its training, is right for two such rows with different labels. *)
Theorem C183_no_recovery S (g : rng S) refl1d smp n T Ru Sl qs s i j : rng_ok g -> st_layers smp <> [] -> clean_names smp -> label_table smp n T Ru Sl -> zero_ambient n Sl ->
  (i < n)%nat -> (j < n)%nat -> indistinct (row_stack T Ru Sl i) (row_stack T Ru Sl j) -> entries i (T ++ Ru ++ Sl)%list <> entries j (T ++ Ru ++ Sl)%list ->
  exists s' cs, simulate_reflectivity g refl1d s qs (T ++ Ru ++ Sl)%list (SNum 0) "builtin" = Ok (s', cs) /\
    forall f : list (option R) -> list C, ~ (forall p c, nth_error cs p = Some c -> f c = entries p (T ++ Ru ++ Sl)%list).
Proof. intros G Hl Cl Lt Za Hi Hj I N. destruct (C183_same_curve S g refl1d smp smp n n T Ru Sl T Ru Sl qs s s i j G Hl Cl Lt Za Hi Hl Cl Lt Za Hj I) as (s1 & cs & s2 & cs' & c & E & E' & A & B).
  rewrite E in E'. injection E' as <- <-. exists s1, cs. split; [exact E|]. intros f H. apply N. rewrite <- (H i c A). exact (H j c B). Qed.
Print Assumptions C183_no_recovery.

(** What a curve does tell: the roughness of a bare substrate of known material from one point above the critical edge, *)
Theorem C183_roughness q sld s1 s2 : 0 <= Im sld -> sld <> 0 -> q <> 0 -> 16 * PI * Re sld < q * q -> simulate [q] (bare s1 sld) = simulate [q] (bare s2 sld) -> Rabs s1 = Rabs s2.
Proof. exact (bare_roughness q sld s1 s2). Qed.
Print Assumptions C183_roughness.
(** and the modulus of the scattering length density of a smooth one from the curve beyond any q. *)
Theorem C183_density sld sld' q1 : 0 <= Im sld -> 0 <= Im sld' -> (forall q, q1 < q -> simulate [q] (bare 0 sld) = simulate [q] (bare 0 sld')) -> Cmod sld = Cmod sld'.
Proof. exact (bare_sld sld sld' q1). Qed.
Print Assumptions C183_density.

(** Films of 150 Å and 250 Å with the scattering length density of the substrate *)
Definition id_film : layer := mkLayer KLayer "film" (Some (Range (Flt 100) (Flt 300) (Some "thickness"))) (Some (Range (Flt 1) (Flt 10) (Some "roughness"))) (Some (Range (Flt 15) (Flt 25) (Some "sld"))).
Definition id_sample : structure := mkStructure (st_ambient ex_bare) (st_substrate ex_bare) [id_film].
Definition id_T : cols := [("film_thickness", [RtoC 150; RtoC 250])].
Definition id_Ru : cols := [("substrate_roughness", [RtoC 1; RtoC 1]); ("film_roughness", [RtoC 5; RtoC 5])].
Definition id_Sl : cols := [("substrate_sld", [RtoC 20; RtoC 20]); ("film_sld", [RtoC 20; RtoC 20]); ("ambient_sld", [RtoC 0; RtoC 0])].
Example C183_example : clean_names id_sample /\ label_table id_sample 2 id_T id_Ru id_Sl /\ zero_ambient 2 id_Sl /\ indistinct (row_stack id_T id_Ru id_Sl 0) (row_stack id_T id_Ru id_Sl 1) /\
  entries 0 (id_T ++ id_Ru ++ id_Sl)%list <> entries 1 (id_T ++ id_Ru ++ id_Sl)%list.
Proof. split; [repeat constructor|]. split; [repeat split; repeat constructor|]. split; [intros [|[|i]] H; [reflexivity|reflexivity|lia]|]. split.
  - assert (P : 0 <= Im (RtoC 20)) by (unfold Im; simpl; lra). exact (ind_trans _ _ _ (ind_substrate [] 150 5 1 (RtoC 20) P) (ind_sym _ _ (ind_substrate [] 250 5 1 (RtoC 20) P))).
  - intros E. injection E as E. lra. Qed.
(** Silicon at 1 1/Å, in SI units *)
Example C183_example_roughness : let sld := RtoC (20 * 10 ^ 14) in let q := 10 ^ 10 in 0 <= Im sld /\ sld <> 0 /\ q <> 0 /\ 16 * PI * Re sld < q * q.
Proof. cbv zeta. pose proof PI_4. split; [unfold Im; simpl; lra|]. split; [intros E; apply RtoC_inj in E; lra|]. split; [lra|unfold Re; cbn [RtoC fst]; lra]. Qed.
