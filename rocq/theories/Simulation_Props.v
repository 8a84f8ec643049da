(** Properties C19, C25-C29, C88 and C89: simulation from label tables, SLD profiles and interpolation. *)
From Coq Require Import Reals Lra Sorted.
From Coquelicot Require Import Complex.
From Verif Require Import Py Str Sample_Model Sample_Spec Sample_Proofs Sample_Props Rng Sampling_Model Sampling_Spec Sampling_Proofs Labels_Proofs
  Sampling_Props Reflectivity_Model Reflectivity_Spec Simulation_Model Simulation_Spec Simulation_Proofs
  SldProfile_Model SldProfile_Spec SldProfile_Proofs Arr Interp_Model Interp_Spec Interp_Proofs.
Local Open Scope string_scope.
Local Open Scope R_scope.

(** One-row label table of a film on silicon *)
Definition ex_T : cols := [("film_thickness", [RtoC 200])].
Definition ex_Ru : cols := [("substrate_roughness", [RtoC 1]); ("film_roughness", [RtoC 5])].
Definition ex_Sl : cols := [("substrate_sld", [RtoC 20]); ("film_sld", [RtoC 10]); ("ambient_sld", [RtoC 0])].
Definition ex_film1 : layer := mkLayer KLayer "film" (Some (Range (Flt 100) (Flt 300) (Some "thickness"))) (Some (Range (Flt 1) (Flt 10) (Some "roughness")))
  (Some (Range (Flt 5) (Flt 15) (Some "sld"))).
Definition ex_bare : structure := mkStructure
  (mkLayer KAmbient "ambient" None None (Some (Const (Flt 0) (Some "sld"))))
  (mkLayer KSubstrate "substrate" None (Some (Const (Flt 1) (Some "roughness"))) (Some (Const (Flt 20) (Some "sld")))) [].
Definition ex_one : structure := mkStructure (st_ambient ex_bare) (st_substrate ex_bare) [ex_film1].
Lemma ex_one_table : clean_names ex_one /\ label_table ex_one 1 ex_T ex_Ru ex_Sl /\ zero_ambient 1 ex_Sl.
Proof. split; [repeat constructor|]. split; [repeat split; repeat constructor|]. intros [|i] H; [reflexivity|lia]. Qed.
Definition ex_bare_Ru : cols := [("substrate_roughness", [RtoC 1])].
Definition ex_bare_Sl : cols := [("substrate_sld", [RtoC 20]); ("ambient_sld", [RtoC 0])].
Lemma ex_bare_table : clean_names ex_bare /\ label_table ex_bare 1 [] ex_bare_Ru ex_bare_Sl.
Proof. split; [repeat constructor|]. repeat split; repeat constructor. Qed.

(** ** C19 *)
Theorem C19_categories_partial s n T Ru Sl : clean_names s -> label_table s n T Ru Sl ->
  separate (T ++ Ru ++ Sl)%list = (map snd T, map snd Ru, map snd Sl).
Proof. exact (separate_table s n T Ru Sl). Qed.
Print Assumptions C19_categories_partial.

Theorem C19_counts s n T Ru Sl : label_table s n T Ru Sl ->
  List.length T = List.length (st_layers s) /\ List.length Ru = S (List.length (st_layers s)) /\ List.length Sl = S (S (List.length (st_layers s))).
Proof. exact (separate_counts s n T Ru Sl). Qed.
Print Assumptions C19_counts.

(** The word "sld" in a layer name is harmless, "thickness" and "roughness" are not. *)
Theorem C19_any_name_refuted : exists s T Ru Sl, label_table s 1 T Ru Sl /\ separate (T ++ Ru ++ Sl)%list <> (map snd T, map snd Ru, map snd Sl).
Proof. exact (ex_intro _ bad_sample separate_bad). Qed.
Print Assumptions C19_any_name_refuted.

Example C19_example : separate (ex_T ++ ex_Ru ++ ex_Sl)%list = ([[RtoC 200]], [[RtoC 1]; [RtoC 5]], [[RtoC 20]; [RtoC 10]; [RtoC 0]]).
Proof. reflexivity. Qed.

(** ** C25 *)
Theorem C25_one_curve_per_row_partial S (g : rng S) refl1d s smp n T Ru Sl qs d :
  st_layers smp <> [] -> clean_names smp -> label_table smp n T Ru Sl -> zero_ambient n Sl -> 0 <= d -> rng_ok g ->
  exists s' cs, simulate_reflectivity g refl1d s qs (T ++ Ru ++ Sl)%list (SNum d) "builtin" = Ok (s', cs) /\
    List.length cs = n /\ Forall (fun c => List.length c = List.length qs) cs.
Proof. exact (fun A B C D E G => simulate_Ok g G refl1d s smp n T Ru Sl qs d A B C D E). Qed.
Print Assumptions C25_one_curve_per_row_partial.

(** Without q noise curve [i] is the engine applied to row [i]. *)
Theorem C25_curve_of_row S (g : rng S) refl1d s smp n T Ru Sl qs :
  st_layers smp <> [] -> clean_names smp -> label_table smp n T Ru Sl -> zero_ambient n Sl -> rng_ok g ->
  exists s' cs, simulate_reflectivity g refl1d s qs (T ++ Ru ++ Sl)%list (SNum 0) "builtin" = Ok (s', cs) /\
    Forall2 (fun i c => row_curve qs T Ru Sl i = Ok c) (seq 0 n) cs.
Proof. exact (fun A B C D G => simulate_exact g G refl1d s smp n T Ru Sl qs A B C D). Qed.
Print Assumptions C25_curve_of_row.

Theorem C25_refl1d_curve_of_row S (g : rng S) f s smp n T Ru Sl qs : rng_ok g ->
  st_layers smp <> [] -> clean_names smp -> label_table smp n T Ru Sl ->
  exists s', simulate_reflectivity g (Some f) s qs (T ++ Ru ++ Sl)%list (SNum 0) "refl1d" = Ok (s', map (refl1d_curve f qs T Ru Sl) (seq 0 n)).
Proof. exact (fun G => simulate_refl1d g G f s smp n T Ru Sl qs). Qed.
Print Assumptions C25_refl1d_curve_of_row.

Theorem C25_bare_substrate_refuted S (g : rng S) refl1d s smp n T Ru Sl qs d : st_layers smp = [] -> clean_names smp -> label_table smp n T Ru Sl -> 0 <= d ->
  exists s', simulate_reflectivity g refl1d s qs (T ++ Ru ++ Sl)%list (SNum d) "builtin" = Ok (s', []).
Proof. exact (simulate_bare g refl1d s smp n T Ru Sl qs d). Qed.
Print Assumptions C25_bare_substrate_refuted.

Theorem C25_bare_substrate_refl1d_refuted S (g : rng S) f s smp n T Ru Sl qs d : st_layers smp = [] -> clean_names smp -> label_table smp n T Ru Sl ->
  simulate_reflectivity g (Some f) s qs (T ++ Ru ++ Sl)%list d "refl1d" = Raise ValueError.
Proof. exact (simulate_refl1d_bare g f s smp n T Ru Sl qs d). Qed.
Print Assumptions C25_bare_substrate_refl1d_refuted.

Example C25_example : exists s' c, simulate_reflectivity ex_rng None 0%nat [1/10; 2/10] (ex_T ++ ex_Ru ++ ex_Sl)%list (SNum 0) "builtin" = Ok (s', [c]) /\
  List.length c = 2%nat.
Proof. destruct ex_one_table as (A & B & D). destruct (simulate_Ok ex_rng ex_rng_ok None 0%nat ex_one 1 ex_T ex_Ru ex_Sl [1/10; 2/10] 0) as (s' & cs & E & L & F);
  try assumption; [discriminate|lra|]. destruct cs as [|c [|? ?]]; try discriminate. exists s', c. split; [exact E|exact (Forall_inv F)]. Qed.
Example C25_example_bare : exists s', simulate_reflectivity ex_rng None 0%nat [1/10] (ex_bare_Ru ++ ex_bare_Sl)%list (SNum 0) "builtin" = Ok (s', []).
Proof. destruct ex_bare_table as (A & B). apply (simulate_bare ex_rng None 0%nat ex_bare 1 [] ex_bare_Ru ex_bare_Sl); [reflexivity|assumption..|lra]. Qed.

(** ** C26 *)
Theorem C26_profile erf t sl r0 ro sub amb : List.length t = List.length sl -> List.length ro = List.length sl -> Forall (fun r => r <> 0) (r0 :: ro) ->
  exists heights, make_sld_profile erf t sl (r0 :: ro) sub amb =
    Ok (heights, map (fun z => Some (profile_value erf (fst sub)
      (stack_interfaces 0 (fst sub) (combine (map Rabs t) (map fst sl)) (map Rabs (r0 :: ro)) (fst amb)) z)) heights) /\
    let start := - (10 + 3 * Rabs r0) in
    let stop := total (map Rabs t) + (10 + 3 * Rabs (last ro r0)) in
    (forall i, (i < List.length heights)%nat -> nth i heights 0 = start + INR i * (1/10)) /\
    (0 < List.length heights)%nat /\
    start + INR (List.length heights - 1) * (1/10) < stop <= start + INR (List.length heights) * (1/10).
Proof. exact (make_profile_eq erf t sl r0 ro sub amb). Qed.
Print Assumptions C26_profile.

Theorem C26_starts_at_substrate erf : erf_ok erf -> forall sub is z, Rabs (profile_value erf sub is z - sub) <= lower_tail erf is z.
Proof. exact (profile_lower erf). Qed.
Print Assumptions C26_starts_at_substrate.

Theorem C26_ends_at_ambient erf : erf_ok erf -> forall sub amb h films ws z, List.length ws = S (List.length films) ->
  Rabs (profile_value erf sub (stack_interfaces h sub films ws amb) z - amb) <= upper_tail erf (stack_interfaces h sub films ws amb) z.
Proof. exact (profile_upper erf). Qed.
Print Assumptions C26_ends_at_ambient.

(** A stack of increasing SLDs has an increasing profile. *)
Theorem C26_monotone erf : erf_ok erf -> forall sub is z z', Forall (fun i => 0 < i_width i /\ i_below i <= i_above i) is -> z <= z' ->
  profile_value erf sub is z <= profile_value erf sub is z'.
Proof. exact (profile_mono erf). Qed.
Print Assumptions C26_monotone.

Theorem C26_errors erf t sl ro sub amb : make_sld_profile erf t sl ro sub amb = Raise ValueError <->
  ~ (List.length t = List.length sl /\ List.length ro = S (List.length sl)).
Proof. exact (make_profile_errors erf t sl ro sub amb). Qed.
Print Assumptions C26_errors.

(** An interface without roughness is a step, and undefined exactly at the interface. *)
Theorem C26_sharp_interface erf z c l r :
  smooth_step erf z c 0 l r = (if Req_EM_T z c then None else Some (if Rlt_dec z c then 0 else r - l)).
Proof. exact (smooth_step_zero erf z c l r). Qed.
Print Assumptions C26_sharp_interface.

Definition clamp (x : R) : R := Rmax (-1) (Rmin 1 x).
Lemma clamp_ok : erf_ok clamp.
Proof. constructor; intros; unfold clamp, Rmax, Rmin; repeat destruct (Rle_dec _ _); lra. Qed.
Example C26_example : erf_ok clamp /\ exists h p, make_sld_profile clamp [100] [RtoC 10] [1; 2] (RtoC 20) (RtoC 0) = Ok (h, p).
Proof. split; [exact clamp_ok|]. destruct (make_profile_eq clamp [100] [RtoC 10] 1 [2] (RtoC 20) (RtoC 0)) as (h & E & _); [reflexivity|reflexivity|repeat constructor; lra|eauto]. Qed.

(** ** C88: one profile per row *)
Theorem C88_one_profile_per_row_partial erf smp n T Ru Sl : st_layers smp <> [] -> clean_names smp -> label_table smp n T Ru Sl ->
  exists out, simulate_sld_profiles erf n (T ++ Ru ++ Sl)%list = Ok out /\ Forall2 (fun i p => row_profile erf T Ru Sl i = Ok p) (seq 0 n) out.
Proof. exact (profile_rows erf smp n T Ru Sl). Qed.
Print Assumptions C88_one_profile_per_row_partial.

Theorem C88_bare_substrate_refuted erf smp n T Ru Sl : st_layers smp = [] -> clean_names smp -> label_table smp n T Ru Sl -> (0 < n)%nat ->
  simulate_sld_profiles erf n (T ++ Ru ++ Sl)%list = Raise IndexError.
Proof. exact (profile_rows_bare erf smp n T Ru Sl). Qed.
Print Assumptions C88_bare_substrate_refuted.

Example C88_example : exists p, simulate_sld_profiles clamp 1 (ex_T ++ ex_Ru ++ ex_Sl)%list = Ok [p].
Proof. destruct ex_one_table as (A & B & _). destruct (profile_rows clamp ex_one 1 ex_T ex_Ru ex_Sl) as (out & E & F); try assumption; [discriminate|].
  inversion F as [|? p ? ? ? F']; subst. inversion F'; subst. eauto. Qed.
Example C88_example_bare : simulate_sld_profiles clamp 1 (ex_bare_Ru ++ ex_bare_Sl)%list = Raise IndexError.
Proof. destruct ex_bare_table as (A & B). exact (profile_rows_bare clamp ex_bare 1 [] _ _ eq_refl A B ltac:(lia)). Qed.

(** ** C27 *)
(** Zero intensities are allowed. *)
Theorem C27_exact_at_points q r : increasing q -> nonnegative_curve r -> List.length q = List.length r -> q <> [] ->
  interp_reflectivity q q (map Some r) = Ok (map Some r).
Proof. exact (interp_exact q r). Qed.
Print Assumptions C27_exact_at_points.

Theorem C27_below_range x q0 q r0 r : increasing (q0 :: q) -> nonnegative_curve (r0 :: r) -> List.length q = List.length r -> x <= q0 ->
  interp_reflectivity [x] (q0 :: q) (map Some (r0 :: r)) = Ok [Some r0].
Proof. exact (interp_below x q0 q r0 r). Qed.
Print Assumptions C27_below_range.

Theorem C27_above_range x q0 q r0 r : Forall (fun a => a <= x) (q0 :: q) -> nonnegative_curve (r0 :: r) -> List.length q = List.length r ->
  interp_reflectivity [x] (q0 :: q) (map Some (r0 :: r)) = Ok [Some (last r r0)].
Proof. exact (interp_above x q0 q r0 r). Qed.
Print Assumptions C27_above_range.

Theorem C27_bounded qi q r a b : increasing q -> q <> [] -> List.length q = List.length r -> 0 <= a -> Forall (fun y => a <= y <= b) r ->
  exists out, interp_reflectivity qi q (map Some r) = Ok (map Some out) /\ List.length out = List.length qi /\ Forall (fun y => a <= y <= b) out.
Proof. exact (interp_bound qi q r a b). Qed.
Print Assumptions C27_bounded.

(** Between two neighbouring points with positive intensities the logarithm of the curve is a straight line. *)
Theorem C27_log_linear x i q r d : increasing q -> nonnegative_curve r -> List.length q = List.length r -> (S i < List.length q)%nat ->
  0 < nth i r d -> 0 < nth (S i) r d -> nth i q d <= x <= nth (S i) q d ->
  exists v, interp_reflectivity [x] q (map Some r) = Ok [Some v] /\ 0 < v /\
    ln v / ln 10 = ln (nth i r d) / ln 10 + (x - nth i q d) / (nth (S i) q d - nth i q d) * (ln (nth (S i) r d) / ln 10 - ln (nth i r d) / ln 10).
Proof. exact (interp_log_linear x i q r d). Qed.
Print Assumptions C27_log_linear.

(** Between two neighbouring points of which one has no intensity the curve vanishes; next to a negative intensity or NaN it is NaN. *)
Theorem C27_zero_intensity x i q r d : increasing q -> nonnegative_curve r -> List.length q = List.length r -> (S i < List.length q)%nat ->
  nth i r d = 0 \/ nth (S i) r d = 0 -> nth i q d < x < nth (S i) q d -> interp_reflectivity [x] q (map Some r) = Ok [Some 0].
Proof. exact (interp_zero x i q r d). Qed.
Print Assumptions C27_zero_intensity.
Theorem C27_not_a_number x i q (row : list fl) d (e : fl) : increasing q -> List.length q = List.length row -> (S i < List.length q)%nat ->
  (forall v, nth i row e = Some v -> v < 0) \/ (forall v, nth (S i) row e = Some v -> v < 0) -> nth i q d < x < nth (S i) q d ->
  interp_reflectivity [x] q row = Ok [None].
Proof. exact (interp_nan x i q row d e). Qed.
Print Assumptions C27_not_a_number.

Theorem C27_errors qi q row : interp_reflectivity qi q row = Raise ValueError <-> (List.length q <> List.length row \/ q = []).
Proof. exact (interp_errors qi q row). Qed.
Print Assumptions C27_errors.

Lemma ex_grid : increasing [1; 2; 4] /\ nonnegative_curve [1; 1/10; 1/100].
Proof. split; repeat constructor; lra. Qed.
Example C27_example : interp_reflectivity [1; 2; 4] [1; 2; 4] (map Some [1; 1/10; 1/100]) = Ok [Some 1; Some (1/10); Some (1/100)].
Proof. destruct ex_grid. apply (interp_exact [1; 2; 4] [1; 1/10; 1/100]); try assumption; [reflexivity|discriminate]. Qed.
Example C27_example_zero : interp_reflectivity [3] [1; 2; 4] (map Some [1; 0; 1/100]) = Ok [Some 0].
Proof. apply (C27_zero_intensity 3 1 [1; 2; 4] [1; 0; 1/100] 0); [repeat constructor; lra|repeat constructor; lra|reflexivity|cbn; lia|left; reflexivity|cbn; lra]. Qed.
Example C27_example_nan : interp_reflectivity [3] [1; 2; 4] [Some 1; Some (-1); Some (1/100)] = Ok [None].
Proof. apply (C27_not_a_number 3 1 [1; 2; 4] [Some 1; Some (-1); Some (1/100)] 0 None); [repeat constructor; lra|reflexivity|cbn; lia| |cbn; lra].
  left. cbn. intros v E. injection E as <-. lra. Qed.

(** ** C28 *)
Theorem C28_scaling qi q row c : 0 < c ->
  interp_reflectivity qi q (map (option_map (Rmult c)) row) = rmap (map (option_map (Rmult c))) (interp_reflectivity qi q row).
Proof. exact (interp_scale qi q row c). Qed.
Print Assumptions C28_scaling.

Theorem C28_shift qi q row k : interp_reflectivity (map (fun a => a + k) qi) (map (fun a => a + k) q) row = interp_reflectivity qi q row.
Proof. exact (interp_shift qi q row k). Qed.
Print Assumptions C28_shift.

Example C28_example : interp_reflectivity [1; 2; 4] [1; 2; 4] (map (option_map (Rmult 3)) (map Some [1; 1/10; 1/100])) = Ok [Some (3 * 1); Some (3 * (1/10)); Some (3 * (1/100))].
Proof. rewrite (interp_scale [1; 2; 4] [1; 2; 4] (map Some [1; 1/10; 1/100]) 3) by lra. rewrite C27_example. reflexivity. Qed.

(** ** C29: every call with at least one row fails *)
Theorem C29_mixer_refuted S (g : rng S) refl1d choice s qs models weights n labels engine : (0 < n)%nat ->
  exists e, mixer_simulate g refl1d choice s qs models weights n labels engine = Raise e.
Proof. exact (mixer_fails g refl1d choice s qs models weights n labels engine). Qed.
Print Assumptions C29_mixer_refuted.

Theorem C29_no_rows S (g : rng S) refl1d choice s qs models weights labels engine :
  mixer_simulate g refl1d choice s qs models weights 0 labels engine = Ok (s, []).
Proof. exact (mixer_empty g refl1d choice s qs models weights labels engine). Qed.
Print Assumptions C29_no_rows.

Lemma ex_one_storable : storable_sample ex_one /\ NoDup (map l_name (all_layers ex_one)).
Proof. split; [|repeat constructor; simpl; intuition discriminate]. unfold storable_sample, storable_film, storable_real, storable_sld, const_opt, real_param; simpl.
  repeat split; try (intros ? E; inversion E; reflexivity).
  - eexists. repeat split; simpl; lra.
  - repeat constructor; try lra; try (eexists; repeat split; simpl; lra). Qed.
Example C29_example : mixer_simulate ex_rng None (fun s _ => Ok (s, 0%nat)) 0%nat [1/10] [ex_one] [1] 1 ex_T "builtin" = Raise ValueError.
Proof. destruct ex_one_storable as [A B]. destruct (generate_total ex_rng ex_rng_ok 0%nat ex_one 1 (mkDparams "bolstered" (15 / 100) (1 / 10))) as (s2 & new & E);
  [assumption|assumption|right; simpl; split; [reflexivity|lra]|lia|].
  exact (mixer_value_error ex_rng None (fun s _ => Ok (s, 0%nat)) 0%nat [1/10] [ex_one] [1] 0 ex_T "builtin" 0%nat 0%nat ex_one s2 new _ eq_refl eq_refl E eq_refl). Qed.
