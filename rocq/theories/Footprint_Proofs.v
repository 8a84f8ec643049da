(** Proofs about footprints and conversions. *)
From Coq Require Import Reals Lra.
From Coquelicot Require Import Coquelicot.
From Verif Require Import Py Rng Arr NRng Footprint_Model Footprint_Spec SldProfile_Spec.
Local Open Scope R_scope.

(** *** Sine and arcsine *)
Lemma half_sin_spec a : half_sin a = sin_half a.
Proof. unfold half_sin, sin_half. f_equal. field. Qed.
Lemma half_sin_pos a : 0 < a < 360 -> 0 < half_sin a.
Proof. intros H. unfold half_sin. pose proof PI_RGT_0. apply sin_gt_0; [apply Rmult_lt_0_compat; [|lra]; apply Rmult_lt_0_compat; lra|].
  apply Rmult_lt_reg_r with 180; [lra|]. unfold Rdiv. rewrite Rmult_assoc, Rinv_l, Rmult_1_r by lra. apply Rmult_lt_reg_r with 2; [lra|].
  replace (a * / 2 * PI * 2) with (a * PI) by field. nra. Qed.
Lemma farcsin_in x : -1 <= x <= 1 -> farcsin x = Some (asin x).
Proof. intros H. unfold farcsin. destruct (Rle_dec (Rabs x) 1) as [|N]; [reflexivity|]. exfalso; apply N. apply Rabs_le; lra. Qed.
Lemma farcsin_out x : ~ (-1 <= x <= 1) -> farcsin x = None.
Proof. intros H. unfold farcsin. destruct (Rle_dec (Rabs x) 1) as [L|]; [|reflexivity]. exfalso; apply H. apply Rabs_def2 in L || apply Rabs_le_between in L. lra. Qed.
Lemma to_degrees_half x : to_degrees x / 2 * PI / 180 = x.
Proof. unfold to_degrees. pose proof PI_RGT_0. field. lra. Qed.
Lemma half_to_degrees a : to_degrees (a / 2 * PI / 180) = a.
Proof. unfold to_degrees. pose proof PI_RGT_0. field. lra. Qed.

Lemma degrees_bound a : -180 <= a <= 180 -> - (PI / 2) <= a / 2 * PI / 180 <= PI / 2.
Proof. intros H. pose proof PI_RGT_0. replace (a / 2 * PI / 180) with (PI / 2 * (a / 180)) by field. split; nra. Qed.
Lemma asin_half_sin a : -180 <= a <= 180 -> asin (half_sin a) = a / 2 * PI / 180.
Proof. intros H. unfold half_sin. apply asin_sin, degrees_bound, H. Qed.
Lemma half_sin_bound a : -1 <= half_sin a <= 1. Proof. apply SIN_bound. Qed.

(** Below the spill-over angle the footprint is larger than the sample. *)
Lemma below_max r a : 0 < r <= 1 -> 0 < a <= 180 -> fltb (Some a) (max_angle r) = true <-> half_sin a < r.
Proof. intros Hr Ha. unfold max_angle. rewrite farcsin_in by lra. cbn [option_map fltb].
  assert (E : a < to_degrees (asin r) <-> half_sin a < r).
  { pose proof PI_RGT_0. pose proof (degrees_bound a ltac:(lra)) as B. pose proof (asin_bound r) as A.
    assert (K : a < to_degrees (asin r) <-> a / 2 * PI / 180 < asin r).
    { rewrite <- (half_to_degrees a) at 1. unfold to_degrees. split; intros L.
      - apply Rmult_lt_reg_l with (2 / PI * 180); [apply Rmult_lt_0_compat; [apply Rdiv_lt_0_compat|]; lra|].
        replace (2 / PI * 180 * (a / 2 * PI / 180)) with (2 * (a / 2 * PI / 180) / PI * 180) by (field; lra).
        replace (2 / PI * 180 * asin r) with (2 * asin r / PI * 180) by (field; lra). exact L.
      - apply Rmult_lt_compat_l with (r := 2 / PI * 180) in L; [|apply Rmult_lt_0_compat; [apply Rdiv_lt_0_compat|]; lra].
        replace (2 / PI * 180 * (a / 2 * PI / 180)) with (2 * (a / 2 * PI / 180) / PI * 180) in L by (field; lra).
        replace (2 / PI * 180 * asin r) with (2 * asin r / PI * 180) in L by (field; lra). exact L. }
    rewrite K. unfold half_sin. split; intros L.
    - rewrite <- (sin_asin r) by lra. apply sin_increasing_1; lra.
    - apply sin_increasing_0; [lra..|]. rewrite sin_asin by lra. exact L. }
  destruct (Rlt_dec a (to_degrees (asin r))); split; intros; try reflexivity; try discriminate; tauto. Qed.

Lemma below_max_false r a : 0 < r <= 1 -> 0 < a <= 180 -> fltb (Some a) (max_angle r) = false <-> r <= half_sin a.
Proof. intros Hr Ha. pose proof (below_max r a Hr Ha) as B. destruct (fltb (Some a) (max_angle r)).
  - split; [discriminate|]. intros L. pose proof (proj1 B eq_refl). lra.
  - split; [|reflexivity]. intros _. apply Rnot_lt_le. intros L. pose proof (proj2 B L). discriminate. Qed.

(** *** Box beams *)
Lemma fdiv_Some x y : y <> 0 -> fdiv (Some x) (Some y) = Some (x / y).
Proof. intros H. unfold fdiv. destruct (Req_EM_T y 0); [contradiction|reflexivity]. Qed.

Lemma box_factor_max b l a : 0 < b <= l -> 0 < a <= 180 -> box_factor (b / l) (Some a) = Some (Rmax 1 (b / (l * sin_half a))).
Proof. intros Hb Ha. assert (Hr : 0 < b / l <= 1). { split; [apply Rdiv_lt_0_compat; lra|]. apply Rmult_le_reg_r with l; [lra|]. unfold Rdiv. rewrite Rmult_assoc, Rinv_l by lra. lra. }
  pose proof (half_sin_pos a ltac:(lra)) as S. rewrite <- half_sin_spec. unfold box_factor.
  assert (Q : b / (l * half_sin a) = b / l / half_sin a) by (field; lra). rewrite Q.
  destruct (fltb (Some a) (max_angle (b / l))) eqn:E.
  - apply (below_max _ _ Hr Ha) in E. unfold footprint_ratio, fhalf_sin. cbn [option_map]. rewrite fdiv_Some by lra. f_equal. symmetry. apply Rmax_right.
    apply Rmult_le_reg_r with (half_sin a); [lra|]. unfold Rdiv at 1. rewrite Rmult_assoc, Rinv_l by lra. lra.
  - apply (below_max_false _ _ Hr Ha) in E. f_equal. symmetry. apply Rmax_left.
    apply Rmult_le_reg_r with (half_sin a); [lra|]. unfold Rdiv at 1. rewrite Rmult_assoc, Rinv_l by lra. lra. Qed.

Lemma box_factor_cases b l a : 0 < b <= l -> 0 < a <= 180 ->
  exists f, box_factor (b / l) (Some a) = Some f /\ 1 <= f /\
    (l * sin_half a < b -> f = b / (l * sin_half a)) /\ (b <= l * sin_half a -> f = 1).
Proof. intros Hb Ha. pose proof (half_sin_pos a ltac:(lra)) as S. rewrite half_sin_spec in S.
  exists (Rmax 1 (b / (l * sin_half a))). split; [apply box_factor_max; assumption|]. split; [apply Rmax_l|].
  assert (P : 0 < l * sin_half a) by (apply Rmult_lt_0_compat; lra). split; intros H.
  - apply Rmax_right. apply Rmult_le_reg_r with (l * sin_half a); [exact P|]. unfold Rdiv. rewrite Rmult_assoc, Rinv_l by lra. lra.
  - apply Rmax_left. apply Rmult_le_reg_r with (l * sin_half a); [exact P|]. unfold Rdiv. rewrite Rmult_assoc, Rinv_l by lra. lra. Qed.

Lemma box_continuous b l a : 0 < b <= l -> 0 < a <= 180 -> continuous (fun a => Rmax 1 (b / (l * sin_half a))) a.
Proof. intros Hb Ha. pose proof (half_sin_pos a ltac:(lra)) as S. rewrite half_sin_spec in S.
  assert (C : continuous (fun a => b / (l * sin_half a)) a).
  { apply (ex_derive_continuous (fun a => b / (l * sin_half a)) a). unfold sin_half. auto_derive. 
    change (sin (a * PI / 360)) with (sin_half a) || idtac. unfold sin_half in S. replace (a * PI * / 360) with (a * PI / 360) by reflexivity. nra. }
  apply continuous_ext with (fun a => (1 + b / (l * sin_half a) + Rabs (1 - b / (l * sin_half a))) / 2).
  { intros x. unfold Rmax, Rabs. destruct (Rle_dec 1 (b / (l * sin_half x))), (Rcase_abs (1 - b / (l * sin_half x))); lra. }
  unfold Rdiv at 3. apply (continuous_mult (fun x => 1 + b / (l * sin_half x) + Rabs (1 - b / (l * sin_half x))) (fun _ => / 2)); [|apply continuous_const].
  apply (continuous_plus (fun x => 1 + b / (l * sin_half x)) (fun x => Rabs (1 - b / (l * sin_half x)))).
  - apply (continuous_plus (fun _ => 1) (fun x => b / (l * sin_half x))); [apply continuous_const|exact C].
  - apply (continuous_comp (fun x => 1 - b / (l * sin_half x)) Rabs); [|apply continuous_Rabs].
    apply (continuous_minus (fun _ => 1) (fun x => b / (l * sin_half x))); [apply continuous_const|exact C]. Qed.

(** *** Gaussian beams *)
Lemma ln2_pos : 0 < ln 2. Proof. rewrite <- ln_1. apply ln_increasing; lra. Qed.
Lemma gauss_arg_pos b l s : 0 < b -> 0 < l -> 0 < s -> 0 < sqrt (ln 2) / (b / l / s).
Proof. intros. apply Rdiv_lt_0_compat; [apply sqrt_lt_R0, ln2_pos|]. apply Rdiv_lt_0_compat; [apply Rdiv_lt_0_compat|]; assumption. Qed.

Lemma gaussian_factor_eq erf b l a : erf_positive erf -> 0 < b -> 0 < l -> 0 < a < 360 ->
  gaussian_factor erf b l (Some a) = Some (/ erf (sqrt (ln 2) * l * sin_half a / b)).
Proof. intros He Hb Hl Ha. pose proof (half_sin_pos a Ha) as S. unfold gaussian_factor, fhalf_sin. cbn [option_map].
  destruct (Req_EM_T (half_sin a) 0); [lra|]. destruct (Req_EM_T b 0); [lra|].
  pose proof (He _ (gauss_arg_pos b l (half_sin a) Hb Hl S)). rewrite fdiv_Some by lra. rewrite half_sin_spec in *. unfold Rdiv at 1. rewrite Rmult_1_l.
  f_equal. f_equal. f_equal. field. lra. Qed.

Lemma gaussian_factor_pos erf b l a : erf_positive erf -> 0 < b -> 0 < l -> 0 < a < 360 -> exists f, gaussian_factor erf b l (Some a) = Some f /\ 0 < f.
Proof. intros He Hb Hl Ha. eexists. split; [apply gaussian_factor_eq; assumption|]. apply Rinv_0_lt_compat, He.
  pose proof (half_sin_pos a Ha) as S. rewrite half_sin_spec in S. apply Rdiv_lt_0_compat; [|lra]. apply Rmult_lt_0_compat; [|lra]. apply Rmult_lt_0_compat; [apply sqrt_lt_R0, ln2_pos|lra]. Qed.

Lemma gaussian_factor_ge1 erf b l a : erf_ok erf -> erf_positive erf -> 0 < b -> 0 < l -> 0 < a < 360 ->
  exists f, gaussian_factor erf b l (Some a) = Some f /\ 1 <= f.
Proof. intros Ho He Hb Hl Ha. eexists. split; [apply gaussian_factor_eq; assumption|]. set (x := sqrt (ln 2) * l * sin_half a / b).
  assert (P : 0 < x). { pose proof (half_sin_pos a Ha) as S. rewrite half_sin_spec in S. apply Rdiv_lt_0_compat; [|lra]. apply Rmult_lt_0_compat; [|lra]. apply Rmult_lt_0_compat; [apply sqrt_lt_R0, ln2_pos|lra]. }
  pose proof (He x P). destruct (erf_bound _ Ho x) as [_ U]. rewrite <- Rinv_1. apply Rinv_le_contravar; lra. Qed.

Lemma sin_half_mono a a' : 0 < a <= 180 -> 0 < a' <= 180 -> a <= a' -> sin_half a <= sin_half a'.
Proof. intros H H' L. rewrite <- !half_sin_spec. unfold half_sin. pose proof (degrees_bound a ltac:(lra)). pose proof (degrees_bound a' ltac:(lra)). pose proof PI_RGT_0.
  apply sin_incr_1; try lra. apply Rmult_le_compat_r; [lra|]. apply Rmult_le_compat_r; lra. Qed.

Lemma gaussian_factor_mono erf b l a a' : erf_ok erf -> erf_positive erf -> 0 < b -> 0 < l -> 0 < a -> a <= a' -> a' <= 180 ->
  exists f f', gaussian_factor erf b l (Some a) = Some f /\ gaussian_factor erf b l (Some a') = Some f' /\ f' <= f.
Proof. intros Ho He Hb Hl Ha L Ha'. do 2 eexists. split; [apply gaussian_factor_eq; try assumption; lra|]. split; [apply gaussian_factor_eq; try assumption; lra|].
  pose proof (half_sin_pos a ltac:(lra)) as S. rewrite half_sin_spec in S. pose proof (sin_half_mono a a' ltac:(lra) ltac:(lra) L) as M.
  pose proof (sqrt_lt_R0 _ ln2_pos) as Q. apply Rinv_le_contravar.
  - apply He. apply Rdiv_lt_0_compat; [|lra]. apply Rmult_lt_0_compat; [|lra]. apply Rmult_lt_0_compat; lra.
  - apply (erf_mono _ Ho). apply Rmult_le_compat_r; [left; apply Rinv_0_lt_compat; lra|]. apply Rmult_le_compat_l; [|exact M]. apply Rmult_le_pos; lra. Qed.

(** *** Factors of a whole curve *)
Lemma mapM_some A (f : A -> fl) (P : R -> Prop) l : Forall (fun a => exists x, f a = Some x /\ P x) l -> exists xs, map f l = map Some xs /\ Forall P xs /\ List.length xs = List.length l.
Proof. induction 1 as [|a l (x & E & Px) _ (xs & F & G & L)]; [exists []; repeat split; constructor|]. exists (x :: xs). cbn [map List.length]. rewrite E, F, L. repeat split. constructor; assumption. Qed.

Lemma box_factor_pos b l a : 0 < b -> 0 < l -> 0 < a < 360 -> exists f, box_factor (b / l) (Some a) = Some f /\ 0 < f.
Proof. intros Hb Hl Ha. pose proof (half_sin_pos a Ha) as S. unfold box_factor. destruct (fltb _ _).
  - unfold footprint_ratio, fhalf_sin. cbn [option_map]. rewrite fdiv_Some by lra. eexists; split; [reflexivity|]. apply Rdiv_lt_0_compat; [apply Rdiv_lt_0_compat|]; assumption.
  - eexists; split; [reflexivity|lra]. Qed.

Lemma factors_pos erf b l shape angles : erf_positive erf -> 0 < b -> 0 < l -> scattering_angles angles -> shape = "gauss"%string \/ shape = "box"%string ->
  exists fs, get_factors erf (map Some angles) b l shape = Ok (map Some fs) /\ all_pos fs /\ List.length fs = List.length angles.
Proof. intros He Hb Hl Ha Hs. unfold get_factors.
  assert (D : py_div b l = Ok (b / l)). { unfold py_div. destruct (Req_EM_T l 0); [lra|reflexivity]. }
  destruct Hs as [-> | ->]; cbn [String.eqb].
  - change ((_ =? _)%string) with true. cbv iota. unfold gaussian_factors. rewrite D. cbn [bind]. rewrite map_map.
    destruct (@mapM_some R (fun a => gaussian_factor erf b l (Some a)) (fun x => 0 < x) angles) as (xs & E & P & L).
    { eapply Forall_impl; [|exact Ha]. intros a H. apply gaussian_factor_pos; assumption. }
    exists xs. rewrite E. repeat split; assumption.
  - change (("box" =? "gauss")%string) with false. change (("box" =? "box")%string) with true. cbv iota. unfold box_factors. rewrite D. cbn [bind]. rewrite map_map.
    destruct (@mapM_some R (fun a => box_factor (b / l) (Some a)) (fun x => 0 < x) angles) as (xs & E & P & L).
    { eapply Forall_impl; [|exact Ha]. intros a H. apply box_factor_pos; assumption. }
    exists xs. rewrite E. repeat split; assumption. Qed.

Lemma vec_op_same f a b : List.length a = List.length b -> vec_op f a b = Ok (map (fun xy => f (fst xy) (snd xy)) (combine a b)).
Proof. intros L. unfold vec_op. rewrite <- L, bdim_same. cbn [bind]. rewrite bop_same by exact L. reflexivity. Qed.

Lemma fmul_fdiv x f : f <> 0 -> fdiv (fmul x (Some f)) (Some f) = x.
Proof. intros H. destruct x as [x|]; [|reflexivity]. cbn [fmul lift2]. rewrite fdiv_Some by exact H. f_equal. field. exact H. Qed.
Lemma fdiv_fmul x f : f <> 0 -> fmul (fdiv x (Some f)) (Some f) = x.
Proof. intros H. destruct x as [x|]; [|reflexivity]. rewrite fdiv_Some by exact H. cbn [fmul lift2]. f_equal. field. exact H. Qed.

Lemma undo (f g : fl -> fl -> fl) : forall I fs, List.length I = List.length fs -> Forall (fun k => k <> 0) fs -> (forall x k, k <> 0 -> g (f x (Some k)) (Some k) = x) ->
  map (fun xy => g (fst xy) (snd xy)) (combine (map (fun xy => f (fst xy) (snd xy)) (combine I (map Some fs))) (map Some fs)) = I.
Proof. induction I as [|x I IH]; intros [|k fs] L N H; try discriminate; [reflexivity|]. cbn [map combine fst snd]. rewrite H by exact (Forall_inv N).
  f_equal. apply IH; [injection L; auto|exact (Forall_inv_tail N)|exact H]. Qed.

Lemma footprint_roundtrip erf I angles b l shape fs : get_factors erf angles b l shape = Ok (map Some fs) -> Forall (fun k => k <> 0) fs -> List.length I = List.length fs ->
  (exists J, apply_footprint_correction erf I angles b l shape = Ok J /\ remove_footprint_correction erf J angles b l shape = Ok I) /\
  (exists J, remove_footprint_correction erf I angles b l shape = Ok J /\ apply_footprint_correction erf J angles b l shape = Ok I).
Proof. intros E N L. unfold apply_footprint_correction, remove_footprint_correction. rewrite E. cbn [bind].
  assert (LI : @List.length fl I = @List.length fl (@map R fl Some fs)) by (rewrite map_length; exact L).
  split; (eexists; split; [apply vec_op_same; exact LI|]); (rewrite vec_op_same; [|rewrite map_length; etransitivity; [apply combine_length|]; etransitivity; [|exact LI]; etransitivity; [apply f_equal; exact (eq_sym LI)|apply Nat.min_id]]); f_equal; apply undo; try assumption; intros; [apply fmul_fdiv|apply fdiv_fmul]; assumption. Qed.

(** *** Conversions *)
Lemma py_div_Ok a b : b <> 0 -> py_div a b = Ok (a / b).
Proof. intros H. unfold py_div. destruct (Req_EM_T b 0); [contradiction|reflexivity]. Qed.

Lemma angle_q_angle a w : w <> 0 -> -180 <= a <= 180 -> exists q, angle_to_q a w = Ok q /\ q_to_angle q w = Some a.
Proof. intros Hw Ha. unfold angle_to_q. rewrite py_div_Ok by exact Hw. cbn [bind]. eexists; split; [reflexivity|]. unfold q_to_angle.
  pose proof PI_RGT_0. replace (4 * PI / w * half_sin a * w / (4 * PI)) with (half_sin a) by (field; lra). rewrite farcsin_in by apply half_sin_bound. cbn [option_map].
  rewrite asin_half_sin by exact Ha. f_equal. apply half_to_degrees. Qed.

Lemma q_angle_q q w : w <> 0 -> Rabs (q * w) <= 4 * PI -> exists a, q_to_angle q w = Some a /\ -180 <= a <= 180 /\ angle_to_q a w = Ok q.
Proof. intros Hw Hq. pose proof PI_RGT_0. set (x := q * w / (4 * PI)).
  assert (B : -1 <= x <= 1). { apply Rabs_le_between in Hq. unfold x. split; (apply Rmult_le_reg_r with (4 * PI); [lra|]); unfold Rdiv; rewrite Rmult_assoc, Rinv_l by lra; lra. }
  unfold q_to_angle. fold x. rewrite farcsin_in by exact B. cbn [option_map]. eexists; split; [reflexivity|]. split.
  - pose proof (asin_bound x) as A. unfold to_degrees. assert (P : 2 * asin x / PI * 180 = asin x * (360 / PI)) by (field; lra). rewrite P.
    assert (K : 0 < 360 / PI) by (apply Rdiv_lt_0_compat; lra). assert (M : PI / 2 * (360 / PI) = 180) by (field; lra). nra.
  - unfold angle_to_q. rewrite py_div_Ok by exact Hw. cbn [bind]. unfold half_sin. rewrite to_degrees_half, sin_asin by exact B. f_equal. unfold x. field. lra. Qed.

Lemma q_unreachable q w : 4 * PI < Rabs (q * w) -> q_to_angle q w = None.
Proof. intros H. unfold q_to_angle. pose proof PI_RGT_0. rewrite farcsin_out; [reflexivity|]. intros B. assert (A : Rabs (q * w / (4 * PI)) <= 1) by (apply Rabs_le; lra).
  unfold Rdiv in A. rewrite Rabs_mult, (Rabs_pos_eq (/ (4 * PI))) in A by (left; apply Rinv_0_lt_compat; lra).
  apply Rmult_le_compat_r with (r := 4 * PI) in A; [|lra]. rewrite Rmult_assoc, Rinv_l in A by lra. lra. Qed.

Lemma energy_roundtrip e : e <> 0 -> exists w, energy_to_wavelength e = Ok w /\ wavelength_to_energy w = Ok e.
Proof. intros H. unfold energy_to_wavelength, wavelength_to_energy. rewrite py_div_Ok by exact H. cbn [bind]. eexists; split; [reflexivity|].
  assert (N : 12398 / 10000 / e * 10000 <> 0). { intros C. apply Rmult_integral in C. destruct C as [C|C]; [|lra]. unfold Rdiv at 1 in C. apply Rmult_integral in C. destruct C as [C|C]; [lra|]. apply (Rinv_neq_0_compat e H C). }
  rewrite py_div_Ok by exact N. cbn [bind]. f_equal. field. exact H. Qed.
Lemma wavelength_roundtrip w : w <> 0 -> exists e, wavelength_to_energy w = Ok e /\ energy_to_wavelength e = Ok w.
Proof. exact (energy_roundtrip w). Qed.

(** *** Maxima *)
Lemma fold_fmax l : forall x, fold_left fmax2 (map Some l) (Some x) = Some (fold_left Rmax l x).
Proof. induction l as [|y l IH]; intros x; [reflexivity|]. cbn [map fold_left]. rewrite <- IH. reflexivity. Qed.
Lemma fold_Rmax l : forall x, is_max (fold_left Rmax l x) (x :: l).
Proof. induction l as [|y l IH]; intros x; [split; [left; reflexivity|repeat constructor; cbn; lra]|]. cbn [fold_left]. destruct (IH (Rmax x y)) as [I F]. split.
  - destruct I as [I|I]; [|right; right; exact I]. rewrite <- I. unfold Rmax. destruct (Rle_dec x y); [right; left|left]; reflexivity.
  - pose proof (Forall_inv F) as M. cbn beta in M. constructor; [pose proof (Rmax_l x y); lra|]. constructor; [pose proof (Rmax_r x y); lra|exact (Forall_inv_tail F)]. Qed.
Lemma fmax_finite l : l <> [] -> exists m, fmax (map Some l) = Ok (Some m) /\ is_max m l.
Proof. destruct l as [|x l]; [contradiction|]. intros _. exists (fold_left Rmax l x). cbn [map fmax]. rewrite fold_fmax. split; [reflexivity|apply fold_Rmax]. Qed.

Lemma is_max_unique m m' l : is_max m l -> is_max m' l -> m = m'.
Proof. intros [I F] [I' F']. rewrite Forall_forall in F, F'. apply Rle_antisym; auto. Qed.
Lemma is_max_scale k m l : 0 < k -> is_max m l -> is_max (k * m) (map (Rmult k) l).
Proof. intros K [I F]. split; [apply in_map, I|]. apply Forall_map. eapply Forall_impl; [|exact F]. cbn beta. intros x H. apply Rmult_le_compat_l; lra. Qed.
Lemma all_pos_max m l : all_pos l -> is_max m l -> 0 < m.
Proof. unfold all_pos. rewrite Forall_forall. intros P [I _]. auto. Qed.

(** *** FootprintRescaler *)
Definition apply_point (ratio i a : R) : R := if fltb (Some a) (max_angle ratio) then i * half_sin a / ratio else i.
Definition correct_point (ratio i a : R) : R := if fltb (Some a) (max_angle ratio) then i / half_sin a * ratio else i.

Lemma apply_finite I A ratio : List.length I = List.length A -> ratio <> 0 ->
  apply_footprint (map Some I) (map Some A) ratio = Ok (map Some (map (fun ia => apply_point ratio (fst ia) (snd ia)) (combine I A))).
Proof. intros L R. unfold apply_footprint, masked. rewrite !map_length, L, Nat.eqb_refl. cbn [negb]. f_equal. clear L. revert A. induction I as [|i I IH]; intros [|a A]; try reflexivity.
  cbn [map combine fst snd]. f_equal; [|apply IH]. unfold apply_point. destruct (fltb _ _); [|reflexivity]. unfold fhalf_sin. cbn [option_map fmul lift2]. apply fdiv_Some, R. Qed.
Lemma correct_finite I A ratio : List.length I = List.length A -> scattering_angles A ->
  correct_footprint (map Some I) (map Some A) ratio = Ok (map Some (map (fun ia => correct_point ratio (fst ia) (snd ia)) (combine I A))).
Proof. intros L R. unfold correct_footprint, masked. rewrite !map_length, L, Nat.eqb_refl. cbn [negb]. f_equal. clear L. revert A R. induction I as [|i I IH]; intros [|a A] R; try reflexivity.
  cbn [map combine fst snd]. f_equal; [|apply IH; exact (Forall_inv_tail R)]. unfold correct_point. destruct (fltb _ _); [|reflexivity]. unfold fhalf_sin. cbn [option_map].
  pose proof (half_sin_pos a (Forall_inv R)). rewrite fdiv_Some by lra. reflexivity. Qed.

Definition swap_point (r r' i a : R) : R := correct_point r' (apply_point r i a) a.
Lemma swap_point_pos r r' i a : 0 < r -> 0 < r' -> 0 < i -> 0 < a < 360 -> 0 < swap_point r r' i a.
Proof. intros Hr Hr' Hi Ha. pose proof (half_sin_pos a Ha) as S.
  assert (P : 0 < apply_point r i a). { unfold apply_point. destruct (fltb _ _); [|exact Hi]. apply Rdiv_lt_0_compat; [apply Rmult_lt_0_compat|]; assumption. }
  unfold swap_point, correct_point. destruct (fltb _ _); [|exact P]. apply Rmult_lt_0_compat; [apply Rdiv_lt_0_compat|]; assumption. Qed.
Lemma swap_point_same r i a : 0 < r -> 0 < a < 360 -> swap_point r r i a = i.
Proof. intros Hr Ha. pose proof (half_sin_pos a Ha) as S. unfold swap_point, correct_point, apply_point. destruct (fltb _ _); [|reflexivity]. field. lra. Qed.

Lemma combine_map_l A B C (f : A * B -> C) I L : List.length I = List.length L ->
  combine (map f (combine I L)) L = map (fun ia => (f ia, snd ia)) (combine I L).
Proof. revert L. induction I as [|i I IH]; intros [|a L] H; try discriminate; [reflexivity|]. cbn [map combine snd]. f_equal. apply IH. injection H; auto. Qed.

Lemma swap_finite I A r r' : List.length I = List.length A -> I <> [] -> all_pos I -> scattering_angles A -> 0 < r -> 0 < r' ->
  let J := map (fun ia => swap_point r r' (fst ia) (snd ia)) (combine I A) in
  all_pos J /\ exists m m0, is_max m J /\ is_max m0 I /\ swap_footprints (map Some I) (map Some A) r r' = Ok (map Some (map (Rmult (m0 / m)) J)).
Proof. intros L N P SA Hr Hr' J.
  assert (PJ : all_pos J).
  { unfold J, all_pos. apply Forall_map, Forall_forall. intros [i a] Hin. cbn [fst snd]. unfold all_pos, scattering_angles in *. rewrite Forall_forall in P, SA.
    apply swap_point_pos; try assumption; [apply P; apply in_combine_l in Hin; exact Hin|apply SA; apply in_combine_r in Hin; exact Hin]. }
  split; [exact PJ|].
  assert (NJ : J <> []). { unfold J. destruct I, A; try discriminate; contradiction. }
  destruct (fmax_finite J NJ) as (m & Em & Mm). destruct (fmax_finite I N) as (m0 & Em0 & Mm0). exists m, m0. split; [exact Mm|]. split; [exact Mm0|].
  pose proof (all_pos_max m J PJ Mm) as Pm. unfold swap_footprints. rewrite apply_finite by (assumption || lra). cbn [bind].
  rewrite correct_finite; [|rewrite map_length, combine_length; lia|exact SA]. cbn [bind].
  replace (map (fun ia => correct_point r' (fst ia) (snd ia)) (combine (map (fun ia => apply_point r (fst ia) (snd ia)) (combine I A)) A)) with J by (unfold J; rewrite combine_map_l by exact L; rewrite map_map; reflexivity).
  unfold rescale_to_max.
  match goal with |- bind (fmax ?x) _ = _ => replace (fmax x) with (Ok (Some m) : res fl) by (symmetry; exact Em) end. cbn [bind].
  match goal with |- bind (fmax ?x) _ = _ => replace (fmax x) with (Ok (Some m0) : res fl) by (symmetry; exact Em0) end. cbn [bind]. f_equal. rewrite !map_map. apply map_ext. intros x.
  rewrite fdiv_Some by lra. cbn [fmul lift2]. f_equal. field. lra. Qed.

Lemma swap_keeps_max I A r r' : List.length I = List.length A -> I <> [] -> all_pos I -> scattering_angles A -> 0 < r -> 0 < r' ->
  exists out m, swap_footprints (map Some I) (map Some A) r r' = Ok (map Some out) /\ List.length out = List.length I /\ all_pos out /\ is_max m I /\ is_max m out.
Proof. intros L N P SA Hr Hr'. destruct (swap_finite I A r r' L N P SA Hr Hr') as (PJ & m & m0 & Mm & Mm0 & E).
  set (J := map _ (combine I A)) in *. pose proof (all_pos_max _ _ PJ Mm). pose proof (all_pos_max _ _ P Mm0). assert (K : 0 < m0 / m) by (apply Rdiv_lt_0_compat; assumption).
  exists (map (Rmult (m0 / m)) J), m0. split; [exact E|]. split; [unfold J; rewrite !map_length, combine_length; lia|]. split.
  - apply Forall_map. eapply Forall_impl; [|exact PJ]. cbn beta. intros x Hx. apply Rmult_lt_0_compat; assumption.
  - split; [exact Mm0|]. replace m0 with (m0 / m * m) at 1 by (field; lra). apply is_max_scale; assumption. Qed.

Lemma swap_same I A r : List.length I = List.length A -> I <> [] -> all_pos I -> scattering_angles A -> 0 < r ->
  swap_footprints (map Some I) (map Some A) r r = Ok (map Some I).
Proof. intros L N P SA Hr. destruct (swap_finite I A r r L N P SA Hr Hr) as (PJ & m & m0 & Mm & Mm0 & E).
  assert (EJ : map (fun ia => swap_point r r (fst ia) (snd ia)) (combine I A) = I).
  { clear - L SA Hr. revert A L SA. induction I as [|i I IH]; intros [|a A] L SA; try discriminate; [reflexivity|]. cbn [combine map fst snd].
    rewrite swap_point_same; [|exact Hr|exact (Forall_inv SA)]. f_equal. apply IH; [injection L; auto|exact (Forall_inv_tail SA)]. }
  rewrite EJ in *. rewrite E. pose proof (is_max_unique _ _ _ Mm Mm0) as <-. pose proof (all_pos_max _ _ P Mm). f_equal. f_equal.
  rewrite <- (map_id I) at 2. apply map_ext. intros x. field. lra. Qed.

Lemma roundtrip_apply_correct I A r : List.length I = List.length A -> scattering_angles A -> 0 < r ->
  exists J, apply_footprint (map Some I) (map Some A) r = Ok J /\ correct_footprint J (map Some A) r = Ok (map Some I).
Proof. intros L SA Hr. rewrite apply_finite by (assumption || lra). eexists; split; [reflexivity|]. rewrite correct_finite; [|rewrite map_length, combine_length; lia|exact SA].
  f_equal. f_equal. rewrite combine_map_l by exact L. rewrite map_map. cbn [fst snd]. clear - L SA Hr. revert A L SA. induction I as [|i I IH]; intros [|a A] L SA; try discriminate; [reflexivity|]. cbn [combine map fst snd].
  f_equal; [exact (swap_point_same r i a Hr (Forall_inv SA))|]. apply IH; [injection L; auto|exact (Forall_inv_tail SA)]. Qed.

Section Rescaler.
Context {S : Type} (g : nrng S) (Hg : nrng_ok g).

Lemma rescale_rows r s A curves : fr_theta r = map Some A -> scattering_angles A -> 0 < fr_ratio r -> fr_errors r <> [] -> all_pos (fr_errors r) ->
  Forall (fun c => c <> [] /\ List.length c = List.length A /\ all_pos c) curves ->
  exists s' out, rescale_curves g r s (map (map Some) curves) = Ok (s', out) /\
    Forall2 (fun c o => exists e c', In e (fr_errors r) /\ snd o = fr_ratio r * e /\ fst o = map Some c' /\
       swap_footprints (map Some c) (map Some A) (fr_ratio r) (snd o) = Ok (fst o) /\
       List.length c' = List.length c /\ exists m, is_max m c /\ is_max m c') curves out.
Proof. intros Ht SA Hr He Pe F. revert s. induction F as [|c curves (N & L & P) F IH]; intros s; [exists s, []; split; [reflexivity|constructor]|].
  cbn [map rescale_curves]. unfold np_choice. remember (fr_errors r) as E eqn:HE. destruct E as [|e0 es]; [contradiction|].
  pose proof (choice_in Hg s (e0 :: es) He) as In1. destruct (nr_choice g s (e0 :: es)) as [s1 e] eqn:Ec. cbn [bind snd] in *.
  assert (Pe' : 0 < e). { unfold all_pos in Pe. rewrite Forall_forall in Pe. auto. }
  destruct (swap_keeps_max c A (fr_ratio r) (fr_ratio r * e)) as (out & m & Es & Lo & Po & M0 & M1); try assumption; [apply Rmult_lt_0_compat; assumption|].
  rewrite Ht, Es. cbn [bind]. destruct (IH s1) as (s2 & rest & Er & Fr). rewrite Er. cbn [bind]. exists s2, ((map Some out, fr_ratio r * e) :: rest). split; [reflexivity|].
  constructor; [|exact Fr]. exists e, out. cbn [fst snd]. split; [exact In1|]. repeat split; try assumption; try reflexivity. exists m. split; assumption. Qed.
End Rescaler.

Lemma combine_split_eq A B (l : list (A * B)) : combine (map fst l) (map snd l) = l.
Proof. induction l as [|[a b] l IH]; [reflexivity|]. cbn [map combine fst snd]. f_equal. exact IH. Qed.

Lemma rescaled_rows S (g : nrng S) (Hg : nrng_ok g) r s A curves : fr_curves r = map (map Some) curves -> fr_theta r = map Some A -> scattering_angles A -> 0 < fr_ratio r -> fr_errors r <> [] -> all_pos (fr_errors r) ->
  Forall (fun c => c <> [] /\ List.length c = List.length A /\ all_pos c) curves ->
  exists s' rows ratios, rescaled_reflectivity g r s = Ok (s', (rows, ratios)) /\
    Forall2 (fun c o => exists e c', In e (fr_errors r) /\ snd o = fr_ratio r * e /\ fst o = map Some c' /\
       swap_footprints (map Some c) (map Some A) (fr_ratio r) (snd o) = Ok (fst o) /\
       List.length c' = List.length c /\ exists m, is_max m c /\ is_max m c') curves (combine rows ratios).
Proof. intros Hc Ht SA Hr He Pe F. destruct (rescale_rows g Hg r s A curves Ht SA Hr He Pe F) as (s' & out & E & F2). exists s', (map fst out), (map snd out). unfold rescaled_reflectivity.
  rewrite Hc. split; [rewrite E; reflexivity|]. rewrite combine_split_eq. exact F2. Qed.

Lemma footprint_value i a r : 0 < r <= 1 -> 0 < a <= 180 -> apply_footprint [Some i] [Some a] r = Ok [Some (i * Rmin 1 (sin_half a / r))].
Proof. intros Hr Ha. change [Some i] with (map Some [i]). change [Some a] with (map Some [a]). rewrite apply_finite by (reflexivity || lra). cbn [combine map fst snd]. unfold apply_point. rewrite <- half_sin_spec.
  repeat f_equal. destruct (fltb (Some a) (max_angle r)) eqn:E.
  - apply (below_max r a Hr Ha) in E. rewrite Rmin_right; [unfold Rdiv; ring|]. apply Rmult_le_reg_r with r; [lra|]. unfold Rdiv. rewrite Rmult_assoc, Rinv_l by lra. lra.
  - apply (below_max_false r a Hr Ha) in E. rewrite Rmin_left; [ring|]. apply Rmult_le_reg_r with r; [lra|]. unfold Rdiv. rewrite Rmult_assoc, Rinv_l by lra. lra. Qed.

Lemma rescaler_new_ok curves ratio errors q w theta :
  (exists r, rescaler_new curves ratio errors q w theta = Ok r) <-> (q = None /\ theta <> None) \/ (q <> None /\ theta = None /\ w <> None).
Proof. unfold rescaler_new. destruct q as [q|], theta as [th|], w as [w|]; split; try (intros (r & H); discriminate); try (intros _; eexists; reflexivity); try (intros _; (left + right); repeat split; discriminate);
  intros [[H1 H2]|(H1 & H2 & H3)]; try discriminate; congruence. Qed.

(** ** Limits of the Gaussian factor *)
Lemma half_sin_opp a : half_sin (- a) = - half_sin a.
Proof. unfold half_sin. replace (- a / 2 * PI / 180) with (- (a / 2 * PI / 180)) by field. apply sin_neg. Qed.
Lemma gaussian_factor_thin erf l a : 0 < l -> 0 < a < 360 -> gaussian_factor erf 0 l (Some a) = Some 1 /\ gaussian_factor erf 0 l (Some (- a)) = Some (-1).
Proof. intros Hl Ha. pose proof (half_sin_pos a Ha) as S. unfold gaussian_factor, fhalf_sin. cbn [option_map]. rewrite half_sin_opp.
  destruct (Req_EM_T (half_sin a) 0); [lra|]. destruct (Req_EM_T (- half_sin a) 0); [lra|]. destruct (Req_EM_T 0 0); [|lra].
  pose proof (Rmult_lt_0_compat _ _ Hl S). destruct (Rlt_dec (l * half_sin a) 0); [lra|]. destruct (Rlt_dec (l * - half_sin a) 0); [auto|lra]. Qed.
Lemma gaussian_factor_zero erf b l : gaussian_factor erf b l (Some 0) = None /\ gaussian_factor erf b l None = None.
Proof. split; [|reflexivity]. unfold gaussian_factor, fhalf_sin, half_sin. cbn [option_map]. replace (0 / 2 * PI / 180) with 0 by field. rewrite sin_0.
  destruct (Req_EM_T 0 0); [reflexivity|lra]. Qed.
Lemma get_factors_no_sample erf angles b shape : shape = "gauss"%string \/ shape = "box"%string -> get_factors erf angles b 0 shape = Raise ZeroDivisionError.
Proof. unfold get_factors, gaussian_factors, box_factors, py_div. destruct (Req_EM_T 0 0); [|lra]. intros [-> | ->]; reflexivity. Qed.
Lemma first_rescaled x0 xs y0 ys : x0 <> 0 -> exists out, rescale_to_first (map Some (x0 :: xs)) (map Some (y0 :: ys)) = Ok (map Some out) /\
  List.length out = S (List.length xs) /\ nth_error out 0 = Some y0 /\ forall i x z, nth_error (x0 :: xs) i = Some x -> nth_error out i = Some z -> z * x0 = x * y0.
Proof. intros H. exists (map (fun x => x / x0 * y0) (x0 :: xs)). split; [|split; [|split]].
  - assert (E : forall l, map (fun x => fmul (fdiv x (Some x0)) (Some y0)) (map Some l) = map Some (map (fun x => x / x0 * y0) l)).
    { intros l. rewrite !map_map. apply map_ext. intros x. unfold fdiv. destruct (Req_EM_T x0 0) as [E|_]; [contradiction|reflexivity]. }
    exact (f_equal Ok (E (x0 :: xs))).
  - apply map_length.
  - cbn. f_equal. field. exact H.
  - intros i x z Hx Hz. rewrite nth_error_map, Hx in Hz. cbn in Hz. injection Hz as <-. field. exact H. Qed.
