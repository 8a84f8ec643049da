(** Continuity of the reflectivity engine. *)
From Coq Require Import Reals Lra Psatz List.
From Coquelicot Require Import Complex Hierarchy Rbar Continuity Rcomplements.
From Verif Require Import Py Cplx Reflectivity_Model Reflectivity_Spec Reflectivity_Proofs ReflectivityFlux_Proofs ReflectivityLimit_Spec.
Local Open Scope R_scope.

Section Limits.
  Context {T : Type} (F : (T -> Prop) -> Prop) {FF : Filter F}.

  Lemma t_const c : tends F (fun _ => c) c.
  Proof. apply filterlim_const. Qed.
  Lemma t_plus u v a b : tends F u a -> tends F v b -> tends F (fun t => u t + v t) (a + b).
  Proof. intros A B. exact (filterlim_comp_2 u v Rplus A B (filterlim_plus a b)). Qed.
  Lemma t_mult u v a b : tends F u a -> tends F v b -> tends F (fun t => u t * v t) (a * b).
  Proof. intros A B. exact (filterlim_comp_2 u v Rmult A B (filterlim_mult a b)). Qed.
  Lemma t_comp f u a : continuity_pt f a -> tends F u a -> tends F (fun t => f (u t)) (f a).
  Proof. intros C A. apply continuity_pt_filterlim in C. exact (filterlim_comp _ _ _ u f F (locally a) (locally (f a)) A C). Qed.
  Lemma t_opp u a : tends F u a -> tends F (fun t => - u t) (- a).
  Proof. intros A. apply (t_comp (fun x => - x)); [|exact A]. apply continuity_pt_opp, derivable_continuous_pt, derivable_pt_id. Qed.
  Lemma t_minus u v a b : tends F u a -> tends F v b -> tends F (fun t => u t - v t) (a - b).
  Proof. intros A B. apply t_plus; [exact A|]. apply t_opp, B. Qed.
  Lemma t_inv u a : a <> 0 -> tends F u a -> tends F (fun t => / u t) (/ a).
  Proof. intros N A. apply (t_comp (fun x => / x)); [|exact A]. apply continuity_pt_inv; [apply derivable_continuous_pt, derivable_pt_id|exact N]. Qed.
  Lemma t_sqrt u a : 0 <= a -> tends F u a -> tends F (fun t => sqrt (u t)) (sqrt a).
  Proof. intros N A. apply (t_comp sqrt); [|exact A]. apply continuity_pt_sqrt, N. Qed.
  Lemma t_loc u v a : F (fun t => u t = v t) -> tends F u a -> tends F v a.
  Proof. intros E A. exact (filterlim_ext_loc u v E A). Qed.
  Lemma t_event (P : R -> Prop) u a : tends F u a -> locally a P -> F (fun t => P (u t)).
  Proof. intros A B. exact (A P B). Qed.
  Lemma t_pos u a : tends F u a -> 0 < a -> F (fun t => 0 < u t).
  Proof. intros A B. apply (t_event (fun x => 0 < x) u a A). apply locally_ball_pos || (exists (mkposreal a B); intros y Hy; unfold ball in Hy; cbn in Hy; unfold AbsRing_ball, abs, minus, plus, opp in Hy; cbn in Hy; apply Rabs_def2 in Hy; lra). Qed.

  Lemma c_const c : ctends F (fun _ => c) c.
  Proof. split; apply t_const. Qed.
  Lemma c_R u a : tends F u a -> ctends F (fun t => RtoC (u t)) (RtoC a).
  Proof. intros A. split; cbn [Re Im RtoC fst snd]; [exact A|apply t_const]. Qed.
  Lemma c_plus u v a b : ctends F u a -> ctends F v b -> ctends F (fun t => u t + v t)%C (a + b)%C.
  Proof. intros [A1 A2] [B1 B2]. split; unfold Cplus; cbn [Re Im fst snd]; apply t_plus; assumption. Qed.
  Lemma c_mult u v a b : ctends F u a -> ctends F v b -> ctends F (fun t => u t * v t)%C (a * b)%C.
  Proof. intros [A1 A2] [B1 B2]. split; unfold Cmult; cbn [Re Im fst snd].
    - apply t_minus; apply t_mult; assumption.
    - apply t_plus; apply t_mult; assumption. Qed.
  Lemma c_opp u a : ctends F u a -> ctends F (fun t => - u t)%C (- a)%C.
  Proof. intros [A1 A2]. split; unfold Copp; cbn [Re Im fst snd]; apply t_opp; assumption. Qed.
  Lemma c_minus u v a b : ctends F u a -> ctends F v b -> ctends F (fun t => u t - v t)%C (a - b)%C.
  Proof. intros A B. apply c_plus; [exact A|]. apply c_opp, B. Qed.
  Lemma c_loc u v a : F (fun t => u t = v t) -> ctends F u a -> ctends F v a.
  Proof. intros E [A B]. split; (eapply t_loc; [|eassumption]); revert E; apply filter_imp; intros t ->; reflexivity. Qed.
  Lemma c_mod2 u a : ctends F u a -> tends F (fun t => Cmod (u t) * Cmod (u t)) (Cmod a * Cmod a).
  Proof. intros [A B]. rewrite Cmod_sqr. apply (t_loc (fun t => Re (u t) * Re (u t) + Im (u t) * Im (u t))).
    - apply filter_forall. intros t. symmetry. apply Cmod_sqr.
    - apply t_plus; apply t_mult; assumption. Qed.
  Lemma c_mod u a : ctends F u a -> tends F (fun t => Cmod (u t)) (Cmod a).
  Proof. intros A. apply c_mod2 in A. apply t_sqrt in A; [|pose proof (Cmod_ge_0 a); nra]. rewrite sqrt_square in A by apply Cmod_ge_0.
    revert A. apply t_loc, filter_forall. intros t. apply sqrt_square, Cmod_ge_0. Qed.
  Lemma c_inv u (a : C) : a <> 0 -> ctends F u a -> ctends F (fun t => / u t)%C (/ a)%C.
  Proof. intros N A. assert (M : Cmod a * Cmod a <> 0). { pose proof (Cmod_gt_0 a) as [G _]. specialize (G N). nra. }
    destruct A as [A1 A2]. assert (D : tends F (fun t => fst (u t) ^ 2 + snd (u t) ^ 2) (fst a ^ 2 + snd a ^ 2)).
    { simpl. apply t_plus; (apply t_mult; [assumption|]; apply t_mult; [assumption|apply t_const]). }
    assert (M' : fst a ^ 2 + snd a ^ 2 <> 0). { rewrite Cmod_sqr in M. unfold Re, Im in M. simpl. lra. }
    split; unfold Cinv; cbn [Re Im fst snd]; unfold Rdiv; apply t_mult; try (apply t_inv; assumption); [exact A1|apply t_opp, A2]. Qed.
  Lemma c_div u v (a b : C) : b <> 0 -> ctends F u a -> ctends F v b -> ctends F (fun t => u t / v t)%C (a / b)%C.
  Proof. intros N A B. apply c_mult; [exact A|]. apply c_inv; assumption. Qed.
  Lemma c_exp u a : ctends F u a -> ctends F (fun t => Cexp (u t)) (Cexp a).
  Proof. intros [A B]. split; unfold Cexp; cbn [Re Im fst snd]; apply t_mult.
    - apply t_comp; [apply derivable_continuous_pt, derivable_pt_exp|exact A].
    - apply t_comp; [apply continuity_cos|exact B].
    - apply t_comp; [apply derivable_continuous_pt, derivable_pt_exp|exact A].
    - apply t_comp; [apply continuity_sin|exact B]. Qed.
  Lemma c_sqrt u a : Im a < 0 -> ctends F u a -> ctends F (fun t => Csqrt (u t)) (Csqrt a).
  Proof. intros N A. pose proof (c_mod u a A) as M. destruct A as [A B]. pose proof (Cmod_Re a) as CR.
    assert (E : F (fun t => Im (u t) < 0)). { pose proof (t_pos _ _ (t_opp _ _ B) ltac:(lra)) as E. revert E. apply filter_imp. intros t. lra. }
    split; unfold Csqrt; cbn [Re Im fst snd].
    - apply t_sqrt; [lra|]. unfold Rdiv. apply t_mult; [|apply t_const]. apply t_plus; assumption.
    - destruct (Rle_dec 0 (Im a)); [lra|].
      apply (t_loc (fun t => -1 * sqrt ((Cmod (u t) - Re (u t)) / 2))).
      + revert E. apply filter_imp. intros t Ht. destruct (Rle_dec 0 (Im (u t))); [lra|reflexivity].
      + apply t_mult; [apply t_const|]. apply t_sqrt; [lra|]. unfold Rdiv. apply t_mult; [|apply t_const]. apply t_minus; assumption. Qed.

  Lemma wave_tends qn q (u : T -> C) a : 0 <= Im a -> tends F qn q -> ctends F u a -> ctends F (fun t => wave (qn t) (u t)) (wave q a).
  Proof. intros N A B. unfold wave. apply c_sqrt.
    - pose proof tiny_pos. pose proof PI_RGT_0. destruct a as [x y]. unfold Im in *. cbn in *. nra.
    - assert (Q : tends F (fun t => qn t / 2) (q / 2)) by (unfold Rdiv; apply t_mult; [exact A|apply t_const]).
      apply c_minus; [apply c_mult; apply c_R, Q|]. apply c_mult; [apply c_const|]. apply c_plus; [exact B|apply c_const]. Qed.

  Lemma pos_nonzero (u : T -> C) a : 0 < Re a -> ctends F u a -> F (fun t => 0 < Re (u t)).
  Proof. intros N [A _]. exact (t_pos _ _ A N). Qed.

  (** Entries of the matrices *)
  Definition vtends (u : T -> vec) (v : vec) : Prop := ctends F (fun t => fst (u t)) (fst v) /\ ctends F (fun t => snd (u t)) (snd v).
  Definition mtends (u : T -> mat) (m : mat) : Prop :=
    ctends F (fun t => m00 (u t)) (m00 m) /\ ctends F (fun t => m01 (u t)) (m01 m) /\ ctends F (fun t => m10 (u t)) (m10 m) /\ ctends F (fun t => m11 (u t)) (m11 m).
  Lemma mvec_tends A v m x : mtends A m -> vtends v x -> vtends (fun t => mvec (A t) (v t)) (mvec m x).
  Proof. intros (H0 & H1 & H2 & H3) [V1 V2]. split; unfold mvec; cbn [fst snd]; apply c_plus; apply c_mult; assumption. Qed.
  Lemma safe_tends (u v : T -> C) a b : 0 < Re b -> ctends F u a -> ctends F v b -> ctends F (fun t => safe_div (u t) (v t)) (safe_div a b).
  Proof. intros N A B. rewrite safe_div_eq by (apply C_neq_Re, N). apply (c_loc (fun t => u t / v t)%C).
    - generalize (pos_nonzero _ _ N B). apply filter_imp. intros t Ht. symmetry. apply safe_div_eq, C_neq_Re, Ht.
    - apply c_div; try assumption. apply C_neq_Re, N. Qed.
  Lemma reflection_tends (k k' : T -> C) a a' sg s : 0 < Re a -> ctends F k a -> ctends F k' a' -> tends F sg s ->
    mtends (fun t => reflection_matrix (k t) (k' t) (sg t)) (reflection_matrix a a' s).
  Proof. intros N A B S. pose proof (c_R _ _ S) as S'.
    assert (D : ctends F (fun t => 2 * k t)%C (2 * a)%C) by (apply c_mult; [apply c_const|exact A]).
    assert (D0 : 0 < Re (2 * a)%C) by (destruct a as [x y]; unfold Re in *; cbn in *; lra).
    assert (P : ctends F (fun t => (safe_div (k t + k' t) (2 * k t) * Cexp (- ((k t - k' t) * (k t - k' t)) * RtoC (/ 2) * (RtoC (sg t) * RtoC (sg t))))%C)
                  (safe_div (a + a') (2 * a) * Cexp (- ((a - a') * (a - a')) * RtoC (/ 2) * (RtoC s * RtoC s)))%C).
    { apply c_mult; [apply safe_tends; [exact D0|apply c_plus; assumption|exact D]|]. apply c_exp.
      apply c_mult; [|apply c_mult; exact S']. apply c_mult; [|apply c_const]. apply c_opp. apply c_mult; apply c_minus; assumption. }
    assert (M : ctends F (fun t => (safe_div (k t - k' t) (2 * k t) * Cexp (- ((k t + k' t) * (k t + k' t)) * RtoC (/ 2) * (RtoC (sg t) * RtoC (sg t))))%C)
                  (safe_div (a - a') (2 * a) * Cexp (- ((a + a') * (a + a')) * RtoC (/ 2) * (RtoC s * RtoC s)))%C).
    { apply c_mult; [apply safe_tends; [exact D0|apply c_minus; assumption|exact D]|]. apply c_exp.
      apply c_mult; [|apply c_mult; exact S']. apply c_mult; [|apply c_const]. apply c_opp. apply c_mult; apply c_plus; assumption. }
    repeat split; cbn [m00 m01 m10 m11 reflection_matrix]; first [apply P|apply M]. Qed.
  Lemma translation_tends (k : T -> C) a th d : ctends F k a -> tends F th d -> mtends (fun t => translation_matrix (k t) (th t)) (translation_matrix a d).
  Proof. intros A B. pose proof (c_R _ _ B) as B'.
    assert (P : ctends F (fun t => Cexp (- Ci * k t * RtoC (th t))%C) (Cexp (- Ci * a * RtoC d)%C)).
    { apply c_exp, c_mult; [|exact B']. apply c_mult; [apply c_const|exact A]. }
    assert (M : ctends F (fun t => Cexp (Ci * k t * RtoC (th t))%C) (Cexp (Ci * a * RtoC d)%C)).
    { apply c_exp, c_mult; [|exact B']. apply c_mult; [apply c_const|exact A]. }
    repeat split; cbn [m00 m01 m10 m11 translation_matrix]; first [apply P|apply M|apply t_const]. Qed.

  Lemma field_tends qn q sgn sg (sln : T -> C) sl : tends F qn q -> tends F sgn sg -> ctends F sln sl -> 0 <= Im sl -> forall fs (u : T -> list film) (k : T -> C) a,
    Forall (fun f => 0 <= Im (f_sld f)) fs -> films_tend F u fs -> 0 < Re a -> ctends F k a ->
    vtends (fun t => field_above (qn t) (k t) (u t) (sgn t) (sln t)) (field_above q a fs sg sl).
  Proof. intros HQ HS HL PL. induction fs as [|f fs IH]; intros u k a P U N K; cbn [films_tend field_above] in *.
    - assert (G : vtends (fun t => mvec (reflection_matrix (k t) (wave (qn t) (sln t)) (sgn t)) e2) (mvec (reflection_matrix a (wave q sl) sg) e2)).
      { apply mvec_tends; [apply reflection_tends; auto using wave_tends|]. split; apply c_const. }
      destruct G as [G1 G2]. split; (eapply c_loc; [|eassumption]); apply filter_forall; intros t; rewrite U; reflexivity.
    - destruct U as (v & w & E & (V1 & V2 & V3) & W). inversion P as [|? ? P1 P2]; subst.
      assert (K1 : ctends F (fun t => wave (qn t) (f_sld (v t))) (wave q (f_sld f))) by (apply wave_tends; assumption).
      pose proof (IH w _ _ P2 W (proj1 (wave_quadrant q _ P1)) K1) as G.
      pose proof (mvec_tends _ _ _ _ (translation_tends _ _ _ _ K1 V1) G) as G'.
      pose proof (mvec_tends _ _ _ _ (reflection_tends _ _ _ _ _ _ N K K1 V2) G') as [G1 G2].
      split; (eapply c_loc; [|eassumption]); apply filter_forall; intros t; rewrite E; reflexivity. Qed.

  Definition or1 (o : option R) : R := match o with Some x => x | None => 1 end.
  Lemma quot_tends (u : T -> vec) v x : vtends u v -> quot v = Some x ->
    F (fun t => quot (u t) = Some (or1 (quot (u t)))) /\ tends F (fun t => or1 (quot (u t))) x.
  Proof. intros [A B] Q. unfold quot in Q. destruct (Ceq_dec (snd v) 0) as [E|N].
    - destruct (Ceq_dec (fst v) 0) as [|N1]; [discriminate|]. injection Q as Q; subst x.
      pose proof (c_mod _ _ A) as MA. pose proof (c_mod _ _ B) as MB. rewrite E, Cmod_0 in MB.
      assert (G : F (fun t => 0 < Cmod (fst (u t)) - Cmod (snd (u t)))).
      { apply (t_pos _ (Cmod (fst v) - 0)); [apply t_minus; assumption|]. pose proof (proj1 (Cmod_gt_0 _) N1). lra. }
      assert (S1 : F (fun t => quot (u t) = Some 1)).
      { revert G. apply filter_imp. intros t Ht. unfold quot. pose proof (Cmod_ge_0 (snd (u t))) as P.
        assert (Z : fst (u t) <> 0). { apply Cmod_gt_0. lra. }
        destruct (Ceq_dec (snd (u t)) 0) as [e|n]; [destruct (Ceq_dec _ _); [contradiction|reflexivity]|].
        f_equal. apply Rmin_right. rewrite Cmod_div by exact n. pose proof (proj1 (Cmod_gt_0 _) n) as P'.
        assert (1 <= Cmod (fst (u t)) / Cmod (snd (u t))). { apply Rmult_le_reg_r with (Cmod (snd (u t))); [exact P'|]. replace (_ / _ * _) with (Cmod (fst (u t))) by (field; lra). lra. }
        nra. }
      split; [revert S1; apply filter_imp; intros t ->; reflexivity|].
      apply (t_loc (fun _ => 1)); [|apply t_const]. revert S1. apply filter_imp. intros t ->. reflexivity.
    - injection Q as Q; subst x.
      assert (NZ : F (fun t => snd (u t) <> 0)).
      { pose proof (t_pos _ _ (c_mod _ _ B) (proj1 (Cmod_gt_0 _) N)) as G. revert G. apply filter_imp. intros t Ht. apply Cmod_gt_0, Ht. }
      assert (S1 : F (fun t => quot (u t) = Some (Rmin (Cmod (fst (u t) / snd (u t))%C ^ 2) 1))).
      { revert NZ. apply filter_imp. intros t Ht. unfold quot. destruct (Ceq_dec _ _); [contradiction|reflexivity]. }
      split; [revert S1; apply filter_imp; intros t ->; reflexivity|].
      apply (t_loc (fun t => Rmin (Cmod (fst (u t) / snd (u t))%C ^ 2) 1)); [revert S1; apply filter_imp; intros t ->; reflexivity|].
      assert (D : tends F (fun t => Cmod (fst (u t) / snd (u t))%C ^ 2) (Cmod (fst v / snd v)%C ^ 2)).
      { pose proof (c_mod _ _ (c_div _ _ _ _ N A B)) as D. simpl. apply t_mult; [exact D|]. apply t_mult; [exact D|apply t_const]. }
      assert (R1 : forall y, Rmin y 1 = (y + 1 - Rabs (y - 1)) * / 2). { intros y. unfold Rmin, Rabs. destruct (Rle_dec _ _), (Rcase_abs _); lra. }
      rewrite R1. eapply t_loc; [apply filter_forall; intros t; symmetry; apply R1|].
      apply t_mult; [|apply t_const]. apply t_minus; [apply t_plus; [exact D|apply t_const]|].
      apply (t_comp Rabs); [apply Rcontinuity_abs|]. apply t_minus; [exact D|apply t_const]. Qed.

  Lemma engine_continuous q s qn (sn : T -> stack) : passive s -> regular q s -> tends F qn q -> stack_tends F sn s ->
    exists x xs, multilayer_reflectivity [q] (thickness_array s) (roughness_array s) (sld_array s) 0 = Ok [Some x] /\
      F (fun t => multilayer_reflectivity [qn t] (thickness_array (sn t)) (roughness_array (sn t)) (sld_array (sn t)) 0 = Ok [Some (xs t)]) /\ tends F xs x.
  Proof. intros P Rg Q (S1 & S2 & S3). destruct (engine_regular [q] s P) as (l & E & _); [constructor; [exact Rg|constructor]|].
    rewrite engine_stack in E. cbn [map] in E. destruct l as [|x [|]]; cbn in E; try discriminate. injection E as E.
    destruct P as [P1 P2]. assert (Z : 0 <= Im 0) by (unfold Im, RtoC; cbn; lra).
    pose proof (field_tends qn q _ _ _ _ Q S2 S3 P2 _ _ _ _ P1 S1 (proj1 (wave_quadrant q _ Z)) (wave_tends qn q _ _ Z Q (c_const 0))) as V.
    destruct (quot_tends _ _ _ V E) as [G1 G2].
    exists x. eexists. rewrite engine_stack. cbn [map]. split; [f_equal; f_equal; exact E|]. split; [|exact G2].
    revert G1. apply filter_imp. intros t Ht. rewrite engine_stack. cbn [map]. unfold field. f_equal. f_equal. exact Ht. Qed.

  Lemma stack_const s : stack_tends F (fun _ => s) s.
  Proof. split; [|split; [apply t_const|apply c_const]]. induction (s_films s) as [|f fs IH]; cbn [films_tend]; [reflexivity|].
    exists (fun _ => f), (fun _ => fs). split; [reflexivity|]. split; [|exact IH]. split; [apply t_const|]. split; [apply t_const|apply c_const]. Qed.
End Limits.

Lemma engine_continuous_q s : passive s -> (forall q, regular q s) -> exists f, continuity f /\
  forall q, multilayer_reflectivity [q] (thickness_array s) (roughness_array s) (sld_array s) 0 = Ok [Some (f q)].
Proof. intros P Rg. exists (fun q => or1 (quot (field q s))).
  assert (E : forall q, quot (field q s) = Some (or1 (quot (field q s)))).
  { intros q. destruct (engine_regular [q] s P) as (l & E & _); [constructor; [apply Rg|constructor]|].
    rewrite engine_stack in E. cbn [map] in E. destruct l as [|x [|]]; cbn in E; try discriminate. injection E as E. rewrite E. reflexivity. }
  split; [|intros q; rewrite engine_stack; cbn [map]; rewrite <- E; reflexivity].
  intros q. apply continuity_pt_filterlim.
  assert (HS : stack_tends (locally q) (fun _ => s) s).
  { apply stack_const. typeclasses eauto. }
  destruct (engine_continuous (locally q) q s (fun x => x) (fun _ => s) P (Rg q) (fun Q H => H) HS) as (x & xs & E1 & E2 & L).
  rewrite engine_stack in E1. cbn [map] in E1. injection E1 as E1. rewrite E1. cbn [or1].
  refine (filterlim_ext_loc xs _ _ L). revert E2. apply filter_imp. intros t Ht. rewrite engine_stack in Ht. cbn [map] in Ht. injection Ht as Ht. rewrite Ht. reflexivity. Qed.

(** ** Lifting the sample *)
Lemma lifted q d tau s : field q (mkStack (mkFilm d tau 0 :: s_films s) (s_roughness s) (s_sld s)) =
  ((Cexp (- Ci * wave q 0 * RtoC d) * fst (field q s))%C, (Cexp (Ci * wave q 0 * RtoC d) * snd (field q s))%C).
Proof. unfold field. cbn [s_films s_roughness s_sld field_above f_sld f_roughness f_thickness].
  assert (N : wave q 0 <> 0) by (apply wave_neq_0; unfold Im, RtoC; cbn; lra).
  rewrite reflection_same by exact N. rewrite mvec_id. unfold mvec, translation_matrix. cbn [m00 m01 m10 m11 fst snd]. f_equal; ring. Qed.

Lemma quot_damped (u w : C) (v : vec) e : u <> 0 -> w <> 0 -> Cmod (u / w)%C ^ 2 = e -> e <= 1 ->
  match quot v, quot ((u * fst v)%C, (w * snd v)%C) with
  | Some x, Some x' => Rabs (x' - x) <= 1 - e
  | None, None => True
  | _, _ => False
  end.
Proof. intros U W E L. unfold quot. cbn [fst snd]. assert (0 <= e) by (subst e; apply pow2_ge_0).
  assert (Z : forall c z : C, c <> 0 -> (c * z)%C = 0 -> z = 0).
  { intros c z Hc E0. destruct (Ceq_dec z 0) as [e0|n]; [exact e0|]. exfalso. exact (Cmult_neq_0 c z Hc n E0). }
  destruct (Ceq_dec (snd v) 0) as [S0|S0].
  - rewrite S0, Cmult_0_r. destruct (Ceq_dec 0 0) as [_|]; [|congruence].
    destruct (Ceq_dec (fst v) 0) as [F0|F0].
    + rewrite F0, Cmult_0_r. destruct (Ceq_dec 0 0); [exact I|congruence].
    + destruct (Ceq_dec _ _) as [F1|F1]; [exfalso; apply F0, (Z u); assumption|]. rewrite Rminus_diag_eq, Rabs_R0 by reflexivity. lra.
  - destruct (Ceq_dec _ _) as [S1|S1]; [exfalso; apply S0, (Z w); assumption|].
    replace ((u * fst v) / (w * snd v))%C with ((u / w) * (fst v / snd v))%C by (field; split; assumption).
    rewrite Cmod_mult. set (m := Cmod (fst v / snd v)%C). replace ((Cmod (u / w)%C * m) ^ 2) with (e * m ^ 2) by (rewrite <- E; ring).
    assert (M : 0 <= m ^ 2) by apply pow2_ge_0. set (y := m ^ 2) in *.
    unfold Rmin. destruct (Rle_dec _ _), (Rle_dec _ _); apply Rabs_le; nra. Qed.

Lemma vacuum_damping q : q <> 0 -> 0 < - Im (wave q 0) <= 4 * PI * tiny / Rabs q.
Proof. intros Q. assert (Z : 0 <= Im 0) by (unfold Im, RtoC; cbn; lra). destruct (wave_quadrant q 0 Z) as [W1 W2].
  pose proof (Csqrt_sqr (RtoC (q / 2) * RtoC (q / 2) - RtoC (4 * PI) * (0 + (0, tiny)))%C) as S. fold (wave q 0) in S.
  destruct (wave q 0) as [x y]. unfold Re, Im in *; cbn in W1, W2 |- *. unfold Cmult, Cminus, Cplus, Copp, RtoC in S; cbn in S. injection S as S1 S2.
  split; [lra|]. pose proof (Rabs_pos_lt q Q) as P. pose proof tiny_pos. pose proof PI_RGT_0.
  apply Rmult_le_reg_r with (Rabs q); [exact P|]. replace (4 * PI * tiny / Rabs q * Rabs q) with (4 * PI * tiny) by (field; lra).
  assert (A : Rabs q / 2 <= x). { assert (Rabs q * Rabs q = q * q) by (rewrite <- Rabs_mult; apply Rabs_right; nra). assert (0 <= y * y) by nra. nra. }
  nra. Qed.

Lemma engine_lifted q d tau s out : q <> 0 -> 0 <= d -> multilayer_reflectivity [q] (thickness_array s) (roughness_array s) (sld_array s) 0 = Ok out ->
  let s' := mkStack (mkFilm d tau 0 :: s_films s) (s_roughness s) (s_sld s) in
  exists out', multilayer_reflectivity [q] (thickness_array s') (roughness_array s') (sld_array s') 0 = Ok out' /\
    Forall2 (fun o o' => match o, o' with Some x, Some x' => Rabs (x' - x) <= 16 * PI * tiny * d / Rabs q | None, None => True | _, _ => False end) out out'.
Proof. intros Q D E s'. rewrite engine_stack in E. injection E as E; subst out. rewrite engine_stack. eexists. split; [reflexivity|].
  cbn [map]. constructor; [|constructor]. unfold s'. rewrite lifted.
  destruct (vacuum_damping q Q) as [B1 B2].
  assert (M : Cmod (Cexp (- Ci * wave q 0 * RtoC d) / Cexp (Ci * wave q 0 * RtoC d))%C ^ 2 = exp (4 * Im (wave q 0) * d)).
  { rewrite Cmod_div by apply Cexp_neq_0. rewrite !Cmod_Cexp. unfold Rdiv. rewrite <- exp_Ropp, <- exp_plus. simpl. rewrite Rmult_1_r, <- exp_plus. f_equal.
    destruct (wave q 0) as [x y]. unfold Re, Im, Ci, RtoC; cbn. ring. }
  pose proof (quot_damped _ _ (field q s) _ (Cexp_neq_0 (- Ci * wave q 0 * RtoC d)%C) (Cexp_neq_0 (Ci * wave q 0 * RtoC d)%C) M) as K.
  assert (L : exp (4 * Im (wave q 0) * d) <= 1). { rewrite <- exp_0. destruct (Req_dec (4 * Im (wave q 0) * d) 0) as [e|n]; [rewrite e; lra|left; apply exp_increasing; nra]. }
  specialize (K L). destruct (quot (field q s)), (quot _); try exact K.
  apply Rle_trans with (1 := K). pose proof (exp_ineq1_le (4 * Im (wave q 0) * d)) as X.
  assert (4 * (- Im (wave q 0)) * d <= 16 * PI * tiny * d / Rabs q).
  { replace (16 * PI * tiny * d / Rabs q) with (4 * (4 * PI * tiny / Rabs q) * d) by (field; apply Rabs_no_R0, Q). nra. }
  lra. Qed.
