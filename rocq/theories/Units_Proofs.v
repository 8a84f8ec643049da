From Coq Require Import Reals Lra Lia.
From Coquelicot Require Import Complex.
From Verif Require Import Py Str Cplx Sample_Model Sample_Spec Rng Sampling_Model Reflectivity_Model Reflectivity_Spec Reflectivity_Proofs
  ReflectivityDecay_Spec ReflectivityDecay_Proofs Simulation_Model Simulation_Spec Simulation_Proofs Sample_Proofs Sampling_Spec Sampling_Proofs Labels_Proofs Units_Spec.
Local Open Scope string_scope.
Local Open Scope R_scope.

Local Notation simulate qs s := (multilayer_reflectivity qs (thickness_array s) (roughness_array s) (sld_array s) 0).

(** The stack in metres *)
Definition si_film (f : film) : film := mkFilm (f_thickness f * / 10 ^ 10) (f_roughness f * / 10 ^ 10) (f_sld f * RtoC (10 ^ 14))%C.
Definition si (s : stack) : stack := mkStack (map si_film (s_films s)) (s_roughness s * / 10 ^ 10) (s_sld s * RtoC (10 ^ 14))%C.

Lemma Csqrt_scale a z : 0 <= a -> Csqrt (RtoC (a * a) * z)%C = (RtoC a * Csqrt z)%C.
Proof. intros A. unfold Csqrt. assert (M : Cmod (RtoC (a * a) * z)%C = a * a * Cmod z) by (rewrite Cmod_mult, Cmod_R, Rabs_right by nra; reflexivity). rewrite M.
  destruct z as [x y]. unfold Cmult, RtoC, Re, Im; simpl fst; simpl snd. set (m := Cmod (x, y)).
  assert (B : - m <= x <= m) by exact (Cmod_Re (x, y)). replace (a * a * x - 0 * y) with (a * a * x) by ring. replace (a * a * y + 0 * x) with (a * a * y) by ring.
  assert (Q : forall u, 0 <= u -> sqrt (a * a * u) = a * sqrt u) by (intros u U; rewrite sqrt_mult, sqrt_square by nra; reflexivity).
  replace ((a * a * m + a * a * x) / 2) with (a * a * ((m + x) / 2)) by field. replace ((a * a * m - a * a * x) / 2) with (a * a * ((m - x) / 2)) by field. rewrite !Q by lra.
  destruct (Req_dec a 0) as [->|N]; [destruct (Rle_dec 0 y), (Rle_dec 0 (0 * 0 * y)); simpl; f_equal; ring|]. assert (0 < a * a) by nra. destruct (Rle_dec 0 y), (Rle_dec 0 (a * a * y)); try (exfalso; nra); simpl; f_equal; ring. Qed.

Lemma wave_si q rho : wave (q * 10 ^ 10) (rho * RtoC (10 ^ 14))%C = (RtoC (10 ^ 10) * wave_label q rho)%C.
Proof. unfold wave, wave_label. rewrite <- Csqrt_scale by (apply pow_le; lra). f_equal. unfold tiny, branch. destruct rho as [x y]. unfold Cmult, Cminus, Cplus, Copp, RtoC; simpl fst; simpl snd. f_equal; field. Qed.
Lemma wave_si_0 q : wave (q * 10 ^ 10) 0 = (RtoC (10 ^ 10) * wave_label q 0)%C.
Proof. rewrite <- wave_si. f_equal. now rewrite Cmult_0_l. Qed.
Lemma ten_neq_0 : RtoC (10 ^ 10) <> 0. Proof. intros E. apply RtoC_inj in E. pose proof (pow_lt 10 10 ltac:(lra)). lra. Qed.

Lemma interface_si k k' sigma : (k + k')%C <> 0 -> nevot_croce (RtoC (10 ^ 10) * k)%C (RtoC (10 ^ 10) * k')%C (sigma * / 10 ^ 10) = interface k k' sigma.
Proof. intros N. unfold nevot_croce, interface. f_equal.
  - pose proof ten_neq_0 as T. assert (N' : (RtoC (10 ^ 10) * k + RtoC (10 ^ 10) * k')%C <> 0); [|generalize dependent (RtoC (10 ^ 10)); intros t T N'; field; auto].
    replace (RtoC (10 ^ 10) * k + RtoC (10 ^ 10) * k')%C with (RtoC (10 ^ 10) * (k + k'))%C by ring. apply Cmult_neq_0; [exact ten_neq_0|exact N].
  - f_equal. destruct k as [a b], k' as [c d]. unfold Cmult, Copp, RtoC; simpl fst; simpl snd. f_equal; field. Qed.

Lemma wave_label_re q rho : 0 <= Im rho -> 0 < Re (wave_label q rho).
Proof. intros H. assert (P : 0 < 10 ^ 10) by (apply pow_lt; lra). pose proof (wave_quadrant (q * 10 ^ 10) (rho * RtoC (10 ^ 14))%C) as W. rewrite wave_si in W.
  assert (I : 0 <= Im (rho * RtoC (10 ^ 14))%C). { destruct rho as [x y]. unfold Cmult, RtoC, Im in *; simpl fst in *; simpl snd in *. pose proof (pow_lt 10 14 ltac:(lra)). nra. }
  destruct (W I) as [W1 _]. destruct (wave_label q rho) as [x y]. unfold Cmult, RtoC, Re in *; simpl fst in *; simpl snd in *. nra. Qed.

Lemma parratt_si q sigma sld : 0 <= Im sld -> forall fs k, Forall (fun f => 0 <= Im (f_sld f)) fs -> 0 < Re k ->
  parratt (q * 10 ^ 10) (RtoC (10 ^ 10) * k)%C (map si_film fs) (sigma * / 10 ^ 10) (sld * RtoC (10 ^ 14))%C = amplitude_below q k fs sigma sld.
Proof. intros P fs. induction fs as [|f fs IH]; intros k F K; cbn [map parratt amplitude_below].
  - rewrite wave_si, interface_si; [reflexivity|]. apply sum_neq_0; [exact K|apply wave_label_re, P].
  - inversion F as [|? ? F0 F1]; subst. cbn [si_film f_sld f_thickness f_roughness]. pose proof (wave_label_re q (f_sld f) F0) as W. rewrite wave_si, IH by assumption.
    destruct (amplitude_below q (wave_label q (f_sld f)) fs sigma sld) as [x|]; [|reflexivity]. rewrite interface_si by (apply sum_neq_0; assumption).
    replace (- (2) * Ci * (RtoC (10 ^ 10) * wave_label q (f_sld f)) * RtoC (f_thickness f * / 10 ^ 10))%C with (RtoC (-2 * f_thickness f) * Ci * wave_label q (f_sld f))%C; [reflexivity|].
    generalize (wave_label q (f_sld f)). intros [a b]. unfold Ci, Cmult, Copp, RtoC; simpl fst; simpl snd. f_equal; field. Qed.

Lemma si_passive s : passive s -> passive (si s).
Proof. assert (I : forall z, 0 <= Im z -> 0 <= Im (z * RtoC (10 ^ 14))%C). { intros [x y]. unfold Cmult, RtoC, Im; simpl fst; simpl snd. pose proof (pow_lt 10 14 ltac:(lra)). intros. nra. }
  intros [A B]. split; [|apply I, B]. cbn [si s_films]. apply Forall_map. eapply Forall_impl; [|exact A]. intros f. apply I. Qed.
Lemma amplitude_si q s : passive s -> parratt_amplitude (q * 10 ^ 10) (si s) = label_amplitude q s.
Proof. intros [A B]. unfold parratt_amplitude, label_amplitude. rewrite wave_si_0. apply parratt_si; [exact B|exact A|]. apply wave_label_re. unfold Im; simpl; lra. Qed.

(** The arrays of a row *)
Lemma films_arrays t : forall r s a, List.length r = List.length t -> List.length s = List.length t ->
  map f_thickness (films_upwards t r (s ++ [a])) = t /\ map f_roughness (films_upwards t r (s ++ [a])) = r /\ map f_sld (films_upwards t r (s ++ [a])) = s.
Proof. induction t as [|t0 t IH]; intros [|r0 r] [|s0 s] a Lr Ls; try discriminate; [repeat split|]. cbn [films_upwards app map f_thickness f_roughness f_sld].
  destruct (IH r s a ltac:(injection Lr; auto) ltac:(injection Ls; auto)) as (A & B & D). rewrite A, B, D. repeat split. Qed.

Lemma row_curve_si smp n T Ru Sl qs i : label_table smp n T Ru Sl -> last (entries i Sl) (RtoC 0) = 0 ->
  row_curve qs T Ru Sl i = simulate (map (fun q => q * 10 ^ 10) qs) (si (row_stack T Ru Sl i)).
Proof. intros Lt Ha. pose proof (separate_counts _ _ _ _ _ Lt) as (L1 & L2 & L3). unfold row_curve. rewrite Ha, Cmult_0_l. unfold row_stack.
  assert (LT : List.length (entries i T) = List.length (st_layers smp)) by (unfold entries; rewrite map_length; exact L1).
  assert (LR : List.length (entries i Ru) = S (List.length (st_layers smp))) by (unfold entries; rewrite map_length; exact L2).
  assert (LS : List.length (entries i Sl) = S (S (List.length (st_layers smp)))) by (unfold entries; rewrite map_length; exact L3).
  destruct (entries i Ru) as [|r0 r]; [discriminate|]. destruct (entries i Sl) as [|s0 s]; [discriminate|]. injection LR as LR. injection LS as LS.
  destruct s as [|s1 s] using rev_ind; [discriminate|]. clear IHs. rewrite app_length in LS. cbn [List.length] in LS.
  change (s0 :: s ++ [s1])%list with ((s0 :: s) ++ [s1])%list. rewrite removelast_last. cbn [map app tl hd].
  destruct (films_arrays (map fst (entries i T)) (map fst r) s s1) as (A & B & D); [rewrite !map_length; exact (eq_trans LR (eq_sym LT))|rewrite map_length; refine (eq_trans _ (eq_sym LT)); rewrite Nat.add_1_r in LS; injection LS; auto|].
  unfold thickness_array, roughness_array, sld_array, si. cbn [s_films s_roughness s_sld]. rewrite !map_map. cbn [si_film f_thickness f_roughness f_sld].
  assert (M : forall X (h : R -> X) (p : film -> R) l, rev (map (fun x => h (p x)) (rev l)) = map h (map p l)) by (intros X h p l; rewrite <- map_rev, rev_involutive, map_map; reflexivity).
  assert (M' : forall X (h : C -> X) (p : film -> C) l, rev (map (fun x => h (p x)) (rev l)) = map h (map p l)) by (intros X h p l; rewrite <- map_rev, rev_involutive, map_map; reflexivity).
  rewrite (M _ (fun x => x * / 10 ^ 10) f_thickness), (M _ (fun x => x * / 10 ^ 10) f_roughness), (M' _ (fun x => x * RtoC (10 ^ 14))%C f_sld), A, B, D, !map_map. reflexivity. Qed.

Lemma curve_units smp n T Ru Sl qs i c : label_table smp n T Ru Sl -> last (entries i Sl) (RtoC 0) = 0 -> passive (row_stack T Ru Sl i) ->
  row_curve qs T Ru Sl i = Ok c -> Forall2 (fun q o => predicted q (row_stack T Ru Sl i) o) qs c.
Proof. intros Lt Ha P E. rewrite (row_curve_si smp n _ _ _ _ _ Lt Ha) in E. rewrite engine_stack in E. injection E as <-. rewrite map_map.
  induction qs as [|q qs IH]; cbn [map]; constructor; [|exact IH]. intros r Hr. rewrite <- (amplitude_si q _ P) in Hr.
  pose proof (engine_parratt [q * 10 ^ 10] (si (row_stack T Ru Sl i)) [r] (si_passive _ P) ltac:(repeat constructor; exact Hr)) as E. rewrite engine_stack in E. cbn [map] in E. injection E as E. exact E. Qed.

(** Decay *)
Lemma variation_si fs : forall above sld, variation_below (above * RtoC (10 ^ 14))%C (map si_film fs) (sld * RtoC (10 ^ 14))%C = 10 ^ 14 * variation_below above fs sld.
Proof. assert (M : forall a b, Cmod (a * RtoC (10 ^ 14) - b * RtoC (10 ^ 14))%C = 10 ^ 14 * Cmod (a - b)%C).
  { intros a b. replace (a * RtoC (10 ^ 14) - b * RtoC (10 ^ 14))%C with (RtoC (10 ^ 14) * (a - b))%C by ring. rewrite Cmod_mult, Cmod_R, Rabs_right; [reflexivity|]. pose proof (pow_lt 10 14 ltac:(lra)). lra. }
  induction fs as [|f fs IH]; intros above sld; cbn [map variation_below]; [apply M|]. cbn [si_film f_sld]. rewrite M, IH. ring. Qed.
Lemma si_solid s : solid s -> solid (si s).
Proof. unfold solid, si. cbn [s_films]. intros F. apply Forall_map. eapply Forall_impl; [|exact F]. intros f H. cbn [si_film f_thickness]. pose proof (Rinv_0_lt_compat _ (pow_lt 10 10 ltac:(lra))). nra. Qed.
Lemma curve_decay smp n T Ru Sl qs i c : label_table smp n T Ru Sl -> last (entries i Sl) (RtoC 0) = 0 -> passive (row_stack T Ru Sl i) -> solid (row_stack T Ru Sl i) ->
  row_curve qs T Ru Sl i = Ok c -> Forall2 (fun q o => q <> 0 -> forall x, o = Some x -> x <= (32 * PI * (variation (row_stack T Ru Sl i) / 10 ^ 6) / (q * q)) ^ 2) qs c.
Proof. intros Lt Ha P D E. rewrite (row_curve_si smp n _ _ _ _ _ Lt Ha) in E. apply (engine_decay _ _ _ (si_passive _ P) (si_solid _ D)) in E.
  set (s := row_stack T Ru Sl i) in *. assert (V : variation (si s) = 10 ^ 14 * variation s) by (unfold variation; cbn [si s_films s_sld]; rewrite <- variation_si, Cmult_0_l; reflexivity).
  rewrite V in E. clear - E. revert c E. induction qs as [|q qs IH]; intros c E; cbn [map] in E; inversion E as [|? o ? c' H E']; subst; constructor; [|apply IH, E'].
  intros N x ->. refine (Rle_trans _ _ _ (H _ x eq_refl) _); [pose proof (pow_lt 10 10 ltac:(lra)); nra|]. right. f_equal. field. exact N. Qed.
Lemma curve_range smp n T Ru Sl qs i c : label_table smp n T Ru Sl -> row_curve qs T Ru Sl i = Ok c -> List.length c = List.length qs /\ Forall (fun o => forall x, o = Some x -> 0 <= x <= 1) c.
Proof. intros _ E. apply engine_values in E. rewrite map_length in E. exact E. Qed.

(** *** Generated tables *)
Lemma cols_app (t : cols) a b : map fst t = (a ++ b)%list -> exists x y, t = (x ++ y)%list /\ map fst x = a /\ map fst y = b.
Proof. revert t. induction a as [|k a IH]; intros t H; [exists [], t; auto|]. destruct t as [|[k' c] t]; [discriminate|]. injection H as -> H.
  destruct (IH t H) as (x & y & -> & Ex & Ey). exists ((k, c) :: x)%list, y. simpl. repeat split; congruence. Qed.

Lemma in_entries i (t : cols) z : In z (entries i t) -> exists k c, In (k, c) t /\ z = nth i c (RtoC 0).
Proof. unfold entries. intros H. apply in_map_iff in H. destruct H as ([k c] & <- & H). exists k, c. auto. Qed.
Lemma films_in t : forall r s f, In f (films_upwards t r s) -> In (f_thickness f) t /\ In (f_sld f) s.
Proof. induction t as [|t0 t IH]; intros [|r0 r] [|s0 s] f H; try contradiction. cbn [films_upwards] in H. destruct H as [<-|H]; [split; left; reflexivity|]. destruct (IH _ _ _ H). split; right; assumption. Qed.
Lemma label_layer sfx ls k : In k (labels_of sfx ls) -> exists l, In l ls /\ k = l_name l ++ "_" ++ sfx.
Proof. unfold labels_of. intros H. apply in_map_iff in H. destruct H as (l & <- & H). eauto. Qed.

Section Generated.
  Context {S : Type} (g : rng S) (G : rng_ok g).
  Variables (s : S) (smp : structure) (n : Z) (dp : dparams) (s1 : S) (t : cols).
  Hypothesis (Ho : ordinary_sample smp) (Nd : NoDup (map l_name (all_layers smp))) (E : generate_random_labels g s smp n dp = Ok (s1, t)).

  Lemma generated_table : exists T Ru Sl, t = (T ++ Ru ++ Sl)%list /\ label_table smp (Z.to_nat n) T Ru Sl.
  Proof. destruct (generated_shape g G s smp n dp s1 t Ho Nd E) as (_ & Hl & Hw). rewrite (label_names_ordinary smp Ho) in Hl. apply (f_equal (fun r => match r with Ok l => l | Raise _ => [] end)) in Hl. cbv beta iota in Hl. symmetry in Hl.
    destruct (cols_app _ _ _ Hl) as (T & r & E1 & ET & K2). destruct (cols_app _ _ _ K2) as (Ru & Sl & E2 & ER & ES). subst r. exists T, Ru, Sl. split; [exact E1|]. repeat split; try assumption. rewrite <- E1. exact Hw. Qed.

  Lemma generated_ambient T Ru Sl : vacuum_above smp -> t = (T ++ Ru ++ Sl)%list -> label_table smp (Z.to_nat n) T Ru Sl -> zero_ambient (Z.to_nat n) Sl.
  Proof. intros (v & nm & Hv & V1 & V2) -> (_ & _ & ES & F) i Hi. unfold all_layers, labels_of in ES. cbn [map] in ES. rewrite map_app in ES. rewrite app_comm_cons in ES. cbn [map] in ES.
    destruct (cols_app _ _ _ ES) as (x & y & -> & _ & Ey). destruct y as [|[k c] [|? ?]]; try discriminate. cbn [map fst] in Ey. injection Ey as Ek. unfold entries. rewrite map_app. cbn [map snd]. rewrite last_last.
    assert (Hin : In (k, c) (T ++ Ru ++ x ++ [(k, c)])%list) by (apply in_or_app; right; apply in_or_app; right; apply in_or_app; right; left; reflexivity).
    assert (Hc : c = repeat (num_re v, num_im v) (Z.to_nat n)).
    { apply (generated_constants g G s smp n dp s1 _ Ho Nd E (st_ambient smp) v nm); [unfold all_layers; right; apply in_or_app; right; left; reflexivity|]. left. split; [exact Hv|]. rewrite <- Ek. exact Hin. }
    rewrite Hc, V1, V2. apply (repeat_spec (Z.to_nat n) (0, 0)). apply nth_In. rewrite repeat_length. exact Hi. Qed.

  Lemma generated_stack T Ru Sl i : tame g dp -> passive_sample smp -> solid_sample smp -> t = (T ++ Ru ++ Sl)%list -> label_table smp (Z.to_nat n) T Ru Sl -> (i < Z.to_nat n)%nat ->
    passive (row_stack T Ru Sl i) /\ solid (row_stack T Ru Sl i).
  Proof. intros Ta P D Et (ET & ER & ES & F) Hi.
    assert (HS : forall z, In z (entries i Sl) -> 0 <= Im z).
    { intros z Hz. destruct (in_entries _ _ _ Hz) as (k & c & Hk & ->). assert (Hk' : In k (labels_of "sld" (all_layers smp))) by (rewrite <- ES; apply in_map_iff; exists (k, c); auto).
      destruct (label_layer _ _ _ Hk') as (l & Hl & ->). assert (Hp : exists p, l_sld l = Some p).
      { destruct Ho as ((_ & _ & p1 & N1 & _) & N2 & (_ & _ & p3 & N3 & _)). destruct Hl as [<-|Hl]; [eauto|]. apply in_app_or in Hl. destruct Hl as [Hl|[<-|[]]]; [|eauto].
        rewrite Forall_forall in N2. destruct (N2 l Hl) as (_ & _ & p & N & _). eauto. }
      destruct Hp as (p & Hp). destruct (P l p Hl Hp) as [P0 P1]. destruct (generated_in_range g G s smp n dp s1 t Ho Nd Ta E l p c Hl P1) as [Lc Fc].
      { left. split; [exact Hp|]. rewrite Et. apply in_or_app; right; apply in_or_app; right. exact Hk. }
      rewrite Forall_forall in Fc. specialize (Fc (nth i c (RtoC 0)) ltac:(apply nth_In; rewrite Lc; exact Hi)). destruct p as [lo hi nm|v nm]; cbn [fits p_min p_max] in *.
      - destruct Fc as [_ [Fc _]]. rewrite Rmin_left in Fc by lra. unfold Im. lra.
      - rewrite Fc. unfold Im; simpl. lra. }
    assert (HT : forall z, In z (entries i T) -> 0 <= fst z).
    { intros z Hz. destruct (in_entries _ _ _ Hz) as (k & c & Hk & ->). assert (Hk' : In k (labels_of "thickness" (st_layers smp))) by (rewrite <- ET; apply in_map_iff; exists (k, c); auto).
      destruct (label_layer _ _ _ Hk') as (l & Hl & ->). assert (Hp : exists p, l_thickness l = Some p).
      { destruct Ho as (_ & N2 & _). rewrite Forall_forall in N2. destruct (N2 l Hl) as ((p & N & _) & _ & _). eauto. }
      destruct Hp as (p & Hp). destruct (D l p Hl Hp) as [P0 P1]. destruct (generated_in_range g G s smp n dp s1 t Ho Nd Ta E l p c) as [Lc Fc]; [unfold all_layers; right; apply in_or_app; left; exact Hl|exact P1| |].
      { right. left. split; [exact Hp|]. rewrite Et. apply in_or_app; left. exact Hk. }
      rewrite Forall_forall in Fc. specialize (Fc (nth i c (RtoC 0)) ltac:(apply nth_In; rewrite Lc; exact Hi)). destruct p as [lo hi nm|v nm]; cbn [fits p_min p_max] in *.
      - destruct Fc as [[Fc _] _]. lra.
      - rewrite Fc. exact P0. }
    unfold row_stack. split; [split|]; cbn [s_films s_sld].
    - apply Forall_forall. intros f Hf. apply in_rev in Hf. destruct (films_in _ _ _ _ Hf) as [_ H]. apply HS. destruct (entries i Sl); [contradiction|right; exact H].
    - destruct (entries i Sl) as [|z l] eqn:K; [unfold Im; simpl; lra|]. apply HS. left. reflexivity.
    - apply Forall_forall. intros f Hf. cbn [s_films] in Hf. apply in_rev in Hf. destruct (films_in _ _ _ _ Hf) as [H _]. apply in_map_iff in H. destruct H as (z & <- & Hz). apply HT, Hz. Qed.
End Generated.

Lemma Forall2_and A B (P Q : A -> B -> Prop) l l' : Forall2 P l l' -> Forall2 Q l l' -> Forall2 (fun a b => P a b /\ Q a b) l l'.
Proof. intros H. induction H as [|a b l l' H H' IH]; intros K; inversion K; subst; constructor; auto. Qed.
Lemma Forall2_impl_seq A (P Q : nat -> A -> Prop) n l : Forall2 P (seq 0 n) l -> (forall i a, (i < n)%nat -> P i a -> Q i a) -> Forall2 Q (seq 0 n) l.
Proof. intros H I. assert (K : Forall (fun i => (i < n)%nat) (seq 0 n)) by (apply Forall_forall; intros i Hi; apply in_seq in Hi; lia). induction H as [|i a l1 l2 H H' IH]; [constructor|]. inversion K; subst. constructor; auto. Qed.
Lemma Forall2_range A (P : option R -> Prop) (l : list A) c : List.length c = List.length l -> Forall P c -> Forall2 (fun _ o => P o) l c.
Proof. revert c. induction l as [|a l IH]; intros [|o c] L F; try discriminate; [constructor|]. inversion F; subst. constructor; auto. Qed.
Lemma Forall2_len A B (P : A -> B -> Prop) l l' : Forall2 P l l' -> List.length l = List.length l'.
Proof. intros H. induction H; simpl; congruence. Qed.
