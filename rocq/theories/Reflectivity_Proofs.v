From Coq Require Import Reals Lra Psatz.
From Coquelicot Require Import Complex.
From Verif Require Import Py Cplx Reflectivity_Model Reflectivity_Spec.
Local Open Scope R_scope.

Lemma relative_wave q s : relative_kz (RtoC q / 2)%C (s + DELTA)%C = wave q s.
Proof. unfold relative_kz, wave, DELTA, tiny. rewrite RtoC_div by lra. rewrite RtoC_mult. reflexivity. Qed.

Lemma relative_wave_amb q : relative_kz (RtoC q / 2)%C (0 + DELTA)%C = wave q 0.
Proof. apply relative_wave. Qed.

Lemma tiny_pos : 0 < tiny.
Proof. unfold tiny. apply Rinv_0_lt_compat, pow_lt. lra. Qed.

Lemma wave_quadrant q s : 0 <= Im s -> 0 < Re (wave q s) /\ Im (wave q s) < 0.
Proof. intros H. apply Csqrt_quadrant. pose proof tiny_pos. pose proof PI_RGT_0.
  destruct s as [a b]. unfold Im in *; simpl in *. nra. Qed.

Lemma wave_neq_0 q s : 0 <= Im s -> wave q s <> 0.
Proof. intros H. apply C_neq_Re. apply wave_quadrant; assumption. Qed.

Lemma sum_neq_0 k k' : 0 < Re k -> 0 < Re k' -> (k + k')%C <> 0.
Proof. intros. apply C_neq_Re. unfold Re in *; simpl. lra. Qed.

Lemma two_neq_0 : RtoC 2 <> 0.
Proof. intros E. apply RtoC_inj in E. lra. Qed.

Lemma two_eq : RtoC 2 = (1 + 1)%C.
Proof. rewrite <- RtoC_plus. reflexivity. Qed.

Lemma safe_div_eq (a b : C) : b <> 0 -> safe_div a b = (a / b)%C.
Proof. intros H. unfold safe_div. destruct (Ceq_dec a b) as [->|]; [field; assumption|]. destruct (Ceq_dec b 0); [contradiction|reflexivity]. Qed.

(** Column vectors *)
Definition vec := (C * C)%type.
Definition mvec (a : mat) (v : vec) : vec := ((m00 a * fst v + m01 a * snd v)%C, (m10 a * fst v + m11 a * snd v)%C).
Definition e2 : vec := (RtoC 0, RtoC 1).
Definition quot (v : vec) : option R :=
  if Ceq_dec (snd v) 0 then (if Ceq_dec (fst v) 0 then None else Some 1) else Some (Rmin (Cmod (fst v / snd v)%C ^ 2) 1).

Lemma mvec_matmul a b v : mvec (matmul a b) v = mvec a (mvec b v).
Proof. unfold mvec, matmul; simpl. f_equal; ring. Qed.

Lemma intensity_quot M : intensity M = quot (mvec M e2).
Proof. unfold intensity, quot, mvec, e2. cbn [fst snd].
  replace (m10 M * 0 + m11 M * 1)%C with (m11 M) by ring. replace (m00 M * 0 + m01 M * 1)%C with (m01 M) by ring. reflexivity. Qed.

(** Field amplitudes in the medium above [fs] *)
Fixpoint field_above (q : R) (k : C) (fs : list film) (sigma : R) (sld : C) : vec :=
  match fs with
  | [] => mvec (reflection_matrix k (wave q sld) sigma) e2
  | f :: fs' => let k1 := wave q (f_sld f) in
      mvec (reflection_matrix k k1 (f_roughness f)) (mvec (translation_matrix k1 (f_thickness f)) (field_above q k1 fs' sigma sld))
  end.

Definition field (q : R) (s : stack) : vec := field_above q (wave q 0) (s_films s) (s_roughness s) (s_sld s).

Definition amplified (l : list C) := map (fun s => s + DELTA)%C l.

Lemma interfaces_field q sigma sld : forall fs M k d,
  mvec (interfaces (RtoC q / 2)%C M k (d :: map f_thickness fs) (map f_roughness fs ++ [sigma]) (amplified (map f_sld fs ++ [sld]))) e2
  = mvec M (mvec (translation_matrix k d) (field_above q k fs sigma sld)).
Proof. induction fs as [|f fs IH]; intros M k d; cbn [map app amplified interfaces field_above].
  - unfold interfaces. rewrite relative_wave, !mvec_matmul. reflexivity.
  - rewrite relative_wave. etransitivity; [apply IH|]. rewrite !mvec_matmul. reflexivity. Qed.

Lemma rev_roughness s : rev (roughness_array s) = (map f_roughness (s_films s) ++ [s_roughness s])%list.
Proof. unfold roughness_array. simpl. rewrite rev_involutive. reflexivity. Qed.
Lemma rev_sld s : rev (sld_array s) = (map f_sld (s_films s) ++ [s_sld s])%list.
Proof. unfold sld_array. simpl. rewrite rev_involutive. reflexivity. Qed.

Lemma one_q_field s q : one_q (rev (thickness_array s)) (rev (roughness_array s)) (amplified (rev (sld_array s))) (0 + DELTA)%C q = quot (field q s).
Proof. unfold thickness_array, one_q. rewrite rev_involutive, rev_roughness, rev_sld. destruct s as [[|f fs] sg sl]; cbn [s_films s_roughness s_sld map app amplified].
  - unfold interfaces. rewrite relative_wave_amb, relative_wave, intensity_quot. reflexivity.
  - rewrite relative_wave_amb, relative_wave, intensity_quot. fold (amplified (map f_sld fs ++ [sl])). rewrite interfaces_field. reflexivity. Qed.

Lemma engine_stack qs s : multilayer_reflectivity qs (thickness_array s) (roughness_array s) (sld_array s) 0 = Ok (map (fun q => quot (field q s)) qs).
Proof. unfold multilayer_reflectivity. destruct (Ceq_dec 0 0) as [_|]; [|contradiction]. 
  rewrite !rev_length, map_length, rev_length. unfold thickness_array, roughness_array, sld_array. cbn [List.length].
  rewrite !rev_length, !map_length, Nat.add_1_r, !Nat.eqb_refl. simpl andb. cbv iota. f_equal. apply map_ext. intros q. apply one_q_field. Qed.

(** Every consistent triple of arrays is the description of a stack. *)
Lemma arrays_stack th ro (sl : list C) : (List.length th + 1 = List.length ro)%nat -> List.length ro = List.length sl ->
  exists s, thickness_array s = th /\ roughness_array s = ro /\ sld_array s = sl.
Proof. intros H1 H2. destruct ro as [|r ro]; [simpl in H1; lia|]. destruct sl as [|c sl]; [discriminate|].
  simpl in H1, H2. set (ts := rev th). set (rs := rev ro). set (ss := rev sl).
  assert (E : exists fs, map f_thickness fs = ts /\ map f_roughness fs = rs /\ map f_sld fs = ss).
  { assert (L1 : List.length ts = List.length rs) by (unfold ts, rs; rewrite !rev_length; lia).
    assert (L2 : List.length rs = List.length ss) by (unfold ss, rs; rewrite !rev_length; lia).
    clearbody ts rs ss. clear - L1 L2. revert rs ss L1 L2. induction ts as [|t ts IH]; intros [|a rs] [|b ss] L1 L2; try discriminate.
    - exists []. auto.
    - injection L1 as L1. injection L2 as L2. destruct (IH rs ss L1 L2) as (fs & <- & <- & <-). exists (mkFilm t a b :: fs). auto. }
  destruct E as (fs & E1 & E2 & E3). exists (mkStack fs r c). unfold thickness_array, roughness_array, sld_array; simpl.
  rewrite E1, E2, E3. unfold ts, rs, ss. rewrite !rev_involutive. auto. Qed.

(** ** C20 *)
Lemma quot_range (v : vec) x : quot v = Some x -> 0 <= x <= 1.
Proof. unfold quot. destruct (Ceq_dec (snd v) 0); [destruct (Ceq_dec (fst v) 0); [discriminate|]|]; intros H; injection H as <-; [lra|].
  pose proof (pow2_ge_0 (Cmod (fst v / snd v)%C)). unfold Rmin. destruct (Rle_dec _ _); lra. Qed.

Lemma engine_errors qs th ro sl amb : 
  (multilayer_reflectivity qs th ro sl amb = Raise NotImplementedError <-> amb <> 0) /\
  (amb = 0 -> (multilayer_reflectivity qs th ro sl amb = Raise ValueError <->
     ~ (List.length th + 1 = List.length ro /\ List.length ro = List.length sl)%nat)) /\
  (forall e, multilayer_reflectivity qs th ro sl amb = Raise e -> e = NotImplementedError \/ e = ValueError).
Proof. unfold multilayer_reflectivity. rewrite !rev_length, map_length, rev_length. destruct (Ceq_dec amb 0) as [E|E].
  - destruct (Nat.eqb_spec (List.length th + 1)%nat (List.length ro)), (Nat.eqb_spec (List.length ro) (List.length sl)); simpl andb; cbn iota;
    (split; [split; [discriminate|intros; contradiction]|]; split; [intros _; split; [try discriminate; intros _; tauto|intros; try reflexivity; tauto]|];
     intros ? H; try discriminate; injection H as <-; auto).
  - split; [split; auto|]. split; [intros; contradiction|]. intros e H. injection H as <-. auto. Qed.

Lemma engine_values qs th ro sl amb out : multilayer_reflectivity qs th ro sl amb = Ok out ->
  List.length out = List.length qs /\ Forall (fun o => forall x, o = Some x -> 0 <= x <= 1) out.
Proof. intros H. assert (E : amb = 0 /\ (List.length th + 1 = List.length ro)%nat /\ List.length ro = List.length sl).
  { unfold multilayer_reflectivity in H. rewrite !rev_length, map_length, rev_length in H. destruct (Ceq_dec amb 0); [|discriminate].
    destruct (Nat.eqb_spec (List.length th + 1)%nat (List.length ro)), (Nat.eqb_spec (List.length ro) (List.length sl)); try discriminate. auto. }
  destruct E as (-> & L1 & L2). destruct (arrays_stack _ _ _ L1 L2) as (s & <- & <- & <-). rewrite engine_stack in H. injection H as <-.
  split; [apply map_length|]. apply Forall_map, Forall_forall. intros q _ x. apply quot_range. Qed.

(** ** The interface matrix *)
Definition p_elem (k k' : C) (sigma : R) : C := ((k + k') / (2 * k) * Cexp (- ((k - k') * (k - k')) * RtoC (/ 2) * (RtoC sigma * RtoC sigma)))%C.

Lemma p_elem_neq_0 k k' sigma : 0 < Re k -> 0 < Re k' -> p_elem k k' sigma <> 0.
Proof. intros H H'. unfold p_elem. apply Cmult_neq_0; [|apply Cexp_neq_0]. unfold Cdiv. apply Cmult_neq_0; [apply sum_neq_0; assumption|].
  intros E. assert (K : ((2 * k) * / (2 * k))%C = 1) by (apply Cinv_r, Cmult_neq_0; [apply two_neq_0|apply C_neq_Re; assumption]).
  rewrite E, Cmult_0_r in K. apply RtoC_inj in K. lra. Qed.

Lemma reflection_matrix_eq k k' sigma : 0 < Re k -> 0 < Re k' ->
  reflection_matrix k k' sigma = mkMat (p_elem k k' sigma) (nevot_croce k k' sigma * p_elem k k' sigma)%C
    (nevot_croce k k' sigma * p_elem k k' sigma)%C (p_elem k k' sigma).
Proof. intros H H'. assert (K : (2 * k)%C <> 0) by (apply Cmult_neq_0; [apply two_neq_0|apply C_neq_Re; assumption]).
  pose proof (sum_neq_0 k k' H H') as Ks.
  assert (E : (safe_div (k - k') (2 * k) * Cexp (- ((k + k') * (k + k')) * RtoC (/ 2) * (RtoC sigma * RtoC sigma)) =
     nevot_croce k k' sigma * p_elem k k' sigma)%C).
  { rewrite safe_div_eq by assumption. unfold nevot_croce, p_elem.
    replace (- ((k + k') * (k + k')) * RtoC (/ 2) * (RtoC sigma * RtoC sigma))%C with
      (- (2) * k * k' * RtoC (sigma * sigma) + - ((k - k') * (k - k')) * RtoC (/ 2) * (RtoC sigma * RtoC sigma))%C.
    - rewrite Cexp_plus. field. auto using two_neq_0, C_neq_Re.
    - rewrite RtoC_mult, RtoC_inv by lra. pose proof two_neq_0 as T. rewrite two_eq in *. field. assumption. }
  unfold reflection_matrix. rewrite E. unfold p_elem. rewrite safe_div_eq by assumption. reflexivity. Qed.

(** ** C24: Parratt *)
Lemma field_parratt q sigma sld : 0 <= Im sld -> forall fs k, Forall (fun f => 0 <= Im (f_sld f)) fs -> 0 < Re k ->
  forall x, parratt q k fs sigma sld = Some x ->
  snd (field_above q k fs sigma sld) <> 0 /\ (fst (field_above q k fs sigma sld) = x * snd (field_above q k fs sigma sld))%C.
Proof. intros Hs. induction fs as [|f fs IH]; intros k F Hk x H; cbn [parratt field_above] in *.
  - injection H as <-. pose proof (proj1 (wave_quadrant q sld Hs)) as Hw. rewrite reflection_matrix_eq by assumption.
    unfold mvec, e2; cbn [fst snd m00 m01 m10 m11]. pose proof (p_elem_neq_0 k (wave q sld) sigma Hk Hw) as P. split.
    + replace (_ + _)%C with (p_elem k (wave q sld) sigma) by ring. assumption.
    + ring.
  - inversion F as [|? ? Hf F']; subst. set (k1 := wave q (f_sld f)) in *. pose proof (proj1 (wave_quadrant q (f_sld f) Hf)) as Hk1. fold k1 in Hk1.
    destruct (parratt q k1 fs sigma sld) as [y|] eqn:E; [|discriminate]. destruct (IH k1 F' Hk1 y E) as [N Q].
    set (v := field_above q k1 fs sigma sld) in *. set (r := nevot_croce k k1 (f_roughness f)) in *.
    set (y' := (y * Cexp (- (2) * Ci * k1 * RtoC (f_thickness f)))%C) in *.
    destruct (Ceq_dec (1 + r * y')%C 0) as [|D]; [discriminate|]. injection H as <-.
    rewrite reflection_matrix_eq by assumption. fold r. pose proof (p_elem_neq_0 k k1 (f_roughness f) Hk Hk1) as P. set (p := p_elem k k1 (f_roughness f)) in *.
    set (w := mvec (translation_matrix k1 (f_thickness f)) v).
    assert (W2 : snd w <> 0). { unfold w, mvec; cbn [fst snd m00 m01 m10 m11 translation_matrix]. rewrite Cmult_0_l, Cplus_0_l. apply Cmult_neq_0; [apply Cexp_neq_0|assumption]. }
    assert (W1 : (fst w = y' * snd w)%C).
    { unfold w, mvec, translation_matrix; cbn [fst snd m00 m01 m10 m11]. rewrite Q. unfold y'.
      replace (- Ci * k1 * RtoC (f_thickness f))%C with (- (2) * Ci * k1 * RtoC (f_thickness f) + Ci * k1 * RtoC (f_thickness f))%C by (rewrite two_eq; ring).
      rewrite Cexp_plus. ring. }
    unfold mvec; cbn [fst snd m00 m01 m10 m11]. rewrite W1. split.
    + replace (r * p * (y' * snd w) + p * snd w)%C with (p * (snd w * (1 + r * y')))%C by ring. auto using Cmult_neq_0.
    + field. assumption. Qed.

Lemma quot_ratio (v : vec) (x : C) : snd v <> 0 -> (fst v = x * snd v)%C -> quot v = Some (clipped x).
Proof. intros N E. unfold quot, clipped. destruct (Ceq_dec (snd v) 0); [contradiction|]. rewrite E.
  replace (x * snd v / snd v)%C with x by (field; assumption). f_equal. apply Rmin_comm. Qed.

Lemma engine_parratt qs s rs : passive s -> Forall2 (fun q r => parratt_amplitude q s = Some r) qs rs ->
  multilayer_reflectivity qs (thickness_array s) (roughness_array s) (sld_array s) 0 = Ok (map (fun r => Some (clipped r)) rs).
Proof. intros [P1 P2] F. rewrite engine_stack. f_equal. induction F as [|q r qs rs H F IH]; [reflexivity|]. simpl. rewrite IH. f_equal.
  destruct (field_parratt q (s_roughness s) (s_sld s) P2 (s_films s) (wave q 0) P1 (proj1 (wave_quadrant q 0 ltac:(unfold Im; simpl; lra))) r H) as [N E].
  apply quot_ratio; assumption. Qed.

(** ** C23: bare substrate *)
Lemma engine_bare qs sigma sld : 0 <= Im sld ->
  multilayer_reflectivity qs [] [sigma] [sld] 0 = Ok (map (fun q => Some (clipped (nevot_croce (wave q 0) (wave q sld) sigma))) qs).
Proof. intros H. pose proof (engine_parratt qs (mkStack [] sigma sld) (map (fun q => nevot_croce (wave q 0) (wave q sld) sigma) qs)) as E.
  rewrite map_map in E. apply E.
  - split; [constructor|assumption].
  - clear E. induction qs as [|q qs IH]; simpl; constructor; [reflexivity|exact IH]. Qed.

(** ** C22: splitting a layer *)
Lemma reflection_same (k : C) sigma : k <> 0 -> reflection_matrix k k sigma = mkMat 1 0 0 1.
Proof. intros H. assert (K : (2 * k)%C <> 0) by (apply Cmult_neq_0; [apply two_neq_0|assumption]).
  unfold reflection_matrix. rewrite !safe_div_eq by assumption.
  replace (- ((k - k) * (k - k)) * RtoC (/ 2) * (RtoC sigma * RtoC sigma))%C with (RtoC 0) by ring. rewrite Cexp_0.
  replace ((k - k) / (2 * k))%C with (RtoC 0) by (field; split; [assumption|apply two_neq_0]).
  replace ((k + k) / (2 * k))%C with (RtoC 1) by (pose proof two_neq_0 as T; rewrite two_eq in *; field; auto). rewrite Cmult_0_l, Cmult_1_l. reflexivity. Qed.

Lemma mvec_id v : mvec (mkMat 1 0 0 1) v = v.
Proof. destruct v as [a b]. unfold mvec; cbn [fst snd m00 m01 m10 m11]. f_equal; ring. Qed.

Lemma translation_plus k d1 d2 v : mvec (translation_matrix k d1) (mvec (translation_matrix k d2) v) = mvec (translation_matrix k (d1 + d2)) v.
Proof. unfold mvec, translation_matrix; cbn [fst snd m00 m01 m10 m11]. rewrite !RtoC_plus.
  replace (- Ci * k * (RtoC d1 + RtoC d2))%C with (- Ci * k * RtoC d1 + - Ci * k * RtoC d2)%C by ring.
  replace (Ci * k * (RtoC d1 + RtoC d2))%C with (Ci * k * RtoC d1 + Ci * k * RtoC d2)%C by ring. rewrite !Cexp_plus. f_equal; ring. Qed.

Lemma field_split q above d1 d2 sg tau rho below sigma sld : wave q rho <> 0 -> forall k,
  field_above q k (above ++ mkFilm d1 sg rho :: mkFilm d2 tau rho :: below) sigma sld =
  field_above q k (above ++ mkFilm (d1 + d2) sg rho :: below) sigma sld.
Proof. intros H. induction above as [|f above IH]; intros k; cbn [app field_above f_sld f_roughness f_thickness].
  - rewrite reflection_same, mvec_id, translation_plus by assumption. reflexivity.
  - rewrite IH. reflexivity. Qed.

Lemma engine_split qs above d1 d2 sg tau rho below sigma sld : Forall (fun q => wave q rho <> 0) qs ->
  let two := mkStack (above ++ mkFilm d1 sg rho :: mkFilm d2 tau rho :: below) sigma sld in
  let one := mkStack (above ++ mkFilm (d1 + d2) sg rho :: below) sigma sld in
  multilayer_reflectivity qs (thickness_array two) (roughness_array two) (sld_array two) 0 =
  multilayer_reflectivity qs (thickness_array one) (roughness_array one) (sld_array one) 0.
Proof. intros F two one. rewrite !engine_stack. f_equal. apply map_ext_Forall. eapply Forall_impl; [|exact F]. intros q H. simpl.
  unfold field. simpl. rewrite field_split by assumption. reflexivity. Qed.

(** The same on the substrate: a bottom layer of the substrate's material *)
Lemma field_on_substrate q above d sg tau rho : wave q rho <> 0 -> forall k, exists c : C, c <> 0 /\
  field_above q k (above ++ [mkFilm d sg rho]) tau rho =
  ((c * fst (field_above q k above sg rho))%C, (c * snd (field_above q k above sg rho))%C).
Proof. intros H k. exists (Cexp (Ci * wave q rho * RtoC d)%C). split; [apply Cexp_neq_0|]. revert k. induction above as [|f above IH]; intros k; cbn [app field_above f_sld f_roughness f_thickness].
  - rewrite reflection_same, mvec_id by assumption. unfold mvec, translation_matrix, e2; cbn [fst snd m00 m01 m10 m11]. f_equal; ring.
  - rewrite IH. unfold mvec; cbn [fst snd m00 m01 m10 m11]. f_equal; ring. Qed.

Lemma quot_scale (c : C) (v : vec) : c <> 0 -> quot ((c * fst v)%C, (c * snd v)%C) = quot v.
Proof. intros H. unfold quot; cbn [fst snd]. assert (Z : forall z, (c * z)%C = 0 <-> z = 0).
  { intros z; split; intros E; [|rewrite E; ring]. destruct (Ceq_dec z 0); [assumption|]. exfalso. revert E. apply Cmult_neq_0; assumption. }
  pose proof (Z (fst v)) as Z1. pose proof (Z (snd v)) as Z2.
  destruct (Ceq_dec (c * snd v)%C 0), (Ceq_dec (snd v) 0); try tauto.
  - destruct (Ceq_dec (c * fst v)%C 0), (Ceq_dec (fst v) 0); try tauto; reflexivity.
  - replace (c * fst v / (c * snd v))%C with (fst v / snd v)%C by (field; auto). reflexivity. Qed.

Lemma engine_substrate_layer qs above d sg tau rho : Forall (fun q => wave q rho <> 0) qs ->
  let two := mkStack (above ++ [mkFilm d sg rho]) tau rho in
  let one := mkStack above sg rho in
  multilayer_reflectivity qs (thickness_array two) (roughness_array two) (sld_array two) 0 =
  multilayer_reflectivity qs (thickness_array one) (roughness_array one) (sld_array one) 0.
Proof. intros F two one. rewrite !engine_stack. f_equal. apply map_ext_Forall. eapply Forall_impl; [|exact F]. intros q H. simpl.
  unfold field. simpl. destruct (field_on_substrate q above d sg tau rho H (wave q 0)) as (c & Hc & ->). apply quot_scale. assumption. Qed.

(** ** C21: no contrast *)
Lemma field_no_contrast q sigma sld : wave q sld <> 0 -> forall fs, Forall (fun f => f_sld f = sld) fs ->
  fst (field_above q (wave q sld) fs sigma sld) = 0 /\ snd (field_above q (wave q sld) fs sigma sld) <> 0.
Proof. intros H. induction fs as [|f fs IH]; intros F; cbn [field_above].
  - rewrite reflection_same, mvec_id by assumption. simpl. split; [reflexivity|]. intros E; apply RtoC_inj in E; lra.
  - inversion F as [|? ? E F']; subst. rewrite reflection_same, mvec_id by assumption. destruct (IH F') as [A B].
    unfold mvec, translation_matrix; cbn [fst snd m00 m01 m10 m11]. rewrite A. split; [ring|].
    rewrite Cmult_0_l, Cplus_0_l. apply Cmult_neq_0; [apply Cexp_neq_0|assumption]. Qed.

Lemma engine_no_contrast qs th ro (sl : list C) : (List.length th + 1 = List.length ro)%nat -> List.length ro = List.length sl -> Forall (fun s : C => s = 0) sl ->
  multilayer_reflectivity qs th ro sl 0 = Ok (map (fun _ => Some 0) qs).
Proof. intros L1 L2 F. destruct (arrays_stack _ _ _ L1 L2) as (s & <- & <- & <-). rewrite engine_stack. f_equal. apply map_ext. intros q.
  unfold sld_array in F. inversion F as [|? ? E F']; subst. unfold field. rewrite E.
  destruct (field_no_contrast q (s_roughness s) 0 ltac:(apply wave_neq_0; unfold Im; simpl; lra) (s_films s)) as [A B].
  { apply Forall_forall. intros f Hf. rewrite Forall_forall in F'. apply F'. rewrite <- in_rev. apply in_map. assumption. }
  rewrite (quot_ratio _ 0 B) by (rewrite A; ring). f_equal. unfold clipped. rewrite Cmod_0. simpl. unfold Rmin. destruct (Rle_dec _ _); lra. Qed.

(** ** When the result is a number *)
Lemma field_regular q sigma sld : 0 <= Im sld -> forall fs k, Forall (fun f => 0 <= Im (f_sld f)) fs -> 0 < Re k ->
  regular_below q k fs sigma sld -> field_above q k fs sigma sld <> (RtoC 0, RtoC 0).
Proof. intros Hs. induction fs as [|f fs IH]; intros k F Hk H; cbn [field_above regular_below] in *.
  - pose proof (proj1 (wave_quadrant q sld Hs)) as W. rewrite reflection_matrix_eq by assumption. pose proof (p_elem_neq_0 k (wave q sld) sigma Hk W) as P.
    unfold mvec, e2; cbn [fst snd m00 m01 m10 m11]. intros E. assert (E2 := f_equal snd E). cbn [snd] in E2. rewrite Cmult_0_r, Cplus_0_l, Cmult_1_r in E2. contradiction.
  - inversion F as [|? ? Hf F']; subst. pose proof (proj1 (wave_quadrant q (f_sld f) Hf)) as W. destruct H as [Hr H]. specialize (IH _ F' W H).
    set (k1 := wave q (f_sld f)) in *. destruct (field_above q k1 fs sigma sld) as [a b]. rewrite reflection_matrix_eq by assumption.
    pose proof (p_elem_neq_0 k k1 (f_roughness f) Hk W) as P. set (p := p_elem k k1 (f_roughness f)) in *. set (r := nevot_croce k k1 (f_roughness f)) in *.
    unfold mvec, translation_matrix; cbn [fst snd m00 m01 m10 m11]. rewrite !Cmult_0_l, Cplus_0_l, Cplus_0_r.
    pose proof (Cexp_neq_0 (- Ci * k1 * RtoC (f_thickness f))%C) as N1. pose proof (Cexp_neq_0 (Ci * k1 * RtoC (f_thickness f))%C) as N2.
    set (u := Cexp (- Ci * k1 * RtoC (f_thickness f))%C) in *. set (w := Cexp (Ci * k1 * RtoC (f_thickness f))%C) in *.
    intros E. assert (E1 := f_equal fst E). assert (E2 := f_equal snd E). cbn [fst snd] in E1, E2. apply IH.
    assert (Z : forall c z : C, c <> 0 -> (c * z)%C = 0 -> z = 0).
    { intros c z Hc E0. destruct (Ceq_dec z 0) as [e|n]; [exact e|]. exfalso. exact (Cmult_neq_0 c z Hc n E0). }
    assert (R1 : (1 - r * r)%C <> 0) by (apply Cminus_eq_contra; congruence).
    assert (A : ((p * (1 - r * r)) * (u * a))%C = 0).
    { replace ((p * (1 - r * r)) * (u * a))%C with ((p * (u * a) + r * p * (w * b)) - r * (r * p * (u * a) + p * (w * b)))%C by ring. rewrite E1, E2. ring. }
    assert (B : ((p * (1 - r * r)) * (w * b))%C = 0).
    { replace ((p * (1 - r * r)) * (w * b))%C with ((r * p * (u * a) + p * (w * b)) - r * (p * (u * a) + r * p * (w * b)))%C by ring. rewrite E1, E2. ring. }
    assert (PR : (p * (1 - r * r))%C <> 0) by (apply Cmult_neq_0; assumption).
    apply Z in A; [|exact PR]. apply Z in B; [|exact PR]. apply Z in A; [|exact N1]. apply Z in B; [|exact N2]. rewrite A, B. reflexivity. Qed.

Lemma engine_regular qs s : passive s -> Forall (fun q => regular q s) qs ->
  exists xs, multilayer_reflectivity qs (thickness_array s) (roughness_array s) (sld_array s) 0 = Ok (map Some xs) /\ Forall (fun x => 0 <= x <= 1) xs.
Proof. intros [P1 P2] F. rewrite engine_stack. induction F as [|q qs H F (xs & E & G)]; [exists []; auto|].
  assert (N : field q s <> (RtoC 0, RtoC 0)). { apply field_regular; try assumption. apply wave_quadrant. unfold Im; simpl; lra. }
  destruct (quot (field q s)) as [x|] eqn:Q.
  - exists (x :: xs). injection E as E. simpl. rewrite Q, E. split; [reflexivity|]. constructor; [eapply quot_range; eassumption|assumption].
  - exfalso. apply N. unfold quot in Q. destruct (field q s) as [a b]; simpl in Q. destruct (Ceq_dec b 0); [|discriminate].
    destruct (Ceq_dec a 0); [|discriminate]. congruence. Qed.
