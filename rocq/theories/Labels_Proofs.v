From Coq Require Import Reals Lra ZifyNat ZifyBool.
From Coquelicot Require Import Complex.
From Verif Require Import Py Str Sample_Model Sample_Spec Sample_Proofs Rng Sampling_Model Sampling_Spec Sampling_Proofs.
Local Open Scope string_scope.
Local Open Scope R_scope.

Lemma get_upd d k v k' : get (upd d k v) k' = if String.eqb k k' then Some v else get d k'.
Proof. induction d as [|[a b] d IH]; simpl; [reflexivity|]. destruct (String.eqb_spec a k) as [->|N]; simpl.
  - destruct (String.eqb_spec k k'); reflexivity.
  - rewrite IH. destruct (String.eqb_spec a k') as [->|]; [|reflexivity]. destruct (String.eqb_spec k k'); [congruence|reflexivity]. Qed.
Lemma get_upd_same d k v : get (upd d k v) k = Some v.
Proof. rewrite get_upd, String.eqb_refl. reflexivity. Qed.
Lemma get_upd_other d k v k' : k <> k' -> get (upd d k v) k' = get d k'.
Proof. intros H. rewrite get_upd. destruct (String.eqb_spec k k'); [contradiction|reflexivity]. Qed.

Lemma key_neq (a b x y : string) : has_char "_" x = false -> has_char "_" y = false -> (a <> b \/ x <> y) -> a ++ String "_" x <> b ++ String "_" y.
Proof. intros Hx Hy H E. destruct (suffix_clash a b x y x y E Hx Hy). tauto. Qed.

Definition layer_key (l : layer) (k : string) : Prop :=
  k = l_name l ++ "_sld" \/ k = l_name l ++ "_thickness" \/ k = l_name l ++ "_roughness".

Section L.
  Context {S : Type} (g : rng S) (G : rng_ok g).

  (** What a generated column must look like. *)
  Definition col_ok (n : Z) (dp : dparams) (p : param) (c : list C) : Prop :=
    List.length c = Z.to_nat n /\
    (forall v nm, p = Const v nm -> c = repeat (num_re v, num_im v) (Z.to_nat n)) /\
    (tame g dp -> num_im (p_min p) <= num_im (p_max p) -> Forall (fits p) c).

  Definition layer_done (n : Z) (dp : dparams) (l : layer) (d : cols) : Prop :=
    (exists p c, l_sld l = Some p /\ get d (l_name l ++ "_sld") = Some c /\ col_ok n dp p c) /\
    (forall pt, l_thickness l = Some pt -> exists pr ts rs, l_roughness l = Some pr /\
       get d (l_name l ++ "_thickness") = Some (map RtoC ts) /\ get d (l_name l ++ "_roughness") = Some (map RtoC rs) /\
       col_ok n dp pt (map RtoC ts) /\ col_ok n dp pr (map RtoC rs) /\ (tame g dp -> Forall2 (coupled pr) ts rs)) /\
    (l_thickness l = None -> forall pr, l_roughness l = Some pr -> exists c,
       get d (l_name l ++ "_roughness") = Some c /\ col_ok n dp pr c).

  Definition valid_opt (o : option param) : Prop := forall p, o = Some p -> valid_param p.
  Definition valid_layer (l : layer) : Prop := valid_opt (l_sld l) /\ valid_opt (l_thickness l) /\ valid_opt (l_roughness l).

  Lemma col_ok_param s p n dp s' c : valid_param p -> sample_param g s p n dp = Ok (s', c) -> col_ok n dp p c.
  Proof. intros V H. split; [|split].
    - eapply sample_param_length; eauto.
    - intros v nm ->. eapply sample_param_const; eauto.
    - intros T I. eapply sample_param_fits; eauto. Qed.

  Lemma col_ok_real s p n dp s' xs : valid_param p -> sample_real g s p n dp = Ok (s', xs) -> col_ok n dp p (map RtoC xs).
  Proof. intros V H. split; [|split].
    - rewrite map_length. eapply sample_real_length; eauto.
    - intros v nm ->. eapply sample_real_const; eauto.
    - intros T _. apply Forall_map. eapply sample_real_fits; eauto. Qed.

  Lemma real_roughness s p ts dp s' rs : roughness_from_thickness g s p ts dp = Ok (s', rs) ->
    num_im (p_min p) = 0 /\ num_im (p_max p) = 0.
  Proof. unfold roughness_from_thickness. destruct (sample_real g s p _ dp) as [[? ?]|]; [|discriminate]. cbn [bind].
    destruct (p_min p), (p_max p); try discriminate. auto. Qed.

  Lemma col_ok_roughness s p n dp ts s' rs : valid_param p -> List.length ts = Z.to_nat n ->
    roughness_from_thickness g s p ts dp = Ok (s', rs) -> col_ok n dp p (map RtoC rs).
  Proof. intros V L H. split; [|split].
    - rewrite map_length. rewrite <- L. eapply roughness_length; eauto.
    - intros v nm ->. rewrite <- L. eapply roughness_const; eauto.
    - intros T _. pose proof (real_roughness _ _ _ _ _ _ H) as [I1 I2].
      pose proof (roughness_coupled g G _ _ _ _ _ _ (or_introl T) V H) as F.
      apply Forall_map. clear - F I1 I2 V. induction F as [|t r ts rs [Hc _] F IH]; constructor; [|exact IH].
      destruct p as [lo hi nm|v nm]; simpl in *.
      + split; [exact Hc|]. rewrite I1, I2. unfold between. rewrite Rmin_left, Rmax_right; lra.
      + unfold between in Hc. rewrite I1. unfold RtoC. f_equal. lra. Qed.

  Ltac keys := unfold layer_key in *; repeat first [rewrite get_upd_same | rewrite get_upd_other by
    (first [apply key_neq; [reflexivity|reflexivity|right; discriminate] | intuition congruence])].

  Lemma gen_layer_done s n dp l d s' d' : valid_layer l -> gen_layer g s n dp l d = Ok (s', d') ->
    layer_done n dp l d' /\ (forall k, ~ layer_key l k -> get d' k = get d k).
  Proof. intros (V1 & V2 & V3) H. unfold gen_layer in H. destruct (l_sld l) as [p|] eqn:Es; [|discriminate].
    destruct (sample_param g s p n dp) as [[s1 c]|] eqn:E1; [|discriminate]. cbn [bind] in H.
    apply col_ok_param in E1; [|auto].
    destruct (l_thickness l) as [pt|] eqn:Et.
    - destruct (sample_real g s1 pt n dp) as [[s2 ts]|] eqn:E2; [|discriminate]. cbn [bind] in H.
      destruct (l_roughness l) as [pr|] eqn:Er; [|discriminate].
      destruct (roughness_from_thickness g s2 pr ts dp) as [[s3 rs]|] eqn:E3; [|discriminate]. cbn [bind] in H.
      injection H as <- <-. pose proof (sample_real_length g G _ _ _ _ _ _ E2) as [L _]. apply col_ok_real in E2; [|auto].
      split; [split; [|split]|].
      + exists p, c. split; [assumption|]. split; [keys; reflexivity|assumption].
      + intros pt' H; rewrite Et in H; injection H as <-. exists pr, ts, rs. split; [assumption|].
        split; [keys; reflexivity|]. split; [keys; reflexivity|]. split; [assumption|].
        split; [eapply col_ok_roughness; eauto|]. intros T. eapply roughness_coupled; eauto.
      + intros H; rewrite Et in H; discriminate.
      + intros k Hk. keys. reflexivity.
    - destruct (l_roughness l) as [pr|] eqn:Er.
      + destruct (sample_real g s1 pr n dp) as [[s2 rs]|] eqn:E2; [|discriminate]. cbn [bind] in H. injection H as <- <-.
        apply col_ok_real in E2; [|auto]. split; [split; [|split]|].
        * exists p, c. split; [assumption|]. split; [keys; reflexivity|assumption].
        * intros pt' H; rewrite Et in H; discriminate.
        * intros _ pr' H; rewrite Er in H; injection H as <-. eexists. split; [keys; reflexivity|assumption].
        * intros k Hk. keys. reflexivity.
      + injection H as <- <-. split; [split; [|split]|].
        * exists p, c. split; [assumption|]. split; [keys; reflexivity|assumption].
        * intros pt' H; rewrite Et in H; discriminate.
        * intros _ pr' H; rewrite Er in H; discriminate.
        * intros k Hk. keys. reflexivity. Qed.

  Lemma layer_done_frame n dp l d d' : (forall k, layer_key l k -> get d' k = get d k) -> layer_done n dp l d -> layer_done n dp l d'.
  Proof. intros F (A & B & C). unfold layer_key in F. split; [|split].
    - destruct A as (p & c & ? & ? & ?). exists p, c. rewrite F by auto. auto.
    - intros pt H. destruct (B pt H) as (pr & ts & rs & ? & ? & ? & ?). exists pr, ts, rs. rewrite !F by auto. auto.
    - intros H pr Hr. destruct (C H pr Hr) as (c & ? & ?). exists c. rewrite F by auto. auto. Qed.

  Lemma layer_keys_disjoint l m k : l_name l <> l_name m -> layer_key l k -> layer_key m k -> False.
  Proof. unfold layer_key. intros N [-> | [-> | -> ]] [E|[E|E]]; revert E; apply key_neq; auto. Qed.

  Lemma gen_layers_done n dp ls : forall s d s' d', Forall valid_layer ls -> NoDup (map l_name ls) ->
    gen_layers g s n dp ls d = Ok (s', d') ->
    Forall (fun l => layer_done n dp l d') ls /\ (forall k, Forall (fun l => ~ layer_key l k) ls -> get d' k = get d k).
  Proof. induction ls as [|l ls IH]; intros s d s' d' V N H; cbn [gen_layers] in H.
    - injection H as <- <-. split; [constructor|reflexivity].
    - destruct (gen_layer g s n dp l d) as [[s1 d1]|] eqn:E; [|discriminate]. cbn [bind] in H.
      inversion V; subst. simpl in N. inversion N; subst.
      apply gen_layer_done in E; [|assumption]. destruct E as [D F].
      destruct (IH s1 d1 s' d') as [D2 F2]; auto. split.
      + constructor; [|assumption]. eapply layer_done_frame; [|exact D]. intros k Hk. apply F2.
        apply Forall_forall. intros m Hm Hk2. apply (layer_keys_disjoint l m k); auto. intros Heq.
        apply H4. rewrite Heq. apply in_map. assumption.
      + intros k Hk. inversion Hk; subst. rewrite F2 by assumption. apply F. assumption. Qed.

  Lemma select_get d names t : select d names = Ok t ->
    map fst t = names /\ Forall (fun kc => get d (fst kc) = Some (snd kc)) t.
  Proof. unfold select. intros H. apply mapM_Ok_iff in H. induction H as [|k [k' c] ks t E H [IH1 IH2]]; [split; constructor|].
    destruct (get d k) as [c'|] eqn:Eg; [|discriminate]. injection E as <- <-. simpl. split; [congruence|]. constructor; assumption. Qed.

  Lemma ordinary_valid smp : ordinary_sample smp -> Forall valid_layer (all_layers smp).
  Proof. intros (A & B & C). assert (N : forall n o, named n o -> valid_opt o).
    { intros n o (p & -> & V & _) q Hq. injection Hq as <-. assumption. }
    assert (N0 : valid_opt None) by (intros p H; discriminate).
    unfold all_layers. constructor.
    - destruct A as (A1 & A2 & A3). unfold valid_layer. rewrite A1. split; [|split]; first [exact N0 | eapply N; eassumption].
    - apply Forall_app; split.
      + eapply Forall_impl; [|exact B]. intros l (B1 & B2 & B3). split; [|split]; eapply N; eassumption.
      + constructor; [|constructor]. destruct C as (C1 & C2 & C3). unfold valid_layer. rewrite C1, C2. split; [|split]; first [exact N0 | eapply N; eassumption]. Qed.

  Lemma generate_Ok s smp n dp s' t : ordinary_sample smp -> NoDup (map l_name (all_layers smp)) ->
    generate_random_labels g s smp n dp = Ok (s', t) ->
    (0 < n)%Z /\ label_names smp = Ok (map fst t) /\
    exists d, Forall (fun l => layer_done n dp l d) (all_layers smp) /\ Forall (fun kc => get d (fst kc) = Some (snd kc)) t.
  Proof. intros O N H. unfold generate_random_labels in H. destruct (0 <? n)%Z eqn:E; [|discriminate].
    destruct (label_names smp) as [names|] eqn:El; [|discriminate]. cbn [bind] in H.
    destruct (gen_layers g s n dp (sample_structure smp) []) as [[s1 d]|] eqn:Eg; [|discriminate]. cbn [bind] in H.
    destruct (select d names) as [t'|] eqn:Et; [|discriminate]. cbn [bind] in H. injection H as <- <-.
    apply select_get in Et. destruct Et as [E1 E2]. split; [lia|]. split; [congruence|]. exists d. split; [|assumption].
    apply gen_layers_done in Eg; [apply Eg|apply ordinary_valid; assumption|assumption]. Qed.

  Lemma In_get (t : cols) d k c : Forall (fun kc => get d (fst kc) = Some (snd kc)) t -> In (k, c) t -> get d k = Some c.
  Proof. intros F H. rewrite Forall_forall in F. exact (F _ H). Qed.

  (** Every column is the column of one layer and one quantity. *)
  Lemma generated_columns s smp n dp s' t : ordinary_sample smp -> NoDup (map l_name (all_layers smp)) ->
    generate_random_labels g s smp n dp = Ok (s', t) -> forall l c, In l (all_layers smp) ->
    (forall p, l_sld l = Some p -> In (l_name l ++ "_sld", c) t -> col_ok n dp p c) /\
    (forall p, l_thickness l = Some p -> In (l_name l ++ "_thickness", c) t -> col_ok n dp p c) /\
    (forall p, l_roughness l = Some p -> In (l_name l ++ "_roughness", c) t -> col_ok n dp p c).
  Proof. intros O N H l c Hl. apply generate_Ok in H; auto. destruct H as (_ & _ & d & D & T).
    rewrite Forall_forall in D. destruct (D l Hl) as (A & B & Cc). split; [|split]; intros p Hp Hc; apply (In_get _ _ _ _ T) in Hc.
    - destruct A as (p' & c' & E1 & E2 & E3). congruence.
    - destruct (B p Hp) as (pr & ts & rs & _ & E1 & E2 & K1 & K2 & _). congruence.
    - destruct (l_thickness l) as [pt|] eqn:Et.
      + destruct (B pt eq_refl) as (pr & ts & rs & Er & E1 & E2 & K1 & K2 & _). congruence.
      + destruct (Cc eq_refl p Hp) as (c' & E1 & E2). congruence. Qed.

  Lemma generated_coupled s smp n dp s' t : ordinary_sample smp -> NoDup (map l_name (all_layers smp)) -> tame g dp ->
    generate_random_labels g s smp n dp = Ok (s', t) -> forall l pr ct cr, In l (st_layers smp) -> l_roughness l = Some pr ->
    In (l_name l ++ "_thickness", ct) t -> In (l_name l ++ "_roughness", cr) t ->
    Forall2 (fun t r => coupled pr (fst t) (fst r)) ct cr.
  Proof. intros O N T H l pr ct cr Hl Hr H1 H2. apply generate_Ok in H; auto. destruct H as (_ & _ & d & D & F).
    rewrite Forall_forall in D. destruct (D l) as (_ & B & _). { right. apply in_app_iff. auto. }
    apply (In_get _ _ _ _ F) in H1, H2. destruct O as (_ & O & _). rewrite Forall_forall in O.
    destruct (O l Hl) as ((pt & Et & _) & _). destruct (B pt Et) as (pr' & ts & rs & Er & E1 & E2 & _ & _ & K).
    assert (pr' = pr) by congruence. assert (ct = map RtoC ts) by congruence. assert (cr = map RtoC rs) by congruence. subst.
    specialize (K T). clear - K. induction K; simpl; constructor; auto. Qed.

  Lemma ordinary_sld smp l : ordinary_sample smp -> In l (all_layers smp) -> exists p, l_sld l = Some p.
  Proof. intros O Hl. apply ordinary_films in O. destruct O as (_ & _ & O). rewrite Forall_forall in O. destruct (O l Hl) as (p & E & _). eauto. Qed.

  Lemma generated_shape s smp n dp s' t : ordinary_sample smp -> NoDup (map l_name (all_layers smp)) ->
    generate_random_labels g s smp n dp = Ok (s', t) ->
    (0 < n)%Z /\ label_names smp = Ok (map fst t) /\ Forall (fun kc => List.length (snd kc) = Z.to_nat n) t.
  Proof. intros O N H. pose proof (generated_columns _ _ _ _ _ _ O N H) as Q. pose proof (generate_Ok _ _ _ _ _ _ O N H) as (Hn & El & _).
    split; [assumption|]. split; [assumption|]. apply Forall_forall. intros [k c] Hk. simpl.
    assert (In k (map fst t)) by (apply in_map_iff; exists (k, c); auto).
    assert (El' : map fst t = (labels_of "thickness" (st_layers smp) ++ labels_of "roughness" (st_substrate smp :: st_layers smp) ++
                      labels_of "sld" (all_layers smp))%list) by (pose proof (label_names_ordinary smp O); congruence).
    rewrite El' in H0.
    rewrite !in_app_iff, !in_labels_of in H0.
    pose proof (ordinary_films smp O) as (F1 & F2 & F3). rewrite Forall_forall in F1, F2, F3.
    assert (Inc : forall l, In l (st_substrate smp :: st_layers smp) -> In l (all_layers smp)).
    { intros l [<-|Hl]; [left; reflexivity|right; apply in_app_iff; auto]. }
    destruct H0 as [(l & Hl & ->)|[(l & Hl & ->)|(l & Hl & ->)]].
    - destruct (F1 l Hl) as (p & Ep & _). destruct (Q l c (Inc _ (or_intror Hl))) as (_ & K & _). exact (proj1 (K p Ep Hk)).
    - destruct (F2 l Hl) as (p & Ep & _). destruct (Q l c (Inc _ Hl)) as (_ & _ & K). exact (proj1 (K p Ep Hk)).
    - destruct (F3 l Hl) as (p & Ep & _). destruct (Q l c Hl) as (K & _ & _). exact (proj1 (K p Ep Hk)). Qed.

  (** ** Generation succeeds *)

  Lemma sample_distribution_total s n dp lo hi : safe_dist dp -> (0 <= n)%Z -> lo <= hi ->
    exists s' xs, sample_distribution g s n dp lo hi = Ok (s', xs).
  Proof. intros [E|(E & F & W)] Hn Hl; unfold sample_distribution; rewrite E; simpl.
    - unfold np_uniform. replace (n <? 0)%Z with false by lia. destruct (rng_uniform g s lo hi (Z.to_nat n)). eauto.
    - apply bolstered_total; assumption. Qed.

  Lemma sample_real_total s n dp nm p : safe_dist dp -> (0 <= n)%Z -> real_param nm p -> exists s' xs, sample_real g s p n dp = Ok (s', xs).
  Proof. intros D Hn P. destruct p as [[a|] [b|] [m|]|[v|] [m|]]; simpl in P; try contradiction; cbn [sample_real].
    - apply sample_distribution_total; auto. lra.
    - replace (n <? 0)%Z with false by lia. eauto. Qed.

  Lemma sample_param_total s n dp o p : safe_dist dp -> (0 <= n)%Z -> storable_sld o -> o = Some p -> exists s' xs, sample_param g s p n dp = Ok (s', xs).
  Proof. intros D Hn P ->. destruct p as [[a|] [b|] [m|]|v m]; simpl in P; try contradiction; cbn [sample_param].
    - unfold Reqb. simpl. destruct (Req_EM_T 0 0); [|contradiction]. simpl.
      destruct (sample_distribution_total s n dp a b D Hn) as (s' & xs & ->); [lra|]. cbn [bind]. eauto.
    - replace (n <? 0)%Z with false by lia. eauto. Qed.

  Lemma recouple_total lo hi dp : safe_dist dp -> forall ts s rs, exists s' out, recouple g s lo hi dp ts rs = Ok (s', out).
  Proof. intros D. induction ts as [|t ts IH]; intros s [|r rs]; cbn [recouple]; try (eauto; fail).
    destruct (Rlt_dec (max_roughness t) lo); [|destruct (Rlt_dec hi (max_roughness t))].
    - destruct (IH s rs) as (s' & out & ->). cbn [bind]. eauto.
    - destruct (IH s rs) as (s' & out & ->). cbn [bind]. eauto.
    - destruct (sample_distribution_total s 1 dp lo (max_roughness t) D) as (s1 & xs & E); [lia|lra|]. rewrite E. cbn [bind].
      apply sample_one in E; [|assumption|lra]. destruct E as (x & -> & _). destruct (IH s1 rs) as (s' & out & ->). cbn [bind]. eauto. Qed.

  Lemma roughness_total s p nm ts dp : safe_dist dp -> real_param nm p -> exists s' rs, roughness_from_thickness g s p ts dp = Ok (s', rs).
  Proof. intros D P. unfold roughness_from_thickness. destruct (sample_real_total s (Z.of_nat (List.length ts)) dp nm p D) as (s1 & xs & ->); [lia|assumption|].
    cbn [bind]. destruct p as [[a|] [b|] [m|]|[v|] [m|]]; simpl in P; try contradiction; cbn [p_min p_max]; apply recouple_total; assumption. Qed.

  Definition samplable (l : layer) : Prop :=
    storable_sld (l_sld l) /\ (forall p, l_thickness l = Some p -> real_param "thickness" p /\ l_roughness l <> None) /\
    (forall p, l_roughness l = Some p -> real_param "roughness" p).

  Lemma gen_layer_total s n dp l d : safe_dist dp -> (0 <= n)%Z -> samplable l -> exists s' d', gen_layer g s n dp l d = Ok (s', d').
  Proof. intros D Hn (A & B & Cc). unfold gen_layer. destruct (l_sld l) as [p|] eqn:Es; [|contradiction].
    destruct (sample_param_total s n dp _ p D Hn A eq_refl) as (s1 & c & ->). cbn [bind].
    destruct (l_thickness l) as [pt|].
    - destruct (B pt eq_refl) as [P Hr]. destruct (sample_real_total s1 n dp _ pt D Hn P) as (s2 & ts & ->). cbn [bind].
      destruct (l_roughness l) as [pr|]; [|contradiction]. destruct (roughness_total s2 pr _ ts dp D (Cc pr eq_refl)) as (s3 & rs & ->). cbn [bind]. eauto.
    - destruct (l_roughness l) as [pr|]; [|eauto]. destruct (sample_real_total s1 n dp _ pr D Hn (Cc pr eq_refl)) as (s2 & rs & ->). cbn [bind]. eauto. Qed.

  Lemma gen_layers_total n dp ls : safe_dist dp -> (0 <= n)%Z -> Forall samplable ls -> forall s d, exists s' d', gen_layers g s n dp ls d = Ok (s', d').
  Proof. intros D Hn F. induction F as [|l ls Hl F IH]; intros s d; cbn [gen_layers]; [eauto|].
    destruct (gen_layer_total s n dp l d D Hn Hl) as (s1 & d1 & ->). cbn [bind]. apply IH. Qed.

  Lemma storable_samplable smp : storable_sample smp -> Forall samplable (all_layers smp).
  Proof. intros ((A1 & A2 & A3 & _) & (B1 & (pr & B2 & B2' & _) & _ & B4 & _) & Cc). unfold all_layers. constructor.
    - split; [assumption|]. split; [intros p H; congruence|]. intros p H. congruence.
    - apply Forall_app; split.
      + eapply Forall_impl; [|exact Cc]. intros l ((pt & T1 & T2 & _) & (pq & R1 & R2 & _) & L). split; [assumption|]. split; intros p H.
        * split; congruence.
        * congruence.
      + constructor; [|constructor]. split; [assumption|]. split; intros p H; congruence. Qed.

  Lemma storable_ordinary smp : storable_sample smp -> ordinary_sample smp.
  Proof. intros H. destruct (dict_roundtrip_any smp smp H) as (? & ? & _ & _ & _ & O & _). assumption. Qed.

  Lemma layer_done_keys n dp smp d : ordinary_sample smp -> Forall (fun l => layer_done n dp l d) (all_layers smp) ->
    forall k, In k (labels_of "thickness" (st_layers smp) ++ labels_of "roughness" (st_substrate smp :: st_layers smp) ++ labels_of "sld" (all_layers smp))%list ->
    exists c, get d k = Some c.
  Proof. intros O D k Hk. rewrite Forall_forall in D. rewrite !in_app_iff, !in_labels_of in Hk.
    pose proof (ordinary_films smp O) as (F1 & F2 & F3). rewrite Forall_forall in F1, F2, F3.
    assert (Inc : forall l, In l (st_substrate smp :: st_layers smp) -> In l (all_layers smp)).
    { intros l [<-|Hl]; [left; reflexivity|right; apply in_app_iff; auto]. }
    destruct Hk as [(l & Hl & ->)|[(l & Hl & ->)|(l & Hl & ->)]].
    - destruct (F1 l Hl) as (p & Ep & _). destruct (D l) as (_ & B & _); [apply Inc; right; assumption|].
      destruct (B p Ep) as (pr & ts & rs & _ & E & _). eauto.
    - destruct (F2 l Hl) as (p & Ep & _). destruct (D l (Inc _ Hl)) as (_ & B & Cc). destruct (l_thickness l) as [pt|] eqn:Et.
      + destruct (B pt eq_refl) as (pr & ts & rs & _ & _ & E & _). eauto.
      + destruct (Cc eq_refl p Ep) as (c & E & _). eauto.
    - destruct (D l Hl) as ((p & c & _ & E & _) & _). eauto. Qed.

  Lemma select_total d names : (forall k, In k names -> exists c, get d k = Some c) -> exists t, select d names = Ok t.
  Proof. induction names as [|k ks IH]; intros H; unfold select; simpl; [eauto|].
    destruct (H k (or_introl eq_refl)) as (c & ->). cbn [bind]. destruct IH as (t & E); [intros; apply H; right; assumption|].
    unfold select in E. rewrite E. cbn [bind]. eauto. Qed.

  Lemma generate_total s smp n dp : storable_sample smp -> NoDup (map l_name (all_layers smp)) -> safe_dist dp -> (0 < n)%Z ->
    exists s' t, generate_random_labels g s smp n dp = Ok (s', t).
  Proof. intros H N D Hn. pose proof (storable_ordinary _ H) as O. unfold generate_random_labels. replace (0 <? n)%Z with true by lia.
    rewrite (label_names_ordinary smp O). cbn [bind].
    destruct (gen_layers_total n dp (all_layers smp) D ltac:(lia) (storable_samplable _ H) s []) as (s1 & d & E).
    assert (E' : gen_layers g s n dp (sample_structure smp) [] = Ok (s1, d)) by exact E. rewrite E'. cbn [bind].
    apply gen_layers_done in E; [|apply ordinary_valid; assumption|assumption]. destruct E as [E _].
    edestruct (select_total d) as (t & Et); [apply (layer_done_keys n dp smp d O E)|]. rewrite Et. cbn [bind]. eauto. Qed.

  Lemma generate_nonpositive s smp n dp : (n <= 0)%Z -> generate_random_labels g s smp n dp = Raise ValueError.
  Proof. intros H. unfold generate_random_labels. replace (0 <? n)%Z with false by lia. reflexivity. Qed.

  (** ** Forms used by the property theorems *)
  Lemma uniform_tame dp : dp_type dp <> "bolstered" -> tame g dp.
  Proof. intros H K. contradiction. Qed.

  Lemma range_sampling s p n dp s' cs : dp_type dp <> "bolstered" -> valid_param p -> num_im (p_min p) <= num_im (p_max p) ->
    sample_param g s p n dp = Ok (s', cs) -> fitting_column n p cs.
  Proof. intros T V I H. apply col_ok_param in H; [|assumption]. destruct H as (A & _ & B). split; [assumption|]. auto using uniform_tame. Qed.

  Lemma bolstered_count s lo hi n f w : lo <= hi -> (0 <= n)%Z -> 0 <= f <= 1 -> 0 <= w ->
    exists s' xs nb s1 s2 s3 bmin uni bmax fmin fmax, sample_distribution g s n (mkDparams "bolstered" f w) lo hi = Ok (s', xs) /\
    List.length xs = Z.to_nat n /\
    IZR nb <= IZR n * f / 2 < IZR nb + 1 /\ List.length bmin = Z.to_nat nb /\ List.length bmax = Z.to_nat nb /\
    List.length uni = Z.to_nat (n - 2 * nb) /\ Forall (between lo hi) uni /\
    rng_normal g s1 lo (w * (hi - lo)) (Z.to_nat nb) = (s2, bmin) /\ rng_normal g s2 hi (w * (hi - lo)) (Z.to_nat nb) = (s3, bmax) /\
    Forall2 (reflected lo hi) bmin fmin /\ Forall2 (reflected lo hi) bmax fmax /\
    Permutation (fmin ++ uni ++ fmax)%list xs.
  Proof. intros Hl Hn Hf Hw. destruct (bolstered_total g s lo hi n f w Hl Hn Hf Hw) as (s' & xs & H).
    pose proof (bolstered_length g G _ _ _ _ _ _ _ _ H) as L. pose proof (bolstered_Ok g G _ _ _ _ _ _ _ _ H) as
      (nb & bmin & uni & bmax & A & _ & _ & L1 & L2 & L3 & P & _ & U & _ & s1 & s2 & s3 & D1 & D2).
    exists s', xs, nb, s1, s2, s3, bmin, uni, bmax, (map (fold1 lo hi) bmin), (map (fold1 lo hi) bmax).
    repeat (split; [first [assumption | apply fold1_reflects; assumption | auto]|]). assumption. Qed.

  Lemma bolstered_in_range s lo hi n f w s' xs k : lo <= hi -> 0 <= k -> tails_within g k -> k * w <= 1 ->
    sample_distribution g s n (mkDparams "bolstered" f w) lo hi = Ok (s', xs) -> Forall (between lo hi) xs.
  Proof. intros Hl Hk T W H. exact (bolstered_between g G s lo hi n f w s' xs k Hl Hk T W H). Qed.

  Lemma generated_in_range s smp n dp s' t : ordinary_sample smp -> NoDup (map l_name (all_layers smp)) -> tame g dp ->
    generate_random_labels g s smp n dp = Ok (s', t) ->
    forall l p c, In l (all_layers smp) -> num_im (p_min p) <= num_im (p_max p) ->
    (l_sld l = Some p /\ In (l_name l ++ "_sld", c) t) \/ (l_thickness l = Some p /\ In (l_name l ++ "_thickness", c) t) \/
      (l_roughness l = Some p /\ In (l_name l ++ "_roughness", c) t) ->
    fitting_column n p c.
  Proof. intros O N T H l p c Hl I D. destruct (generated_columns _ _ _ _ _ _ O N H l c Hl) as (A & B & Cc).
    assert (K : col_ok n dp p c) by (destruct D as [[? ?]|[[? ?]|[? ?]]]; auto).
    destruct K as (K1 & _ & K2). split; auto. Qed.

  Lemma generated_constants s smp n dp s' t : ordinary_sample smp -> NoDup (map l_name (all_layers smp)) ->
    generate_random_labels g s smp n dp = Ok (s', t) ->
    forall l v nm c, In l (all_layers smp) ->
    (l_sld l = Some (Const v nm) /\ In (l_name l ++ "_sld", c) t) \/
      (l_thickness l = Some (Const v nm) /\ In (l_name l ++ "_thickness", c) t) \/
      (l_roughness l = Some (Const v nm) /\ In (l_name l ++ "_roughness", c) t) ->
    c = repeat (num_re v, num_im v) (Z.to_nat n).
  Proof. intros O N H l v nm c Hl D. destruct (generated_columns _ _ _ _ _ _ O N H l c Hl) as (A & B & Cc).
    assert (K : col_ok n dp (Const v nm) c) by (destruct D as [[? ?]|[[? ?]|[? ?]]]; auto).
    exact (proj1 (proj2 K) v nm eq_refl). Qed.

  Lemma in_table (t : cols) k : In k (map fst t) -> exists c, In (k, c) t.
  Proof. intros H. apply in_map_iff in H. destruct H as ([k' c] & <- & H). eauto. Qed.
End L.

Lemma range_sampling_succeeds {S} (g : rng S) s lo hi nm n dp : (0 <= n)%Z -> lo <= hi ->
  (dp_type dp = "uniform" -> exists s' cs, sample_param g s (Range (Flt lo) (Flt hi) nm) n dp = Ok (s', cs)) /\
  (dp_type dp = "logarithmic" ->
    ((exists s' cs, sample_param g s (Range (Flt lo) (Flt hi) nm) n dp = Ok (s', cs)) <-> 0 < lo)).
Proof. intros Hn Hl. unfold sample_param, Reqb. simpl. destruct (Req_EM_T 0 0) as [_|]; [|contradiction]. simpl.
  split; intros E; unfold sample_distribution; rewrite E; simpl.
  - unfold np_uniform. replace (n <? 0)%Z with false by lia. destruct (rng_uniform g s lo hi (Z.to_nat n)). simpl. eauto.
  - unfold logarithmic. split.
    + intros (s' & cs & H). destruct (Rle_dec lo 0); [discriminate|lra].
    + intros P. destruct (Rle_dec lo 0); [lra|]. destruct (Rle_dec hi 0); [lra|]. unfold np_uniform. replace (n <? 0)%Z with false by lia.
      destruct (rng_uniform g s (log10 lo) (log10 hi) (Z.to_nat n)). simpl. eauto. Qed.

Lemma bolstered_fails {S} (g : rng S) s lo hi n f w : (0 < n)%Z -> 2 < IZR n * (f - 1) ->
  sample_distribution g s n (mkDparams "bolstered" f w) lo hi = Raise ValueError.
Proof. intros Hn Hf. unfold sample_distribution. simpl. unfold bolstered. pose proof (Int_part_bounds (IZR n * f / 2)) as B.
  set (nb := Int_part (IZR n * f / 2)) in *. unfold np_uniform.
  assert (n < 2 * nb)%Z by (apply lt_IZR; rewrite mult_IZR; lra). replace (n - 2 * nb <? 0)%Z with true by lia. reflexivity. Qed.

Lemma fold1_iff lo hi x : lo <= hi -> (between lo hi (fold1 lo hi x) <-> between (lo - (hi - lo)) (hi + (hi - lo)) x).
Proof. intros H. unfold between, fold1. destruct (Rlt_dec x lo), (Rlt_dec hi x); lra. Qed.

Lemma reflected_iff lo hi x y : lo <= hi -> reflected lo hi x y -> (between lo hi y <-> between (lo - (hi - lo)) (hi + (hi - lo)) x).
Proof. intros H. unfold between, reflected. lra. Qed.

Lemma bolstered_leaves_range : exists S (g : rng S) s s' xs, rng_ok g /\
  sample_distribution g s 2 (mkDparams "bolstered" 1 1) 0 1 = Ok (s', xs) /\ ~ Forall (between 0 1) xs.
Proof. exists nat, wild_rng, 0%nat. unfold sample_distribution. simpl. unfold bolstered.
  replace (Int_part (2 * 1 / 2)) with 1%Z by (symmetry; apply Int_part_unique; lra). simpl. unfold np_normal.
  replace (IZR 2 * 1 / 2) with 1 by lra. 
  destruct (Rlt_dec ((1 - 0) * 1) 0); [lra|]. simpl. do 2 eexists. split; [exact wild_rng_ok|]. split; [reflexivity|].
  intros F. inversion F as [|? ? K]; subst. unfold between, fold1 in K. repeat destruct (Rlt_dec _ _); lra. Qed.

Lemma generated_film smp l : storable_sample smp -> NoDup (map l_name (all_layers smp)) -> In l (st_layers smp) -> forall n, (0 < n)%Z ->
  exists s' t ct cr, generate_random_labels ex_rng 0%nat smp n (mkDparams "uniform" 0 0) = Ok (s', t) /\
  In (l_name l ++ "_thickness", ct) t /\ In (l_name l ++ "_roughness", cr) t /\ List.length ct = Z.to_nat n /\ List.length cr = Z.to_nat n.
Proof. intros St N Hl n Hn. destruct (generate_total ex_rng ex_rng_ok 0%nat smp n (mkDparams "uniform" 0 0) St N (or_introl eq_refl) Hn) as (s' & t & H).
  pose proof (storable_ordinary _ St) as O. destruct (generated_shape ex_rng ex_rng_ok _ _ _ _ _ _ O N H) as (_ & E & F).
  rewrite Forall_forall in F.
  assert (El' : map fst t = (labels_of "thickness" (st_layers smp) ++ labels_of "roughness" (st_substrate smp :: st_layers smp) ++
                      labels_of "sld" (all_layers smp))%list) by (pose proof (label_names_ordinary smp O); congruence).
  destruct (in_table t (l_name l ++ "_thickness")) as (ct & H1).
  { rewrite El', in_app_iff, in_labels_of. left. exists l. auto. }
  destruct (in_table t (l_name l ++ "_roughness")) as (cr & H2).
  { rewrite El', !in_app_iff, !in_labels_of. right; left. exists l. split; [right; assumption|reflexivity]. }
  exists s', t, ct, cr. split; [assumption|]. split; [assumption|]. split; [assumption|]. split; [exact (F _ H1)|exact (F _ H2)]. Qed.
