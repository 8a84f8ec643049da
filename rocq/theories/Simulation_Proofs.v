From Coq Require Import Reals Lra ZifyNat ZifyBool.
From Coquelicot Require Import Complex.
From Verif Require Import Py Str Cplx Sample_Model Sample_Spec Sample_Proofs Rng Sampling_Model Sampling_Spec Sampling_Proofs
  Reflectivity_Model Reflectivity_Proofs Simulation_Model Simulation_Spec.
Local Open Scope string_scope.
Local Open Scope R_scope.

Lemma contains_suffix sub n b : has_char "_" sub = false -> sub <> "" ->
  contains sub (n ++ String "_" b) = contains sub n || contains sub b.
Proof. intros. apply contains_sep; assumption. Qed.

Lemma category_thickness n : category (n ++ "_" ++ "thickness") = Some 0%nat.
Proof. unfold category. change ("_" ++ "thickness") with (String "_" "thickness"). rewrite contains_suffix by (reflexivity || discriminate).
  rewrite orb_true_r. reflexivity. Qed.
Lemma category_roughness n : contains "thickness" n = false -> category (n ++ "_" ++ "roughness") = Some 1%nat.
Proof. intros H. unfold category. change ("_" ++ "roughness") with (String "_" "roughness"). rewrite !contains_suffix by (reflexivity || discriminate).
  rewrite H, orb_true_r. reflexivity. Qed.
Lemma category_sld n : clean_name n -> category (n ++ "_" ++ "sld") = Some 2%nat.
Proof. intros [H1 H2]. unfold category. change ("_" ++ "sld") with (String "_" "sld"). rewrite !contains_suffix by (reflexivity || discriminate).
  rewrite H1, H2, orb_true_r. reflexivity. Qed.

Lemma of_category_app k a b : of_category k (a ++ b)%list = (of_category k a ++ of_category k b)%list.
Proof. unfold of_category. rewrite filter_app, map_app. reflexivity. Qed.

Lemma of_category_all k j (t : cols) names : map fst t = names -> Forall (fun n => category n = Some j) names ->
  of_category k t = if Nat.eqb j k then map snd t else [].
Proof. intros <- F. unfold of_category. induction t as [|[n c] t IH]; simpl in *; [destruct (Nat.eqb j k); reflexivity|].
  inversion F as [|? ? E F']; subst. rewrite E. specialize (IH F'). destruct (Nat.eqb j k); simpl; [rewrite IH|exact IH]; reflexivity. Qed.

Lemma separate_table s n T Ru Sl : clean_names s -> label_table s n T Ru Sl ->
  separate (T ++ Ru ++ Sl)%list = (map snd T, map snd Ru, map snd Sl).
Proof. intros Cl (E1 & E2 & E3 & _). unfold clean_names in Cl.
  assert (F1 : Forall (fun n => category n = Some 0%nat) (labels_of "thickness" (st_layers s))).
  { apply Forall_forall. intros x Hx. apply in_labels_of in Hx. destruct Hx as (l & _ & ->). apply category_thickness. }
  rewrite Forall_forall in Cl.
  assert (F2 : Forall (fun n => category n = Some 1%nat) (labels_of "roughness" (st_substrate s :: st_layers s))).
  { apply Forall_forall. intros x Hx. apply in_labels_of in Hx. destruct Hx as (l & Hl & ->). apply category_roughness. apply Cl.
    destruct Hl as [<-|Hl]; [left; reflexivity|right; apply in_app_iff; auto]. }
  assert (F3 : Forall (fun n => category n = Some 2%nat) (labels_of "sld" (all_layers s))).
  { apply Forall_forall. intros x Hx. apply in_labels_of in Hx. destruct Hx as (l & Hl & ->). apply category_sld. auto. }
  unfold separate. rewrite !of_category_app.
  rewrite !(of_category_all _ _ T _ E1 F1), !(of_category_all _ _ Ru _ E2 F2), !(of_category_all _ _ Sl _ E3 F3). simpl.
  rewrite !app_nil_r. reflexivity. Qed.

Lemma separate_counts s n T Ru Sl : label_table s n T Ru Sl ->
  List.length T = List.length (st_layers s) /\ List.length Ru = S (List.length (st_layers s)) /\ List.length Sl = S (S (List.length (st_layers s))).
Proof. intros (E1 & E2 & E3 & _). apply (f_equal (@List.length _)) in E1, E2, E3. unfold labels_of, all_layers in *.
  rewrite !map_length in *. cbn [List.length] in *. rewrite app_length in E3. simpl in E3. lia. Qed.

(** The witness: the SLD column of a layer called "roughness_layer" is taken for a roughness. *)
Definition bad_layer : layer := mkLayer KLayer "roughness_layer" (Some (Const (Flt 1) (Some "thickness"))) (Some (Const (Flt 1) (Some "roughness")))
  (Some (Const (Flt 1) (Some "sld"))).
Definition bad_sample : structure := mkStructure
  (mkLayer KAmbient "air" None None (Some (Const (Flt 0) (Some "sld"))))
  (mkLayer KSubstrate "Si" None (Some (Const (Flt 1) (Some "roughness"))) (Some (Const (Flt 20) (Some "sld"))))
  [bad_layer].
Lemma separate_bad : exists T Ru Sl, label_table bad_sample 1 T Ru Sl /\ separate (T ++ Ru ++ Sl)%list <> (map snd T, map snd Ru, map snd Sl).
Proof. exists [("roughness_layer_thickness", [RtoC 1])], [("Si_roughness", [RtoC 1]); ("roughness_layer_roughness", [RtoC 1])],
    [("Si_sld", [RtoC 1]); ("roughness_layer_sld", [RtoC 1]); ("air_sld", [RtoC 1])].
  split; [repeat split; repeat constructor|]. unfold separate, of_category, category. simpl. intros E. injection E as E. discriminate. Qed.

(** ** Rows *)
Lemma row_entries (t : cols) n i : t <> [] -> Forall (fun kc => List.length (snd kc) = n) t -> (i < n)%nat -> row (map snd t) i = Ok (entries i t).
Proof. intros N F Hi. unfold row. destruct t as [|kc t]; [contradiction|]. cbn [map]. clear N.
  change (snd kc :: map snd t) with (map snd (kc :: t)). generalize (kc :: t) F. clear kc t F. intros t F.
  induction F as [|[k c] t L F IH]; [reflexivity|]. simpl in *. rewrite IH. rewrite (nth_error_nth' c (RtoC 0)) by lia. reflexivity. Qed.

Lemma n_rows_table (t : cols) n : t <> [] -> Forall (fun kc => List.length (snd kc) = n) t -> n_rows (map snd t) = n.
Proof. intros N F. destruct t as [|kc t]; [contradiction|]. inversion F; subst. reflexivity. Qed.

Lemma mapM_total A B (f : A -> res B) (h : A -> B) l : (forall a, In a l -> f a = Ok (h a)) -> mapM f l = Ok (map h l).
Proof. induction l as [|a l IH]; intros H; [reflexivity|]. simpl. rewrite H by (left; reflexivity). cbn [bind]. rewrite IH by (intros; apply H; right; assumption). reflexivity. Qed.

Lemma mapM_exists A B (f : A -> res B) (P : B -> Prop) l : (forall a, In a l -> exists b, f a = Ok b /\ P b) ->
  exists bs, mapM f l = Ok bs /\ List.length bs = List.length l /\ Forall P bs.
Proof. induction l as [|a l IH]; intros H; [exists []; auto|]. destruct (H a (or_introl eq_refl)) as (b & E & Hb).
  destruct IH as (bs & Es & L & F); [intros; apply H; right; assumption|]. exists (b :: bs). simpl. rewrite E. cbn [bind]. rewrite Es. cbn [bind].
  split; [reflexivity|]. split; [congruence|]. constructor; assumption. Qed.

Lemma length_chunks k n l : List.length (chunks k n l) = k.
Proof. revert l; induction k as [|k IH]; intros l; simpl; auto. Qed.

Lemma chunks_rows k n : forall l, List.length l = (k * n)%nat -> Forall (fun c => List.length c = n) (chunks k n l).
Proof. induction k as [|k IH]; intros l H; simpl; constructor; simpl in H.
  - rewrite firstn_length. lia.
  - apply IH. rewrite skipn_length. lia. Qed.

Lemma firstn_repeat A (x : A) n m : firstn n (repeat x m) = repeat x (Nat.min n m).
Proof. revert m; induction n as [|n IH]; intros [|m]; simpl; f_equal; auto. Qed.
Lemma skipn_repeat A (x : A) n m : skipn n (repeat x m) = repeat x (m - n).
Proof. revert m; induction n as [|n IH]; intros [|m]; simpl; auto. Qed.

Lemma map_repeat A B (f : A -> B) x n : map f (repeat x n) = repeat (f x) n.
Proof. induction n; simpl; f_equal; auto. Qed.

Lemma chunks_repeat x k n : chunks k n (repeat x (k * n)) = repeat (repeat x n) k.
Proof. induction k as [|k IH]; [reflexivity|]. cbn [chunks repeat]. rewrite firstn_repeat, skipn_repeat. f_equal; [f_equal; lia|].
  replace (S k * n - n)%nat with (k * n)%nat by lia. exact IH. Qed.

Section G.
  Context {S : Type} (g : rng S) (G : rng_ok g) (refl1d : option refl1d_fun).

  Lemma noisy_q_shape s qs d n s' rows : noisy_q g s qs d n = Ok (s', rows) ->
    List.length rows = n /\ Forall (fun r => List.length r = List.length qs) rows.
  Proof. unfold noisy_q. destruct d as [d|]; [|discriminate]. destruct (np_normal g s 1 d _) as [[s1 xs]|] eqn:E; [|discriminate].
    cbn [bind]. intros H; injection H as <- <-. apply (np_normal_Ok g G) in E. destruct E as (_ & _ & L & _). split.
    - rewrite map_length. apply length_chunks.
    - apply Forall_map. eapply Forall_impl; [|apply chunks_rows; rewrite L; apply Nat2Z.id]. intros c Hc. simpl. rewrite map_length, combine_length, Hc. apply Nat.min_id. Qed.

  Lemma noisy_q_exact s qs n : exists s', noisy_q g s qs (SNum 0) n = Ok (s', repeat qs n).
  Proof. unfold noisy_q, np_normal. destruct (Rlt_dec 0 0); [lra|]. destruct (_ <? 0)%Z eqn:E; [lia|]. clear E.
    pose proof (normal_degenerate g G s 1 (Z.to_nat (Z.of_nat (n * List.length qs)))) as D.
    destruct (rng_normal g s 1 0 _) as [s1 xs]. simpl in D. subst xs. cbn [bind]. exists s1. do 2 f_equal. rewrite Nat2Z.id, chunks_repeat.
    assert (Q : forall c, c = List.length qs -> map (fun qx => fst qx * snd qx) (combine qs (repeat 1 c)) = qs).
    { induction qs as [|q qs' IH]; intros [|c] Hc; try discriminate; [reflexivity|]. simpl. rewrite IH by (injection Hc; auto). f_equal. ring. }
    rewrite map_repeat. f_equal. apply Q. reflexivity. Qed.

  Lemma rev_last (l : list C) a r : rev l = a :: r -> last l (RtoC 0) = a.
  Proof. intros H. apply (f_equal (@rev _)) in H. rewrite rev_involutive in H. subst l. simpl. apply last_last. Qed.

  Lemma builtin_row_eq s n T Ru Sl qs i : st_layers s <> [] -> label_table s n T Ru Sl -> (i < n)%nat ->
    builtin_row (map snd T) (map snd Ru) (map snd Sl) qs i = row_curve qs T Ru Sl i.
  Proof. intros Hl Lt Hi. pose proof (separate_counts _ _ _ _ _ Lt) as (L1 & L2 & L3). destruct Lt as (_ & _ & _ & F).
    apply Forall_app in F. destruct F as [F1 F]. apply Forall_app in F. destruct F as [F2 F3].
    assert (N1 : T <> []). { intros ->. destruct (st_layers s); [contradiction|discriminate L1]. }
    assert (N2 : Ru <> []) by (intros ->; discriminate L2). assert (N3 : Sl <> []) by (intros ->; discriminate L3).
    unfold builtin_row. rewrite !(row_entries _ n) by assumption.
    cbn [bind]. destruct (rev (entries i Sl)) as [|a r] eqn:E.
    - apply (f_equal (@List.length _)) in E. rewrite rev_length in E. unfold entries in E. rewrite map_length in E. simpl in E. lia.
    - unfold row_curve. rewrite (rev_last _ _ _ E). reflexivity. Qed.

  Lemma row_curve_total s n T Ru Sl qs i : label_table s n T Ru Sl -> last (entries i Sl) (RtoC 0) = 0 ->
    exists c, row_curve qs T Ru Sl i = Ok c /\ List.length c = List.length qs.
  Proof. intros Lt Ha. pose proof (separate_counts _ _ _ _ _ Lt) as (L1 & L2 & L3). unfold row_curve. rewrite Ha, Cmult_0_l.
    match goal with |- exists c, ?e = _ /\ _ => destruct e as [c|x] eqn:E end.
    - exists c. split; [reflexivity|]. apply engine_values in E. destruct E as [E _]. rewrite E, map_length. reflexivity.
    - exfalso. pose proof (engine_errors (map (fun q => q * 10 ^ 10) qs) (map (fun x => fst x * / 10 ^ 10) (entries i T))
        (map (fun x => fst x * / 10 ^ 10) (entries i Ru)) (map (fun x => (x * RtoC (10 ^ 14))%C) (removelast (entries i Sl))) 0) as (A & B & Cc).
      destruct (Cc _ E) as [-> | ->].
      + apply A in E. contradiction.
      + apply B in E; [|reflexivity]. apply E. assert (Er : List.length (removelast (entries i Sl)) = Datatypes.S (List.length (st_layers s))).
        { assert (Le : List.length (entries i Sl) = Datatypes.S (Datatypes.S (List.length (st_layers s)))) by (unfold entries; rewrite map_length; exact L3).
          destruct (entries i Sl) as [|x l]; [discriminate|]. pose proof (app_removelast_last (RtoC 0) (l := x :: l) ltac:(discriminate)) as K.
          rewrite K, app_length in Le. simpl List.length in Le at 2. lia. }
        rewrite !map_length, Er. unfold entries. rewrite !map_length. lia. Qed.

  (** C25: one curve per row, one point per q value *)
  Lemma mapM_Ok_Forall2 A B (f : A -> res B) l out : mapM f l = Ok out -> Forall2 (fun a b => f a = Ok b) l out.
  Proof. revert out. induction l as [|a l IH]; intros out H; simpl in H; [injection H as <-; constructor|].
    destruct (f a) as [b|] eqn:E; [|discriminate]. cbn [bind] in H. destruct (mapM f l) as [bs|]; [|discriminate]. injection H as <-. constructor; auto. Qed.

  Lemma combine_seq_In A (l : list A) : forall k n i x, In (i, x) (combine (seq k n) l) -> (k <= i < k + n)%nat /\ In x l.
  Proof. induction l as [|y l IH]; intros k [|n] i x H; simpl in H; try contradiction. destruct H as [H|H].
    - injection H as <- <-. split; [lia|left; reflexivity].
    - apply IH in H. split; [lia|right; tauto]. Qed.

  Lemma simulate_Ok s smp n T Ru Sl qs d : st_layers smp <> [] -> clean_names smp -> label_table smp n T Ru Sl -> zero_ambient n Sl -> 0 <= d ->
    exists s' cs, simulate_reflectivity g refl1d s qs (T ++ Ru ++ Sl)%list (SNum d) "builtin" = Ok (s', cs) /\
      List.length cs = n /\ Forall (fun c => List.length c = List.length qs) cs.
  Proof. intros Hl Cl Lt Za Hd. unfold simulate_reflectivity. cbn [String.eqb orb].
    change (String.eqb "builtin" "refl1d") with false. change (String.eqb "builtin" "builtin") with true. simpl orb. cbv iota.
    rewrite (separate_table smp n T Ru Sl Cl Lt). pose proof (separate_counts _ _ _ _ _ Lt) as (L1 & L2 & L3).
    assert (N : n_rows (map snd T) = n). { destruct Lt as (_ & _ & _ & F). apply Forall_app in F. apply n_rows_table; [|tauto]. intros ->. destruct (st_layers smp); [contradiction|discriminate]. }
    rewrite N. destruct (noisy_q g s qs (SNum d) n) as [[s1 rows]|e] eqn:E.
    2:{ exfalso. unfold noisy_q, np_normal in E. destruct (Rlt_dec d 0); [lra|]. destruct (_ <? 0)%Z eqn:E0; [lia|]. destruct (rng_normal g s 1 d _). discriminate. }
    apply noisy_q_shape in E. destruct E as [E1 E2]. cbn [bind].
    assert (B : exists cs, builtin (map snd T) (map snd Ru) (map snd Sl) rows = Ok cs /\ List.length cs = n /\ Forall (fun c => List.length c = List.length qs) cs).
    { unfold builtin. rewrite N. rewrite Forall_forall in E2.
      assert (K : forall iq, In iq (combine (seq 0 n) rows) -> exists c, builtin_row (map snd T) (map snd Ru) (map snd Sl) (snd iq) (fst iq) = Ok c /\ List.length c = List.length qs).
      { intros [i q] Hi. simpl. apply combine_seq_In in Hi. destruct Hi as [Hi Hq]. rewrite (builtin_row_eq smp n) by (assumption || lia).
        destruct (row_curve_total smp n T Ru Sl q i Lt (Za i ltac:(lia))) as (c & -> & Lc). exists c. rewrite Lc, E2 by assumption. auto. }
      assert (Lc : List.length (combine (seq 0 n) rows) = n) by (rewrite combine_length, seq_length; lia).
      destruct (mapM_exists _ _ _ (fun c => List.length c = List.length qs) _ K) as (cs & -> & A1 & A2). exists cs. rewrite A1, Lc. auto. }
    destruct B as (cs & -> & B2 & B3). destruct refl1d; cbn [bind]; exists s1, cs; auto. Qed.

  (** Without q noise curve [i] is the engine applied to row [i]. *)
  Lemma simulate_exact s smp n T Ru Sl qs : st_layers smp <> [] -> clean_names smp -> label_table smp n T Ru Sl -> zero_ambient n Sl ->
    exists s' cs, simulate_reflectivity g refl1d s qs (T ++ Ru ++ Sl)%list (SNum 0) "builtin" = Ok (s', cs) /\
      Forall2 (fun i c => row_curve qs T Ru Sl i = Ok c) (seq 0 n) cs.
  Proof. intros Hl Cl Lt Za. unfold simulate_reflectivity.
    change (String.eqb "builtin" "refl1d") with false. change (String.eqb "builtin" "builtin") with true. simpl orb. cbv iota.
    rewrite (separate_table smp n T Ru Sl Cl Lt). pose proof (separate_counts _ _ _ _ _ Lt) as (L1 & L2 & L3).
    assert (N : n_rows (map snd T) = n). { destruct Lt as (_ & _ & _ & F). apply Forall_app in F. apply n_rows_table; [|tauto]. intros ->. destruct (st_layers smp); [contradiction|discriminate]. }
    rewrite N. destruct (noisy_q_exact s qs n) as (s1 & ->). cbn [bind].
    assert (B : exists cs, builtin (map snd T) (map snd Ru) (map snd Sl) (repeat qs n) = Ok cs /\ Forall2 (fun i c => row_curve qs T Ru Sl i = Ok c) (seq 0 n) cs).
    { unfold builtin. rewrite N. assert (K : forall k m, (k + m <= n)%nat -> exists cs,
        mapM (fun iq => builtin_row (map snd T) (map snd Ru) (map snd Sl) (snd iq) (fst iq)) (combine (seq k m) (repeat qs m)) = Ok cs /\
        Forall2 (fun i c => row_curve qs T Ru Sl i = Ok c) (seq k m) cs).
      { intros k m. revert k. induction m as [|m IH]; intros k Hk; [exists []; simpl; auto|]. cbn [seq repeat combine mapM fst snd].
        rewrite (builtin_row_eq smp n) by (assumption || lia). destruct (row_curve_total smp n T Ru Sl qs k Lt (Za k ltac:(lia))) as (c & Ec & _). rewrite Ec. cbn [bind].
        destruct (IH (Datatypes.S k) ltac:(lia)) as (cs & -> & F). cbn [bind]. exists (c :: cs). split; [reflexivity|]. constructor; assumption. }
      apply (K 0%nat n). lia. }
    destruct B as (cs & -> & B). destruct refl1d; cbn [bind]; exists s1, cs; auto. Qed.

  (** A bare substrate gives no curves at all. *)
  Lemma simulate_bare s smp n T Ru Sl qs d : st_layers smp = [] -> clean_names smp -> label_table smp n T Ru Sl -> 0 <= d ->
    exists s', simulate_reflectivity g refl1d s qs (T ++ Ru ++ Sl)%list (SNum d) "builtin" = Ok (s', []).
  Proof. intros Hl Cl Lt Hd. unfold simulate_reflectivity.
    change (String.eqb "builtin" "refl1d") with false. change (String.eqb "builtin" "builtin") with true. simpl orb. cbv iota.
    rewrite (separate_table smp n T Ru Sl Cl Lt). pose proof (separate_counts _ _ _ _ _ Lt) as (L1 & L2 & L3). rewrite Hl in L1. destruct T; [|discriminate].
    simpl n_rows. unfold noisy_q, np_normal. destruct (Rlt_dec d 0); [lra|]. simpl. destruct (rng_normal g s 1 d 0) as [s1 xs]. cbn [bind].
    exists s1. destruct refl1d; reflexivity. Qed.

  (** ** ModelMixer *)
  Lemma simulate_string s qs t e engine : exists x, simulate_reflectivity g refl1d s qs t (SStr e) engine = Raise x.
  Proof. unfold simulate_reflectivity. destruct (_ || _); [|eauto]. destruct (separate t) as [[ts rs] ss]. simpl. eauto. Qed.

  Lemma mixer_fails choice s qs models weights n labels engine : (0 < n)%nat ->
    exists e, mixer_simulate g refl1d choice s qs models weights n labels engine = Raise e.
  Proof. intros Hn. unfold mixer_simulate. destruct n as [|n]; [lia|]. cbn [seq mixer_loop].
    destruct (choice s _) as [[s1 j]|]; cbn [bind]; [|eauto]. destruct (nth_error models j) as [m|]; [|eauto].
    destruct (generate_random_labels g s1 m 1 _) as [[s2 new]|]; cbn [bind]; [|eauto]. destruct (set_columns new 0 labels) as [new'|]; cbn [bind]; [|eauto].
    destruct (simulate_string s2 qs new' engine "refl1d") as (x & ->). cbn [bind]. eauto. Qed.

  (** With a usable model and table the exception is ValueError from np.random.normal. *)
  Lemma mixer_value_error choice s qs models weights n labels engine s1 j m s2 new new' :
    choice s (map (fun w => w / fold_right Rplus 0 weights) weights) = Ok (s1, j) -> nth_error models j = Some m ->
    generate_random_labels g s1 m 1 (mkDparams "bolstered" (15 / 100) (1 / 10)) = Ok (s2, new) -> set_columns new 0 labels = Ok new' ->
    mixer_simulate g refl1d choice s qs models weights (Datatypes.S n) labels engine = Raise ValueError.
  Proof. intros E1 E2 E3 E4. unfold mixer_simulate. cbn [seq mixer_loop]. rewrite E1. cbn [bind]. rewrite E2, E3. cbn [bind]. rewrite E4. cbn [bind].
    unfold simulate_reflectivity. change (String.eqb "refl1d" "refl1d") with true. simpl orb. cbv iota. destruct (separate new') as [[ts rs] ss]. reflexivity. Qed.

  Lemma mixer_empty choice s qs models weights labels engine : mixer_simulate g refl1d choice s qs models weights 0 labels engine = Ok (s, []).
  Proof. reflexivity. Qed.
End G.

(** ** The refl1d engine *)
Section R1.
  Context {S : Type} (g : rng S) (G : rng_ok g) (f : refl1d_fun).

  Lemma existsb_rev A (p : A -> bool) l : existsb p (rev l) = existsb p l.
  Proof. apply eq_true_iff_eq. rewrite !existsb_exists. split; intros (x & H & P); exists x; rewrite <- in_rev in *; auto. Qed.

  Lemma simulate_refl1d s smp n T Ru Sl qs : st_layers smp <> [] -> clean_names smp -> label_table smp n T Ru Sl ->
    exists s', simulate_reflectivity g (Some f) s qs (T ++ Ru ++ Sl)%list (SNum 0) "refl1d" = Ok (s', map (refl1d_curve f qs T Ru Sl) (seq 0 n)).
  Proof. intros Hl Cl Lt. unfold simulate_reflectivity. change (String.eqb "refl1d" "refl1d") with true. simpl orb. cbv iota.
    rewrite (separate_table smp n T Ru Sl Cl Lt). pose proof (separate_counts _ _ _ _ _ Lt) as (L1 & L2 & L3).
    assert (N1 : T <> []). { intros ->. destruct (st_layers smp); [contradiction|discriminate L1]. }
    assert (N2 : Ru <> []) by (intros ->; discriminate L2). assert (N3 : Sl <> []) by (intros ->; discriminate L3).
    destruct Lt as (_ & _ & _ & F). apply Forall_app in F. destruct F as [F1 F]. apply Forall_app in F. destruct F as [F2 F3].
    rewrite (n_rows_table T n N1 F1). destruct (noisy_q_exact g G s qs n) as (s1 & ->). cbn [bind]. exists s1.
    assert (E : run_refl1d f (map snd T) (map snd Ru) (map snd Sl) (repeat qs n) = Ok (map (refl1d_curve f qs T Ru Sl) (seq 0 n))).
    { unfold run_refl1d. pose proof (n_rows_table T n N1 F1) as Nr. destruct (map snd T) eqn:ET; [destruct T; [contradiction|discriminate]|]. rewrite <- ET in *. clear ET.
      destruct (map snd Sl) eqn:ES; [destruct Sl; [contradiction|discriminate]|]. rewrite <- ES. clear ES. rewrite Nr.
      assert (K : forall k m, (k + m <= n)%nat -> mapM (fun iq => refl1d_row f (map snd T) (map snd Ru) (map snd Sl) (snd iq) (fst iq)) (combine (seq k m) (repeat qs m)) = Ok (map (refl1d_curve f qs T Ru Sl) (seq k m))).
      { intros k m. revert k. induction m as [|m IH]; intros k Hk; [reflexivity|]. cbn [seq repeat combine mapM fst snd map]. unfold refl1d_row at 1.
        rewrite !(row_entries _ n) by (assumption || lia). cbn [bind]. rewrite IH by lia. cbn [bind]. unfold refl1d_curve at 2. rewrite <- !map_rev, existsb_rev. reflexivity. }
      apply (K 0%nat n). lia. }
    rewrite E. reflexivity. Qed.

  Lemma simulate_refl1d_bare s smp n T Ru Sl qs d : st_layers smp = [] -> clean_names smp -> label_table smp n T Ru Sl ->
    simulate_reflectivity g (Some f) s qs (T ++ Ru ++ Sl)%list d "refl1d" = Raise ValueError.
  Proof. intros Hl Cl Lt. unfold simulate_reflectivity. change (String.eqb "refl1d" "refl1d") with true. simpl orb. cbv iota.
    rewrite (separate_table smp n T Ru Sl Cl Lt). pose proof (separate_counts _ _ _ _ _ Lt) as (L1 & L2 & L3). rewrite Hl in L1. destruct T; [|discriminate].
    simpl n_rows. unfold noisy_q. destruct d as [d|]; [|reflexivity]. unfold np_normal. destruct (Rlt_dec d 0); [reflexivity|]. simpl. destruct (rng_normal g s 1 d 0); reflexivity. Qed.
End R1.
