From Coq Require Import Reals Lra.
From Coquelicot Require Import Complex.
From Verif Require Import Py Str Cplx Sample_Model Sample_Spec Sample_Proofs Sampling_Model Arr Preproc_Model Preproc_Spec.
Local Open Scope string_scope.
Local Open Scope R_scope.

(** ** Parameters of a sample *)
Lemma labelled_In n (f : layer -> option param) ls qs : Forall2 (fun l q => labelled n l (f l) q) ls qs ->
  (forall q, In q qs -> exists l p, In l ls /\ f l = Some p /\ valid_param p /\ q = set_pname (l_name l ++ "_" ++ n) p) /\
  (forall l p, In l ls -> f l = Some p -> In (set_pname (l_name l ++ "_" ++ n) p) qs).
Proof. induction 1 as [|l q ls qs (p & Ep & Hv & ->) _ [IH1 IH2]]; [split; [intros ? []|intros ? ? []]|]. split.
  - intros q [<-|Hq]; [exists l, p; simpl; auto|]. destruct (IH1 q Hq) as (l' & p' & A & B). exists l', p'. simpl; auto.
  - intros l' p' [<-|Hl] E; [left; congruence|right; auto]. Qed.

Lemma all_params_ordinary s : ordinary_sample s -> exists ps names,
  all_params s = Ok ps /\ label_names s = Ok names /\ map pname_str ps = names /\
  (forall q, In q ps -> exists p, label_param s (pname_str q) p /\ valid_param p /\ q = set_pname (pname_str q) p) /\
  (forall name p, label_param s name p -> In (set_pname name p) ps).
Proof. intros H. unfold all_params, label_names.
  destruct (thicknesses_ordinary s H) as (ts & -> & Ft). destruct (roughnesses_ordinary s H) as (rs & -> & Fr).
  destruct (slds_ordinary s H) as (ss & -> & Fs). cbn [bind].
  eexists; eexists; split; [reflexivity|]. split; [reflexivity|]. split; [now rewrite !map_app|].
  destruct (labelled_In _ _ _ _ Ft) as [T1 T2]. destruct (labelled_In _ _ _ _ Fr) as [R1 R2]. destruct (labelled_In _ _ _ _ Fs) as [S1 S2].
  split.
  - intros q Hq. rewrite !in_app_iff in Hq. destruct Hq as [Hq|[Hq|Hq]].
    + destruct (T1 q Hq) as (l & p & A & B & V & ->). exists p. rewrite pname_str_set. split; [left; eauto|]. auto.
    + destruct (R1 q Hq) as (l & p & A & B & V & ->). exists p. rewrite pname_str_set. split; [right; left; eauto|]. auto.
    + destruct (S1 q Hq) as (l & p & A & B & V & ->). exists p. rewrite pname_str_set. split; [right; right; eauto|]. auto.
  - intros name p Hp. rewrite !in_app_iff. destruct Hp as [(l & A & -> & B)|[(l & A & -> & B)|(l & A & -> & B)]]; auto. Qed.

Lemma set_pname_const n p : is_const (set_pname n p) = is_const p.
Proof. destruct p; reflexivity. Qed.
Lemma set_pname_min n p : p_min (set_pname n p) = p_min p.
Proof. destruct p; reflexivity. Qed.
Lemma set_pname_max n p : p_max (set_pname n p) = p_max p.
Proof. destruct p; reflexivity. Qed.
Lemma set_pname_valid n p : valid_param (set_pname n p) <-> valid_param p.
Proof. destruct p; reflexivity. Qed.

(** ** Tables *)
Lemma tget_In t k c : tget t k = Some c -> In (k, c) t.
Proof. induction t as [|[k' v] t IH]; simpl; [discriminate|]. destruct (String.eqb_spec k' k) as [->|]; [intros H; inversion H; auto|auto]. Qed.
Lemma In_tget t k c : NoDup (map fst t) -> In (k, c) t -> tget t k = Some c.
Proof. induction t as [|[k' v] t IH]; simpl; [tauto|]. intros Hn Hi. inversion Hn as [|? ? Hk Hd]; subst.
  destruct (String.eqb_spec k' k) as [->|Hne].
  - destruct Hi as [E|Hi]; [congruence|]. exfalso. apply Hk. apply in_map_iff. exists (k, c). auto.
  - destruct Hi as [E|Hi]; [congruence|auto]. Qed.
Lemma tget_Some t k : In k (map fst t) -> exists c, tget t k = Some c.
Proof. induction t as [|[k' v] t IH]; simpl; [tauto|]. intros H. destruct (String.eqb_spec k' k); [eauto|]. apply IH. tauto. Qed.
Lemma tget_None t k : ~ In k (map fst t) <-> tget t k = None.
Proof. induction t as [|[k' v] t IH]; simpl; [tauto|]. destruct (String.eqb_spec k' k).
  - split; [tauto|discriminate].
  - rewrite <- IH. tauto. Qed.

Lemma tget_tset t k v k' : tget (tset t k v) k' = if String.eqb k k' then Some v else tget t k'.
Proof. induction t as [|[a b] t IH]; simpl; [reflexivity|]. destruct (String.eqb_spec a k) as [->|Ha]; simpl.
  - destruct (String.eqb_spec k k'); reflexivity.
  - rewrite IH. destruct (String.eqb_spec a k') as [->|]; [|reflexivity]. destruct (String.eqb_spec k k'); [congruence|reflexivity]. Qed.
Lemma tset_names t k v : In k (map fst t) -> map fst (tset t k v) = map fst t.
Proof. induction t as [|[a b] t IH]; simpl; [tauto|]. intros H. destruct (String.eqb_spec a k) as [->|]; [reflexivity|]. simpl. rewrite IH; tauto. Qed.
Lemma tset_new t k v : ~ In k (map fst t) -> tset t k v = (t ++ [(k, v)])%list.
Proof. induction t as [|[a b] t IH]; simpl; [reflexivity|]. intros H. destruct (String.eqb_spec a k) as [->|]; [tauto|]. rewrite IH; tauto. Qed.

Lemma tdel_names t k : NoDup (map fst t) -> map fst (tdel t k) = filter (fun x => negb (String.eqb k x)) (map fst t).
Proof. induction t as [|[a b] t IH]; simpl; [reflexivity|]. intros H; inversion H as [|? ? Ha Hd]; subst. rewrite (String.eqb_sym k a).
  destruct (String.eqb_spec a k) as [->|]; simpl; [|now rewrite IH]. clear -Ha. induction (map fst t) as [|x l IH]; [reflexivity|].
  simpl in *. destruct (String.eqb_spec k x) as [->|]; [tauto|]. simpl. f_equal. apply IH. tauto. Qed.
Lemma tget_tdel t k k' : NoDup (map fst t) -> tget (tdel t k) k' = if String.eqb k k' then None else tget t k'.
Proof. induction t as [|[a b] t IH]; simpl; [destruct (String.eqb k k'); reflexivity|]. intros H; inversion H as [|? ? Ha Hd]; subst.
  destruct (String.eqb_spec a k) as [->|Hak].
  - destruct (String.eqb_spec k k') as [->|]; [apply tget_None; exact Ha|reflexivity].
  - simpl. rewrite IH by exact Hd. destruct (String.eqb_spec a k') as [->|]; [|reflexivity]. destruct (String.eqb_spec k k'); [congruence|reflexivity]. Qed.

Lemma filter_NoDup A (p : A -> bool) l : NoDup l -> NoDup (filter p l).
Proof. apply NoDup_filter. Qed.

(** Deleting the constant columns *)
Lemma remove_fold cs : forall t, NoDup (map fst t) ->
  let t' := fold_left (fun t p => match tget t (pname_str p) with None => t | Some _ => tdel t (pname_str p) end) cs t in
  NoDup (map fst t') /\
  map fst t' = filter (fun k => negb (existsb (String.eqb k) (map pname_str cs))) (map fst t) /\
  (forall k, tget t' k = if existsb (String.eqb k) (map pname_str cs) then None else tget t k).
Proof. induction cs as [|p cs IH]; intros t Hn; cbn [fold_left map existsb].
  - split; [exact Hn|]. split; [|reflexivity]. cbn. induction (map fst t) as [|x l IHl]; [reflexivity|]. cbn. f_equal. apply IHl. inversion Hn; assumption.
  - set (k0 := pname_str p). set (t1 := match tget t k0 with None => t | Some _ => tdel t k0 end).
    assert (H1 : map fst t1 = filter (fun x => negb (String.eqb k0 x)) (map fst t)).
    { unfold t1. destruct (tget t k0) eqn:E; [apply tdel_names; exact Hn|]. apply tget_None in E. clear -E.
      induction (map fst t) as [|x l IHl]; [reflexivity|]. simpl in *. destruct (String.eqb_spec k0 x) as [->|]; [tauto|]. simpl. f_equal. apply IHl. tauto. }
    assert (H2 : forall k, tget t1 k = if String.eqb k0 k then None else tget t k).
    { intros k. unfold t1. destruct (tget t k0) eqn:E; [apply tget_tdel; exact Hn|]. destruct (String.eqb_spec k0 k) as [<-|]; [exact E|reflexivity]. }
    assert (Hn1 : NoDup (map fst t1)) by (rewrite H1; apply filter_NoDup; exact Hn).
    destruct (IH t1 Hn1) as (A & B & D). split; [exact A|]. split.
    + rewrite B, H1. clear. induction (map fst t) as [|x l IHl]; [reflexivity|]. cbn [filter].
      rewrite (String.eqb_sym x k0). destruct (String.eqb k0 x); cbn [negb filter orb]; [exact IHl|].
      destruct (existsb (String.eqb x) (map pname_str cs)); cbn [negb]; [exact IHl|f_equal; exact IHl].
    + intros k. rewrite D, H2. rewrite (String.eqb_sym k k0). destruct (String.eqb k0 k); cbn [orb]; [|reflexivity].
      destruct (existsb _ _); reflexivity. Qed.

(** Rescaling columns *)
Lemma map_params_spec norm f ps : known_norm norm = true -> NoDup (map pname_str ps) -> forall t,
  (forall p, In p ps -> is_const p = false -> In (pname_str p) (map fst t)) ->
  exists t', map_params norm f ps t = Ok t' /\ map fst t' = map fst t /\
    (forall p, In p ps -> is_const p = false -> tget t' (pname_str p) = option_map (map (f p)) (tget t (pname_str p))) /\
    (forall k, (forall p, In p ps -> is_const p = false -> pname_str p <> k) -> tget t' k = tget t k).
Proof. intros Hk. unfold map_params. rewrite Hk. induction ps as [|p ps IH]; intros Hn t Ht.
  - exists t. split; [reflexivity|]. split; [reflexivity|]. split; [intros ? []|reflexivity].
  - cbn [map] in Hn. inversion Hn as [|? ? Hp Hd]; subst. cbn [foldM]. destruct (is_const p) eqn:Ec.
    + cbn [bind]. destruct (IH Hd t) as (t' & E & En & Eu & Eo); [intros q Hq; apply Ht; right; exact Hq|].
      exists t'. split; [exact E|]. split; [exact En|]. split.
      * intros q [<-|Hq] Hc; [congruence|auto].
      * intros k Hall. apply Eo. intros q Hq. apply Hall. right. exact Hq.
    + destruct (tget_Some t (pname_str p)) as (c & Ecol); [apply Ht; [left; reflexivity|exact Ec]|]. rewrite Ecol. cbn [bind].
      set (t1 := tset t (pname_str p) (map (f p) c)).
      assert (En1 : map fst t1 = map fst t) by (apply tset_names, Ht; [left; reflexivity|exact Ec]).
      destruct (IH Hd t1) as (t' & E & En & Eu & Eo); [intros q Hq Hc; rewrite En1; apply Ht; [right; exact Hq|exact Hc]|].
      exists t'. split; [exact E|]. split; [congruence|]. split.
      * intros q [<-|Hq] Hc.
        -- rewrite Eo by (intros q Hq _ Heq; apply Hp; rewrite <- Heq; apply in_map; exact Hq).
           unfold t1. rewrite tget_tset, String.eqb_refl, Ecol. reflexivity.
        -- rewrite Eu by assumption. unfold t1. rewrite tget_tset. destruct (String.eqb_spec (pname_str p) (pname_str q)) as [Heq|]; [|reflexivity].
           exfalso. apply Hp. rewrite Heq. apply in_map. exact Hq.
      * intros k Hall. rewrite Eo by (intros q Hq; apply Hall; right; exact Hq). unfold t1. rewrite tget_tset.
        destruct (String.eqb_spec (pname_str p) k) as [Heq|]; [|reflexivity]. exfalso. apply (Hall p); [left; reflexivity|exact Ec|exact Heq]. Qed.

Lemma map_params_unknown norm f ps t : known_norm norm = false -> map_params norm f ps t = Ok t.
Proof. intros Hk. unfold map_params. rewrite Hk. induction ps as [|p ps IH]; [reflexivity|]. cbn [foldM]. destruct (is_const p); cbn [bind]; exact IH. Qed.

(** Adding the constants *)
Lemma add_fold n ps : NoDup (map pname_str ps) -> forall t,
  let t' := fold_left (fun t p => tset t (pname_str p) (repeat (Some (lo_C p)) n)) ps t in
  (forall p, In p ps -> tget t' (pname_str p) = Some (repeat (Some (lo_C p)) n)) /\
  (forall k, ~ In k (map pname_str ps) -> tget t' k = tget t k).
Proof. induction ps as [|p ps IH]; intros Hn t; cbn [fold_left map]; [split; [intros ? []|reflexivity]|].
  cbn [map] in Hn. inversion Hn as [|? ? Hp Hd]; subst. destruct (IH Hd (tset t (pname_str p) (repeat (Some (lo_C p)) n))) as [A B]. split.
  - intros q [<-|Hq]; [|auto]. rewrite B by exact Hp. now rewrite tget_tset, String.eqb_refl.
  - intros k Hk. simpl in Hk. rewrite B by tauto. rewrite tget_tset. destruct (String.eqb_spec (pname_str p) k); [tauto|reflexivity]. Qed.

Lemma tselect_Ok t names : (forall k, In k names -> exists c, tget t k = Some c) ->
  exists t', tselect t names = Ok t' /\ map fst t' = names /\ (forall k, In k names -> tget t' k = tget t k).
Proof. unfold tselect. induction names as [|k names IH]; intros H; [exists []; repeat split; intros ? []|].
  destruct (H k) as (c & E); [left; reflexivity|]. cbn [mapM]. rewrite E. cbn [bind].
  destruct IH as (t' & E' & En & Eg); [intros k' Hk; apply H; right; exact Hk|]. rewrite E'. cbn [bind].
  exists ((k, c) :: t'). split; [reflexivity|]. split; [simpl; congruence|]. intros k' Hk. simpl.
  destruct (String.eqb_spec k k') as [<-|]; [congruence|]. destruct Hk as [|Hk]; [congruence|auto]. Qed.

(** ** The two operations *)
Section OutPP.
  Context (s : structure) (norm : pystr) (names : list string) (ps : list param).
  Hypothesis (Hs : named_sample s) (Hps : all_params s = Ok ps) (Hnames : label_names s = Ok names).
  Let o := mkOp norm s.

  Lemma pp_names : map pname_str ps = names.
  Proof. destruct (all_params_ordinary s (proj1 Hs)) as (ps' & names' & E1 & E2 & E3 & _). congruence. Qed.
  Lemma pp_NoDup : NoDup names.
  Proof. destruct Hs as [Ho Hd]. exact (label_names_NoDup s names Ho Hd Hnames). Qed.
  Lemma pp_from q : In q ps -> exists p, label_param s (pname_str q) p /\ valid_param p /\ q = set_pname (pname_str q) p.
  Proof. destruct (all_params_ordinary s (proj1 Hs)) as (ps' & names' & E1 & E2 & E3 & A & _). assert (ps' = ps) by congruence. subst. apply A. Qed.
  Lemma pp_to name p : label_param s name p -> In (set_pname name p) ps.
  Proof. destruct (all_params_ordinary s (proj1 Hs)) as (ps' & names' & E1 & E2 & E3 & _ & A). assert (ps' = ps) by congruence. subst. apply A. Qed.
  Lemma pp_inj p q : In p ps -> In q ps -> pname_str p = pname_str q -> p = q.
  Proof. intros Hp Hq E. pose proof pp_NoDup as Hn. rewrite <- pp_names in Hn. apply In_nth_error in Hp, Hq.
    destruct Hp as (i & Hi), Hq as (j & Hj). assert (i = j) by (eapply NoDup_map_inv_pos; eauto). congruence. Qed.
  Lemma label_param_unique name p q : label_param s name p -> label_param s name q -> same_values p q /\ is_const p = is_const q /\ p_min p = p_min q /\ p_max p = p_max q.
  Proof. intros Hp Hq. assert (E : set_pname name p = set_pname name q) by (apply pp_inj; [apply pp_to; exact Hp|apply pp_to; exact Hq|now rewrite !pname_str_set]).
    pose proof (f_equal p_min E) as E1. pose proof (f_equal p_max E) as E2. pose proof (f_equal is_const E) as E3.
    rewrite !set_pname_min in E1. rewrite !set_pname_max in E2. rewrite !set_pname_const in E3. repeat split; auto.
    destruct p, q; simpl in *; try discriminate; unfold same_num; try rewrite E1; try rewrite E2; auto. Qed.

  (** Constant names and used names partition the names. *)
  Lemma const_name k : In k (map pname_str (constant_params ps)) <-> constant_label s k.
  Proof. unfold constant_params, constant_label. split.
    - intros Hk. apply in_map_iff in Hk. destruct Hk as (q & <- & Hq). apply filter_In in Hq. destruct Hq as [Hq Hc].
      destruct (pp_from q Hq) as (p & Hp & _ & E). exists p. split; [exact Hp|]. rewrite E, set_pname_const in Hc. exact Hc.
    - intros (p & Hp & Hc). apply in_map_iff. exists (set_pname k p). split; [apply pname_str_set|]. apply filter_In. rewrite set_pname_const. split; [apply pp_to; exact Hp|exact Hc]. Qed.
  Lemma used_name k : In k (map pname_str (used_params ps)) <-> variable_label s k.
  Proof. unfold used_params, variable_label. split.
    - intros Hk. apply in_map_iff in Hk. destruct Hk as (q & <- & Hq). apply filter_In in Hq. destruct Hq as [Hq Hc].
      destruct (pp_from q Hq) as (p & Hp & _ & E). exists p. split; [exact Hp|]. rewrite E, set_pname_const in Hc. now destruct (is_const p).
    - intros (p & Hp & Hc). apply in_map_iff. exists (set_pname k p). split; [apply pname_str_set|]. apply filter_In. rewrite set_pname_const, Hc. split; [apply pp_to; exact Hp|reflexivity]. Qed.
  Lemma not_both k : constant_label s k -> variable_label s k -> False.
  Proof. intros (p & Hp & Ec) (q & Hq & Ev). destruct (label_param_unique k p q Hp Hq) as (_ & E & _). congruence. Qed.
  Lemma either k : In k names -> constant_label s k \/ variable_label s k.
  Proof. rewrite <- pp_names. intros Hk. apply in_map_iff in Hk. destruct Hk as (q & <- & Hq). destruct (pp_from q Hq) as (p & Hp & _ & E).
    destruct (is_const p) eqn:Ec; [left|right]; exists p; auto. Qed.
  Lemma label_in k : constant_label s k \/ variable_label s k -> In k names.
  Proof. rewrite <- pp_names. intros [(p & Hp & _)|(p & Hp & _)]; apply in_map_iff; exists (set_pname k p); (split; [apply pname_str_set|apply pp_to; exact Hp]). Qed.
  Lemma const_bool k : existsb (String.eqb k) (map pname_str (constant_params ps)) = true <-> constant_label s k.
  Proof. rewrite <- const_name, existsb_exists. split; [intros (x & Hx & E); apply String.eqb_eq in E; congruence|intros H; exists k; split; [exact H|apply String.eqb_refl]]. Qed.

  Lemma NoDup_sub (p : param -> bool) : NoDup (map pname_str (filter p ps)).
  Proof. pose proof pp_NoDup as Hn. rewrite <- pp_names in Hn. clear -Hn. induction ps as [|q qs IH]; [constructor|]. cbn [map] in Hn.
    inversion Hn as [|? ? Hq Hd]; subst. cbn [filter]. destruct (p q); [|auto]. cbn [map]. constructor; [|auto].
    intros Hi. apply Hq. apply in_map_iff in Hi. destruct Hi as (x & <- & Hx). apply filter_In in Hx. apply in_map. tauto. Qed.

  (** What apply_preprocessing returns *)
  Lemma apply_frame f : known_norm norm = true -> Permutation names (map fst (fr_cols f)) ->
    exists prep rem, apply_preprocessing o (LFrame f) = Ok (mkFrame (fr_rows f) prep, mkFrame (fr_rows f) rem) /\
      map fst prep = filter (fun k => negb (existsb (String.eqb k) (map pname_str (constant_params ps)))) (map fst (fr_cols f)) /\
      (forall k p, label_param s k p -> is_const p = false -> tget prep k = option_map (map (norm_cell norm p)) (tget (fr_cols f) k)) /\
      map fst rem = map pname_str (constant_params ps) /\
      (forall k, constant_label s k -> tget rem k = tget (fr_cols f) k).
  Proof. intros Hk Hperm. unfold apply_preprocessing. cbn [op_sample o]. rewrite Hnames. cbn [bind convert_to_dataframe].
    unfold remove_labels. cbn [op_sample o]. rewrite Hps. cbn [bind].
    assert (Hn : NoDup (map fst (fr_cols f))) by (eapply Permutation_NoDup; [exact Hperm|exact pp_NoDup]).
    destruct (remove_fold (constant_params ps) (fr_cols f) Hn) as (A & B & D).
    set (t1 := fold_left _ (constant_params ps) (fr_cols f)) in *.
    unfold normalize_labels. cbn [op_sample op_norm o fr_cols fr_rows]. rewrite Hps. cbn [bind].
    destruct (map_params_spec norm (norm_cell norm) ps Hk) with (t := t1) as (t2 & E2 & En2 & Eu2 & Eo2).
    { rewrite pp_names. exact pp_NoDup. }
    { intros q Hq Hc. rewrite B. apply filter_In. split.
      - eapply Permutation_in; [exact Hperm|]. rewrite <- pp_names. apply in_map. exact Hq.
      - destruct (existsb _ _) eqn:E; [|reflexivity]. apply const_bool in E. exfalso. eapply not_both; [exact E|].
        destruct (pp_from q Hq) as (p & Hp & _ & Ep). exists p. split; [exact Hp|]. rewrite Ep, set_pname_const in Hc. exact Hc. }
    rewrite E2. cbn [bind].
    destruct (tselect_Ok (fr_cols f) (map pname_str (constant_params ps))) as (rem & E3 & En3 & Eg3).
    { intros k Hc. apply tget_Some. eapply Permutation_in; [exact Hperm|]. apply label_in. left. now apply const_name. }
    rewrite E3. cbn [bind]. exists t2, rem. split; [reflexivity|]. split; [congruence|]. split.
    - intros k p Hp Hc. pose proof (Eu2 (set_pname k p) (pp_to k p Hp)) as E. rewrite set_pname_const, pname_str_set in E. rewrite (E Hc).
      assert (En : norm_cell norm (set_pname k p) = norm_cell norm p).
      { unfold norm_cell, lo_C, hi_C. rewrite set_pname_min, set_pname_max. reflexivity. }
      rewrite En. f_equal. rewrite D. destruct (existsb _ _) eqn:Eb; [|reflexivity]. apply const_bool in Eb. exfalso. eapply not_both; [exact Eb|]. exists p; auto.
    - split; [exact En3|]. intros k Hc. apply Eg3. now apply const_name. Qed.

  (** What restore_labels returns *)
  Lemma restore_frame f : known_norm norm = true -> (forall k, variable_label s k -> In k (map fst (fr_cols f))) ->
    exists g, restore_labels o (LFrame f) = Ok (mkFrame (fr_rows f) g) /\ map fst g = names /\
      (forall k p, label_param s k p -> is_const p = false -> tget g k = option_map (map (renorm_cell norm p)) (tget (fr_cols f) k)) /\
      (forall k p, label_param s k p -> is_const p = true -> tget g k = Some (repeat (Some (lo_C p)) (fr_rows f))).
  Proof. intros Hk Hvar. unfold restore_labels. cbn [op_sample o]. rewrite Hps. cbn [bind convert_to_dataframe].
    unfold renormalize_labels. cbn [op_sample op_norm o fr_cols fr_rows]. rewrite Hps. cbn [bind].
    destruct (map_params_spec norm (renorm_cell norm) (used_params ps) Hk (NoDup_sub _) (fr_cols f)) as (t1 & E1 & En1 & Eu1 & Eo1).
    { intros q Hq _. apply Hvar. apply used_name. apply in_map. exact Hq. }
    rewrite E1. cbn [bind]. unfold add_constant_labels. cbn [op_sample o fr_cols fr_rows]. rewrite Hps. cbn [bind]. rewrite Hnames. cbn [bind fr_cols fr_rows].
    destruct (add_fold (fr_rows f) (constant_params ps) (NoDup_sub _) t1) as [A B].
    set (t2 := fold_left _ (constant_params ps) t1) in *.
    destruct (tselect_Ok t2 names) as (g & E3 & En3 & Eg3).
    { intros k Hkn. destruct (either k Hkn) as [Hc|Hv].
      - apply const_name in Hc. apply in_map_iff in Hc. destruct Hc as (q & <- & Hq). rewrite A by exact Hq. eauto.
      - rewrite B by (intros Hc; apply const_name in Hc; eapply not_both; eauto). apply tget_Some. rewrite En1. apply Hvar. exact Hv. }
    rewrite E3. cbn [bind]. exists g. split; [reflexivity|]. split; [exact En3|]. split.
    - intros k p Hp Hc. assert (Hv : variable_label s k) by (exists p; auto). rewrite Eg3 by (apply label_in; right; exact Hv).
      rewrite B by (intros Hc'; apply const_name in Hc'; eapply not_both; eauto).
      pose proof (Eu1 (set_pname k p)) as E. rewrite set_pname_const, pname_str_set in E.
      assert (En : renorm_cell norm (set_pname k p) = renorm_cell norm p).
      { unfold renorm_cell, lo_C, hi_C. rewrite set_pname_min, set_pname_max. reflexivity. }
      rewrite En in E. apply E; [|exact Hc]. unfold used_params. apply filter_In. rewrite set_pname_const, Hc. split; [apply pp_to; exact Hp|reflexivity].
    - intros k p Hp Hc. rewrite Eg3 by (apply label_in; left; exists p; auto).
      assert (Hi : In (set_pname k p) (constant_params ps)) by (apply filter_In; rewrite set_pname_const; split; [apply pp_to; exact Hp|exact Hc]).
      apply A in Hi. rewrite pname_str_set in Hi. rewrite Hi. unfold lo_C. rewrite set_pname_min. reflexivity. Qed.
End OutPP.

(** ** Round trip of one cell *)
Lemma num_C_inj a b : num_C a = num_C b -> num_re a = num_re b /\ num_im a = num_im b.
Proof. unfold num_C. intros H. injection H. auto. Qed.
Lemma range_nonzero p : valid_param p -> is_const p = false -> (hi_C p - lo_C p)%C <> RtoC 0.
Proof. destruct p as [lo hi n|v n]; [|discriminate]. simpl. intros [_ Hb] _ E. unfold hi_C, lo_C in E. simpl in E.
  assert (E2 : num_C hi = num_C lo). { replace (num_C hi) with ((num_C hi - num_C lo) + num_C lo)%C by ring. rewrite E. ring. }
  apply num_C_inj in E2. destruct E2 as [E1 E2], Hb as [Hb|[_ Hb]]; lra. Qed.

Lemma renorm_norm norm p c : known_norm norm = true -> valid_param p -> is_const p = false ->
  (is_lit norm "min_to_zero" = false -> hi_C p <> RtoC 0) -> renorm_cell norm p (norm_cell norm p c) = c.
Proof. intros Hk Hv Hc Hm. unfold renorm_cell, norm_cell. destruct (is_lit norm "min_to_zero") eqn:E1.
  - destruct c as [z|]; [|reflexivity]. simpl. unfold cdiv. pose proof (range_nonzero p Hv Hc). destruct (Ceq_dec _ _) as [E|_]; [contradiction|].
    simpl. f_equal. field. assumption.
  - destruct (is_lit norm "absolute_max") eqn:E2; [|unfold known_norm in Hk; rewrite E1, E2 in Hk; discriminate].
    destruct c as [z|]; [|reflexivity]. simpl. unfold cdiv. assert (Hz : RtoC (Cmod (hi_C p)) <> RtoC 0).
    { intros E. injection E as E. apply Cmod_eq_0 in E. apply (Hm eq_refl). exact E. }
    destruct (Ceq_dec _ _) as [E|_]; [contradiction|]. simpl. f_equal. field. exact Hz. Qed.

Lemma literal_known v : In v ["min_to_zero"; "absolute_max"] -> known_norm (literal v) = true.
Proof. intros [<-|[<-|[]]]; reflexivity. Qed.

Lemma repeat_column (x : cell) c n : Forall (eq x) c -> List.length c = n -> c = repeat x n.
Proof. intros F <-. induction F as [|y c <- _ IH]; [reflexivity|]. simpl. f_equal. exact IH. Qed.

Lemma label_param_valid s k p : ordinary_sample s -> label_param s k p -> valid_param p.
Proof. intros Ho Hp. destruct (ordinary_films s Ho) as (A & B & D). rewrite Forall_forall in A, B, D.
  destruct Hp as [(l & Hl & _ & E)|[(l & Hl & _ & E)|(l & Hl & _ & E)]];
  [destruct (A l Hl) as (p' & E' & V & _)|destruct (B l Hl) as (p' & E' & V & _)|destruct (D l Hl) as (p' & E' & V & _)]; congruence. Qed.

Section RoundTrip.
  Context (s : structure) (names : list string) (f : frame) (v : string).
  Hypothesis (Hs : named_sample s) (Hf : label_frame s names f) (Hc : constants_hold s f) (Hv : In v ["min_to_zero"; "absolute_max"]).
  Hypothesis (Hmax : v = "absolute_max" -> nonzero_max s).
  Let o := mkOp (literal v) s.

  Lemma nonzero k p : label_param s k p -> is_const p = false -> is_lit (literal v) "min_to_zero" = false -> hi_C p <> RtoC 0.
  Proof. intros Hp Hcp E. assert (Ev : v = "absolute_max").
    { destruct Hv as [<-|[<-|[]]]; [discriminate E|reflexivity]. }
    exact (Hmax Ev k p Hp Hcp). Qed.

  Lemma restored_column prep k p c : label_param s k p -> is_const p = false -> tget (fr_cols f) k = Some c ->
    tget prep k = option_map (map (norm_cell (literal v) p)) (tget (fr_cols f) k) ->
    option_map (map (renorm_cell (literal v) p)) (tget prep k) = tget (fr_cols f) k.
  Proof. intros Hp Hcp E E'. rewrite E', E. simpl. f_equal. rewrite map_map. rewrite <- (map_id c) at 2. apply map_ext. intros x.
    apply renorm_norm; [apply literal_known; exact Hv|exact (label_param_valid s k p (proj1 Hs) Hp)|exact Hcp|exact (nonzero k p Hp Hcp)]. Qed.

  Lemma round_trip : exists prep rem g,
    apply_preprocessing o (LFrame f) = Ok (prep, rem) /\ restore_labels o (LFrame prep) = Ok g /\
    fr_rows g = fr_rows f /\ map fst (fr_cols g) = names /\ (forall k, In k names -> tget (fr_cols g) k = tget (fr_cols f) k).
  Proof. destruct Hf as (Hn & Hperm & Hlen). destruct (all_params_ordinary s (proj1 Hs)) as (ps & names' & Hps & Hn' & _).
    assert (names' = names) by congruence. subst names'.
    destruct (apply_frame s (literal v) names ps Hs Hps Hn f (literal_known v Hv) Hperm) as (prep & rem & Ea & En & Eu & _ & _).
    exists (mkFrame (fr_rows f) prep), (mkFrame (fr_rows f) rem).
    destruct (restore_frame s (literal v) names ps Hs Hps Hn (mkFrame (fr_rows f) prep) (literal_known v Hv)) as (g & Er & Egn & Egu & Egc).
    { intros k Hk. cbn [fr_cols]. rewrite En. apply filter_In. split.
      - eapply Permutation_in; [exact Hperm|]. apply (label_in s names ps Hs Hps Hn). right. exact Hk.
      - destruct (existsb _ _) eqn:E; [|reflexivity]. apply (const_bool s ps Hs Hps) in E. destruct (not_both s names ps Hs Hps Hn k E Hk). }
    exists (mkFrame (fr_rows f) g). split; [exact Ea|]. split; [exact Er|]. split; [reflexivity|]. split; [exact Egn|].
    intros k Hk. cbn [fr_cols fr_rows] in *. 
    assert (Hget : exists c, tget (fr_cols f) k = Some c) by (apply tget_Some; eapply Permutation_in; [exact Hperm|exact Hk]).
    destruct Hget as (c & Ec). destruct (either s names ps Hs Hps Hn k Hk) as [(p & Hp & Hcp)|(p & Hp & Hcp)].
    - rewrite (Egc k p Hp Hcp), Ec. f_equal. symmetry. apply repeat_column.
      + exact (Hc k p c Hp Hcp (tget_In _ _ _ Ec)).
      + rewrite Forall_forall in Hlen. exact (Hlen (k, c) (tget_In _ _ _ Ec)).
    - rewrite (Egu k p Hp Hcp). exact (restored_column prep k p c Hp Hcp Ec (Eu k p Hp Hcp)). Qed.
End RoundTrip.

Lemma table_ext (t u : table) : map fst t = map fst u -> NoDup (map fst t) -> (forall k, In k (map fst t) -> tget t k = tget u k) -> t = u.
Proof. revert u. induction t as [|[k c] t IH]; intros [|[k' c'] u] En Hd Hg; try discriminate; [reflexivity|].
  cbn [map fst] in *. injection En as <- En. inversion Hd as [|? ? Hk Hd']; subst.
  pose proof (Hg k (or_introl eq_refl)) as E. simpl in E. rewrite String.eqb_refl in E. injection E as <-. f_equal. apply IH; [exact En|exact Hd'|].
  intros j Hj. pose proof (Hg j (or_intror Hj)) as E. simpl in E. destruct (String.eqb_spec k j) as [<-|]; [contradiction|exact E]. Qed.

Lemma filter_const_names s names ps : named_sample s -> all_params s = Ok ps -> label_names s = Ok names ->
  filter (fun k => negb (existsb (String.eqb k) (map pname_str (constant_params ps)))) names = map pname_str (used_params ps).
Proof. intros Hs Hps Hn. rewrite <- (pp_names s names ps Hs Hps Hn) at 1.
  assert (G : forall l, (forall q, In q l -> In q ps) -> filter (fun k => negb (existsb (String.eqb k) (map pname_str (constant_params ps)))) (map pname_str l) = map pname_str (used_params l)).
  { induction l as [|q l IH]; intros Hl; [reflexivity|]. cbn [map filter used_params]. fold (used_params l). 
    assert (E : existsb (String.eqb (pname_str q)) (map pname_str (constant_params ps)) = is_const q).
    { destruct (is_const q) eqn:Eq.
      - apply existsb_exists. exists (pname_str q). split; [|apply String.eqb_refl]. apply in_map. apply filter_In. split; [apply Hl; left; reflexivity|exact Eq].
      - destruct (existsb _ _) eqn:Ex; [|reflexivity]. apply existsb_exists in Ex. destruct Ex as (x & Hx & Ex). apply String.eqb_eq in Ex.
        apply in_map_iff in Hx. destruct Hx as (r & <- & Hr). apply filter_In in Hr. destruct Hr as [Hr Hc].
        assert (r = q) by (apply (pp_inj s names ps Hs Hps Hn); [exact Hr|apply Hl; left; reflexivity|congruence]). congruence. }
    rewrite E. destruct (is_const q); cbn [negb filter map]; rewrite IH by (intros r Hr; apply Hl; right; exact Hr); reflexivity. }
  apply G. auto. Qed.

(** For a table in label order the network's array can be restored as well. *)
Lemma round_trip_ordered s names f v : named_sample s -> ordered_frame s names f -> constants_hold s f -> In v ["min_to_zero"; "absolute_max"] ->
  (v = "absolute_max" -> nonzero_max s) ->
  exists prep rem, apply_preprocessing (mkOp (literal v) s) (LFrame f) = Ok (prep, rem) /\
    restore_labels (mkOp (literal v) s) (LFrame prep) = Ok f /\
    restore_labels (mkOp (literal v) s) (LArray (fr_rows prep) (map snd (fr_cols prep))) = Ok f.
Proof. intros Hs [Hf Ho] Hc Hv Hmax. destruct (round_trip s names f v Hs Hf Hc Hv Hmax) as (prep & rem & g & Ea & Er & En1 & En2 & Eg).
  destruct Hf as (Hn & Hperm & Hlen).
  assert (Eq : g = f).
  { destruct g as [n t], f as [n' t']. cbn [fr_rows fr_cols] in *. subst n'. f_equal. pose proof (label_names_NoDup s names (proj1 Hs) (proj2 Hs) Hn) as Hd.
    apply table_ext; [congruence|rewrite En2; exact Hd|]. rewrite En2. exact Eg. }
  subst g. exists prep, rem. split; [exact Ea|]. split; [exact Er|].
  destruct (all_params_ordinary s (proj1 Hs)) as (ps & names' & Hps & Hn' & _). assert (names' = names) by congruence. subst names'.
  destruct (apply_frame s (literal v) names ps Hs Hps Hn f (literal_known v Hv) Hperm) as (t & r & Ea' & En' & _).
  assert (Ep : prep = mkFrame (fr_rows f) t) by congruence. subst prep. cbn [fr_rows fr_cols] in *.
  rewrite Ho, (filter_const_names s names ps Hs Hps Hn) in En'.
  unfold restore_labels in Er |- *. cbn [op_sample] in *. rewrite Hps in Er |- *. cbn [bind convert_to_dataframe] in Er |- *.
  rewrite <- En', !map_length, Nat.eqb_refl. cbn [bind]. 
  assert (Ecomb : combine (map fst t) (map snd t) = t) by (clear; induction t as [|[a b] t IH]; [reflexivity|simpl; now rewrite IH]).
  rewrite Ecomb. exact Er. Qed.

(** ** C36 *)
Lemma split_off s names f v : named_sample s -> label_frame s names f -> In v ["min_to_zero"; "absolute_max"] ->
  exists prep rem, apply_preprocessing (mkOp (literal v) s) (LFrame f) = Ok (prep, rem) /\
    fr_rows prep = fr_rows f /\ fr_rows rem = fr_rows f /\
    (exists p, map fst (fr_cols prep) = filter p (map fst (fr_cols f)) /\ forall k, In k names -> (p k = true <-> variable_label s k)) /\
    (exists p, map fst (fr_cols rem) = filter p names /\ forall k, In k names -> (p k = true <-> constant_label s k)) /\
    (forall k, constant_label s k -> tget (fr_cols rem) k = tget (fr_cols f) k).
Proof. intros Hs (Hn & Hperm & Hlen) Hv. destruct (all_params_ordinary s (proj1 Hs)) as (ps & names' & Hps & Hn' & _). assert (names' = names) by congruence. subst names'.
  destruct (apply_frame s (literal v) names ps Hs Hps Hn f (literal_known v Hv) Hperm) as (t & r & Ea & En & _ & Er & Ec).
  exists (mkFrame (fr_rows f) t), (mkFrame (fr_rows f) r). cbn [fr_rows fr_cols]. split; [exact Ea|]. split; [reflexivity|]. split; [reflexivity|]. split; [|split].
  - eexists; split; [exact En|]. intros k Hk. cbv beta. rewrite negb_true_iff. split.
    + intros E. destruct (either s names ps Hs Hps Hn k Hk) as [H|H]; [|exact H]. apply (const_bool s ps Hs Hps) in H. congruence.
    + intros H. destruct (existsb _ _) eqn:E; [|reflexivity]. apply (const_bool s ps Hs Hps) in E. destruct (not_both s names ps Hs Hps Hn k E H).
  - exists (fun k => existsb (String.eqb k) (map pname_str (constant_params ps))). split.
    + rewrite Er. rewrite <- (pp_names s names ps Hs Hps Hn).
      assert (G : forall l, (forall q, In q l -> In q ps) -> map pname_str (constant_params l) = filter (fun k => existsb (String.eqb k) (map pname_str (constant_params ps))) (map pname_str l)).
      { induction l as [|q l IH]; intros Hl; [reflexivity|]. cbn [map filter constant_params]. fold (constant_params l).
        assert (E : existsb (String.eqb (pname_str q)) (map pname_str (constant_params ps)) = is_const q).
        { destruct (is_const q) eqn:Eq.
          - apply existsb_exists. exists (pname_str q). split; [|apply String.eqb_refl]. apply in_map. apply filter_In. split; [apply Hl; left; reflexivity|exact Eq].
          - destruct (existsb _ _) eqn:Ex; [|reflexivity]. apply existsb_exists in Ex. destruct Ex as (x & Hx & Ex). apply String.eqb_eq in Ex.
            apply in_map_iff in Hx. destruct Hx as (r' & <- & Hr). apply filter_In in Hr. destruct Hr as [Hr Hc].
            assert (r' = q) by (apply (pp_inj s names ps Hs Hps Hn); [exact Hr|apply Hl; left; reflexivity|congruence]). congruence. }
        rewrite E. destruct (is_const q); cbn [map filter]; rewrite IH by (intros r' Hr; apply Hl; right; exact Hr); reflexivity. }
      apply G. auto.
    + intros k _. cbv beta. exact (const_bool s ps Hs Hps k).
  - exact Ec. Qed.

(** ** C34, C35: values *)
Lemma normalised_column s names f v k p c : named_sample s -> label_frame s names f -> In v ["min_to_zero"; "absolute_max"] ->
  label_param s k p -> is_const p = false -> In (k, c) (fr_cols f) ->
  exists prep rem, apply_preprocessing (mkOp (literal v) s) (LFrame f) = Ok (prep, rem) /\ In (k, map (norm_cell (literal v) p) c) (fr_cols prep).
Proof. intros Hs (Hn & Hperm & Hlen) Hv Hp Hc Hi. destruct (all_params_ordinary s (proj1 Hs)) as (ps & names' & Hps & Hn' & _). assert (names' = names) by congruence. subst names'.
  destruct (apply_frame s (literal v) names ps Hs Hps Hn f (literal_known v Hv) Hperm) as (t & r & Ea & _ & Eu & _).
  eexists; eexists; split; [exact Ea|]. cbn [fr_cols]. apply tget_In. rewrite (Eu k p Hp Hc).
  assert (Hd : NoDup (map fst (fr_cols f))) by (eapply Permutation_NoDup; [exact Hperm|]; exact (label_names_NoDup s names (proj1 Hs) (proj2 Hs) Hn)).
  rewrite (In_tget _ _ _ Hd Hi). reflexivity. Qed.

Lemma RtoC_div x y : y <> 0 -> (RtoC x / RtoC y)%C = RtoC (x / y).
Proof. intros H. unfold Rdiv. rewrite RtoC_mult, RtoC_inv by exact H. reflexivity. Qed.

Lemma min_to_zero_cell lo hi n x : lo < hi ->
  norm_cell (literal "min_to_zero") (Range (Flt lo) (Flt hi) n) (Some (RtoC x)) = Some (RtoC ((x - lo) / (hi - lo))).
Proof. intros H. unfold norm_cell. simpl. unfold cdiv, hi_C, lo_C, num_C. simpl.
  assert (E : ((hi, 0) - (lo, 0))%C = RtoC (hi - lo)) by (unfold Cminus, Cplus, Copp, RtoC; simpl; f_equal; lra). 
  assert (E' : (RtoC x - (lo, 0))%C = RtoC (x - lo)) by (unfold Cminus, Cplus, Copp, RtoC; simpl; f_equal; lra).
  rewrite E, E'. destruct (Ceq_dec _ _) as [E2|_]; [injection E2; lra|]. f_equal. apply RtoC_div. lra. Qed.

Lemma absolute_max_cell lo hi n x : norm_cell (literal "absolute_max") (Range (Flt lo) (Flt hi) n) (Some (RtoC x)) =
  if Req_EM_T hi 0 then None else Some (RtoC (x / Rabs hi)).
Proof. unfold norm_cell. simpl. unfold cdiv, hi_C, num_C. simpl. change (hi, 0) with (RtoC hi). rewrite Cmod_R.
  destruct (Req_EM_T hi 0) as [->|Hh].
  - rewrite Rabs_R0. destruct (Ceq_dec _ _); congruence.
  - assert (Rabs hi <> 0) by (apply Rabs_no_R0; exact Hh). destruct (Ceq_dec _ _) as [E2|_]; [injection E2; lra|]. f_equal. apply RtoC_div. assumption. Qed.

Lemma unit_interval lo hi x : lo < hi -> let y := (x - lo) / (hi - lo) in
  (lo <= x <= hi -> 0 <= y <= 1) /\ (x = lo <-> y = 0) /\ (x = hi <-> y = 1).
Proof. intros H y. assert (Hy : y * (hi - lo) = x - lo) by (unfold y; field; lra). repeat split.
  - apply (Rmult_le_reg_r (hi - lo)); lra.
  - apply (Rmult_le_reg_r (hi - lo)); lra.
  - intros ->. apply (Rmult_eq_reg_r (hi - lo)); lra.
  - intros E. rewrite E in Hy. lra.
  - intros ->. apply (Rmult_eq_reg_r (hi - lo)); lra.
  - intros E. rewrite E in Hy. lra. Qed.

Lemma unit_monotone lo hi x x' : lo < hi -> (x < x' <-> (x - lo) / (hi - lo) < (x' - lo) / (hi - lo)).
Proof. intros H. assert (Hi : 0 < / (hi - lo)) by (apply Rinv_0_lt_compat; lra). split; intros E.
  - apply Rmult_lt_compat_r; lra.
  - apply Rmult_lt_reg_r in E; lra. Qed.

Lemma absolute_bound lo hi x : Rabs lo <= Rabs hi -> hi <> 0 -> lo <= x <= hi -> -1 <= x / Rabs hi <= 1.
Proof. intros Hm Hh Hx. assert (Hp : 0 < Rabs hi) by (apply Rabs_pos_lt; exact Hh).
  assert (Ha : Rabs x <= Rabs hi) by (unfold Rabs in *; repeat destruct (Rcase_abs _); lra).
  assert (Hy : x / Rabs hi * Rabs hi = x) by (field; lra).
  split; apply (Rmult_le_reg_r (Rabs hi)); try exact Hp; rewrite Hy; unfold Rabs in *; repeat destruct (Rcase_abs _); lra. Qed.

Lemma nth_map_R (f : R -> R) l i : (i < List.length l)%nat -> nth i (map f l) 0 = f (nth i l 0).
Proof. intros H. rewrite nth_indep with (d' := f 0) by (rewrite map_length; exact H). apply map_nth. Qed.

Lemma unit_scaled_map lo hi xs : lo < hi -> Forall (fun x => lo <= x <= hi) xs -> unit_scaled lo hi xs (map (fun x => (x - lo) / (hi - lo)) xs).
Proof. intros H F. rewrite Forall_forall in F. split; [apply map_length|]. split; [|split].
  - intros i Hi. rewrite nth_map_R by exact Hi. apply unit_interval; [exact H|]. apply F, nth_In, Hi.
  - intros i Hi. rewrite nth_map_R by exact Hi. destruct (unit_interval lo hi (nth i xs 0) H) as (_ & A & B). tauto.
  - intros i j Hi Hj. rewrite !nth_map_R by assumption. apply unit_monotone; assumption. Qed.

Lemma min_to_zero_column s names f k lo hi n xs : named_sample s -> label_frame s names f ->
  label_param s k (Range (Flt lo) (Flt hi) n) -> In (k, real_cells xs) (fr_cols f) -> lo < hi -> Forall (fun x => lo <= x <= hi) xs ->
  exists prep rem ys, apply_preprocessing (mkOp (literal "min_to_zero") s) (LFrame f) = Ok (prep, rem) /\
    In (k, real_cells ys) (fr_cols prep) /\ unit_scaled lo hi xs ys.
Proof. intros Hs Hf Hp Hi Hl F. destruct (normalised_column s names f "min_to_zero" k _ _ Hs Hf (or_introl eq_refl) Hp eq_refl Hi) as (prep & rem & E & I).
  exists prep, rem, (map (fun x => (x - lo) / (hi - lo)) xs). split; [exact E|]. split; [|apply unit_scaled_map; assumption].
  replace (real_cells (map (fun x => (x - lo) / (hi - lo)) xs)) with (map (norm_cell (literal "min_to_zero") (Range (Flt lo) (Flt hi) n)) (real_cells xs)); [exact I|].
  unfold real_cells. rewrite !map_map. apply map_ext. intros x. apply min_to_zero_cell. exact Hl. Qed.

Lemma absolute_max_column s names f k lo hi n xs : named_sample s -> label_frame s names f ->
  label_param s k (Range (Flt lo) (Flt hi) n) -> In (k, real_cells xs) (fr_cols f) -> hi <> 0 ->
  exists prep rem, apply_preprocessing (mkOp (literal "absolute_max") s) (LFrame f) = Ok (prep, rem) /\
    In (k, real_cells (map (fun x => x / Rabs hi) xs)) (fr_cols prep).
Proof. intros Hs Hf Hp Hi Hl. destruct (normalised_column s names f "absolute_max" k _ _ Hs Hf (or_intror (or_introl eq_refl)) Hp eq_refl Hi) as (prep & rem & E & I).
  exists prep, rem. split; [exact E|].
  replace (real_cells (map (fun x => x / Rabs hi) xs)) with (map (norm_cell (literal "absolute_max") (Range (Flt lo) (Flt hi) n)) (real_cells xs)); [exact I|].
  unfold real_cells. rewrite !map_map. apply map_ext. intros x. rewrite absolute_max_cell. destruct (Req_EM_T hi 0); [contradiction|reflexivity]. Qed.

Lemma absolute_max_bound s names f k lo hi n xs : named_sample s -> label_frame s names f ->
  label_param s k (Range (Flt lo) (Flt hi) n) -> In (k, real_cells xs) (fr_cols f) -> Forall (fun x => lo <= x <= hi) xs ->
  Rabs lo <= Rabs hi -> hi <> 0 ->
  exists prep rem ys, apply_preprocessing (mkOp (literal "absolute_max") s) (LFrame f) = Ok (prep, rem) /\
    In (k, real_cells ys) (fr_cols prep) /\ List.length ys = List.length xs /\ Forall (fun y => -1 <= y <= 1) ys /\
    (forall i, (i < List.length xs)%nat -> nth i xs 0 = hi -> Rabs (nth i ys 0) = 1).
Proof. intros Hs Hf Hp Hi F Ha Hh. destruct (absolute_max_column s names f k lo hi n xs Hs Hf Hp Hi Hh) as (prep & rem & E & I).
  exists prep, rem, (map (fun x => x / Rabs hi) xs). split; [exact E|]. split; [exact I|]. split; [apply map_length|]. split.
  - apply Forall_forall. intros y Hy. apply in_map_iff in Hy. destruct Hy as (x & <- & Hx). rewrite Forall_forall in F. apply (absolute_bound lo); auto.
  - intros i Hl E0. rewrite nth_map_R by exact Hl. rewrite E0. unfold Rdiv. rewrite Rabs_mult, Rabs_inv, Rabs_Rabsolu. apply Rinv_r. apply Rabs_no_R0. exact Hh. Qed.

Lemma absolute_max_zero s names f k lo n xs : named_sample s -> label_frame s names f ->
  label_param s k (Range (Flt lo) (Flt 0) n) -> In (k, real_cells xs) (fr_cols f) ->
  exists prep rem, apply_preprocessing (mkOp (literal "absolute_max") s) (LFrame f) = Ok (prep, rem) /\
    In (k, repeat None (List.length xs)) (fr_cols prep).
Proof. intros Hs Hf Hp Hi. destruct (normalised_column s names f "absolute_max" k _ _ Hs Hf (or_intror (or_introl eq_refl)) Hp eq_refl Hi) as (prep & rem & E & I).
  exists prep, rem. split; [exact E|].
  replace (repeat None (List.length xs)) with (map (norm_cell (literal "absolute_max") (Range (Flt lo) (Flt 0) n)) (real_cells xs)); [exact I|].
  unfold real_cells. rewrite !map_map. clear. induction xs as [|x xs IH]; [reflexivity|]. cbn [map List.length repeat]. f_equal; [|exact IH].
  rewrite absolute_max_cell. destruct (Req_EM_T 0 0); [reflexivity|congruence]. Qed.

(** ** C37 *)
Lemma unknown_norm v : known_norm (mkPystr v false) = false.
Proof. reflexivity. Qed.

Lemma mk_out_pp_Ok s nm : (exists o, mk_out_pp s nm = Ok o) <-> In (ps_val nm) ["min_to_zero"; "absolute_max"].
Proof. unfold mk_out_pp. simpl. rewrite orb_false_r. destruct (String.eqb_spec (ps_val nm) "min_to_zero") as [E|N1]; simpl.
  - split; [auto|eauto].
  - destruct (String.eqb_spec (ps_val nm) "absolute_max") as [E|N2]; simpl.
    + split; [auto|eauto].
    + split; [intros (o & H); discriminate|intros [H|[H|[]]]; congruence]. Qed.

Lemma apply_unknown s names f v : named_sample s -> label_frame s names f ->
  exists prep rem, apply_preprocessing (mkOp (mkPystr v false) s) (LFrame f) = Ok (prep, rem) /\
    forall k c, variable_label s k -> In (k, c) (fr_cols f) -> In (k, c) (fr_cols prep).
Proof. intros Hs (Hn & Hperm & Hlen). destruct (all_params_ordinary s (proj1 Hs)) as (ps & names' & Hps & Hn' & _). assert (names' = names) by congruence. subst names'.
  unfold apply_preprocessing. cbn [op_sample]. rewrite Hn. cbn [bind convert_to_dataframe]. unfold remove_labels. cbn [op_sample]. rewrite Hps. cbn [bind].
  assert (Hd : NoDup (map fst (fr_cols f))) by (eapply Permutation_NoDup; [exact Hperm|]; exact (label_names_NoDup s names (proj1 Hs) (proj2 Hs) Hn)).
  destruct (remove_fold (constant_params ps) (fr_cols f) Hd) as (A & B & D). set (t1 := fold_left _ (constant_params ps) (fr_cols f)) in *.
  unfold normalize_labels. cbn [op_sample op_norm fr_cols fr_rows]. rewrite Hps. cbn [bind]. rewrite map_params_unknown by reflexivity. cbn [bind].
  destruct (tselect_Ok (fr_cols f) (map pname_str (constant_params ps))) as (rem & E3 & En3 & Eg3).
  { intros k Hc. apply tget_Some. eapply Permutation_in; [exact Hperm|]. apply (label_in s names ps Hs Hps Hn). left. now apply (const_name s ps Hs Hps). }
  rewrite E3. cbn [bind]. eexists; eexists; split; [reflexivity|]. cbn [fr_cols]. intros k c Hv Hi. apply tget_In. rewrite D.
  destruct (existsb _ _) eqn:E; [|apply In_tget; assumption]. apply (const_bool s ps Hs Hps) in E. destruct (not_both s names ps Hs Hps Hn k E Hv). Qed.
