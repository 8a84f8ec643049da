(** Proofs about the curve fitter: selection of variants, order of the rows, errors. *)
From Coq Require Import Reals Lra.
From Coquelicot Require Import Complex.
From Verif Require Import Py Str Cplx Sample_Model Sample_Spec Sample_Proofs Rng Sampling_Model Sampling_Spec Sampling_Proofs Labels_Proofs
  Reflectivity_Model Reflectivity_Spec Simulation_Model Simulation_Spec Simulation_Proofs Interp_Model Interp_Spec Interp_Proofs Arr
  Preproc_Model Preproc_Spec Preproc_Proofs OutPreproc_Proofs Trainer_Proofs P08_Proofs Fitter_Model Fitter_Spec Fitter_Proofs FitterOut_Proofs Polish_Proofs.
Local Open Scope string_scope.
Local Open Scope R_scope.

(** ** Errors *)
Lemma log_row_finite xs : positive_row xs -> map flog10 (map Some xs) = map Some (map Interp_Model.log10 xs).
Proof. induction 1 as [|x xs Hx F IH]; [reflexivity|]. cbn [map]. unfold flog10 at 1. destruct (Rlt_dec 0 x); [|contradiction]. now rewrite <- IH. Qed.

Lemma bop_finite (f : fl -> fl -> fl) (h : R -> R -> R) n a b : (forall x y, f (Some x) (Some y) = Some (h x y)) -> List.length a = n -> List.length b = n ->
  bop f n (map Some a) (map Some b) = map Some (map (fun xy => h (fst xy) (snd xy)) (combine a b)).
Proof. intros H <- L. assert (E : @List.length fl (map Some a) = List.length a) by apply map_length. rewrite <- E. rewrite bop_same by (rewrite !map_length; symmetry; exact L).
  clear E. revert b L. induction a as [|x a IH]; intros [|y b] L; try discriminate; [reflexivity|]. cbn [map combine fst snd]. f_equal; [apply H|]. apply IH. now injection L. Qed.

Lemma sq_finite xs : map fsq (map Some xs) = map Some (map (fun x => x ^ 2) xs).
Proof. induction xs as [|x xs IH]; [reflexivity|]. cbn [map]. rewrite IH. unfold fsq, fmul, lift2. replace (x * x) with (x ^ 2) by ring. reflexivity. Qed.
Lemma mean_sq_finite xs : xs <> [] -> fmean (map fsq (map Some xs)) = Some (avg (map (fun x => x ^ 2) xs)).
Proof. intros H. rewrite sq_finite. exact (fmean_finite (map (fun x => x ^ 2) xs) ltac:(destruct xs; [congruence|discriminate])). Qed.

Lemma variant_log_mse_exact r vs : r <> [] -> positive_row r -> Forall positive_row vs -> Forall (fun v => List.length v = List.length r) vs ->
  variant_log_mse (map Some r) (List.length r) (map (map Some) vs) = Ok (map Some (map (log_error r) vs)).
Proof. intros Hr Pr Pv Lv. unfold variant_log_mse. rewrite row_op_A2 by (rewrite !map_length; reflexivity). cbn [bind]. f_equal. rewrite (log_row_finite r Pr).
  induction vs as [|v vs IH]; [reflexivity|]. cbn [map]. inversion Pv as [|? ? Pv1 Pv2]; inversion Lv as [|? ? Lv1 Lv2]; subst. specialize (IH Pv2 Lv2). f_equal; [|exact IH]. clear IH.
  rewrite (log_row_finite v Pv1).
  rewrite (bop_finite (fun x y => fsub y x) (fun x y => y - x) (List.length r)) by (rewrite ?map_length; auto). rewrite mean_sq_finite.
  - f_equal. unfold log_error. f_equal. rewrite map_map. clear -Lv1. revert v Lv1. induction r as [|a r IH]; intros [|b v] L; try discriminate; [reflexivity|].
    cbn [map combine fst snd]. f_equal. apply IH. now injection L.
  - destruct v, r; try discriminate; congruence. Qed.

Lemma argmin_exact pick xs i : argmin pick (map Some xs) = Ok i -> first_min xs i.
Proof. unfold argmin. destruct xs as [|x xs]; [discriminate|]. assert (E : all_finite (map Some (x :: xs)) = Some (x :: xs)) by (apply all_finite_Some; reflexivity).
  rewrite E. cbn [map]. intros H. exact (argmin_R_spec (x :: xs) i H). Qed.

Lemma slice_part A (l : list A) lo hi : py_slice l (Some (Z.of_nat lo)) (Some (Z.of_nat hi)) = part lo hi l.
Proof. rewrite slice_nat. unfold part. reflexivity. Qed.

Lemma Forall2_weaken A B (P Q : A -> B -> Prop) l l' : (forall a b, P a b -> Q a b) -> Forall2 P l l' -> Forall2 Q l l'.
Proof. intros H. induction 1; constructor; auto. Qed.

(** ** C68 *)
Section Choice.
  Context {S : Type} (g : rng S) (refl1d : option refl1d_fun) (pick : list fl -> nat) (cf : @curve_fit_fun S) (m : nn_model).

  Lemma py_get_nth A (l : list A) i x : py_get l (Z.of_nat i) = Ok x -> nth_error l i = Some x.
  Proof. clear. intros H. destruct (nth_error l i) as [y|] eqn:E; [rewrite (py_get_nat l i E) in H; congruence|]. apply nth_error_None in E.
    destruct (py_get_spec _ _ H) as (k & Ek & E'). apply norm_idx_lt in Ek as Hl. unfold norm_idx in Ek. exfalso.
    replace (Z.of_nat i <? Z.of_nat (List.length l))%Z with false in Ek by lia. replace (Z.of_nat i <? 0)%Z with false in Ek by lia. rewrite !andb_false_r in Ek. discriminate. Qed.

  Lemma optimize_q_choice fit s q curve n s' d best c : optimize_q g refl1d pick fit m s (nn_q m) q curve n = Ok (s', (d, best, c)) ->
    shift_choice g fit m q curve n d best.
  Proof. unfold optimize_q, q_shift_variants. intros H. bind_as H v Ev. destruct v as [s1 [curves shifts]]. bind_as Ev nd End. destruct nd as [s0 ds]. bind_as Ev cs0 Ec. injection Ev as -> -> ->.
    bind_as H fo Ef. destruct fo as [s2 out]. bind_as H ref Er. destruct (fo_refl out) as [cs|] eqn:Eo; [|discriminate]. bind_as H err Ee. bind_as H i Ei. bind_as H sim Es. destruct sim as [s3 sim].
    bind_as H c0 Ec0. bind_as H d0 Ed. injection H as <- <- <- <-. apply py_get_nth in Ed.
    exists s, s1, shifts, curves, s2, out, cs, ref, i. split; [exact End|]. split; [exact (proj1 (mapM_Ok_iff _ _ _) Ec)|]. split; [exact Ef|]. split; [exact Eo|]. split; [exact Er|]. split; [exact Ed|]. split; [reflexivity|].
    intros r vs -> -> Hr Pr Pv Lv. pose proof (interp_fl_length _ _ _ _ Er) as L. rewrite map_length in L. rewrite <- L in Ee. rewrite (variant_log_mse_exact r vs Hr Pr Pv Lv) in Ee. injection Ee as <-.
    eapply argmin_exact. exact Ei. Qed.

  Lemma optimize_scaling_choice fit s q lo hi curve n dq s' k best c : optimize_scaling g pick fit s q lo hi curve n dq = Ok (s', (k, best, c)) ->
    scaling_choice g fit q lo hi curve n dq k best.
  Proof. unfold optimize_scaling, curve_scaling_variants. intros H. bind_as H v Ev. destruct v as [s1 [curves ks]]. bind_as Ev nd End. destruct nd as [s0 ds]. injection Ev as -> <- ->.
    bind_as H fo Ef. destruct fo as [s2 out]. destruct (fo_refl out) as [cs|] eqn:Eo; [|discriminate]. cbv zeta in H. bind_as H err Ee. bind_as H i Ei.
    bind_as H c0 Ec0. bind_as H d0 Ed. injection H as <- <- <- <-. apply py_get_nth in Ed.
    exists s, s1, ks, s2, out, cs, i. split; [exact End|]. split; [exact Ef|]. split; [exact Eo|]. split; [exact Ed|]. split; [reflexivity|].
    intros r vs Er Evs Hr Lq Pr Pv Lv. rewrite !slice_part in Ee. rewrite <- Lq in Ee. rewrite Er in Ee.
    assert (E : map (fun l : list fl => py_slice l (Some (Z.of_nat lo)) (Some (Z.of_nat hi))) cs = map (map Some) vs).
    { rewrite <- Evs. apply map_ext. intros l. apply slice_part. }
    rewrite E in Ee. rewrite (variant_log_mse_exact r vs Hr Pr Pv Lv) in Ee. injection Ee as <-. eapply argmin_exact. exact Ei. Qed.

  (** The window *)
  Lemma max_R_spec l x : max_R l = Ok x -> In x l /\ Forall (fun y => y <= x) l.
  Proof. clear. destruct l as [|a l]; [discriminate|]. intros H. injection H as <-.
    assert (G : forall l a, (fold_left Rmax l a = a \/ In (fold_left Rmax l a) l) /\ a <= fold_left Rmax l a /\ Forall (fun y => y <= fold_left Rmax l a) l).
    { clear. induction l as [|b l IH]; intros a; [split; [left; reflexivity|split; [apply Rle_refl|constructor]]|]. cbn [fold_left]. destruct (IH (Rmax a b)) as (A & B & C).
      pose proof (Rmax_l a b). pose proof (Rmax_r a b). split; [|split; [lra|constructor; [lra|exact C]]].
      destruct A as [A|A]; [|right; right; exact A]. rewrite A. unfold Rmax. destruct (Rle_dec a b); [right; left; reflexivity|left; reflexivity]. }
    destruct (G l a) as (A & B & C). split; [destruct A as [A|A]; [left; symmetry; exact A|right; exact A]|constructor; assumption]. Qed.
  Lemma min_R_spec l x : min_R l = Ok x -> In x l /\ Forall (fun y => x <= y) l.
  Proof. clear. destruct l as [|a l]; [discriminate|]. intros H. injection H as <-.
    assert (G : forall l a, (fold_left Rmin l a = a \/ In (fold_left Rmin l a) l) /\ fold_left Rmin l a <= a /\ Forall (fun y => fold_left Rmin l a <= y) l).
    { clear. induction l as [|b l IH]; intros a; [split; [left; reflexivity|split; [apply Rle_refl|constructor]]|]. cbn [fold_left]. destruct (IH (Rmin a b)) as (A & B & C).
      pose proof (Rmin_l a b). pose proof (Rmin_r a b). split; [|split; [lra|constructor; [lra|exact C]]].
      destruct A as [A|A]; [|right; right; exact A]. rewrite A. unfold Rmin. destruct (Rle_dec a b); [left; reflexivity|right; left; reflexivity]. }
    destruct (G l a) as (A & B & C). split; [destruct A as [A|A]; [left; symmetry; exact A|right; exact A]|constructor; assumption]. Qed.
  Lemma window_spec q lo hi : window m q = Ok (lo, hi) -> nearest_window m q lo hi.
  Proof. unfold window. intros H. bind_as H qmax E1. bind_as H i E2. bind_as H qmin E3. bind_as H lo' E4. injection H as <- <-.
    apply max_R_spec in E1. apply min_R_spec in E3. exists qmin, qmax. destruct E1, E3. repeat (split; [assumption|]). split; [apply argmin_R_spec; exact E4|]. split; [lia|].
    replace (i + 1 - 1)%nat with i by lia. apply argmin_R_spec. exact E2. Qed.

  (** The innermost calls are calls of fit_curve. *)
  Lemma plain_is_fit s a q dq : fit_plain g refl1d pick cf m s a q (plain_options dq) = fit_curve g refl1d pick cf m s a q (plain_options dq).
  Proof. reflexivity. Qed.
  Lemma shift_choice_fit q c n d best : shift_choice g (fit_plain g refl1d pick cf m) m q c n d best -> shift_choice g (fit_curve g refl1d pick cf m) m q c n d best.
  Proof. intros H. exact H. Qed.

  Lemma check_row_Ok w x y : check_row w x = Ok y -> y = x.
  Proof. clear. unfold check_row. intros H. bind_inv H. destruct (Nat.eqb a w); [congruence|discriminate]. Qed.

  Lemma shifts_chosen s curve q o s' out : fit_curve g refl1d pick cf m s curve q o = Ok (s', out) -> o_opt_q o = true ->
    exists ds, fo_shift out = Some ds /\
      Forall2 (fun c d => exists best, shift_choice g (fit_curve g refl1d pick cf m) m q c (o_nq o) d best) (curves_of curve) ds.
  Proof. intros H Ho. unfold fit_curve in H. apply fit_core_inv in H. destruct H as (lo & hi & ip & s1 & shift & s2 & sc & p0 & s3 & p & _ & _ & E1 & _ & _ & _ & _ & -> & _).
    unfold shift_stage in E1. rewrite Ho in E1. bind_as E1 r Er. destruct r as [s4 outs]. bind_as E1 f Ef. injection E1 as <- <-. cbn [option_map fst].
    eexists. split; [reflexivity|]. apply mapS_Forall2 in Er. clear -Er. induction Er as [|c x l l' (s5 & s6 & E) Er IH]; [constructor|]. cbn [map]. constructor; [|exact IH].
    bind_as E r E0. destruct r as [s7 x0]. bind_as E y E1. injection E as <- <-. apply check_row_Ok in E1. subst y. destruct x0 as [[d best] c0]. exists best. cbn [fst].
    apply shift_choice_fit. eapply optimize_q_choice. exact E0. Qed.

  Lemma Forall2_combine_seq A B (P : nat -> A -> B -> Prop) l l' : forall k, Forall2 (fun ic x => P (fst ic) (snd ic) x) (combine (seq k (List.length l)) l) l' ->
    List.length l' = List.length l /\ forall i a b, nth_error l i = Some a -> nth_error l' i = Some b -> P (k + i)%nat a b.
  Proof. clear. revert l'. induction l as [|a l IH]; intros l' k H; cbn [List.length seq combine] in H; inversion H; subst; [split; [reflexivity|intros [|i]; discriminate]|].
    match goal with F : Forall2 _ _ _ |- _ => destruct (IH _ _ F) as [L K] end. split; [simpl; congruence|]. intros [|i] x z Hx Hz; cbn [nth_error] in *.
    - injection Hx as <-. injection Hz as <-. rewrite Nat.add_0_r. assumption.
    - replace (k + Datatypes.S i)%nat with (Datatypes.S k + i)%nat by lia. eapply K; eassumption. Qed.

  Lemma scaling_chosen s curve q o s' out : fit_curve g refl1d pick cf m s curve q o = Ok (s', out) -> o_opt_scale o = true ->
    exists ks lo hi fs, fo_scaling out = Some ks /\ nearest_window m q lo hi /\ List.length ks = List.length (curves_of curve) /\
      List.length fs = List.length (curves_of curve) /\
      (forall i c k f, nth_error (curves_of curve) i = Some c -> nth_error ks i = Some k -> nth_error fs i = Some f -> exists dq, shift_at out i = Some dq /\
         scaling_choice g (fit_curve g refl1d pick cf m) q lo hi c (o_ns o) dq k f) /\
      (o_opt_q o = true -> o_polish o = false -> concat_frames fs = Ok (fo_params out)).
  Proof. intros H Ho. unfold fit_curve in H. apply fit_core_inv in H. destruct H as (lo & hi & ip & s1 & shift & s2 & sc & p0 & s3 & p & Ew & _ & E1 & E2 & E3 & E4 & Ep & Es & Esc & _).
    unfold scale_stage in E2. rewrite Ho in E2. bind_as E2 r Er. destruct r as [s4 outs]. bind_as E2 f Ef. injection E2 as <- <-. cbn [option_map fst] in Esc.
    exists (map (fun x => fst (fst x)) outs), lo, hi, (map (fun x => snd (fst x)) outs). split; [exact Esc|]. split; [apply window_spec; exact Ew|].
    apply mapS_Forall2 in Er.
    pose (P := fun (j : nat) (c : list fl) (x : R * frame * list fl) => exists s5 s6, scale_one g pick (fit_plain g refl1d pick cf m) (width curve q) lo hi q (o_ns o) shift s5 (j, c) = Ok (s6, x)).
    destruct (Forall2_combine_seq _ _ P (curves_of curve) outs 0%nat) as [L K].
    { eapply Forall2_weaken; [|exact Er]. intros [j c] x (s5 & s6 & E). exists s5, s6. exact E. }
    rewrite !map_length. split; [exact L|]. split; [exact L|]. split.
    - intros i c k f' Hc Hk Hfi. rewrite nth_error_map in Hk, Hfi. destruct (nth_error outs i) as [x|] eqn:Ex; [|discriminate]. cbn [option_map] in Hk, Hfi. injection Hk as <-. injection Hfi as <-.
      destruct (K i c x Hc Ex) as (s5 & s6 & E). cbn [Nat.add] in E. unfold scale_one in E. cbn [fst snd] in E. bind_as E dq Edq. bind_as E r E0. destruct r as [s7 x0]. bind_as E y Ey. injection E as <- <-.
      apply check_row_Ok in Ey. subst y. destruct x0 as [[k best] c0]. exists dq. split.
      + unfold shift_at. rewrite Es. destruct shift as [[ds f0]|]; cbn [option_map fst]; [apply py_get_nth; exact Edq|congruence].
      + cbn [fst snd]. eapply optimize_scaling_choice. exact E0.
    - intros Hq Hp. unfold polish_stage in E4. rewrite Hp in E4. injection E4 as <- <-. apply shift_some in E1. destruct shift as [sh|]; [|destruct E1 as [E1 _]; rewrite Hq in E1; discriminate (E1 eq_refl)].
      injection E3 as <-. rewrite Ep. exact Ef. Qed.
End Choice.

(** ** Rows of concatenated tables *)
Lemma tget_by_names names n f : NoDup names -> shaped names n f -> forall (h : list cell -> cell), map (fun k => match tget (fr_cols f) k with Some c => h c | None => None end) names = map (fun kc => h (snd kc)) (fr_cols f).
Proof. intros Nd (A & _) h. subst names. induction (fr_cols f) as [|[k c] t IH]; [reflexivity|]. cbn [map fst snd] in *. inversion Nd as [|? ? Hk Nd']; subst.
  cbn [tget]. rewrite String.eqb_refl. f_equal. rewrite <- (IH Nd'). apply map_ext_in. intros k' Hk'. destruct (String.eqb_spec k k') as [->|]; [contradiction|reflexivity]. Qed.
Lemma append_row_l names n f f' i : shaped names n f -> (i < n)%nat -> frame_row (append_frame f f') i = frame_row f i.
Proof. intros (_ & _ & F) Hi. unfold frame_row, append_frame. cbn [fr_cols]. rewrite map_map. cbn [snd]. apply map_ext_in. intros kc Hk. rewrite Forall_forall in F. rewrite app_nth1; [reflexivity|]. rewrite (F kc Hk). exact Hi. Qed.
Lemma append_row_r names n n' f f' i : NoDup names -> shaped names n f -> shaped names n' f' -> (i < n')%nat -> frame_row (append_frame f f') (n + i) = frame_row f' i.
Proof. intros Nd (A & B & F) Sh Hi. unfold frame_row. refine (eq_trans _ (tget_by_names names n' f' Nd Sh (fun c => nth i c None))). rewrite <- A. unfold append_frame. cbn [fr_cols]. rewrite !map_map. cbn [snd].
  apply map_ext_in. intros kc Hk. rewrite Forall_forall in F. rewrite app_nth2 by (rewrite (F kc Hk); lia). rewrite (F kc Hk). replace (n + i - n)%nat with i by lia.
  destruct (shaped_tget names n' f' (fst kc) Sh) as (c & E & _); [rewrite <- A; apply in_map; exact Hk|]. rewrite E. reflexivity. Qed.
Lemma fold_rows names fs : NoDup names -> Forall (shaped names 1) fs -> forall k f0, shaped names k f0 ->
  (forall j, (j < k)%nat -> frame_row (fold_left append_frame fs f0) j = frame_row f0 j) /\
  (forall i f, nth_error fs i = Some f -> frame_row (fold_left append_frame fs f0) (k + i) = frame_row f 0).
Proof. intros Nd F. induction F as [|f fs Hf F IH]; intros k f0 Sh; [split; [reflexivity|intros [|i]; discriminate]|]. cbn [fold_left].
  destruct (IH (k + 1)%nat (append_frame f0 f) (shaped_append _ _ _ _ _ Sh Hf)) as [A B]. split.
  - intros j Hj. rewrite A by lia. eapply append_row_l; eauto.
  - intros [|i] f1 E; cbn [nth_error] in E.
    + injection E as <-. rewrite A by lia. rewrite (append_row_r names k 1 f0 f 0 Nd Sh Hf) by lia. reflexivity.
    + replace (k + S i)%nat with (k + 1 + i)%nat by lia. apply B. exact E. Qed.
Lemma concat_rows names fs f : NoDup names -> Forall (shaped names 1) fs -> concat_frames fs = Ok f ->
  forall i fi, nth_error fs i = Some fi -> frame_row f i = frame_row fi 0.
Proof. intros Nd F E i fi Hi. destruct fs as [|f0 fs]; [discriminate|]. cbn [concat_frames] in E. injection E as <-. inversion F as [|? ? H0 F']; subst.
  destruct (fold_rows names fs Nd F' 1%nat f0 H0) as [A B]. destruct i as [|i]; cbn [nth_error] in Hi; [injection Hi as <-; apply A; lia|]. exact (B i fi Hi). Qed.

(** ** C66: order of the rows *)
Definition cut1 {A} (i : nat) (l : list A) : list A := firstn 1 (skipn i l).
Lemma tget_map_cols (h : list cell -> list cell) t k : tget (map (fun kc => (fst kc, h (snd kc))) t) k = option_map h (tget t k).
Proof. induction t as [|[k' c] t IH]; [reflexivity|]. cbn [map tget fst snd]. destruct (String.eqb k' k); [reflexivity|exact IH]. Qed.
Lemma combine_map_snd (h : list cell -> list cell) (ns : list string) cs : combine ns (map h cs) = map (fun kc => (fst kc, h (snd kc))) (combine ns cs).
Proof. revert cs. induction ns as [|n ns IH]; intros [|c cs]; try reflexivity. cbn [map combine fst snd]. now rewrite IH. Qed.
Lemma cut1_repeat A (x : A) n i : (i < n)%nat -> cut1 i (repeat x n) = repeat x 1.
Proof. unfold cut1. revert i. induction n as [|n IH]; intros [|i] H; try lia; [reflexivity|]. cbn [repeat skipn]. apply IH. lia. Qed.
Lemma cut1_map A B (f : A -> B) l i : cut1 i (map f l) = map f (cut1 i l).
Proof. unfold cut1. now rewrite skipn_map, firstn_map. Qed.
Lemma cut1_nth A (l : list A) i x : nth_error l i = Some x -> cut1 i l = [x].
Proof. unfold cut1. revert i. induction l as [|y l IH]; intros [|i] H; try discriminate; [injection H as ->; reflexivity|]. cbn [skipn]. apply IH. exact H. Qed.
Lemma slice_ensure i f : frame_slice i (ensure_positive f) = ensure_positive (frame_slice i f).
Proof. unfold frame_slice, ensure_positive. cbn [fr_rows fr_cols]. f_equal. rewrite !map_map. apply map_ext. intros [k c]. cbn [fst snd]. f_equal.
  destruct (sign_free k); [|reflexivity]. now rewrite skipn_map, firstn_map. Qed.

Lemma restore_slice s names ps n cs i f : named_sample s -> all_params s = Ok ps -> label_names s = Ok names ->
  List.length cs = List.length (used_params ps) -> Forall (fun c => List.length c = n) cs -> (i < n)%nat ->
  restore_labels (mkOp (mkPystr "min_to_zero" true) s) (LArray n cs) = Ok f ->
  restore_labels (mkOp (mkPystr "min_to_zero" true) s) (LArray 1 (map (cut1 i) cs)) = Ok (frame_slice i f).
Proof. intros Hs Hps Hn L F Hi E. destruct (restore_array s names ps n cs Hs Hps Hn L F) as (f0 & E0 & Sh & _ & Ec & Ev). rewrite E in E0. injection E0 as <-.
  destruct (restore_array s names ps 1 (map (cut1 i) cs) Hs Hps Hn) as (f1 & E1 & Sh1 & _ & Ec1 & Ev1); [now rewrite map_length| |].
  { apply Forall_map. eapply Forall_impl; [|exact F]. intros c Hc. unfold cut1. rewrite firstn_length, skipn_length, Hc. lia. }
  rewrite E1. f_equal. pose proof (shaped_slice names n f i Sh Hi) as Sh2. destruct f1 as [r1 t1]. unfold frame_slice in Sh2 |- *.
  destruct Sh1 as (A1 & B1 & _), Sh2 as (A2 & B2 & _). cbn [fr_cols fr_rows] in *. subst r1. f_equal; [symmetry; exact B2|].
  apply table_ext; [congruence|rewrite A1; exact (pp_NoDup s names Hs Hn)|]. rewrite A1. intros k Hk. change (fun kc : string * list cell => (fst kc, firstn 1 (skipn i (snd kc)))) with (fun kc : string * list cell => (fst kc, cut1 i (snd kc))).
  rewrite tget_map_cols. destruct (either s names ps Hs Hps Hn k Hk) as [(p & Hp & Hc)|(p & Hp & Hc)].
  - rewrite (Ec1 k p Hp Hc), (Ec k p Hp Hc). cbn [option_map]. f_equal. symmetry. apply cut1_repeat. exact Hi.
  - rewrite (Ev1 k p Hp Hc), (Ev k p Hp Hc). rewrite combine_map_snd, tget_map_cols. destruct (tget (combine (map pname_str (used_params ps)) cs) k) as [c|]; [|reflexivity].
    cbn [option_map]. f_equal. symmetry. apply cut1_map. Qed.

Section Order.
  Context {S : Type} (g : rng S) (refl1d : option refl1d_fun) (pick : list fl -> nat) (cf : @curve_fit_fun S) (m : nn_model) (names : list string).
  Context (Hs : named_sample (nn_sample m)) (Hn : network_ok m names) (Hr : network_rowwise m).

  Lemma columns_cut k out i r : nth_error out i = Some r -> columns_of k [r] = map (cut1 i) (columns_of k out).
  Proof. clear. intros H. unfold columns_of. rewrite map_map. apply map_ext. intros j. refine (eq_sym (eq_trans (cut1_map _ _ _ out i) _)).
    exact (f_equal (map _) (cut1_nth _ _ _ _ H)). Qed.

  Lemma predict_slice rows f i r : Forall (fun r => List.length r = List.length (nn_q m)) rows -> predict_labels m rows = Ok f -> nth_error rows i = Some r ->
    predict_labels m [r] = Ok (frame_slice i f).
  Proof. intros F H Hi. destruct Hn as (_ & Lm & Ls & En & (ps & Eps & Eo) & Hp). destruct Hr as (h & Hh).
    unfold predict_labels, standardize, nn_ip in *. cbn [ip_mean ip_std snd] in *.
    rewrite row_op_A2 in * by exact Lm. cbn [bind] in *. rewrite row_op_A2 in * by exact Ls. cbn [bind map] in *. rewrite map_map in H.
    pose (st := fun r => bop fdiv (List.length (nn_q m)) (bop fsub (List.length (nn_q m)) r (nn_mean m)) (nn_std m)).
    assert (Ws : forall x, List.length x = List.length (nn_q m) -> List.length (st x) = List.length (nn_q m)) by (intros x Hx; apply length_bop_n; [apply length_bop_n|]; assumption).
    assert (Fs : Forall (fun r => List.length r = List.length (nn_q m)) (map st rows)).
    { apply Forall_map. eapply Forall_impl; [|exact F]. intros r' Hr'. apply Ws. exact Hr'. }
    assert (Fr : Forall (fun r => List.length r = List.length (nn_q m)) [st r]).
    { constructor; [|constructor]. apply Ws. rewrite Forall_forall in F. apply F. eapply nth_error_In. exact Hi. }
    change (bop fdiv (List.length (nn_q m)) (bop fsub (List.length (nn_q m)) r (nn_mean m)) (nn_std m)) with (st r).
    change (map _ rows) with (map st rows) in H. rewrite Hh in H; [|destruct rows; [destruct i|]; discriminate|exact Fs]. rewrite (Hh [st r]) by (discriminate || exact Fr). cbn [bind map] in *.
    bind_as H f0 E0. injection H as <-. rewrite slice_ensure.
    destruct (Hp (map st rows)) as (out & Eout & Lout & Fout); [destruct rows; [destruct i|]; discriminate|exact Fs|].
    rewrite Hh in Eout; [|destruct rows; [destruct i|]; discriminate|exact Fs]. injection Eout as <-. rewrite map_map in *.
    assert (Hi' : nth_error (map (fun x => h (st x)) rows) i = Some (h (st r))) by (rewrite nth_error_map, Hi; reflexivity).
    destruct (columns_shape (nn_out m) (map (fun x => h (st x)) rows)) as [A B].
    rewrite (columns_cut (nn_out m) _ i _ Hi'). cbn [List.length]. unfold nn_op in *.
    rewrite (restore_slice (nn_sample m) names ps _ _ i f0 Hs Eps En ltac:(rewrite A, Eo; reflexivity) B ltac:(apply nth_error_Some; congruence) E0). reflexivity. Qed.

  Lemma row_order s curve q o s' out i c s1 s1' out1 : ~ both o -> o_polish o = false ->
    fit_curve g refl1d pick cf m s curve q o = Ok (s', out) -> nth_error (curves_of curve) i = Some c ->
    fit_curve g refl1d pick cf m s1 (A1 c) q o = Ok (s1', out1) -> fo_params out1 = frame_slice i (fo_params out).
  Proof. intros Nb Hp H Hi H1. unfold fit_curve in H, H1. apply unoptimised_params in H; [|assumption..]. apply unoptimised_params in H1; [|assumption..].
    destruct H as (ip & E & Ep), H1 as (ip1 & E1 & Ep1). unfold interp_stage, interpolate_intensity in *. cbn [curves_of map mapM] in E1.
    bind_as E1 r1 Er1. injection E1 as <-.
    assert (Hr1 : nth_error ip i = Some r1).
    { clear Ep Ep1. revert ip i Hi E. induction (curves_of curve) as [|c0 cs IH]; intros ip i Hi E; [destruct i; discriminate|]. cbn [map mapM] in E. bind_as E r0 Er0. bind_as E rs Ers. injection E as <-.
      destruct i as [|i]; cbn [nth_error] in *; [injection Hi as ->; congruence|]. apply IH; [exact Hi|reflexivity]. }
    assert (F : Forall (fun r => List.length r = List.length (nn_q m)) ip).
    { apply mapM_Ok_iff in E. eapply Forall2_right; [exact E|]. intros a b _ Hab. eapply interp_fl_length. exact Hab. }
    pose proof (predict_slice ip (fo_params out) i r1 F Ep Hr1) as K. congruence. Qed.
End Order.

(** ** C81 *)
Lemma bdim_comm a b : bdim a b = bdim b a.
Proof. unfold bdim. destruct (Nat.eqb_spec a b), (Nat.eqb_spec b a), (Nat.eqb_spec a 1), (Nat.eqb_spec b 1); subst; try reflexivity; congruence. Qed.
Lemma fsq_swap x y : fsq (fsub x y) = fsq (fsub y x).
Proof. destruct x as [x|], y as [y|]; try reflexivity. unfold fsq, fsub, fmul, lift2. f_equal. ring. Qed.
Lemma sq_bop_swap n a b : map fsq (bop fsub n a b) = map fsq (bop fsub n b a).
Proof. unfold bop. rewrite !map_map. generalize (stretch n a) (stretch n b). intros l l'. revert l'. induction l as [|x l IH]; intros [|y l']; try reflexivity. cbn [combine map fst snd]. f_equal; [apply fsq_swap|apply IH]. Qed.
Lemma sq_bop_flip n a b : map fsq (bop (fun x y => fsub y x) n a b) = map fsq (bop fsub n a b).
Proof. unfold bop. rewrite !map_map. apply map_ext. intros [x y]. cbn [fst snd]. apply fsq_swap. Qed.
Lemma mse_symmetric a b : mean_squared_error a b = mean_squared_error b a.
Proof. unfold mean_squared_error. rewrite (Nat.eqb_sym (arr_len b)). destruct (negb _); [reflexivity|].
  destruct a as [v|m rows], b as [w|k rows']; cbn [arr_sub row_op].
  - rewrite (bdim_comm (List.length w)). destruct (bdim _ _) as [n|]; [|reflexivity]. cbn [bind map]. f_equal. f_equal. f_equal. apply sq_bop_swap.
  - destruct (bdim k (List.length v)) as [n|]; [|reflexivity]. cbn [bind]. f_equal. rewrite !map_map. apply map_ext. intros r. f_equal. apply sq_bop_flip.
  - destruct (bdim m (List.length w)) as [n|]; [|reflexivity]. cbn [bind]. f_equal. rewrite !map_map. apply map_ext. intros r. f_equal. symmetry. apply sq_bop_flip.
  - rewrite (bdim_comm k). destruct (bdim m k) as [n|]; [|reflexivity]. cbn [bind]. f_equal. revert rows'. induction rows as [|r rows IH]; intros [|r' rows']; try reflexivity.
    cbn [combine map fst snd]. f_equal; [f_equal; apply sq_bop_swap|apply IH]. Qed.

Lemma sq_nonneg l : Forall (fun x : R => 0 <= x) (map (fun x => x ^ 2) l).
Proof. apply Forall_map. apply Forall_forall. intros x _. apply pow2_ge_0. Qed.
Lemma mean_sq_nonneg l x : fmean (map fsq l) = Some x -> 0 <= x.
Proof. rewrite fmean_statistic. unfold statistic. destruct (finite_values (map fsq l)) as [[|y ys]|] eqn:E; [discriminate| |discriminate].
  intros H. injection H as <-. apply avg_nonneg. apply finite_values_Some in E.
  assert (G : forall l (zs : list R), map fsq l = map Some zs -> Forall (fun z => 0 <= z) zs).
  { clear. induction l as [|a l IH]; intros [|z zs] H; try discriminate; constructor.
    - cbn [map] in H. injection H as H _. destruct a as [a|]; [|discriminate]. unfold fsq, fmul, lift2 in H. injection H as <-. replace (a * a) with (a ^ 2) by ring. apply pow2_ge_0.
    - apply IH. cbn [map] in H. injection H as _ H. exact H. }
  eapply G. exact E. Qed.
Lemma mse_nonneg a b errs x : mean_squared_error a b = Ok errs -> In (Some x) errs -> 0 <= x.
Proof. unfold mean_squared_error. destruct (negb _); [discriminate|]. intros H. bind_inv H. injection H as <-. intros Hx. apply in_map_iff in Hx. destruct Hx as (r & Er & _). eapply mean_sq_nonneg. exact Er. Qed.
Lemma mse_lengths a b : arr_len a <> arr_len b -> mean_squared_error a b = Raise ValueError.
Proof. intros H. unfold mean_squared_error. destruct (Nat.eqb_spec (arr_len a) (arr_len b)); [contradiction|reflexivity]. Qed.

Lemma square_error_map a b : List.length a = List.length b -> avg (map (fun x => x ^ 2) (map (fun xy => fst xy - snd xy) (combine a b))) = square_error a b.
Proof. intros L. unfold square_error. now rewrite map_map. Qed.
Lemma mse_vector a b : a <> [] -> List.length a = List.length b -> mean_squared_error (A1 (map Some a)) (A1 (map Some b)) = Ok [Some (square_error a b)].
Proof. intros Ha L. unfold mean_squared_error. cbn [arr_len arr_sub]. rewrite !map_length, L, Nat.eqb_refl. cbn [negb].
  rewrite row_op_A1 by (rewrite !map_length; symmetry; exact L). cbn [bind map]. f_equal. f_equal.
  rewrite (bop_finite fsub Rminus) by (rewrite ?map_length; auto). rewrite mean_sq_finite by (destruct a, b; try discriminate; congruence). f_equal. apply square_error_map. exact L. Qed.
Lemma mse_matrix w a b : w <> 0%nat -> Forall (fun r => List.length r = w) a -> Forall (fun r => List.length r = w) b -> List.length a = List.length b ->
  mean_squared_error (A2 w (map (map Some) a)) (A2 w (map (map Some) b)) = Ok (map (fun rr => Some (square_error (fst rr) (snd rr))) (combine a b)).
Proof. intros Hw Fa Fb L. unfold mean_squared_error. cbn [arr_len arr_sub]. rewrite !map_length, L, Nat.eqb_refl. cbn [negb]. rewrite bdim_same. cbn [bind]. f_equal.
  revert b Fb L. induction Fa as [|r a Hr Fa IH]; intros [|r' b] Fb L; try discriminate; [reflexivity|]. inversion Fb; subst. cbn [map combine fst snd]. f_equal; [|apply IH; [assumption|now injection L]].
  rewrite (bop_finite fsub Rminus) by auto. rewrite mean_sq_finite by (destruct r, r'; try discriminate; cbn [List.length] in *; congruence). f_equal. apply square_error_map. congruence. Qed.
Lemma square_error_zero a b : a <> [] -> List.length a = List.length b -> (square_error a b = 0 <-> a = b).
Proof. intros Ha L. unfold square_error, avg. assert (Hn : INR (List.length (map (fun xy : R * R => (fst xy - snd xy) ^ 2) (combine a b))) <> 0).
  { rewrite map_length, combine_length. apply not_0_INR. destruct a, b; try discriminate; congruence. }
  split.
  - intros H. assert (Hs : sum (map (fun xy : R * R => (fst xy - snd xy) ^ 2) (combine a b)) = 0).
    { unfold Rdiv in H. apply Rmult_integral in H. destruct H as [H|H]; [exact H|]. apply Rinv_neq_0_compat in Hn. contradiction. }
    apply sum_zero in Hs; [|apply Forall_map; apply Forall_forall; intros x _; apply pow2_ge_0]. clear -Hs L. revert b L Hs. induction a as [|x a IH]; intros [|y b] L Hs; try discriminate; [reflexivity|].
    cbn [combine map] in Hs. inversion Hs as [|? ? H0 Hs']; subst. cbn [fst snd] in H0. f_equal; [|apply IH; [now injection L|exact Hs']]. assert (x - y = 0) by (apply Rsqr_0_uniq; unfold Rsqr; rewrite <- H0; ring). lra.
  - intros <-. assert (E : sum (map (fun xy : R * R => (fst xy - snd xy) ^ 2) (combine a a)) = 0).
    { clear. induction a as [|x a IH]; [reflexivity|]. cbn [combine map sum fold_right fst snd] in *. unfold sum in IH. rewrite IH. ring. }
    rewrite E. unfold Rdiv. ring. Qed.

(** ** C69: both optimisations *)
Section Both.
  Context {S : Type} (g : rng S) (G : rng_ok g) (refl1d : option refl1d_fun) (pick : list fl -> nat) (Pk : pick_ok pick) (cf : @curve_fit_fun S).
  Context (m : nn_model) (names : list string) (Hf : fittable refl1d (nn_sample m)) (Hn : network_ok m names).

  Lemma Forall_nth_error A (P : A -> Prop) l : (forall i x, nth_error l i = Some x -> P x) -> Forall P l.
  Proof. clear. intros H. apply Forall_forall. intros x Hx. apply In_nth_error in Hx. destruct Hx as (i & Hi). eapply H. exact Hi. Qed.

  Lemma scaling_choice_shaped q lo hi c n dq k best : q <> [] -> List.length c = List.length q ->
    scaling_choice g (fit_curve g refl1d pick cf m) q lo hi c n dq k best -> shaped names 1 best.
  Proof. intros Hq Lc (s & s1 & ks & s2 & out & cs & i & En & Ef & _ & Ei & -> & _).
    destruct (fit_curve_total g G refl1d pick Pk cf m names Hf Hn s1 (A2 (List.length c) (map (fun k => map (fun x => fmul x (Some k)) c) ks)) q (variant_options dq)) as (s3 & out' & E & Sh & _).
    - split; [exact Hq|]. cbn [curves_of]. split; [destruct ks; [destruct i|]; discriminate|]. split; [|exact Lc]. apply Forall_map. apply Forall_forall. intros k' _. rewrite map_length. exact Lc.
    - split; discriminate.
    - reflexivity.
    - rewrite Ef in E. injection E as <- <-. cbn [curves_of] in Sh. rewrite map_length in Sh. eapply shaped_slice; [exact Sh|]. apply nth_error_Some. congruence. Qed.

  Lemma both_chosen s curve q o s' out : valid_input curve q -> both o -> o_polish o = false -> fit_curve g refl1d pick cf m s curve q o = Ok (s', out) ->
    exists lo hi ds ks, nearest_window m q lo hi /\ fo_shift out = Some ds /\ fo_scaling out = Some ks /\
      List.length ds = List.length (curves_of curve) /\ List.length ks = List.length (curves_of curve) /\
      forall i c, nth_error (curves_of curve) i = Some c -> exists d k best,
        nth_error ds i = Some d /\ nth_error ks i = Some k /\
        (exists b, shift_choice g (fit_curve g refl1d pick cf m) m q c (o_nq o) d b) /\
        scaling_choice g (fit_curve g refl1d pick cf m) q lo hi c (o_ns o) d k best /\ frame_row (fo_params out) i = frame_row best 0.
  Proof. intros V (Bq & Bs) Hp H. destruct (shifts_chosen g refl1d pick cf m s curve q o s' out H Bq) as (ds & Eds & Fds).
    destruct (scaling_chosen g refl1d pick cf m s curve q o s' out H Bs) as (ks & lo & hi & fs & Eks & Hw & Lk & Lf & K & Kc). specialize (Kc Bq Hp).
    pose proof (Forall2_len Fds) as Ld. exists lo, hi, ds, ks. split; [exact Hw|]. split; [exact Eds|]. split; [exact Eks|]. split; [congruence|]. split; [exact Lk|].
    destruct V as (Hq & _ & Fc & _). pose proof (proj1 Hf) as Hs. pose proof Hn as (_ & _ & _ & En & _).
    assert (Fs : Forall (shaped names 1) fs).
    { apply Forall_nth_error. intros i f Hi. destruct (nth_error (curves_of curve) i) as [c|] eqn:Ec; [|apply nth_error_None in Ec; assert (i < List.length fs)%nat by (apply nth_error_Some; congruence); lia].
      destruct (nth_error ks i) as [k|] eqn:Ek; [|apply nth_error_None in Ek; assert (i < List.length fs)%nat by (apply nth_error_Some; congruence); lia].
      destruct (K i c k f Ec Ek Hi) as (dq & _ & Hc). eapply scaling_choice_shaped; [exact Hq| |exact Hc]. rewrite Forall_forall in Fc. apply Fc. eapply nth_error_In. exact Ec. }
    intros i c Hc. assert (Li : (i < List.length (curves_of curve))%nat) by (apply nth_error_Some; congruence).
    destruct (nth_error ds i) as [d|] eqn:Ed; [|apply nth_error_None in Ed; lia]. destruct (nth_error ks i) as [k|] eqn:Ek; [|apply nth_error_None in Ek; lia].
    destruct (nth_error fs i) as [f|] eqn:Ef; [|apply nth_error_None in Ef; lia].
    destruct (K i c k f Hc Ek Ef) as (dq & Edq & Hsc). unfold shift_at in Edq. rewrite Eds, Ed in Edq. injection Edq as <-.
    exists d, k, f. split; [reflexivity|]. split; [reflexivity|]. split.
    - clear -Fds Hc Ed. revert i Hc Ed. induction Fds as [|c0 d0 l l' H0 Fds IH]; intros [|i] Hc Ed; try discriminate; cbn [nth_error] in *; [injection Hc as <-; injection Ed as <-; exact H0|]. eapply IH; eassumption.
    - split; [exact Hsc|]. eapply concat_rows; [exact (pp_NoDup (nn_sample m) names Hs En)|exact Fs|exact Kc|exact Ef]. Qed.
End Both.

Lemma fmul_one x : fmul x (Some 1) = x.
Proof. destruct x as [x|]; [|reflexivity]. unfold fmul, lift2. now rewrite Rmult_1_r. Qed.

(** ** Input correction *)
Section Input.
  Context {S : Type} (g : rng S) (refl1d : option refl1d_fun) (pick : list fl -> nat) (cf : @curve_fit_fun S) (m : nn_model).

  Lemma input_applied fit fit' s s0 curve curve' q o s' out s1 out1 : ~ both o -> o_polish o = false ->
    curves_of curve' = map (map (fun x => fmul x (Some (o_factor o)))) (curves_of curve) ->
    fit_core g refl1d pick cf fit m s curve q o = Ok (s', out) ->
    fit_core g refl1d pick cf fit' m s0 curve' (map (fun x => x + o_dq o) q) (set_input o 0 1) = Ok (s1, out1) ->
    fo_params out = fo_params out1.
  Proof. intros Nb Hp Ec H H1. apply unoptimised_params in H; [|assumption..]. apply unoptimised_params in H1; [|exact Nb|exact Hp].
    destruct H as (ip & E & Ep), H1 as (ip1 & E1 & Ep1). unfold interp_stage in *. cbn [o_factor o_dq set_input] in E1. rewrite Ec in E1.
    assert (K : map (map (fun x : fl => fmul x (Some 1))) (map (map (fun x : fl => fmul x (Some (o_factor o)))) (curves_of curve)) = map (map (fun x => fmul x (Some (o_factor o)))) (curves_of curve)).
    { rewrite map_map. apply map_ext. intros c. rewrite map_map. apply map_ext. intros x. apply fmul_one. }
    assert (K2 : map (fun x : R => x + 0) (map (fun x : R => x + o_dq o) q) = map (fun x => x + o_dq o) q).
    { rewrite map_map. apply map_ext. intros x. apply Rplus_0_r. }
    rewrite K, K2 in E1. congruence. Qed.

  Lemma input_ignored fit s curve q o dq factor s' out s1 out1 : both o ->
    fit_core g refl1d pick cf fit m s curve q o = Ok (s', out) -> fit_core g refl1d pick cf fit m s curve q (set_input o dq factor) = Ok (s1, out1) -> out1 = out.
  Proof. intros (Bq & Bs) H H1. rewrite fit_core_eq in H, H1. destruct (window m q) as [[lo hi]|]; [|discriminate]. cbn [bind] in H, H1.
    bind_as H ip Ei. bind_as H1 ip' Ei'. change (shift_stage g refl1d pick fit m s (width curve q) (curves_of curve) q (set_input o dq factor)) with
      (shift_stage g refl1d pick fit m s (width curve q) (curves_of curve) q o) in H1.
    destruct (shift_stage g refl1d pick fit m s (width curve q) (curves_of curve) q o) as [[s2 shift]|] eqn:Es; [|discriminate]. cbn [bind] in H, H1.
    change (scale_stage g pick fit s2 (width curve q) lo hi (curves_of curve) q (set_input o dq factor) shift) with
      (scale_stage g pick fit s2 (width curve q) lo hi (curves_of curve) q o shift) in H1.
    destruct (scale_stage g pick fit s2 (width curve q) lo hi (curves_of curve) q o shift) as [[s3 sc]|] eqn:Esc; [|discriminate]. cbn [bind] in H, H1.
    apply shift_some in Es. apply scale_some in Esc. destruct shift as [sh|]; [|rewrite Bq in Es; destruct Es as [Es _]; discriminate (Es eq_refl)].
    destruct sc as [[ks f]|]; [|rewrite Bs in Esc; destruct Esc as [Esc _]; discriminate (Esc eq_refl)]. cbn [bind] in H, H1.
    rewrite (interp_length _ _ _ _ _ Ei) in H. rewrite (interp_length _ _ _ _ _ Ei') in H1.
    change (polish_stage g refl1d cf m s3 (List.length (curves_of curve)) lo hi (curves_of curve) q (set_input o dq factor) f) with
      (polish_stage g refl1d cf m s3 (List.length (curves_of curve)) lo hi (curves_of curve) q o f) in H1. cbn [o_sim set_input] in H1.
    rewrite H in H1. injection H1 as _ ->. reflexivity. Qed.
End Input.

(** ** Variants *)
Section Variants.
  Context {S : Type} (g : rng S) (G : rng_ok g).
  Lemma interp_fl_shift qi q d row : interp_reflectivity qi (map (fun x => x + d) q) row = interp_reflectivity (map (fun x => x - d) qi) q row.
  Proof. clear. rewrite <- (interp_shift (map (fun x => x - d) qi) q row d). f_equal. rewrite map_map. rewrite <- (map_id qi) at 1. apply map_ext. intros x. ring. Qed.

  Lemma shift_variants s q_pred q curve n d s' curves shifts : q_shift_variants g s q_pred q curve n d = Ok (s', (curves, shifts)) ->
    List.length shifts = Z.to_nat n /\ Forall2 (fun x c => interp_reflectivity (map (fun y => y - x) q_pred) q curve = Ok c) shifts curves.
  Proof. unfold q_shift_variants. intros H. bind_as H r Er. destruct r as [s1 ds]. bind_as H cs Ec. injection H as <- <- <-. split.
    - unfold np_normal in Er. destruct (Rlt_dec d 0); [discriminate|]. destruct (n <? 0)%Z; [discriminate|]. pose proof (normal_length g G s 0 d (Z.to_nat n)) as L.
      destruct (rng_normal g s 0 d (Z.to_nat n)) as [s2 xs]. injection Er as <- <-. exact L.
    - apply mapM_Ok_iff in Ec. eapply Forall2_weaken; [|exact Ec]. intros x c Hx. rewrite <- interp_fl_shift. exact Hx. Qed.
  Lemma scaling_variants s curve n d s' curves ks : curve_scaling_variants g s curve n d = Ok (s', (curves, ks)) ->
    List.length ks = Z.to_nat n /\ curves = map (fun k => map (fun x => fmul x (Some k)) curve) ks.
  Proof. unfold curve_scaling_variants. intros H. bind_as H r Er. destruct r as [s1 ds]. injection H as <- <- <-. split; [|reflexivity].
    unfold np_normal in Er. destruct (Rlt_dec d 0); [discriminate|]. destruct (n <? 0)%Z; [discriminate|]. pose proof (normal_length g G s 1 d (Z.to_nat n)) as L.
    destruct (rng_normal g s 1 d (Z.to_nat n)) as [s2 xs]. injection Er as <- <-. exact L. Qed.
End Variants.

(** ** Non-negative parameters *)
Lemma ensure_tget f k : tget (fr_cols (ensure_positive f)) k = option_map (fun c => if sign_free k then map (option_map (fun z => RtoC (Cmod z))) c else c) (tget (fr_cols f) k).
Proof. unfold ensure_positive. cbn [fr_cols]. induction (fr_cols f) as [|[k' c] t IH]; [reflexivity|]. cbn [map tget fst snd]. destruct (String.eqb_spec k' k) as [->|]; [reflexivity|exact IH]. Qed.
Lemma sign_free_sld n : clean_name n -> sign_free (n ++ "_" ++ "sld") = false.
Proof. intros Cl. pose proof (category_sld n Cl) as K. unfold category in K. unfold sign_free.
  destruct (contains "thickness" (n ++ "_" ++ "sld")); [discriminate|]. destruct (contains "roughness" (n ++ "_" ++ "sld")); [discriminate|]. reflexivity. Qed.
Lemma ensure_sld f n : clean_name n -> tget (fr_cols (ensure_positive f)) (n ++ "_" ++ "sld") = tget (fr_cols f) (n ++ "_" ++ "sld").
Proof. intros Cl. rewrite ensure_tget, (sign_free_sld n Cl). destruct (tget (fr_cols f) (n ++ "_" ++ "sld")); reflexivity. Qed.
Lemma ensure_idem f : ensure_positive (ensure_positive f) = ensure_positive f.
Proof. unfold ensure_positive. cbn [fr_rows fr_cols]. f_equal. rewrite map_map. apply map_ext. intros [k c]. cbn [fst snd]. f_equal. destruct (sign_free k); [|reflexivity].
  rewrite map_map. apply map_ext. intros [z|]; [|reflexivity]. cbn [option_map]. f_equal. rewrite Cmod_R. f_equal. apply Rabs_right. apply Rle_ge. apply Cmod_ge_0. Qed.
