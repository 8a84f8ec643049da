(** Proofs about the curve fitter: least-squares polishing. *)
From Coq Require Import Reals Lra.
From Coquelicot Require Import Complex.
From Verif Require Import Py Str Cplx Sample_Model Sample_Spec Sample_Proofs Rng Sampling_Model Sampling_Spec Sampling_Proofs Labels_Proofs
  Reflectivity_Model Reflectivity_Spec Simulation_Model Simulation_Spec Simulation_Proofs Interp_Model Interp_Spec Interp_Proofs Arr
  Preproc_Model Preproc_Spec Preproc_Proofs OutPreproc_Proofs Fitter_Model Fitter_Spec Fitter_Proofs FitterOut_Proofs.
Local Open Scope string_scope.
Local Open Scope R_scope.

(** ** Bounds *)
Lemma nth_fl xs i : (i < List.length xs)%nat -> @nth fl i (map Some xs) None = Some (nth i xs 0).
Proof. intros H. exact (nth_map_lt (@Some R) xs i 0 None H). Qed.
Lemma bounds_length start fr : List.length (lower_bounds start fr) = Nat.min (List.length start) (List.length fr) /\
  List.length (upper_bounds start fr) = Nat.min (List.length start) (List.length fr).
Proof. unfold lower_bounds, upper_bounds. rewrite !map_length, !combine_length. auto. Qed.

Lemma lower_nth start fr : forall i, (i < List.length start)%nat -> (i < List.length fr)%nat ->
  nth i (lower_bounds start fr) None = fsub (nth i start None) (fmul (Some (nth i fr 0)) (fabs (nth i start None))).
Proof. unfold lower_bounds. revert fr. induction start as [|x start IH]; intros [|a fr] [|i] Hi Hj; cbn [List.length] in *; try lia; [reflexivity|].
  cbn [combine map nth]. apply IH; lia. Qed.
Lemma upper_nth start fr : forall i, (i < List.length start)%nat -> (i < List.length fr)%nat ->
  nth i (upper_bounds start fr) None = fadd (nth i start None) (fmul (Some (nth i fr 0)) (fabs (nth i start None))).
Proof. unfold upper_bounds. revert fr. induction start as [|x start IH]; intros [|a fr] [|i] Hi Hj; cbn [List.length] in *; try lia; [reflexivity|].
  cbn [combine map nth]. apply IH; lia. Qed.

Lemma bounds_enclose xs fr i : (i < List.length xs)%nat -> (i < List.length fr)%nat -> 0 <= nth i fr 0 ->
  exists a b, nth i (lower_bounds (map Some xs) fr) None = Some a /\ nth i (upper_bounds (map Some xs) fr) None = Some b /\ a <= nth i xs 0 <= b /\
    (a < b <-> nth i xs 0 <> 0 /\ 0 < nth i fr 0).
Proof. intros Hi Hj Hf. rewrite lower_nth, upper_nth by (rewrite ?map_length; assumption).
  rewrite (nth_fl xs i Hi). unfold fsub, fadd, fmul, fabs. cbn [option_map].
  eexists; eexists; split; [reflexivity|]; split; [reflexivity|]. pose proof (Rabs_pos (nth i xs 0)). set (x := nth i xs 0) in *. set (f := nth i fr 0) in *.
  assert (K : 0 <= f * Rabs x) by (apply Rmult_le_pos; assumption). split; [lra|]. split.
  - intros L. split; [intros E; rewrite E, Rabs_R0 in L; lra|]. destruct (Req_dec f 0) as [E|]; [rewrite E in L; lra|lra].
  - intros [A B]. pose proof (Rmult_lt_0_compat f (Rabs x) B (Rabs_pos_lt x A)). lra. Qed.

Lemma feasible_iff xs fr : Forall (fun f => 0 <= f) fr ->
  (feasible (map Some xs) (lower_bounds (map Some xs) fr) (upper_bounds (map Some xs) fr) <->
   (List.length xs <= List.length fr)%nat /\ forall i, (i < List.length xs)%nat -> nth i xs 0 <> 0 /\ 0 < nth i fr 0).
Proof. intros F. destruct (bounds_length (map Some xs) fr) as [L1 L2]. rewrite map_length in *. unfold feasible. rewrite L1, L2, map_length.
  assert (Fn : forall i, (i < List.length fr)%nat -> 0 <= nth i fr 0) by (intros i Hi; rewrite Forall_forall in F; apply F; apply nth_In; exact Hi).
  split.
  - intros (A & _ & E). assert (L : (List.length xs <= List.length fr)%nat) by lia. split; [exact L|]. intros i Hi. specialize (E i Hi).
    destruct (bounds_enclose xs fr i Hi ltac:(lia) (Fn i ltac:(lia))) as (a & b & Ea & Eb & _ & Iff). rewrite Ea, Eb in E. rewrite (nth_fl xs i Hi) in E.
    simpl in E. apply Iff. lra.
  - intros (L & E). split; [lia|]. split; [lia|]. intros i Hi. destruct (bounds_enclose xs fr i Hi ltac:(lia) (Fn i ltac:(lia))) as (a & b & Ea & Eb & In & Iff).
    rewrite Ea, Eb. rewrite (nth_fl xs i Hi). simpl. split; [exact In|]. apply Iff. apply E. exact Hi. Qed.

Lemma mapM_length A B (f : A -> res B) l l' : mapM f l = Ok l' -> List.length l' = List.length l.
Proof. revert l'. induction l as [|x l IH]; intros l' H; cbn [mapM] in H; [injection H as <-; reflexivity|]. bind_inv H. bind_inv H. injection H as <-. simpl. f_equal. apply IH. reflexivity. Qed.

Lemma nth_error_zip A B C (f : A * B -> C) l l' i x y : nth_error l i = Some x -> nth_error l' i = Some y -> nth_error (map f (combine l l')) i = Some (f (x, y)).
Proof. revert l l'. induction i as [|i IH]; intros [|a l] [|b l'] H H'; try discriminate; cbn [nth_error combine map] in *; [congruence|]. apply IH; assumption. Qed.

Lemma bounds_inside start fr : Forall (fun f => 0 <= f) fr -> inside (Nat.min (List.length start) (List.length fr)) start (lower_bounds start fr) (upper_bounds start fr).
Proof. intros F. destruct (bounds_length start fr) as [L1 L2]. split; [exact L1|]. split; [exact L2|]. intros i x Hi Hx. destruct (nth_error fr i) as [f|] eqn:Ef; [|apply nth_error_None in Ef; lia].
  assert (Hf : 0 <= f) by (rewrite Forall_forall in F; apply F; eapply nth_error_In; exact Ef). pose proof (Rmult_le_pos f (Rabs x) Hf (Rabs_pos x)) as K.
  exists (x - f * Rabs x), (x + f * Rabs x). unfold lower_bounds, upper_bounds. split; [|split; [|lra]].
  - exact (nth_error_zip _ _ _ _ _ _ _ _ _ Hx Ef).
  - exact (nth_error_zip _ _ _ _ _ _ _ _ _ Hx Ef). Qed.

Lemma least_squares_calls {S} (g : rng S) refl1d (cf cf' : @curve_fit_fun S) s q data labels o fr : Forall (fun f => 0 <= f) fr ->
  (forall f s xs ys start lo hi, inside (Nat.min (List.length start) (List.length fr)) start lo hi -> cf f s xs ys start lo hi = cf' f s xs ys start lo hi) ->
  least_squares g refl1d cf s q data labels o fr = least_squares g refl1d cf' s q data labels o fr.
Proof. intros F H. unfold least_squares. destruct (apply_preprocessing o (LFrame labels)) as [pc|]; [|reflexivity]. cbn [bind]. destruct (start_values (fst pc)) as [start|]; [|reflexivity]. cbn [bind].
  rewrite H by (apply bounds_inside; exact F). reflexivity. Qed.

Section Polish.
  Context {S : Type} (g : rng S) (refl1d : option refl1d_fun) (cf : @curve_fit_fun S) (Cf : curve_fit_ok cf).
  Context (m : nn_model) (names : list string) (ps : list param) (Hf : fittable refl1d (nn_sample m)) (Hps : all_params (nn_sample m) = Ok ps)
    (Hnm : label_names (nn_sample m) = Ok names).
  Let Hs : named_sample (nn_sample m) := proj1 Hf.

  Lemma preprocessed labels n : shaped names n labels -> exists prep rem, apply_preprocessing (nn_op m) (LFrame labels) = Ok (mkFrame n prep, rem) /\
    map fst prep = map pname_str (used_params ps) /\
    (forall k p, label_param (nn_sample m) k p -> is_const p = false ->
       tget prep k = option_map (map (norm_cell (mkPystr "min_to_zero" true) p)) (tget (fr_cols labels) k)).
  Proof. clear Cf. intros (A & B & C). destruct (apply_frame (nn_sample m) (mkPystr "min_to_zero" true) names ps Hs Hps Hnm labels eq_refl) as (prep & rem & E & En & Ev & _).
    { rewrite A. apply Permutation_refl. }
    exists prep. eexists. rewrite B in E. split; [exact E|]. split; [|exact Ev]. rewrite En, A. exact (filter_const_names (nn_sample m) names ps Hs Hps Hnm). Qed.

  (** C72: the bounds in units of the labels *)
  Lemma tget_nth (t : table) j k c : NoDup (map fst t) -> nth_error t j = Some (k, c) -> tget t k = Some c.
  Proof. clear. intros Nd H. apply In_tget; [exact Nd|]. eapply nth_error_In. exact H. Qed.

  Lemma renorm_real lo hi nm y : renorm_cell (mkPystr "min_to_zero" true) (Range (Flt lo) (Flt hi) nm) (Some (RtoC y)) = Some (RtoC (y * (hi - lo) + lo)).
  Proof. clear. unfold renorm_cell. change (is_lit (mkPystr "min_to_zero" true) "min_to_zero") with true. cbv iota. cbn [cell_map]. refine (f_equal (@Some C) _).
    unfold hi_C, lo_C, num_C, RtoC, Cmult, Cplus, Cminus, Copp. simpl. f_equal; ring. Qed.
  Lemma real_cell_RtoC x : real_cell (Some (RtoC x)) = Ok (Some x).
  Proof. clear. unfold real_cell, RtoC. cbn [snd fst]. destruct (Req_EM_T 0 0); [reflexivity|congruence]. Qed.

  Lemma bounds_real labels fr low up k lo hi nm v j f : shaped names 1 labels -> bounds_in_labels (nn_op m) labels fr low up ->
    (List.length (used_params ps) <= List.length fr)%nat -> label_param (nn_sample m) k (Range (Flt lo) (Flt hi) nm) -> lo < hi ->
    tget (fr_cols labels) k = Some [Some (RtoC v)] -> nth_error (map pname_str (used_params ps)) j = Some k -> nth_error fr j = Some f ->
    tget (fr_cols low) k = Some [Some (RtoC (v - f * Rabs (v - lo)))] /\ tget (fr_cols up) k = Some [Some (RtoC (v + f * Rabs (v - lo)))].
  Proof. clear Cf. intros Sh (prep & rem & start & Ea & Es & El & Eu) Lf Hp Hlt Hv Hj Hfj. destruct (preprocessed labels 1 Sh) as (prep' & rem' & E & En & Ev). rewrite Ea in E. injection E as -> ->.
    specialize (Ev k _ Hp eq_refl). rewrite Hv in Ev. cbn [option_map map] in Ev. change (mkPystr "min_to_zero" true) with (literal "min_to_zero") in Ev. rewrite (min_to_zero_cell lo hi nm v Hlt) in Ev.
    set (x := (v - lo) / (hi - lo)) in *.
    assert (Nd : NoDup (map fst prep')) by (rewrite En; exact (NoDup_sub (nn_sample m) names ps Hs Hps Hnm _)).
    assert (Hpj : nth_error prep' j = Some (k, [Some (RtoC x)])).
    { rewrite <- En, nth_error_map in Hj. destruct (nth_error prep' j) as [[k' c']|] eqn:Ej; [|discriminate]. cbn [option_map fst] in Hj. injection Hj as ->. pose proof (tget_nth prep' j k c' Nd Ej) as K.
      rewrite Ev in K. injection K as <-. reflexivity. }
    assert (Hsj : nth_error start j = Some (Some x)).
    { unfold start_values in Es. cbn [fr_cols] in Es. clear -Es Hpj. revert start j Es Hpj. induction prep' as [|[k0 c0] t IH]; intros start [|j] Es Hpj; try discriminate; cbn [mapM] in Es; bind_as Es x0 Ex0; bind_as Es xs Exs; injection Es as <-; cbn [nth_error] in *.
      - injection Hpj as -> ->. cbn [snd] in Ex0. change (py_get [Some (RtoC x)] 0) with (Ok (Some (RtoC x))) in Ex0. cbn [bind] in Ex0. rewrite real_cell_RtoC in Ex0. injection Ex0 as <-. reflexivity.
      - apply IH; [reflexivity|exact Hpj]. }
    assert (Ls : List.length start = List.length (used_params ps)).
    { unfold start_values in Es. apply mapM_length in Es. rewrite Es. cbn [fr_cols]. rewrite <- (map_length fst), En, map_length. reflexivity. }
    destruct (bounds_length start fr) as [L1 L2]. assert (Lm : Nat.min (List.length start) (List.length fr) = List.length (used_params ps)) by (rewrite Ls; lia).
    assert (G : forall bs y out, List.length bs = List.length (used_params ps) -> nth_error bs j = Some (Some y) ->
      restore_labels (nn_op m) (LArray 1 (map (fun x => [option_map RtoC x]) bs)) = Ok out -> tget (fr_cols out) k = Some [Some (RtoC (y * (hi - lo) + lo))]).
    { intros bs y out Lb Hb Er. destruct (restore_array (nn_sample m) names ps 1 (map (fun x => [option_map RtoC x]) bs) Hs Hps Hnm) as (f0 & E0 & _ & _ & _ & Ev0).
      - refine (eq_trans (map_length _ _) _). exact Lb.
      - apply Forall_map. apply Forall_forall. reflexivity.
      - unfold nn_op in Er. rewrite E0 in Er. injection Er as <-. rewrite (Ev0 k _ Hp eq_refl).
        assert (Et : tget (combine (map pname_str (used_params ps)) (map (fun x0 : fl => [option_map RtoC x0]) bs)) k = Some [Some (RtoC y)]).
        { eapply tget_nth with (j := j).
          - rewrite combine_fst; [exact (NoDup_sub (nn_sample m) names ps Hs Hps Hnm _)|]. rewrite !map_length. exact Lb.
          - clear -Hj Hb. revert bs j Hj Hb. induction (map pname_str (used_params ps)) as [|n0 ns IH]; intros [|b bs] [|j] Hj Hb; try discriminate; cbn [nth_error map combine] in *; [|apply IH; assumption].
            injection Hj as ->. injection Hb as ->. reflexivity. }
        refine (eq_trans (f_equal (option_map _) Et) _). cbn [option_map map]. rewrite renorm_real. reflexivity. }
    assert (Hd : hi - lo <> 0) by lra.
    assert (Ex : x * (hi - lo) + lo = v) by (unfold x; field; exact Hd).
    assert (Eabs : Rabs x * (hi - lo) = Rabs (v - lo)).
    { unfold x. unfold Rdiv. rewrite Rabs_mult. rewrite (Rabs_right (/ (hi - lo))) by (apply Rle_ge; left; apply Rinv_0_lt_compat; lra). field. exact Hd. }
    split.
    - rewrite (G (lower_bounds start fr) (x - f * Rabs x) low (eq_trans L1 Lm)); [|exact (nth_error_zip _ _ _ _ _ _ _ _ _ Hsj Hfj)|exact El]. replace ((x - f * Rabs x) * (hi - lo) + lo) with (v - f * Rabs (v - lo)); [reflexivity|]. rewrite <- Eabs. rewrite <- Ex at 1. ring.
    - rewrite (G (upper_bounds start fr) (x + f * Rabs x) up (eq_trans L2 Lm)); [|exact (nth_error_zip _ _ _ _ _ _ _ _ _ Hsj Hfj)|exact Eu]. replace ((x + f * Rabs x) * (hi - lo) + lo) with (v + f * Rabs (v - lo)); [reflexivity|]. rewrite <- Eabs. rewrite <- Ex at 1. ring. Qed.

  Lemma bounds_from_zero labels fr low up k hi nm v j f : shaped names 1 labels -> bounds_in_labels (nn_op m) labels fr low up ->
    (List.length (used_params ps) <= List.length fr)%nat -> label_param (nn_sample m) k (Range (Flt 0) (Flt hi) nm) -> 0 < hi ->
    tget (fr_cols labels) k = Some [Some (RtoC v)] -> nth_error (map pname_str (used_params ps)) j = Some k -> nth_error fr j = Some f -> 0 <= v ->
    tget (fr_cols low) k = Some [Some (RtoC ((1 - f) * v))] /\ tget (fr_cols up) k = Some [Some (RtoC ((1 + f) * v))].
  Proof. clear Cf. intros Sh B L Hp H0 Hv Hj Hfj Pv. destruct (bounds_real labels fr low up k 0 hi nm v j f Sh B L Hp H0 Hv Hj Hfj) as [E1 E2].
    replace ((1 - f) * v) with (v - f * Rabs (v - 0)) by (rewrite Rminus_0_r, Rabs_right by lra; ring).
    replace ((1 + f) * v) with (v + f * Rabs (v - 0)) by (rewrite Rminus_0_r, Rabs_right by lra; ring). auto. Qed.

  (** The bounds exist if all variable labels are real. *)
  Lemma bounds_exist labels fr : shaped names 1 labels -> (List.length (used_params ps) <= List.length fr)%nat ->
    (forall k p, label_param (nn_sample m) k p -> is_const p = false -> exists lo hi nm v, p = Range (Flt lo) (Flt hi) nm /\ lo < hi /\ tget (fr_cols labels) k = Some [Some (RtoC v)]) ->
    exists low up, bounds_in_labels (nn_op m) labels fr low up.
  Proof. clear Cf. intros Sh L K. destruct (preprocessed labels 1 Sh) as (prep & rem & E & En & Ev).
    assert (Nd : NoDup (map fst prep)) by (rewrite En; exact (NoDup_sub (nn_sample m) names ps Hs Hps Hnm _)).
    destruct (mapM_exists _ _ (fun kc : string * list cell => c <- py_get (snd kc) 0 ;; real_cell c) (fun _ => True) prep) as (start & Es & Ls & _).
    { intros [k c] Hk. assert (Hu : In k (map pname_str (used_params ps))) by (rewrite <- En; exact (in_map fst _ _ Hk)).
      apply (used_name (nn_sample m) ps Hs Hps) in Hu. destruct Hu as (p & Hp & Hc). destruct (K k p Hp Hc) as (lo & hi & nm & v & -> & Hlt & Hv).
      specialize (Ev k _ Hp Hc). rewrite Hv in Ev. cbn [option_map map] in Ev. change (mkPystr "min_to_zero" true) with (literal "min_to_zero") in Ev. rewrite (min_to_zero_cell lo hi nm v Hlt) in Ev.
      rewrite (In_tget _ _ _ Nd Hk) in Ev. injection Ev as ->. cbn [snd]. match goal with |- context [py_get [?a] 0] => change (py_get [a] 0) with (Ok a) end. cbn [bind]. rewrite real_cell_RtoC. eauto. }
    assert (Lu : List.length start = List.length (used_params ps)) by (rewrite Ls; rewrite <- (map_length fst), En, map_length; reflexivity).
    destruct (bounds_length start fr) as [L1 L2].
    assert (G : forall bs : list fl, List.length bs = List.length (used_params ps) -> exists out, restore_labels (nn_op m) (LArray 1 (map (fun x => [option_map RtoC x]) bs)) = Ok out).
    { intros bs Lb. destruct (restore_array (nn_sample m) names ps 1 (map (fun x => [option_map RtoC x]) bs) Hs Hps Hnm) as (f0 & E0 & _).
      - refine (eq_trans (map_length _ _) _). exact Lb.
      - apply Forall_map. apply Forall_forall. reflexivity.
      - exists f0. exact E0. }
    destruct (G (lower_bounds start fr)) as (low & El); [rewrite L1, Lu; lia|]. destruct (G (upper_bounds start fr)) as (up & Eu); [rewrite L2, Lu; lia|].
    exists low, up, (mkFrame 1 prep), rem, start. split; [exact E|]. split; [exact Es|]. split; [exact El|exact Eu]. Qed.

  Lemma least_squares_inv s q data labels fr s' f : shaped names 1 labels -> least_squares g refl1d cf s q data labels (nn_op m) fr = Ok (s', f) ->
    exists prep rem start, apply_preprocessing (nn_op m) (LFrame labels) = Ok (prep, rem) /\ start_values prep = Ok start /\
      List.length start = List.length (used_params ps) /\ (~ ~ feasible start (lower_bounds start fr) (upper_bounds start fr)) /\ good refl1d (nn_sample m) names 1 f.
  Proof. intros Sh H. destruct (preprocessed labels 1 Sh) as (prep & rem & E & En & _). unfold least_squares in H. rewrite E in H. cbn [bind fst] in H.
    bind_as H start Es. bind_as H r Er. destruct r as [s1 popt]. bind_as H f' Ef. injection H as <- <-.
    exists (mkFrame 1 prep), rem, start. assert (Ls : List.length start = List.length (used_params ps)).
    { unfold start_values in Es. apply mapM_length in Es. rewrite Es. cbn [fr_cols]. rewrite <- (map_length fst), En, map_length. reflexivity. }
    destruct (Cf (fitting_model g refl1d q (nn_op m)) s q (map flog10 data) start (lower_bounds start fr) (upper_bounds start fr)) as [C1 C2].
    split; [exact E|]. split; [exact Es|]. split; [exact Ls|]. split.
    - intros Nf. rewrite (C1 Nf) in Er. discriminate.
    - destruct (good_restore refl1d (nn_sample m) names ps 1 (map (fun x => [option_map RtoC x]) popt) Hf Hps Hnm) as (f0 & E0 & Sh0).
      + refine (eq_trans (map_length _ _) _). refine (eq_trans (C2 _ _ Er) _). exact Ls.
      + apply Forall_map. apply Forall_forall. reflexivity.
      + unfold nn_op in Ef. rewrite E0 in Ef. injection Ef as <-. exact Sh0. Qed.

  Lemma Forall2_right A B (P : A -> B -> Prop) (Q : B -> Prop) l l' : Forall2 P l l' -> (forall a b, In a l -> P a b -> Q b) -> Forall Q l'.
  Proof. clear. induction 1 as [|a b l l' Hab H IH]; intros K; constructor; [eapply K; [left; reflexivity|exact Hab]|]. apply IH. intros a' b' Ha. apply K. right. exact Ha. Qed.

  Lemma polish_good s n lo hi rows q o params s' f : good refl1d (nn_sample m) names n params -> polish_stage g refl1d cf m s n lo hi rows q o params = Ok (s', f) ->
    good refl1d (nn_sample m) names n f.
  Proof. intros Gp H. unfold polish_stage in H. destruct (o_polish o); [|injection H as <- <-; exact Gp]. bind_as H r Er. destruct r as [s1 fs]. bind_as H f0 Ef. injection H as <- <-.
    pose proof (mapS_length _ _ _ _ _ _ _ _ Er) as L. rewrite seq_length in L. apply mapS_Forall2 in Er. apply good_ensure; [exact (proj1 (proj2 Hf))|]. rewrite <- L. apply good_concat; [|exact Ef].
    eapply Forall2_right; [exact Er|]. intros i f' Hi (s2 & s3 & E). apply in_seq in Hi. unfold polish_one in E. bind_as E row Erow.
    eapply least_squares_inv in E; [|eapply shaped_slice; [exact (proj1 Gp)|lia]]. destruct E as (? & ? & ? & _ & _ & _ & _ & E). exact E. Qed.

  (** Every polished curve starts with as many bounds as there are variable labels. *)
  Lemma polish_feasible s n lo hi rows q o params s' f i : shaped names n params -> o_polish o = true -> polish_stage g refl1d cf m s n lo hi rows q o params = Ok (s', f) -> (i < n)%nat ->
    exists prep rem start, apply_preprocessing (nn_op m) (LFrame (frame_slice i params)) = Ok (prep, rem) /\ start_values prep = Ok start /\
      List.length start = List.length (used_params ps) /\ (~ ~ feasible start (lower_bounds start (o_bounds o)) (upper_bounds start (o_bounds o))).
  Proof. intros Sh Hp H Hi. unfold polish_stage in H. rewrite Hp in H. bind_as H r Er. destruct r as [s1 fs].
    apply mapS_Forall2 in Er. clear H. assert (K : exists f', exists s2 s3, polish_one g refl1d cf m lo hi rows q o params s2 i = Ok (s3, f')).
    { assert (Hin : In i (seq 0 n)) by (apply in_seq; lia). clear -Er Hin. induction Er as [|a b l l' E Er IH]; [destruct Hin|]. destruct Hin as [->|Hin]; [exists b; exact E|auto]. }
    destruct K as (f' & s2 & s3 & E). unfold polish_one in E. bind_as E row Erow.
    eapply least_squares_inv in E; [|eapply shaped_slice; [exact Sh|lia]]. destruct E as (prep & rem & start & A & B & C & D & _). exists prep, rem, start. auto. Qed.
End Polish.

Section Shape.
  Context {S : Type} (g : rng S) (G : rng_ok g) (refl1d : option refl1d_fun) (pick : list fl -> nat) (Pk : pick_ok pick) (cf : @curve_fit_fun S) (Cf : curve_fit_ok cf).
  Context (m : nn_model) (names : list string) (Hf : fittable refl1d (nn_sample m)) (Hn : network_ok m names).

  (** The parameters before polishing *)
  Definition unpolished (o : options) : options := mkOptions (o_dq o) (o_factor o) false (o_bounds o) (o_opt_q o) (o_nq o) (o_opt_scale o) (o_ns o) (o_sim o).
  Lemma interp_length curve q o ip : interp_stage m curve q o = Ok ip -> List.length ip = List.length (curves_of curve).
  Proof. clear. unfold interp_stage, interpolate_intensity. intros H. apply mapM_Ok_length in H. rewrite map_length in H. exact H. Qed.

  Lemma fit_curve_stages s curve q o s' out : valid_input curve q -> samples_ok o -> fit_curve g refl1d pick cf m s curve q o = Ok (s', out) ->
    exists lo hi s2 s3 params0, good refl1d (nn_sample m) names (List.length (curves_of curve)) params0 /\ window m q = Ok (lo, hi) /\
      polish_stage g refl1d cf m s2 (List.length (curves_of curve)) lo hi (curves_of curve) q o params0 = Ok (s3, fo_params out) /\
      (if o_sim o then exists s4 cs, simulate_frame g refl1d s3 q (fo_params out) = Ok (s4, cs) /\ fo_refl out = Some cs else fo_refl out = None).
  Proof. intros V So H. unfold fit_curve in H.
    destruct (fit_core_total g G refl1d pick Pk cf m names Hf Hn (fit_plain g refl1d pick cf m) s curve q (unpolished o)
      (fun _ => fit_plain_good g G refl1d pick Pk cf m names Hf Hn) V So eq_refl) as (s0 & out0 & E0 & Gp & _).
    apply fit_core_inv in H. destruct H as (lo & hi & ip & s1 & shift & s2 & sc & p0 & s3 & p & Ew & Ei & E1 & E2 & E3 & E4 & <- & _ & _ & Er).
    apply fit_core_inv in E0. destruct E0 as (lo' & hi' & ip' & s1' & shift' & s2' & sc' & p0' & s3' & p' & Ew' & Ei' & E1' & E2' & E3' & E4' & Ep' & _).
    change (interp_stage m curve q (unpolished o)) with (interp_stage m curve q o) in Ei'.
    change (shift_stage g refl1d pick (fit_plain g refl1d pick cf m) m s (width curve q) (curves_of curve) q (unpolished o)) with
      (shift_stage g refl1d pick (fit_plain g refl1d pick cf m) m s (width curve q) (curves_of curve) q o) in E1'.
    rewrite E1 in E1'. injection E1' as <- <-. rewrite Ew in Ew'. injection Ew' as <- <-.
    change (scale_stage g pick (fit_plain g refl1d pick cf m) s1 (width curve q) lo hi (curves_of curve) q (unpolished o) shift) with
      (scale_stage g pick (fit_plain g refl1d pick cf m) s1 (width curve q) lo hi (curves_of curve) q o shift) in E2'.
    rewrite E2 in E2'. injection E2' as <- <-. rewrite Ei in Ei'. injection Ei' as <-. rewrite E3 in E3'. injection E3' as <-.
    unfold polish_stage in E4'. cbn [o_polish unpolished] in E4'. injection E4' as <- <-. rewrite Ep' in Gp.
    exists lo, hi, s2, s3, p0. split; [exact Gp|]. split; [exact Ew|]. rewrite (interp_length _ _ _ _ Ei) in E4. split; [exact E4|exact Er]. Qed.

  Lemma fit_curve_shape s curve q o s' out : valid_input curve q -> samples_ok o -> fit_curve g refl1d pick cf m s curve q o = Ok (s', out) ->
    shaped names (List.length (curves_of curve)) (fo_params out) /\
    (forall cs, fo_refl out = Some cs -> List.length cs = List.length (curves_of curve) /\ Forall (fun c => List.length c = List.length q) cs).
  Proof. intros V So H. destruct (fit_curve_stages s curve q o s' out V So H) as (lo & hi & s2 & s3 & p0 & Gp & _ & Epol & Er).
    pose proof Hn as (_ & _ & _ & En & (ps & Eps & _) & _).
    pose proof (polish_good g refl1d cf Cf m names ps Hf Eps En _ _ _ _ _ _ _ _ _ _ Gp Epol) as Gf. split; [exact (proj1 Gf)|]. intros cs Ec.
    destruct (o_sim o); [|congruence]. destruct Er as (s4 & cs' & Es & Er). assert (cs' = cs) by congruence. subst cs'.
    destruct (simulate_frame_total g G refl1d m names Hf Hn _ _ s3 q Gf) as (s5 & cs' & Es' & L & F). rewrite Es in Es'. injection Es' as <- <-. auto. Qed.

  Lemma polish_needs s curve q o s' out ps : valid_input curve q -> samples_ok o -> o_polish o = true -> all_params (nn_sample m) = Ok ps ->
    fit_curve g refl1d pick cf m s curve q o = Ok (s', out) -> (List.length (used_params ps) <= List.length (o_bounds o))%nat.
  Proof. intros V So Hp Eps H. destruct (fit_curve_stages s curve q o s' out V So H) as (lo & hi & s2 & s3 & p0 & Gp & _ & Epol & Er).
    pose proof Hn as (_ & _ & _ & En & _). assert (Hi : (0 < List.length (curves_of curve))%nat) by (destruct V as (_ & V & _); destruct (curves_of curve); [congruence|simpl; lia]).
    destruct (polish_feasible g refl1d cf Cf m names ps Hf Eps En _ _ _ _ _ _ _ _ _ _ 0%nat (proj1 Gp) Hp Epol Hi) as (prep & rem & start & _ & _ & L & NF).
    destruct (Nat.le_gt_cases (List.length (used_params ps)) (List.length (o_bounds o))) as [K|K]; [exact K|]. exfalso. apply NF. intros (A & _).
    destruct (bounds_length start (o_bounds o)) as [B _]. lia. Qed.
End Shape.
