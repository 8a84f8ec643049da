(** The SLD profiles of a series of results *)
From Coq Require Import Reals Lra.
From Coquelicot Require Import Complex.
From Verif Require Import Py Str Cplx Arr Sample_Model Sample_Proofs Sampling_Model Simulation_Model SldProfile_Model SldProfile_Spec Simulation_Spec Simulation_Proofs SldProfile_Proofs Spec_Model Preproc_Model Preproc_Spec Fitter_Model Fitter_Spec Fitter_Proofs Choice_Proofs FileFitter_Model FileFitter_Proofs Prediction_Model Prediction_Spec.
Local Open Scope string_scope.
Local Open Scope R_scope.

Lemma mapM_ext_in {A B} (f g : A -> res B) l : (forall x, In x l -> f x = g x) -> mapM f l = mapM g l.
Proof. induction l as [|x l IH]; intros H; [reflexivity|]. cbn [mapM]. rewrite (H x (or_introl eq_refl)), IH; [reflexivity|]. intros y Hy. apply H. right. exact Hy. Qed.
Definition cval (c : cell) : C := match c with Some z => z | None => RtoC 0 end.
Definition in_cat (k : nat) (name : string) : bool := match category name with Some j => Nat.eqb j k | None => false end.
Definition sel (k : nat) (names : list string) (r : list cell) : list C := map (fun kc => cval (snd kc)) (filter (fun kc => in_cat k (fst kc)) (combine names r)).
Definition some_cat (k : nat) (names : list string) : bool := existsb (in_cat k) names.

Lemma of_category_nil k (f : frame) : some_cat k (map fst (fr_cols f)) = false -> of_category k (known_cols f) = [].
Proof. unfold of_category, known_cols, some_cat. intros H. induction (fr_cols f) as [|[n c] t IH]; [reflexivity|]. cbn [map existsb fst] in H. apply orb_false_iff in H as [A B].
  cbn [map filter fst]. unfold in_cat in A. rewrite A. exact (IH B). Qed.
Lemma of_category_cons k (f : frame) : some_cat k (map fst (fr_cols f)) = true -> of_category k (known_cols f) <> [].
Proof. unfold of_category, known_cols, some_cat. intros H. induction (fr_cols f) as [|[n c] t IH]; [discriminate|]. cbn [map existsb fst] in H.
  cbn [map filter fst]. unfold in_cat in H at 1. destruct (match category n with Some j => Nat.eqb j k | None => false end); [discriminate|]. exact (IH H). Qed.
Lemma row_sel k (f : frame) n i : Forall (fun kc => List.length (snd kc) = n) (fr_cols f) -> (i < n)%nat ->
  mapM (fun c => match nth_error c i with Some x => Ok x | None => Raise IndexError end) (of_category k (known_cols f)) = Ok (sel k (map fst (fr_cols f)) (frame_row f i)).
Proof. intros F Hi. unfold of_category, known_cols, sel, frame_row. induction (fr_cols f) as [|[name c] t IH]; [reflexivity|].
  pose proof (Forall_inv F) as L. pose proof (IH (Forall_inv_tail F)) as IH'. clear IH. cbn [snd] in L.
  cbn [map filter fst snd combine]. fold (in_cat k name). destruct (in_cat k name); [|exact IH'].
  cbn [map snd mapM]. match goal with |- context [nth_error ?l i] => assert (E : nth_error l i = Some (cval (nth i c None))) end.
  { refine (eq_trans (nth_error_map cval i c) _). destruct (nth_error c i) as [x|] eqn:X; [|apply nth_error_None in X; lia]. cbn [option_map]. rewrite (nth_error_nth c i None X). reflexivity. }
  rewrite E. cbn [bind]. rewrite IH'. reflexivity. Qed.

Section Profiles.
  Context (erf : R -> R).
  Definition row_of_names (names : list string) (r : list cell) : res (list R * list (option R)) :=
    let pick k := if some_cat k names then Ok (sel k names r) else Raise IndexError in
    t <- pick 0%nat ;; sl <- pick 2%nat ;; r <- pick 1%nat ;;
    match sl with
    | sub :: rest => match rev rest with
                     | amb :: _ => make_sld_profile erf (map fst t) (removelast rest) (map fst r) sub amb
                     | [] => make_sld_profile erf (map fst t) [] (map fst r) sub sub
                     end
    | [] => Raise IndexError
    end.
  Lemma row_pick k f n i : Forall (fun kc => List.length (snd kc) = n) (fr_cols f) -> (i < n)%nat ->
    row (of_category k (known_cols f)) i = if some_cat k (map fst (fr_cols f)) then Ok (sel k (map fst (fr_cols f)) (frame_row f i)) else Raise IndexError.
  Proof. intros F Hi. destruct (some_cat k (map fst (fr_cols f))) eqn:E.
    - pose proof (of_category_cons k f E) as N. unfold row. rewrite <- (row_sel k f n i F Hi). destruct (of_category k (known_cols f)); [contradiction|reflexivity].
    - rewrite (of_category_nil k f E). reflexivity. Qed.
  Lemma profiles_by_row names n f : shaped names n f ->
    simulate_sld_profiles erf n (known_cols f) = (if some_cat 1 names && some_cat 2 names then mapM (fun i => row_of_names names (frame_row f i)) (seq 0 n) else Raise IndexError).
  Proof. intros (A & _ & F). unfold simulate_sld_profiles, separate. rewrite <- A.
    destruct (some_cat 1 (map fst (fr_cols f))) eqn:E1; [|rewrite (of_category_nil 1 f E1); reflexivity].
    destruct (some_cat 2 (map fst (fr_cols f))) eqn:E2; [|rewrite (of_category_nil 2 f E2); destruct (of_category 1 (known_cols f)); reflexivity].
    pose proof (of_category_cons 1 f E1) as N1. pose proof (of_category_cons 2 f E2) as N2. cbn [andb].
    transitivity (mapM (profile_row erf (of_category 0 (known_cols f)) (of_category 1 (known_cols f)) (of_category 2 (known_cols f))) (seq 0 n)).
    { destruct (of_category 1 (known_cols f)); [contradiction|]. destruct (of_category 2 (known_cols f)); [contradiction|]. reflexivity. }
    apply mapM_ext_in. intros i Hi. apply in_seq in Hi. unfold profile_row, row_of_names. cbv zeta. rewrite !(row_pick _ f n i F) by lia. reflexivity. Qed.
  Lemma known_row f i : row_known f i = forallb (fun c : cell => match c with Some _ => true | None => false end) (map (fun kc => nth i (snd kc) (Some (RtoC 0))) (fr_cols f)).
  Proof. unfold row_known. induction (fr_cols f) as [|kc t IH]; [reflexivity|]. cbn [map forallb]. rewrite IH. reflexivity. Qed.
  Lemma known_frame_row names n f i : shaped names n f -> (i < n)%nat -> row_known f i = forallb (fun c : cell => match c with Some _ => true | None => false end) (frame_row f i).
  Proof. intros (_ & _ & F) Hi. rewrite known_row. f_equal. unfold frame_row. apply map_ext_in. intros kc H. rewrite Forall_forall in F. apply nth_indep. refine (eq_ind_r (fun m => (i < m)%nat) Hi (F kc H)). Qed.

  Lemma seq_nth_map {A B} (h : A -> B) (l : list A) (d : A) : map (fun i => h (nth i l d)) (seq 0 (List.length l)) = map h l.
  Proof. induction l as [|x l IH]; [reflexivity|]. cbn [List.length seq map nth]. f_equal. rewrite <- seq_shift, map_map. exact IH. Qed.
  Lemma mapM_seq {A B} (h : A -> res B) (l : list A) (d : A) : mapM (fun i => h (nth i l d)) (seq 0 (List.length l)) = mapM h l.
  Proof. induction l as [|x l IH]; [reflexivity|]. cbn [List.length seq mapM nth]. destruct (h x); [|reflexivity]. cbn [bind]. rewrite <- seq_shift.
    rewrite (mapM_map nat nat B). cbn [nth]. rewrite IH. reflexivity. Qed.
  Lemma mapM_bind_get {A B} (h : A -> res B) (l : list A) : mapM (fun x => ps <- (b <- h x ;; Ok [b]) ;; py_get ps 0) l = mapM h l.
  Proof. induction l as [|x l IH]; [reflexivity|]. cbn [mapM]. destruct (h x); [|reflexivity]. cbn [bind]. change (py_get [a] 0) with (Ok a). cbn [bind]. rewrite IH. reflexivity. Qed.
  Lemma mapM_raise {A B} (e : exn) (l : list A) : l <> [] -> mapM (fun _ : A => @Raise B e) l = Raise e.
  Proof. destruct l; [contradiction|reflexivity]. Qed.

  Lemma result_profile_row names r : shaped names 1 (r_params r) -> row_known (r_params r) 0 = true ->
    result_profile erf r = if some_cat 1 names && some_cat 2 names then row_of_names names (frame_row (r_params r) 0) else Raise IndexError.
  Proof. intros Sh K. unfold result_profile, frame_profiles. pose proof Sh as (A & B & _). rewrite B. cbn [seq forallb]. rewrite K. cbn [andb].
    rewrite (profiles_by_row names 1 (r_params r) Sh). destruct (some_cat 1 names && some_cat 2 names); [|reflexivity]. cbn [seq mapM].
    destruct (row_of_names names (frame_row (r_params r) 0)) as [a|e]; [|reflexivity]. reflexivity. Qed.
  Lemma series_profiles_ok names l se : NoDup names -> Forall (fun r => shaped names 1 (r_params r) /\ row_known (r_params r) 0 = true) l ->
    series_new l = Ok se -> series_profiles erf se = mapM (result_profile erf) l.
  Proof. intros Nd F E. destruct (series_new_inv l se E) as (params & first & rest & EC & EL & ES). assert (EP : se_params se = params) by (rewrite ES; reflexivity). clear ES.
    assert (Fs : Forall (shaped names 1) (map r_params l)) by (apply Forall_map; eapply Forall_impl; [|exact F]; intros r [H _]; exact H).
    pose proof (shaped_concat names (map r_params l) Fs params EC) as Sh. rewrite map_length in Sh.
    pose proof (concat_rows names (map r_params l) params Nd Fs EC) as Rows.
    assert (Rw : forall i, (i < List.length l)%nat -> frame_row params i = frame_row (r_params (nth i l first)) 0).
    { intros i Hi. apply Rows. rewrite nth_error_map, (nth_error_nth' l first Hi). reflexivity. }
    unfold series_profiles, frame_profiles. rewrite EP. pose proof Sh as (_ & B & _). rewrite B.
    assert (K : forallb (row_known params) (seq 0 (List.length l)) = true).
    { apply forallb_forall. intros i Hi. apply in_seq in Hi. rewrite (known_frame_row names _ params i Sh) by lia. rewrite Rw by lia.
      rewrite Forall_forall in F. destruct (F (nth i l first)) as [S1 K1]; [apply nth_In; lia|]. rewrite <- (known_frame_row names 1 _ 0%nat S1) by lia. exact K1. }
    rewrite K, (profiles_by_row names _ params Sh).
    transitivity (mapM (fun r => if some_cat 1 names && some_cat 2 names then row_of_names names (frame_row (r_params r) 0) else Raise IndexError) l).
    - destruct (some_cat 1 names && some_cat 2 names); [|rewrite EL; reflexivity].
      rewrite <- (mapM_seq (fun r => row_of_names names (frame_row (r_params r) 0)) l first). apply mapM_ext_in. intros i Hi. apply in_seq in Hi. rewrite Rw by lia. reflexivity.
    - apply mapM_ext_in. intros r Hr. rewrite Forall_forall in F. destruct (F r Hr) as [S1 K1]. symmetry. exact (result_profile_row names r S1 K1). Qed.
  Lemma result_profile_ok refl1d m names r : fittable refl1d (nn_sample m) -> network_ok m names -> shaped names 1 (r_params r) -> row_known (r_params r) 0 = true ->
    exists T Ru Sl p, known_cols (r_params r) = (T ++ Ru ++ Sl)%list /\ label_table (nn_sample m) 1 T Ru Sl /\ row_profile erf T Ru Sl 0 = Ok p /\ result_profile erf r = Ok p.
  Proof. intros Hf Hn Sh K. destruct (known_table refl1d m names Hf Hn 1 (r_params r) Sh) as (T & Ru & Sl & E & L). pose proof Hf as (_ & Cl & NE & _).
    destruct (profile_rows erf (nn_sample m) 1 T Ru Sl NE Cl L) as (out & EO & F). inversion F as [|? p ? ? Hp F']; subst. inversion F'; subst.
    exists T, Ru, Sl, p. split; [exact E|]. split; [exact L|]. split; [exact Hp|]. unfold result_profile, frame_profiles. pose proof Sh as (_ & B & _). rewrite B. cbn [seq forallb]. rewrite K. cbn [andb].
    rewrite E, EO. reflexivity. Qed.
End Profiles.

Lemma complete_shaped names r : complete_result names r -> shaped names 1 (r_params r) /\ row_known (r_params r) 0 = true.
Proof. intros (A & B & F). split.
  - split; [exact A|]. split; [exact B|]. eapply Forall_impl; [|exact F]. intros kc (z & E). exact (f_equal (@List.length cell) E).
  - unfold row_known. apply forallb_forall. intros kc H. rewrite Forall_forall in F. destruct (F kc H) as (z & E). refine (eq_ind_r (fun l : list cell => match nth 0 l (Some (RtoC 0)) with Some _ => true | None => false end = true) _ E). reflexivity. Qed.
Lemma profiles_of_series erf names l se : NoDup names -> Forall (complete_result names) l -> series_new l = Ok se -> series_profiles erf se = mapM (result_profile erf) l.
Proof. intros N F. apply (series_profiles_ok erf names l se N). eapply Forall_impl; [|exact F]. intros r H. exact (complete_shaped names r H). Qed.
Lemma profile_of_result erf refl1d m names r : fittable refl1d (nn_sample m) -> network_ok m names -> complete_result names r ->
  exists T Ru Sl p, known_cols (r_params r) = (T ++ Ru ++ Sl)%list /\ label_table (nn_sample m) 1 T Ru Sl /\ row_profile erf T Ru Sl 0 = Ok p /\ result_profile erf r = Ok p.
Proof. intros Hf Hn H. destruct (complete_shaped names r H). apply (result_profile_ok erf refl1d m names r); assumption. Qed.
Lemma series_profiles_total erf refl1d m names l se : fittable refl1d (nn_sample m) -> network_ok m names -> Forall (complete_result names) l -> NoDup names -> series_new l = Ok se ->
  exists ps, series_profiles erf se = Ok ps /\ List.length ps = List.length l /\ forall i r p, nth_error l i = Some r -> nth_error ps i = Some p -> result_profile erf r = Ok p.
Proof. intros Hf Hn F N E. rewrite (profiles_of_series erf names l se N F E). clear E. induction F as [|r l Hr F IH].
  - exists []. split; [reflexivity|]. split; [reflexivity|]. intros [|i] r p; discriminate.
  - destruct (profile_of_result erf refl1d m names r Hf Hn Hr) as (_ & _ & _ & p & _ & _ & _ & Ep). destruct IH as (ps & Eps & L & A). exists (p :: ps).
    cbn [mapM]. rewrite Ep. cbn [bind]. rewrite Eps. split; [reflexivity|]. split; [cbn [List.length]; rewrite L; reflexivity|].
    intros [|i] r' p' H1 H2; cbn [nth_error] in H1, H2; [congruence|]. exact (A i r' p' H1 H2). Qed.
