(** Lemmas about the pictures of a scan. *)
From Coq Require Import Reals Lra Sorted.
From Verif Require Import Py Str Arr Footprint_Model Scan_Model Spec_Model Fio_Model P08_Model SpecFile_Spec FioFile_Spec P08_Spec P08Scan_Spec P08Images_Spec ScanFit_Spec
  Spec_Proofs Fio_Proofs P08_Proofs P08Loader_Proofs ScanPlot_Proofs.
Local Open Scope R_scope.
Local Open Scope string_scope.

(** ** Selections *)
Lemma sorted_same (a : list nat) : forall b, StronglySorted lt a -> StronglySorted lt b -> (forall k, In k a <-> In k b) -> a = b.
Proof. induction a as [|x a IH]; intros [|y b] Ha Hb H.
  - reflexivity.
  - destruct (proj2 (H y) (or_introl eq_refl)).
  - destruct (proj1 (H x) (or_introl eq_refl)).
  - inversion Ha as [|? ? Ha1 Ha2]; subst. inversion Hb as [|? ? Hb1 Hb2]; subst. rewrite Forall_forall in Ha2, Hb2.
    assert (E : x = y).
    { destruct (proj1 (H x) (or_introl eq_refl)) as [E|E]; [congruence|]. destruct (proj2 (H y) (or_introl eq_refl)) as [F|F]; [congruence|]. specialize (Ha2 _ F). specialize (Hb2 _ E). lia. }
    subst y. f_equal. apply IH; [assumption|assumption|]. intros k. split; intros J.
    + destruct (proj1 (H k) (or_intror J)) as [E|E]; [subst k; specialize (Ha2 _ J); lia|exact E].
    + destruct (proj2 (H k) (or_intror J)) as [E|E]; [subst k; specialize (Hb2 _ J); lia|exact E]. Qed.
Lemma entries_unique {A} ks (l a b : list A) : entries_of ks l a -> entries_of ks l b -> a = b.
Proof. intros H. revert b. induction H as [|k x ks a E H IH]; intros b Hb; inversion Hb as [|? y ? b' E' Hb']; subst; [reflexivity|]. f_equal; [congruence|apply IH, Hb']. Qed.
Lemma selection_unique {A} (P Q : nat -> Prop) (l a b : list A) : (forall k, P k <-> Q k) -> selection P l a -> selection Q l b -> a = b.
Proof. intros PQ (ks & S1 & M1 & E1) (ks' & S2 & M2 & E2). assert (ks = ks') as <-.
  { apply sorted_same; [exact S1|exact S2|]. intros k. rewrite M1, M2, (PQ k). reflexivity. }
  exact (entries_unique ks l a b E1 E2). Qed.
Lemma entries_all {A} (l : list A) : entries_of (seq 0 (List.length l)) l l.
Proof. unfold entries_of. assert (G : forall l0 pre, l = (pre ++ l0)%list -> Forall2 (fun k x => nth_error l k = Some x) (seq (List.length pre) (List.length l0)) l0).
  { induction l0 as [|x l0 IH]; intros pre E; [constructor|]. cbn [List.length seq]. constructor; [rewrite E; apply nth_error_mid|].
    replace (S (List.length pre)) with (List.length (pre ++ [x])%list) by (rewrite app_length; cbn [List.length]; lia). apply IH. rewrite <- app_assoc. exact E. }
  exact (G l [] eq_refl). Qed.
Lemma selection_all {A} (l : list A) : selection (fun _ => True) l l.
Proof. exists (seq 0 (List.length l)). split; [apply seq_sorted|]. split; [|apply entries_all]. intros k. rewrite in_seq. intuition lia. Qed.
Lemma selection_without {A} idxes (l : list A) : selection (fun k => ~ In k idxes) l (keep_but idxes l).
Proof. exists (kept idxes (List.length l)). split; [apply kept_sorted|]. split; [intros k; apply kept_In|apply keep_but_entries]. Qed.
Lemma is_index_iff col k : is_index col k = true <-> In (Some (INR k)) col.
Proof. unfold is_index. rewrite existsb_exists. split.
  - intros (x & Hx & E). apply feqb_iff in E as (r & -> & E). injection E as <-. exact Hx.
  - intros H. exists (Some (INR k)). split; [exact H|]. apply feqb_iff. exists (INR k). split; reflexivity. Qed.
Lemma selection_index d key imgs : selection (in_index (dict_get String.eqb d key)) imgs (indexed_images d key imgs).
Proof. unfold indexed_images. destruct (dict_get String.eqb d key) as [col|]; [|apply selection_all].
  destruct (selection_without (filter (fun i => negb (is_index col i)) (seq 0 (List.length imgs))) imgs) as (ks & S1 & M1 & E1). exists ks. split; [exact S1|]. split; [|exact E1].
  intros k. rewrite M1, filter_In, in_seq. cbn [in_index]. rewrite <- is_index_iff. destruct (is_index col k); cbn [negb]; intuition (congruence || lia). Qed.
Lemma selection_matching {A} ns (l l' : list A) : StronglySorted lt ns -> Forall (fun k => (k < List.length l)%nat) ns ->
  selection (in_index (Some (map (fun k => Some (INR k) : fl) ns))) l l' -> matching (map (fun k => Some (INR k) : fl) ns) l l'.
Proof. intros S1 B (ks & S2 & M & E). assert (ks = ns) as ->.
  { apply sorted_same; [exact S2|exact S1|]. intros k. rewrite M. cbn [in_index]. rewrite in_map_iff. split.
    - intros (_ & j & Hj & Ij). injection Hj as Hj. apply INR_eq in Hj. subst j. exact Ij.
    - intros Ik. rewrite Forall_forall in B. split; [apply B, Ik|]. exists k. split; [reflexivity|exact Ik]. }
  clear -E. unfold matching, entries_of in *. induction E as [|k x ns l' H E IH]; cbn [map]; constructor; [|exact IH]. exists k. split; [reflexivity|exact H]. Qed.
Lemma in_index_same (c c' : list fl) : (forall x, In x c <-> In x c') -> forall k, in_index (Some c) k <-> in_index (Some c') k.
Proof. intros H k. cbn [in_index]. apply H. Qed.

(** ** Names *)
Lemma before_last_none c s : has_char c s = false -> before_last c s = None.
Proof. induction s as [|d s IH]; cbn [has_char before_last]; [reflexivity|]. rewrite orb_false_iff. intros [H1 H2]. rewrite (IH H2).
  destruct (Ascii.eqb d c) eqn:E; [|reflexivity]. apply Ascii.eqb_eq in E. subst d. rewrite Ascii.eqb_refl in H1. discriminate. Qed.
Lemma before_last_some c a b : has_char c b = false -> before_last c (a ++ String c b) = Some a.
Proof. intros H. induction a as [|d a IH]; cbn [append before_last]; [rewrite before_last_none by exact H; rewrite Ascii.eqb_refl; reflexivity|]. rewrite IH. reflexivity. Qed.
Lemma split_char_nonempty c s : split_char c s <> [].
Proof. destruct s as [|d s]; cbn [split_char]; [discriminate|]. destruct (Ascii.eqb d c); [discriminate|]. destruct (split_char c s); discriminate. Qed.
Lemma last_part_app c a b : has_char c b = false -> last_part c (a ++ String c b) = b.
Proof. intros H. unfold last_part. induction a as [|d a IH]; cbn [append split_char].
  - rewrite Ascii.eqb_refl, (split_char_none _ _ H). reflexivity.
  - destruct (Ascii.eqb d c).
    + destruct (split_char c (a ++ String c b)) as [|w ws] eqn:E; [destruct (split_char_nonempty _ _ E)|]. exact IH.
    + destruct (split_char c (a ++ String c b)) as [|w ws] eqn:E; [destruct (split_char_nonempty _ _ E)|].
      destruct ws as [|w' ws]; [|exact IH]. exfalso. clear -E. revert w E. induction a as [|e a IHa]; intros w; cbn [append split_char].
      * rewrite Ascii.eqb_refl. intros E. injection E as _ E. exact (split_char_nonempty _ _ E).
      * destruct (Ascii.eqb e c).
        { intros E. injection E as _ E. exact (split_char_nonempty _ _ E). }
        destruct (split_char c (a ++ String c b)) as [|v vs] eqn:E'; [destruct (split_char_nonempty _ _ E')|]. intros E. injection E as _ ->. exact (IHa v eq_refl). Qed.
Lemma eiger_folder_ok name folder : eiger_name name folder -> eiger_folder name = Ok folder.
Proof. intros [n H|a b c rest Ha Hb Hc Hu Hr]; unfold eiger_folder; [rewrite (split_char_none _ _ H); reflexivity|].
  change (a ++ "." ++ b ++ "_" ++ c ++ rest) with (a ++ String "." (b ++ "_" ++ c ++ rest)). rewrite (split_char_app _ _ _ Ha).
  assert (E : exists more, split_char "." (b ++ "_" ++ c ++ rest) = (b ++ String "_" c) :: more).
  { assert (N : has_char "." (b ++ String "_" c) = false) by (rewrite has_char_app, Hb; exact Hc).
    replace (b ++ "_" ++ c ++ rest) with ((b ++ String "_" c) ++ rest) by (rewrite append_assoc; reflexivity).
    destruct Hr as [->|(r & ->)].
    - rewrite append_nil_r. rewrite (split_char_none _ _ N). eexists. reflexivity.
    - change ("." ++ r) with (String "." r). rewrite (split_char_app _ _ _ N). eexists. reflexivity. }
  destruct E as (more & ->). rewrite (before_last_some _ _ _ Hu), (last_part_app _ _ _ Hu). reflexivity. Qed.

(** ** Loading *)
Section Loading.
Variable m : media.
Definition four : list string := ["lambda"; "p100k"; "eiger"; "mythen"].
Lemma member_iff d l : existsb (String.eqb d) l = true <-> In d l.
Proof. rewrite existsb_exists. split; [intros (x & H & E); apply String.eqb_eq in E; subst x; exact H|intros H; exists d; split; [exact H|apply String.eqb_refl]]. Qed.
Lemma stack_loop s dets : NoDup dets -> forall i i', foldM (fun i det => if existsb (String.eqb det) (f_detectors s) then x <- load_detector m s det ;; Ok (dict_set String.eqb i det x) else Ok i) i dets = Ok i' ->
  forall det, (In det dets /\ In det (f_detectors s) -> exists x, load_detector m s det = Ok x /\ dict_get String.eqb i' det = Some x) /\
              (~ (In det dets /\ In det (f_detectors s)) -> dict_get String.eqb i' det = dict_get String.eqb i det).
Proof. induction 1 as [|d dets Nd N IH]; intros i i' E det; cbn [foldM] in E.
  - injection E as <-. split; [intros [[] _]|reflexivity].
  - destruct (existsb (String.eqb d) (f_detectors s)) eqn:Ed.
    + apply member_iff in Ed. destruct (load_detector m s d) as [x|] eqn:Ex; cbn [bind] in E; [|discriminate]. destruct (IH _ _ E det) as [I1 I2]. split.
      * intros [[->|H] H2]; [|exact (I1 (conj H H2))]. exists x. split; [exact Ex|]. rewrite I2 by tauto. rewrite (dict_get_set String.eqb String.eqb_eq), String.eqb_refl. reflexivity.
      * intros H. rewrite I2 by (cbn in H; tauto). rewrite (dict_get_set String.eqb String.eqb_eq). destruct (String.eqb_spec d det) as [->|]; [|reflexivity]. exfalso. apply H. split; [left; reflexivity|exact Ed].
    + cbn [bind] in E. destruct (IH _ _ E det) as [I1 I2]. assert (Nd' : ~ In d (f_detectors s)) by (intros H; apply member_iff in H; congruence). split.
      * intros [[->|H] H2]; [contradiction|exact (I1 (conj H H2))].
      * intros H. apply I2. intros [H1 H2]. apply H. split; [right; exact H1|exact H2]. Qed.
Lemma four_distinct : NoDup four.
Proof. unfold four. repeat constructor; cbn; intuition discriminate. Qed.
Lemma stack_loaded s s' : load_image_stack m s = Ok s' ->
  (forall det, In det four -> In det (f_detectors s) -> exists x, load_detector m s det = Ok x /\ dict_get String.eqb (f_images s') det = Some x) /\
  (forall det, ~ In det four \/ ~ In det (f_detectors s) -> dict_get String.eqb (f_images s') det = dict_get String.eqb (f_images s) det).
Proof. unfold load_image_stack. fold four. destruct (foldM _ _ _) as [i|] eqn:E; cbn [bind]; [|discriminate]. intros H. injection H as <-.
  pose proof (stack_loop s four four_distinct _ _ E) as G. cbn [f_images set_images]. split.
  - intros det H1 H2. exact (proj1 (G det) (conj H1 H2)).
  - intros det H. apply (proj2 (G det)). tauto. Qed.
Lemma removed_selection removed l : exists out, remove_double_fromstack removed (S3 l) = S3 out /\ selection (without removed) l out.
Proof. destruct removed as [idxes|]; cbn [remove_double_fromstack stack_delete without]; eexists; (split; [reflexivity|]); [apply selection_without|apply selection_all]. Qed.
Lemma lambda_loaded s x : load_detector m s "lambda" = Ok x -> exists imgs mid out,
  dict_get String.eqb (m_stacks m) (lambda_path (f_dir s) (f_name s)) = Some imgs /\ selection (in_index (dict_get String.eqb (f_data s) "lambda_index")) imgs mid /\
  selection (without (f_removed s)) mid out /\ x = S3 out.
Proof. unfold load_detector. change (String.eqb "lambda" "lambda") with true. cbv iota. unfold load_lambda, open_file. fold (lambda_path (f_dir s) (f_name s)).
  destruct (dict_get String.eqb (m_stacks m) (lambda_path (f_dir s) (f_name s))) as [imgs|]; cbn [bind]; [|discriminate]. intros E. injection E as <-.
  destruct (removed_selection (f_removed s) (indexed_images (f_data s) "lambda_index" imgs)) as (out & -> & S2).
  exists imgs, (indexed_images (f_data s) "lambda_index" imgs), out. split; [reflexivity|]. split; [apply selection_index|]. split; [exact S2|reflexivity]. Qed.
Lemma lambda_missing s : dict_get String.eqb (m_stacks m) (lambda_path (f_dir s) (f_name s)) = None -> In "lambda" (f_detectors s) -> load_image_stack m s = Raise FileNotFoundError.
Proof. intros H I. unfold load_image_stack. cbn [foldM]. rewrite (proj2 (member_iff _ _) I). unfold load_detector at 1. change (String.eqb "lambda" "lambda") with true. cbv iota. unfold load_lambda, open_file.
  fold (lambda_path (f_dir s) (f_name s)). rewrite H. reflexivity. Qed.
Lemma eiger_loaded s imgs x : eiger_stack m (f_dir s) (f_name s) = Ok imgs ->
  load_detector m s "eiger" = Ok x -> exists mid out, selection (in_index (dict_get String.eqb (f_data s) "eiger_index")) imgs mid /\ selection (without (f_removed s)) mid out /\ x = S3 out.
Proof. intros D. unfold load_detector. change (String.eqb "eiger" "lambda") with false. change (String.eqb "eiger" "p100k") with false. change (String.eqb "eiger" "eiger") with true. cbv iota.
  unfold load_eiger. rewrite D. cbn [bind]. intros E. injection E as <-.
  destruct (removed_selection (f_removed s) (indexed_images (f_data s) "eiger_index" imgs)) as (out & -> & S2).
  exists (indexed_images (f_data s) "eiger_index" imgs), out. split; [apply selection_index|]. split; [exact S2|reflexivity]. Qed.
Lemma stack_default s folder imgs : eiger_name (f_name s) folder -> dict_get String.eqb (m_stacks m) (eiger_path (f_dir s) folder) = Some imgs -> eiger_stack m (f_dir s) (f_name s) = Ok imgs.
Proof. intros N D. unfold eiger_stack. rewrite (eiger_folder_ok _ _ N). cbn [bind]. fold (eiger_dir (f_dir s) folder). fold (eiger_path (f_dir s) folder). rewrite D. reflexivity. Qed.
Lemma stack_named s folder path imgs : eiger_name (f_name s) folder -> dict_get String.eqb (m_stacks m) (eiger_path (f_dir s) folder) = None ->
  dict_get String.eqb (m_stacks m) path = Some imgs -> master_file (f_dir s) folder path ->
  (forall p, In p (map fst (m_images m) ++ map fst (m_stacks m) ++ map fst (m_raw m))%list -> master_file (f_dir s) folder p -> p = path) ->
  eiger_stack m (f_dir s) (f_name s) = Ok imgs.
Proof. intros N D P (f & Ep & Hc & Hs) U. unfold eiger_stack. rewrite (eiger_folder_ok _ _ N). cbn [bind]. fold (eiger_dir (f_dir s) folder). fold (eiger_path (f_dir s) folder). rewrite D.
  set (dir := eiger_dir (f_dir s) folder) in *.
  assert (Pre : forall p, String.prefix (dir ++ "/") p = true -> p = dir ++ "/" ++ drop_prefix (dir ++ "/") p).
  { intros p H. apply prefix_iff in H as (r & ->). rewrite drop_prefix_app, append_assoc. reflexivity. }
  assert (Ip : In path (map fst (m_images m) ++ map fst (m_stacks m) ++ map fst (m_raw m))%list).
  { apply in_or_app. right. apply in_or_app. left. apply dict_get_some_In in P. apply (in_map fst) in P. exact P. }
  assert (Q : String.prefix (dir ++ "/") path = true) by (rewrite Ep, <- append_assoc; apply prefix_app).
  assert (Q2 : drop_prefix (dir ++ "/") path = f) by (rewrite Ep, <- append_assoc; apply drop_prefix_app).
  unfold listdir. set (l := filter (fun p => String.prefix (dir ++ "/") p) _). assert (Il : In path l) by (apply filter_In; split; assumption).
  destruct l as [|p0 l0] eqn:El; [destruct Il|]. rewrite <- El in *. cbn [bind].
  match goal with |- context [match ?x with [] => _ | _ :: _ => _ end] => set (ms := x) end.
  assert (Im : In path ms). { apply filter_In. split; [apply filter_In; split; [exact Il|rewrite Q2, Hs; reflexivity]|rewrite Q2; exact Hc]. }
  destruct ms as [|q ms'] eqn:Em; [destruct Im|]. assert (Iq : In q ms) by (rewrite Em; left; reflexivity). unfold ms in Iq. apply filter_In in Iq as [Iq C1]. apply filter_In in Iq as [Iq C2]. rewrite El in Iq. rewrite <- El in Iq. unfold l in Iq. apply filter_In in Iq as [Iq C3].
  assert (q = path) as ->.
  { apply U; [exact Iq|]. exists (drop_prefix (dir ++ "/") q). split; [apply Pre, C3|]. split; [exact C1|]. apply negb_true_iff, C2. }
  rewrite P. reflexivity. Qed.
Lemma mythen_loaded s x : load_detector m s "mythen" = Ok x -> exists paths lines,
  in_order paths /\ (forall p, In p paths <-> In p (map fst (m_raw m)) /\ profile_file (f_dir s) (f_name s) "mythen" p) /\
  Forall2 (fun p l => dict_get String.eqb (m_raw m) p = Some l) paths lines /\ lines <> [] /\ (exists w, Forall (fun l => List.length l = w) lines) /\ x = S2 lines.
Proof. unfold load_detector. change (String.eqb "mythen" "lambda") with false. change (String.eqb "mythen" "p100k") with false. change (String.eqb "mythen" "eiger") with false. cbv iota.
  unfold load_mythen. set (files := sort_strings _). destruct (py_get files 0) as [p|] eqn:Ep; cbn [bind]; [|discriminate]. destruct (open_file (m_raw m) p) as [first|] eqn:Ef; cbn [bind]; [|discriminate].
  destruct (mapM _ files) as [lines|] eqn:El; cbn [bind]; [|discriminate]. intros E. injection E as <-. exists files, lines.
  split; [apply sort_in_order|]. split.
  { intros q. unfold files. rewrite sort_In, globbed_In, glob_match_iff. unfold profile_file. split; intros (H1 & mid & H2 & H3); (split; [exact H1|]); exists mid.
    - rewrite H2. repeat rewrite append_assoc. split; [reflexivity|]. rewrite has_char_app in H3. apply orb_false_iff in H3. apply H3.
    - rewrite H2. repeat rewrite append_assoc. split; [reflexivity|]. rewrite has_char_app, H3. reflexivity. }
  assert (F : Forall2 (fun p l => dict_get String.eqb (m_raw m) p = Some l /\ List.length l = List.length first) files lines).
  { clear Ep. revert El. generalize files lines. clear. intros fs. induction fs as [|q fs IH]; intros ls E; cbn [mapM] in E; [injection E as <-; constructor|].
    unfold open_file in E at 1. destruct (dict_get String.eqb (m_raw m) q) as [l|] eqn:Q; cbn [bind] in E; [|discriminate]. destruct (Nat.eqb (List.length l) (List.length first)) eqn:W; cbn [bind] in E; [|discriminate].
    destruct (mapM _ fs) as [ls'|] eqn:E'; cbn [bind] in E; [|discriminate]. injection E as <-. constructor; [split; [exact Q|apply Nat.eqb_eq, W]|apply IH; reflexivity]. }
  split; [clear -F; induction F as [|a b fs ls [H _] F IH]; constructor; assumption|]. split.
  { intros ->. inversion F as [HF|]; subst. rewrite <- HF in Ep. discriminate Ep. }
  split; [|reflexivity]. exists (List.length first). clear -F. induction F as [|a b fs ls [_ H] F IH]; constructor; assumption. Qed.

(** The stacks of a loaded scan *)
Lemma lambda_stack s s' : load_image_stack m s = Ok s' -> In "lambda" (f_detectors s) ->
  exists imgs mid out, dict_get String.eqb (m_stacks m) (lambda_path (f_dir s) (f_name s)) = Some imgs /\
    selection (in_index (dict_get String.eqb (f_data s) "lambda_index")) imgs mid /\ selection (without (f_removed s)) mid out /\
    dict_get String.eqb (f_images s') "lambda" = Some (S3 out).
Proof. intros L I. destruct (proj1 (stack_loaded s s' L) "lambda" ltac:(cbn; tauto) I) as (x & E & G). destruct (lambda_loaded s x E) as (imgs & mid & out & H1 & H2 & H3 & ->). exists imgs, mid, out. auto. Qed.
Lemma eiger_stack_of s s' folder path imgs : load_image_stack m s = Ok s' -> In "eiger" (f_detectors s) -> eiger_name (f_name s) folder ->
  dict_get String.eqb (m_stacks m) path = Some imgs ->
  path = eiger_path (f_dir s) folder \/
  dict_get String.eqb (m_stacks m) (eiger_path (f_dir s) folder) = None /\ master_file (f_dir s) folder path /\
    (forall p, In p (map fst (m_images m) ++ map fst (m_stacks m) ++ map fst (m_raw m))%list -> master_file (f_dir s) folder p -> p = path) ->
  exists mid out, selection (in_index (dict_get String.eqb (f_data s) "eiger_index")) imgs mid /\ selection (without (f_removed s)) mid out /\
    dict_get String.eqb (f_images s') "eiger" = Some (S3 out).
Proof. intros L I N P H. assert (E : eiger_stack m (f_dir s) (f_name s) = Ok imgs).
  { destruct H as [->|(H1 & H2 & H3)]; [exact (stack_default s folder imgs N P)|exact (stack_named s folder path imgs N H1 P H2 H3)]. }
  destruct (proj1 (stack_loaded s s' L) "eiger" ltac:(cbn; tauto) I) as (x & Ex & G). destruct (eiger_loaded s imgs x E Ex) as (mid & out & H2 & H3 & ->). exists mid, out. auto. Qed.
Lemma mythen_stack s s' : load_image_stack m s = Ok s' -> In "mythen" (f_detectors s) -> exists paths lines,
  in_order paths /\ (forall p, In p paths <-> In p (map fst (m_raw m)) /\ profile_file (f_dir s) (f_name s) "mythen" p) /\
  Forall2 (fun p l => dict_get String.eqb (m_raw m) p = Some l) paths lines /\ lines <> [] /\ (exists w, Forall (fun l => List.length l = w) lines) /\
  dict_get String.eqb (f_images s') "mythen" = Some (S2 lines).
Proof. intros L I. destruct (proj1 (stack_loaded s s' L) "mythen" ltac:(cbn; tauto) I) as (x & E & G). destruct (mythen_loaded s x E) as (paths & lines & H1 & H2 & H3 & H4 & H5 & ->). exists paths, lines. auto 7. Qed.
Lemma other_stacks s s' det : load_image_stack m s = Ok s' -> ~ In det ["lambda"; "p100k"; "eiger"; "mythen"] \/ ~ In det (f_detectors s) ->
  dict_get String.eqb (f_images s') det = dict_get String.eqb (f_images s) det.
Proof. intros L H. exact (proj2 (stack_loaded s s' L) det H). Qed.
Lemma lambda_matching s s' ns : load_image_stack m s = Ok s' -> In "lambda" (f_detectors s) -> f_removed s = None ->
  dict_get String.eqb (f_data s) "lambda_index" = Some (map (fun k => Some (INR k)) ns) -> increasing_nat ns ->
  (forall imgs, dict_get String.eqb (m_stacks m) (lambda_path (f_dir s) (f_name s)) = Some imgs -> Forall (fun k => (k < List.length imgs)%nat) ns) ->
  exists imgs out, dict_get String.eqb (m_stacks m) (lambda_path (f_dir s) (f_name s)) = Some imgs /\
    dict_get String.eqb (f_images s') "lambda" = Some (S3 out) /\ matching (map (fun k => Some (INR k)) ns) imgs out.
Proof. intros L I R D S1 B. destruct (lambda_stack s s' L I) as (imgs & mid & out & P & H1 & H2 & G). rewrite R in H2. rewrite D in H1. exists imgs, out. split; [exact P|]. split; [exact G|].
  rewrite <- (selection_unique _ _ mid mid out (fun k => iff_refl _) (selection_all mid) H2). exact (selection_matching ns imgs mid S1 (B imgs P) H1). Qed.
Lemma lambda_order s1 s2 s1' s2' c1 c2 : load_image_stack m s1 = Ok s1' -> load_image_stack m s2 = Ok s2' -> In "lambda" (f_detectors s1) -> In "lambda" (f_detectors s2) ->
  f_removed s1 = None -> f_removed s2 = None -> f_dir s1 = f_dir s2 -> f_name s1 = f_name s2 ->
  dict_get String.eqb (f_data s1) "lambda_index" = Some c1 -> dict_get String.eqb (f_data s2) "lambda_index" = Some c2 -> (forall x, In x c1 <-> In x c2) ->
  dict_get String.eqb (f_images s1') "lambda" = dict_get String.eqb (f_images s2') "lambda".
Proof. intros L1 L2 I1 I2 R1 R2 Ed En D1 D2 H. destruct (lambda_stack _ _ L1 I1) as (imgs & mid & out & P & A1 & A2 & G). destruct (lambda_stack _ _ L2 I2) as (imgs2 & mid2 & out2 & P2 & B1 & B2 & G2).
  rewrite Ed, En in P. assert (imgs2 = imgs) by congruence. subst imgs2. rewrite R1 in A2. rewrite R2 in B2. rewrite D1 in A1. rewrite D2 in B1. rewrite G, G2. do 2 f_equal.
  rewrite <- (selection_unique _ _ mid mid out (fun k => iff_refl _) (selection_all mid) A2), <- (selection_unique _ _ mid2 mid2 out2 (fun k => iff_refl _) (selection_all mid2) B2).
  exact (selection_unique _ _ imgs mid mid2 (in_index_same c1 c2 H) A1 B1). Qed.
(** ** Loading and removing repeated points *)
Lemma get_map {A B} (f : A -> B) (d : list (string * A)) k : dict_get String.eqb (map (fun kv => (fst kv, f (snd kv))) d) k = option_map f (dict_get String.eqb d k).
Proof. induction d as [|[k' v] d IH]; [reflexivity|]. cbn [map fst snd dict_get]. destruct (String.eqb k' k); [reflexivity|exact IH]. Qed.
Lemma set_map {A B} (f : A -> B) (d : list (string * A)) k v : dict_set String.eqb (map (fun kv => (fst kv, f (snd kv))) d) k (f v) = map (fun kv => (fst kv, f (snd kv))) (dict_set String.eqb d k v).
Proof. induction d as [|[k' v'] d IH]; [reflexivity|]. cbn [map fst snd dict_set]. destruct (String.eqb k' k); cbn [map fst snd]; [reflexivity|]. f_equal. exact IH. Qed.
Lemma commute s s1 s2 : f_doubles s = false -> f_removed s = None -> ~ In "mythen" (f_detectors s) ->
  (forall det, In det (f_detectors s) -> dict_get String.eqb (f_data s) (det ++ "_index") = None) ->
  load_image_stack m s = Ok s1 -> remove_double s = Ok s2 -> load_image_stack m s2 = remove_double s1.
Proof. intros D R My Ix L E. unfold remove_double in E. rewrite D in E. destruct (py_get (f_positions s) 0) as [pos|] eqn:Ep; cbn [bind] in E; [|discriminate]. injection E as <-.
  set (idxes := repeated_from 0 pos). unfold load_image_stack in L. destruct (foldM _ (f_images s) _) as [i|] eqn:Ei; cbn [bind] in L; [|discriminate]. injection L as <-.
  unfold remove_double. cbn [f_doubles f_positions set_images]. rewrite D, Ep. cbn [bind]. fold idxes.
  unfold load_image_stack. cbn [f_detectors f_images].
  set (s2 := mkFscan _ _ _ _ _ _ _ _ _ _ (Some idxes) true).
  assert (G : forall dets, (forall d, In d dets -> In d ["lambda"; "p100k"; "eiger"; "mythen"]) -> forall i0 i1,
    foldM (fun i det => if existsb (String.eqb det) (f_detectors s) then x <- load_detector m s det ;; Ok (dict_set String.eqb i det x) else Ok i) i0 dets = Ok i1 ->
    foldM (fun i det => if existsb (String.eqb det) (f_detectors s) then x <- load_detector m s2 det ;; Ok (dict_set String.eqb i det x) else Ok i) (map (fun kv => (fst kv, stack_delete (snd kv) idxes)) i0) dets =
    Ok (map (fun kv => (fst kv, stack_delete (snd kv) idxes)) i1)).
  { induction dets as [|d dets IH]; intros Hd i0 i1 F; cbn [foldM] in F |- *; [injection F as <-; reflexivity|].
    destruct (existsb (String.eqb d) (f_detectors s)) eqn:Ed; cbn [bind] in F |- *; [|apply IH; [intros d' H; apply Hd; right; exact H|exact F]].
    apply member_iff in Ed. destruct (load_detector m s d) as [x|] eqn:Ex; cbn [bind] in F; [|discriminate].
    assert (X : load_detector m s2 d = Ok (stack_delete x idxes)).
    { pose proof (Ix d Ed) as Id. assert (Id2 : dict_get String.eqb (f_data s2) (d ++ "_index") = None).
      { unfold s2. cbn [f_data]. rewrite get_map, Id. reflexivity. }
      unfold load_detector in *. cbn [f_dir f_name f_removed] in *. change (f_dir s2) with (f_dir s). change (f_name s2) with (f_name s). change (f_removed s2) with (Some idxes). rewrite R in Ex.
      destruct (String.eqb_spec d "lambda") as [->|]; [|destruct (String.eqb_spec d "p100k") as [->|]; [|destruct (String.eqb_spec d "eiger") as [->|]]].
      - unfold load_lambda, indexed_images in *. cbn [append] in Id, Id2. rewrite Id in Ex. rewrite Id2. destruct (open_file _ _); cbn [bind] in *; [|discriminate]. injection Ex as <-. reflexivity.
      - unfold load_pilatus in *. change ("p100k" ++ "_index") with "p100k_index" in *. rewrite Id in Ex. rewrite Id2. destruct (py_get _ _); cbn [bind] in *; [|discriminate]. destruct (open_file _ _); cbn [bind] in *; [|discriminate]. injection Ex as <-. reflexivity.
      - unfold load_eiger, indexed_images in *. cbn [append] in Id, Id2. rewrite Id in Ex. rewrite Id2. destruct (eiger_stack _ _ _); cbn [bind] in *; [|discriminate]. injection Ex as <-. reflexivity.
      - exfalso. destruct (Hd d (or_introl eq_refl)) as [<- |[<- |[<- |[<- |[]]]]]; congruence. }
    rewrite X. cbn [bind]. rewrite (set_map (fun st => stack_delete st idxes)). apply IH; [intros d' H; apply Hd; right; exact H|exact F]. }
  rewrite (G _ (fun d H => H) _ _ Ei). reflexivity. Qed.
End Loading.

(** ** Whole numbers *)
Lemma is_index_nat ns i : is_index (map (fun k => Some (INR k)) ns) i = existsb (Nat.eqb i) ns.
Proof. destruct (existsb (Nat.eqb i) ns) eqn:E.
  - apply is_index_iff, in_map_iff. apply existsb_exists in E as (k & H & E). apply Nat.eqb_eq in E. subst k. exists i. split; [reflexivity|exact H].
  - destruct (is_index _ i) eqn:F; [|reflexivity]. apply is_index_iff, in_map_iff in F as (k & H & F). injection H as H. apply INR_eq in H. subst k. rewrite <- E. symmetry. apply existsb_exists. exists i. split; [exact F|apply Nat.eqb_refl]. Qed.
Lemma indexed_nat d key ns imgs : dict_get String.eqb d key = Some (map (fun k => Some (INR k)) ns) ->
  indexed_images d key imgs = keep_but (filter (fun i => negb (existsb (Nat.eqb i) ns)) (seq 0 (List.length imgs))) imgs.
Proof. intros E. unfold indexed_images. replace (dict_get _ d key) with (Some (map (fun k => Some (INR k) : fl) ns)) by (symmetry; exact E). f_equal. apply filter_ext. intros i. exact (f_equal negb (is_index_nat ns i)). Qed.
Fixpoint nat_repeated (i : nat) (pos : list nat) : list nat :=
  match pos with x :: ((y :: _) as pos') => if Nat.eqb x y then i :: nat_repeated (S i) pos' else nat_repeated (S i) pos' | _ => [] end.
Lemma repeated_nat pos : forall i, repeated_from i (map (fun k => Some (INR k)) pos) = nat_repeated i pos.
Proof. induction pos as [|x pos IH]; intros i; [reflexivity|]. destruct pos as [|y pos]; [reflexivity|]. specialize (IH (S i)). cbn [map] in IH |- *. cbn [repeated_from nat_repeated]. cbn [repeated_from] in IH. rewrite IH.
  destruct (Nat.eqb_spec x y) as [->|N].
  - replace (feqb _ _) with true; [reflexivity|]. symmetry. apply same_iff. exists (INR y). split; reflexivity.
  - destruct (feqb _ _) eqn:E; [|reflexivity]. exfalso. apply same_iff in E as (r & E1 & E2). injection E1 as E1. injection E2 as E2. apply N, INR_eq. congruence. Qed.

(** ** Recognised detectors *)
Lemma part_iff w n : part w n <-> contains w n = true.
Proof. symmetry. apply contains_iff. Qed.
Lemma not_part w n : ~ part w n <-> contains w n = false.
Proof. rewrite part_iff. destruct (contains w n); split; congruence. Qed.
Definition order_of_detectors := ["lambda"; "p100k"; "p300k"; "eiger"; "mythen"; "pe"].
Local Ltac earlier_parts :=
  match goal with Hd : In ?d _, Hw : In ?w (detector_parts ?d) |- _ =>
    simpl in Hd; repeat (destruct Hd as [<-|Hd]; [simpl in Hw; repeat (destruct Hw as [<-|Hw]; [apply not_part; assumption|]); destruct Hw|]); destruct Hd end.
Lemma detector_of_iff name det : detector_of name = Some det <-> exists earlier later, order_of_detectors = (earlier ++ det :: later)%list /\
    (exists w, In w (detector_parts det) /\ part w name) /\ (forall d w, In d earlier -> In w (detector_parts d) -> ~ part w name).
Proof. split.
  - unfold detector_of. intros H.
    destruct (contains "lambda" name) eqn:E1. { injection H as <-. exists [], (tl order_of_detectors). split; [reflexivity|]. split; [exists "lambda"; rewrite part_iff; simpl; auto|intros d w []]. }
    destruct (contains "p100k" name) eqn:E2. { injection H as <-. exists ["lambda"], (skipn 2 order_of_detectors). split; [reflexivity|]. split; [exists "p100k"; rewrite part_iff; simpl; auto|].
      intros d w Hd Hw; earlier_parts. }
    destruct (contains "p300k" name) eqn:E3. { injection H as <-. exists ["lambda"; "p100k"], (skipn 3 order_of_detectors). split; [reflexivity|]. split; [exists "p300k"; rewrite part_iff; simpl; auto|].
      intros d w Hd Hw; earlier_parts. }
    destruct (contains "eiger" name) eqn:E4. { injection H as <-. exists ["lambda"; "p100k"; "p300k"], (skipn 4 order_of_detectors). split; [reflexivity|]. split; [exists "eiger"; rewrite part_iff; simpl; auto|].
      intros d w Hd Hw; earlier_parts. }
    destruct (contains "mythint" name || contains "mythmax" name || contains "mythroi1" name || contains "mythroi2" name) eqn:E5.
    { injection H as <-. exists ["lambda"; "p100k"; "p300k"; "eiger"], ["pe"]. split; [reflexivity|]. split.
      - rewrite !Bool.orb_true_iff in E5. destruct E5 as [[[E|E]|E]|E]; [exists "mythint"|exists "mythmax"|exists "mythroi1"|exists "mythroi2"]; rewrite part_iff; simpl; tauto.
      - intros d w Hd Hw; earlier_parts. }
    destruct (contains "pe_roi" name || contains "pe_trigger" name) eqn:E6; [|discriminate].
    injection H as <-. exists ["lambda"; "p100k"; "p300k"; "eiger"; "mythen"], []. split; [reflexivity|]. split.
    + rewrite !Bool.orb_true_iff in E6. destruct E6 as [E|E]; [exists "pe_roi"|exists "pe_trigger"]; rewrite part_iff; simpl; tauto.
    + rewrite !Bool.orb_false_iff in E5. destruct E5 as [[[A1 A2] A3] A4].
      intros d w Hd Hw; earlier_parts.
  - intros (e & l & E & (w & Hw & P) & N).
    assert (K : forall d v, In d e -> In v (detector_parts d) -> contains v name = false) by (intros d v A B; apply not_part; exact (N d v A B)).
    apply part_iff in P. clear N.
    assert (C : (e, det) = ([], "lambda") \/ (e, det) = (["lambda"], "p100k") \/ (e, det) = (["lambda"; "p100k"], "p300k") \/
      (e, det) = (["lambda"; "p100k"; "p300k"], "eiger") \/ (e, det) = (["lambda"; "p100k"; "p300k"; "eiger"], "mythen") \/ (e, det) = (["lambda"; "p100k"; "p300k"; "eiger"; "mythen"], "pe")).
    { unfold order_of_detectors in E. destruct e as [|? e]; injection E as <- E; [tauto|]. destruct e as [|? e]; injection E as <- E; [tauto|].
      destruct e as [|? e]; injection E as <- E; [tauto|]. destruct e as [|? e]; injection E as <- E; [tauto|]. destruct e as [|? e]; injection E as <- E; [tauto|].
      destruct e as [|? e]; injection E as <- E; [tauto|]. destruct e; discriminate. }
    clear E. unfold detector_of.
    destruct C as [C|[C|[C|[C|[C|C]]]]]; injection C as -> ->; simpl in Hw;
    repeat match goal with |- context [contains ?v name] => first [rewrite (K v v) by (simpl; tauto)|rewrite (K "mythen" v) by (simpl; tauto)] end;
    repeat (destruct Hw as [<-|Hw]; [rewrite P; cbn [orb]; rewrite ?Bool.orb_true_r; reflexivity|]); destruct Hw. Qed.
Lemma detectors_of_iff names det : In det (detectors_of names) <->
  exists earlier later name, ["lambda"; "p100k"; "p300k"; "eiger"; "mythen"; "pe"] = (earlier ++ det :: later)%list /\ In name names /\
    (exists w, In w (detector_parts det) /\ part w name) /\ (forall d w, In d earlier -> In w (detector_parts d) -> ~ part w name).
Proof. unfold detectors_of. rewrite filter_In, existsb_exists. split.
  - intros (_ & n & Hn & H). destruct (detector_of n) as [d|] eqn:E; [|discriminate]. apply String.eqb_eq in H. subst d.
    apply detector_of_iff in E. destruct E as (e & l & E & P & N). exists e, l, n. auto.
  - intros (e & l & n & E & Hn & P & N). split; [rewrite E; apply in_elt|]. exists n. split; [exact Hn|].
    rewrite (proj2 (detector_of_iff n det)); [apply String.eqb_refl|]. exists e, l. auto. Qed.
