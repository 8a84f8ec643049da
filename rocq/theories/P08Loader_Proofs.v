(** Lemmas about regions of interest, image files and the FIO loader. *)
From Coq Require Import Reals Lra Sorted Permutation.
From Flocq Require Import Core.Raux Core.Generic_fmt.
From Verif Require Import Py Str Arr Footprint_Model Scan_Model Spec_Model Fio_Model P08_Model Footprint_Proofs Scan_Proofs
  SpecFile_Spec FioFile_Spec P08_Spec P08Scan_Spec Spec_Proofs SpecLoader_Proofs Fio_Proofs P08_Proofs.
Local Open Scope R_scope.
Local Open Scope string_scope.

(** ** [extract_rois] *)
Definition corners_value (z : list Z) (img : image) : fl :=
  match z with [l; b; r; t] => region_sum (Z.to_nat l) (Z.to_nat b) (Z.to_nat r) (Z.to_nat t) img | _ => None end.
Definition corners_line (z : list Z) (l : list fl) : fl := match z with lo :: hi :: _ => line_sum (Z.to_nat lo) (Z.to_nat hi) l | _ => None end.
Lemma line_sums_4 l b r t x : (y <- line_region (roi4 l b r t) x ;; Ok (fsum y)) = Ok (line_sum l b x).
Proof. exact (line_sums l b x). Qed.
Lemma mapM_map_ok {A B} (f : A -> res B) (g : A -> B) l : (forall x, In x l -> f x = Ok (g x)) -> mapM f l = Ok (map g l).
Proof. induction l as [|x l IH]; intros H; [reflexivity|]. cbn [mapM map]. rewrite (H x (or_introl eq_refl)). cbn [bind]. rewrite IH; [reflexivity|]. intros y Hy. apply H. right; exact Hy. Qed.
Lemma attenuated_ext {A} column (f g : A -> fl) imgs : (forall i, f i = g i) -> attenuated column f imgs = attenuated column g imgs.
Proof. intros H. unfold attenuated. apply map_ext. intros ki. rewrite H. reflexivity. Qed.
Lemma scale_sums {A} d (sums : list (string * (A -> fl))) imgs : attenuation_fits (dict_get String.eqb d "atten_position") (List.length imgs) ->
  mapM (fun kv => v <- vec_op fmul (snd kv) (attenuation_of d) ;; Ok (fst kv, v)) (map (fun kf => (fst kf, map (snd kf) imgs)) sums) =
  Ok (map (fun kf => (fst kf, attenuated (dict_get String.eqb d "atten_position") (snd kf) imgs)) sums).
Proof. intros H. rewrite (mapM_map_ok _ (fun kv : string * list fl => (fst kv, match vec_op fmul (snd kv) (attenuation_of d) with Ok v => v | Raise _ => [] end))).
  - f_equal. rewrite map_map. apply map_ext. intros kf. cbn [fst snd]. rewrite attenuate_sums by exact H. reflexivity.
  - intros kv Hk. apply in_map_iff in Hk as (kf & <- & _). cbn [fst snd]. rewrite attenuate_sums by exact H. reflexivity. Qed.
Lemma extract_rois_ok s rois : (forall kv, In kv (f_images s) -> attenuation_fits (dict_get String.eqb (f_data s) "atten_position") (stack_size (snd kv))) ->
  NoDup ("all" :: map fst rois) ->
  extract_rois s (map (fun kq => (fst kq, corners (snd kq))) rois) =
  Ok (map (fun kv => (fst kv, sums_of (dict_get String.eqb (f_data s) "atten_position") rois (snd kv))) (f_images s)).
Proof. intros F N. apply mapM_map_ok. intros [det st] Hin. pose proof (F _ Hin) as Fk. cbn [fst snd] in *.
  assert (N' : NoDup ("all" :: map fst (map (fun kq : string * rectangle => (fst kq, corners (snd kq))) rois))) by (rewrite map_map; exact N).
  set (col := dict_get String.eqb (f_data s) "atten_position") in *.
  destruct st as [imgs|lines]; cbn [stack_size] in Fk.
  - rewrite (roi_sums_ok image_sum _ corners_value); [|intros kv img Hk _; apply in_map_iff in Hk as ([k [[[l b] r] t]] & <- & _); cbn [fst snd corners]; rewrite region_sums; unfold corners_value, roi4; rewrite !Nat2Z.id; reflexivity|exact N'].
    cbn [bind].
    assert (G := scale_sums (f_data s) (("all", image_sum) :: map (fun kq => (fst kq, sum_in (snd kq))) rois) imgs Fk). cbn [map fst snd] in G. rewrite map_map in G. cbn [fst snd] in G.
    match goal with |- (scaled <- mapM _ ?l ;; _) = _ => replace l with (("all", map image_sum imgs) :: map (fun x : string * rectangle => (fst x, map (sum_in (snd x)) imgs)) rois) end.
    + refine (eq_trans (f_equal (fun r => scaled <- r ;; Ok (det, scaled)) G) _). cbn [bind sums_of]. f_equal. f_equal. f_equal.
      * f_equal. apply attenuated_ext, image_total.
      * rewrite map_map. reflexivity.
    + f_equal. rewrite map_map. apply map_ext. intros [k [[[l b] r] t]]. cbn [fst snd corners]. f_equal. apply map_ext. intros img. unfold corners_value, roi4, sum_in. rewrite !Nat2Z.id. reflexivity.
  - rewrite (roi_sums_ok fsum _ corners_line); [|intros kv img Hk _; apply in_map_iff in Hk as ([k [[[l b] r] t]] & <- & _); cbn [fst snd corners]; rewrite line_sums_4; unfold corners_line, roi4; rewrite !Nat2Z.id; reflexivity|exact N'].
    cbn [bind].
    assert (G := scale_sums (f_data s) (("all", fsum) :: map (fun kq => (fst kq, sum_in_line (snd kq))) rois) lines Fk). cbn [map fst snd] in G. rewrite map_map in G. cbn [fst snd] in G.
    match goal with |- (scaled <- mapM _ ?l ;; _) = _ => replace l with (("all", map fsum lines) :: map (fun x : string * rectangle => (fst x, map (sum_in_line (snd x)) lines)) rois) end.
    + refine (eq_trans (f_equal (fun r => scaled <- r ;; Ok (det, scaled)) G) _). cbn [bind sums_of]. f_equal. f_equal. f_equal. rewrite map_map. reflexivity.
    + f_equal. rewrite map_map. apply map_ext. intros [k [[[l b] r] t]]. cbn [fst snd corners]. f_equal. apply map_ext. intros img. unfold corners_line, roi4, sum_in_line. rewrite !Nat2Z.id. reflexivity. Qed.
Lemma dict_get_map {A B} (f : A -> B) (d : list (string * A)) k :
  dict_get String.eqb (map (fun kv => (fst kv, f (snd kv))) d) k = option_map f (dict_get String.eqb d k).
Proof. induction d as [|[j x] d IH]; [reflexivity|]. cbn [map dict_get fst snd]. destruct (String.eqb j k); [reflexivity|exact IH]. Qed.

(** ** Attenuation *)
Lemma no_kinks i angle : (forall k, ~ followed_by_same angle k) -> correct_discontinuities i angle = Ok i.
Proof. intros H. unfold correct_discontinuities.
  assert (G : forall l, (forall k, In k l -> (k < List.length angle - 1)%nat) -> foldM (kink_step angle) i l = Ok i).
  { induction l as [|k l IH]; intros Hl; [reflexivity|]. cbn [foldM]. unfold kink_step at 1.
    pose proof (Hl k (or_introl eq_refl)) as Hk.
    destruct (nth_error angle k) as [a|] eqn:Ea; [|apply nth_error_None in Ea; lia].
    destruct (nth_error angle (k + 1)) as [b|] eqn:Eb; [|apply nth_error_None in Eb; lia].
    rewrite (py_get_nat angle k Ea), (py_get_nat angle (k + 1) Eb). cbn [bind].
    destruct (feqb (fsub b a) (Some 0)) eqn:E; [exfalso|cbn [bind]; apply IH; intros j Hj; apply Hl; right; exact Hj].
    apply feqb_iff in E as (z & E1 & E2). injection E2 as <-. destruct b as [b|], a as [a|]; try discriminate. cbn in E1. injection E1 as E1.
    apply (H k). exists a. split; [exact Ea|]. rewrite Nat.add_1_r in Eb. rewrite Eb. f_equal. f_equal. lra. }
  apply G. intros k Hk. apply in_seq in Hk. lia. Qed.
Lemma fio_counter d s a angle det counts atten : fl_attenuator d = Some a ->
  dict_get String.eqb (f_data s) (fl_roi_name d) = Some counts -> dict_get String.eqb (f_data s) a = Some atten ->
  List.length counts = List.length atten -> (forall k, ~ followed_by_same angle k) ->
  fio_intensity d s angle None det = Ok (map (fun xy => fmul (fst xy) (snd xy)) (combine counts atten)).
Proof. intros Ha Hc Hat L K. unfold fio_intensity. rewrite Ha. unfold data_col. rewrite Hc, Hat. cbn [bind]. unfold apply_attenuation. rewrite (vec_op_same fmul _ _ L). cbn [bind]. apply no_kinks, K. Qed.
Lemma fio_no_attenuator d s angle roi det : fl_attenuator d = None ->
  fio_intensity d s angle roi det = match roi with None => data_col (f_data s) (fl_roi_name d) | Some r => redraw_roi s r det end.
Proof. intros H. unfold fio_intensity. rewrite H. destruct (match roi with None => _ | Some _ => _ end); reflexivity. Qed.
Lemma redraw_ok s q det imgs : (forall kv, In kv (f_images s) -> attenuation_fits (dict_get String.eqb (f_data s) "atten_position") (stack_size (snd kv))) ->
  dict_get String.eqb (f_images s) det = Some (S3 imgs) ->
  redraw_roi s (corners q) det = Ok (attenuated (dict_get String.eqb (f_data s) "atten_position") (sum_in q) imgs).
Proof. intros F H. unfold redraw_roi.
  assert (N : NoDup ("all" :: map fst [("custom_roi", q)])) by (cbn; repeat constructor; cbn; intuition discriminate).
  pose proof (extract_rois_ok s [("custom_roi", q)] F N) as E. cbn [map fst snd] in E. rewrite E. cbn [bind]. rewrite (dict_get_map (sums_of _ _) (f_images s) det), H. reflexivity. Qed.
Lemma fio_custom d s angle q det imgs c : fl_attenuator d = Some "atten_position" ->
  dict_get String.eqb (f_data s) "atten_position" = Some c ->
  (forall kv, In kv (f_images s) -> stack_size (snd kv) = List.length c) ->
  dict_get String.eqb (f_images s) det = Some (S3 imgs) -> (forall k, ~ followed_by_same angle k) ->
  exists r, fio_intensity d s angle (Some (corners q)) det = Ok r /\ List.length r = List.length imgs /\
    forall k i a, nth_error imgs k = Some i -> nth_error c k = Some a -> nth_error r k = Some (fmul (fmul (sum_in q i) a) a).
Proof. intros Ha Hc F H K.
  assert (L : List.length c = List.length imgs) by (symmetry; exact (F (det, S3 imgs) (dict_get_some_In _ _ _ H))).
  unfold fio_intensity. rewrite Ha. rewrite (redraw_ok s q det imgs); [|intros kv Hkv; rewrite Hc; symmetry; exact (F kv Hkv)|exact H].
  cbn [bind]. unfold data_col. rewrite Hc. cbn [bind]. unfold apply_attenuation.
  assert (L2 : List.length (attenuated (Some c) (sum_in q) imgs) = List.length c) by (unfold attenuated; rewrite map_length, combine_length, seq_length, Nat.min_id; symmetry; exact L).
  rewrite (vec_op_same fmul _ _ L2). cbn [bind]. rewrite no_kinks by exact K. eexists. split; [reflexivity|]. split.
  - rewrite map_length, combine_length. rewrite L2. lia.
  - intros k i a Hi Hk. rewrite nth_error_map.
    assert (C : forall {A B} (l : list A) (l' : list B) k x y, nth_error l k = Some x -> nth_error l' k = Some y -> nth_error (combine l l') k = Some (x, y)).
    { clear. induction l as [|x0 l IH]; intros [|y0 l'] [|k] x y H1 H2; try discriminate; cbn in *; [congruence|]. apply IH; assumption. }
    rewrite (C _ _ _ _ _ (fmul (sum_in q i) a) a); [reflexivity| |exact Hk].
    unfold attenuated. rewrite nth_error_map. rewrite (C _ _ _ _ _ k i).
    + cbn [option_map fst snd attenuation_at]. exact (f_equal (fun z => Some (fmul (sum_in q i) z)) (nth_error_nth c k None Hk)).
    + assert (k < List.length imgs)%nat by (apply nth_error_Some; congruence). rewrite (nth_error_nth' _ 0%nat) by (rewrite seq_length; exact H0). rewrite seq_nth by exact H0. reflexivity.
    + exact Hi. Qed.

(** ** File names *)
Lemma drop_prefix_app p s : drop_prefix p (p ++ s) = s.
Proof. induction p as [|c p IH]; [destruct s; reflexivity|exact IH]. Qed.
Lemma glob_match_iff prefix suffix path : glob_match prefix suffix path = true <-> exists mid, path = prefix ++ mid ++ suffix /\ has_char "/" (mid ++ suffix) = false.
Proof. unfold glob_match. rewrite !andb_true_iff, negb_true_iff. split.
  - intros [[P E] H]. apply prefix_iff in P as [r ->]. rewrite drop_prefix_app in *. apply endswith_iff in E as [mid ->]. exists mid. split; [reflexivity|exact H].
  - intros (mid & -> & H). rewrite drop_prefix_app. repeat split; [apply prefix_app|apply endswith_iff; exists mid; reflexivity|exact H]. Qed.
Lemma insert_perm x l : Permutation (x :: l) (insert_sorted x l).
Proof. induction l as [|y l IH]; [apply Permutation_refl|]. cbn [insert_sorted]. destruct (str_leb x y); [apply Permutation_refl|].
  eapply Permutation_trans; [apply perm_swap|]. apply perm_skip, IH. Qed.
Lemma sort_perm l : Permutation l (sort_strings l).
Proof. induction l as [|x l IH]; [apply Permutation_refl|]. unfold sort_strings. cbn [fold_right]. eapply Permutation_trans; [apply perm_skip, IH|apply insert_perm]. Qed.
Lemma sort_In l x : In x (sort_strings l) <-> In x l.
Proof. split; apply Permutation_in; [apply Permutation_sym|]; apply sort_perm. Qed.
Lemma globbed_In paths prefix suffix p : In p (globbed paths prefix suffix) <-> In p paths /\ glob_match prefix suffix p = true.
Proof. apply filter_In. Qed.
Lemma nulls_zeros k : nulls k = zeros k.
Proof. induction k as [|k IH]; [reflexivity|]. cbn [nulls zeros]. rewrite IH. reflexivity. Qed.
Lemma fmt05_N n : fmt05 (Z.of_N n) = nulls (5 - String.length (dec n)) ++ dec n.
Proof. unfold fmt05. replace (Z.of_N n <? 0)%Z with false by (symmetry; apply Z.ltb_ge; lia). rewrite N2Z.id. unfold pad. rewrite <- nulls_zeros. reflexivity. Qed.
Lemma no_char_forall c p s : str_forall p s = true -> p c = false -> has_char c s = false.
Proof. intros H Hc. induction s as [|d s IH]; [reflexivity|]. cbn [str_forall] in H. apply andb_true_iff in H as [H1 H2]. cbn [has_char]. rewrite (IH H2), orb_false_r.
  apply Ascii.eqb_neq. intros ->. congruence. Qed.
Lemma nulls_forall k : str_forall (fun c => Ascii.eqb c "0") (nulls k) = true.
Proof. induction k as [|k IH]; [reflexivity|exact IH]. Qed.
Lemma dec_no_slash n : has_char "/" (dec n) = false.
Proof. apply (no_char_forall _ (fun c => match digit_val c with Some _ => true | None => false end)); [apply digits_uint|reflexivity]. Qed.
Lemma frame_matches base n : glob_match base ".tif" (frame_file base n) = true.
Proof. apply glob_match_iff. exists ("_" ++ nulls (5 - String.length (dec n)) ++ dec n). split.
  - unfold frame_file. rewrite !append_assoc. reflexivity.
  - rewrite !has_char_app, dec_no_slash. rewrite (no_char_forall _ _ _ (nulls_forall _)) by reflexivity. reflexivity. Qed.

(** ** Pilatus pictures *)
Lemma same_size_sized h w a b : sized h w a -> sized h w b -> same_size a b = true.
Proof. intros [La Wa] [Lb Wb]. unfold same_size. rewrite La, Lb, Nat.eqb_refl. cbn [andb]. apply Nat.eqb_eq. unfold image_width.
  destruct a as [|ra a], b as [|rb b]; try reflexivity; cbn in La, Lb; try lia. inversion Wa; inversion Wb; subst. congruence. Qed.
Lemma dark_sized h w a : sized h w a -> dark a = black h w.
Proof. intros [L W]. unfold dark, black. rewrite L. destruct a as [|r a]; [cbn in L; subst h; reflexivity|]. cbn [image_width]. inversion W; subst. reflexivity. Qed.
Lemma py_set_mid {A} (a : list A) x y b : py_set (a ++ x :: b)%list (Z.of_nat (List.length a)) y = Ok (a ++ y :: b)%list.
Proof. unfold py_set. assert (N : norm_idx (List.length (a ++ x :: b)%list) (Z.of_nat (List.length a)) = Some (List.length a)).
  { unfold norm_idx. rewrite app_length. cbn [List.length]. destruct (Z.ltb_spec (Z.of_nat (List.length a)) 0); [lia|]. destruct (Z.ltb_spec (Z.of_nat (List.length a)) (Z.of_nat (List.length a + S (List.length b)))); [|lia].
    replace (0 <=? Z.of_nat (List.length a))%Z with true by (symmetry; apply Z.leb_le; lia). cbn [andb]. rewrite Nat2Z.id. reflexivity. }
  rewrite N. f_equal. clear N. induction a as [|z a IH]; [reflexivity|]. cbn [List.length set_nth app]. rewrite IH. reflexivity. Qed.
Lemma cbf_name_matches base z : (0 <= z)%Z -> glob_match base ".cbf" ((base ++ "_" ++ fmt05 z) ++ ".cbf") = true.
Proof. intros Hz. apply glob_match_iff. exists ("_" ++ fmt05 z). rewrite !append_assoc. split; [reflexivity|].
  rewrite <- (Z2N.id z Hz), fmt05_N. rewrite !has_char_app, dec_no_slash. rewrite (no_char_forall _ _ _ (nulls_forall _)) by reflexivity. reflexivity. Qed.
Section Pilatus.
  Variable m : media.
  Variables dir name detector : string.
  Let base := dir ++ "/" ++ name ++ "/" ++ detector ++ "/" ++ name.
  Variables h w : nat.
  Hypothesis Hsize : forall path im, In (path, im) (m_images m) -> sized h w im.
  Hypothesis Hcbf : forall path im, In (path, im) (m_images m) -> glob_match base ".cbf" path = false.
  Let paths := map fst (m_images m).
  Let files := sort_strings (globbed paths base ".tif" ++ globbed paths base ".cbf")%list.
  Lemma cbf_none : globbed paths base ".cbf" = [].
  Proof. destruct (globbed paths base ".cbf") as [|p l] eqn:E; [reflexivity|exfalso]. assert (H : In p (globbed paths base ".cbf")) by (rewrite E; left; reflexivity).
    apply globbed_In in H as [H1 H2]. apply in_map_iff in H1 as ([p' im] & <- & H1). cbn [fst] in H2. rewrite (Hcbf _ _ H1) in H2. discriminate. Qed.
  Lemma files_In p : In p files <-> In p paths /\ glob_match base ".tif" p = true.
  Proof. unfold files. rewrite cbf_none, app_nil_r, sort_In. apply globbed_In. Qed.
  Lemma cbf_matches z : (0 <= z)%Z -> glob_match base ".cbf" ((base ++ "_" ++ fmt05 z) ++ ".cbf") = true.
  Proof. intros Hz. apply glob_match_iff. exists ("_" ++ fmt05 z). rewrite !append_assoc. split; [reflexivity|].
    rewrite <- (Z2N.id z Hz), fmt05_N. rewrite !has_char_app, dec_no_slash. rewrite (no_char_forall _ _ _ (nulls_forall _)) by reflexivity. reflexivity. Qed.
  Lemma pilatus_one first n cnt imgs : sized h w first ->
    pilatus_step m base files first (cnt, imgs) (frame_number n) =
    match dict_get String.eqb (m_images m) (frame_file base n) with
    | Some im => imgs' <- py_set imgs (Z.of_nat cnt) im ;; Ok (S cnt, imgs')
    | None => Ok (cnt, imgs)
    end.
  Proof. intros Hf. unfold pilatus_step, frame_number. cbn [to_int bind]. rewrite Ztrunc_IZR.
    assert (Ef : (base ++ "_" ++ fmt05 (Z.of_N n)) ++ ".tif" = frame_file base n) by (unfold frame_file; rewrite fmt05_N, !append_assoc; reflexivity).
    rewrite Ef.
    assert (Ec : existsb (String.eqb ((base ++ "_" ++ fmt05 (Z.of_N n)) ++ ".cbf")) files = false).
    { destruct (existsb _ files) eqn:E; [exfalso|reflexivity]. apply existsb_exists in E as (p & H1 & H2). apply String.eqb_eq in H2. subst p. apply files_In in H1 as [H1 _].
      apply in_map_iff in H1 as ([p im] & E & H1). cbn [fst] in E. subst p. pose proof (Hcbf _ _ H1) as C. rewrite cbf_matches in C by lia. discriminate. }
    rewrite Ec, orb_false_r. unfold open_file.
    destruct (dict_get String.eqb (m_images m) (frame_file base n)) as [im|] eqn:E.
    - assert (I := dict_get_some_In _ _ _ E). replace (existsb (String.eqb (frame_file base n)) files) with true.
      + cbn [bind]. rewrite (same_size_sized h w im first (Hsize _ _ I) Hf). reflexivity.
      + symmetry. apply existsb_exists. exists (frame_file base n). split; [|apply String.eqb_refl]. apply files_In. split; [exact (in_map fst _ _ I)|apply frame_matches].
    - replace (existsb (String.eqb (frame_file base n)) files) with false; [reflexivity|]. symmetry. destruct (existsb (String.eqb (frame_file base n)) files) eqn:F; [exfalso|reflexivity].
      apply existsb_exists in F as (p & H1 & H2). apply String.eqb_eq in H2. subst p. apply files_In in H1 as [H1 _]. apply dict_get_In in H1. destruct H1 as [v H1]. congruence. Qed.
  Lemma pilatus_all first ns : sized h w first -> forall pics r, (List.length ns <= r)%nat ->
    foldM (pilatus_step m base files first) (List.length pics, (pics ++ repeat (black h w) r)%list) (map frame_number ns) =
    let more := found (map (fun n => dict_get String.eqb (m_images m) (frame_file base n)) ns) in
    Ok (List.length (pics ++ more), (pics ++ more ++ repeat (black h w) (r - List.length more))%list).
  Proof. intros Hf. induction ns as [|n ns IH]; intros pics r Hr.
    - cbn. rewrite app_nil_r, Nat.sub_0_r. reflexivity.
    - cbn [map foldM]. rewrite pilatus_one by exact Hf. unfold found. cbn [flat_map map]. fold (@found image). cbn [List.length] in Hr.
      destruct (dict_get String.eqb (m_images m) (frame_file base n)) as [im|].
      + destruct r as [|r]; [lia|]. cbn [repeat]. rewrite py_set_mid. cbn [bind].
        replace (S (List.length pics)) with (List.length (pics ++ [im])%list) by (rewrite app_length; cbn; lia).
        pose proof (app_assoc pics [im] (repeat (black h w) r)) as E. cbn [app] in E.
        assert (Hn : (List.length ns <= r)%nat) by lia.
        refine (eq_trans (f_equal (fun z => foldM (pilatus_step m base files first) (List.length (pics ++ [im])%list, z) _) E) (eq_trans (IH (pics ++ [im])%list r Hn) _)). cbv zeta. cbn [app]. rewrite <- !app_assoc. cbn [app List.length]. reflexivity.
      + cbn [bind app]. apply IH. lia. Qed.
  Lemma pilatus_stack ns (d : list (string * list fl)) : (exists path im, In (path, im) (m_images m) /\ glob_match base ".tif" path = true) ->
    dict_get String.eqb d (detector ++ "_index") = Some (map frame_number ns) ->
    let pics := found (map (fun n => dict_get String.eqb (m_images m) (frame_file base n)) ns) in
    load_pilatus m dir name detector d = Ok (S3 (pics ++ repeat (black h w) (List.length ns - List.length pics))%list).
  Proof. intros (path & im & I & G) Hd. unfold load_pilatus. fold base. fold paths. fold files. rewrite Hd.
    assert (F : In path files) by (apply files_In; split; [exact (in_map fst _ _ I)|exact G]).
    destruct files as [|p0 l0] eqn:E; [destruct F|]. change (py_get (p0 :: l0) 0) with (Ok p0). cbn [bind].
    assert (I0 : In p0 files) by (rewrite E; left; reflexivity). apply files_In in I0 as [I0 _]. apply dict_get_In in I0 as [first E0]. unfold open_file at 1. rewrite E0. cbn [bind].
    assert (Hf : sized h w first) by exact (Hsize _ _ (dict_get_some_In _ _ _ E0)). rewrite (dark_sized h w first Hf). rewrite map_length. rewrite <- E.
    pose proof (pilatus_all first ns Hf [] (List.length ns) (le_n _)) as P. cbv zeta in P. cbn [app List.length] in P. exact (f_equal (fun r => ' (_, imgs) <- r ;; Ok (S3 imgs)) P). Qed.
End Pilatus.
Lemma found_all {A} (l : list (option A)) r : l = map Some r -> found l = r.
Proof. intros ->. induction r as [|x r IH]; [reflexivity|]. unfold found in *. cbn [map flat_map app]. rewrite IH. reflexivity. Qed.

Lemma found_app {A} (a b : list (option A)) : found (a ++ b)%list = (found a ++ found b)%list.
Proof. unfold found. apply flat_map_app. Qed.
Lemma files_found {A B} (f : A -> option B) ns (pics : list B) : Forall2 (fun n pic => f n = Some pic) ns pics -> found (map f ns) = pics.
Proof. intros H. apply found_all. induction H as [|n p ns pics Hn H IH]; [reflexivity|]. cbn [map]. rewrite Hn, IH. reflexivity. Qed.
Lemma some_frame m base ns pics : pics <> [] -> Forall2 (fun n pic => dict_get String.eqb (m_images m) (frame_file base n) = Some pic) ns pics ->
  exists path im, In (path, im) (m_images m) /\ glob_match base ".tif" path = true.
Proof. intros N H. destruct H as [|n p ns pics Hn H]; [congruence|]. exists (frame_file base n), p. split; [exact (dict_get_some_In _ _ _ Hn)|apply frame_matches]. Qed.
Lemma pilatus_present m dir name detector h w ns pics (d : list (string * list fl)) :
  (forall path im, In (path, im) (m_images m) -> sized h w im) ->
  (forall path im, In (path, im) (m_images m) -> glob_match (dir ++ "/" ++ name ++ "/" ++ detector ++ "/" ++ name) ".cbf" path = false) ->
  dict_get String.eqb d (detector ++ "_index") = Some (map frame_number ns) -> ns <> [] ->
  Forall2 (fun n pic => dict_get String.eqb (m_images m) (frame_file (dir ++ "/" ++ name ++ "/" ++ detector ++ "/" ++ name) n) = Some pic) ns pics ->
  load_pilatus m dir name detector d = Ok (S3 pics).
Proof. intros Hs Hc Hd N F. assert (L := Forall2_len F).
  pose proof (pilatus_stack m dir name detector h w Hs Hc ns d) as P. cbv zeta in P. rewrite (files_found _ ns pics F) in P. rewrite P.
  - rewrite L, Nat.sub_diag. cbn [repeat]. rewrite app_nil_r. reflexivity.
  - apply (some_frame m _ ns pics); [|exact F]. intros ->. destruct ns; [congruence|discriminate L].
  - exact Hd. Qed.
Lemma pilatus_missing m dir name detector h w ns n ns' pics pics' (d : list (string * list fl)) :
  (forall path im, In (path, im) (m_images m) -> sized h w im) ->
  (forall path im, In (path, im) (m_images m) -> glob_match (dir ++ "/" ++ name ++ "/" ++ detector ++ "/" ++ name) ".cbf" path = false) ->
  dict_get String.eqb d (detector ++ "_index") = Some (map frame_number (ns ++ n :: ns')) ->
  let file k := dict_get String.eqb (m_images m) (frame_file (dir ++ "/" ++ name ++ "/" ++ detector ++ "/" ++ name) k) in
  Forall2 (fun n pic => file n = Some pic) ns pics -> file n = None -> Forall2 (fun n pic => file n = Some pic) ns' pics' -> (pics ++ pics')%list <> [] ->
  load_pilatus m dir name detector d = Ok (S3 (pics ++ pics' ++ [black h w])%list).
Proof. intros Hs Hc Hd file F Hn F' N. assert (L := Forall2_len F). assert (L' := Forall2_len F').
  assert (E : found (map file (ns ++ n :: ns')) = (pics ++ pics')%list).
  { rewrite map_app, found_app. cbn [map]. rewrite Hn. unfold found at 2. cbn [flat_map app]. fold (@found image). rewrite (files_found _ ns pics F). f_equal. exact (files_found _ ns' pics' F'). }
  pose proof (pilatus_stack m dir name detector h w Hs Hc (ns ++ n :: ns') d) as P. cbv zeta in P. fold file in P. 
  assert (W : exists path im, In (path, im) (m_images m) /\ glob_match (dir ++ "/" ++ name ++ "/" ++ detector ++ "/" ++ name) ".tif" path = true).
  { destruct pics as [|p pics]; [apply (some_frame m _ ns' pics'); [exact N|exact F']|apply (some_frame m _ ns (p :: pics)); [discriminate|exact F]]. }
  refine (eq_trans (P W Hd) _). refine (eq_trans (f_equal (fun z => Ok (S3 (z ++ repeat (black h w) (List.length (ns ++ n :: ns') - List.length z))%list)) E) _).
  rewrite !app_length. cbn [List.length]. replace (List.length ns + S (List.length ns') - (List.length pics + List.length pics'))%nat with 1%nat by lia. rewrite <- app_assoc. reflexivity. Qed.
Lemma pilatus_no_index m dir name detector h w (d : list (string * list fl)) :
  (forall path im, In (path, im) (m_images m) -> sized h w im) ->
  (exists path im, In (path, im) (m_images m) /\ glob_match (dir ++ "/" ++ name ++ "/" ++ detector ++ "/" ++ name) ".tif" path = true) ->
  dict_get String.eqb d (detector ++ "_index") = None ->
  exists n, load_pilatus m dir name detector d = Ok (S3 (repeat (black h w) n)).
Proof. intros Hs (path & im & I & G) Hd. unfold load_pilatus. rewrite Hd. set (base := dir ++ "/" ++ name ++ "/" ++ detector ++ "/" ++ name) in *.
  set (files := sort_strings (globbed (map fst (m_images m)) base ".tif" ++ globbed (map fst (m_images m)) base ".cbf")%list).
  assert (F : In path files) by (unfold files; rewrite sort_In, in_app_iff; left; apply globbed_In; split; [exact (in_map fst _ _ I)|exact G]).
  destruct files as [|p0 l0] eqn:E; [destruct F|]. change (py_get (p0 :: l0) 0) with (Ok p0). cbn [bind].
  assert (I0 : In p0 files) by (rewrite E; left; reflexivity). unfold files in I0. rewrite sort_In, in_app_iff, !globbed_In in I0.
  assert (I1 : In p0 (map fst (m_images m))) by tauto. apply dict_get_In in I1 as [first E0]. unfold open_file. rewrite E0. cbn [bind].
  rewrite (dark_sized h w first (Hs _ _ (dict_get_some_In _ _ _ E0))). eexists. reflexivity. Qed.
Lemma pilatus_cbf m dir name detector h w n ns (d : list (string * list fl)) im :
  (forall path im, In (path, im) (m_images m) -> sized h w im) ->
  dict_get String.eqb d (detector ++ "_index") = Some (map frame_number (n :: ns)) ->
  let base := dir ++ "/" ++ name ++ "/" ++ detector ++ "/" ++ name in
  In (base ++ "_" ++ nulls (5 - String.length (dec n)) ++ dec n ++ ".cbf", im) (m_images m) ->
  dict_get String.eqb (m_images m) (frame_file base n) = None ->
  load_pilatus m dir name detector d = Raise FileNotFoundError.
Proof. intros Hs Hd base I N. unfold load_pilatus. fold base. rewrite Hd.
  set (files := sort_strings (globbed (map fst (m_images m)) base ".tif" ++ globbed (map fst (m_images m)) base ".cbf")%list).
  assert (F : In ((base ++ "_" ++ fmt05 (Z.of_N n)) ++ ".cbf") files).
  { unfold files. rewrite sort_In, in_app_iff. right. apply globbed_In. split.
    - rewrite fmt05_N, !append_assoc. exact (in_map fst _ _ I).
    - apply cbf_name_matches. lia. }
  assert (Ex : existsb (String.eqb ((base ++ "_" ++ fmt05 (Z.of_N n)) ++ ".cbf")) files = true) by (apply existsb_exists; eexists; split; [exact F|apply String.eqb_refl]).
  destruct files as [|p0 l0] eqn:E; [destruct F|]. change (py_get (p0 :: l0) 0) with (Ok p0). cbn [bind].
  assert (I0 : In p0 files) by (rewrite E; left; reflexivity). unfold files in I0. rewrite sort_In, in_app_iff, !globbed_In in I0.
  assert (I1 : In p0 (map fst (m_images m))) by tauto. apply dict_get_In in I1 as [first E0]. unfold open_file at 1. rewrite E0. cbn [bind].
  cbn [map foldM]. unfold pilatus_step at 1, frame_number at 1. cbn [to_int bind]. rewrite Ztrunc_IZR. rewrite Ex, orb_true_r. unfold open_file at 1.
  replace ((base ++ "_" ++ fmt05 (Z.of_N n)) ++ ".tif") with (frame_file base n) by (unfold frame_file; rewrite fmt05_N, !append_assoc; reflexivity).
  rewrite N. reflexivity. Qed.
(** ** Scan numbers *)
Definition is_digit (c : ascii) : bool := match digit_val c with Some _ => true | None => false end.
Lemma zeros_digits pad : str_forall (fun c => Ascii.eqb c "0") pad = true -> digits pad.
Proof. apply str_forall_imp. intros c H. apply Ascii.eqb_eq in H. subst c. reflexivity. Qed.
Lemma digits_app a b : digits a -> digits b -> digits (a ++ b).
Proof. unfold digits. intros Ha Hb. induction a as [|c a IH]; [exact Hb|]. change (String c a ++ b) with (String c (a ++ b)). cbn [str_forall] in *. apply andb_true_iff in Ha as [H1 H2]. rewrite H1. apply IH, H2. Qed.
Lemma py_int_padded pad n : str_forall (fun c => Ascii.eqb c "0") pad = true -> py_int (pad ++ dec n) = Ok (Z.of_N n).
Proof. intros Hp. destruct pad as [|c pad]; [exact (py_int_dec n)|].
  assert (D : digits (String c pad ++ dec n)) by (apply digits_app; [apply zeros_digits, Hp|apply digits_uint]).
  unfold py_int. rewrite strip_id.
  2:{ revert D. apply str_forall_imp. intros d Hd. apply digit_not_space in Hd as [-> _]. reflexivity. }
  cbn [str_forall] in Hp. apply andb_true_iff in Hp as [H1 H2]. apply Ascii.eqb_eq in H1. subst c.
  change (String "0" pad ++ dec n) with (String "0" (pad ++ dec n)). change (Ascii.eqb "0" "-") with false. change (Ascii.eqb "0" "+") with false. cbv iota.
  change (int_digits 0 true (String "0" (pad ++ dec n))) with (int_digits 0 false (pad ++ dec n)).
  assert (Z0 : int_digits 0 false (pad ++ dec n) = int_digits 0 false (dec n)).
  { clear - H2. induction pad as [|c pad IH]; [reflexivity|]. cbn [str_forall] in H2. apply andb_true_iff in H2 as [H1 H2]. apply Ascii.eqb_eq in H1. subst c.
    change (int_digits 0 false (String "0" pad ++ dec n)) with (int_digits 0 false (pad ++ dec n)). apply IH, H2. }
  rewrite Z0. unfold dec. rewrite int_digits_uint, uint_acc_0, DecimalN.Unsigned.of_to. reflexivity. Qed.
Lemma prefix_absent sep s c : has_char c sep = true -> has_char c s = false -> String.prefix sep s = false.
Proof. intros H1 H2. destruct (String.prefix sep s) eqn:E; [|reflexivity]. apply prefix_iff in E as [r ->]. rewrite has_char_app, H1 in H2. discriminate. Qed.
Lemma split_none sep s c : has_char c sep = true -> has_char c s = false -> forall fuel, split_on fuel sep s = [s].
Proof. intros H1 H2 fuel. revert s H2. induction fuel as [|fuel IH]; intros s H2; [reflexivity|]. cbn [split_on]. rewrite (prefix_absent sep s c H1 H2).
  destruct s as [|d s]; [reflexivity|]. cbn [has_char] in H2. apply orb_false_iff in H2 as [_ H2]. rewrite (IH s H2). reflexivity. Qed.
Lemma split_first sep s c : has_char c sep = true -> has_char c s = false -> split_str sep (sep ++ s) = ["" ; s].
Proof. intros H1 H2. unfold split_str. cbn [split_on]. rewrite prefix_app, drop_prefix_app. rewrite (split_none sep s c H1 H2). reflexivity. Qed.
Lemma rstrip_all p a b : str_forall p b = true -> rstrip_by p (a ++ b) = rstrip_by p a.
Proof. intros H. assert (B : rstrip_by p b = "").
  { induction b as [|c b IH]; [reflexivity|]. cbn [str_forall] in H. apply andb_true_iff in H as [H1 H2]. cbn [rstrip_by]. rewrite (IH H2), H1. reflexivity. }
  induction a as [|c a IH]; [exact B|]. change (String c a ++ b) with (String c (a ++ b)). cbn [rstrip_by]. rewrite IH. reflexivity. Qed.
Lemma strip_ext s : digits s -> s <> "" -> strip_chars ".fio" (s ++ ".fio") = s.
Proof. intros D N. unfold strip_chars.
  assert (Q : str_forall (fun c => negb (has_char c ".fio")) s = true).
  { revert D. apply str_forall_imp. intros c. destruct c as [[] [] [] [] [] [] [] []]; vm_compute; intros H; try discriminate H; reflexivity. }
  destruct s as [|c s]; [congruence|]. change (String c s ++ ".fio") with (String c (s ++ ".fio")).
  assert (Hc : has_char c ".fio" = false) by (cbn [str_forall] in Q; apply andb_true_iff in Q as [Q _]; apply negb_true_iff in Q; exact Q).
  cbn [lstrip_by]. rewrite Hc. change (String c (s ++ ".fio")) with (String c s ++ ".fio"). rewrite rstrip_all by reflexivity. apply rstrip_by_id, Q. Qed.
Lemma dec_nonempty n : dec n <> "".
Proof. unfold dec. intros H. apply (dec_not_nil n). destruct (N.to_uint n); cbn in H; try discriminate H; reflexivity. Qed.
Lemma number_of_path stem n path : numeric_name stem n path ->
  (part <- py_get (split_str (stem ++ "_") path) 1 ;; py_int (strip_chars ".fio" part)) = Ok (Z.of_N n).
Proof. intros (pad & Hp & ->). assert (D : digits (pad ++ dec n)) by (apply digits_app; [apply zeros_digits, Hp|apply digits_uint]).
  replace (stem ++ "_" ++ pad ++ dec n ++ ".fio") with ((stem ++ "_") ++ (pad ++ dec n) ++ ".fio") by (rewrite !append_assoc; reflexivity).
  rewrite (split_first _ _ "_"). 
  - change (py_get [""; (pad ++ dec n) ++ ".fio"] 1) with (Ok ((pad ++ dec n) ++ ".fio")). cbn [bind]. rewrite strip_ext.
    + apply py_int_padded, Hp.
    + exact D.
    + intros E. destruct pad; [exact (dec_nonempty n E)|discriminate].
  - rewrite has_char_app. apply orb_true_r.
  - rewrite has_char_app. rewrite (no_char_forall "_" _ _ D) by reflexivity. reflexivity. Qed.
Lemma path_list_In fs p path : In path (fio_path_list fs p) <-> In path (map fst fs) /\ in_reach (fp_stem p) path.
Proof. unfold fio_path_list. rewrite sort_In, globbed_In, glob_match_iff. unfold in_reach. split; intros [H (mid & E & K)]; (split; [exact H|]); exists mid; (split; [exact E|]).
  - rewrite has_char_app in K. apply orb_false_iff in K as [K _]. exact K.
  - rewrite has_char_app, K. reflexivity. Qed.
Lemma scan_numbers_ok fs p : (forall path, In path (map fst fs) -> in_reach (fp_stem p) path -> exists n, numeric_name (fp_stem p) n path) ->
  exists ns, scan_numbers fs p = Ok (map Z.of_N ns) /\ Forall2 (numeric_name (fp_stem p)) ns (fio_path_list fs p).
Proof. intros H. assert (F : Forall (fun path => exists n, numeric_name (fp_stem p) n path) (fio_path_list fs p)).
  { apply Forall_forall. intros path I. apply path_list_In in I as [I1 I2]. exact (H path I1 I2). }
  unfold scan_numbers. induction F as [|path l [n Hn] F IH]; [exists []; split; [reflexivity|constructor]|]. destruct IH as (ns & E & F2).
  exists (n :: ns). split; [|constructor; assumption]. cbn [mapM map]. rewrite (number_of_path _ n path Hn). cbn [bind]. rewrite E. reflexivity. Qed.
Lemma scan_path_number p n : numeric_name (fp_stem p) n (scan_path p (Z.of_N n)).
Proof. exists (nulls (5 - String.length (dec n))). split; [apply nulls_forall|]. unfold scan_path. rewrite fmt05_N, !append_assoc. reflexivity. Qed.
