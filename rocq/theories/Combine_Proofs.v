(** Lemmas about combined detector pictures. *)
From Coq Require Import Reals Lra.
From Verif Require Import Py Str Arr Footprint_Model Scan_Model Spec_Model Fio_Model P08_Model Footprint_Proofs Scan_Proofs
  SpecFile_Spec P08_Spec P08Scan_Spec Spec_Proofs SpecLoader_Proofs Fio_Proofs P08_Proofs P08Loader_Proofs.
Local Open Scope R_scope.
Local Open Scope string_scope.

Lemma replace_slice_nat {A} (lo hi : nat) (new old : list A) : replace_slice (Z.of_nat lo) (Z.of_nat hi) new old =
  (firstn (Nat.min lo (List.length old)) old ++ new ++ skipn (Nat.max (Nat.min lo (List.length old)) (Nat.min hi (List.length old))) old)%list.
Proof. unfold replace_slice. rewrite !clamp_idx_nat. reflexivity. Qed.
Lemma slice_len {A} (l : list A) (lo hi : nat) : List.length (py_slice l (Some (Z.of_nat lo)) (Some (Z.of_nat hi))) = (Nat.min hi (List.length l) - Nat.min lo (List.length l))%nat.
Proof. rewrite slice_nat, firstn_length, skipn_length. lia. Qed.
Lemma slice_nth {A} (l : list A) (lo hi i : nat) d : (lo <= i)%nat -> (i < hi)%nat -> nth (i - lo) (py_slice l (Some (Z.of_nat lo)) (Some (Z.of_nat hi))) d = nth i l d.
Proof. intros H1 H2. rewrite slice_nat. 
  assert (N : forall k n (l : list A), (k < n)%nat -> nth k (firstn n l) d = nth k l d).
  { clear. intros k n. revert k. induction n as [|n IH]; intros k l H; [lia|]. destruct l as [|x l]; [destruct k; reflexivity|]. destruct k as [|k]; [reflexivity|]. cbn. apply IH. lia. }
  rewrite N by lia. assert (K : forall k n (l : list A), nth k (skipn n l) d = nth (n + k) l d).
  { clear. intros k n. induction n as [|n IH]; intros l; [reflexivity|]. destruct l as [|x l]; [destruct k; reflexivity|]. cbn. apply IH. }
  rewrite K. f_equal. lia. Qed.
Lemma replace_len {A} (lo hi : nat) (new old : list A) : List.length new = (Nat.min hi (List.length old) - Nat.min lo (List.length old))%nat ->
  List.length (replace_slice (Z.of_nat lo) (Z.of_nat hi) new old) = List.length old.
Proof. intros H. rewrite replace_slice_nat, !app_length, firstn_length, skipn_length, H. lia. Qed.
Lemma replace_nth {A} (lo hi : nat) (new old : list A) i d : List.length new = (Nat.min hi (List.length old) - Nat.min lo (List.length old))%nat -> (i < List.length old)%nat ->
  nth i (replace_slice (Z.of_nat lo) (Z.of_nat hi) new old) d = if between lo hi i then nth (i - lo) new d else nth i old d.
Proof. intros H Hi. rewrite replace_slice_nat. set (n := List.length old) in *.
  assert (Lf : List.length (firstn (Nat.min lo n) old) = Nat.min lo n) by (rewrite firstn_length; fold n; lia).
  assert (N : forall k m (l : list A), (k < m)%nat -> nth k (firstn m l) d = nth k l d).
  { clear. intros k n. revert k. induction n as [|n IH]; intros k l H; [lia|]. destruct l as [|x l]; [destruct k; reflexivity|]. destruct k as [|k]; [reflexivity|]. cbn. apply IH. lia. }
  assert (K : forall k m (l : list A), nth k (skipn m l) d = nth (m + k) l d).
  { clear. intros k n. induction n as [|n IH]; intros l; [reflexivity|]. destruct l as [|x l]; [destruct k; reflexivity|]. cbn. apply IH. }
  unfold between. destruct (Nat.leb_spec lo i); cbn [andb].
  - destruct (Nat.ltb_spec i hi).
    + rewrite app_nth2 by lia. rewrite app_nth1 by lia. f_equal. lia.
    + rewrite app_nth2 by lia. rewrite app_nth2 by lia. rewrite K. f_equal. lia.
  - rewrite app_nth1 by lia. apply N. lia. Qed.

Lemma combine_nth_pair {A B} (l : list A) (l' : list B) k a b : (k < List.length l)%nat -> List.length l = List.length l' -> nth k (combine l l') (a, b) = (nth k l a, nth k l' b).
Proof. intros _ H. apply combine_nth, H. Qed.
Lemma nth_map_in {A B} (f : A -> B) l k d d' : (k < List.length l)%nat -> nth k (map f l) d' = f (nth k l d).
Proof. intros H. rewrite nth_indep with (d' := f d) by (rewrite map_length; exact H). apply map_nth. Qed.
Lemma sized_row h w img y : sized h w img -> (y < h)%nat -> List.length (nth y img []) = w.
Proof. intros [L W] H. rewrite Forall_forall in W. apply W, nth_In. lia. Qed.
Lemma paste_ok h w l b r t img master : sized h w img -> sized h w master -> exists out, paste_region (roi4 l b r t) img master = Ok out /\ sized h w out /\
  forall y x, (y < h)%nat -> (x < w)%nat -> pixel out y x = if inside (l, b, r, t) y x then pixel img y x else pixel master y x.
Proof. intros Si Sm. unfold paste_region, image_region, roi4.
  change (py_get [Z.of_nat l; Z.of_nat b; Z.of_nat r; Z.of_nat t] 1) with (Ok (Z.of_nat b)). change (py_get [Z.of_nat l; Z.of_nat b; Z.of_nat r; Z.of_nat t] 3) with (Ok (Z.of_nat t)).
  change (py_get [Z.of_nat l; Z.of_nat b; Z.of_nat r; Z.of_nat t] 0) with (Ok (Z.of_nat l)). change (py_get [Z.of_nat l; Z.of_nat b; Z.of_nat r; Z.of_nat t] 2) with (Ok (Z.of_nat r)).
  cbn [bind]. 
  set (rows := map (fun row => py_slice row (Some (Z.of_nat l)) (Some (Z.of_nat r))) (py_slice img (Some (Z.of_nat b)) (Some (Z.of_nat t)))).
  set (old := py_slice master (Some (Z.of_nat b)) (Some (Z.of_nat t))).
  set (new := map (fun nr => replace_slice (Z.of_nat l) (Z.of_nat r) (fst nr) (snd nr)) (combine rows old)).
  destruct Si as [Li Wi], Sm as [Lm Wm].
  assert (Lr : List.length rows = (Nat.min t h - Nat.min b h)%nat) by (unfold rows; rewrite map_length, slice_len, Li; reflexivity).
  assert (Lo : List.length old = (Nat.min t h - Nat.min b h)%nat) by (unfold old; rewrite slice_len, Lm; reflexivity).
  assert (Ln : List.length new = (Nat.min t h - Nat.min b h)%nat) by (unfold new; rewrite map_length, combine_length, Lr, Lo; lia).
  assert (Row : forall y, (b <= y)%nat -> (y < t)%nat -> (y < h)%nat -> nth (y - b) new [] = replace_slice (Z.of_nat l) (Z.of_nat r) (py_slice (nth y img []) (Some (Z.of_nat l)) (Some (Z.of_nat r))) (nth y master [])).
  { intros y H1 H2 H3. unfold new. rewrite (nth_map_in _ _ _ ([], [])) by (rewrite combine_length, Lr, Lo; lia). rewrite combine_nth by congruence. cbn [fst snd]. f_equal.
    - unfold rows. rewrite (nth_map_in _ _ _ []) by (rewrite slice_len, Li; lia). rewrite slice_nth by assumption. reflexivity.
    - unfold old. apply slice_nth; assumption. }
  assert (Wrow : forall y, (y < h)%nat -> List.length (nth y img []) = w /\ List.length (nth y master []) = w).
  { intros y Hy. split; apply (sized_row h); (split; assumption) || assumption. }
  eexists. split; [reflexivity|]. split.
  - split; [rewrite replace_len; [exact Lm|rewrite Lm; exact Ln]|]. apply Forall_forall. intros row Hrow. apply In_nth with (d := []) in Hrow as (y & Hy & <-).
    rewrite replace_len in Hy by (rewrite Lm; exact Ln). rewrite Lm in Hy. rewrite replace_nth by (rewrite ?Lm; assumption). unfold between.
    destruct (Nat.leb_spec b y), (Nat.ltb_spec y t); cbn [andb]; try (apply Wrow, Hy). rewrite Row by assumption.
    destruct (Wrow y Hy) as [W1 W2]. rewrite replace_len; [exact W2|]. rewrite slice_len, W1, W2. reflexivity.
  - intros y x Hy Hx. unfold pixel at 1. rewrite replace_nth by (rewrite ?Lm; assumption). cbn [inside]. destruct (between b t y) eqn:Eb; cbn [andb]; [|reflexivity].
    unfold between in Eb. apply andb_true_iff in Eb as [E1 E2]. apply Nat.leb_le in E1. apply Nat.ltb_lt in E2. rewrite Row by assumption. destruct (Wrow y Hy) as [W1 W2].
    rewrite replace_nth; [|rewrite slice_len, W1, W2; reflexivity|rewrite W2; exact Hx]. destruct (between l r x) eqn:El; [|reflexivity].
    unfold between in El. apply andb_true_iff in El as [E3 E4]. apply Nat.leb_le in E3. apply Nat.ltb_lt in E4. rewrite slice_nth by assumption. reflexivity. Qed.

Lemma brighter_sized h w a img : sized h w img -> sized h w (brighter a img).
Proof. intros [L W]. split; [unfold brighter; rewrite map_length; exact L|]. unfold brighter. rewrite Forall_map. eapply Forall_impl; [|exact W]. intros r H. cbv beta. rewrite map_length. exact H. Qed.
Lemma brighten_len c imgs : List.length (brighten c imgs) = List.length imgs.
Proof. unfold brighten. rewrite map_length, combine_length, seq_length. lia. Qed.
Lemma attenuate_ok c imgs : (List.length imgs <= List.length c)%nat -> attenuate_images (Some c) imgs = Ok (brighten c imgs).
Proof. intros H. unfold attenuate_images, brighten. apply mapM_map_ok. intros [k i] Hk. cbn [fst snd]. apply in_combine_l in Hk. apply in_seq in Hk.
  destruct (nth_error c k) as [a|] eqn:E; [|apply nth_error_None in E; lia]. rewrite (py_get_nat c k E). cbn [bind]. unfold brighter. rewrite (nth_error_nth c k None E). reflexivity. Qed.
Lemma brighten_sized h w c imgs : Forall (sized h w) imgs -> Forall (sized h w) (brighten c imgs).
Proof. intros F. unfold brighten. rewrite Forall_map. apply Forall_forall. intros [k i] H. apply in_combine_r in H. apply brighter_sized. rewrite Forall_forall in F. apply F, H. Qed.
Lemma brighten_nth c imgs k : (k < List.length imgs)%nat -> nth k (brighten c imgs) [] = brighter (nth k c None) (nth k imgs []).
Proof. intros H. unfold brighten. rewrite (nth_map_in _ _ _ (0%nat, [])) by (rewrite combine_length, seq_length; lia). rewrite combine_nth by apply seq_length. cbn [fst snd]. rewrite seq_nth by exact H. reflexivity. Qed.
Lemma paste_stack_ok h w q (imgs masters : list image) : Forall (sized h w) imgs -> Forall (sized h w) masters -> List.length imgs = List.length masters ->
  exists out, paste_stack (corners q) imgs masters = Ok out /\ Forall (sized h w) out /\ List.length out = List.length masters /\
  forall k y x, (k < List.length masters)%nat -> (y < h)%nat -> (x < w)%nat ->
    pixel (nth k out []) y x = if inside q y x then pixel (nth k imgs []) y x else pixel (nth k masters []) y x.
Proof. intros Fi Fm L. unfold paste_stack. destruct q as [[[l b] r] t].
  assert (E : match imgs with [i] => repeat i (List.length masters) | _ => imgs end = imgs :> list image) by (destruct imgs as [|i [|j imgs]]; try reflexivity; rewrite <- L; reflexivity).
  rewrite E. clear E. rewrite L, Nat.eqb_refl. cbn [andb].
  assert (S : forallb (fun im => same_size (fst im) (snd im)) (combine imgs masters) = true).
  { apply forallb_forall. intros [i j] H. rewrite Forall_forall in Fi, Fm. apply (same_size_sized h w); [apply Fi; exact (in_combine_l _ _ _ _ H)|apply Fm; exact (in_combine_r _ _ _ _ H)]. }
  rewrite S. clear S. cbn [corners]. revert masters L Fm. induction imgs as [|i imgs IH]; intros [|mt masters] L Fm; try discriminate L.
  - exists []. repeat split; [constructor|]. cbn. intros; lia.
  - inversion Fi as [|? ? Si Fi']; subst. inversion Fm as [|? ? Sm Fm']; subst. cbn [combine mapM fst snd]. destruct (paste_ok h w l b r t i mt Si Sm) as (o & Eo & So & Po). rewrite Eo. cbn [bind].
    injection L as L. destruct (IH Fi' masters L Fm') as (out & Eout & Fo & Lo & Pout). rewrite Eout. cbn [bind]. exists (o :: out). split; [reflexivity|]. split; [constructor; assumption|]. split; [cbn; congruence|].
    intros [|k] y x Hk Hy Hx; cbn [nth]; [apply Po; assumption|]. apply Pout; [cbn in Hk; lia|exact Hy|exact Hx]. Qed.

Lemma combine_layers det h w n rois : forall ls pre done master,
  Forall (fun la => layer_ok det h w n (la_scan la) (la_images la) (la_atten la)) ls -> rois = (pre ++ map (fun la => corners (la_area la)) ls)%list ->
  Forall (sized h w) master -> List.length master = n ->
  exists out, foldM (fun st is =>
                 let '(done, master) := st in
                 imgs <- pictures (snd is) det ;;
                 imgs <- attenuate_images (dict_get String.eqb (f_data (snd is)) "atten_position") imgs ;;
                 roi <- py_get rois (Z.of_nat (fst is)) ;;
                 master <- paste_stack roi imgs master ;;
                 Ok ((done ++ [set_images (dict_set String.eqb (f_images (snd is)) det (S3 imgs)) (snd is)])%list, master))
              (done, master) (combine (seq (List.length pre) (List.length ls)) (map la_scan ls)) = Ok ((done ++ map (scaled_scan det) ls)%list, out) /\
    Forall (sized h w) out /\ List.length out = n /\
    forall k y x, (k < n)%nat -> (y < h)%nat -> (x < w)%nat ->
      pixel (nth k out []) y x = fold_left (fun v qi => if inside (fst qi) y x then pixel (snd qi) y x else v)
        (map (fun la => (la_area la, brighter (nth k (la_atten la) None) (nth k (la_images la) []))) ls) (pixel (nth k master []) y x).
Proof. induction ls as [|la ls IH]; intros pre done master F R Sm Lm.
  - exists master. cbn. rewrite app_nil_r. auto.
  - inversion F as [|? ? (Hd & Hi & Li & Si & Hc & Lc) F']; subst x l. cbn [List.length seq map combine foldM fst snd].
    unfold pictures at 1. rewrite Hi. cbn [bind]. rewrite Hc. rewrite attenuate_ok by (rewrite Li; exact Lc). cbn [bind].
    assert (G : nth_error rois (List.length pre) = Some (corners (la_area la))) by (subst rois; rewrite nth_error_app2 by lia; rewrite Nat.sub_diag; reflexivity).
    rewrite (py_get_nat rois (List.length pre) G). cbn [bind].
    destruct (paste_stack_ok h w (la_area la) (brighten (la_atten la) (la_images la)) master) as (o & Eo & So & Lo & Po); [apply brighten_sized, Si|exact Sm|rewrite brighten_len; exact (eq_trans Li (eq_sym Lm))|].
    rewrite Eo. cbn [bind]. destruct (IH (pre ++ [corners (la_area la)])%list (done ++ [scaled_scan det la])%list o F') as (out & E & So' & Lo' & Po').
    + subst rois. rewrite <- app_assoc. reflexivity.
    + exact So.
    + exact (eq_trans Lo Lm).
    + exists out. split; [|split; [exact So'|split; [exact Lo'|]]].
      * rewrite app_length in E. cbn [List.length] in E. rewrite Nat.add_1_r in E. rewrite <- app_assoc in E. exact E.
      * intros k y x Hk Hy Hx. rewrite Po' by assumption. cbn [map fold_left fst snd]. apply f_equal.
        refine (eq_trans (Po k y x (eq_ind_r (fun z => (k < z)%nat) Hk Lm) Hy Hx) _).
        rewrite brighten_nth by (exact (eq_ind_r (fun z => (k < z)%nat) Hk Li)). reflexivity. Qed.
Lemma doubles_done s : f_doubles s = true -> remove_double s = Ok s.
Proof. intros H. unfold remove_double. rewrite H. reflexivity. Qed.
Lemma combine_ok det more h w n la ls : Forall (fun la => layer_ok det h w n (la_scan la) (la_images la) (la_atten la)) (la :: ls) -> f_detectors (la_scan la) = det :: more ->
  exists out, combine_scan_image_regions (map la_scan (la :: ls)) (map (fun la => corners (la_area la)) (la :: ls)) =
      Ok (map (scaled_scan det) (la :: ls), mkFscan "" "" None [] [] [] (f_motor_names (la_scan la)) (f_positions (la_scan la)) [det] [(det, S3 out)] None true) /\
    List.length out = n /\ Forall (sized h w) out /\
    forall k y x, (k < n)%nat -> (y < h)%nat -> (x < w)%nat ->
      pixel (nth k out []) y x = composite (map (fun la => (la_area la, brighter (nth k (la_atten la) None) (nth k (la_images la) []))) (la :: ls)) y x.
Proof. intros F Hd. unfold combine_scan_image_regions.
  rewrite (mapM_map_ok remove_double (fun s => s)) by (intros s Hs; apply in_map_iff in Hs as (l0 & <- & Hl); rewrite Forall_forall in F; apply doubles_done; apply (F l0 Hl)).
  rewrite map_id. cbn [bind]. change (py_get (map la_scan (la :: ls)) 0) with (Ok (la_scan la)). cbn [bind]. rewrite Hd.
  inversion F as [|? ? (_ & Hi & Li & Si & _) _]; subst x l. unfold pictures at 1. rewrite Hi. cbn [bind].
  assert (Sd : Forall (sized h w) (map dark (la_images la))).
  { rewrite Forall_map. eapply Forall_impl; [|exact Si]. intros i Hs. rewrite (dark_sized h w i Hs). unfold black. split; [apply repeat_length|]. apply Forall_forall. intros r Hr. apply repeat_spec in Hr. subst r. apply repeat_length. }
  destruct (combine_layers det h w n (map (fun la => corners (la_area la)) (la :: ls)) (la :: ls) [] [] (map dark (la_images la)) F eq_refl Sd) as (out & E & So & Lo & Po); [rewrite map_length; exact Li|].
  rewrite map_length. cbn [List.length app] in E. cbn [List.length]. exists out. split; [refine (eq_trans (f_equal (fun r => bind r _) E) _); reflexivity|]. split; [exact Lo|]. split; [exact So|].
  intros k y x Hk Hy Hx. rewrite Po by assumption. unfold composite. f_equal.
  rewrite (nth_map_in dark _ _ []) by (exact (eq_ind_r (fun z => (k < z)%nat) Hk Li)). assert (Sk : sized h w (nth k (la_images la) [])) by (rewrite Forall_forall in Si; apply Si, nth_In; exact (eq_ind_r (fun z => (k < z)%nat) Hk Li)).
  rewrite (dark_sized h w _ Sk). unfold pixel, black. 
  assert (Rn : forall A (v : A) j m d, (j < m)%nat -> nth j (repeat v m) d = v) by (clear; intros A v j m; revert j; induction m as [|m IH]; intros [|j] d H; try lia; [reflexivity|]; apply (IH j d); lia).
  rewrite Rn by exact Hy. apply Rn, Hx. Qed.
Lemma combine_thinned scans scans' rois : mapM remove_double scans = Ok scans' -> combine_scan_image_regions scans rois = combine_scan_image_regions scans' rois.
Proof. intros H. unfold combine_scan_image_regions. rewrite H. assert (E : mapM remove_double scans' = Ok scans'); [|rewrite E; reflexivity].
  revert scans' H. induction scans as [|s scans IH]; intros scans' H; cbn [mapM] in H; [injection H as <-; reflexivity|].
  destruct (remove_double s) as [s1|] eqn:E1; [cbn [bind] in H|discriminate H]. destruct (mapM remove_double scans) as [l|] eqn:E2; [cbn [bind] in H|discriminate H]. injection H as <-.
  cbn [mapM]. rewrite (remove_double_twice s s1 E1). cbn [bind]. rewrite (IH l eq_refl). reflexivity. Qed.
Definition layer_again (det : string) (la : layer) : layer := mkLayer (scaled_scan det la) (la_area la) (brighten (la_atten la) (la_images la)) (la_atten la).
Lemma layer_again_ok det h w n la : layer_ok det h w n (la_scan la) (la_images la) (la_atten la) ->
  layer_ok det h w n (la_scan (layer_again det la)) (la_images (layer_again det la)) (la_atten (layer_again det la)).
Proof. intros (Hd & Hi & Li & Si & Hc & Lc). unfold layer_again, scaled_scan. cbn [la_scan la_images la_atten]. split; [exact Hd|]. split; [cbn [set_images f_images]; rewrite (dict_get_set String.eqb String.eqb_eq), String.eqb_refl; reflexivity|].
  split; [rewrite brighten_len; exact Li|]. split; [apply brighten_sized, Si|]. split; [exact Hc|exact Lc]. Qed.
Lemma combine_again det more h w n la ls : Forall (fun la => layer_ok det h w n (la_scan la) (la_images la) (la_atten la)) (la :: ls) -> f_detectors (la_scan la) = det :: more ->
  exists scans c1 c2 out, combine_scan_image_regions (map la_scan (la :: ls)) (map (fun la => corners (la_area la)) (la :: ls)) = Ok (scans, c1) /\
    exists scans', combine_scan_image_regions scans (map (fun la => corners (la_area la)) (la :: ls)) = Ok (scans', c2) /\
    f_images c2 = [(det, S3 out)] /\
    forall k y x, (k < n)%nat -> (y < h)%nat -> (x < w)%nat ->
      pixel (nth k out []) y x = composite (map (fun la => (la_area la, brighter (nth k (la_atten la) None) (brighter (nth k (la_atten la) None) (nth k (la_images la) [])))) (la :: ls)) y x.
Proof. intros F Hd. destruct (combine_ok det more h w n la ls F Hd) as (out1 & E1 & _).
  assert (F2 : Forall (fun la => layer_ok det h w n (la_scan la) (la_images la) (la_atten la)) (layer_again det la :: map (layer_again det) ls)).
  { change (layer_again det la :: map (layer_again det) ls) with (map (layer_again det) (la :: ls)). rewrite Forall_map. eapply Forall_impl; [|exact F]. intros a. apply layer_again_ok. }
  destruct (combine_ok det more h w n (layer_again det la) (map (layer_again det) ls) F2 Hd) as (out2 & E2 & _ & _ & P2).
  change (layer_again det la :: map (layer_again det) ls) with (map (layer_again det) (la :: ls)) in E2, P2. rewrite !map_map in E2. rewrite map_map in P2 || idtac.
  do 3 eexists. exists out2. split; [exact E1|]. eexists. split; [exact E2|]. split; [reflexivity|]. intros k y x Hk Hy Hx. rewrite P2 by assumption. f_equal. rewrite ?map_map.
  apply map_ext_in. intros a Ha. unfold layer_again at 1. cbn [la_area la_atten la_images]. rewrite Forall_forall in F. destruct (F a Ha) as (_ & _ & La & _).
  unfold layer_again. cbn [la_area la_atten la_images]. f_equal. f_equal. apply brighten_nth. exact (eq_ind_r (fun z => (k < z)%nat) Hk La). Qed.
Lemma combine_no_attenuator det more s l rois i imgs : f_detectors s = det :: more -> f_doubles s = true -> Forall (fun s => f_doubles s = true) l ->
  dict_get String.eqb (f_images s) det = Some (S3 (i :: imgs)) -> dict_get String.eqb (f_data s) "atten_position" = None ->
  combine_scan_image_regions (s :: l) rois = Raise TypeError.
Proof. intros Hd Hs Hl Hi Ha. unfold combine_scan_image_regions. cbn [mapM]. rewrite doubles_done by exact Hs. cbn [bind].
  rewrite (mapM_map_ok remove_double (fun s => s)) by (intros x Hx; rewrite Forall_forall in Hl; apply doubles_done, Hl, Hx). rewrite map_id. cbn [bind].
  change (py_get (s :: l) 0) with (Ok s). cbn [bind]. rewrite Hd. unfold pictures at 1. rewrite Hi. cbn [bind List.length seq combine foldM fst snd]. unfold pictures at 1. rewrite Hi. cbn [bind]. rewrite Ha. reflexivity. Qed.
