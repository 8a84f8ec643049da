From Coq Require Import Reals Lra Sorted.
From Verif Require Import Py Arr Interp_Model Interp_Spec Interp_Proofs Footprint_Model Footprint_Spec Footprint_Proofs Scan_Model Scan_Spec Scan_Proofs
  Fitter_Model FileFitter_Proofs Prediction_Model Helpers_Model Helpers_Spec.
Local Open Scope R_scope.

(** *** Scans *)
Lemma all_finite_some q : all_finite (map Some q) = Some q.
Proof. induction q as [|x q IH]; [reflexivity|]. cbn [map all_finite]. rewrite IH. reflexivity. Qed.
Lemma interpolated_eq erf s new_q q c : scan_q s = Ok (map Some q) -> corrected_intensity erf s = Ok c -> get_interpolated_intensity erf s new_q = interp_reflectivity new_q q c.
Proof. intros Q C. unfold get_interpolated_intensity. rewrite Q, C. cbn [bind]. rewrite all_finite_some. reflexivity. Qed.

Lemma interpolated_exact erf s q c : scan_q s = Ok (map Some q) -> increasing q -> q <> [] -> corrected_intensity erf s = Ok (map Some c) -> nonnegative_curve c -> List.length q = List.length c ->
  get_interpolated_intensity erf s q = Ok (map Some c).
Proof. intros Q I N C P L. rewrite (interpolated_eq erf s q q (map Some c) Q C). apply interp_exact; assumption. Qed.
Lemma interpolated_bound erf s new_q q c a b : scan_q s = Ok (map Some q) -> increasing q -> q <> [] -> corrected_intensity erf s = Ok (map Some c) -> List.length q = List.length c ->
  0 <= a -> Forall (fun y => a <= y <= b) c ->
  exists out, get_interpolated_intensity erf s new_q = Ok (map Some out) /\ List.length out = List.length new_q /\ Forall (fun y => a <= y <= b) out.
Proof. intros Q I N C L A F. rewrite (interpolated_eq erf s new_q q (map Some c) Q C). apply interp_bound; assumption. Qed.

Lemma np_stack_equal m rows : rows <> [] -> Forall (fun r => List.length r = m) rows -> np_stack rows = Stacked (A2 m rows).
Proof. intros N F. destruct rows as [|r rs]; [contradiction|]. inversion F as [|? ? F1 F2]; subst. cbn [np_stack]. replace (forallb _ rs) with true; [reflexivity|].
  symmetry. apply forallb_forall. intros r' H. apply Nat.eqb_eq. rewrite Forall_forall in F2. apply F2, H. Qed.
Lemma np_stack_ragged rows r r' : In r rows -> In r' rows -> List.length r <> List.length r' -> np_stack rows = Ragged rows.
Proof. intros H H' N. destruct rows as [|r0 rs]; [destruct H|]. cbn [np_stack]. destruct (forallb _ rs) eqn:E; [|reflexivity]. exfalso. rewrite forallb_forall in E.
  assert (G : forall x, In x (r0 :: rs) -> List.length x = List.length r0). { intros x [->|Hx]; [reflexivity|]. apply Nat.eqb_eq, E, Hx. } apply N. rewrite (G _ H), (G _ H'). reflexivity. Qed.

Lemma to_array_equal erf l m rows : l <> [] -> mapM (corrected_intensity erf) l = Ok rows -> Forall (fun r => List.length r = m) rows -> to_array erf l = Ok (Stacked (A2 m rows)).
Proof. intros N E F. unfold to_array. rewrite E. cbn [bind]. rewrite (np_stack_equal m); [reflexivity| |exact F]. apply mapM_Ok_length in E. intros ->. destruct l; [contradiction|discriminate]. Qed.

Lemma mapM_raise A B (f : A -> res B) l e : mapM f l = Raise e -> exists x, In x l /\ f x = Raise e.
Proof. induction l as [|x l IH]; [discriminate|]. cbn [mapM]. destruct (f x) as [b|e'] eqn:E; cbn [bind].
  - destruct (mapM f l) as [bs|e']; cbn [bind]; [discriminate|]. intros H. destruct (IH H) as (y & Hy & Ey). exists y. split; [right; exact Hy|exact Ey].
  - intros H. injection H as <-. exists x. split; [left; reflexivity|exact E]. Qed.

(** *** The Gaussian kernel *)
Lemma fold_min_spec xs : forall x0, is_min (fold_left Rmin xs x0) (x0 :: xs).
Proof. induction xs as [|y xs IH]; intros x0; [split; [left; reflexivity|constructor; [apply Rle_refl|constructor]]|]. cbn [fold_left]. destruct (IH (Rmin x0 y)) as [I F]. inversion F as [|? ? F0 F1]; subst. cbn beta in F0. split.
  - destruct I as [I|I]; [|right; right; exact I]. rewrite <- I. unfold Rmin. destruct (Rle_dec x0 y); [left|right; left]; reflexivity.
  - pose proof (Rmin_l x0 y). pose proof (Rmin_r x0 y). constructor; [lra|]. constructor; [lra|exact F1]. Qed.
Lemma fold_max_spec xs : forall x0, is_max (fold_left Rmax xs x0) (x0 :: xs).
Proof. induction xs as [|y xs IH]; intros x0; [split; [left; reflexivity|constructor; [apply Rle_refl|constructor]]|]. cbn [fold_left]. destruct (IH (Rmax x0 y)) as [I F]. inversion F as [|? ? F0 F1]; subst. cbn beta in F0. split.
  - destruct I as [I|I]; [|right; right; exact I]. rewrite <- I. unfold Rmax. destruct (Rle_dec x0 y); [right; left|left]; reflexivity.
  - pose proof (Rmax_l x0 y). pose proof (Rmax_r x0 y). constructor; [lra|]. constructor; [lra|exact F1]. Qed.
Lemma is_min_unique a b l : is_min a l -> is_min b l -> a = b.
Proof. intros [Ia Fa] [Ib Fb]. rewrite Forall_forall in Fa, Fb. apply Rle_antisym; [apply Fa, Ib|apply Fb, Ia]. Qed.
Lemma is_max_unique a b l : is_max a l -> is_max b l -> a = b.
Proof. intros [Ia Fa] [Ib Fb]. rewrite Forall_forall in Fa, Fb. apply Rle_antisym; [apply Fb, Ia|apply Fa, Ib]. Qed.

Lemma fsum_some l : fsum (map Some l) = Some (rsum l).
Proof. induction l as [|x l IH]; [reflexivity|]. cbn [map fsum fold_right]. unfold fsum in IH. rewrite IH. reflexivity. Qed.
Lemma rsum_pos l : l <> [] -> all_pos l -> 0 < rsum l.
Proof. induction l as [|x l IH]; intros N P; [contradiction|]. inversion P as [|? ? P0 P1]; subst. cbn [rsum fold_right]. destruct l as [|y l]; [cbn; lra|]. specialize (IH ltac:(discriminate) P1). unfold rsum in IH. lra. Qed.
Lemma rsum_scale k l : rsum (map (Rmult k) l) = k * rsum l.
Proof. induction l as [|x l IH]; [cbn; ring|]. cbn [map rsum fold_right]. unfold rsum in IH. rewrite IH. ring. Qed.
Lemma bell_pos c std a : 0 < bell c std a. Proof. apply exp_pos. Qed.
Lemma bells_pos c std l : all_pos (map (bell c std) l).
Proof. apply Forall_map, Forall_forall. intros a _. apply bell_pos. Qed.

Lemma filter_combine A (f : R -> A) (p : R -> bool) x : filter (fun z => p (snd z)) (combine (map f x) x) = map (fun a => (f a, a)) (filter p x).
Proof. induction x as [|a x IH]; [reflexivity|]. cbn [map combine filter snd]. destruct (p a); cbn [map]; rewrite IH; reflexivity. Qed.

Lemma gaussian_eq x std n lo hi : x <> [] -> is_min lo x -> is_max hi x -> 0 < std ->
  let c := (lo + hi) / 2 in
  make_gaussian x std n = Ok (map Some (map (fun a => bell c std a / rsum (map (bell c std) x)) (within c (n * std) x)), within c (n * std) x).
Proof. intros N Lo Hi S c. destruct x as [|x0 xs]; [contradiction|]. unfold make_gaussian.
  rewrite (is_min_unique _ _ _ (fold_min_spec xs x0) Lo), (is_max_unique _ _ _ (fold_max_spec xs x0) Hi).
  replace (lo + (hi - lo) / 2) with c by (unfold c; field). set (x := x0 :: xs) in *.
  set (k := std * sqrt (2 * PI)). assert (K : 0 < k). { unfold k. apply Rmult_lt_0_compat; [exact S|]. apply sqrt_lt_R0. pose proof PI_RGT_0. lra. }
  assert (G : map (fun a => fdiv (option_map (fun d => exp (- d ^ 2 / 2)) (fdiv (Some (a - c)) (Some std))) (Some k)) x = map Some (map (Rmult (/ k)) (map (bell c std) x))).
  { rewrite !map_map. apply map_ext. intros a. unfold fdiv at 2. destruct (Req_EM_T std 0); [lra|]. cbn [option_map]. unfold fdiv. destruct (Req_EM_T k 0); [lra|]. f_equal. unfold bell, Rdiv at 1.
    rewrite Rmult_comm. f_equal. f_equal. field. lra. }
  rewrite G. rewrite fsum_some, rsum_scale. pose proof (rsum_pos (map (bell c std) x) ltac:(discriminate) (bells_pos c std x)) as P. set (T := rsum (map (bell c std) x)) in *.
  replace (map (fun v => fdiv v (Some (/ k * T))) (map Some (map (Rmult (/ k)) (map (bell c std) x)))) with (map (fun a => Some (bell c std a / T) : fl) x).
  2:{ rewrite !map_map. apply map_ext. intros a. unfold fdiv. pose proof (Rinv_0_lt_compat _ K). assert (0 < / k * T) by (apply Rmult_lt_0_compat; assumption). destruct (Req_EM_T (/ k * T) 0); [lra|]. f_equal. field. lra. }
  cbv zeta. match goal with |- context [filter ?p (combine _ _)] => replace (filter p (combine (map (fun a => Some (bell c std a / T) : fl) x) x)) with
    (filter (fun z : fl * R => (fun a => if Rle_dec (Rabs (a - c)) (n * std) then true else false) (snd z)) (combine (map (fun a => Some (bell c std a / T) : fl) x) x)) end.
  2:{ apply filter_ext. intros [g a]. cbn [snd]. destruct (Rle_dec (Rabs (a - c)) (n * std)) as [H|H].
      - pose proof (Rle_abs (a - c)). pose proof (Rle_abs (- (a - c))) as H2. rewrite Rabs_Ropp in H2. destruct (Rle_dec (- n * std) (a - c)); [|lra]. destruct (Rle_dec (a - c) (n * std)); [reflexivity|lra].
      - destruct (Rle_dec (- n * std) (a - c)); [|reflexivity]. destruct (Rle_dec (a - c) (n * std)); [|reflexivity]. exfalso. apply H. apply Rabs_le. lra. }
  rewrite (filter_combine fl (fun a => Some (bell c std a / T)) (fun a => if Rle_dec (Rabs (a - c)) (n * std) then true else false)).
  fold (within c (n * std) x). rewrite !map_map. cbn [fst snd]. rewrite map_id. reflexivity. Qed.

Lemma rsum_within c std w x : rsum (map (bell c std) (within c w x)) <= rsum (map (bell c std) x) /\
  (rsum (map (bell c std) (within c w x)) = rsum (map (bell c std) x) <-> Forall (fun a => Rabs (a - c) <= w) x).
Proof. induction x as [|a x (IH1 & IH2)]; [split; [apply Rle_refl|split; [constructor|reflexivity]]|]. cbn [within filter]. fold (within c w x). pose proof (bell_pos c std a).
  destruct (Rle_dec (Rabs (a - c)) w) as [H'|H']; cbn [map rsum fold_right]; fold (rsum (map (bell c std) x)); fold (rsum (map (bell c std) (within c w x))).
  - split; [lra|]. split; [intros E; constructor; [exact H'|apply IH2; lra]|]. intros F. inversion F; subst. rewrite (proj2 IH2) by assumption. reflexivity.
  - split; [lra|]. split; [intros E; lra|]. intros F. inversion F; subst. contradiction. Qed.
Lemma rsum_ext_div c std T l : T <> 0 -> rsum (map (fun a => bell c std a / T) l) = rsum (map (bell c std) l) / T.
Proof. intros N. induction l as [|a l IH]; [cbn; field; exact N|]. cbn [map rsum fold_right]. unfold rsum in IH. rewrite IH. field. exact N. Qed.
Lemma kernel_sum c std w x : x <> [] -> let g := map (fun a => bell c std a / rsum (map (bell c std) x)) (within c w x) in
  rsum g <= 1 /\ (rsum g = 1 <-> Forall (fun a => Rabs (a - c) <= w) x).
Proof. intros N g. pose proof (rsum_pos (map (bell c std) x) ltac:(destruct x; [contradiction|discriminate]) (bells_pos c std x)) as P. unfold g. rewrite rsum_ext_div by lra.
  destruct (rsum_within c std w x) as [A B]. set (T := rsum (map (bell c std) x)) in *. set (W := rsum (map (bell c std) (within c w x))) in *. split.
  - apply Rmult_le_reg_r with T; [exact P|]. unfold Rdiv. rewrite Rmult_assoc, Rinv_l by lra. lra.
  - rewrite <- B. split; intros E; [apply Rmult_eq_reg_r with (/ T); [|apply Rinv_neq_0_compat; lra]; rewrite Rinv_r by lra; exact E|]. rewrite E. field. lra. Qed.

Lemma filter_map_comm A B (f : A -> B) p l : filter p (map f l) = map f (filter (fun a => p (f a)) l).
Proof. induction l as [|a l IH]; [reflexivity|]. cbn [map filter]. destruct (p (f a)); cbn [map]; rewrite IH; reflexivity. Qed.
Lemma filter_rev A (p : A -> bool) l : filter p (rev l) = rev (filter p l).
Proof. induction l as [|a l IH]; [reflexivity|]. cbn [rev filter]. rewrite filter_app, IH. cbn [filter]. destruct (p a); cbn [rev]; [reflexivity|apply app_nil_r]. Qed.
Lemma bell_symmetric c std a : bell c std (2 * c - a) = bell c std a.
Proof. unfold bell. f_equal. f_equal. f_equal. ring. Qed.
Lemma within_symmetric c w x : symmetric c x -> symmetric c (within c w x).
Proof. unfold symmetric, within. intros H. rewrite <- filter_rev, <- H, filter_map_comm. f_equal. apply filter_ext. intros a.
  replace (2 * c - a - c) with (- (a - c)) by ring. rewrite Rabs_Ropp. reflexivity. Qed.
Lemma kernel_symmetric c std w T x : symmetric c x -> let g := map (fun a => bell c std a / T) (within c w x) in rev g = g.
Proof. intros H g. unfold g. apply (within_symmetric c w) in H. rewrite <- map_rev. rewrite <- H, map_map. apply map_ext. intros a. rewrite bell_symmetric. reflexivity. Qed.

(** *** Row-wise application *)
Lemma iterate_rows func m rows out k : rows <> [] -> mapM func rows = Ok out -> Forall (fun r => List.length r = k) out -> iterate_over_curves func (ND (A2 m rows)) = Ok (Stacked (A2 k out)).
Proof. intros N E F. unfold iterate_over_curves. rewrite E. cbn [bind]. rewrite (np_stack_equal k); [reflexivity| |exact F]. apply mapM_Ok_length in E. intros ->. destruct rows; [contradiction|discriminate]. Qed.

(** *** Preprocessing values *)
Lemma load_pairs ip (p0 p1 : fl * fl) ps : let lines := map (fun p => [fst p; snd p]) (p0 :: p1 :: ps) in
  load_ip_values ip lines = ((Some (map fst (p0 :: p1 :: ps)), Some (map snd (p0 :: p1 :: ps))), None).
Proof. intros lines. unfold load_ip_values, loadtxt, lines. cbn [map List.length]. 
  replace (forallb _ _) with true.
  2:{ symmetry. apply forallb_forall. intros r [<-|H]; [reflexivity|]. apply in_map_iff in H. destruct H as (p & <- & _). reflexivity. }
  cbv iota. unfold column_of.
  assert (C : forall j (f : fl * fl -> fl), (forall p, py_get [fst p; snd p] (Z.of_nat j) = Ok (f p)) -> mapM (fun r => py_get r (Z.of_nat j)) (map (fun p => [fst p; snd p]) (p0 :: p1 :: ps)) = Ok (map f (p0 :: p1 :: ps))).
  { intros j f H. apply mapM_Ok_iff. generalize (p0 :: p1 :: ps). intros l. induction l as [|p l IH]; constructor; [apply H|exact IH]. }
  cbn [map] in C. rewrite (C 0%nat fst), (C 1%nat snd); reflexivity. Qed.

(** *** Labels *)
Lemma nth_columns m rows i : Forall (fun r => List.length r = m) rows -> (i < List.length rows)%nat ->
  map (fun c : list fl => nth i c None) (map (fun j => column j rows) (seq 0 m)) = nth i rows [].
Proof. intros F H. rewrite map_map. assert (L : List.length (nth i rows []) = m) by (rewrite Forall_forall in F; apply F, nth_In, H).
  apply nth_ext with (d := None) (d' := None); [rewrite map_length, seq_length; lia|]. intros j Hj. rewrite map_length, seq_length in Hj.
  assert (G : forall k, nth i (column k rows) None = nth k (nth i rows []) None).
  { intros k. unfold column. rewrite nth_indep with (d' := (fun r : list fl => nth k r None) []) by (rewrite map_length; exact H). rewrite (map_nth (fun r : list fl => nth k r None)). reflexivity. }
  rewrite nth_indep with (d' := (fun j => nth i (column j rows) None) 0%nat) by (rewrite map_length, seq_length; exact Hj).
  rewrite (map_nth (fun j => nth i (column j rows) None)). rewrite seq_nth by exact Hj. apply G. Qed.
Lemma map_snd_combine A B (a : list A) (b : list B) : List.length a = List.length b -> map snd (combine a b) = b.
Proof. revert b. induction a as [|x a IH]; intros [|y b] H; try discriminate; [reflexivity|]. cbn [combine map snd]. f_equal. apply IH. injection H; auto. Qed.
Lemma ndarray_roundtrip m rows names f : Forall (fun r => List.length r = m) rows -> to_iframe (PArray (A2 m rows)) names = Ok f -> convert_to_ndarray (PFrame f) = Ok (A2 m rows).
Proof. intros F. cbn [to_iframe]. destruct (Nat.eqb_spec m (List.length names)) as [E|E]; [|discriminate]. intros H. injection H as <-. unfold convert_to_ndarray. cbn [if_cols if_index]. f_equal.
  assert (L : List.length names = List.length (map (fun j => column j rows) (seq 0 m))) by (rewrite map_length, seq_length; lia).
  f_equal; [rewrite combine_length, map_length, seq_length; lia|]. unfold range_index. rewrite map_length, seq_length.
  transitivity (map (fun i => nth i rows []) (seq 0 (List.length rows))).
  - apply map_ext_in. intros i Hi. apply in_seq in Hi. rewrite <- (map_map snd (fun c : list fl => nth i c None)). rewrite map_snd_combine by exact L. apply nth_columns; [exact F|lia].
  - clear. induction rows as [|r rows IH] using rev_ind; [reflexivity|]. rewrite app_length. cbn [List.length]. rewrite Nat.add_1_r, seq_S, map_app. cbn [map]. f_equal.
    + rewrite <- IH at 2. apply map_ext_in. intros i Hi. apply in_seq in Hi. apply app_nth1. lia.
    + cbn. rewrite app_nth2 by lia. rewrite Nat.sub_diag. reflexivity. Qed.

Lemma interpolated_max erf s A I new_q q : erf_positive erf -> geometry_ok s -> sc_angle s = map Some A -> sc_raw s = map Some I -> scattering_angles A -> List.length I = List.length A -> all_pos I -> I <> [] ->
  sc_norm s = Some "max"%string -> scan_q s = Ok (map Some q) -> increasing q ->
  exists out, get_interpolated_intensity erf s new_q = Ok (map Some out) /\ List.length out = List.length new_q /\ Forall (fun y => 0 < y <= 1) out.
Proof. intros He G HA HI SA L P N Hn Q Inc. destruct (corrected_max erf s A I He G HA HI SA L P N Hn) as (c & C & Lc & Pc & M).
  assert (Lq : List.length q = List.length c). { pose proof (q_length s _ Q) as E. rewrite map_length in E. rewrite HA, map_length in E. lia. }
  assert (Nq : q <> []). { intros ->. destruct I; [contradiction|]. cbn in Lq, Lc. lia. }
  rewrite (interpolated_eq erf s new_q q (map Some c) Q C).
  destruct (interp_bound new_q q c 0 1 Inc Nq Lq (Rle_refl 0)) as (out & E & Lo & B).
  { destruct M as [_ M]. apply Forall_forall. intros y Hy. unfold all_pos in Pc. rewrite Forall_forall in M, Pc. specialize (M y Hy). specialize (Pc y Hy). cbn beta in *. lra. }
  destruct (interp_positive new_q q c Nq Lq Pc) as (out' & E' & _ & B'). rewrite E in E'. injection E' as E'.
  assert (out = out'). { revert out' E' B'. clear. induction out as [|y out IH]; intros [|y' out'] E' B'; try discriminate; [reflexivity|]. injection E' as -> E'. f_equal. apply IH; [exact E'|exact (Forall_inv_tail B')]. }
  subst out'. exists out. split; [exact E|]. split; [exact Lo|]. apply Forall_forall. intros y Hy. unfold positive_curve in B'. rewrite Forall_forall in B, B'. specialize (B y Hy). specialize (B' y Hy). cbn beta in *. lra. Qed.
