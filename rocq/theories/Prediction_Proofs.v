(** Proofs about the evaluation of predictions. *)
From Coq Require Import Reals Lra.
From Coquelicot Require Import Complex.
From Verif Require Import Py Str Cplx Arr Sample_Model Sample_Proofs Sampling_Model Simulation_Model SldProfile_Model Spec_Model Fio_Proofs Preproc_Model Preproc_Spec Fitter_Model FileFitter_Model Prediction_Model Prediction_Spec.
Local Open Scope string_scope.
Local Open Scope R_scope.

(** ** Columns *)
Lemma has_column_iff {V} (cols : list (string * V)) k : has_column cols k = true <-> In k (map fst cols).
Proof. unfold has_column. rewrite existsb_exists, in_map_iff. split.
  - intros (c & H & E). apply String.eqb_eq in E. exists c. split; assumption.
  - intros (c & E & H). exists c. split; [exact H|apply String.eqb_eq, E]. Qed.
Lemma has_column_not {V} (cols : list (string * V)) k : has_column cols k = false <-> ~ In k (map fst cols).
Proof. rewrite <- has_column_iff. destruct (has_column cols k); split; congruence. Qed.
Lemma get_map_fst {V W} (f : string -> V -> W) (l : list (string * V)) k :
  dict_get String.eqb (map (fun kc => (fst kc, f (fst kc) (snd kc))) l) k = option_map (f k) (dict_get String.eqb l k).
Proof. induction l as [|[k' v] l IH]; [reflexivity|]. cbn [map fst snd dict_get]. destruct (String.eqb_spec k' k) as [->|N]; [reflexivity|exact IH]. Qed.
Lemma get_names {W} (f : string -> W) (l : list string) k : In k l -> dict_get String.eqb (map (fun k => (k, f k)) l) k = Some (f k).
Proof. induction l as [|k' l IH]; [intros []|]. intros H. cbn [map dict_get]. destruct (String.eqb_spec k' k) as [->|N]; [reflexivity|].
  destruct H as [H|H]; [congruence|apply IH, H]. Qed.
Lemma get_names_none {W} (f : string -> W) (l : list string) k : ~ In k l -> dict_get String.eqb (map (fun k => (k, f k)) l) k = None.
Proof. induction l as [|k' l IH]; [reflexivity|]. intros H. cbn [map dict_get]. destruct (String.eqb_spec k' k) as [->|N]; [destruct H; left; reflexivity|].
  apply IH. intros K. apply H. right. exact K. Qed.
Lemma get_filter {V} (l : list (string * V)) k j : k <> j -> dict_get String.eqb (filter (fun c => negb (String.eqb (fst c) j)) l) k = dict_get String.eqb l k.
Proof. intros N. induction l as [|[k' v] l IH]; [reflexivity|]. cbn [filter fst dict_get]. destruct (String.eqb_spec k' j) as [->|N'].
  - cbn [negb]. rewrite (proj2 (String.eqb_neq j k)) by congruence. exact IH.
  - cbn [negb dict_get]. rewrite IH. reflexivity. Qed.
Definition union {V W} (a : list (string * V)) (b : list (string * W)) : list string := (map fst a ++ filter (fun k => negb (has_column a k)) (map fst b))%list.
Lemma union_In {V W} (a : list (string * V)) (b : list (string * W)) k : In k (union a b) <-> In k (map fst a) \/ In k (map fst b).
Proof. unfold union. rewrite in_app_iff, filter_In. destruct (has_column a k) eqn:E.
  - apply has_column_iff in E. cbn. tauto.
  - apply has_column_not in E. cbn. tauto. Qed.
Lemma union_NoDup {V W} (a : list (string * V)) (b : list (string * W)) : NoDup (map fst a) -> NoDup (map fst b) -> NoDup (union a b).
Proof. intros A B. unfold union. apply NoDup_app_iff. split; [|split].
  - exact A.
  - apply NoDup_filter, B.
  - intros k H K. apply filter_In in K as [_ K]. apply has_column_iff in H. rewrite H in K. discriminate. Qed.
Lemma aligned_keys {U V W} (f : U -> V -> W) nu nv n a b : map fst (aligned f nu nv n a b) = union a b.
Proof. unfold aligned. rewrite map_map. cbn [fst]. apply map_id. Qed.
Lemma aligned_get {U V W} (f : U -> V -> W) nu nv n a b k : In k (map fst a) \/ In k (map fst b) ->
  dict_get String.eqb (aligned f nu nv n a b) k = Some (map (fun i => f (entry nu a k i) (entry nv b k i)) (seq 0 n)).
Proof. intros H. unfold aligned. rewrite (get_names (fun k => map (fun i => f (entry nu a k i) (entry nv b k i)) (seq 0 n))); [reflexivity|]. apply union_In, H. Qed.
Lemma map_columns_get {U V} (f : U -> V) cols k : dict_get String.eqb (map_columns f cols) k = option_map (map f) (dict_get String.eqb cols k).
Proof. exact (get_map_fst (fun _ => map f) cols k). Qed.
Lemma map_columns_keys {U V} (f : U -> V) cols : map fst (map_columns f cols) = map fst cols.
Proof. unfold map_columns. rewrite map_map. reflexivity. Qed.
Lemma means_get cols k : dict_get String.eqb (column_means cols) k = option_map xmean (dict_get String.eqb cols k).
Proof. exact (get_map_fst (fun _ => xmean) cols k). Qed.
Lemma means_keys cols : map fst (column_means cols) = map fst cols.
Proof. unfold column_means. rewrite map_map. reflexivity. Qed.
Lemma del_keys {V} (cols : list (string * V)) k : map fst (filter (fun c => negb (String.eqb (fst c) k)) cols) = filter (fun j => negb (String.eqb j k)) (map fst cols).
Proof. induction cols as [|[j v] cols IH]; [reflexivity|]. cbn [filter map fst]. destruct (String.eqb j k); cbn [negb map fst]; rewrite IH; reflexivity. Qed.

(** ** Means *)
Lemma numbers_none {A} (f : A -> xv) l : (forall i, f i = XNaN) -> numbers (map f l) = [].
Proof. intros H. unfold numbers. induction l as [|x l IH]; [reflexivity|]. cbn [map filter]. rewrite H. exact IH. Qed.
Lemma numbers_pairs (F : fl -> fl -> xv) : (forall x, F None x = XNaN) -> (forall x, F x None = XNaN) ->
  forall a b n, (List.length a <= n)%nat -> (List.length b <= n)%nat ->
  numbers (map (fun i => F (nth i a None) (nth i b None)) (seq 0 n)) = numbers (map (fun p => F (Some (fst p)) (Some (snd p))) (known_pairs a b)).
Proof. intros Fl Fr.
  assert (E1 : forall a m k, numbers (map (fun i => F (nth i a None) None) (seq k m)) = []) by (intros; apply numbers_none; intros i; apply Fr).
  assert (E2 : forall b m k, numbers (map (fun i => F None (nth i b None)) (seq k m)) = []) by (intros; apply numbers_none; intros i; apply Fl).
  induction a as [|x a IH]; intros b n La Lb.
  - refine (eq_trans _ (E2 b n 0%nat)). f_equal. apply map_ext. intros i. destruct i; reflexivity.
  - destruct b as [|y b].
    + transitivity (@nil xv); [|destruct x; reflexivity]. refine (eq_trans _ (E1 (x :: a) n 0%nat)). f_equal. apply map_ext. intros i. destruct i; reflexivity.
    + destruct n as [|n]; [cbn in La; lia|]. cbn [List.length] in La, Lb. cbn [seq map]. rewrite <- seq_shift, map_map. cbn [nth].
      specialize (IH b n ltac:(lia) ltac:(lia)).
      destruct x as [x|]; [destruct y as [y|]|].
      * cbn [known_pairs map fst snd]. unfold numbers in *. cbn [filter]. rewrite IH. reflexivity.
      * rewrite Fr. cbn [known_pairs]. unfold numbers in *. cbn [filter]. exact IH.
      * rewrite Fl. cbn [known_pairs]. unfold numbers in *. cbn [filter]. exact IH. Qed.
Lemma xmean_numbers l l' : numbers l = numbers l' -> xmean l = xmean l'.
Proof. intros H. unfold xmean. rewrite H. reflexivity. Qed.
Lemma numbers_reals (l : list R) : numbers (map XR l) = map XR l.
Proof. unfold numbers. induction l as [|x l IH]; [reflexivity|]. cbn [map filter]. rewrite IH. reflexivity. Qed.
Lemma xmean_reals (l : list R) : l <> [] -> xmean (map XR l) = XR (avg l).
Proof. intros H. unfold xmean. rewrite numbers_reals. destruct l as [|x l]; [contradiction|]. cbn [map].
  assert (N : existsb is_inf (XR x :: map XR l) = false) by (cbn [existsb is_inf orb]; clear; induction l; [reflexivity|exact IHl]).
  rewrite N. f_equal. unfold avg, sum. cbn [List.length map real_part fold_right]. rewrite map_map, map_length. cbn [real_part]. rewrite map_id. reflexivity. Qed.
Lemma mean_reals (f : R * R -> R) (ps : list (R * R)) : is_mean f ps (xmean (map (fun p => XR (f p)) ps)).
Proof. destruct ps as [|p ps]; [left; split; reflexivity|]. right. split; [discriminate|]. rewrite <- (map_map f XR). apply xmean_reals. discriminate. Qed.

Definition abs_cell (t p : fl) : xv := xabs (fsub t p).
Definition rel_cell (t p : fl) : xv := xdiv (xabs (fsub t p)) (xabs t).
Lemma abs_mean a b n : (List.length a <= n)%nat -> (List.length b <= n)%nat ->
  is_mean abs_error (known_pairs a b) (xmean (map (fun i => abs_cell (nth i a None) (nth i b None)) (seq 0 n))).
Proof. intros La Lb. refine (eq_ind_r (is_mean abs_error (known_pairs a b)) _ (xmean_numbers _ _ (numbers_pairs abs_cell (fun _ => eq_refl) (fun x => match x with None => eq_refl | Some _ => eq_refl end) a b n La Lb))).
  exact (mean_reals abs_error (known_pairs a b)). Qed.
Lemma rel_value t p : rel_cell (Some t) (Some p) = if Req_EM_T t 0 then (if Req_EM_T p 0 then XNaN else XInf) else XR (rel_error (t, p)).
Proof. unfold rel_cell, rel_error, fsub, lift2, xabs, xdiv. cbn [fst snd]. destruct (Req_EM_T t 0) as [->|N].
  - rewrite Rabs_R0. destruct (Req_EM_T 0 0) as [_|N]; [|lra]. destruct (Req_EM_T p 0) as [->|N].
    + rewrite Rminus_0_r, Rabs_R0. destruct (Req_EM_T 0 0) as [_|N]; [reflexivity|lra].
    + destruct (Req_EM_T (Rabs (0 - p)) 0) as [E|_]; [|reflexivity]. destruct N. destruct (Req_dec (0 - p) 0) as [H|H]; [lra|]. apply Rabs_no_R0 in H. contradiction.
  - destruct (Req_EM_T (Rabs t) 0) as [E|_]; [|reflexivity]. apply Rabs_no_R0 in N. contradiction. Qed.
Definition nonzero (p : R * R) : bool := if Req_EM_T (fst p) 0 then false else true.
Lemma filter_split {A} (f : A -> bool) l : Permutation l (filter f l ++ filter (fun x => negb (f x)) l).
Proof. induction l as [|x l IH]; [constructor|]. cbn [filter]. destruct (f x); cbn [negb app].
  - constructor. exact IH.
  - etransitivity; [constructor; exact IH|]. apply Permutation_middle. Qed.
Lemma rel_pairs ps : is_mean_rel ps (xmean (map (fun p => rel_cell (Some (fst p)) (Some (snd p))) ps)).
Proof. destruct (Exists_dec (fun p => fst p = 0 /\ snd p <> 0) ps) as [H|H].
  { intros [x y]. cbn [fst snd]. destruct (Req_EM_T x 0), (Req_EM_T y 0); [right|left|right|right]; tauto. }
  - left. apply Exists_exists in H as ([t p] & I & E & N). cbn [fst snd] in E, N. subst t. split; [exists p; split; assumption|].
    assert (K : In XInf (numbers (map (fun p => rel_cell (Some (fst p)) (Some (snd p))) ps))).
    { apply filter_In. split; [|reflexivity]. apply in_map_iff. exists (0, p). split; [|exact I]. cbn [fst snd]. rewrite rel_value.
      destruct (Req_EM_T 0 0); [|lra]. destruct (Req_EM_T p 0); [contradiction|reflexivity]. }
    unfold xmean. remember (numbers (map (fun p => rel_cell (Some (fst p)) (Some (snd p))) ps)) as v. destruct v as [|x v]; [destruct K|].
    assert (X : existsb is_inf (x :: v) = true) by (apply existsb_exists; exists XInf; split; [exact K|reflexivity]). rewrite X. reflexivity.
  - right. assert (Z : forall p, In (0, p) ps -> p = 0).
    { intros p I. destruct (Req_EM_T p 0); [assumption|]. destruct H. apply Exists_exists. exists (0, p). split; [exact I|split; [reflexivity|assumption]]. }
    split; [exact Z|]. exists (filter nonzero ps), (filter (fun p => negb (nonzero p)) ps). split; [apply filter_split|]. split; [|split].
    + apply Forall_forall. intros p I. apply filter_In in I as [_ I]. unfold nonzero in I. destruct (Req_EM_T (fst p) 0); [discriminate|assumption].
    + apply Forall_forall. intros p I. apply filter_In in I as [_ I]. unfold nonzero in I. destruct (Req_EM_T (fst p) 0); [assumption|discriminate].
    + replace (xmean (map (fun p => rel_cell (Some (fst p)) (Some (snd p))) ps)) with (xmean (map (fun p => XR (rel_error p)) (filter nonzero ps))); [apply mean_reals|].
      apply xmean_numbers. clear H. induction ps as [|[t p] ps IH]; [reflexivity|]. cbn [map filter]. cbn [fst snd]. rewrite rel_value. unfold nonzero at 1. cbn [fst].
      assert (IH' := IH (fun p I => Z p (or_intror I))). destruct (Req_EM_T t 0) as [->|N].
      * rewrite (Z p (or_introl eq_refl)). destruct (Req_EM_T 0 0); [|lra]. unfold numbers in *. cbn [filter]. exact IH'.
      * cbn [map]. unfold numbers in *. cbn [filter]. rewrite IH'. reflexivity. Qed.
Lemma rel_mean a b n : (List.length a <= n)%nat -> (List.length b <= n)%nat ->
  is_mean_rel (known_pairs a b) (xmean (map (fun i => rel_cell (nth i a None) (nth i b None)) (seq 0 n))).
Proof. intros La Lb. refine (eq_ind_r (is_mean_rel (known_pairs a b)) _ (xmean_numbers _ _ (numbers_pairs rel_cell (fun _ => eq_refl)
    (fun x => match x with None => eq_refl | Some _ => eq_refl end) a b n La Lb))). apply rel_pairs. Qed.
Lemma mean_nan (l : list nat) : xmean (map (fun _ => XNaN) l) = XNaN.
Proof. unfold xmean. assert (H : numbers (map (fun _ => XNaN) l) = []) by (induction l; [reflexivity|exact IHl]). rewrite H. reflexivity. Qed.

(** ** The two errors *)
Definition reset_name (f : iframe) : string := match if_name f with Some n => n | None => if has_column (if_cols f) "index" then "level_0" else "index" end.
Lemma reset_ok f : ~ In (reset_name f) (map fst (if_cols f)) -> reset_index f = Ok (mkRtable (List.length (if_index f)) ((reset_name f, if_index f) :: if_cols f)).
Proof. intros H. unfold reset_index. cbv zeta. change (match if_name f with Some n => n | None => if has_column (if_cols f) "index" then "level_0" else "index" end) with (reset_name f).
  apply has_column_not in H. rewrite H. reflexivity. Qed.
Lemma means_deleted (cols : list (string * list xv)) : In "index" (map fst cols) ->
  exists out, (e <- del_column cols "index" ;; Ok (column_means e)) = Ok out /\
    map fst out = filter (fun k => negb (String.eqb k "index")) (map fst cols) /\
    forall k, k <> "index" -> dict_get String.eqb out k = option_map xmean (dict_get String.eqb cols k).
Proof. intros H. unfold del_column. apply has_column_iff in H. rewrite H. cbn [bind]. eexists. split; [reflexivity|]. split.
  - rewrite means_keys, del_keys. reflexivity.
  - intros k N. rewrite means_get, get_filter by exact N. reflexivity. Qed.
Lemma entry_absent {V} (nan : V) cols k i : ~ In k (map fst cols) -> entry nan cols k i = nan.
Proof. intros H. unfold entry. destruct (dict_get String.eqb cols k) as [c|] eqn:E; [|reflexivity]. destruct H. apply dict_get_some_In in E. apply (in_map fst) in E. exact E. Qed.
Lemma entry_map {U V} (h : U -> V) nu nv cols k i : h nu = nv -> entry nv (map_columns h cols) k i = h (entry nu cols k i).
Proof. intros E. unfold entry. rewrite map_columns_get. destruct (dict_get String.eqb cols k); cbn [option_map]; [|symmetry; exact E]. rewrite <- E. apply map_nth. Qed.
Lemma nth_seq_map {V} (h : nat -> V) n i d : (i < n)%nat -> nth i (map h (seq 0 n)) d = h i.
Proof. intros H. rewrite (nth_indep _ d (h 0%nat)) by (rewrite map_length, seq_length; exact H). rewrite map_nth, seq_nth by exact H. reflexivity. Qed.

Section TwoTables.
  Context (f g : iframe).
  Hypothesis Hf : ~ In (reset_name f) (map fst (if_cols f)).
  Hypothesis Hg : ~ In (reset_name g) (map fst (if_cols g)).
  Let tf := (reset_name f, if_index f) :: if_cols f.
  Let tg := (reset_name g, if_index g) :: if_cols g.
  Let n := Nat.max (List.length (if_index f)) (List.length (if_index g)).

  Lemma mae_general names : In "index" (union tf tg) ->
    exists out, mean_absolute_error names (PFrame g) (PFrame f) = Ok out /\
      map fst out = filter (fun k => negb (String.eqb k "index")) (union tf tg) /\
      forall k, k <> "index" -> In k (union tf tg) -> dict_get String.eqb out k = Some (xmean (map (fun i => abs_cell (entry None tf k i) (entry None tg k i)) (seq 0 n))).
  Proof. intros H. unfold mean_absolute_error. cbn [to_iframe bind]. rewrite (reset_ok f Hf), (reset_ok g Hg). cbn [bind rt_rows rt_cols]. fold tf tg n.
    pose (cols := map_columns xabs (aligned fsub None None n tf tg)). change (map_columns xabs (aligned fsub None None n tf tg)) with cols.
    assert (K : map fst cols = union tf tg) by (unfold cols; rewrite map_columns_keys, aligned_keys; reflexivity).
    destruct (means_deleted cols) as (out & E & F & G); [rewrite K; exact H|]. exists out. split; [exact E|]. split; [rewrite F, K; reflexivity|].
    intros k N I. rewrite (G k N). unfold cols. rewrite map_columns_get, aligned_get by (apply union_In, I). cbn [option_map]. rewrite map_map. reflexivity. Qed.
  Lemma mape_general names : In "index" (union tf tg) ->
    exists out, mean_absolute_percentage_error names (PFrame g) (PFrame f) = Ok out /\
      (forall k, In k (map fst out) <-> k <> "index" /\ In k (union tf tg)) /\ (NoDup (map fst tf) -> NoDup (map fst tg) -> NoDup (map fst out)) /\
      forall k, k <> "index" -> In k (union tf tg) -> dict_get String.eqb out k = Some (xmean (map (fun i => rel_cell (entry None tf k i) (entry None tg k i)) (seq 0 n))).
  Proof. intros H. unfold mean_absolute_percentage_error. cbn [to_iframe bind]. rewrite (reset_ok f Hf), (reset_ok g Hg). cbn [bind rt_rows rt_cols]. cbv zeta. fold tf tg n.
    pose (e := map_columns xabs (aligned fsub None None n tf tg)). change (map_columns xabs (aligned fsub None None n tf tg)) with e.
    pose (cols := aligned xdiv XNaN XNaN n e (map_columns xabs tf)). change (aligned xdiv XNaN XNaN n e (map_columns xabs tf)) with cols.
    assert (Ke : map fst e = union tf tg) by (unfold e; rewrite map_columns_keys, aligned_keys; reflexivity).
    assert (K : map fst cols = union e (map_columns xabs tf)) by (unfold cols; rewrite aligned_keys; reflexivity).
    assert (KI : forall k, In k (map fst cols) <-> In k (union tf tg)).
    { intros k. rewrite K, union_In, Ke, map_columns_keys, union_In. tauto. }
    destruct (means_deleted cols) as (out & E & F & G); [apply KI, H|]. exists out. split; [exact E|]. split; [|split].
    - intros k. rewrite F, filter_In, KI. destruct (String.eqb_spec k "index") as [->|N]; cbn [negb]; intuition congruence.
    - intros Nf Ng. rewrite F. apply NoDup_filter. rewrite K. apply union_NoDup; [rewrite Ke; apply union_NoDup; assumption|rewrite map_columns_keys; exact Nf].
    - intros k N I. rewrite (G k N). assert (Ie : In k (map fst e)) by (rewrite Ke; exact I). unfold cols. rewrite aligned_get by (left; exact Ie). cbn [option_map]. f_equal. f_equal.
      apply map_ext_in. intros i Hi. apply in_seq in Hi. unfold rel_cell. f_equal.
      + unfold e. rewrite (entry_map xabs None XNaN _ _ _ eq_refl). f_equal. unfold entry at 1. rewrite aligned_get by (apply union_In, I).
        apply (nth_seq_map (fun i => fsub (entry None tf k i) (entry None tg k i)) n i None). lia.
      + apply (entry_map xabs None XNaN _ _ _ eq_refl). Qed.
  (** Both indices have names: there is no column to delete. *)
  Lemma error_no_index names : ~ In "index" (union tf tg) ->
    mean_absolute_error names (PFrame g) (PFrame f) = Raise KeyError /\ mean_absolute_percentage_error names (PFrame g) (PFrame f) = Raise KeyError.
  Proof. intros H. unfold mean_absolute_error, mean_absolute_percentage_error. cbn [to_iframe bind]. rewrite (reset_ok f Hf), (reset_ok g Hg). cbn [bind rt_rows rt_cols]. cbv zeta. fold tf tg n.
    unfold del_column. split.
    - rewrite (proj2 (has_column_not _ _)); [reflexivity|]. rewrite map_columns_keys, aligned_keys. exact H.
    - rewrite (proj2 (has_column_not _ _)); [reflexivity|]. rewrite aligned_keys, union_In, !map_columns_keys, aligned_keys. intros [K|K]; [exact (H K)|]. apply H. apply union_In. left. exact K. Qed.
End TwoTables.

Lemma unnamed_reset f : unnamed f -> reset_name f = "index" /\ ~ In (reset_name f) (map fst (if_cols f)).
Proof. intros [N H]. unfold reset_name. rewrite N. rewrite (proj2 (has_column_not _ _) H). split; [reflexivity|exact H]. Qed.
Lemma entry_in f k c i : table_ok f -> k <> reset_name f -> In (k, c) (if_cols f) -> entry None ((reset_name f, if_index f) :: if_cols f) k i = nth i c None.
Proof. intros [N _] D H. unfold entry. cbn [dict_get]. rewrite (proj2 (String.eqb_neq _ _)) by (intros E; apply D; symmetry; exact E).
  exact (f_equal (fun o : option (list fl) => match o with Some c => nth i c None | None => None end) (dict_get_pair _ k c N H)). Qed.
Lemma entry_out f k i : k <> reset_name f -> ~ In k (map fst (if_cols f)) -> entry None ((reset_name f, if_index f) :: if_cols f) k i = None.
Proof. intros D H. apply entry_absent. cbn [map fst]. intros [E|E]; [apply D; symmetry; exact E|exact (H E)]. Qed.
Lemma table_length f k c : table_ok f -> In (k, c) (if_cols f) -> List.length c = List.length (if_index f).
Proof. intros [_ F] H. rewrite Forall_forall in F. exact (F _ H). Qed.
Lemma in_names {V} (l : list (string * V)) k v : In (k, v) l -> In k (map fst l).
Proof. intros H. exact (in_map fst _ _ H). Qed.
Lemma only_one_nan (F : fl -> fl -> xv) (a b : nat -> fl) n : (forall x, F None x = XNaN) -> (forall x, F x None = XNaN) ->
  (forall i, a i = None) \/ (forall i, b i = None) -> xmean (map (fun i => F (a i) (b i)) (seq 0 n)) = XNaN.
Proof. intros Fl Fr H. transitivity (xmean (map (fun _ => XNaN) (seq 0 n))); [|apply mean_nan]. f_equal. apply map_ext. intros i. destruct H as [H|H]; rewrite H; [apply Fl|apply Fr]. Qed.

Lemma index_in {V} (a b : list (string * V)) (x y : V) : In "index" (union (("index", x) :: a) (("index", y) :: b)).
Proof. apply union_In. left. left. reflexivity. Qed.

Lemma mae_unnamed names f g : table_ok f -> table_ok g -> unnamed f -> unnamed g ->
  error_table f g (is_mean abs_error) (mean_absolute_error names (PFrame g) (PFrame f)).
Proof. intros Of Og Uf Ug. destruct (unnamed_reset f Uf) as [Rf Nf]. destruct (unnamed_reset g Ug) as [Rg Ng].
  destruct (mae_general f g Nf Ng names) as (out & E & K & G); [rewrite Rf, Rg; apply index_in|].
  assert (KI : forall l, In l (map fst out) <-> In l (map fst (if_cols f)) \/ In l (map fst (if_cols g))).
  { intros l. rewrite K, filter_In, union_In. cbn [map fst In]. rewrite Rf, Rg. destruct (String.eqb_spec l "index") as [->|N]; cbn [negb].
    - split; [intros [_ X]; discriminate|]. intros [H|H]; [destruct Uf; contradiction|destruct Ug; contradiction].
    - split; [intros [[[X|X]|[X|X]] _]; try congruence; tauto|tauto]. }
  exists out. split; [exact E|]. split; [|split; [exact KI|split]].
  - rewrite K. apply NoDup_filter, union_NoDup; cbn [map fst]; constructor; try assumption; [destruct Of|destruct Og]; assumption.
  - intros l a b Ha Hb. assert (L : l <> "index") by (intros ->; destruct Uf as [_ U]; apply U; exact (in_names _ _ _ Ha)).
    eexists. split.
    + apply dict_get_some_In. apply (G l L). apply union_In. left. right. exact (in_names _ _ _ Ha).
    + rewrite (map_ext _ (fun i => abs_cell (nth i a None) (nth i b None))).
      * apply abs_mean; [rewrite (table_length f l a Of Ha)|rewrite (table_length g l b Og Hb)]; lia.
      * intros i. rewrite (entry_in f l a i Of), (entry_in g l b i Og); [reflexivity|rewrite Rg; exact L|exact Hb|rewrite Rf; exact L|exact Ha].
  - intros l I O. assert (L : l <> "index") by (intros ->; apply KI in I; destruct Uf, Ug; tauto). apply dict_get_some_In.
    rewrite (G l L) by (apply union_In; cbn [map fst In]; apply KI in I; tauto). f_equal. apply only_one_nan; [reflexivity|intros [x|]; reflexivity|].
    destruct O as [O|O]; [left|right]; intros i; apply entry_out; rewrite ?Rf, ?Rg; assumption. Qed.
Lemma mape_unnamed names f g : table_ok f -> table_ok g -> unnamed f -> unnamed g ->
  error_table f g is_mean_rel (mean_absolute_percentage_error names (PFrame g) (PFrame f)).
Proof. intros Of Og Uf Ug. destruct (unnamed_reset f Uf) as [Rf Nf]. destruct (unnamed_reset g Ug) as [Rg Ng].
  destruct (mape_general f g Nf Ng names) as (out & E & K & ND & G); [rewrite Rf, Rg; apply index_in|].
  assert (KI : forall l, In l (map fst out) <-> In l (map fst (if_cols f)) \/ In l (map fst (if_cols g))).
  { intros l. rewrite K, union_In. cbn [map fst In]. rewrite Rf, Rg. split; [intros [N [[X|X]|[X|X]]]; try (symmetry in X; contradiction); tauto|].
    intros H. split; [intros ->; destruct Uf, Ug; tauto|tauto]. }
  exists out. split; [exact E|]. split; [|split; [exact KI|split]].
  - apply ND; cbn [map fst]; constructor; try assumption; [destruct Of|destruct Og]; assumption.
  - intros l a b Ha Hb. assert (L : l <> "index") by (intros ->; destruct Uf as [_ U]; apply U; exact (in_names _ _ _ Ha)).
    eexists. split.
    + apply dict_get_some_In. apply (G l L). apply union_In. left. right. exact (in_names _ _ _ Ha).
    + rewrite (map_ext _ (fun i => rel_cell (nth i a None) (nth i b None))).
      * apply rel_mean; [rewrite (table_length f l a Of Ha)|rewrite (table_length g l b Og Hb)]; lia.
      * intros i. rewrite (entry_in f l a i Of), (entry_in g l b i Og); [reflexivity|rewrite Rg; exact L|exact Hb|rewrite Rf; exact L|exact Ha].
  - intros l I O. assert (L : l <> "index") by (intros ->; apply KI in I; destruct Uf, Ug; tauto). apply dict_get_some_In.
    rewrite (G l L) by (apply union_In; cbn [map fst In]; apply KI in I; tauto). f_equal. apply only_one_nan; [reflexivity|intros [x|]; reflexivity|].
    destruct O as [O|O]; [left|right]; intros i; apply entry_out; rewrite ?Rf, ?Rg; assumption. Qed.

(** ** Arrays *)
Lemma denotes_to names l f : denotes names l f -> to_iframe l names = Ok f.
Proof. intros [->|(rows & -> & ->)]; [reflexivity|]. cbn [to_iframe]. rewrite Nat.eqb_refl. reflexivity. Qed.
Lemma errors_denote names lt lp f g : denotes names lt f -> denotes names lp g ->
  mean_absolute_error names lp lt = mean_absolute_error names (PFrame g) (PFrame f) /\
  mean_absolute_percentage_error names lp lt = mean_absolute_percentage_error names (PFrame g) (PFrame f).
Proof. intros A B. unfold mean_absolute_error, mean_absolute_percentage_error. rewrite (denotes_to _ _ _ A), (denotes_to _ _ _ B). split; reflexivity. Qed.
Lemma mae_ok names lt lp f g : denotes names lt f -> denotes names lp g -> table_ok f -> table_ok g -> unnamed f -> unnamed g ->
  error_table f g (is_mean abs_error) (mean_absolute_error names lp lt).
Proof. intros A B. rewrite (proj1 (errors_denote names lt lp f g A B)). apply mae_unnamed. Qed.
Lemma mape_ok names lt lp f g : denotes names lt f -> denotes names lp g -> table_ok f -> table_ok g -> unnamed f -> unnamed g ->
  error_table f g is_mean_rel (mean_absolute_percentage_error names lp lt).
Proof. intros A B. rewrite (proj2 (errors_denote names lt lp f g A B)). apply mape_unnamed. Qed.
Lemma combine_fst {A B} (l : list A) (l' : list B) : List.length l = List.length l' -> map fst (combine l l') = l.
Proof. revert l'. induction l as [|x l IH]; intros [|y l'] H; try discriminate; [reflexivity|]. cbn [combine map fst]. rewrite IH by (cbn in H; lia). reflexivity. Qed.
Lemma array_table_ok names rows : NoDup names -> ~ In "index" names ->
  table_ok (array_table names rows) /\ unnamed (array_table names rows) /\ map fst (if_cols (array_table names rows)) = names /\
  List.length (if_index (array_table names rows)) = List.length rows /\
  forall j, (j < List.length names)%nat -> In (nth j names "", map (fun r => nth j r None) rows) (if_cols (array_table names rows)).
Proof. intros N I. pose (h := fun j => map (fun r : list fl => nth j r None) rows).
  assert (L : List.length names = List.length (map h (seq 0 (List.length names)))) by (rewrite map_length, seq_length; reflexivity).
  assert (M : map fst (if_cols (array_table names rows)) = names) by exact (combine_fst _ _ L).
  assert (LI : List.length (if_index (array_table names rows)) = List.length rows) by (cbn [array_table if_index]; rewrite map_length, seq_length; reflexivity).
  unfold table_ok, unnamed. rewrite M, LI. split; [split; [exact N|]|]. 2: split; [split; [reflexivity|exact I]|]. 2: split; [reflexivity|]. 2: split; [reflexivity|].
  - apply Forall_forall. intros [k c] H. cbn [array_table if_cols] in H. apply in_combine_r in H. apply in_map_iff in H as (j & E & _). cbn [snd]. rewrite <- E. apply map_length.
  - intros j Hj. assert (E : nth j (combine names (map h (seq 0 (List.length names)))) ("", []) = (nth j names "", h j)).
    { rewrite combine_nth by exact L. f_equal. exact (nth_seq_map h (List.length names) j [] Hj). }
    assert (K : In (nth j names "", h j) (combine names (map h (seq 0 (List.length names))))); [|exact K].
    rewrite <- E. apply nth_In. rewrite combine_length, map_length, seq_length. lia. Qed.
Lemma wrong_width names m rows l : m <> List.length names ->
  mean_absolute_error names l (PArray (A2 m rows)) = Raise ValueError /\ mean_absolute_percentage_error names l (PArray (A2 m rows)) = Raise ValueError.
Proof. intros H. unfold mean_absolute_error, mean_absolute_percentage_error. cbn [to_iframe]. rewrite (proj2 (Nat.eqb_neq _ _) H). split; reflexivity. Qed.

Lemma vector_labels names v l : List.length names <> 1%nat ->
  mean_absolute_error names l (PArray (A1 v)) = Raise ValueError /\ mean_absolute_percentage_error names l (PArray (A1 v)) = Raise ValueError.
Proof. intros H. unfold mean_absolute_error, mean_absolute_percentage_error. cbn [to_iframe]. rewrite (proj2 (Nat.eqb_neq _ _) (not_eq_sym H)). split; reflexivity. Qed.
Lemma vector_labels_one k v l : mean_absolute_error [k] l (PArray (A1 v)) = mean_absolute_error [k] l (PArray (A2 1 (map (fun x => [x]) v))) /\
  mean_absolute_percentage_error [k] l (PArray (A1 v)) = mean_absolute_percentage_error [k] l (PArray (A2 1 (map (fun x => [x]) v))).
Proof. assert (E : to_iframe (PArray (A1 v)) [k] = to_iframe (PArray (A2 1 (map (fun x => [x]) v))) [k]).
  { cbn. rewrite map_length. do 4 f_equal. unfold column. rewrite map_map. cbn. symmetry. apply map_id. }
  unfold mean_absolute_error, mean_absolute_percentage_error. rewrite E. split; reflexivity. Qed.

(** ** Complete tables *)
Lemma pairs_complete ts ps : known_pairs (map Some ts) (map Some ps) = combine ts ps.
Proof. revert ps. induction ts as [|t ts IH]; intros [|p ps]; try reflexivity. cbn [map known_pairs combine]. f_equal. apply IH. Qed.
Lemma is_mean_val f ps v : ps <> [] -> is_mean f ps v -> v = XR (avg (map f ps)).
Proof. intros H [[E _]|[_ E]]; [contradiction|exact E]. Qed.
Lemma combine_nonempty {A B} (a : list A) (b : list B) : List.length a = List.length b -> a <> [] -> combine a b <> [].
Proof. intros L H. destruct a as [|x a]; [contradiction|]. destruct b as [|y b]; [discriminate|]. discriminate. Qed.
Lemma mae_complete names lt lp f g l ts ps : denotes names lt f -> denotes names lp g -> table_ok f -> table_ok g -> unnamed f -> unnamed g ->
  In (l, map Some ts) (if_cols f) -> In (l, map Some ps) (if_cols g) -> List.length ts = List.length ps -> ts <> [] ->
  exists out, mean_absolute_error names lp lt = Ok out /\ In (l, XR (avg (map (fun p => Rabs (fst p - snd p)) (combine ts ps)))) out.
Proof. intros A B Of Og Uf Ug Hf Hg L N. destruct (mae_ok names lt lp f g A B Of Og Uf Ug) as (out & E & _ & _ & H & _). exists out. split; [exact E|].
  destruct (H l _ _ Hf Hg) as (v & I & M). assert (Q := pairs_complete ts ps). rewrite Q in M.
  rewrite (is_mean_val _ _ _ (combine_nonempty ts ps L N) M) in I. exact I. Qed.
Lemma mape_complete names lt lp f g l ts ps : denotes names lt f -> denotes names lp g -> table_ok f -> table_ok g -> unnamed f -> unnamed g ->
  In (l, map Some ts) (if_cols f) -> In (l, map Some ps) (if_cols g) -> List.length ts = List.length ps -> ts <> [] -> Forall (fun t => t <> 0) ts ->
  exists out, mean_absolute_percentage_error names lp lt = Ok out /\ In (l, XR (avg (map (fun p => Rabs (fst p - snd p) / Rabs (fst p)) (combine ts ps)))) out.
Proof. intros A B Of Og Uf Ug Hf Hg L N Z. destruct (mape_ok names lt lp f g A B Of Og Uf Ug) as (out & E & _ & _ & H & _). exists out. split; [exact E|].
  destruct (H l _ _ Hf Hg) as (v & I & M). assert (Q := pairs_complete ts ps). rewrite Q in M. rewrite Forall_forall in Z.
  destruct M as [[(p & X & _) _]|[_ (qs & zs & P & Fq & Fz & M)]].
  - apply in_combine_l in X. destruct (Z _ X). reflexivity.
  - assert (zs = []) as ->.
    { destruct zs as [|[t p] zs]; [reflexivity|]. assert (X : In (t, p) (combine ts ps)) by (eapply Permutation_in; [symmetry; exact P|apply in_or_app; right; left; reflexivity]).
      apply in_combine_l in X. destruct (Z _ X). exact (Forall_inv Fz). }
    rewrite app_nil_r in P. assert (NE : qs <> []) by (intros ->; apply Permutation_sym, Permutation_nil in P; exact (combine_nonempty ts ps L N P)).
    rewrite (is_mean_val _ _ _ NE M) in I. replace (avg (map (fun p => Rabs (fst p - snd p) / Rabs (fst p)) (combine ts ps))) with (avg (map rel_error qs)); [exact I|].
    assert (P' : Permutation (map rel_error (combine ts ps)) (map rel_error qs)) by (apply Permutation_map, P).
    change (map (fun p => Rabs (fst p - snd p) / Rabs (fst p)) (combine ts ps)) with (map rel_error (combine ts ps)). unfold avg. rewrite (Permutation_length P'). f_equal.
    clear - P'. induction P'; cbn [sum fold_right]; unfold sum in *; cbn [fold_right]; lra. Qed.
Lemma sum_nonneg l : Forall (fun x => 0 <= x) l -> 0 <= sum l /\ (sum l = 0 -> Forall (eq 0) l).
Proof. induction 1 as [|x l Hx _ [A B]]; cbn; [split; [lra|constructor]|]. fold (sum l). split; [lra|]. intros E. constructor; [lra|]. apply B. lra. Qed.
Lemma abs_zero ts ps : List.length ts = List.length ps -> ts <> [] ->
  0 <= avg (map (fun p => Rabs (fst p - snd p)) (combine ts ps)) /\ (avg (map (fun p => Rabs (fst p - snd p)) (combine ts ps)) = 0 <-> ts = ps).
Proof. intros L N. pose (es := map (fun p => Rabs (fst p - snd p)) (combine ts ps)). change (map (fun p => Rabs (fst p - snd p)) (combine ts ps)) with es.
  assert (F : Forall (fun x => 0 <= x) es) by (apply Forall_forall; intros x H; apply in_map_iff in H as (p & <- & _); apply Rabs_pos).
  assert (K : 0 < INR (List.length es)). { apply lt_0_INR. unfold es. rewrite map_length, combine_length, <- L, Nat.min_id. destruct ts; [contradiction|cbn; lia]. }
  destruct (sum_nonneg es F) as [A B]. unfold avg. split; [apply Rmult_le_pos; [exact A|left; apply Rinv_0_lt_compat, K]|]. split.
  - intros E. assert (S0 : sum es = 0). { apply Rmult_integral in E as [E|E]; [exact E|]. apply Rinv_neq_0_compat in E; [contradiction|lra]. }
    apply B in S0. clear - S0 L. revert ps es L S0. cbv zeta. induction ts as [|t ts IH]; intros [|p ps] L S0; try discriminate; [reflexivity|].
    cbn [combine map] in S0. inversion S0 as [|? ? H1 H2]; subst. cbn [fst snd] in H1. f_equal; [|apply IH; [cbn in L; lia|exact H2]].
    destruct (Req_dec (t - p) 0); [lra|]. apply Rabs_no_R0 in H. congruence.
  - intros ->. assert (S0 : sum es = 0). { unfold es. clear. induction ps as [|p ps IH]; [reflexivity|]. cbn [combine map sum fold_right fst snd]. fold (sum (map (fun p => Rabs (fst p - snd p)) (combine ps ps))).
      unfold sum in *. rewrite IH. rewrite Rminus_diag_eq by reflexivity. rewrite Rabs_R0. lra. }
    rewrite S0. unfold Rdiv. lra. Qed.

(** ** Named indices *)
Lemma both_named names f g x y : if_name f = Some x -> if_name g = Some y -> x <> "index" -> y <> "index" ->
  ~ In x (map fst (if_cols f)) -> ~ In y (map fst (if_cols g)) -> ~ In "index" (map fst (if_cols f)) -> ~ In "index" (map fst (if_cols g)) ->
  mean_absolute_error names (PFrame g) (PFrame f) = Raise KeyError /\ mean_absolute_percentage_error names (PFrame g) (PFrame f) = Raise KeyError.
Proof. intros Nf Ng Xi Yi Hf Hg If Ig. apply error_no_index; unfold reset_name; rewrite ?Nf, ?Ng; try assumption.
  rewrite union_In. cbn [map fst In]. intros [[H|H]|[H|H]]; congruence || contradiction. Qed.
Lemma one_named names f g y : table_ok f -> table_ok g -> unnamed f -> if_name g = Some y -> y <> "index" -> ~ In y (map fst (if_cols g)) -> ~ In y (map fst (if_cols f)) ->
  (exists out, mean_absolute_error names (PFrame g) (PFrame f) = Ok out /\ In (y, XNaN) out) /\
  (exists out, mean_absolute_percentage_error names (PFrame g) (PFrame f) = Ok out /\ In (y, XNaN) out).
Proof. intros Of Og Uf Ng Yi Hg Hf. destruct (unnamed_reset f Uf) as [Rf Nf]. assert (Rg : reset_name g = y) by (unfold reset_name; rewrite Ng; reflexivity).
  assert (U : In "index" (union ((reset_name f, if_index f) :: if_cols f) ((reset_name g, if_index g) :: if_cols g))) by (apply union_In; left; left; cbn [fst]; congruence).
  assert (V : In y (union ((reset_name f, if_index f) :: if_cols f) ((reset_name g, if_index g) :: if_cols g))) by (apply union_In; right; left; cbn [fst]; congruence).
  assert (Hg' : ~ In (reset_name g) (map fst (if_cols g))) by (rewrite Rg; exact Hg).
  assert (NN : forall i, entry None ((reset_name f, if_index f) :: if_cols f) y i = None) by (intros i; apply entry_out; [rewrite Rf; exact Yi|exact Hf]).
  split.
  - destruct (mae_general f g Nf Hg' names U) as (out & E & _ & G). exists out. split; [exact E|]. apply dict_get_some_In. rewrite (G y Yi V). f_equal.
    apply only_one_nan; [reflexivity|intros [x|]; reflexivity|left; exact NN].
  - destruct (mape_general f g Nf Hg' names U) as (out & E & _ & _ & G). exists out. split; [exact E|]. apply dict_get_some_In. rewrite (G y Yi V). f_equal.
    apply only_one_nan; [reflexivity|intros [x|]; reflexivity|left; exact NN]. Qed.

(** ** Prediction *)
Lemma predict_ok predict k names a m rows : predicts predict k -> a = A2 m rows \/ (rows = [match a with A1 v => v | A2 _ _ => [] end] /\ exists v, a = A1 v /\ m = List.length v) ->
  Forall (fun r => List.length r = m) rows ->
  (List.length names = k -> exists out, predict (A2 m rows) = Ok (A2 k out) /\ List.length out = List.length rows /\ predict_table predict names a = Ok (array_table names out)) /\
  (List.length names <> k -> predict_table predict names a = Raise ValueError).
Proof. intros P Ha F. assert (T : atleast_2d a = A2 m rows). { destruct Ha as [->|(-> & v & -> & ->)]; reflexivity. }
  destruct (P m rows F) as (out & E & L). unfold predict_table. rewrite T, E. cbn [bind to_iframe]. split.
  - intros K. exists out. split; [reflexivity|]. split; [exact L|]. rewrite <- K, Nat.eqb_refl. reflexivity.
  - intros K. rewrite (proj2 (Nat.eqb_neq k (List.length names))) by congruence. reflexivity. Qed.
Lemma predict_evaluate predict k names a m rows truth : predicts predict k -> NoDup names -> ~ In "index" names -> List.length names = k ->
  a = A2 m rows -> Forall (fun r => List.length r = m) rows ->
  exists out g, predict a = Ok (A2 k out) /\ predict_table predict names a = Ok g /\
    error_table (array_table names truth) (array_table names out) (is_mean abs_error) (mean_absolute_error names (PFrame g) (PArray (A2 k truth))).
Proof. intros P N I K -> F. destruct (predict_ok predict k names (A2 m rows) m rows P (or_introl eq_refl) F) as [A _]. destruct (A K) as (out & E & L & T).
  exists out, (array_table names out). split; [exact E|]. split; [exact T|]. apply mae_ok; try (apply array_table_ok; assumption).
  - right. exists truth. rewrite K. split; reflexivity.
  - left. reflexivity. Qed.
