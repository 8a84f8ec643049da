(** Lemmas about the FIO reader. *)
From Coq Require Import Reals Lra DecimalString.
From Verif Require Import Py Str Arr Footprint_Model Spec_Model Fio_Model Scan_Proofs SpecFile_Spec FioFile_Spec Spec_Proofs SpecLoader_Proofs.
Local Open Scope string_scope.

(** ** Dictionaries with string keys *)
Lemma dict_get_mid {V} (a b : list (string * V)) k v : ~ In k (map fst a) -> dict_get String.eqb (a ++ (k, v) :: b)%list k = Some v.
Proof. induction a as [|[x y] a IH]; cbn [app dict_get map fst In]; intros H; [rewrite String.eqb_refl; reflexivity|].
  destruct (String.eqb_spec x k) as [-> |N]; [exfalso; apply H; left; reflexivity|]. apply IH. tauto. Qed.
Lemma dict_set_mid {V} (a b : list (string * V)) k v w : ~ In k (map fst a) -> dict_set String.eqb (a ++ (k, v) :: b)%list k w = (a ++ (k, w) :: b)%list.
Proof. induction a as [|[x y] a IH]; cbn [app dict_set map fst In]; intros H; [rewrite String.eqb_refl; reflexivity|].
  destruct (String.eqb_spec x k) as [-> |N]; [exfalso; apply H; left; reflexivity|]. rewrite IH by tauto. reflexivity. Qed.
Lemma dict_get_In {V} (d : list (string * V)) k : In k (map fst d) -> exists v, dict_get String.eqb d k = Some v.
Proof. induction d as [|[x y] d IH]; cbn [dict_get map fst In]; [intros []|]. intros H.
  destruct (String.eqb_spec x k) as [-> |N]; [eauto|]. apply IH. destruct H; [contradiction|assumption]. Qed.
Lemma dict_get_not_In {V} (d : list (string * V)) k : ~ In k (map fst d) -> dict_get String.eqb d k = None.
Proof. induction d as [|[x y] d IH]; cbn [dict_get map fst In]; [reflexivity|]. intros H.
  destruct (String.eqb_spec x k) as [-> |N]; [exfalso; apply H; left; reflexivity|]. apply IH. tauto. Qed.
Lemma dict_get_pair {V} (d : list (string * V)) k v : NoDup (map fst d) -> In (k, v) d -> dict_get String.eqb d k = Some v.
Proof. intros N H. apply in_split in H. destruct H as (a & b & ->). apply dict_get_mid. rewrite map_app in N. cbn [map fst] in N. apply NoDup_remove_2 in N.
  intros J. apply N, in_or_app. left; exact J. Qed.
Lemma dict_get_some_In {V} (d : list (string * V)) k v : dict_get String.eqb d k = Some v -> In (k, v) d.
Proof. induction d as [|[x y] d IH]; cbn [dict_get]; [discriminate|]. destruct (String.eqb_spec x k) as [-> |N]; [intros H; injection H as ->; left; reflexivity|].
  intros H. right. apply IH, H. Qed.

Section Reader.
Variable to_float : string -> option fl.
Local Notation read_line := (read_line to_float).
Local Notation read_lines := (read_lines to_float).
Local Notation read := (read to_float).
Local Notation cell := (cell to_float).

(** ** The data table *)
Definition table_data (names : list string) (k : nat) (rows : list (list string)) : list (string * list fl) :=
  map (fun nj => (fst nj, map (fun ws => cell ws (snd nj)) rows)) (combine names (seq k (List.length names))).
Lemma table_data_keys names k rows : map fst (table_data names k rows) = names.
Proof. unfold table_data. rewrite map_map. cbn [fst]. revert k; induction names as [|n names IH]; intros k; [reflexivity|]. cbn [List.length seq combine map fst]. f_equal. apply IH. Qed.
Lemma table_data_length names k rows : Forall (fun kv => List.length (snd kv) = List.length rows) (table_data names k rows).
Proof. apply Forall_forall. intros kv H. unfold table_data in H. apply in_map_iff in H. destruct H as (nj & <- & _). cbn [snd]. apply map_length. Qed.
Lemma first_row_table names ws : NoDup names -> first_row to_float names ws [] = table_data names 0 [ws].
Proof. intros N. unfold first_row, table_data.
  assert (E : forall l d, fold_left (fun d '(name, idx) => dict_set String.eqb d name [cell ws idx]) l d =
     set_list String.eqb d (map (fun nj => (fst nj, map (fun ws => cell ws (snd nj)) [ws])) l)).
  { induction l as [|[n j] l IH]; intros d; [reflexivity|]. cbn [fold_left map]. rewrite IH. reflexivity. }
  rewrite E. rewrite (set_list_distinct String.eqb String.eqb_eq); [reflexivity|]. cbn [map app].
  change (NoDup (map fst (table_data names 0 [ws]))). rewrite table_data_keys. exact N. Qed.
Lemma table_data_cons n todo k rows : table_data (n :: todo) k rows = (n, map (fun ws => cell ws k) rows) :: table_data todo (S k) rows.
Proof. reflexivity. Qed.
Lemma next_row_from ws rows todo : forall k pre, NoDup (map fst pre ++ todo) ->
  foldM (fun d '(name, idx) =>
           match dict_get String.eqb d name with
           | Some col => Ok (dict_set String.eqb d name (col ++ [cell ws idx])%list)
           | None => Raise KeyError
           end) (pre ++ table_data todo k rows)%list (combine todo (seq k (List.length todo))) = Ok (pre ++ table_data todo k (rows ++ [ws]))%list.
Proof. induction todo as [|n todo IH]; intros k pre H; [reflexivity|].
  assert (Hn : ~ In n (map fst pre)) by (apply NoDup_remove_2 in H; intros J; apply H, in_or_app; left; exact J).
  rewrite !table_data_cons. cbn [List.length seq combine foldM].
  rewrite dict_get_mid by exact Hn. cbn [bind]. rewrite dict_set_mid by exact Hn.
  change (pre ++ (n, (map (fun ws0 => cell ws0 k) rows ++ [cell ws k])%list) :: table_data todo (S k) rows)%list with
         (pre ++ [(n, (map (fun ws0 => cell ws0 k) rows ++ [cell ws k])%list)] ++ table_data todo (S k) rows)%list.
  rewrite app_assoc. rewrite IH.
  - rewrite <- app_assoc. cbn [app]. rewrite map_app. reflexivity.
  - rewrite map_app. cbn [map fst]. rewrite <- app_assoc. exact H. Qed.
Lemma next_row_table names rows ws : NoDup names -> next_row to_float names ws (table_data names 0 rows) = Ok (table_data names 0 (rows ++ [ws])).
Proof. intros H. exact (next_row_from ws rows names 0%nat [] H). Qed.
Lemma next_row_keys names ws d : incl names (map fst d) -> exists d', next_row to_float names ws d = Ok d' /\ incl names (map fst d').
Proof. unfold next_row. intros H.
  assert (K : forall l d, incl (map fst l) (map fst d) -> exists d', foldM (fun d '(name, idx) =>
           match dict_get String.eqb d name with
           | Some col => Ok (dict_set String.eqb d name (col ++ [cell ws idx])%list)
           | None => Raise KeyError
           end) d l = Ok d' /\ (forall k, In k (map fst d) -> In k (map fst d'))).
  { induction l as [|[n j] l IH]; intros e He; cbn [foldM]; [eauto|].
    destruct (dict_get_In e n) as [v Hv]; [apply He; left; reflexivity|]. rewrite Hv. cbn [bind].
    destruct (IH (dict_set String.eqb e n (v ++ [cell ws j])%list)) as (d' & Hd & Hk).
    - intros k Hk. apply (dict_set_keys String.eqb String.eqb_eq). right. apply He. right. exact Hk.
    - exists d'. split; [exact Hd|]. intros k J. apply Hk, (dict_set_keys String.eqb String.eqb_eq). right; exact J. }
  destruct (K (combine names (seq 0 (List.length names))) d) as (d' & Hd & Hk).
  - intros k J. apply H. apply in_map_iff in J. destruct J as ([a b] & <- & J). apply in_combine_l in J. exact J.
  - exists d'. split; [exact Hd|]. intros k J. apply Hk, H, J. Qed.

(** ** The loop without [header_only] *)
Definition step (r : reader) (l : string) : res reader :=
  o <- read_line false r l ;; Ok (match o with Some r' => r' | None => r end).
Lemma read_line_some r l o : read_line false r l = Ok o -> exists r', o = Some r'.
Proof. unfold Fio_Model.read_line. intros H.
  repeat match type of H with
  | Ok _ = Ok _ => injection H as <-; eauto
  | (if ?b then _ else _) = _ => destruct b
  | (match ?x with _ => _ end) = _ => destruct x
  | bind ?x _ = _ => destruct x; cbn [bind] in H; [|discriminate]
  | _ => idtac
  end; try (injection H as <-; eauto); try discriminate. Qed.
Lemma read_lines_step file : forall r, read_lines false r file = foldM step r file.
Proof. induction file as [|l file IH]; intros r; [reflexivity|]. cbn [Fio_Model.read_lines foldM]. unfold step at 1.
  destruct (read_line false r l) as [o|e] eqn:E; cbn [bind]; [|reflexivity].
  destruct (read_line_some r l o E) as [r' ->]. apply IH. Qed.
Lemma read_step file : read false file = foldM step reader0 file.
Proof. apply read_lines_step. Qed.
Lemma foldM_significant file : forall r, foldM step r file = foldM step r (significant file).
Proof. unfold significant. induction file as [|l file IH]; intros r; [reflexivity|]. cbn [filter].
  destruct (marker l || negb (contains "!" l)) eqn:E; [cbn [foldM]; destruct (step r l); cbn [bind]; [apply IH|reflexivity]|].
  cbn [foldM]. rewrite <- IH. apply orb_false_iff in E. destruct E as [E1 E2]. apply negb_false_iff in E2.
  unfold marker in E1. apply orb_false_iff in E1. destruct E1 as [E1 E3]. apply orb_false_iff in E1. destruct E1 as [E1 E4].
  unfold step at 1, Fio_Model.read_line. rewrite E1, E4, E3, E2. reflexivity. Qed.

(** ** Any file: the columns keep pace *)
Definition pace (r : reader) : Prop :=
  if r_columns r then r_names r <> [] /\ incl (r_names r) (map fst (r_data r)) /\
      (NoDup (r_names r) -> exists rows, rows <> [] /\ r_data r = table_data (r_names r) 0 rows)
  else r_data r = [].
Lemma param_line_other l r : r_columns (param_line to_float l r) = r_columns r /\ r_names (param_line to_float l r) = r_names r /\
  r_data (param_line to_float l r) = r_data r /\ r_command (param_line to_float l r) = r_command r /\ r_section (param_line to_float l r) = r_section r.
Proof. unfold param_line. destruct (negb (has_equals l)); [auto|]. destruct (split_char "=" (strip l)) as [|k [|v ?]]; [auto|auto|].
  destruct (to_float v); [cbn; auto|]. destruct (String.eqb (lower (strip k)) "ubmatrix"); [destruct (ub_matrix to_float l); cbn; auto|].
  destruct (String.eqb (lower (strip k)) "signalcounter"); [cbn; auto|]. destruct (contains "roi" (strip k)); [|auto].
  destruct (roi_line to_float k v) as [[? ?]|]; cbn; auto. Qed.
Lemma first_row_keys names ws d : incl names (map fst (first_row to_float names ws d)).
Proof. unfold first_row.
  assert (K : forall l d k, In k (map fst l) \/ In k (map fst d) -> In k (map fst (fold_left (fun d '(name, idx) => dict_set String.eqb d name [cell ws idx]) l d))).
  { induction l as [|[n j] l IH]; intros e k H; cbn [fold_left]; [destruct H as [[]|H]; exact H|]. apply IH. cbn [map fst In] in H.
    destruct H as [[<- |H]|H]; [right|left; exact H|right]; apply (dict_set_keys String.eqb String.eqb_eq); auto. }
  intros k Hk. apply K. left. replace (map fst (combine names (seq 0 (List.length names)))) with names; [exact Hk|].
  clear. generalize 0%nat. induction names as [|n names IH]; intros j; [reflexivity|]. cbn [List.length seq combine map fst]. f_equal. apply IH. Qed.
Lemma step_pace r l : pace r -> match step r l with Ok r' => pace r' | Raise e => e = IndexError /\ short_column l end.
Proof. intros H. unfold step, Fio_Model.read_line.
  destruct (contains "%c" l); [exact H|]. destruct (contains "%p" l); [exact H|]. destruct (contains "%d" l); [exact H|]. destruct (contains "!" l); [exact H|].
  assert (next : r_columns r = true -> match (o <- (d <- next_row to_float (r_names r) (split_ws l) (r_data r);; Ok (Some (set_data true d r)));; Ok (match o with Some r' => r' | None => r end)) with
    | Ok r' => pace r' | Raise e => e = IndexError /\ short_column l end).
  { intros C. unfold pace in H. rewrite C in H. destruct H as (Hn & Hi & Ht).
    destruct (next_row_keys (r_names r) (split_ws l) (r_data r) Hi) as (d & Hd & Hk). rewrite Hd. cbn [bind]. unfold pace. cbn [set_data r_columns r_names r_data].
    split; [exact Hn|]. split; [exact Hk|]. intros N. destruct (Ht N) as (rows & Hr & E). exists (rows ++ [split_ws l])%list. split; [destruct rows; discriminate|].
    rewrite E, (next_row_table _ _ _ N) in Hd. injection Hd as <-. reflexivity. }
  destruct (r_section r) eqn:S.
  - cbn [andb]. destruct (r_columns r) eqn:C; [exact (next eq_refl)|exact H].
  - cbn [bind]. destruct (contains "scan" l || contains "mesh" l); exact H.
  - cbn [bind]. unfold pace. destruct (param_line_other l r) as (E1 & E2 & E3 & _). rewrite E1, E2, E3. exact H.
  - cbn [andb]. destruct (r_columns r) eqn:C; cbn [negb]; [exact (next eq_refl)|].
    destruct (contains "Col " l) eqn:K.
    + destruct (py_get (split_ws l) 2) as [n|e] eqn:G; cbn [bind].
      * unfold pace in *. cbn [add_name r_columns r_data]. rewrite C in *. exact H.
      * split; [exact (py_get_error _ _ _ _ G)|]. split; [exact K|]. intros (a & b & c & ws & W). apply split_ws_words in W. rewrite W in G. change 2%Z with (Z.of_nat 2) in G. rewrite (py_get_nat (a :: b :: c :: ws) 2 (x := c) eq_refl) in G. discriminate G.
    + destruct (r_names r) as [|n ns] eqn:N; [exact H|]. cbn [bind]. unfold pace in *. cbn [set_data r_columns r_names r_data]. rewrite C in H. rewrite N in *.
      split; [discriminate|]. split; [apply first_row_keys|]. intros D. exists [split_ws l]. split; [discriminate|]. rewrite H. apply first_row_table, D. Qed.
Lemma steps_pace file : forall r, pace r -> match foldM step r file with Ok r' => pace r' | Raise e => e = IndexError /\ Exists short_column file end.
Proof. induction file as [|l file IH]; intros r H; [exact H|]. cbn [foldM]. pose proof (step_pace r l H) as S. destruct (step r l) as [r'|e]; cbn [bind].
  - pose proof (IH r' S) as K. destruct (foldM step r' file); [exact K|]. split; [apply K|right; apply K].
  - split; [apply S|left; apply S]. Qed.
Lemma read_pace file : match read false file with Ok r' => pace r' | Raise e => e = IndexError /\ Exists short_column file end.
Proof. rewrite read_step. apply steps_pace. reflexivity. Qed.
Lemma read_rectangular file r : read false file = Ok r -> NoDup (r_names r) ->
  r_data r = [] \/ map fst (r_data r) = r_names r /\ exists n, (0 < n)%nat /\ Forall (fun kv => List.length (snd kv) = n) (r_data r).
Proof. intros E N. pose proof (read_pace file) as P. rewrite E in P. unfold pace in P. destruct (r_columns r); [|left; exact P]. right.
  destruct P as (_ & _ & P). destruct (P N) as (rows & Hr & ->). split; [apply table_data_keys|]. exists (List.length rows).
  split; [destruct rows; [contradiction|cbn; lia]|]. apply table_data_length. Qed.
Lemma read_errors file e : read false file = Raise e -> e = IndexError /\ Exists short_column file.
Proof. intros E. pose proof (read_pace file) as P. rewrite E in P. exact P. Qed.

(** ** Files with the usual layout *)
Lemma plain_step r l : plain l -> step r l =
  match r_section r with
  | Params => Ok (param_line to_float l r)
  | Comments => Ok (if contains "scan" l || contains "mesh" l then set_command (strip l) r else r)
  | s =>
     if (match s with Data => true | _ => false end) && negb (r_columns r) then
       if contains "Col " l then name <- py_get (split_ws l) 2 ;; Ok (add_name name r)
       else match r_names r with [] => Ok r | _ => Ok (set_data true (first_row to_float (r_names r) (split_ws l) (r_data r)) r) end
     else if r_columns r then d <- next_row to_float (r_names r) (split_ws l) (r_data r) ;; Ok (set_data true d r)
     else Ok r
  end.
Proof. intros [M B]. unfold marker in M. apply orb_false_iff in M. destruct M as [M1 M3]. apply orb_false_iff in M1. destruct M1 as [M1 M2].
  unfold step, Fio_Model.read_line. rewrite M1, M2, M3, B. destruct (r_section r); cbn [andb]; try reflexivity.
  - destruct (r_columns r); [|reflexivity]. destruct (next_row to_float (r_names r) (split_ws l) (r_data r)); reflexivity.
  - destruct (r_columns r); cbn [negb].
    + destruct (next_row to_float (r_names r) (split_ws l) (r_data r)); reflexivity.
    + destruct (contains "Col " l); [destruct (py_get (split_ws l) 2); reflexivity|]. destruct (r_names r); reflexivity. Qed.
Lemma steps_before ls r : Forall plain ls -> r_section r = Nowhere -> r_columns r = false -> foldM step r ls = Ok r.
Proof. intros H S C. induction H as [|l ls Hl H IH]; [reflexivity|]. cbn [foldM]. rewrite plain_step by exact Hl. rewrite S, C. cbn [andb bind]. exact IH. Qed.
Definition or_else {A} (a b : option A) : option A := match a with Some _ => a | None => b end.
Definition with_command (c : option string) (r : reader) : reader :=
  mkReader (r_motors r) (r_section r) (r_columns r) (r_names r) c (r_ubmatrix r) (r_signal r) (r_rois r) (r_data r).
Lemma find_app {A} (p : A -> bool) a b : find p (a ++ b)%list = or_else (find p a) (find p b).
Proof. induction a as [|x a IH]; cbn [find app]; [reflexivity|]. destruct (p x); [reflexivity|exact IH]. Qed.
Lemma steps_comments ls : forall r, Forall plain ls -> r_section r = Comments ->
  foldM step r ls = Ok (with_command (or_else (command_of ls) (r_command r)) r).
Proof. induction ls as [|l ls IH]; intros r H S; [destruct r; reflexivity|]. inversion H as [|? ? Hl Hls]; subst. cbn [foldM]. rewrite plain_step by exact Hl. rewrite S. cbn [bind].
  rewrite IH; [|exact Hls|destruct (contains "scan" l || contains "mesh" l); [exact S|exact S]]. f_equal.
  unfold command_of. cbn [rev]. rewrite find_app. cbn [find].
  destruct (contains "scan" l || contains "mesh" l); destruct (find (fun l0 => contains "scan" l0 || contains "mesh" l0) (rev ls)); destruct r; reflexivity. Qed.

(** ** Stripping and splitting *)
Lemma lstrip_app p a c s : p c = false -> lstrip_by p (a ++ String c s) = lstrip_by p a ++ String c s.
Proof. intros H. induction a as [|d a IH]; cbn [append lstrip_by]; [rewrite H; reflexivity|]. destruct (p d); [exact IH|reflexivity]. Qed.
Lemma rstrip_app p a c s : p c = false -> rstrip_by p (a ++ String c s) = a ++ String c (rstrip_by p s).
Proof. intros H. induction a as [|d a IH]; cbn [append rstrip_by]; [rewrite H; destruct (rstrip_by p s); reflexivity|]. rewrite IH.
  destruct a; reflexivity. Qed.
Lemma lstrip_idem p s : lstrip_by p (lstrip_by p s) = lstrip_by p s.
Proof. induction s as [|c s IH]; cbn [lstrip_by]; [reflexivity|]. destruct (p c) eqn:E; [exact IH|]. cbn [lstrip_by]. rewrite E. reflexivity. Qed.
Lemma strip_lstrip s : strip (lstrip s) = strip s.
Proof. unfold strip, lstrip. rewrite lstrip_idem. reflexivity. Qed.
Lemma lstrip_no_char p c s : has_char c s = false -> has_char c (lstrip_by p s) = false.
Proof. induction s as [|d s IH]; cbn [lstrip_by has_char]; [reflexivity|]. intros H. apply orb_false_iff in H. destruct (p d); [apply IH, H|].
  cbn [has_char]. apply orb_false_iff. exact H. Qed.
Lemma rstrip_no_char p c s : has_char c s = false -> has_char c (rstrip_by p s) = false.
Proof. induction s as [|d s IH]; cbn [rstrip_by has_char]; [reflexivity|]. intros H. apply orb_false_iff in H. destruct H as [H1 H2].
  pose proof (IH H2) as K. destruct (rstrip_by p s); [destruct (p d); cbn [has_char]; [reflexivity|rewrite H1; reflexivity]|].
  cbn [has_char] in *. rewrite H1. exact K. Qed.
Lemma split_char_none c s : has_char c s = false -> split_char c s = [s].
Proof. induction s as [|d s IH]; cbn [split_char has_char]; [reflexivity|]. intros H. apply orb_false_iff in H. destruct H as [H1 H2].
  rewrite Ascii.eqb_sym, H1. rewrite IH by exact H2. reflexivity. Qed.
Lemma split_char_app c a b : has_char c a = false -> split_char c (a ++ String c b) = a :: split_char c b.
Proof. induction a as [|d a IH]; cbn [split_char has_char append]; [rewrite Ascii.eqb_refl; reflexivity|]. intros H. apply orb_false_iff in H. destruct H as [H1 H2].
  rewrite Ascii.eqb_sym, H1. rewrite IH by exact H2. reflexivity. Qed.
Lemma split_char_join c l : l <> [] -> Forall (fun t => has_char c t = false) l -> split_char c (join (String c "") l) = l.
Proof. induction l as [|t l IH]; [contradiction|]. intros _ H. inversion H as [|? ? Ht Hl]; subst. destruct l as [|u l].
  - apply split_char_none, Ht.
  - rewrite join_cons by discriminate. change (t ++ String c "" ++ join (String c "") (u :: l)) with (t ++ String c (join (String c "") (u :: l))).
    rewrite split_char_app by exact Ht. rewrite IH; [reflexivity|discriminate|exact Hl]. Qed.
Lemma join_no_char c sep l : has_char c sep = false -> Forall (fun t => has_char c t = false) l -> has_char c (join sep l) = false.
Proof. intros Hs. induction l as [|t l IH]; [reflexivity|]. intros H. inversion H as [|? ? Ht Hl]; subst. destruct l as [|u l]; [exact Ht|].
  rewrite join_cons by discriminate. rewrite !has_char_app, Ht, Hs, IH by exact Hl. reflexivity. Qed.
Lemma blank_no_char c s : blank s -> is_space c = false -> has_char c s = false.
Proof. unfold blank. induction s as [|d s IH]; cbn [str_forall has_char]; [reflexivity|]. intros H Hc. apply andb_true_iff in H. destruct H as [H1 H2].
  rewrite IH by assumption. destruct (Ascii.eqb_spec c d) as [-> |N]; [rewrite H1 in Hc; discriminate|reflexivity]. Qed.
Lemma solid_no_space s : str_forall (fun c => negb (is_space c)) s = true -> has_char " " s = false.
Proof. induction s as [|d s IH]; cbn [str_forall has_char]; [reflexivity|]. intros H. apply andb_true_iff in H. destruct H as [H1 H2].
  rewrite IH by exact H2. destruct (Ascii.eqb_spec " " d) as [<- |N]; [discriminate H1|reflexivity]. Qed.
Lemma lstrip_blank pre s : blank pre -> lstrip (pre ++ s) = lstrip s.
Proof. unfold blank, lstrip. induction pre as [|c p IH]; cbn [str_forall append lstrip_by]; [reflexivity|]. intros H. apply andb_true_iff in H. destruct H as [H1 H2].
  rewrite H1. apply IH, H2. Qed.
Lemma rstrip_blank s post : blank post -> rstrip (s ++ post) = rstrip s.
Proof. intros H. unfold rstrip. induction s as [|c s IH]; cbn [append rstrip_by]; [apply rstrip_by_nil, H|]. rewrite IH. reflexivity. Qed.
Lemma solid_lstrip w s : solid w -> lstrip (w ++ s) = w ++ s.
Proof. intros [N H]. destruct w as [|c w]; [contradiction|]. cbn [str_forall] in H. apply andb_true_iff in H. destruct H as [H _]. apply negb_true_iff in H.
  cbn [append]. unfold lstrip. cbn [lstrip_by]. rewrite H. reflexivity. Qed.
Lemma solid_rstrip s w : solid w -> rstrip (s ++ w) = s ++ w.
Proof. intros [N H]. assert (E : exists v c, w = v ++ String c "" /\ is_space c = false).
  { clear s. induction w as [|c w IH]; [contradiction|]. cbn [str_forall] in H. apply andb_true_iff in H. destruct H as [H1 H2]. apply negb_true_iff in H1.
    destruct w as [|d w]; [exists "", c; auto|]. destruct (IH ltac:(discriminate) H2) as (v & x & E & Hx). exists (String c v), x. rewrite E. auto. }
  destruct E as (v & c & -> & Hc). rewrite <- append_assoc. unfold rstrip. rewrite rstrip_app by exact Hc. reflexivity. Qed.
Lemma slice_brackets s : str_slice (String "[" (s ++ "]")) (Some 1%Z) (Some (-1)%Z) = s.
Proof. unfold str_slice.
  assert (E : list_ascii_of_string (String "[" (s ++ "]")) = ("["%char :: list_ascii_of_string s ++ ["]"%char])%list).
  { cbn [list_ascii_of_string]. f_equal. induction s as [|c s IH]; [reflexivity|]. cbn [append list_ascii_of_string app]. f_equal. exact IH. }
  rewrite E. transitivity (string_of_list_ascii (list_ascii_of_string s)); [f_equal|apply string_of_list_ascii_of_string].
  generalize (list_ascii_of_string s). intros l. unfold py_slice.
  assert (N : List.length ("["%char :: l ++ ["]"%char])%list = S (S (List.length l))) by (cbn [List.length]; rewrite app_length; cbn [List.length]; lia).
  rewrite N. replace (clamp_idx (S (S (List.length l))) 1) with 1%nat by (unfold clamp_idx; change (1 <? 0)%Z with false; cbv iota zeta; lia).
  replace (clamp_idx (S (S (List.length l))) (-1)) with (S (List.length l)) by (unfold clamp_idx; change (-1 <? 0)%Z with true; cbv iota zeta; lia).
  cbn [skipn]. replace (S (List.length l) - 1)%nat with (List.length l) by lia. rewrite firstn_app, Nat.sub_diag, firstn_all. cbn [firstn]. apply app_nil_r. Qed.
Lemma strip_equals left right : strip (left ++ "=" ++ right) = lstrip left ++ "=" ++ rstrip right.
Proof. unfold strip, lstrip, rstrip. change (left ++ "=" ++ right) with (left ++ String "=" right). rewrite lstrip_app by reflexivity. rewrite rstrip_app by reflexivity. reflexivity. Qed.
Lemma split_equals left right : has_char "=" left = false -> has_char "=" right = false ->
  split_char "=" (strip (left ++ "=" ++ right)) = [lstrip left; rstrip right].
Proof. intros H1 H2. rewrite strip_equals. change (lstrip left ++ "=" ++ rstrip right) with (lstrip left ++ String "=" (rstrip right)).
  rewrite split_char_app by (apply lstrip_no_char, H1). rewrite split_char_none by (apply rstrip_no_char, H2). reflexivity. Qed.
Lemma has_equals_app left right : left <> "" -> has_equals (left ++ "=" ++ right) = true.
Proof. intros H. destruct left as [|c left]; [contradiction|]. cbn [append has_equals]. rewrite has_char_app. cbn [has_char]. rewrite Ascii.eqb_refl. apply orb_true_r. Qed.

(** ** Parameter lines *)
Lemma param_motor l name x r : motor_line to_float l name x -> param_line to_float l r = set_motor name x r.
Proof. intros [left right y N H1 H2 Hx]. unfold param_line. rewrite has_equals_app by exact N. cbn [negb].
  rewrite split_equals by assumption. rewrite Hx. rewrite strip_lstrip. reflexivity. Qed.
Lemma param_other l r : has_char "=" l = false -> param_line to_float l r = r.
Proof. intros H. unfold param_line. replace (has_equals l) with false; [reflexivity|]. destruct l as [|c l]; [reflexivity|]. cbn [has_equals has_char] in *.
  apply orb_false_iff in H. symmetry. apply H. Qed.
Lemma lower_space s : has_char " " s = true -> has_char " " (lower s) = true.
Proof. unfold lower. induction s as [|c s IH]; cbn [has_char map_string]; [discriminate|]. intros H. apply orb_true_iff in H. destruct H as [H|H].
  - apply Ascii.eqb_eq in H. subst c. reflexivity.
  - rewrite IH by exact H. apply orb_true_r. Qed.
Lemma parse_cells texts nums : Forall2 (fun t x => to_float t = Some x) texts nums -> mapM (parse_cell to_float) texts = Ok nums.
Proof. induction 1 as [|t x ts xs H Hs IH]; [reflexivity|]. cbn [mapM]. unfold parse_cell at 1. rewrite H. cbn [bind]. rewrite IH. reflexivity. Qed.
Lemma param_rois l name nums r : roi_definition to_float l name nums ->
  param_line to_float l r = set_rois name (roi_groups (List.length nums) 1 nums) r.
Proof. intros [pre kind nm post gap texts tail xs Hpre Hkind Hname Hpost Hp Hk1 Hn1 Hroi Hgap Htail Ht Htexts Hnone Hnums].
  assert (SE : is_space "=" = false) by reflexivity.
  pose (left := pre ++ kind ++ " " ++ nm ++ post). pose (right := gap ++ "[" ++ join "," texts ++ "]" ++ tail).
  replace (pre ++ kind ++ " " ++ nm ++ post ++ "=" ++ gap ++ "[" ++ join "," texts ++ "]" ++ tail) with (left ++ "=" ++ right)
    by (unfold left, right; rewrite ?append_assoc; reflexivity).
  assert (L1 : lstrip left = kind ++ " " ++ nm ++ post) by (unfold left; rewrite lstrip_blank by exact Hpre; apply solid_lstrip, Hkind).
  assert (R1 : rstrip right = gap ++ "[" ++ join "," texts ++ "]").
  { unfold right. replace (gap ++ "[" ++ join "," texts ++ "]" ++ tail) with ((gap ++ "[" ++ join "," texts ++ "]") ++ tail) by (rewrite !append_assoc; reflexivity).
    rewrite rstrip_blank by exact Htail. replace (gap ++ "[" ++ join "," texts ++ "]") with ((gap ++ "[" ++ join "," texts) ++ "]") by (rewrite !append_assoc; reflexivity).
    apply solid_rstrip. split; [discriminate|reflexivity]. }
  assert (EL : has_char "=" left = false).
  { unfold left. rewrite !has_char_app, Hk1, Hn1, (blank_no_char "=" pre Hpre SE), (blank_no_char "=" post Hpost SE). reflexivity. }
  assert (ER : has_char "=" right = false).
  { unfold right. rewrite !has_char_app, (blank_no_char "=" gap Hgap SE), (blank_no_char "=" tail Htail SE).
    rewrite (join_no_char "=" "," texts); [reflexivity|reflexivity|]. eapply Forall_impl; [|exact Htexts]. intros t [_ H]; exact H. }
  assert (NL : left <> "").
  { intros E. rewrite E in L1. cbn in L1. destruct Hkind as [Hne _]. destruct kind; [contradiction|discriminate]. }
  unfold param_line. rewrite has_equals_app by exact NL. cbn [negb]. rewrite split_equals by assumption. rewrite L1, R1, Hnone.
  assert (K : strip (kind ++ " " ++ nm ++ post) = kind ++ " " ++ nm).
  { unfold strip. rewrite solid_lstrip by exact Hkind. replace (kind ++ " " ++ nm ++ post) with ((kind ++ " " ++ nm) ++ post) by (rewrite !append_assoc; reflexivity).
    rewrite rstrip_blank by exact Hpost. replace (kind ++ " " ++ nm) with ((kind ++ " ") ++ nm) by (rewrite !append_assoc; reflexivity). apply solid_rstrip, Hname. }
  assert (SP : has_char " " (lower (kind ++ " " ++ nm)) = true).
  { apply lower_space. rewrite has_char_app. change (has_char " " (" " ++ nm)) with true. apply orb_true_r. }
  rewrite K.
  destruct (String.eqb_spec (lower (kind ++ " " ++ nm)) "ubmatrix") as [E|_]; [rewrite E in SP; discriminate SP|].
  destruct (String.eqb_spec (lower (kind ++ " " ++ nm)) "signalcounter") as [E|_]; [rewrite E in SP; discriminate SP|].
  replace (contains "roi" (kind ++ " " ++ nm)) with true.
  2: { symmetry. change (kind ++ " " ++ nm) with (kind ++ String " " nm). rewrite contains_sep by (reflexivity || discriminate). apply orb_true_iff. exact Hroi. }
  unfold roi_line.
  replace (strip (gap ++ "[" ++ join "," texts ++ "]")) with (String "[" (join "," texts ++ "]")).
  2: { unfold strip. rewrite lstrip_blank by exact Hgap. change ("[" ++ join "," texts ++ "]") with (String "[" (join "," texts ++ "]")).
       symmetry. unfold lstrip. cbn [lstrip_by]. change (is_space "[") with false. cbv iota.
       change (String "[" (join "," texts ++ "]")) with ((String "[" (join "," texts)) ++ "]"). apply solid_rstrip. split; [discriminate|reflexivity]. }
  rewrite slice_brackets. change (join ",") with (join (String "," "")). rewrite split_char_join; [|exact Ht|eapply Forall_impl; [|exact Htexts]; intros t [H _]; exact H].
  rewrite (parse_cells _ _ Hnums). cbn [bind].
  change (kind ++ " " ++ nm ++ post) with (kind ++ String " " (nm ++ post)).
  destruct Hkind as [Hkne Hkind]. rewrite split_char_app by (apply solid_no_space, Hkind).
  destruct Hname as [Hnne Hname].
  assert (G : exists more, split_char " " (nm ++ post) = nm :: more).
  { destruct Hp as [-> | [q ->]].
    - rewrite append_nil_r, split_char_none by (apply solid_no_space, Hname). eauto.
    - rewrite split_char_app by (apply solid_no_space, Hname). eauto. }
  destruct G as [more G]. rewrite G. change 1%Z with (Z.of_nat 1). rewrite (py_get_nat (kind :: nm :: more) 1 (x := nm) eq_refl). cbn [bind].
  rewrite (strip_id nm Hname). reflexivity. Qed.
Definition with_params (ms : list (string * fl)) (rs : list (string * list fl)) (r : reader) : reader :=
  mkReader (set_list String.eqb (r_motors r) ms) (r_section r) (r_columns r) (r_names r) (r_command r) (r_ubmatrix r) (r_signal r)
           (set_list String.eqb (r_rois r) (map (fun nr => (fst nr, roi_groups (List.length (snd nr)) 1 (snd nr))) rs)) (r_data r).
Lemma steps_params ls ms rs : param_block to_float ls ms rs -> forall r, Forall plain ls -> r_section r = Params -> foldM step r ls = Ok (with_params ms rs r).
Proof. induction 1 as [|l ls name x ms rs H B IH|l ls name nums ms rs H B IH|l ls ms rs H B IH]; intros r P S; [destruct r; reflexivity| | |]; inversion P as [|? ? Hl Hls]; subst;
    cbn [foldM]; rewrite plain_step by exact Hl; rewrite S; cbn [bind].
  - rewrite (param_motor _ _ _ _ H). rewrite IH; [reflexivity|exact Hls|exact S].
  - rewrite (param_rois _ _ _ _ H). rewrite IH; [reflexivity|exact Hls|exact S].
  - rewrite (param_other _ _ H). apply IH; assumption. Qed.
Lemma roi_groups_spec nums : forall fuel cnt, (List.length nums <= fuel)%nat -> exists gs, groups_of_four nums gs /\ map snd (roi_groups fuel cnt nums) = gs /\
  forall k name, nth_error (map fst (roi_groups fuel cnt nums)) k = Some name -> name = "roi" ++ dec (cnt + N.of_nat k).
Proof. intros fuel. revert nums. induction fuel as [|fuel IH]; intros nums cnt H.
  - destruct nums; [|cbn in H; lia]. exists []. split; [constructor|]. split; [reflexivity|]. intros [|k] name E; discriminate E.
  - destruct nums as [|x nums]; [exists []; split; [constructor|]; split; [reflexivity|]; intros [|k] name E; discriminate E|].
    assert (Ls : (List.length (skipn 4 (x :: nums)) <= fuel)%nat) by (rewrite skipn_length; cbn [List.length] in *; lia).
    destruct (IH (skipn 4 (x :: nums)) (cnt + 1)%N Ls) as (gs & G & E & K).
    set (l := x :: nums) in *. assert (Nl : (0 < List.length l)%nat) by (cbn; lia).
    assert (U : roi_groups (S fuel) cnt l = ("roi" ++ decimal cnt, firstn 4 l) :: roi_groups fuel (cnt + 1) (skipn 4 l)) by reflexivity.
    rewrite U. clearbody l. exists (firstn 4 l :: gs). split; [|split].
    + destruct (le_lt_dec (List.length l) 4) as [Hs|Hb].
      * rewrite firstn_all2 by lia. rewrite skipn_all2 in G by lia. inversion G; subst.
        -- constructor. lia.
        -- cbn in *. lia.
        -- destruct g; [cbn in *; lia|discriminate].
      * rewrite <- (firstn_skipn 4 l) at 1. constructor; [apply firstn_length_le; lia|exact G].
    + cbn [map snd]. rewrite E. reflexivity.
    + intros [|k] name J; cbn [map fst nth_error] in J.
      * injection J as <-. rewrite N.add_0_r. reflexivity.
      * rewrite (K k name J). f_equal. f_equal. lia. Qed.

(** ** Columns and data lines *)
Definition with_names (ns : list string) (r : reader) : reader :=
  mkReader (r_motors r) (r_section r) (r_columns r) ns (r_command r) (r_ubmatrix r) (r_signal r) (r_rois r) (r_data r).
Lemma steps_columns ls names : Forall2 column_line ls names -> forall r, Forall plain ls -> r_section r = Data -> r_columns r = false ->
  foldM step r ls = Ok (with_names (r_names r ++ names) r).
Proof. induction 1 as [|l n ls names [Hc (a & b & more & W)] H IH]; intros r P S C; [rewrite app_nil_r; destruct r; reflexivity|].
  inversion P as [|? ? Hl Hls]; subst. cbn [foldM]. rewrite plain_step by exact Hl. rewrite S, C, Hc. cbn [andb negb].
  rewrite (split_ws_words _ _ W). change 2%Z with (Z.of_nat 2). rewrite (py_get_nat (a :: b :: n :: more) 2 (x := n) eq_refl). cbn [bind].
  rewrite IH; [|exact Hls|exact S|exact C]. unfold with_names, add_name. cbn [r_motors r_section r_columns r_names r_command r_ubmatrix r_signal r_rois r_data].
  rewrite <- app_assoc. reflexivity. Qed.
Lemma steps_more ls : forall r done, Forall plain ls -> r_section r = Data -> r_columns r = true -> NoDup (r_names r) -> r_data r = table_data (r_names r) 0 done ->
  foldM step r ls = Ok (set_data true (table_data (r_names r) 0 (done ++ map split_ws ls)) r).
Proof. induction ls as [|l ls IH]; intros r done P S C N D; [rewrite app_nil_r, <- D, <- C; destruct r; reflexivity|].
  inversion P as [|? ? Hl Hls]; subst. cbn [foldM]. rewrite plain_step by exact Hl. rewrite S, C. cbn [andb negb]. rewrite D, next_row_table by exact N. cbn [bind].
  rewrite (IH _ (done ++ [split_ws l])%list); [|exact Hls|exact S|reflexivity|exact N|reflexivity]. cbn [map set_data r_names]. rewrite <- app_assoc. reflexivity. Qed.
Lemma steps_rows ls r : Forall plain ls -> r_section r = Data -> r_columns r = false -> r_data r = [] -> NoDup (r_names r) -> r_names r <> [] ->
  match ls with [] => True | l :: _ => contains "Col " l = false end ->
  foldM step r ls = Ok (match ls with [] => r | _ => set_data true (table_data (r_names r) 0 (map split_ws ls)) r end).
Proof. intros P S C D N E F. destruct ls as [|l ls]; [reflexivity|]. inversion P as [|? ? Hl Hls]; subst. cbn [foldM]. rewrite plain_step by exact Hl.
  rewrite S, C, F, D. cbn [andb negb]. rewrite first_row_table by exact N.
  replace (match r_names r with [] => Ok r | _ :: _ => Ok (set_data true (table_data (r_names r) 0 [split_ws l]) r) end) with (Ok (set_data true (table_data (r_names r) 0 [split_ws l]) r))
    by (destruct (r_names r); [contradiction|reflexivity]).
  cbn [bind]. rewrite (steps_more ls _ [split_ws l]); [reflexivity|exact Hls|exact S|reflexivity|exact N|reflexivity]. Qed.

(** ** The whole file *)
Definition file_state (comments : list string) ms rs names (rows : list string) : reader :=
  mkReader (set_list String.eqb [] ms) Data (match rows with [] => false | _ => true end) names (command_of comments) None None
    (set_list String.eqb [] (map (fun nr => (fst nr, roi_groups (List.length (snd nr)) 1 (snd nr))) rs))
    (match rows with [] => [] | _ => table_data names 0 (map split_ws rows) end).
Lemma read_layout file before comments params columns rows names ms rs :
  fio_layout file before comments params columns rows -> table_layout columns rows names -> param_block to_float params ms rs ->
  read false file = Ok (file_state comments ms rs names rows).
Proof. intros (c & p & d & E & Hc & [Hp1 Hp2] & (Hd1 & Hd2 & Hd3) & Pb & Pc & Pp & Pco & Pr) (T1 & T2 & T3 & T4) B.
  rewrite read_step, foldM_significant, E. rewrite foldM_app, steps_before by (assumption || reflexivity). cbn [bind].
  cbn [foldM]. unfold step at 1, Fio_Model.read_line. rewrite Hc. cbn [bind].
  rewrite foldM_app. rewrite steps_comments by (assumption || reflexivity). cbn [bind foldM]. unfold step at 1, Fio_Model.read_line. rewrite Hp1, Hp2. cbn [bind].
  rewrite foldM_app. rewrite (steps_params _ _ _ B) by (assumption || reflexivity). cbn [bind foldM]. unfold step at 1, Fio_Model.read_line. rewrite Hd1, Hd2, Hd3. cbn [bind].
  rewrite foldM_app. rewrite (steps_columns _ _ T1) by (assumption || reflexivity). cbn [bind].
  rewrite steps_rows; [|exact Pr|reflexivity|reflexivity|reflexivity|exact T3|exact T2|exact T4].
  unfold file_state. destruct (command_of comments); destruct rows; reflexivity. Qed.
Lemma cell_reads line j : reads_as to_float line j (cell (split_ws line) j).
Proof. pose proof (words_of_split line) as W. unfold Fio_Model.cell. destruct (nth_error (split_ws line) j) as [w|] eqn:E.
  - destruct (to_float w) eqn:F; [apply (reads_number _ _ _ _ w _ W E F)|apply (reads_unreadable _ _ _ _ w W E F)].
  - apply (reads_missing _ _ _ _ W E). Qed.
Lemma table_data_nth names rows name col : In (name, col) (table_data names 0 rows) ->
  exists j, nth_error names j = Some name /\ col = map (fun ws => cell ws j) rows.
Proof. unfold table_data. intros H. apply in_map_iff in H. destruct H as ([n j] & E & H). cbn [fst snd] in E. injection E as <- <-. exists j. split; [|reflexivity].
  assert (G : forall l k, In (n, j) (combine l (seq k (List.length l))) -> exists i, j = (k + i)%nat /\ nth_error l i = Some n).
  { induction l as [|x l IH]; intros k J; [destruct J|]. cbn [List.length seq combine In] in J. destruct J as [J|J].
    - injection J as -> ->. exists 0%nat. split; [lia|reflexivity].
    - destruct (IH _ J) as (i & -> & K). exists (S i). split; [lia|exact K]. }
  destruct (G _ _ H) as (i & -> & K). exact K. Qed.
Lemma table_data_get names rows j name : NoDup names -> nth_error names j = Some name ->
  dict_get String.eqb (table_data names 0 rows) name = Some (map (fun ws => cell ws j) rows).
Proof. intros N H. apply dict_get_pair; [rewrite table_data_keys; exact N|].
  unfold table_data. apply in_map_iff. exists (name, j). split; [reflexivity|].
  assert (G : forall l k i, nth_error l i = Some name -> In (name, (k + i)%nat) (combine l (seq k (List.length l)))).
  { induction l as [|x l IH]; intros k [|i] J; try discriminate J; cbn [List.length seq combine In].
    - left. injection J as ->. f_equal. lia.
    - right. replace (k + S i)%nat with (S k + i)%nat by lia. apply IH, J. }
  exact (G names 0%nat j H). Qed.

(** Cells of a file with the usual layout *)
Lemma layout_cells file before comments params columns rows names ms rs :
  fio_layout file before comments params columns rows -> table_layout columns rows names -> param_block to_float params ms rs -> rows <> [] ->
  exists r, read false file = Ok r /\ map fst (r_data r) = names /\
    forall j name, nth_error names j = Some name -> exists col, dict_get String.eqb (r_data r) name = Some col /\ Forall2 (fun line x => reads_as to_float line j x) rows col.
Proof. intros L T B R. eexists. split; [exact (read_layout _ _ _ _ _ _ _ _ _ L T B)|]. destruct T as (_ & _ & N & _).
  replace (r_data (file_state comments ms rs names rows)) with (table_data names 0 (map split_ws rows)) by (destruct rows; [contradiction|reflexivity]).
  split; [apply table_data_keys|]. intros j name H. exists (map (fun ws => cell ws j) (map split_ws rows)). split; [apply table_data_get; assumption|].
  rewrite map_map. clear. induction rows as [|l rows IH]; constructor; [apply cell_reads|exact IH]. Qed.
Lemma reads_number_line line row j x : number_line to_float line row -> nth_error row j = Some x -> cell (split_ws line) j = x.
Proof. intros (ws & W & F) H. rewrite (split_ws_words _ _ W). unfold Fio_Model.cell.
  assert (G : exists w, nth_error ws j = Some w /\ to_float w = Some x).
  { revert j H. induction F as [|w y ws row E F IH]; intros [|j] H; try discriminate H; [injection H as <-; exists w; auto|]. apply (IH (words_of_split (join " " ws)) j H) || idtac.
    cbn [nth_error]. clear W. revert IH. intros IH. cbn [nth_error] in H.
    assert (K : forall ws row, Forall2 (fun w x => to_float w = Some x) ws row -> forall j, nth_error row j = Some x -> exists w, nth_error ws j = Some w /\ to_float w = Some x).
    { clear. induction 1 as [|w y ws row E F IH]; intros [|j] H; try discriminate H; [injection H as <-; exists w; auto|exact (IH j H)]. }
    exact (K _ _ F j H). }
  destruct G as (w & -> & G). rewrite G. reflexivity. Qed.
Lemma round_trip file before comments params columns lines names ms rs rows :
  fio_layout file before comments params columns lines -> table_layout columns lines names -> param_block to_float params ms rs ->
  NoDup (map fst ms) -> NoDup (map fst rs) ->
  Forall2 (number_line to_float) lines rows -> Forall (fun row => List.length row = List.length names) rows -> rows <> [] ->
  exists r, read false file = Ok r /\ r_motors r = ms /\ r_names r = names /\ r_command r = command_of comments /\
    r_ubmatrix r = None /\ r_signal r = None /\
    Forall2 (fun nr kg => fst kg = fst nr /\ exists gs, groups_of_four (snd nr) gs /\ numbered gs (snd kg)) rs (r_rois r) /\
    r_data r = map (fun nj => (fst nj, column (snd nj) rows)) (combine names (seq 0 (List.length names))).
Proof. intros L T B Nm Nr F W R. eexists. split; [exact (read_layout _ _ _ _ _ _ _ _ _ L T B)|]. unfold file_state.
  cbn [r_motors r_names r_command r_ubmatrix r_signal r_rois r_data]. repeat (split; [first [reflexivity | apply (set_list_distinct String.eqb String.eqb_eq); exact Nm]|]). split.
  - rewrite (set_list_distinct String.eqb String.eqb_eq).
    2: { cbn [map app]. rewrite map_map. cbn [fst]. exact Nr. }
    cbn [app]. clear - to_float. induction rs as [|[n nums] rs IH]; [constructor|]. cbn [map]. constructor; [|exact IH]. cbn [fst snd]. split; [reflexivity|].
    destruct (roi_groups_spec nums (List.length nums) 1%N (le_n _)) as (gs & G & E & K). exists gs. split; [exact G|]. split; [exact E|]. intros k name H. rewrite (K k name H).
    f_equal. f_equal. lia.
  - destruct lines as [|l0 lines0] eqn:El; [inversion F; subst; contradiction|]. rewrite <- El in *. clear El.
    unfold table_data. apply map_ext_in. intros [n j] H. cbn [fst snd]. f_equal. apply in_combine_r in H. apply in_seq in H.
    rewrite map_map. unfold column. clear L. revert W. clear -F H. induction F as [|l row lines rows E F IH]; intros W; [reflexivity|]. inversion W as [|? ? W1 W2]; subst.
    cbn [map]. f_equal; [|exact (IH W2)]. destruct (nth_error row j) as [x|] eqn:G.
    + rewrite (reads_number_line _ _ _ _ E G). symmetry. apply nth_error_nth, G.
    + apply nth_error_None in G. lia. Qed.
End Reader.
