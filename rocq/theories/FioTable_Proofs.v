(** Lemmas about FIO tables with repeated column names. *)
From Coq Require Import Reals Lra.
From Verif Require Import Py Str Arr Footprint_Model Spec_Model Fio_Model Scan_Proofs SpecFile_Spec FioFile_Spec FioHeader_Spec Spec_Proofs SpecLoader_Proofs Fio_Proofs.
Local Open Scope string_scope.

Section Tables.
Variable to_float : string -> option fl.
Lemma set_present {V} (d : list (string * V)) k v : In k (map fst d) -> map fst (dict_set String.eqb d k v) = map fst d.
Proof. induction d as [|[x y] d IH]; cbn [map fst In dict_set]; [intros []|]. intros H. destruct (String.eqb_spec x k) as [->|N]; [reflexivity|]. cbn [map fst]. f_equal. apply IH. destruct H; [contradiction|assumption]. Qed.
Lemma keys_combine (names : list string) k : map fst (combine names (seq k (List.length names))) = names.
Proof. revert k. induction names as [|n names IH]; intros k; [reflexivity|]. cbn [List.length seq combine map fst]. f_equal. apply IH. Qed.
Lemma often_cons n k l : often k (n :: l) = ((if String.eqb n k then 1 else 0) + often k l)%nat.
Proof. unfold often. cbn [filter]. destruct (String.eqb_spec k n) as [->|N]; [rewrite String.eqb_refl; reflexivity|]. destruct (String.eqb_spec n k); [congruence|reflexivity]. Qed.
Lemma append_rows ws l : forall d, incl (map fst l) (map fst d) -> exists d', foldM (fun d '(name, idx) =>
           match dict_get String.eqb d name with
           | Some col => Ok (dict_set String.eqb d name (col ++ [cell to_float ws idx])%list)
           | None => Raise KeyError
           end) d l = Ok d' /\ map fst d' = map fst d /\
    forall k col, dict_get String.eqb d k = Some col -> exists col', dict_get String.eqb d' k = Some col' /\ List.length col' = (List.length col + often k (map fst l))%nat.
Proof. induction l as [|[n j] l IH]; intros d H; cbn [foldM].
  - exists d. split; [reflexivity|]. split; [reflexivity|]. intros k col E. exists col. split; [exact E|]. cbn. lia.
  - destruct (dict_get_In d n) as [v Hv]; [apply H; left; reflexivity|]. rewrite Hv. cbn [bind].
    pose proof (set_present d n (v ++ [cell to_float ws j])%list (H n (or_introl eq_refl))) as Kd.
    destruct (IH (dict_set String.eqb d n (v ++ [cell to_float ws j])%list)) as (d' & Hd & Hk & Hl).
    { rewrite Kd. intros k Hk. apply H. right. exact Hk. }
    exists d'. split; [exact Hd|]. split; [congruence|]. intros k col E. cbn [map fst]. rewrite often_cons. destruct (String.eqb_spec n k) as [->|N].
    + destruct (Hl k (v ++ [cell to_float ws j])%list) as (col' & E' & L'); [rewrite (dict_get_set String.eqb String.eqb_eq), String.eqb_refl; reflexivity|].
      exists col'. split; [exact E'|]. rewrite L', app_length. assert (v = col) by congruence. subst v. cbn [List.length]. lia.
    + destruct (Hl k col) as (col' & E' & L'); [rewrite (dict_get_set String.eqb String.eqb_eq); destruct (String.eqb_spec n k); [contradiction|exact E]|].
      exists col'. split; [exact E'|]. lia. Qed.
Lemma first_rows ws l : forall d : list (string * list fl), NoDup (map fst d) -> (forall k col, dict_get String.eqb d k = Some col -> List.length col = 1%nat) ->
  let d' := fold_left (fun d '(name, idx) => dict_set String.eqb d name [cell to_float ws idx]) l d in
  NoDup (map fst d') /\ (forall k, In k (map fst d') <-> In k (map fst l) \/ In k (map fst d)) /\ (forall k col, dict_get String.eqb d' k = Some col -> List.length col = 1%nat).
Proof. induction l as [|[n j] l IH]; intros d N L; cbn [fold_left]; [split; [exact N|]; split; [intros k; cbn; tauto|exact L]|].
  destruct (IH (dict_set String.eqb d n [cell to_float ws j])) as (N' & K' & L').
  - apply (dict_set_NoDup String.eqb String.eqb_eq), N.
  - intros k col. rewrite (dict_get_set String.eqb String.eqb_eq). destruct (String.eqb n k); [intros E; injection E as <-; reflexivity|apply L].
  - split; [exact N'|]. split; [|exact L']. intros k. rewrite K', (dict_set_keys String.eqb String.eqb_eq). cbn [map fst In]. intuition congruence. Qed.

Definition counted (r : reader) : Prop :=
  if r_columns r then NoDup (map fst (r_data r)) /\ (forall k, In k (map fst (r_data r)) <-> In k (r_names r)) /\
    exists n, forall k col, dict_get String.eqb (r_data r) k = Some col -> List.length col = (1 + n * often k (r_names r))%nat
  else r_data r = [].
Lemma step_counted r l r' : counted r -> step to_float r l = Ok r' -> counted r'.
Proof. intros H. unfold step, read_line.
  destruct (contains "%c" l); [intros E; injection E as <-; exact H|]. destruct (contains "%p" l); [intros E; injection E as <-; exact H|]. destruct (contains "%d" l); [intros E; injection E as <-; exact H|].
  destruct (contains "!" l); [intros E; injection E as <-; exact H|].
  assert (next : r_columns r = true -> (o <- (d <- next_row to_float (r_names r) (split_ws l) (r_data r);; Ok (Some (set_data true d r)));; Ok (match o with Some r' => r' | None => r end)) = Ok r' -> counted r').
  { intros C. unfold counted in H. rewrite C in H. destruct H as (N & K & n & L).
    destruct (append_rows (split_ws l) (combine (r_names r) (seq 0 (List.length (r_names r)))) (r_data r)) as (d' & Ed & Ek & El).
    { rewrite keys_combine. intros k Hk. apply K, Hk. }
    unfold next_row. rewrite Ed. cbn [bind]. intros E. injection E as <-. unfold counted. cbn [set_data r_columns r_names r_data]. rewrite Ek. split; [exact N|]. split; [exact K|].
    exists (S n). intros k col Hc. assert (Ik : In k (map fst (r_data r))) by (rewrite <- Ek; apply dict_get_some_In in Hc; apply (in_map fst) in Hc; exact Hc).
    destruct (dict_get_In _ _ Ik) as (c0 & Hc0). destruct (El k c0 Hc0) as (c1 & Hc1 & Lc1). assert (c1 = col) by congruence. subst c1. rewrite keys_combine in Lc1. rewrite Lc1, (L k c0 Hc0). lia. }
  destruct (r_section r) eqn:S.
  - cbn [andb]. destruct (r_columns r) eqn:C; [exact (next eq_refl)|]. intros E. injection E as <-. exact H.
  - cbn [bind]. intros E. injection E as <-. destruct (contains "scan" l || contains "mesh" l); exact H.
  - cbn [bind]. intros E. injection E as <-. unfold counted. destruct (param_line_other to_float l r) as (E1 & E2 & E3 & _). rewrite E1, E2, E3. exact H.
  - cbn [andb]. destruct (r_columns r) eqn:C; cbn [negb]; [exact (next eq_refl)|]. destruct (contains "Col " l).
    + destruct (py_get (split_ws l) 2) as [nm|]; cbn [bind]; [|discriminate]. intros E. injection E as <-. unfold counted in *. cbn [add_name r_columns r_data]. rewrite C in *. exact H.
    + destruct (r_names r) as [|nm ns] eqn:N; cbn [bind]; intros E; injection E as <-; [exact H|]. unfold counted in *. cbn [set_data r_columns r_names r_data]. rewrite C in H. rewrite H, N.
      unfold first_row. destruct (first_rows (split_ws l) (combine (nm :: ns) (seq 0 (List.length (nm :: ns)))) [] (NoDup_nil _)) as (N' & K' & L'); [intros k col E; discriminate E|].
      split; [exact N'|]. split; [intros k; rewrite K', keys_combine; cbn [map In]; tauto|]. exists 0%nat. intros k col E. rewrite (L' k col E). reflexivity. Qed.
Lemma read_counted file r : read to_float false file = Ok r -> counted r.
Proof. rewrite read_step. assert (G : forall l r0, counted r0 -> foldM (step to_float) r0 l = Ok r -> counted r).
  { induction l as [|x l IH]; intros r0 H E; cbn [foldM] in E; [injection E as <-; exact H|]. destruct (step to_float r0 x) as [r1|] eqn:E1; cbn [bind] in E; [|discriminate]. exact (IH r1 (step_counted _ _ _ H E1) E). }
  apply G. reflexivity. Qed.
Lemma column_lengths file r : read to_float false file = Ok r -> r_data r = [] \/
  NoDup (map fst (r_data r)) /\ (forall k, In k (map fst (r_data r)) <-> In k (r_names r)) /\
  exists n, forall k col, dict_get String.eqb (r_data r) k = Some col -> List.length col = (1 + n * often k (r_names r))%nat.
Proof. intros E. pose proof (read_counted file r E) as H. unfold counted in H. destruct (r_columns r); [right|left]; exact H. Qed.

(** ** [parse_fio] *)
Lemma parse_ok fs p k r : parse_fio to_float fs p k = Ok r <-> read_fio to_float fs (scan_path p k) = Ok r /\
  forall a b c d, dict_get String.eqb (r_data r) a = Some c -> dict_get String.eqb (r_data r) b = Some d -> List.length c = List.length d.
Proof. unfold parse_fio. destruct (read_fio to_float fs (scan_path p k)) as [r0|] eqn:E; cbn [bind]; [|split; [discriminate|intros [H _]; discriminate]].
  assert (R : exists file, read to_float false file = Ok r0) by (unfold read_fio in E; destruct (dict_get String.eqb fs (scan_path p k)) as [file|]; [exists file; exact E|discriminate]).
  destruct R as (file & R). assert (N : NoDup (map fst (r_data r0))) by (destruct (column_lengths file r0 R) as [->|(N & _)]; [constructor|exact N]).
  split.
  - intros H. assert (r0 = r) by (clear -H; destruct (map _ (r_data r0)); [congruence|destruct (forallb _ _); congruence]). subst r0. split; [reflexivity|].
    assert (G : exists n, forall kv, In kv (r_data r) -> List.length (snd kv) = n).
    { destruct (r_data r) as [|kv l]; [exists 0%nat; intros kv []|]. cbn [map] in H. destruct (forallb _ _) eqn:F; [|discriminate]. rewrite forallb_forall in F. exists (List.length (snd kv)).
      intros kv' [<- |I]; [reflexivity|]. symmetry. apply Nat.eqb_eq, F, in_map_iff. exists kv'. split; [reflexivity|exact I]. }
    destruct G as (n & G). intros a b c d Ha Hb. apply dict_get_some_In in Ha, Hb. apply G in Ha, Hb. cbn [snd] in Ha, Hb. congruence.
  - intros (H & L). injection H as ->. destruct (r_data r) as [|[a c] l] eqn:D; [reflexivity|]. cbn [map snd]. replace (forallb _ _) with true; [reflexivity|]. symmetry. apply forallb_forall.
    intros n Hn. apply in_map_iff in Hn as ([b d] & <- & I). cbn [snd]. apply Nat.eqb_eq. apply (L a b c d); [cbn [dict_get]; rewrite String.eqb_refl; reflexivity|].
    apply dict_get_pair; [exact N|]. right. exact I. Qed.
Lemma parse_error fs p k e : parse_fio to_float fs p k = Raise e -> read_fio to_float fs (scan_path p k) = Raise e \/ e = ValueError.
Proof. unfold parse_fio. destruct (read_fio to_float fs (scan_path p k)) as [r0|]; cbn [bind]; [|intros H; left; exact H]. destruct (map _ _); [discriminate|]. destruct (forallb _ _); [discriminate|]. intros H. right. congruence. Qed.
Lemma read_fio_read fs path r : read_fio to_float fs path = Ok r -> exists file, dict_get String.eqb fs path = Some file /\ read to_float false file = Ok r.
Proof. unfold read_fio. destruct (dict_get String.eqb fs path) as [file|]; [|discriminate]. intros H. exists file. split; [reflexivity|exact H]. Qed.
Lemma parse_equal fs p k r : read_fio to_float fs (scan_path p k) = Ok r ->
  (forall a b, In a (r_names r) -> In b (r_names r) -> often a (r_names r) = often b (r_names r)) -> parse_fio to_float fs p k = Ok r.
Proof. intros E H. apply parse_ok. split; [exact E|]. destruct (read_fio_read _ _ _ E) as (file & _ & R). destruct (column_lengths file r R) as [D|(N & K & n & L)].
  - rewrite D. intros a b c d Ha. discriminate Ha.
  - intros a b c d Ha Hb. rewrite (L a c Ha), (L b d Hb). rewrite (H a b); [reflexivity|apply K|apply K].
    + apply dict_get_some_In in Ha. exact (in_map fst _ _ Ha).
    + apply dict_get_some_In in Hb. exact (in_map fst _ _ Hb). Qed.
Lemma parse_repeated fs p k r a b c : read_fio to_float fs (scan_path p k) = Ok r -> In a (r_names r) -> In b (r_names r) -> often a (r_names r) <> often b (r_names r) ->
  dict_get String.eqb (r_data r) a = Some c -> (1 < List.length c)%nat -> parse_fio to_float fs p k = Raise ValueError.
Proof. intros E Ia Ib Ne Hc Hl. destruct (parse_fio to_float fs p k) as [r'|e] eqn:P.
  - exfalso. apply parse_ok in P as (E' & L). assert (r' = r) by congruence. subst r'. destruct (read_fio_read _ _ _ E) as (file & _ & R).
    destruct (column_lengths file r R) as [D|(N & K & n & Ln)]; [rewrite D in Hc; discriminate|].
    destruct (dict_get_In (r_data r) b) as (d & Hd); [apply K, Ib|]. pose proof (L a b c d Hc Hd) as Q. rewrite (Ln a c Hc), (Ln b d Hd) in Q. rewrite (Ln a c Hc) in Hl. nia.
  - destruct (parse_error _ _ _ _ P) as [E'| ->]; [congruence|reflexivity]. Qed.
Lemma often_distinct l a : NoDup l -> In a l -> often a l = 1%nat.
Proof. induction 1 as [|x l Nx N IH]; [intros []|]. intros H. rewrite often_cons. destruct (String.eqb_spec x a) as [->|D].
  - replace (often a l) with 0%nat; [reflexivity|]. unfold often. clear -Nx. induction l as [|y l IH]; [reflexivity|]. cbn [filter]. destruct (String.eqb_spec a y) as [->|]; [exfalso; apply Nx; left; reflexivity|]. apply IH. intros J. apply Nx. right. exact J.
  - cbn [Nat.add]. apply IH. destruct H; [congruence|assumption]. Qed.
Lemma parse_distinct fs p k r : read_fio to_float fs (scan_path p k) = Ok r -> NoDup (r_names r) -> parse_fio to_float fs p k = Ok r.
Proof. intros E N. apply parse_equal; [exact E|]. intros a b Ha Hb. rewrite !often_distinct by assumption. reflexivity. Qed.
End Tables.
