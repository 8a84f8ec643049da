(** Lemmas about scans with detector pictures. *)
From Coq Require Import Reals Lra Sorted.
From Flocq Require Import Core.Raux.
From Verif Require Import Py Str Arr Footprint_Model Scan_Model Spec_Model Fio_Model P08_Model Footprint_Proofs Scan_Proofs
  SpecFile_Spec FioFile_Spec P08_Spec P08Scan_Spec Spec_Proofs SpecLoader_Proofs Fio_Proofs.
Local Open Scope R_scope.
Local Open Scope string_scope.

(** ** Removing repeated points *)
Lemma feqb_iff a b : feqb a b = true <-> exists x, a = Some x /\ b = Some x.
Proof. unfold feqb. destruct a as [x|], b as [y|]; try (split; [discriminate|intros (z & H1 & H2); congruence]).
  destruct (Req_EM_T x y) as [-> |N]; split; try (discriminate || eauto). intros (z & H1 & H2). congruence. Qed.
Lemma same_iff x y : feqb (fabs (fsub y x)) (Some 0) = true <-> exists r, x = Some r /\ y = Some r.
Proof. rewrite feqb_iff. unfold fabs, fsub, lift2. destruct x as [x|], y as [y|]; cbn [option_map]; (split; [intros (r & H1 & H2)|intros (r & H1 & H2)]); try discriminate.
  - injection H1 as H1. injection H2 as <-. destruct (Req_dec y x) as [-> |N]; [eauto|]. exfalso. assert (K : y - x <> 0) by lra. apply Rabs_no_R0 in K. lra.
  - injection H1 as ->. injection H2 as ->. exists 0. split; [f_equal; replace (r - r) with 0 by ring; apply Rabs_R0|reflexivity]. Qed.
Lemma repeated_iff pos : forall i k, In k (repeated_from i pos) <-> exists j, k = (i + j)%nat /\ followed_by_same pos j.
Proof. unfold followed_by_same. induction pos as [|x pos IH]; intros i k; [cbn; split; [intros []|intros ([|j] & _ & y & H & _); discriminate]|].
  destruct pos as [|y pos]; [cbn; split; [intros []|intros (j & _ & z & H1 & H2); destruct j as [|[|j]]; discriminate]|].
  change (repeated_from i (x :: y :: pos)) with (if feqb (fabs (fsub y x)) (Some 0) then i :: repeated_from (S i) (y :: pos) else repeated_from (S i) (y :: pos)).
  assert (T : (exists j, k = (i + S j)%nat /\ exists r, nth_error (y :: pos) j = Some (Some r) /\ nth_error (y :: pos) (S j) = Some (Some r)) <-> In k (repeated_from (S i) (y :: pos))).
  { rewrite IH. split; intros (j & -> & H); exists j; (split; [lia|exact H]). }
  destruct (feqb (fabs (fsub y x)) (Some 0)) eqn:E.
  - apply same_iff in E. destruct E as (r & -> & ->). cbn [In]. rewrite <- T. split.
    + intros [<- |(j & -> & H)]; [exists 0%nat; split; [lia|exists r; auto]|exists (S j); auto].
    + intros ([|j] & -> & H); [left; lia|right; exists j; auto].
  - rewrite <- T. split.
    + intros (j & -> & H). exists (S j). auto.
    + intros ([|j] & -> & H); [|exists j; auto]. destruct H as (r & H1 & H2). cbn in H1, H2. injection H1 as ->. injection H2 as ->.
      assert (K : feqb (fabs (fsub (Some r) (Some r))) (Some 0) = true) by (apply same_iff; eauto). rewrite K in E. discriminate. Qed.
Definition kept (idxes : list nat) (n : nat) : list nat := filter (fun i => negb (existsb (Nat.eqb i) idxes)) (seq 0 n).
Lemma kept_In idxes n k : In k (kept idxes n) <-> (k < n)%nat /\ ~ In k idxes.
Proof. unfold kept. rewrite filter_In, in_seq, negb_true_iff. split.
  - intros [H E]. split; [lia|]. intros J. apply (in_map (Nat.eqb k)) in J. rewrite Nat.eqb_refl in J.
    assert (K : existsb (Nat.eqb k) idxes = true) by (apply existsb_exists; apply in_map_iff in J; destruct J as (x & Hx & J); exists x; auto). congruence.
  - intros [H E]. split; [lia|]. destruct (existsb (Nat.eqb k) idxes) eqn:F; [|reflexivity]. apply existsb_exists in F. destruct F as (x & J & Q). apply Nat.eqb_eq in Q. subst x. contradiction. Qed.
Lemma seq_sorted n : forall k, StronglySorted lt (seq k n).
Proof. induction n as [|n IH]; intros k; cbn [seq]; constructor; [apply IH|]. apply Forall_forall. intros x H. apply in_seq in H. lia. Qed.
Lemma filter_sorted {A} (R : A -> A -> Prop) p l : StronglySorted R l -> StronglySorted R (filter p l).
Proof. induction 1 as [|x l H IH F]; cbn [filter]; [constructor|]. destruct (p x); [|exact IH]. constructor; [exact IH|].
  apply Forall_forall. intros y J. apply filter_In in J. rewrite Forall_forall in F. apply F, J. Qed.
Lemma kept_sorted idxes n : increasing_nat (kept idxes n).
Proof. apply filter_sorted, seq_sorted. Qed.
Lemma keep_but_entries {A} idxes (l : list A) : entries_of (kept idxes (List.length l)) l (keep_but idxes l).
Proof. unfold entries_of, kept, keep_but.
  assert (G : forall l0 pre, l = (pre ++ l0)%list -> Forall2 (fun k x => nth_error l k = Some x) (filter (fun i => negb (existsb (Nat.eqb i) idxes)) (seq (List.length pre) (List.length l0)))
      (map snd (filter (fun ix => negb (existsb (Nat.eqb (fst ix)) idxes)) (combine (seq (List.length pre) (List.length l0)) l0)))).
  { induction l0 as [|x l0 IH]; intros pre E; [constructor|]. cbn [List.length seq combine filter fst].
    assert (S1 : S (List.length pre) = List.length (pre ++ [x])%list) by (rewrite app_length; cbn [List.length]; lia).
    assert (E1 : l = ((pre ++ [x]) ++ l0)%list) by (rewrite <- app_assoc; exact E).
    destruct (negb (existsb (Nat.eqb (List.length pre)) idxes)); cbn [map snd].
    - constructor; [rewrite E; apply nth_error_mid|]. rewrite S1. apply IH, E1.
    - rewrite S1. apply IH, E1. }
  exact (G l [] eq_refl). Qed.

(** Direct recursion *)
Fixpoint thin {A} (pos : list fl) (l : list A) : list A :=
  match pos, l with
  | x :: pos', a :: l' => match pos' with
                          | y :: _ => if feqb (fabs (fsub y x)) (Some 0) then thin pos' l' else a :: thin pos' l'
                          | [] => a :: thin pos' l'
                          end
  | _, _ => l
  end.
Lemma repeated_ge pos : forall i k, In k (repeated_from i pos) -> (i <= k)%nat.
Proof. intros i k H. apply repeated_iff in H. destruct H as (j & -> & _). lia. Qed.
Lemma existsb_false k l : ~ In k l -> existsb (Nat.eqb k) l = false.
Proof. intros H. destruct (existsb (Nat.eqb k) l) eqn:F; [|reflexivity]. apply existsb_exists in F. destruct F as (x & J & Q). apply Nat.eqb_eq in Q. subst x. contradiction. Qed.
Lemma keep_thin {A} pos : forall (l : list A) k, List.length l = List.length pos ->
  map snd (filter (fun ix => negb (existsb (Nat.eqb (fst ix)) (repeated_from k pos))) (combine (seq k (List.length l)) l)) = thin pos l.
Proof. induction pos as [|x pos IH]; intros l k H; [destruct l; [reflexivity|discriminate]|]. destruct l as [|a l]; [discriminate|]. injection H as H.
  cbn [List.length seq combine filter fst thin]. destruct pos as [|y pos].
  - destruct l; [reflexivity|discriminate].
  - change (repeated_from k (x :: y :: pos)) with (if feqb (fabs (fsub y x)) (Some 0) then k :: repeated_from (S k) (y :: pos) else repeated_from (S k) (y :: pos)).
    assert (N : existsb (Nat.eqb k) (repeated_from (S k) (y :: pos)) = false) by (apply existsb_false; intros J; apply repeated_ge in J; lia).
    destruct (feqb (fabs (fsub y x)) (Some 0)).
    + cbn [existsb]. rewrite Nat.eqb_refl. cbn [orb negb]. rewrite <- (IH l (S k) H). f_equal. apply filter_ext_in. intros [i v] J. cbn [fst]. apply in_combine_l, in_seq in J.
      replace (i =? k)%nat with false; [reflexivity|]. symmetry. apply Nat.eqb_neq. lia.
    + rewrite N. cbn [negb map snd]. rewrite (IH l (S k) H). reflexivity. Qed.
Lemma keep_but_thin {A} pos (l : list A) : List.length l = List.length pos -> keep_but (repeated_from 0 pos) l = thin pos l.
Proof. intros H. exact (keep_thin pos l 0%nat H). Qed.
Lemma thin_head pos y : exists l, thin (y :: pos) (y :: pos) = y :: l.
Proof. revert y. induction pos as [|z pos IH]; intros y; [eexists; reflexivity|].
  change (thin (y :: z :: pos) (y :: z :: pos)) with (if feqb (fabs (fsub z y)) (Some 0) then thin (z :: pos) (z :: pos) else y :: thin (z :: pos) (z :: pos)).
  destruct (feqb (fabs (fsub z y)) (Some 0)) eqn:E; [|eauto]. apply same_iff in E. destruct E as (r & -> & ->). apply IH. Qed.
Lemma thin_no_repeat pos : forall i, repeated_from i (thin pos pos) = [].
Proof. induction pos as [|x pos IH]; intros i; [reflexivity|]. destruct pos as [|y pos]; [reflexivity|].
  change (thin (x :: y :: pos) (x :: y :: pos)) with (if feqb (fabs (fsub y x)) (Some 0) then thin (y :: pos) (y :: pos) else x :: thin (y :: pos) (y :: pos)).
  destruct (feqb (fabs (fsub y x)) (Some 0)) eqn:E; [apply IH|]. destruct (thin_head pos y) as [l Hl]. pose proof (IH (S i)) as K. rewrite Hl in *.
  change (repeated_from i (x :: y :: l)) with (if feqb (fabs (fsub y x)) (Some 0) then i :: repeated_from (S i) (y :: l) else repeated_from (S i) (y :: l)). rewrite E. exact K. Qed.

Lemma mapM_Forall2 {A B} (f : A -> res B) (P : A -> B -> Prop) l : Forall (fun a => exists b, f a = Ok b /\ P a b) l -> exists l', mapM f l = Ok l' /\ Forall2 P l l'.
Proof. induction 1 as [|a l (b & E & H) F IH]; [exists []; split; [reflexivity|constructor]|]. destruct IH as (l' & E' & H'). exists (b :: l'). cbn [mapM]. rewrite E. cbn [bind]. rewrite E'. split; [reflexivity|constructor; assumption]. Qed.
Lemma remove_double_ok s pos more : f_doubles s = false -> f_positions s = pos :: more -> aligned (List.length pos) s ->
  exists ks s', remove_double s = Ok s' /\ increasing_nat ks /\ (forall k, In k ks <-> (k < List.length pos)%nat /\ ~ followed_by_same pos k) /\
    Forall2 (fun a b => fst b = fst a /\ entries_of ks (snd a) (snd b)) (f_data s) (f_data s') /\
    Forall2 (entries_of ks) (f_positions s) (f_positions s') /\
    Forall2 (fun a b => fst b = fst a /\ stack_entries ks (snd a) (snd b)) (f_images s) (f_images s') /\
    (exists pos' more', f_positions s' = pos' :: more' /\ forall k, ~ followed_by_same pos' k) /\
    f_doubles s' = true /\ f_motor_names s' = f_motor_names s /\ f_motors s' = f_motors s /\ f_command s' = f_command s.
Proof. intros D E (A1 & A2 & A3). pose (idxes := repeated_from 0 pos).
  assert (ENT : forall A (l : list A), List.length l = List.length pos -> entries_of (kept idxes (List.length pos)) l (keep_but idxes l)) by (intros A l H; rewrite <- H; apply keep_but_entries).
  assert (D2 : Forall2 (fun a b => fst b = fst a /\ entries_of (kept idxes (List.length pos)) (snd a) (snd b)) (f_data s) (map (fun kv => (fst kv, keep_but idxes (snd kv))) (f_data s))).
  { clear -A1 ENT. induction A1 as [|kv l H F IH]; [constructor|]. cbn [map]. constructor; [|exact IH]. cbn [fst snd]. split; [reflexivity|apply ENT, H]. }
  assert (I2 : Forall2 (fun a b => fst b = fst a /\ stack_entries (kept idxes (List.length pos)) (snd a) (snd b)) (f_images s) (map (fun kv => (fst kv, stack_delete (snd kv) idxes)) (f_images s))).
  { clear -A3 ENT. induction A3 as [|[k st] l H F IH]; [constructor|]. cbn [map]. constructor; [|exact IH]. cbn [fst snd] in *. split; [reflexivity|]. destruct st as [x|x]; cbn [stack_size stack_delete] in *; exact (ENT _ x H). }
  exists (kept idxes (List.length pos)). eexists. split.
  { unfold remove_double. rewrite D, E. change 0%Z with (Z.of_nat 0). rewrite (py_get_nat (pos :: more) 0 (x := pos) eq_refl). cbn [bind]. rewrite <- E. reflexivity. }
  fold idxes.
  cbn [f_data f_positions f_images f_doubles f_motor_names f_motors f_command]. split; [apply kept_sorted|]. split.
  { intros k. rewrite kept_In. unfold idxes. rewrite repeated_iff. split; intros [H1 H2]; (split; [exact H1|]).
    - intros J. apply H2. exists k. auto.
    - intros (j & -> & J). exact (H2 J). }
  split; [exact D2|]. split.
  { clear -A2 ENT. induction A2 as [|c l H F IH]; [constructor|]. cbn [map]. constructor; [apply ENT, H|exact IH]. }
  split; [exact I2|]. split; [|auto].
  exists (keep_but idxes pos), (map (keep_but idxes) more). split; [rewrite E; reflexivity|]. intros k J. unfold idxes in J. rewrite keep_but_thin in J by reflexivity.
  assert (K : In k (repeated_from 0 (thin pos pos))) by (apply repeated_iff; exists k; auto). rewrite thin_no_repeat in K. exact K. Qed.
Lemma remove_double_twice s s' : remove_double s = Ok s' -> remove_double s' = Ok s'.
Proof. intros H. destruct (f_doubles s) eqn:D.
  - unfold remove_double in H. rewrite D in H. injection H as <-. unfold remove_double. rewrite D. reflexivity.
  - unfold remove_double in H. rewrite D in H. destruct (py_get (f_positions s) 0); cbn [bind] in H; [|discriminate].
    injection H as <-. reflexivity. Qed.

(** ** Regions *)
Lemma fadd_0_l x : fadd (Some 0) x = x.
Proof. destruct x as [x|]; cbn; [f_equal; ring|reflexivity]. Qed.
Lemma fadd_0_r x : fadd x (Some 0) = x.
Proof. destruct x as [x|]; cbn; [f_equal; ring|reflexivity]. Qed.
Lemma fadd_assoc a b c : fadd a (fadd b c) = fadd (fadd a b) c.
Proof. destruct a, b, c; cbn; try reflexivity. f_equal. ring. Qed.
Lemma fadd_comm a b : fadd a b = fadd b a.
Proof. destruct a, b; cbn; try reflexivity. f_equal. ring. Qed.
Lemma fsum_app a b : fsum (a ++ b)%list = fadd (fsum a) (fsum b).
Proof. induction a as [|x a IH]; [symmetry; apply fadd_0_l|]. change (fsum ((x :: a) ++ b)%list) with (fadd x (fsum (a ++ b)%list)). rewrite IH. apply fadd_assoc. Qed.
Lemma fsum_concat l : fsum (List.concat l) = fsum (map fsum l).
Proof. induction l as [|r l IH]; [reflexivity|]. cbn [List.concat map]. rewrite fsum_app, IH. reflexivity. Qed.
Lemma slice_nat {A} (l : list A) (lo hi : nat) : py_slice l (Some (Z.of_nat lo)) (Some (Z.of_nat hi)) = firstn (hi - lo) (skipn lo l).
Proof. unfold py_slice. rewrite !clamp_idx_nat. destruct (le_lt_dec (List.length l) lo) as [H|H].
  - replace (Nat.min lo (List.length l)) with (List.length l) by lia. rewrite !skipn_all2 by lia. rewrite !firstn_nil. reflexivity.
  - replace (Nat.min lo (List.length l)) with lo by lia. destruct (le_lt_dec hi (List.length l)) as [K|K].
    + replace (Nat.min hi (List.length l)) with hi by lia. reflexivity.
    + replace (Nat.min hi (List.length l)) with (List.length l) by lia. rewrite !firstn_all2; [reflexivity|rewrite skipn_length; lia..]. Qed.
Lemma masked_slice_from lo hi l : forall k,
  fsum (map (fun iv => if between lo hi (fst iv) then snd iv else Some 0) (combine (seq k (List.length l)) l)) = fsum (firstn (hi - Nat.max lo k) (skipn (lo - k) l)).
Proof. unfold between. induction l as [|v l IH]; intros k; [rewrite skipn_nil, firstn_nil; reflexivity|]. cbn [List.length seq combine map fst snd].
  match goal with |- fsum (?a :: ?b) = _ => change (fsum (a :: b)) with (fadd a (fsum b)) end. rewrite IH.
  destruct (le_lt_dec lo k) as [H|H].
  - replace (lo - k)%nat with 0%nat by lia. replace (lo - S k)%nat with 0%nat by lia. cbn [skipn]. replace (Nat.max lo k) with k by lia. replace (Nat.max lo (S k)) with (S k) by lia.
    replace (lo <=? k)%nat with true by (symmetry; apply Nat.leb_le; lia). destruct (le_lt_dec hi k) as [K|K].
    + replace (k <? hi)%nat with false by (symmetry; apply Nat.ltb_ge; lia). replace (hi - k)%nat with 0%nat by lia. replace (hi - S k)%nat with 0%nat by lia. cbn [firstn andb]. apply fadd_0_l.
    + replace (k <? hi)%nat with true by (symmetry; apply Nat.ltb_lt; lia). replace (hi - k)%nat with (S (hi - S k)) by lia. reflexivity.
  - replace (lo <=? k)%nat with false by (symmetry; apply Nat.leb_gt; lia). cbn [andb]. rewrite fadd_0_l. replace (lo - k)%nat with (S (lo - S k)) by lia.
    replace (Nat.max lo k) with (Nat.max lo (S k)) by lia. reflexivity. Qed.
Lemma masked_slice lo hi l : fsum (py_slice l (Some (Z.of_nat lo)) (Some (Z.of_nat hi))) = fsum (masked (between lo hi) l).
Proof. rewrite slice_nat. unfold masked. rewrite masked_slice_from. rewrite Nat.sub_0_r, Nat.max_0_r. reflexivity. Qed.
Lemma map_slice {A B} (f : A -> B) l lo hi : map f (py_slice l lo hi) = py_slice (map f l) lo hi.
Proof. unfold py_slice. rewrite map_length. rewrite skipn_map, firstn_map. reflexivity. Qed.
Lemma region_sums l b r t img : (x <- image_region (roi4 l b r t) img ;; Ok (image_sum x)) = Ok (region_sum l b r t img).
Proof. unfold image_region, roi4.
  change (py_get [Z.of_nat l; Z.of_nat b; Z.of_nat r; Z.of_nat t] 1) with (Ok (Z.of_nat b)). change (py_get [Z.of_nat l; Z.of_nat b; Z.of_nat r; Z.of_nat t] 3) with (Ok (Z.of_nat t)).
  change (py_get [Z.of_nat l; Z.of_nat b; Z.of_nat r; Z.of_nat t] 0) with (Ok (Z.of_nat l)). change (py_get [Z.of_nat l; Z.of_nat b; Z.of_nat r; Z.of_nat t] 2) with (Ok (Z.of_nat r)).
  cbn [bind]. f_equal. unfold image_sum, region_sum. rewrite fsum_concat, map_map, map_slice, masked_slice. f_equal. f_equal. apply map_ext. intros row. apply masked_slice. Qed.
Lemma line_sums lo hi l : (x <- line_region (roi2 lo hi) l ;; Ok (fsum x)) = Ok (line_sum lo hi l).
Proof. unfold line_region, roi2. change (py_get [Z.of_nat lo; Z.of_nat hi] 0) with (Ok (Z.of_nat lo)). change (py_get [Z.of_nat lo; Z.of_nat hi] 1) with (Ok (Z.of_nat hi)). cbn [bind].
  f_equal. apply masked_slice. Qed.
Lemma image_total img : image_sum img = total_sum img.
Proof. apply fsum_concat. Qed.

(** Additivity *)
Lemma masked_split_from lo mid hi l : (lo <= mid <= hi)%nat -> forall k,
  fsum (map (fun iv => if between lo hi (fst iv) then snd iv else Some 0) (combine (seq k (List.length l)) l)) =
  fadd (fsum (map (fun iv => if between lo mid (fst iv) then snd iv else Some 0) (combine (seq k (List.length l)) l)))
       (fsum (map (fun iv => if between mid hi (fst iv) then snd iv else Some 0) (combine (seq k (List.length l)) l))).
Proof. intros H. induction l as [|v l IH]; intros k; [symmetry; apply fadd_0_l|]. cbn [List.length seq combine map fst snd].
  repeat match goal with |- context [fsum (?a :: ?b)] => change (fsum (a :: b)) with (fadd a (fsum b)) end. rewrite (IH (S k)).
  set (A := fsum (map (fun iv => if between lo mid (fst iv) then snd iv else Some 0) (combine (seq (S k) (List.length l)) l))).
  set (B := fsum (map (fun iv => if between mid hi (fst iv) then snd iv else Some 0) (combine (seq (S k) (List.length l)) l))).
  unfold between. destruct (Nat.leb_spec lo k), (Nat.ltb_spec k mid), (Nat.leb_spec mid k), (Nat.ltb_spec k hi); try lia; cbn [andb]; rewrite ?fadd_0_l; try reflexivity.
  - apply fadd_assoc.
  - rewrite !fadd_assoc. rewrite (fadd_comm v A). reflexivity. Qed.
Lemma masked_split lo mid hi l : (lo <= mid <= hi)%nat -> fsum (masked (between lo hi) l) = fadd (fsum (masked (between lo mid) l)) (fsum (masked (between mid hi) l)).
Proof. intros H. apply (masked_split_from lo mid hi l H 0%nat). Qed.
Lemma region_split_rows l b r t m img : (b <= m <= t)%nat -> region_sum l b r t img = fadd (region_sum l b r m img) (region_sum l m r t img).
Proof. intros H. apply masked_split, H. Qed.
Lemma masked_add (p : nat -> bool) (f g : list fl -> fl) (l : list (list fl)) : forall k,
  fsum (map (fun iv => if p (fst iv) then snd iv else Some 0) (combine (seq k (List.length l)) (map (fun row => fadd (f row) (g row)) l))) =
  fadd (fsum (map (fun iv => if p (fst iv) then snd iv else Some 0) (combine (seq k (List.length l)) (map f l))))
       (fsum (map (fun iv => if p (fst iv) then snd iv else Some 0) (combine (seq k (List.length l)) (map g l)))).
Proof. induction l as [|row l IH]; intros k; [symmetry; apply fadd_0_l|]. cbn [List.length seq combine map fst snd].
  repeat match goal with |- context [fsum (?a :: ?b)] => change (fsum (a :: b)) with (fadd a (fsum b)) end. rewrite (IH (S k)).
  match goal with |- _ = fadd (fadd _ ?a) (fadd _ ?b) => set (A := a); set (B := b) end.
  destruct (p k); [|rewrite !fadd_0_l; reflexivity]. rewrite <- !fadd_assoc. f_equal. rewrite !fadd_assoc. f_equal. apply fadd_comm. Qed.
Lemma region_split_columns l b r t m img : (l <= m <= r)%nat -> region_sum l b r t img = fadd (region_sum l b m t img) (region_sum m b r t img).
Proof. intros H. unfold region_sum.
  replace (map (fun row => fsum (masked (between l r) row)) img) with (map (fun row => fadd (fsum (masked (between l m) row)) (fsum (masked (between m r) row))) img)
    by (apply map_ext; intros row; symmetry; apply masked_split, H).
  unfold masked at 1 4 6. rewrite !map_length. apply masked_add. Qed.
Lemma line_split lo m hi l : (lo <= m <= hi)%nat -> line_sum lo hi l = fadd (line_sum lo m l) (line_sum m hi l).
Proof. intros H. apply masked_split, H. Qed.

(** All regions of a stack *)
Lemma append_mid pre k (l : list fl) post x : ~ In k (map fst pre) -> append_to (pre ++ (k, l) :: post)%list k x = Ok (pre ++ (k, (l ++ [x])%list) :: post)%list.
Proof. intros H. unfold append_to. rewrite dict_get_mid by exact H. rewrite dict_set_mid by exact H. reflexivity. Qed.
Lemma append_regions {A} (part : list Z -> A -> res fl) (img : A) (value : list Z -> fl) (L : string * list Z -> list fl) todo : forall pre,
  (forall kv, In kv todo -> part (snd kv) img = Ok (value (snd kv))) -> NoDup (map fst pre ++ map fst todo) ->
  foldM (fun d kv => x <- part (snd kv) img ;; append_to d (fst kv) x) (pre ++ map (fun kv => (fst kv, L kv)) todo)%list todo =
  Ok (pre ++ map (fun kv => (fst kv, L kv ++ [value (snd kv)])%list) todo)%list.
Proof. induction todo as [|kv todo IH]; intros pre V N; [reflexivity|].
  assert (Hn : ~ In (fst kv) (map fst pre)) by (cbn [map] in N; apply NoDup_remove_2 in N; intros J; apply N, in_or_app; left; exact J).
  cbn [foldM map]. rewrite (V kv (or_introl eq_refl)). cbn [bind]. rewrite append_mid by exact Hn. cbn [bind].
  change (pre ++ (fst kv, (L kv ++ [value (snd kv)])%list) :: map (fun kv => (fst kv, L kv)) todo)%list with
         (pre ++ [(fst kv, (L kv ++ [value (snd kv)])%list)] ++ map (fun kv => (fst kv, L kv)) todo)%list.
  rewrite app_assoc. rewrite IH.
  - rewrite <- app_assoc. reflexivity.
  - intros kv' H. apply V. right; exact H.
  - rewrite map_app. cbn [map fst]. rewrite <- app_assoc. exact N. Qed.
Lemma roi_sums_ok {A} (total : A -> fl) (part : list Z -> A -> res fl) (value : list Z -> A -> fl) rois imgs :
  (forall kv img, In kv rois -> In img imgs -> part (snd kv) img = Ok (value (snd kv) img)) -> NoDup ("all" :: map fst rois) ->
  roi_sums total part rois imgs = Ok (("all", map total imgs) :: map (fun kv => (fst kv, map (value (snd kv)) imgs)) rois).
Proof. intros V N. unfold roi_sums.
  assert (E : fold_left (fun d kv => dict_set String.eqb d (fst kv) []) rois [("all", [])] = ("all", map total []) :: map (fun kv => (fst kv, map (value (snd kv)) [])) rois).
  { assert (F : forall l d, fold_left (fun d (kv : string * list Z) => dict_set String.eqb d (fst kv) ([] : list fl)) l d = set_list String.eqb d (map (fun kv => (fst kv, [])) l)).
    { induction l as [|kv l IH]; intros d; [reflexivity|]. cbn [fold_left map]. rewrite IH. reflexivity. }
    rewrite F, (set_list_distinct String.eqb String.eqb_eq); [reflexivity|]. cbn [map fst app]. rewrite map_map. cbn [fst]. exact N. }
  rewrite E. clear E.
  assert (G : forall todo done, (forall kv img, In kv rois -> In img todo -> part (snd kv) img = Ok (value (snd kv) img)) ->
    foldM (fun d img => d <- append_to d "all" (total img) ;; foldM (fun d kv => x <- part (snd kv) img ;; append_to d (fst kv) x) d rois)
      (("all", map total done) :: map (fun kv => (fst kv, map (value (snd kv)) done)) rois) todo =
    Ok (("all", map total (done ++ todo)) :: map (fun kv => (fst kv, map (value (snd kv)) (done ++ todo))) rois)%list).
  { induction todo as [|img todo IH]; intros done W; [rewrite app_nil_r; reflexivity|]. cbn [foldM]. rewrite (append_mid [] "all" (map total done) (map (fun kv => (fst kv, map (value (snd kv)) done)) rois) (total img) (fun F => F) : append_to (("all", map total done) :: _) "all" (total img) = _). cbn [bind app].
    change (("all", (map total done ++ [total img])%list) :: map (fun kv => (fst kv, map (value (snd kv)) done)) rois) with
       ([("all", (map total done ++ [total img])%list)] ++ map (fun kv => (fst kv, map (value (snd kv)) done)) rois)%list.
    rewrite (append_regions part img (fun z => value z img) (fun kv => map (value (snd kv)) done) rois).
    - cbn [bind app]. 
      replace (map (fun kv => (fst kv, (map (value (snd kv)) done ++ [value (snd kv) img])%list)) rois) with (map (fun kv => (fst kv, map (value (snd kv)) (done ++ [img])%list)) rois)
        by (apply map_ext; intros kv; rewrite map_app; reflexivity).
      replace (map total done ++ [total img])%list with (map total (done ++ [img])%list) by (rewrite map_app; reflexivity).
      rewrite IH; [rewrite <- app_assoc; reflexivity|]. intros kv im H1 H2. apply W; [exact H1|right; exact H2].
    - intros kv H. apply W; [exact H|left; reflexivity].
    - exact N. }
  exact (G imgs [] V). Qed.
Lemma vec_op_one l : vec_op fmul l [Some 1] = Ok l.
Proof. unfold vec_op. assert (M : forall x, fmul x (Some 1) = x) by (intros [x|]; cbn; [f_equal; ring|reflexivity]).
  assert (R : forall l, map (fun xy => fmul (fst xy) (snd xy)) (combine l (repeat (Some 1) (List.length l))) = l).
  { induction l0 as [|x l0 IH]; [reflexivity|]. cbn [List.length repeat combine map fst snd]. rewrite M, IH. reflexivity. }
  destruct l as [|x [|y l]]; [reflexivity|cbn; rewrite M; reflexivity|]. unfold bdim. cbn [List.length Nat.eqb bind]. unfold bop. cbn [stretch]. f_equal.
  exact (R (x :: y :: l)). Qed.
Lemma attenuate_sums {A} d (f : A -> fl) imgs : attenuation_fits (dict_get String.eqb d "atten_position") (List.length imgs) ->
  vec_op fmul (map f imgs) (attenuation_of d) = Ok (attenuated (dict_get String.eqb d "atten_position") f imgs).
Proof. unfold attenuation_fits, attenuation_of, attenuated, attenuation_at. destruct (dict_get String.eqb d "atten_position") as [c|]; intros H.
  - assert (L : List.length (map f imgs) = List.length c) by (rewrite map_length; symmetry; exact H).
    rewrite (vec_op_same fmul _ _ L). f_equal. clear L. revert c H. 
    assert (G : forall (c : list fl) pre, List.length c = List.length imgs ->
       map (fun xy => fmul (fst xy) (snd xy)) (combine (map f imgs) c) = map (fun ki => fmul (f (snd ki)) (nth (fst ki) (pre ++ c)%list None)) (combine (seq (List.length pre) (List.length imgs)) imgs)).
    { induction imgs as [|i imgs IH]; intros c pre H; [reflexivity|]. destruct c as [|x c]; [discriminate|]. cbn [map combine List.length seq fst snd]. f_equal.
      - f_equal. rewrite app_nth2 by lia. rewrite Nat.sub_diag. reflexivity.
      - injection H as H. rewrite (IH c (pre ++ [x])%list H). rewrite app_length. cbn [List.length]. replace (List.length pre + 1)%nat with (S (List.length pre)) by lia.
        apply map_ext. intros [k im]. cbn [fst snd]. rewrite <- app_assoc. reflexivity. }
    intros c H. exact (G c [] H).
  - rewrite vec_op_one. f_equal. generalize 0%nat. induction imgs as [|i imgs IH]; intros k; [reflexivity|]. cbn [map List.length seq combine fst snd]. rewrite <- IH.
    destruct (f i); cbn; [f_equal; f_equal; ring|reflexivity]. Qed.
