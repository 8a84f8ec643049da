(** Property C190: generators with a batch size that is not positive. *)
From Coq Require Import Reals Lra Lia ZifyNat Permutation.
From Coquelicot Require Import Complex.
From Verif Require Import Py Str Cplx Arr NRng Noise_Model Generator_Model Generator_Spec Generator_Proofs Generator_Props.
Local Open Scope R_scope.

Section Size.
  Context {S : Type} (g : nrng S) (Hg : nrng_ok g).
  Lemma gen_small s h refl m rows labels bs shuffle : nth_error h refl = Some (A2 m rows) -> (bs <= 0)%Z ->
    exists s' idx, gen_new g s h refl labels bs shuffle = Ok (s', mkGen (List.length rows) bs m refl labels shuffle idx) /\ Permutation (seq 0 (List.length rows)) idx /\ (shuffle = false -> s' = s /\ idx = seq 0 (List.length rows)).
  Proof. intros E B. unfold gen_new, deref. rewrite E. cbn [bind]. replace (Z.of_nat (List.length rows) <? bs)%Z with false by lia. unfold do_shuffle. destruct shuffle.
    - pose proof (perm_perm Hg s (seq 0 (List.length rows))) as P. destruct (nr_perm g s (seq 0 (List.length rows))) as [s' idx]. exists s', idx. split; [reflexivity|]. split; [exact P|discriminate].
    - exists s, (seq 0 (List.length rows)). auto. Qed.
End Size.
Lemma pick_all {A} (l : list A) idx : Forall (fun i => (i < List.length l)%nat) idx -> exists r, pick l idx = Ok r /\ List.length r = List.length idx /\ forall p d, (p < List.length idx)%nat -> nth p r d = nth (nth p idx 0%nat) l d.
Proof. induction 1 as [|i idx Hi _ (r & E & L & N)]; [exists []; repeat split; intros; cbn in *; lia|]. unfold pick in *. cbn [mapM]. destruct (nth_error l i) as [x|] eqn:Ex; [|apply nth_error_None in Ex; lia]. cbn [bind]. rewrite E. cbn [bind].
  exists (x :: r). split; [reflexivity|]. split; [cbn; lia|]. intros [|p] d Hp; cbn; [symmetry; apply nth_error_nth; exact Ex|apply N; cbn in Hp; lia]. Qed.
Lemma small_first gn : (gn_bs gn < 0)%Z -> batch_indexes gn 0 = firstn (List.length (gn_idx gn) - Z.to_nat (- gn_bs gn)) (gn_idx gn).
Proof. intros B. unfold batch_indexes, py_slice. replace (0 * gn_bs gn)%Z with 0%Z by lia. replace ((0 + 1) * gn_bs gn)%Z with (gn_bs gn) by lia. replace (clamp_idx (List.length (gn_idx gn)) 0) with 0%nat by (unfold clamp_idx; cbn; lia). cbn [skipn]. f_equal.
  unfold clamp_idx. replace (gn_bs gn <? 0)%Z with true by lia. lia. Qed.
Lemma small_later gn i : (gn_bs gn < 0)%Z -> (0 < i)%Z -> batch_indexes gn i = [].
Proof. intros B I. unfold batch_indexes, py_slice. set (n := List.length (gn_idx gn)). replace (clamp_idx n ((i + 1) * gn_bs gn) - clamp_idx n (i * gn_bs gn))%nat with 0%nat; [reflexivity|].
  unfold clamp_idx. replace ((i + 1) * gn_bs gn <? 0)%Z with true by nia. replace (i * gn_bs gn <? 0)%Z with true by nia. nia. Qed.
Lemma zero_batch gn i : gn_bs gn = 0%Z -> batch_indexes gn i = [].
Proof. intros B. unfold batch_indexes, py_slice. rewrite B, !Z.mul_0_r. rewrite Nat.sub_diag. reflexivity. Qed.

(** ** C190 *)
(** The constructor accepts every batch size up to the number of curves, also 0 and negative ones.  The number of batches is then refused: *)
Theorem C190_length S (g : nrng S) : nrng_ok g -> forall s h refl m rows labels bs shuffle, nth_error h refl = Some (A2 m rows) -> rows <> [] -> (bs <= 0)%Z ->
  exists s' gn, gen_new g s h refl labels bs shuffle = Ok (s', gn) /\ gen_len gn = Raise (if (bs =? 0)%Z then ZeroDivisionError else ValueError).
Proof. intros Hg s h refl m rows labels bs shuffle E N B. destruct (gen_small g Hg s h refl m rows labels bs shuffle E B) as (s' & idx & -> & _). do 2 eexists. split; [reflexivity|]. unfold gen_len. cbn [gn_bs gn_n].
  destruct (Z.eqb_spec bs 0) as [->|Z0]; [reflexivity|]. assert (P : (0 < List.length rows)%nat) by (destruct rows; [contradiction|cbn; lia]).
  replace (Z.of_nat (List.length rows) / bs <? 0)%Z with true; [reflexivity|]. symmetry. apply Z.ltb_lt. pose proof (Z.div_mod (Z.of_nat (List.length rows)) bs Z0). pose proof (Z.mod_neg_bound (Z.of_nat (List.length rows)) bs). nia. Qed.
Print Assumptions C190_length.
(** With batch size 0 every batch is empty. *)
Theorem C190_zero S (g : nrng S) : nrng_ok g -> forall s h refl m rows labels shuffle i, nth_error h refl = Some (A2 m rows) ->
  exists s' gn, gen_new g s h refl labels 0 shuffle = Ok (s', gn) /\ base_getitem h gn [] i = Ok (A2 m [], []).
Proof. intros Hg s h refl m rows labels shuffle i E. destruct (gen_small g Hg s h refl m rows labels 0 shuffle E (Z.le_refl 0)) as (s' & idx & -> & _). do 2 eexists. split; [reflexivity|]. unfold base_getitem, deref. cbn [gn_refl gn_labels]. rewrite E. cbn [bind]. rewrite zero_batch by reflexivity. reflexivity. Qed.
Print Assumptions C190_zero.
(** With batch size -k the first batch has all curves but k, each with its label, and the following ones are empty. *)
Theorem C190_negative S (g : nrng S) : nrng_ok g -> forall s h refl m rows labels k shuffle, nth_error h refl = Some (A2 m rows) -> List.length labels = List.length rows -> (0 < k)%nat ->
  exists s' gn, gen_new g s h refl labels (- Z.of_nat k) shuffle = Ok (s', gn) /\
  (exists x y order, base_getitem h gn [] 0 = Ok (A2 m x, y) /\ Permutation (seq 0 (List.length rows)) order /\ List.length x = (List.length rows - k)%nat /\ List.length y = (List.length rows - k)%nat /\
    forall p, (p < List.length rows - k)%nat -> nth p x [] = nth (nth p order 0%nat) rows [] /\ nth p y [] = nth (nth p order 0%nat) labels []) /\
  forall i, (0 < i)%Z -> base_getitem h gn [] i = Ok (A2 m [], []).
Proof. intros Hg s h refl m rows labels k shuffle E L K. destruct (gen_small g Hg s h refl m rows labels (- Z.of_nat k) shuffle E ltac:(lia)) as (s' & idx & -> & P & _). do 2 eexists. split; [reflexivity|].
  assert (Li : List.length idx = List.length rows) by (apply Permutation_length in P; rewrite seq_length in P; lia).
  assert (Fi : Forall (fun i => (i < List.length rows)%nat) idx) by (eapply Permutation_Forall; [exact P|]; apply Forall_forall; intros i Hi; apply in_seq in Hi; lia).
  set (first := firstn (List.length rows - k) idx). assert (Lf : List.length first = (List.length rows - k)%nat) by (unfold first; rewrite firstn_length; lia).
  assert (Ff : Forall (fun i => (i < List.length rows)%nat) first) by (apply Forall_forall; intros i Hi; rewrite Forall_forall in Fi; apply Fi; rewrite <- (firstn_skipn (List.length rows - k) idx); apply in_app_iff; auto).
  split.
  - destruct (pick_all rows first Ff) as (x & Ex & Lx & Nx). destruct (pick_all labels first) as (y & Ey & Ly & Ny); [rewrite L; exact Ff|]. exists x, y, idx. split; [|split; [exact P|split; [lia|split; [lia|]]]].
    + unfold base_getitem, deref. cbn [gn_refl gn_labels]. rewrite E. cbn [bind]. rewrite small_first by (cbn; lia). cbn [gn_idx gn_bs]. rewrite Li. replace (Z.to_nat (- - Z.of_nat k)) with k by lia. fold first. cbn [fancy]. rewrite Ex. cbn [bind]. rewrite Ey. reflexivity.
    + intros p Hp. assert (Q : nth p idx 0%nat = nth p first 0%nat) by (unfold first; rewrite <- (firstn_skipn (List.length rows - k) idx) at 1; apply app_nth1; fold first; lia). rewrite Q. split; [apply Nx|apply Ny]; lia.
  - intros i I. unfold base_getitem, deref. cbn [gn_refl gn_labels]. rewrite E. cbn [bind]. rewrite small_later by (cbn; lia). reflexivity. Qed.
Print Assumptions C190_negative.
Example C190_example : nth_error ex_heap 1 = Some (A2 2 ex_curves) /\ ex_curves <> [] /\ List.length ex_ys = List.length ex_curves /\ nrng_ok ex_nrng.
Proof. split; [reflexivity|]. split; [discriminate|]. split; [reflexivity|exact ex_nrng_ok]. Qed.
