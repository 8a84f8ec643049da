From Verif Require Import Py Str Sample_Model Sample_Spec Sample_Proofs SampleRef_Model SampleRef_Spec.
From Coq Require Import ZifyBool ZifyNat Reals Lra.
Local Open Scope nat_scope.

Lemma nat_eqb_iff : forall a b, Nat.eqb a b = true <-> a = b.
Proof. intros; apply Nat.eqb_eq. Qed.

(** ** add_layer *)

Lemma add_layer_next A (ls : list A) x : add_layer ls x INext = (ls ++ [x], None).
Proof. reflexivity. Qed.

Lemma clamp_insert_pos n i : clamp_idx n i = insert_pos n i.
Proof. unfold clamp_idx, insert_pos. destruct (i <? 0)%Z eqn:E; lia. Qed.

Lemma add_layer_int A (ls : list A) x i : exists ls',
  add_layer ls x (IInt i) = (ls', None) /\ List.length ls' = S (List.length ls) /\
  nth_error ls' (insert_pos (List.length ls) i) = Some x /\ del_nth ls' (insert_pos (List.length ls) i) = ls.
Proof. exists (py_insert ls i x). split; [reflexivity|]. split; [apply length_py_insert|].
  unfold py_insert. rewrite clamp_insert_pos.
  pose proof (clamp_idx_le (List.length ls) i) as Hle. rewrite clamp_insert_pos in Hle.
  remember (insert_pos (List.length ls) i) as k eqn:Ek; clear Ek.
  assert (Hk : List.length (firstn k ls) = k) by (rewrite firstn_length; lia).
  split.
  - apply nth_error_mid'; assumption.
  - rewrite del_nth_app' by assumption. apply firstn_skipn. Qed.

(** ** swap_layers *)

Lemma swap_layers_Ok A (ls : list A) f t i j : norm_idx (List.length ls) f = Some i -> norm_idx (List.length ls) t = Some j ->
  exists ls', swap_layers ls (Some f) (Some t) = (ls', None) /\ List.length ls' = List.length ls /\
    forall k, nth_error ls' k = nth_error ls (if Nat.eqb k i then j else if Nat.eqb k j then i else k).
Proof. intros Hf Ht. destruct (py_get_total ls f Hf) as (x & Hx & Gx). destruct (py_get_total ls t Ht) as (y & Hy & Gy).
  unfold swap_layers. rewrite Gy, Gx. unfold py_set. rewrite Ht. rewrite length_set_nth, Hf.
  eexists; split; [reflexivity|]. rewrite !length_set_nth. split; [reflexivity|]. intros k.
  rewrite nth_error_set_nth, length_set_nth, nth_error_set_nth.
  pose proof (norm_idx_lt _ _ Hf) as Hi. pose proof (norm_idx_lt _ _ Ht) as Hj.
  replace (i <? List.length ls)%nat with true by lia. replace (j <? List.length ls)%nat with true by lia.
  destruct (Nat.eqb k i); [congruence|]. destruct (Nat.eqb k j); congruence. Qed.

Lemma swap_layers_bad A (ls : list A) f t :
  norm_idx (List.length ls) f = None \/ norm_idx (List.length ls) t = None ->
  swap_layers ls (Some f) (Some t) = (ls, Some IndexError).
Proof. intros H. unfold swap_layers, py_get. destruct (norm_idx (List.length ls) t) as [j|] eqn:Et.
  - destruct H as [H|H]; [|discriminate]. rewrite H. pose proof (norm_idx_lt _ _ Et) as Hj.
    destruct (nth_error ls j) eqn:E; [reflexivity|]. apply nth_error_None in E; lia.
  - reflexivity. Qed.

Lemma swap_layers_involutive A (ls ls' : list A) f t :
  swap_layers ls (Some f) (Some t) = (ls', None) -> swap_layers ls' (Some f) (Some t) = (ls, None).
Proof. intros H. destruct (norm_idx (List.length ls) f) as [i|] eqn:Ef;
    [|rewrite swap_layers_bad in H by auto; discriminate].
  destruct (norm_idx (List.length ls) t) as [j|] eqn:Et; [|rewrite swap_layers_bad in H by auto; discriminate].
  destruct (swap_layers_Ok A ls f t i j Ef Et) as (l1 & E1 & L1 & N1). rewrite H in E1; inversion E1; subst l1.
  rewrite <- L1 in Ef, Et. destruct (swap_layers_Ok A ls' f t i j Ef Et) as (l2 & E2 & L2 & N2).
  rewrite E2. f_equal. apply nth_error_ext; intros k. rewrite N2, N1.
  destruct (Nat.eqb_spec k i).
  - subst. destruct (Nat.eqb_spec j i); [congruence|]. rewrite Nat.eqb_refl. reflexivity.
  - destruct (Nat.eqb_spec k j).
    + subst. rewrite Nat.eqb_refl. reflexivity.
    + destruct (Nat.eqb_spec k i); [congruence|]. destruct (Nat.eqb_spec k j); [congruence|]. reflexivity. Qed.

(** ** move_layer *)

Lemma remove_first (a b : list nat) x : ~ In x a -> py_remove Nat.eqb (a ++ x :: b) x = Ok (a ++ b).
Proof. induction a as [|y a IH]; simpl; intros H; [now rewrite Nat.eqb_refl|].
  destruct (Nat.eqb_spec y x); [tauto|]. rewrite IH by tauto. reflexivity. Qed.

Lemma move_layer_Ok (ls : list nat) i j x : NoDup ls -> nth_error ls i = Some x -> j < List.length ls ->
  exists ls', move_layer ls (Some (Z.of_nat i)) (Some (Z.of_nat j)) = (ls', None) /\
    nth_error ls' j = Some x /\ del_nth ls' j = del_nth ls i.
Proof. intros Hnd Hx Hj.
  assert (Hi : i < List.length ls) by (apply nth_error_Some; congruence).
  destruct (nth_error_split ls i Hx) as (a & b & El & La).
  assert (Hxa : ~ In x a /\ ~ In x b).
  { subst ls. apply NoDup_remove_2 in Hnd. rewrite in_app_iff in Hnd; tauto. }
  unfold move_layer. rewrite (py_get_nat ls i Hx).
  destruct (Z.of_nat i <? Z.of_nat j)%Z eqn:E1; [|destruct (Z.of_nat j <? Z.of_nat i)%Z eqn:E2].
  - assert (Hlt : i < j) by lia.
    assert (Eins : py_insert ls (Z.of_nat j + 1) x = (a ++ x :: firstn (j - i) b ++ x :: skipn (j - i) b)%list).
    { unfold py_insert. replace (Z.of_nat j + 1)%Z with (Z.of_nat (S j)) by lia. rewrite clamp_idx_nat.
      rewrite Nat.min_l by lia. subst ls. rewrite firstn_app, skipn_app.
      rewrite firstn_all2 by lia. rewrite skipn_all2 by lia.
      replace (S j - List.length a) with (S (j - i)) by lia. simpl. rewrite <- app_assoc. reflexivity. }
    rewrite Eins.
    assert (Eg : py_get (a ++ x :: firstn (j - i) b ++ x :: skipn (j - i) b) (Z.of_nat i) = Ok x).
    { apply py_get_nat. rewrite <- La. apply nth_error_mid. }
    rewrite Eg. rewrite remove_first by tauto.
    eexists; split; [reflexivity|].
    assert (Hb : List.length b = List.length ls - S i) by (subst ls; rewrite app_length; simpl; lia).
    assert (Hl : List.length (a ++ firstn (j - i) b)%list = j).
    { rewrite app_length, firstn_length. lia. }
    rewrite app_assoc. split.
    + apply nth_error_mid'; assumption.
    + rewrite del_nth_app' by assumption. rewrite <- app_assoc, firstn_skipn. subst ls.
      now rewrite del_nth_app' by assumption.
  - assert (Hlt : j < i) by lia. subst ls. rewrite remove_first by tauto.
    eexists; split; [reflexivity|]. unfold py_insert. rewrite clamp_idx_nat. rewrite app_length in *. simpl in *.
    rewrite Nat.min_l by lia.
    assert (Hl : List.length (firstn j (a ++ b)) = j) by (rewrite firstn_length, app_length; lia).
    split.
    + apply nth_error_mid'; assumption.
    + rewrite del_nth_app' by assumption. rewrite firstn_skipn. now rewrite del_nth_app' by assumption.
  - assert (i = j) by lia. subst j. eexists; split; [reflexivity|]. auto. Qed.

Lemma py_remove_perm (l r : list nat) x : py_remove Nat.eqb l x = Ok r -> Permutation l (x :: r).
Proof. intros H. apply py_remove_Ok in H; [|apply nat_eqb_iff]. destruct H as (a & b & -> & -> & _).
  symmetry. apply Permutation_middle. Qed.

Lemma py_get_In A (l : list A) i x : py_get l i = Ok x -> In x l.
Proof. intros H; apply py_get_spec in H. destruct H as (k & _ & H). eapply nth_error_In; eauto. Qed.

Lemma move_layer_perm ls f t ls' e : (0 <= f \/ t <= f)%Z ->
  move_layer ls (Some f) (Some t) = (ls', e) ->
  Permutation ls ls' /\ (e <> None -> ls' = ls).
Proof. intros Hc H. unfold move_layer in H.
  destruct (f <? t)%Z eqn:E1; [|destruct (t <? f)%Z eqn:E2].
  - assert (Hf : (0 <= f)%Z) by lia. destruct (py_get ls f) as [x|e'] eqn:G; [|inversion H; subst; auto].
    apply py_get_spec in G. destruct G as (k & Hk & Hx). pose proof (norm_idx_nonneg _ Hk Hf) as (-> & Hlt).
    assert (Eg : py_get (py_insert ls (t + 1) x) f = Ok x).
    { rewrite <- (Z2Nat.id f Hf). apply py_get_nat. unfold py_insert.
      rewrite nth_error_app1.
      - rewrite <- (firstn_skipn (clamp_idx (List.length ls) (t + 1)) ls) in Hx. rewrite nth_error_app1 in Hx; [exact Hx|].
        rewrite firstn_length. unfold clamp_idx. destruct (t + 1 <? 0)%Z eqn:?; lia.
      - rewrite firstn_length. unfold clamp_idx. destruct (t + 1 <? 0)%Z eqn:?; lia. }
    rewrite Eg in H. destruct (py_remove Nat.eqb (py_insert ls (t + 1) x) x) as [r|e'] eqn:Er.
    + inversion H; subst. split; [|congruence]. apply py_remove_perm in Er.
      apply (Permutation_cons_inv (a := x)). rewrite <- Er. symmetry. apply py_insert_perm.
    + exfalso. destruct (py_remove_In Nat.eqb (py_insert ls (t + 1) x) x nat_eqb_iff) as (r & Er').
      * apply py_get_In in Eg; exact Eg.
      * congruence.
  - destruct (py_get ls f) as [x|e'] eqn:G; [|inversion H; subst; auto].
    destruct (py_remove_In Nat.eqb ls x nat_eqb_iff (py_get_In _ _ _ _ G)) as (r & Er). rewrite Er in H.
    inversion H; subst. split; [|congruence]. apply py_remove_perm in Er. rewrite Er. symmetry; apply py_insert_perm.
  - inversion H; subst; auto. Qed.

(** For a negative source index left of the target the *next* layer is deleted and the moved one duplicated. *)
Lemma move_layer_loses : exists ls f t ls',
  NoDup ls /\ move_layer ls (Some f) (Some t) = (ls', None) /\ ~ (forall x, In x ls -> In x ls').
Proof. exists [0; 1; 2], (-3)%Z, 2%Z, [0; 2; 0]. split; [repeat constructor; simpl; lia|].
  split; [reflexivity|]. intros H. specialize (H 1). simpl in H. lia. Qed.

(** The same failure for every list: [move_layer(-n, n-1)] on n >= 2 distinct layers deletes the second-lowest layer. *)
Lemma move_layer_loses_any a b rest : NoDup (a :: b :: rest) ->
  let ls := a :: b :: rest in let n := Z.of_nat (List.length ls) in
  exists ls', move_layer ls (Some (- n)%Z) (Some (n - 1)%Z) = (ls', None) /\ ~ In b ls'.
Proof. intros Hnd ls n. assert (Hn : (2 <= n)%Z) by (unfold n, ls; simpl List.length; lia).
  unfold move_layer. replace (- n <? n - 1)%Z with true by lia.
  assert (G : py_get ls (- n) = Ok a).
  { unfold py_get. replace (norm_idx (List.length ls) (- n)) with (Some 0); [reflexivity|].
    symmetry. apply norm_idx_Some. right. unfold n. split; [split|]; lia. }
  rewrite G. replace (n - 1 + 1)%Z with (Z.of_nat (List.length ls)) by lia.
  assert (Ei : py_insert ls (Z.of_nat (List.length ls)) a = (ls ++ [a])%list).
  { unfold py_insert. rewrite clamp_idx_nat, Nat.min_id, firstn_all, skipn_all. reflexivity. }
  rewrite Ei.
  assert (G2 : py_get (ls ++ [a]) (- n) = Ok b).
  { unfold py_get. replace (norm_idx (List.length (ls ++ [a])) (- n)) with (Some 1); [reflexivity|].
    symmetry. apply norm_idx_Some. right. rewrite app_length. change (List.length [a]) with 1. unfold n. split; [split|]; lia. }
  rewrite G2. unfold ls. change ((a :: b :: rest) ++ [a])%list with ([a] ++ b :: (rest ++ [a]))%list.
  inversion Hnd as [|? ? Ha Hnd']; subst. inversion Hnd' as [|? ? Hb Hr]; subst.
  rewrite remove_first; [|intros [E|[]]; apply Ha; left; auto].
  eexists; split; [reflexivity|]. simpl. rewrite in_app_iff. simpl. intros [E|[E|[E|[]]]]; try (apply Ha; left; auto; fail).
  contradiction. Qed.

(** ** LayerOnSubstrate *)

Section Los.
  Context {A : Type} (variable : A -> bool).

  Lemma los_add_raises ls x i : variable x = true ->
    (exists v rest, ls = v :: rest /\ variable v = true) ->
    los_add_layer variable ls x i = (ls, Some ValueError).
  Proof. intros Hx (v & rest & -> & Hv). unfold los_add_layer. rewrite Hx. simpl. rewrite Hv. reflexivity. Qed.

  Lemma los_step_inv ls c : one_variable variable ls -> above_bottom c ->
    one_variable variable (fst (los_add_layer variable ls (fst c) (snd c))).
  Proof. intros (v & rest & -> & Hv & Hr) Hc. destruct c as [x i]; simpl in *.
    unfold los_add_layer. destruct (variable x) eqn:Hx.
    - simpl. rewrite Hv. simpl. exists v, rest; auto.
    - destruct i as [|i|]; unfold add_layer.
      + simpl. exists v, (rest ++ [x]). split; [reflexivity|]. split; [assumption|]. apply Forall_app; auto.
      + unfold fst, py_insert. cbn in Hc. destruct (clamp_idx (List.length (v :: rest)) i) as [|k] eqn:Ek.
        * exfalso. unfold clamp_idx in Ek. simpl List.length in Ek. destruct (i <? 0)%Z eqn:?; lia.
        * cbn [firstn skipn app]. exists v, (firstn k rest ++ x :: skipn k rest).
          split; [reflexivity|]. split; [assumption|].
          rewrite <- (firstn_skipn k rest) in Hr. apply Forall_app in Hr. destruct Hr as [H1 H2].
          apply Forall_app; split; auto.
      + simpl. exists v, rest; auto. Qed.

  Lemma los_run_inv calls : forall ls, one_variable variable ls -> Forall above_bottom calls ->
    one_variable variable (los_run variable ls calls).
  Proof. unfold los_run. induction calls as [|c calls IH]; intros ls H Hc; [exact H|]. inversion Hc; subst.
    apply IH; [apply los_step_inv|]; assumption. Qed.
End Los.

Lemma los_two_variable : exists (calls : list (bool * index_arg)),
  let ls := los_run (fun b => b) [] calls in List.length (filter (fun b => b) ls) = 2.
Proof. exists [(false, INext); (true, INext); (true, INext)]. reflexivity. Qed.

(** ** Copies *)

Lemma derefs_ext h h' l : Forall (fun a => nth_error h a = nth_error h' a) l -> derefs h l = derefs h' l.
Proof. induction 1 as [|a l Ha _ IH]; simpl; [reflexivity|]. rewrite Ha, IH. reflexivity. Qed.

Lemma view_ext h h' r : (forall a, In a (addrs r) -> nth_error h a = nth_error h' a) -> view h r = view h' r.
Proof. intros H. unfold view. rewrite (H (r_ambient r)) by (left; auto). rewrite (H (r_substrate r)) by (right; left; auto).
  rewrite (derefs_ext h h' (r_layers r)); [reflexivity|]. apply Forall_forall. intros a Ha; apply H; right; right; auto. Qed.

Lemma update_other h a f b : a <> b -> nth_error (update h a f) b = nth_error h b.
Proof. intros H. unfold update. destruct (nth_error h a); [|reflexivity]. rewrite nth_error_set_nth.
  destruct (Nat.eqb_spec b a); [congruence|reflexivity]. Qed.

Lemma py_insert_In A (l : list A) i x y : In y (py_insert l i x) -> y = x \/ In y l.
Proof. intros H. apply (Permutation_in (l' := x :: l)) in H; [destruct H; auto|]. apply py_insert_perm. Qed.

Lemma set_nth_In A (l : list A) i x y : In y (set_nth l i x) -> y = x \/ In y l.
Proof. intros H. apply In_nth_error in H. destruct H as (k & H). rewrite nth_error_set_nth in H.
  destruct (Nat.eqb k i); [destruct (i <? List.length l)%nat|]; [left; congruence|discriminate|right; eapply nth_error_In; eauto]. Qed.

Lemma py_set_In A (l r : list A) i x y : py_set l i x = Ok r -> In y r -> y = x \/ In y l.
Proof. unfold py_set. destruct (norm_idx (List.length l) i); [|discriminate]. intros H; inversion H; subst. apply set_nth_In. Qed.

Lemma swap_layers_In A (l : list A) f t y : In y (fst (swap_layers l f t)) -> In y l.
Proof. unfold swap_layers. destruct f as [f|]; [|auto]. destruct t as [t|]; [|auto].
  destruct (py_get l t) as [x|] eqn:Gt; [|auto]. destruct (py_get l f) as [v|] eqn:Gf; [|auto].
  apply py_get_In in Gt, Gf.
  destruct (py_set l t v) as [l1|] eqn:S1; [|auto].
  destruct (py_set l1 f x) as [l2|] eqn:S2; simpl; intros H.
  - apply (py_set_In _ _ _ _ _ _ S2) in H. destruct H as [->|H]; [assumption|].
    apply (py_set_In _ _ _ _ _ _ S1) in H. destruct H as [->|H]; assumption.
  - apply (py_set_In _ _ _ _ _ _ S1) in H. destruct H as [->|H]; assumption. Qed.

Lemma py_remove_sub (l r : list nat) x y : py_remove Nat.eqb l x = Ok r -> In y r -> In y l.
Proof. intros H Hy. apply py_remove_perm in H. apply (Permutation_in (l := x :: r)); [symmetry; exact H|right; assumption]. Qed.

Lemma move_layer_In (l : list nat) f t y : In y (fst (move_layer l f t)) -> In y l.
Proof. unfold move_layer. destruct f as [f|]; [|auto]. destruct t as [t|]; [|auto].
  destruct (f <? t)%Z; [|destruct (t <? f)%Z; [|auto]].
  - destruct (py_get l f) as [x|] eqn:Gx; [|auto]. apply py_get_In in Gx.
    assert (K : In y (py_insert l (t + 1) x) -> In y l) by (intros H; apply py_insert_In in H; destruct H; congruence).
    destruct (py_get (py_insert l (t + 1) x) f) as [z|]; [|auto].
    destruct (py_remove Nat.eqb (py_insert l (t + 1) x) z) as [l2|] eqn:Er; simpl; [|auto].
    intros H. apply K. exact (py_remove_sub _ _ _ _ Er H).
  - destruct (py_get l f) as [x|] eqn:Gx; [|auto]. apply py_get_In in Gx.
    destruct (py_remove Nat.eqb l x) as [l1|] eqn:Er; [|auto]. simpl. intros H.
    apply py_insert_In in H. destruct H as [->|H]; [assumption|]. exact (py_remove_sub _ _ _ _ Er H). Qed.

Lemma length_update h a f : List.length (update h a f) = List.length h.
Proof. unfold update. destruct (nth_error h a); [apply length_set_nth|reflexivity]. Qed.

(** Frame: a structure that shares no layer object with [r] is not affected by anything done to [r]. *)
Definition framed (F : list nat) (h : heap) (r : rstruct) : Prop :=
  Forall (fun a => a < List.length h) F /\ (forall a, In a F -> In a (addrs r) -> False).

Lemma step_frame F h r o h' r' : framed F h r -> step (h, r) o = (h', r') ->
  framed F h' r' /\ forall a, In a F -> nth_error h' a = nth_error h a.
Proof. intros [Hb Hd] H. rewrite Forall_forall in Hb. unfold framed. rewrite Forall_forall.
  assert (Hn : forall l : layer, (forall a, In a F -> a < List.length (h ++ [l])) /\ (forall a, In a F -> nth_error (h ++ [l]) a = nth_error h a)).
  { intros l. split; intros a Ha; specialize (Hb a Ha); [rewrite app_length; lia|apply nth_error_app1; assumption]. }
  assert (Hf : In (List.length h) F -> False) by (intros K; specialize (Hb _ K); lia).
  destruct o as [i n|f t|f t|l i|l|l]; cbn [step] in H.
  - unfold rename_layer in H. destruct (py_get (r_layers r) i) as [a|e] eqn:G; simpl in H; inversion H; subst; [|auto].
    apply py_get_In in G. split; [split|].
    + intros b Hb'. rewrite length_update. auto.
    + assumption.
    + intros b Hb'. apply update_other. intros ->. apply (Hd b Hb'). right; right; assumption.
  - inversion H; subst. split; [split|]; auto. intros a Ha [E|[E|E]]; [apply (Hd a Ha); left; auto|apply (Hd a Ha); right; left; auto|].
    simpl in E. apply swap_layers_In in E. apply (Hd a Ha). right; right; assumption.
  - inversion H; subst. split; [split|]; auto. intros a Ha [E|[E|E]]; [apply (Hd a Ha); left; auto|apply (Hd a Ha); right; left; auto|].
    simpl in E. apply move_layer_In in E. apply (Hd a Ha). right; right; assumption.
  - inversion H; subst. destruct (Hn l) as [N1 N2]. split; [split|]; auto.
    intros a Ha [E|[E|E]]; [apply (Hd a Ha); left; auto|apply (Hd a Ha); right; left; auto|].
    simpl in E. assert (E' : a = List.length h \/ In a (r_layers r)).
    { destruct i; simpl in E; [rewrite in_app_iff in E; simpl in E; intuition congruence|apply py_insert_In in E; assumption|auto]. }
    destruct E' as [->|E']; [auto|]. apply (Hd a Ha). right; right; assumption.
  - inversion H; subst. destruct (Hn l) as [N1 N2]. split; [split|]; auto.
    intros a Ha [E|[E|E]]; simpl in E; [subst; auto|apply (Hd a Ha); right; left; auto|apply (Hd a Ha); right; right; auto].
  - inversion H; subst. destruct (Hn l) as [N1 N2]. split; [split|]; auto.
    intros a Ha [E|[E|E]]; simpl in E; [apply (Hd a Ha); left; auto|subst; auto|apply (Hd a Ha); right; right; auto]. Qed.

Lemma run_frame ops : forall F h r h' r', framed F h r -> run (h, r) ops = (h', r') ->
  forall a, In a F -> nth_error h' a = nth_error h a.
Proof. induction ops as [|o ops IH]; intros F h r h' r' Hf H a Ha; unfold run in *; cbn [fold_left] in H; [congruence|].
  destruct (step (h, r) o) as [h1 r1] eqn:E. destruct (step_frame _ _ _ _ _ _ Hf E) as [Hf1 Hn].
  rewrite (IH _ _ _ _ _ Hf1 H a Ha). auto. Qed.

Lemma run_view ops h r q h' r' s : (forall a, In a (addrs q) -> a < List.length h) ->
  (forall a, In a (addrs q) -> In a (addrs r) -> False) -> run (h, r) ops = (h', r') -> view h q = Some s -> view h' q = Some s.
Proof. intros Hb Hd H Hv. rewrite <- Hv. apply view_ext. intros a Ha. apply (run_frame ops (addrs q) h r h' r'); auto.
  split; [apply Forall_forall|]; auto. Qed.

Lemma copy_at_spec h a h' a' : copy_at h a = Ok (h', a') ->
  exists l l', nth_error h a = Some l /\ layer_copy l = Ok l' /\ h' = (h ++ [l'])%list /\ a' = List.length h.
Proof. unfold copy_at. destruct (nth_error h a) as [l|]; [|discriminate].
  destruct (layer_copy l) as [l'|] eqn:E; simpl; [|discriminate]. intros H; inversion H; subst. eauto 6. Qed.

Lemma nth_error_app_some A (h e : list A) a x : nth_error h a = Some x -> nth_error (h ++ e) a = Some x.
Proof. intros H. rewrite nth_error_app1; [assumption|]. apply nth_error_Some; congruence. Qed.

Lemma derefs_app h e l ls : derefs h l = Some ls -> derefs (h ++ e) l = Some ls.
Proof. revert ls; induction l as [|a l IH]; simpl; intros ls H; [exact H|].
  destruct (nth_error h a) as [x|] eqn:E; [|discriminate]. destruct (derefs h l) as [xs|]; [|discriminate].
  rewrite (nth_error_app_some _ _ e _ _ E), (IH xs eq_refl). exact H. Qed.

Lemma copy_all_spec l : forall h h' l', copy_all h l = Ok (h', l') ->
  exists e, h' = (h ++ e)%list /\ Forall (fun a => List.length h <= a < List.length h') l' /\
    (forall ls, derefs h l = Some ls -> exists ls', mapM layer_copy ls = Ok ls' /\ derefs h' l' = Some ls').
Proof. induction l as [|a l IH]; simpl; intros h h' l' H.
  - inversion H; subst. exists []. rewrite app_nil_r. split; [reflexivity|]. split; [constructor|].
    intros ls Hls; inversion Hls; subst. exists []; auto.
  - destruct (copy_at h a) as [[h1 a1]|] eqn:E1; [|discriminate]; simpl in H.
    destruct (copy_all h1 l) as [[h2 l2]|] eqn:E2; [|discriminate]; simpl in H. inversion H; subst; clear H.
    apply copy_at_spec in E1. destruct E1 as (x & x' & Hx & Hc & -> & ->).
    destruct (IH _ _ _ E2) as (e & -> & Hf & Hd). exists ([x'] ++ e)%list.
    split; [now rewrite <- app_assoc|]. split.
    + constructor.
      * rewrite !app_length. simpl. lia.
      * eapply Forall_impl; [|exact Hf]. simpl. intros b Hb. rewrite app_length in Hb at 1. simpl in Hb. lia.
    + intros ls Hls. destruct (nth_error h a) as [y|] eqn:E; [|discriminate].
      destruct (derefs h l) as [ys|] eqn:Ed; [|discriminate]. inversion Hls; subst; clear Hls. inversion Hx; subst.
      destruct (Hd ys) as (ls' & Em & Ed'); [apply derefs_app; assumption|].
      exists (x' :: ls'). simpl. rewrite Hc; simpl; rewrite Em; simpl. split; [reflexivity|].
      rewrite Ed'. rewrite (nth_error_app_some _ (h ++ [x']) e (List.length h) x'); [reflexivity|].
      apply nth_error_mid. Qed.

Lemma copy_structure_spec h r h' c : copy_structure h r = Ok (h', c) ->
  exists e, h' = (h ++ e)%list /\ (forall a, In a (addrs c) -> List.length h <= a) /\
    forall s, view h r = Some s -> exists s', structure_copy s = Ok s' /\ view h' c = Some s'.
Proof. unfold copy_structure. intros H.
  destruct (copy_at h (r_ambient r)) as [[h1 a]|] eqn:E1; [|discriminate]; cbn [bind] in H.
  destruct (copy_at h1 (r_substrate r)) as [[h2 b]|] eqn:E2; [|discriminate]; cbn [bind] in H.
  destruct (copy_all h2 (r_layers r)) as [[h3 ls]|] eqn:E3; [|discriminate]; cbn [bind] in H.
  inversion H; subst; clear H.
  apply copy_at_spec in E1. destruct E1 as (x & x' & Hx & Hcx & -> & ->).
  apply copy_at_spec in E2. destruct E2 as (y & y' & Hy & Hcy & -> & ->).
  destruct (copy_all_spec _ _ _ _ E3) as (e & -> & Hf & Hd).
  exists ([x'] ++ [y'] ++ e)%list. split; [now rewrite !app_assoc|]. split.
  - unfold addrs; simpl. intros a [<-|[<-|Ha]]; [lia|rewrite app_length; lia|].
    rewrite Forall_forall in Hf. specialize (Hf a Ha). rewrite !app_length in Hf. simpl in Hf. lia.
  - intros s Hs. unfold view in Hs. rewrite Hx in Hs.
    destruct (nth_error h (r_substrate r)) as [y0|] eqn:E0; [|discriminate].
    rewrite (nth_error_app_some _ _ [x'] _ _ E0) in Hy. inversion Hy; subst; clear Hy.
    destruct (derefs h (r_layers r)) as [lv|] eqn:Ed; [|discriminate]. inversion Hs; subst; clear Hs.
    destruct (Hd lv) as (lv' & Em & Ed'); [apply derefs_app, derefs_app; assumption|].
    unfold structure_copy; simpl. rewrite Hcx; simpl; rewrite Hcy; simpl; rewrite Em; simpl.
    eexists; split; [reflexivity|]. unfold view; simpl. rewrite Ed'.
    assert (A1 : nth_error ((h ++ [x']) ++ [y']) (List.length h) = Some x').
    { apply nth_error_app_some. apply nth_error_mid. }
    assert (A2 : nth_error ((h ++ [x']) ++ [y']) (List.length (h ++ [x'])) = Some y') by apply nth_error_mid.
    rewrite (nth_error_app_some _ _ e _ _ A1), (nth_error_app_some _ _ e _ _ A2). reflexivity. Qed.

Lemma layer_copy_id l l' : layer_copy l = Ok l' -> l' = l \/ l' = mkLayer (l_kind l) (l_name l)
   (match l_kind l with KLayer | KConstantLayer => l_thickness l | _ => None end)
   (match l_kind l with KAmbient => None | _ => l_roughness l end) (l_sld l).
Proof. intros H; right; revert H.
  assert (C : forall p q, param_copy p = Ok q -> q = p /\ param_copy p = Ok p).
  { intros p q H. pose proof (proj1 (param_copy_Ok p q) H) as [-> Hv]. auto. }
  destruct l as [k n t r s]; destruct k; cbn [layer_copy l_kind l_name l_thickness l_roughness l_sld].
  - destruct t as [t|]; [|discriminate]; destruct (param_copy t) as [t1|] eqn:Et; [|discriminate]; cbn [rmap bind].
    destruct r as [r|]; [|discriminate]; destruct (param_copy r) as [r1|] eqn:Er; [|discriminate]; cbn [rmap bind].
    destruct s as [s|]; [|discriminate]; destruct (param_copy s) as [s1|] eqn:Es; [|discriminate]; cbn [rmap bind].
    intros H. apply C in Et, Er, Es. destruct Et as [-> Et], Er as [-> Er], Es as [-> Es].
    apply mk_layer_Ok in H. destruct H as (pt & pr & ps & [-> _] & [-> _] & [-> _] & _ & _ & ->). reflexivity.
  - destruct t as [t|]; [|discriminate]; destruct (param_copy t) as [t1|] eqn:Et; [|discriminate]; cbn [rmap bind].
    destruct r as [r|]; [|discriminate]; destruct (param_copy r) as [r1|] eqn:Er; [|discriminate]; cbn [rmap bind].
    destruct s as [s|]; [|discriminate]; destruct (param_copy s) as [s1|] eqn:Es; [|discriminate]; cbn [rmap bind].
    apply C in Et, Er, Es. destruct Et as [-> Et], Er as [-> Er], Es as [-> Es].
    unfold mk_constant_layer; cbn [set_param_const]. rewrite Et, Er, Es. cbn [rmap bind check_nonneg_opt].
    destruct (check_nonneg t); [|discriminate]; cbn [bind]. destruct (check_nonneg r); [|discriminate]; cbn [bind].
    intros H; inversion H; reflexivity.
  - destruct r as [r|]; [|discriminate]; destruct (param_copy r) as [r1|] eqn:Er; [|discriminate]; cbn [rmap bind].
    destruct s as [s|]; [|discriminate]; destruct (param_copy s) as [s1|] eqn:Es; [|discriminate]; cbn [rmap bind].
    apply C in Er, Es. destruct Er as [-> Er], Es as [-> Es].
    unfold mk_substrate; cbn [set_param_const]. rewrite Er, Es. cbn [rmap bind check_nonneg_opt].
    destruct (check_nonneg r); [|discriminate]; cbn [bind]. intros H; inversion H; reflexivity.
  - destruct s as [s|]; [|discriminate]; destruct (param_copy s) as [s1|] eqn:Es; [|discriminate]; cbn [rmap bind].
    apply C in Es. destruct Es as [-> Es].
    unfold mk_ambient; cbn [set_param_const]. rewrite Es. cbn [rmap bind]. intros H; inversion H; reflexivity. Qed.

(** The attributes a layer has are those its class defines (true for every constructed layer). *)
Definition class_shape (l : layer) : Prop :=
  match l_kind l with
  | KLayer | KConstantLayer => True
  | KSubstrate => l_thickness l = None
  | KAmbient => l_thickness l = None /\ l_roughness l = None
  end.

Lemma layer_copy_same l l' : class_shape l -> layer_copy l = Ok l' -> l' = l.
Proof. intros Hs H. apply layer_copy_id in H. destruct H as [->| ->]; [reflexivity|].
  destruct l as [[| | |] n t r s]; unfold class_shape in Hs; simpl in *; try reflexivity.
  - subst; reflexivity.
  - destruct Hs; subst; reflexivity. Qed.

Lemma structure_copy_same s s' : class_shape (st_ambient s) -> class_shape (st_substrate s) ->
  Forall class_shape (st_layers s) -> structure_copy s = Ok s' -> s' = s.
Proof. intros Ha Hb Hl H. unfold structure_copy in H. destruct s as [a b ls]; simpl in *.
  destruct (layer_copy a) as [a'|] eqn:Ea; [|discriminate]; simpl in H.
  destruct (layer_copy b) as [b'|] eqn:Eb; [|discriminate]; simpl in H.
  destruct (mapM layer_copy ls) as [ls'|] eqn:El; [|discriminate]; simpl in H. inversion H; subst.
  f_equal; try (apply layer_copy_same; assumption).
  apply mapM_Ok_iff in El. clear - El Hl. induction El as [|x y l l' E _ IH]; [reflexivity|].
  inversion Hl; subst. f_equal; [apply layer_copy_same|]; auto. Qed.

Lemma layer_copy_wf l : well_formed l -> layer_copy l = Ok l.
Proof. destruct l as [k n t r s]. intros [(ps & Es & Vs) H]. simpl in *. subst s.
  assert (G : forall o, good_dim o -> exists p, o = Some p /\ param_copy p = Ok p /\ check_nonneg p = Ok tt).
  { intros o (p & -> & V & N). exists p. rewrite param_copy_valid by assumption. split; [|split]; auto. now apply check_nonneg_Ok. }
  pose proof (param_copy_valid ps Vs) as Cs.
  destruct k; destruct H as [H1 H2].
  - destruct (G _ H1) as (pt & -> & C1 & N1), (G _ H2) as (pr & -> & C2 & N2).
    cbn [layer_copy l_kind l_thickness l_roughness l_sld]. rewrite C1, C2, Cs. cbn [rmap bind].
    unfold mk_layer, set_param. rewrite C1, C2, Cs. cbn [bind]. rewrite N1, N2. reflexivity.
  - destruct (G _ H1) as (pt & -> & C1 & N1), (G _ H2) as (pr & -> & C2 & N2).
    cbn [layer_copy l_kind l_thickness l_roughness l_sld]. rewrite C1, C2, Cs. cbn [rmap bind].
    unfold mk_constant_layer, set_param_const. rewrite C1, C2, Cs. cbn [bind rmap check_nonneg_opt]. rewrite N1, N2. reflexivity.
  - subst t. destruct (G _ H2) as (pr & -> & C2 & N2).
    cbn [layer_copy l_kind l_thickness l_roughness l_sld]. rewrite C2, Cs. cbn [rmap bind].
    unfold mk_substrate, set_param_const. rewrite C2, Cs. cbn [bind rmap check_nonneg_opt]. rewrite N2. reflexivity.
  - subst t r. cbn [layer_copy l_kind l_thickness l_roughness l_sld]. rewrite Cs. cbn [rmap bind].
    unfold mk_ambient, set_param_const. rewrite Cs. reflexivity. Qed.

Lemma copy_at_wf h a l : nth_error h a = Some l -> well_formed l -> copy_at h a = Ok (h ++ [l], List.length h).
Proof. intros H W. unfold copy_at. rewrite H, layer_copy_wf by assumption. reflexivity. Qed.

Lemma copy_all_wf l : forall h ls, derefs h l = Some ls -> Forall well_formed ls ->
  exists h' l', copy_all h l = Ok (h', l').
Proof. induction l as [|a l IH]; intros h ls H W; simpl in *; [eauto|].
  destruct (nth_error h a) as [x|] eqn:E; [|discriminate]. destruct (derefs h l) as [xs|] eqn:D; [|discriminate].
  inversion H; subst. inversion W; subst. rewrite (copy_at_wf _ _ _ E) by assumption. cbn [bind].
  destruct (IH (h ++ [x]) xs) as (h2 & l2 & E2); [apply derefs_app; assumption|assumption|].
  rewrite E2. cbn [bind]. eauto. Qed.

Lemma copy_structure_wf h r s : view h r = Some s -> Forall well_formed (all_layers s) ->
  exists h' c, copy_structure h r = Ok (h', c).
Proof. unfold view. destruct (nth_error h (r_ambient r)) as [a|] eqn:Ea; [|discriminate].
  destruct (nth_error h (r_substrate r)) as [b|] eqn:Eb; [|discriminate].
  destruct (derefs h (r_layers r)) as [ls|] eqn:El; [|discriminate]. intros H W; inversion H; subst.
  unfold all_layers in W. simpl in W. inversion W as [|? ? Wb W']; subst. apply Forall_app in W'. destruct W' as [Wl Wa].
  inversion Wa; subst. unfold copy_structure. rewrite (copy_at_wf _ _ _ Ea) by assumption. cbn [bind].
  rewrite (copy_at_wf (h ++ [a]) (r_substrate r) b) by (auto using nth_error_app_some). cbn [bind].
  destruct (copy_all_wf (r_layers r) ((h ++ [a]) ++ [b]) ls) as (h' & l' & E); [do 2 apply derefs_app; assumption|assumption|].
  rewrite E. cbn [bind]. eauto. Qed.

Lemma view_bounds h r s : view h r = Some s -> forall a, In a (addrs r) -> a < List.length h.
Proof. unfold view. destruct (nth_error h (r_ambient r)) as [x|] eqn:Ea; [|discriminate].
  destruct (nth_error h (r_substrate r)) as [y|] eqn:Eb; [|discriminate].
  destruct (derefs h (r_layers r)) as [ls|] eqn:El; [|discriminate]. intros _ a [<-|[<-|Ha]].
  - apply nth_error_Some; congruence.
  - apply nth_error_Some; congruence.
  - revert ls El Ha. induction (r_layers r) as [|b l IH]; intros ls El Ha; simpl in *; [contradiction|].
    destruct (nth_error h b) eqn:E; [|discriminate]. destruct (derefs h l) eqn:D; [|discriminate].
    destruct Ha as [<-|Ha]; [apply nth_error_Some; congruence|eapply IH; eauto]. Qed.

Lemma copy_independent h r s : view h r = Some s -> Forall well_formed (all_layers s) ->
  exists h' c, copy_structure h r = Ok (h', c) /\ view h' c = Some s /\ view h' r = Some s /\
  (forall ops h'' c', run (h', c) ops = (h'', c') -> view h'' r = Some s) /\
  (forall ops h'' r', run (h', r) ops = (h'', r') -> view h'' c = Some s).
Proof. intros Hs W. destruct (copy_structure_wf _ _ _ Hs W) as (h' & c & E). exists h', c. split; [assumption|].
  destruct (copy_structure_spec _ _ _ _ E) as (e & -> & Hc & Hv). destruct (Hv s Hs) as (s' & Es & Ev).
  assert (Cs : structure_copy s = Ok s).
  { unfold structure_copy. destruct s as [a b ls]. unfold all_layers in W. simpl in W. inversion W as [|? ? Wb W']; subst.
    apply Forall_app in W'. destruct W' as [Wl Wa]. inversion Wa; subst. simpl.
    rewrite !layer_copy_wf by assumption. cbn [bind].
    replace (mapM layer_copy ls) with (Ok ls : res (list layer)); [reflexivity|].
    symmetry. apply mapM_Ok_iff. clear - Wl. induction Wl; constructor; auto using layer_copy_wf. }
  assert (s' = s) by congruence. subst s'.
  pose proof (view_bounds _ _ _ Hs) as Hr.
  assert (Vr : view (h ++ e) r = Some s).
  { rewrite <- Hs. apply view_ext. intros a Ha. apply nth_error_app1; auto. }
  assert (D : forall a, In a (addrs r) -> In a (addrs c) -> False).
  { intros a A1 A2. apply Hr in A1. apply Hc in A2. lia. }
  split; [assumption|]. split; [assumption|]. split; intros ops h'' x H.
  - eapply (run_view ops (h ++ e) c r); eauto. apply (view_bounds _ _ _ Vr).
  - eapply (run_view ops (h ++ e) r c); eauto. apply (view_bounds _ _ _ Ev). Qed.

(** ** LayerOnSubstrate on layer objects *)
Lemma los_refuted : exists calls : list (layer * index_arg),
  2 <= List.length (filter is_variable (los_run is_variable [] calls)).
Proof. exists [(mkLayer KConstantLayer "oxide" None None None, INext); (mkLayer KLayer "film" None None None, INext);
               (mkLayer KLayer "film2" None None None, INext)]. simpl. lia. Qed.

Lemma los_first x calls : is_variable x = true -> Forall above_bottom calls ->
  List.length (filter is_variable (los_run is_variable [] ((x, INext) :: calls))) = 1.
Proof. intros Hx Hc. change (los_run is_variable [] ((x, INext) :: calls)) with (los_run is_variable (fst (los_add_layer is_variable [] x INext)) calls).
  unfold los_add_layer at 1. rewrite Hx. cbn [has_variable_layer add_layer fst app].
  destruct (los_run_inv is_variable calls [x]) as (v & rest & E & Hv & Hr); [exists x, []; auto|assumption|].
  rewrite E. cbn [filter]. rewrite Hv. cbn [List.length].
  replace (filter is_variable rest) with (@nil layer); [reflexivity|].
  clear E. induction Hr as [|y l Hy _ IH]; [reflexivity|]. simpl. rewrite Hy. assumption. Qed.

(** Constructed layers are well formed. *)
Lemma mk_layer_wf name t r s l : mk_layer name t r s = Ok l -> well_formed l.
Proof. intros H. apply mk_layer_Ok in H. destruct H as (pt & pr & ps & A & B & C & D & E & ->).
  assert (V : forall n i p, denotes n i p -> valid_param p).
  { intros n [q|[|a [|b l]]|v] p; simpl; try contradiction; [intros [-> ?]; assumption|intros [_ ?]; assumption|intros ->; exact I]. }
  split; simpl; [exists ps; split; [reflexivity|exact (V _ _ _ C)]|].
  split; eexists; (split; [reflexivity|]); split; try assumption; [exact (V _ _ _ A)|exact (V _ _ _ B)]. Qed.

(** ** Dictionaries loaded into a used structure; ranges given to constant layers *)
Local Open Scope string_scope.
Lemma from_dict_appends s t : storable_sample s ->
  exists d t', to_dict s = Ok d /\ from_dict t d = (t', None) /\
    same_layer (st_ambient s) (st_ambient t') /\ same_layer (st_substrate s) (st_substrate t') /\
    exists new, st_layers t' = (st_layers t ++ new)%list /\ Forall2 same_layer (st_layers s) new.
Proof. intros H. destruct (dict_roundtrip_any s t H) as (d & s' & Ed & (Ha & Hb & Hl) & _ & _ & F).
  exists d. eexists. split; [exact Ed|]. split; [exact F|]. simpl. split; [assumption|]. split; [assumption|].
  exists (st_layers s'). split; [reflexivity|assumption]. Qed.

Lemma const_pair_silent name a b :
  mk_ambient name (PISeq [a; b]) = Ok (mkLayer KAmbient name None None None).
Proof. reflexivity. Qed.

Lemma const_param_range name lo hi : (lo < hi)%R -> (0 <= lo)%R ->
  exists l p, mk_constant_layer name (PIParam (Range (Flt lo) (Flt hi) None)) (PIVal (JNum (Flt 0))) (PIVal (JNum (Flt 0))) = Ok l /\
    l_thickness l = Some p /\ is_const p = false.
Proof. intros H H0. unfold mk_constant_layer, set_param_const.
  rewrite param_copy_valid by (split; [left; split; reflexivity|left; exact H]). cbn [rmap bind check_nonneg_opt].
  assert (N : forall p, nonneg_min p -> check_nonneg p = Ok tt) by (intros; apply check_nonneg_Ok; assumption).
  rewrite N; [|split; [left; split; reflexivity|intros [K|[_ K]]; simpl in K; lra]]. cbn [bind].
  rewrite N; [|split; [left; split; reflexivity|intros [K|[_ K]]; simpl in K; lra]]. cbn [bind].
  eexists; eexists; split; [reflexivity|]. split; reflexivity. Qed.

Lemma const_scalars n t r s l : scalar t -> scalar r -> scalar s ->
  (mk_constant_layer n t r s = Ok l -> const_opt (l_thickness l) /\ const_opt (l_roughness l) /\ const_opt (l_sld l) /\
     l_thickness l <> None /\ l_roughness l <> None /\ l_sld l <> None) /\
  (mk_substrate n r s = Ok l -> const_opt (l_roughness l) /\ const_opt (l_sld l) /\ l_roughness l <> None /\ l_sld l <> None) /\
  (mk_ambient n s = Ok l -> const_opt (l_sld l) /\ l_sld l <> None).
Proof. intros Ht Hr Hs.
  assert (C : forall v m, const_opt (Some (Const v m))) by (intros v m p H; inversion H; reflexivity).
  split; [|split]; intros H.
  - apply mk_constant_layer_Ok in H; auto. destruct H as (? & ? & ? & _ & _ & _ & _ & _ & ->). simpl. repeat split; auto; discriminate.
  - apply mk_substrate_Ok in H; auto. destruct H as (? & ? & _ & _ & _ & ->). simpl. repeat split; auto; discriminate.
  - destruct (mk_ambient_Ok n s Hs) as (v & _ & E). rewrite E in H. injection H as <-. simpl. split; auto; discriminate. Qed.
