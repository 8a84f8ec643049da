From Coq Require Import Reals Lra.
From Verif Require Import Py Str Arr Sample_Model TrainedModel_Model Path_Model Utils_Model Utils_Spec Utils_Proofs Container_Model Container_Proofs Callbacks_Model Callbacks_Spec.
Local Open Scope R_scope.

Lemma below_spec delta x b : below delta x b = true <-> exists v, x = Some v /\ match b with None => True | Some w => v < w - delta end.
Proof. destruct x as [v|], b as [w|]; cbn [below].
  - destruct (Rlt_dec v (w - delta)) as [L|L]; split; try discriminate; [intros _; eauto|reflexivity|intros (v' & E & L'); injection E as <-; contradiction].
  - split; [eauto|reflexivity].
  - split; [discriminate|intros (v & E & _); discriminate].
  - split; [discriminate|intros (v & E & _); discriminate]. Qed.
Lemma below_false delta x b : below delta x b = false -> forall v, x = Some v -> exists w, b = Some w /\ w - delta <= v.
Proof. intros H v ->. destruct b as [w|]; cbn [below] in H; [|discriminate]. destruct (Rlt_dec v (w - delta)); [discriminate|]. exists w. split; [reflexivity|lra]. Qed.

(** ** The learning rate *)
Definition pst := (fl * nat * R)%type.
Definition pstep (st : pst) (v : fl) : pst :=
  let '(best, wait, lr) := st in
  if below min_delta v best then (v, O, lr)
  else if Nat.leb patience (wait + 1) then if Rlt_dec 0 lr then (best, O, Rmax (lr * factor) 0) else (best, (wait + 1)%nat, lr) else (best, (wait + 1)%nat, lr).
Definition p_best (st : pst) : fl := fst (fst st).
Definition p_wait (st : pst) : nat := snd (fst st).
Definition p_lr (st : pst) : R := snd st.
Definition prun (st : pst) (vs : list fl) : pst := fold_left pstep vs st.
Fixpoint lrs_of (st : pst) (vs : list fl) : list R := p_lr st :: match vs with [] => [] | v :: vs => lrs_of (pstep st v) vs end.

Lemma prun_snoc st vs v : prun st (vs ++ [v])%list = pstep (prun st vs) v.
Proof. unfold prun. rewrite fold_left_app. reflexivity. Qed.
Lemma lrs_nth vs : forall st i, nth_error (lrs_of st vs) i = if (i <=? List.length vs)%nat then Some (p_lr (prun st (firstn i vs))) else None.
Proof. induction vs as [|v vs IH]; intros st [|i]; cbn [lrs_of nth_error]; try reflexivity.
  - destruct i; reflexivity.
  - rewrite IH. reflexivity. Qed.

(** One step, for a positive rate *)
Lemma pstep_cases st v : 0 < p_lr st -> (p_wait st <= 9)%nat ->
  (below min_delta v (p_best st) = true /\ pstep st v = (v, O, p_lr st)) \/
  (below min_delta v (p_best st) = false /\ (p_wait st < 9)%nat /\ pstep st v = (p_best st, Datatypes.S (p_wait st), p_lr st)) \/
  (below min_delta v (p_best st) = false /\ p_wait st = 9%nat /\ pstep st v = (p_best st, O, p_lr st / 2)).
Proof. destruct st as [[b w] l]. unfold p_lr, p_wait, p_best. cbn [fst snd]. intros Hl Hw. unfold pstep. destruct (below min_delta v b); [left; auto|right].
  unfold patience. destruct (Nat.leb_spec 10 (w + 1)) as [L|L].
  - right. destruct (Rlt_dec 0 l) as [_|N]; [|contradiction]. repeat split; [lia|]. f_equal. unfold factor, Rdiv. apply Rmax_left. lra.
  - left. repeat split; [lia|]. f_equal. f_equal. lia. Qed.

(** What is known after the losses [vs] *)
Record pinv (vs : list fl) (st : pst) : Prop := {
  pi_pos : 0 < p_lr st;
  pi_wait : (p_wait st <= 9)%nat;
  pi_len : (p_wait st <= List.length vs)%nat;
  pi_none : p_best st = None -> no_loss vs;
  pi_best : forall b, p_best st = Some b -> (exists u, (u + p_wait st < List.length vs)%nat /\ nth_error vs u = Some (Some b)) /\ forall w, In (Some w) vs -> b - min_delta <= w }.
Lemma pinv_nil lr : 0 < lr -> pinv [] (None, O, lr).
Proof. intros H. constructor; cbn; auto; try lia; [intros _ v []|discriminate]. Qed.
Lemma pinv_step vs st v : pinv vs st -> pinv (vs ++ [v])%list (pstep st v).
Proof. intros I. pose proof (pi_pos _ _ I) as Hp. pose proof (pi_wait _ _ I) as Hw. pose proof (pi_len _ _ I) as Hl.
  assert (D : 0 < min_delta) by (unfold min_delta; lra).
  assert (Old : below min_delta v (p_best st) = false -> (p_best st = None -> no_loss (vs ++ [v])%list) /\
     (forall b, p_best st = Some b -> (exists u, (u + p_wait st < List.length vs)%nat /\ nth_error (vs ++ [v])%list u = Some (Some b)) /\ forall w, In (Some w) (vs ++ [v])%list -> b - min_delta <= w)).
  { intros B. split.
    - intros N x Hx. apply in_app_or in Hx as [Hx|[<-|[]]]; [exact (pi_none _ _ I N x Hx)|]. destruct v as [y|]; [|reflexivity]. destruct (below_false _ _ _ B y eq_refl) as (w & E & _). congruence.
    - intros b Hb. destruct (pi_best _ _ I b Hb) as [(u & Hu & Eu) Hm]. split.
      + exists u. split; [exact Hu|]. rewrite nth_error_app1 by lia. exact Eu.
      + intros w Hx. apply in_app_or in Hx as [Hx|[E|[]]]; [exact (Hm w Hx)|]. destruct (below_false _ _ _ B w E) as (w' & E' & L). rewrite Hb in E'. injection E' as <-. exact L. }
  destruct (pstep_cases st v Hp Hw) as [[B E]|[[B [W E]]|[B [W E]]]]; rewrite E.
  - apply below_spec in B as (y & -> & L). constructor; unfold p_lr, p_wait, p_best; cbn [fst snd]; try lia.
    + exact Hp.
    + discriminate.
    + intros b Eb. injection Eb as <-. split.
      * exists (List.length vs). rewrite app_length. split; [simpl; lia|]. rewrite nth_error_app2 by lia. rewrite Nat.sub_diag. reflexivity.
      * intros w Hx. apply in_app_or in Hx as [Hx|[Ew|[]]]; [|injection Ew as <-; lra]. destruct (p_best st) as [b|] eqn:Eb.
        { destruct (pi_best _ _ I b Eb) as [_ Hm]. specialize (Hm w Hx). lra. }
        { pose proof (pi_none _ _ I Eb _ Hx). discriminate. }
  - destruct (Old B) as [O1 O2]. constructor; unfold p_lr, p_wait, p_best in *; cbn [fst snd]; try (rewrite app_length; simpl); try lia; try assumption.
    intros b Hb. destruct (O2 b Hb) as [(u & Hu & Eu) Hm]. split; [|exact Hm]. exists u. split; [lia|exact Eu].
  - destruct (Old B) as [O1 O2]. constructor; unfold p_lr, p_wait, p_best in *; cbn [fst snd]; try (rewrite app_length; simpl); try lia; try lra; try assumption.
    intros b Hb. destruct (O2 b Hb) as [(u & Hu & Eu) Hm]. split; [|exact Hm]. exists u. split; [lia|exact Eu]. Qed.
Lemma pinv_run vs lr : 0 < lr -> pinv vs (prun (None, O, lr) vs).
Proof. intros H. induction vs as [|v vs IH] using rev_ind; [apply pinv_nil, H|]. rewrite prun_snoc. apply pinv_step, IH. Qed.

Lemma firstn_snoc {A} (l : list A) i x : nth_error l i = Some x -> firstn (Datatypes.S i) l = (firstn i l ++ [x])%list.
Proof. revert i. induction l as [|y l IH]; intros [|i] E; try discriminate; cbn [firstn app].
  - injection E as <-. reflexivity.
  - f_equal. apply IH, E. Qed.

Lemma lr_halved vs lr : 0 < lr -> halved_on_plateaus vs (lrs_of (None, O, lr) vs).
Proof. intros H i a b Ea Eb N. rewrite lrs_nth in Ea, Eb. destruct (Nat.leb_spec i (List.length vs)) as [L|L]; [|discriminate]. destruct (Nat.leb_spec (Datatypes.S i) (List.length vs)) as [L1|L1]; [|discriminate].
  destruct (nth_error vs i) as [x|] eqn:Ex; [|apply nth_error_None in Ex; lia].
  rewrite (firstn_snoc vs i x Ex), prun_snoc in Eb. apply (f_equal (fun o => match o with Some z => z | None => 0 end)) in Ea, Eb. cbv beta iota in Ea, Eb. pose proof (pinv_run (firstn i vs) lr H) as I. set (st := prun (None, O, lr) (firstn i vs)) in *.
  pose proof (pi_len _ _ I) as Hl. rewrite firstn_length_le in Hl by lia.
  destruct (pstep_cases st x (pi_pos _ _ I) (pi_wait _ _ I)) as [[B E]|[[B [W E]]|[B [W E]]]]; rewrite E in Eb; cbn in Eb; try congruence.
  split; [rewrite <- Ea, <- Eb; reflexivity|]. split; [lia|]. intros j w Hj Ej. destruct (p_best st) as [best|] eqn:Eb'.
  - destruct (pi_best _ _ I best Eb') as [(u & Hu & Eu) Hm]. rewrite firstn_length_le in Hu by lia. exists u, best. split; [lia|]. split.
    + rewrite <- (firstn_skipn i vs), nth_error_app1 by (rewrite firstn_length_le; lia). exact Eu.
    + fold min_delta. destruct (Nat.eq_dec j i) as [->|Nj].
      * rewrite Ex in Ej. injection Ej as ->. destruct (below_false _ _ _ B w eq_refl) as (w' & E' & L'). injection E' as <-. exact L'.
      * apply Hm. apply (nth_error_In _ j). rewrite <- Ej. rewrite <- (firstn_skipn i vs) at 2. rewrite nth_error_app1 by (rewrite firstn_length_le; lia). reflexivity.
  - exfalso. destruct (Nat.eq_dec j i) as [->|Nj].
    + rewrite Ex in Ej. injection Ej as ->. destruct (below_false _ _ _ B w eq_refl) as (w' & E' & L'). discriminate.
    + assert (X : In (Some w) (firstn i vs)). { apply (nth_error_In _ j). rewrite <- Ej. rewrite <- (firstn_skipn i vs) at 2. rewrite nth_error_app1 by (rewrite firstn_length_le; lia). reflexivity. }
      pose proof (pi_none _ _ I Eb' _ X). discriminate. Qed.

(** Losses that are never better than the best one *)
Definition stale (b : fl) (vs : list fl) : Prop := forall v, In v vs -> below min_delta v b = false.
Lemma stale_run vs : forall b w l, 0 < l -> (w <= 9)%nat -> stale b vs ->
  let st' := prun (b, w, l) vs in p_best st' = b /\ 0 < p_lr st' /\ (p_wait st' <= 9)%nat /\ p_lr st' = l * (/ 2) ^ ((w + List.length vs) / 10) /\ p_wait st' = ((w + List.length vs) mod 10)%nat.
Proof. induction vs as [|v vs IH]; intros b w l Hp Hw Hs; cbn zeta.
  - cbn [prun fold_left List.length]. rewrite Nat.add_0_r. rewrite Nat.div_small, Nat.mod_small by lia. repeat split; auto. unfold p_lr. simpl. ring.
  - cbn [prun fold_left]. change (fold_left pstep vs ?z) with (prun z vs).
    assert (Hv := Hs v (or_introl eq_refl)). assert (Hs' : stale b vs) by (intros y Hy; apply Hs; right; exact Hy).
    destruct (pstep_cases (b, w, l) v Hp Hw) as [[B E]|[[B [W E]]|[B [W E]]]]; rewrite E; unfold p_best, p_wait, p_lr in B; cbn [fst snd] in B; [congruence| |]; unfold p_wait in W; cbn [fst snd] in W; unfold p_best, p_wait, p_lr in E |- *; cbn [fst snd] in E |- *; clear E.
    + pose proof (IH b (Datatypes.S w) l Hp ltac:(lia) Hs') as Q. cbn zeta in Q. unfold p_best, p_wait, p_lr in Q.
      replace (w + List.length (v :: vs))%nat with (Datatypes.S w + List.length vs)%nat by (simpl; lia). exact Q.
    + pose proof (IH b O (l / 2) ltac:(lra) ltac:(lia) Hs') as Q. cbn zeta in Q. unfold p_best, p_wait, p_lr in Q. destruct Q as (A & B' & C & E1 & E2).
      subst w. replace (9 + List.length (v :: vs))%nat with (0 + List.length vs + 1 * 10)%nat by (simpl; lia). rewrite Nat.div_add, Nat.mod_add by lia.
      repeat split; auto. rewrite E1. rewrite pow_add. unfold Rdiv. simpl (_ ^ 1). ring. Qed.
Lemma prun_app st a b : prun st (a ++ b)%list = prun (prun st a) b.
Proof. unfold prun. apply fold_left_app. Qed.
Lemma firstn_split {A} (l : list A) i m : firstn (i + m) l = (firstn i l ++ firstn m (skipn i l))%list.
Proof. revert i. induction l as [|x l IH]; intros [|i]; cbn [Nat.add firstn skipn app]; try (destruct m; reflexivity); try reflexivity. f_equal. apply IH. Qed.

Lemma lr_plateaus vs lr : 0 < lr -> plateaus_halved vs (lrs_of (None, O, lr) vs).
Proof. intros H i u v a b Hu Eu Hw Ea Eb. rewrite lrs_nth in Ea, Eb. destruct (Nat.leb_spec i (List.length vs)) as [L|L]; [|discriminate]. destruct (Nat.leb_spec (i + 10) (List.length vs)) as [L1|L1]; [|discriminate].
  apply (f_equal (fun o => match o with Some z => z | None => 0 end)) in Ea, Eb. cbv beta iota in Ea, Eb. rewrite <- Ea, <- Eb. clear Ea Eb. rewrite firstn_split, prun_app. pose proof (pinv_run (firstn i vs) lr H) as I. set (st := prun (None, O, lr) (firstn i vs)) in *.
  assert (Iu : In (Some v) (firstn i vs)). { apply (nth_error_In _ u). rewrite <- Eu. rewrite <- (firstn_skipn i vs) at 2. rewrite nth_error_app1 by (rewrite firstn_length_le; lia). reflexivity. }
  assert (Len : List.length (firstn 10 (skipn i vs)) = 10%nat) by (rewrite firstn_length_le; [reflexivity|rewrite skipn_length; lia]).
  assert (St : stale (p_best st) (firstn 10 (skipn i vs))).
  { intros y Hy. destruct (below min_delta y (p_best st)) eqn:B; [exfalso|reflexivity]. apply below_spec in B as (w & -> & Lw).
    apply In_nth_error in Hy as [j Ej]. assert (Hj : (j < 10)%nat) by (rewrite <- Len; apply nth_error_Some; congruence).
    assert (Ej' : nth_error vs (i + j) = Some (Some w)). { rewrite <- (firstn_skipn i vs), nth_error_app2 by (rewrite firstn_length_le; lia). rewrite firstn_length_le by lia. replace (i + j - i)%nat with j by lia.
      etransitivity; [|exact Ej]. rewrite <- (firstn_skipn 10 (skipn i vs)) at 1. rewrite nth_error_app1 by lia. reflexivity. }
    specialize (Hw (i + j)%nat w ltac:(lia) Ej'). destruct (p_best st) as [best|] eqn:Eb.
    - destruct (pi_best _ _ I best Eb) as [_ Hm]. specialize (Hm v Iu). lra.
    - pose proof (pi_none _ _ I Eb _ Iu). discriminate. }
  destruct (stale_run _ (p_best st) (p_wait st) (p_lr st) (pi_pos _ _ I) (pi_wait _ _ I) St) as (_ & _ & _ & E & _). replace (p_best st, p_wait st, p_lr st) with st in E by (destruct st as [[? ?] ?]; reflexivity). rewrite E, Len.
  assert (Q : ((p_wait st + 10) / 10 = 1)%nat). { pose proof (pi_wait _ _ I). replace (p_wait st + 10)%nat with (p_wait st + 1 * 10)%nat by lia. rewrite Nat.div_add by lia. rewrite Nat.div_small by lia. reflexivity. }
  rewrite Q. pose proof (pi_pos _ _ I). simpl. lra. Qed.

(** Without any usable loss the rate is halved every ten epochs. *)
Lemma lr_no_loss vs lr : 0 < lr -> no_loss vs -> p_lr (prun (None, O, lr) vs) = lr * (/ 2) ^ (List.length vs / 10).
Proof. intros H N. destruct (stale_run vs None O lr H ltac:(lia)) as (_ & _ & _ & E & _); [intros v Hv; rewrite (N v Hv); reflexivity|]. exact E. Qed.
(** It is never halved more often than that. *)
Lemma lr_bound vs : forall b w l, 0 < l -> (w <= 9)%nat -> exists h, (h <= (w + List.length vs) / 10)%nat /\ p_lr (prun (b, w, l) vs) = l * (/ 2) ^ h.
Proof. induction vs as [|v vs IH]; intros b w l Hp Hw.
  - exists O. split; [lia|]. unfold p_lr. cbn. ring.
  - cbn [prun fold_left]. change (fold_left pstep vs ?z) with (prun z vs). destruct (pstep_cases (b, w, l) v Hp Hw) as [[B E]|[[B [W E]]|[B [W E]]]]; rewrite E; unfold p_best, p_wait, p_lr in *; cbn [fst snd] in *.
    + destruct (IH v O l Hp ltac:(lia)) as (h & Hh & Eh). exists h. split; [|exact Eh]. etransitivity; [exact Hh|]. apply Nat.div_le_mono; simpl; lia.
    + destruct (IH b (Datatypes.S w) l Hp ltac:(lia)) as (h & Hh & Eh). exists h. split; [|exact Eh]. etransitivity; [exact Hh|]. apply Nat.div_le_mono; simpl; lia.
    + destruct (IH b O (l / 2) ltac:(lra) ltac:(lia)) as (h & Hh & Eh). exists (Datatypes.S h). split.
      * subst w. replace (9 + List.length (v :: vs))%nat with (0 + List.length vs + 1 * 10)%nat by (simpl; lia). rewrite Nat.div_add by lia. lia.
      * rewrite Eh. cbn [pow]. unfold Rdiv. ring. Qed.

(** ** Checkpoints *)
Section Check.
  Context {K : Type}.
  Fixpoint ck (best : fl) (cur : option (K * R)) (es : list (done K)) : option (K * R) :=
    match es with
    | [] => cur
    | e :: es => if below 0 (e_val e) best then ck (e_val e) (Some (e_net e, e_lr e)) es else ck best cur es
    end.
  Definition ck_inv (pre : list (done K)) (best : fl) (cur : option (K * R)) : Prop :=
    (best = None /\ cur = None /\ no_loss (map e_val pre)) \/
    exists i e, nth_error pre i = Some e /\ e_val e = best /\ cur = Some (e_net e, e_lr e) /\ first_best (map e_val pre) i.
  Lemma ck_run es : forall pre best cur, ck_inv pre best cur -> exists best', ck_inv (pre ++ es)%list best' (ck best cur es).
  Proof. induction es as [|e es IH]; intros pre best cur I; [exists best; rewrite app_nil_r; exact I|].
    replace (pre ++ e :: es)%list with ((pre ++ [e]) ++ es)%list by (rewrite <- app_assoc; reflexivity). cbn [ck].
    assert (NE : forall j w, nth_error (map e_val (pre ++ [e])%list) j = Some (Some w) -> nth_error (map e_val pre) j = Some (Some w) \/ (j = List.length pre /\ e_val e = Some w)).
    { intros j w Ej. rewrite map_app in Ej. destruct (Nat.lt_ge_cases j (List.length pre)) as [L|L].
      - left. rewrite nth_error_app1 in Ej by (rewrite map_length; exact L). exact Ej.
      - right. rewrite nth_error_app2 in Ej by (rewrite map_length; exact L). rewrite map_length in Ej. destruct (j - List.length pre)%nat eqn:Q; [|destruct n; discriminate]. cbn in Ej. injection Ej as Ej. split; [lia|exact Ej]. }
    destruct (below 0 (e_val e) best) eqn:B; apply IH.
    - right. apply below_spec in B as (v & Ev & Lv). exists (List.length pre), e. split; [rewrite nth_error_app2, Nat.sub_diag by lia; reflexivity|]. repeat split; auto.
      assert (Lt : forall j w, nth_error (map e_val pre) j = Some (Some w) -> v < w).
      { intros j w Ej. destruct I as [(-> & _ & N)|(i & e' & Ei & Eb & _ & (v' & Ev' & Hm & _))].
        - pose proof (N _ (nth_error_In _ _ Ej)). discriminate.
        - rewrite nth_error_map, Ei in Ev'. cbn in Ev'. injection Ev' as Ev'. rewrite <- Eb, Ev' in Lv. specialize (Hm j w Ej). lra. }
      exists v. split; [rewrite nth_error_map, nth_error_app2, Nat.sub_diag by lia; cbn; rewrite Ev; reflexivity|]. split.
      + intros j w Ej. apply NE in Ej as [Ej|[_ Ej]]; [apply Rlt_le, (Lt j), Ej|]. rewrite Ev in Ej. injection Ej as <-. lra.
      + intros j w Hj Ej. apply NE in Ej as [Ej|[Ej _]]; [apply (Lt j), Ej|lia].
    - destruct I as [(-> & -> & N)|(i & e' & Ei & Eb & Ec & (v' & Ev' & Hm & Hf))].
      + left. repeat split; auto. intros x Hx. rewrite map_app in Hx. apply in_app_or in Hx as [Hx|[<-|[]]]; [exact (N x Hx)|]. destruct (e_val e) as [y|]; [discriminate|reflexivity].
      + right. exists i, e'. pose proof Ei as Ei2. assert (Li : (i < List.length pre)%nat) by (apply nth_error_Some; congruence).
        split; [rewrite nth_error_app1 by exact Li; exact Ei|]. repeat split; auto. exists v'. rewrite nth_error_map, Ei in Ev'. cbn in Ev'. injection Ev' as Ev'.
        split; [rewrite nth_error_map, nth_error_app1 by exact Li; rewrite Ei; cbn; rewrite Ev'; reflexivity|]. split.
        * intros j w Ej. apply NE in Ej as [Ej|[_ Ej]]; [exact (Hm j w Ej)|]. destruct (below_false _ _ _ B w Ej) as (w' & E' & L'). rewrite <- Eb, Ev' in E'. injection E' as <-. lra.
        * intros j w Hj Ej. apply NE in Ej as [Ej|[Ej _]]; [exact (Hf j w Hj Ej)|lia]. Qed.
  Lemma ck_spec es : match ck None None es with
    | None => no_loss (map e_val es)
    | Some f => exists i e, first_best (map e_val es) i /\ nth_error es i = Some e /\ f = (e_net e, e_lr e) end.
  Proof. destruct (ck_run es [] None None) as (b & I); [left; repeat split; intros x []|]. cbn [app] in I. destruct I as [(_ & -> & N)|(i & e & Ei & _ & -> & F)]; [exact N|]. exists i, e. auto. Qed.
  Lemma ck_Some es : forall best c, exists f, ck best (Some c) es = Some f.
  Proof. induction es as [|e es IH]; intros best c; [exists c; reflexivity|]. cbn [ck]. destruct (below 0 (e_val e) best); apply IH. Qed.
  (** The current file only matters if nothing is written. *)
  Lemma ck_cur es : forall best c, match ck best None es with Some f => ck best (Some c) es = Some f | None => ck best (Some c) es = Some c end.
  Proof. induction es as [|e es IH]; intros best c; cbn [ck]; [reflexivity|]. destruct (below 0 (e_val e) best); [|apply IH]. destruct (ck_Some es (e_val e) (e_net e, e_lr e)) as [f Ef]. rewrite Ef. reflexivity. Qed.
End Check.

(** ** The training loop *)
Section Loop.
  Context {S K D V : Type} (epoch : D -> option Z -> S -> K -> R -> S * (K * fl)).
  Implicit Types (d : disk (K * R) V).

  Lemma ck_epoch v k lr d p cb : cb_epoch v (k, lr, d) (Checkpoint p cb) =
    ((k, lr, if below 0 v cb then put d p (EFile (Some (k, lr)) None) else d), Checkpoint p (if below 0 v cb then v else cb)).
  Proof. cbn [cb_epoch]. destruct (below 0 v cb); reflexivity. Qed.
  Lemma pl_epoch v k lr d pb w : cb_epoch v (k, lr, d) (Plateau pb w) = let st := pstep (pb, w, lr) v in ((k, p_lr st, d), Plateau (p_best st) (p_wait st)).
  Proof. cbn [cb_epoch]. unfold pstep. destruct (below min_delta v pb); [reflexivity|]. cbv zeta. destruct (Nat.leb patience (w + 1)); [|reflexivity]. destruct (Rlt_dec 0 lr); reflexivity. Qed.

  Lemma loop_simple x bs l p n : forall s k lr d cb pb w hist, exists s' k' lr' d' es,
    fit_loop epoch n x bs s (k, lr, d) [Board l; Checkpoint p cb; Plateau pb w] hist = (s', ((k', lr', d'), (hist ++ map (fun e => (e_val e, e_lr e)) es)%list)) /\
    List.length es = n /\ epochs_from (epoch x bs) s k es s' k' /\ (map e_lr es ++ [lr'])%list = lrs_of (pb, w, lr) (map e_val es) /\
    (forall y, y <> p -> d' y = d y) /\ d' p = match ck cb None es with Some f => Some (EFile (Some f) None) | None => d p end.
  Proof. induction n as [|n IH]; intros s k lr d cb pb w hist.
    - exists s, k, lr, d, []. cbn. rewrite app_nil_r. repeat split; auto. constructor.
    - cbn [fit_loop]. destruct (epoch x bs s k lr) as [s1 [k1 v]] eqn:Ee. cbn [cb_all]. change (cb_epoch v (k1, lr, d) (Board l)) with ((k1, lr, d), Board l). cbv iota beta. rewrite ck_epoch.
      set (d1 := if below 0 v cb then put d p (EFile (Some (k1, lr)) None) else d). set (cb1 := if below 0 v cb then v else cb). rewrite pl_epoch. cbv zeta.
      destruct (IH s1 k1 (p_lr (pstep (pb, w, lr) v)) d1 cb1 (p_best (pstep (pb, w, lr) v)) (p_wait (pstep (pb, w, lr) v)) (hist ++ [(v, lr)])%list) as (s' & k' & lr' & d' & es & E & Len & Tr & Lr & Do & Dp).
      exists s', k', lr', d', (mkDone k1 lr v :: es). split; [rewrite E, <- app_assoc; reflexivity|]. split; [cbn; rewrite Len; reflexivity|]. split; [econstructor; eassumption|]. split.
      + cbn [map app lrs_of e_lr e_val]. f_equal. rewrite Lr. destruct (pstep (pb, w, lr) v) as [[? ?] ?]. reflexivity.
      + split; [intros y Hy; rewrite Do by exact Hy; unfold d1; destruct (below 0 v cb); [apply put_other, Hy|reflexivity]|].
        rewrite Dp. cbn [ck e_val e_net e_lr]. unfold cb1, d1. destruct (below 0 v cb).
        * pose proof (ck_cur es v (k1, lr)) as C. destruct (ck v None es); rewrite C; [reflexivity|apply put_same].
        * reflexivity. Qed.
  Lemma loop_plateau x n : forall s k lr d pb w hist, exists s' k' lr' es,
    fit_loop epoch n x None s (k, lr, d) [Plateau pb w] hist = (s', ((k', lr', d), (hist ++ map (fun e => (e_val e, e_lr e)) es)%list)) /\
    List.length es = n /\ epochs_from (epoch x None) s k es s' k' /\ (map e_lr es ++ [lr'])%list = lrs_of (pb, w, lr) (map e_val es).
  Proof. induction n as [|n IH]; intros s k lr d pb w hist.
    - exists s, k, lr, []. cbn. rewrite app_nil_r. repeat split; auto. constructor.
    - cbn [fit_loop]. destruct (epoch x None s k lr) as [s1 [k1 v]] eqn:Ee. cbn [cb_all]. rewrite pl_epoch. cbv zeta.
      destruct (IH s1 k1 (p_lr (pstep (pb, w, lr) v)) d (p_best (pstep (pb, w, lr) v)) (p_wait (pstep (pb, w, lr) v)) (hist ++ [(v, lr)])%list) as (s' & k' & lr' & es & E & Len & Tr & Lr).
      exists s', k', lr', (mkDone k1 lr v :: es). split; [rewrite E, <- app_assoc; reflexivity|]. split; [cbn; rewrite Len; reflexivity|]. split; [econstructor; eassumption|].
      cbn [map app lrs_of e_lr e_val]. f_equal. rewrite Lr. destruct (pstep (pb, w, lr) v) as [[? ?] ?]. reflexivity. Qed.
End Loop.
