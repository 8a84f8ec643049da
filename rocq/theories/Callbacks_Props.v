(** C179-C180: training with callbacks. *)
From Coq Require Import Reals Lra.
From Verif Require Import Py Str Arr Sample_Model TrainedModel_Model Path_Model Utils_Model Utils_Spec Utils_Proofs Container_Model Container_Proofs Callbacks_Model Callbacks_Spec Callbacks_Proofs.
Local Open Scope R_scope.

Section Props.
  Context {S K D V : Type} (epoch : D -> option Z -> S -> K -> R -> S * (K * fl)).
  Implicit Types (d : disk (K * R) V).
  Local Open Scope string_scope.

  (** ** C179: the files *)
  (** A training runs the given number of epochs one after the other and reports their losses and learning rates.  The checkpoint holds
      the network and the learning rate of the first epoch with the lowest loss; without any usable loss it is not written.  The model keeps
      the network of the last epoch.  No other file is touched. *)
  Theorem C179_training bs m fs d now s x n pre name : dir_prefix pre -> plain name -> undotted name -> name <> "" -> sm_dir m = pre ++ name ->
    exists ts s' m' fs' d' es, make_timestamp now "YMD" = Ok ts /\
      simple_fit epoch bs m fs d now s x n = Ok (s', (m', (fs', d')), (map (fun e => (e_val e, e_lr e)) es, ts)) /\
      List.length es = Z.to_nat n /\ sm_dir m' = sm_dir m /\ epochs_from (epoch x bs) s (sm_net m) es s' (sm_net m') /\
      let path := pre ++ name ++ "/models/" ++ ts ++ ".h5" in
      (forall y, y <> path -> d' y = d y) /\
      ((no_loss (map e_val es) /\ d' path = d path) \/
       exists i e, first_best (map e_val es) i /\ nth_error es i = Some e /\ d' path = Some (EFile (Some (e_net e, e_lr e)) None)).
  Proof. intros Hp Hn Hu Hne Hd. destruct (setup_ok fs pre name now Hp Hn Hu Hne) as (ts & fs' & Et & Es & _).
    unfold simple_fit. rewrite Hd, Es. cbn [bind]. unfold keras_fit. cbn [map training_callbacks cb_begin checkpoint_new plateau_new].
    destruct (loop_simple epoch x bs (pre ++ name ++ "/tb_graphs/" ++ ts) (pre ++ name ++ "/models/" ++ ts ++ ".h5") (Z.to_nat n) s (sm_net m) (sm_lr m) d None None O []) as (s' & k' & lr' & d' & es & E & Len & Tr & Lr & Do & Dp).
    unfold checkpoint_new, plateau_new. rewrite E. exists ts, s', (mkSimple (pre ++ name) k' lr'), fs', d', es. cbn [app sm_dir sm_net]. repeat split; auto.
    pose proof (ck_spec es) as C. destruct (ck None None es) as [f|]; [right|left; auto]. destruct C as (i & e & F & Ei & ->). exists i, e. auto. Qed.

  (** Arrays are trained in batches of 256, generators in their own. *)
  Theorem C179_batches m fs d now s x n pre name : dir_prefix pre -> plain name -> undotted name -> name <> "" -> sm_dir m = pre ++ name ->
    (exists s' m' w es ts, simple_train epoch m fs d now s x n = Ok (s', (m', w), (map (fun e => (e_val e, e_lr e)) es, ts)) /\ epochs_from (epoch x (Some 256%Z)) s (sm_net m) es s' (sm_net m')) /\
    (exists s' m' w es ts, train_with_generator epoch m fs d now s x n = Ok (s', (m', w), (map (fun e => (e_val e, e_lr e)) es, ts)) /\ epochs_from (epoch x None) s (sm_net m) es s' (sm_net m')).
  Proof. intros Hp Hn Hu Hne Hd. split.
    - destruct (C179_training (Some 256%Z) m fs d now s x n pre name Hp Hn Hu Hne Hd) as (ts & s' & m' & fs' & d' & es & _ & E & _ & _ & Tr & _). exists s', m', (fs', d'), es, ts. split; assumption.
    - destruct (C179_training None m fs d now s x n pre name Hp Hn Hu Hne Hd) as (ts & s' & m' & fs' & d' & es & _ & E & _ & _ & Tr & _). exists s', m', (fs', d'), es, ts. split; assumption. Qed.

  (** A checkpoint is no file for a TrainedModel: loading it fails, and leaves the new network together with the old sample. *)
  Theorem C179_checkpoint_refuted d p k lr (c : container (K * R) V) : d p = Some (EFile (Some (k, lr)) None) ->
    load c d p = (mkContainer (c_sample c) (Some (k, lr)) (c_q c) (c_mean c) (c_std c), Some KeyError).
  Proof. intros H. unfold load. rewrite H. reflexivity. Qed.

  (** Two trainings within the same second write the same checkpoint: that of the first one is lost, however good it was. *)
  Theorem C179_same_second_refuted bs m1 m2 fs1 fs2 d1 now s1 s2 x1 x2 n1 n2 s1' m1' fs1' d1' h1 ts1 s2' m2' fs2' d2' h2 ts2 pre name :
    dir_prefix pre -> plain name -> undotted name -> name <> "" -> sm_dir m1 = pre ++ name -> sm_dir m2 = pre ++ name ->
    simple_fit epoch bs m1 fs1 d1 now s1 x1 n1 = Ok (s1', (m1', (fs1', d1')), (h1, ts1)) ->
    simple_fit epoch bs m2 fs2 d1' now s2 x2 n2 = Ok (s2', (m2', (fs2', d2')), (h2, ts2)) -> ~ no_loss (map fst h2) ->
    ts1 = ts2 /\ exists es i e, h2 = map (fun e => (e_val e, e_lr e)) es /\ epochs_from (epoch x2 bs) s2 (sm_net m2) es s2' (sm_net m2') /\
      first_best (map e_val es) i /\ nth_error es i = Some e /\ d2' (pre ++ name ++ "/models/" ++ ts1 ++ ".h5") = Some (EFile (Some (e_net e, e_lr e)) None).
  Proof. intros Hp Hn Hu Hne Hd1 Hd2 F1 F2 NL.
    destruct (C179_training bs m1 fs1 d1 now s1 x1 n1 pre name Hp Hn Hu Hne Hd1) as (ts & a & b & c & e & f & Et & E1 & _). rewrite F1 in E1. injection E1 as _ _ _ _ _ ->.
    destruct (C179_training bs m2 fs2 d1' now s2 x2 n2 pre name Hp Hn Hu Hne Hd2) as (ts' & a' & b' & c' & e' & es & Et' & E2 & _ & _ & Tr & _ & C). rewrite F2 in E2. injection E2 as -> -> _ -> -> ->.
    assert (ts' = ts) by congruence. subst ts'. split; [reflexivity|]. destruct C as [[N _]|(i & y & Fb & Ei & Ef)].
    - exfalso. apply NL. rewrite map_map. exact N.
    - exists es, i, y. repeat split; auto. Qed.

  (** ** C180: the learning rate *)
  Theorem C180_rate bs m fs d now s x n s' m' w hist ts : 0 < sm_lr m -> simple_fit epoch bs m fs d now s x n = Ok (s', (m', w), (hist, ts)) ->
    let lrs := (map snd hist ++ [sm_lr m'])%list in
    hd_error lrs = Some (sm_lr m) /\ halved_on_plateaus (map fst hist) lrs /\ plateaus_halved (map fst hist) lrs /\
    exists h, (h <= List.length hist / 10)%nat /\ sm_lr m' = sm_lr m * (/ 2) ^ h.
  Proof. intros Hl. unfold simple_fit. destruct (setup_training fs (sm_dir m) now) as [[fs' [[l p] ts']]|e]; [|discriminate]. cbn [bind]. unfold keras_fit. cbn [map training_callbacks cb_begin checkpoint_new plateau_new]. unfold checkpoint_new, plateau_new.
    destruct (loop_simple epoch x bs l p (Z.to_nat n) s (sm_net m) (sm_lr m) d None None O []) as (s1 & k' & lr' & d' & es & E & Len & Tr & Lr & _). rewrite E. cbn [app]. intros Q. injection Q as <- <- _ <- _. cbn [sm_lr]. cbn zeta.
    rewrite !map_map. cbn [fst snd]. change (map (fun e => e_lr e) es) with (map e_lr es). change (map (fun e => e_val e) es) with (map e_val es). rewrite Lr.
    split; [destruct (map e_val es); reflexivity|]. split; [apply lr_halved, Hl|]. split; [apply lr_plateaus, Hl|].
    destruct (lr_bound (map e_val es) None O (sm_lr m) Hl ltac:(lia)) as (h & Hh & Eh). rewrite map_length in Hh |- *. exists h. split; [exact Hh|]. rewrite <- Eh.
    assert (X : nth_error (map e_lr es ++ [lr'])%list (List.length es) = Some lr') by (rewrite nth_error_app2 by (rewrite map_length; lia); rewrite map_length, Nat.sub_diag; reflexivity).
    rewrite Lr, lrs_nth, map_length, Nat.leb_refl in X. rewrite <- (map_length e_val es) in X. rewrite firstn_all in X. injection X as X. symmetry. exact X. Qed.

  (** Without any usable loss it is halved every ten epochs. *)
  Theorem C180_no_loss bs m fs d now s x n s' m' w hist ts : 0 < sm_lr m -> simple_fit epoch bs m fs d now s x n = Ok (s', (m', w), (hist, ts)) -> no_loss (map fst hist) ->
    sm_lr m' = sm_lr m * (/ 2) ^ (List.length hist / 10).
  Proof. intros Hl. unfold simple_fit. destruct (setup_training fs (sm_dir m) now) as [[fs' [[l p] ts']]|e]; [|discriminate]. cbn [bind]. unfold keras_fit. cbn [map training_callbacks cb_begin checkpoint_new plateau_new]. unfold checkpoint_new, plateau_new.
    destruct (loop_simple epoch x bs l p (Z.to_nat n) s (sm_net m) (sm_lr m) d None None O []) as (s1 & k' & lr' & d' & es & E & Len & Tr & Lr & _). rewrite E. cbn [app]. intros Q. injection Q as <- <- _ <- _. cbn [sm_lr].
    rewrite map_map, map_length. cbn [fst]. change (map (fun e => e_val e) es) with (map e_val es). intros N. rewrite <- (map_length e_val es). rewrite <- (lr_no_loss _ _ Hl N).
    assert (X : nth_error (map e_lr es ++ [lr'])%list (List.length es) = Some lr') by (rewrite nth_error_app2 by (rewrite map_length; lia); rewrite map_length, Nat.sub_diag; reflexivity).
    rewrite Lr, lrs_nth, map_length, Nat.leb_refl in X. rewrite <- (map_length e_val es) in X. rewrite firstn_all in X. injection X as X. symmetry. exact X. Qed.

  (** A new training does not start with the learning rate of a new model, but with the one that the last training ended with: after
      a plateau it is lower. *)
  Theorem C180_restart_refuted bs m fs d now s x n s1 m1 fs1 d1 hist ts u : 0 < sm_lr m -> simple_fit epoch bs m fs d now s x n = Ok (s1, (m1, (fs1, d1)), (hist, ts)) ->
    nth_error (map fst hist) 0 = Some (Some u) -> (11 <= List.length hist)%nat -> (forall w, In (Some w) (map fst hist) -> u <= w) ->
    sm_lr m1 < sm_lr m /\ forall bs2 now2 s2 x2 n2 s3 m3 w3 hist2 ts2 lr0, simple_fit epoch bs2 m1 fs1 d1 now2 s2 x2 n2 = Ok (s3, (m3, w3), (hist2, ts2)) ->
      hd_error (map snd hist2) = Some lr0 -> lr0 < sm_lr m.
  Proof. intros Hl F1 Hu Hn Hm. destruct (C180_rate _ _ _ _ _ _ _ _ _ _ _ _ _ Hl F1) as (H0 & Hh & Hp & h & _ & Eh). cbn zeta in *. set (lrs := (map snd hist ++ [sm_lr m1])%list) in *.
    assert (Len : List.length lrs = Datatypes.S (List.length hist)) by (unfold lrs; rewrite app_length, map_length; simpl; lia).
    assert (Mono : forall i a, nth_error lrs i = Some a -> 0 < a).
    { induction i as [|i IH]; intros a Ea.
      - destruct lrs as [|l0 r]; [discriminate|]. cbn in H0, Ea. injection H0 as ->. injection Ea as <-. exact Hl.
      - destruct (nth_error lrs i) as [b|] eqn:Eb; [|apply nth_error_None in Eb; assert (Datatypes.S i < List.length lrs)%nat by (apply nth_error_Some; congruence); lia].
        specialize (IH b eq_refl). destruct (Req_dec a b) as [->|N]; [exact IH|]. destruct (Hh i b a Eb Ea N) as [-> _]. lra. }
    assert (Down : forall j i a b, nth_error lrs i = Some a -> nth_error lrs (i + j) = Some b -> b <= a).
    { induction j as [|j IH]; intros i a b Ea Eb; [rewrite Nat.add_0_r in Eb; assert (a = b) by congruence; lra|].
      destruct (nth_error lrs (i + j)) as [c|] eqn:Ec; [|apply nth_error_None in Ec; assert (i + Datatypes.S j < List.length lrs)%nat by (apply nth_error_Some; congruence); lia].
      specialize (IH i a c Ea Ec). replace (i + Datatypes.S j)%nat with (Datatypes.S (i + j)) in Eb by lia. destruct (Req_dec b c) as [->|N]; [exact IH|]. destruct (Hh _ _ _ Ec Eb N) as [-> _]. pose proof (Mono _ _ Ec). lra. }
    assert (Lt : sm_lr m1 < sm_lr m).
    { destruct (nth_error lrs 1) as [a1|] eqn:E1; [|apply nth_error_None in E1; lia]. destruct (nth_error lrs 11) as [a11|] eqn:E11; [|apply nth_error_None in E11; lia].
      assert (B : a11 < a1). { apply (Hp 1%nat 0%nat u a1 a11); [lia|exact Hu| |exact E1|exact E11]. intros j w _ Ej. apply Hm. eapply nth_error_In, Ej. }
      assert (A1 : a1 <= sm_lr m). { apply (Down 1%nat 0%nat); [|exact E1]. destruct lrs; [discriminate|exact H0]. }
      assert (Al : sm_lr m1 <= a11). { apply (Down (List.length hist - 11)%nat 11%nat); [exact E11|]. replace (11 + (List.length hist - 11))%nat with (List.length hist) by lia. unfold lrs. rewrite nth_error_app2 by (rewrite map_length; lia). rewrite map_length, Nat.sub_diag. reflexivity. }
      lra. }
    split; [exact Lt|]. intros bs2 now2 s2 x2 n2 s3 m3 w3 hist2 ts2 lr0 F2 H2.
    assert (P1 : 0 < sm_lr m1) by (rewrite Eh; apply Rmult_lt_0_compat; [exact Hl|apply pow_lt; lra]).
    destruct (C180_rate _ _ _ _ _ _ _ _ _ _ _ _ _ P1 F2) as (H3 & _). cbn zeta in H3. destruct (map snd hist2); [discriminate|]. cbn in H2, H3. assert (lr0 = sm_lr m1) by congruence. lra. Qed.

  (** The training of a Trainer: the same learning rates, no files; the result is the network of the last epoch. *)
  Theorem C180_trainer x n s k lr d : 0 < lr -> exists s' k' lr' es, trainer_fit epoch x n s (k, lr, d) = (s', ((k', lr', d), map (fun e => (e_val e, e_lr e)) es)) /\
    List.length es = Z.to_nat n /\ epochs_from (epoch x None) s k es s' k' /\
    let lrs := (map e_lr es ++ [lr'])%list in hd_error lrs = Some lr /\ halved_on_plateaus (map e_val es) lrs /\ plateaus_halved (map e_val es) lrs.
  Proof. intros Hl. unfold trainer_fit, keras_fit. cbn [map cb_begin]. unfold plateau_new. destruct (loop_plateau epoch x (Z.to_nat n) s k lr d None O []) as (s' & k' & lr' & es & E & Len & Tr & Lr).
    exists s', k', lr', es. split; [exact E|]. split; [exact Len|]. split; [exact Tr|]. cbn zeta. rewrite Lr. split; [destruct (map e_val es); reflexivity|]. split; [apply lr_halved, Hl|apply lr_plateaus, Hl]. Qed.
End Props.
Print Assumptions C179_training.
Print Assumptions C179_batches.
Print Assumptions C179_checkpoint_refuted.
Print Assumptions C179_same_second_refuted.
Print Assumptions C180_rate.
Print Assumptions C180_no_loss.
Print Assumptions C180_restart_refuted.
Print Assumptions C180_trainer.

(** An epoch that counts itself in the network and makes the loss worse every time *)
Definition worse (x : unit) (bs : option Z) (s k : nat) (lr : R) : nat * (nat * fl) := (s, (Datatypes.S k, Some (INR k))).
Lemma worse_run n : forall s k es s' k', epochs_from (worse tt (Some 256%Z)) s k es s' k' -> List.length es = n -> k' = (k + n)%nat /\ forall i e, nth_error es i = Some e -> e_net e = (k + Datatypes.S i)%nat /\ e_val e = Some (INR (k + i)).
Proof. induction n as [|n IH]; intros s k es s' k' H L; inversion H; subst; cbn in L; try discriminate.
  - split; [lia|]. intros [|i] e E; discriminate.
  - match goal with Q : worse _ _ _ _ _ = _ |- _ => unfold worse in Q; injection Q as <- <- <- end. injection L as L. match goal with Q : epochs_from _ _ _ _ _ _ |- _ => destruct (IH _ _ _ _ _ Q L) as [-> Hi] end.
    split; [lia|]. intros [|i] e E; cbn in E.
    + injection E as <-. cbn. rewrite Nat.add_0_r. split; [lia|reflexivity].
    + destruct (Hi i e E) as [A B]. rewrite A, B. split; [lia|]. f_equal. f_equal. lia. Qed.

(** After eleven such epochs the checkpoint holds the network of the first epoch, the model has that of the last one, and the learning
    rate is lower than that of a new model. *)
Example C179_example : exists s m fs d hist ts, simple_train (V := unit) worse (simple_new "nets/run" 0%nat) [] (fun _ => None) (mkDt 2020 1 2 3 4 5) 7%nat tt 11 = Ok (s, (m, (fs, d)), (hist, ts)) /\
  ts = "2020-01-02-030405"%string /\ sm_net m = 11%nat /\ d "nets/run/models/2020-01-02-030405.h5"%string = Some (EFile (Some (1%nat, 5 / 10000)) None) /\
  map fst hist = map (fun k => Some (INR k)) (seq 0 11) /\ sm_lr m < 5 / 10000.
Proof. assert (P0 : 0 < 5 / 10000) by lra. set (m0 := simple_new "nets/run" 0%nat). assert (L0 : sm_lr m0 = 5 / 10000) by reflexivity.
  destruct (C179_training (V := unit) worse (Some 256%Z) m0 [] (fun _ => None) (mkDt 2020 1 2 3 4 5) 7%nat tt 11 "nets/" "run") as (ts & s' & m' & fs' & d' & es & Et & E & Len & _ & Tr & _ & C);
    [right; right; exists "net"%string, "s"%char; split; reflexivity|reflexivity|reflexivity|discriminate|reflexivity|].
  change (Z.to_nat 11) with 11%nat in Len. destruct (worse_run 11 _ _ _ _ _ Tr Len) as [Nk Ni]. injection Et as <-.
  assert (V : map e_val es = map (fun k => Some (INR k)) (seq 0 11)).
  { apply (nth_ext _ _ None None); [rewrite !map_length, seq_length; exact Len|]. intros i Hi. rewrite map_length in Hi. destruct (nth_error es i) as [e|] eqn:Ei; [|apply nth_error_None in Ei; lia].
    destruct (Ni i e Ei) as [_ Ev]. rewrite (nth_error_nth _ _ None (map_nth_error e_val i es Ei)), Ev.
    rewrite (nth_indep _ None (Some (INR 0))) by (rewrite map_length, seq_length; lia). rewrite (map_nth (fun k => Some (INR k))). rewrite seq_nth by lia. reflexivity. }
  assert (H : map fst (map (fun e : done nat => (e_val e, e_lr e)) es) = map (fun k => Some (INR k)) (seq 0 11)) by (rewrite map_map; exact V).
  exists s', m', fs', d'. eexists. eexists. split; [exact E|]. split; [reflexivity|]. split; [rewrite Nk; reflexivity|].
  destruct (C180_rate worse _ _ _ _ _ _ _ _ _ _ _ _ _ ltac:(rewrite L0; exact P0) E) as (Hd & _). cbn zeta in Hd.
  split; [|split; [exact H|]].
  - destruct C as [[N _]|(i & e & (v & Ev & Hm & _) & Ei & Ed)].
    + exfalso. rewrite V in N. specialize (N (Some (INR 0)) ltac:(left; reflexivity)). discriminate.
    + assert (i = 0%nat). { assert (Z0 : v <= INR 0) by (apply (Hm 0%nat); rewrite V; reflexivity). rewrite nth_error_map, Ei in Ev. cbn in Ev. injection Ev as Ev. destruct (Ni i e Ei) as [_ Ev']. rewrite Ev' in Ev. injection Ev as <-. apply INR_le in Z0. cbn in Z0. lia. }
      subst i. destruct (Ni 0%nat e Ei) as [En _]. etransitivity; [exact Ed|]. rewrite En. destruct es as [|e0 es]; [discriminate|]. cbn in Ei. injection Ei as ->. cbn in Hd. injection Hd as ->. reflexivity.
  - rewrite <- L0. apply (C180_restart_refuted worse _ m0 [] (fun _ => None) _ 7%nat tt 11 s' m' fs' d' _ _ (INR 0) ltac:(rewrite L0; exact P0) E).
    + rewrite H. reflexivity.
    + rewrite map_length. lia.
    + rewrite H. intros w Hw. apply in_map_iff in Hw as (k & Ek & _). injection Ek as <-. apply le_INR. lia. Qed.

(** Twenty-five epochs with a loss of nan: no checkpoint, and a quarter of the learning rate *)
Definition broken (x : unit) (bs : option Z) (s k : nat) (lr : R) : nat * (nat * fl) := (s, (k, None)).
Example C180_example : exists s m fs d hist ts, simple_train (V := unit) broken (simple_new "nets/run" 0%nat) [] (fun _ => None) (mkDt 2020 1 2 3 4 5) 7%nat tt 25 = Ok (s, (m, (fs, d)), (hist, ts)) /\
  List.length hist = 25%nat /\ d "nets/run/models/2020-01-02-030405.h5"%string = None /\ sm_lr m = 5 / 10000 / 4.
Proof. set (m0 := simple_new "nets/run" 0%nat).
  destruct (C179_training (V := unit) broken (Some 256%Z) m0 [] (fun _ => None) (mkDt 2020 1 2 3 4 5) 7%nat tt 25 "nets/" "run") as (ts & s' & m' & fs' & d' & es & Et & E & Len & _ & Tr & _ & C);
    [right; right; exists "net"%string, "s"%char; split; reflexivity|reflexivity|reflexivity|discriminate|reflexivity|].
  assert (N : no_loss (map e_val es)). { clear - Tr. induction Tr; intros z Hv; [destruct Hv|]. cbn in Hv. destruct Hv as [<-|Hv]; [|exact (IHTr z Hv)]. unfold broken in H. injection H as _ _ <-. reflexivity. }
  change (Z.to_nat 25) with 25%nat in Len. injection Et as <-. exists s', m', fs', d'. eexists. eexists. split; [exact E|]. rewrite map_length. split; [exact Len|]. split.
  - destruct C as [[_ C]|(i & e & (v & Ev & _) & _)]; [exact C|]. exfalso. pose proof (N _ (nth_error_In _ _ Ev)). discriminate.
  - rewrite (C180_no_loss broken _ m0 _ _ _ _ _ _ _ _ _ _ _ ltac:(cbn; lra) E) by (rewrite map_map; exact N). rewrite map_length, Len. change (25 / 10)%nat with 2%nat. cbn. lra. Qed.
