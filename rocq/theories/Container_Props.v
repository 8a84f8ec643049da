(** C178: containers of trained models and the files they are saved in, in every state they can be in. *)
From Coq Require Import Reals Lra.
From Verif Require Import Py Str Sample_Model Sample_Spec TrainedModel_Model TrainedModel_Spec Utils_Spec Sample_Props Container_Model Container_Spec Container_Proofs.
Local Open Scope string_scope.

(** What is saved from a container under a name comes back into any other container, whatever is done with the containers and under
    other names in between. *)
Theorem C178_round_trip {K V} (w : container K V * disk K V) p k s q mean std os : h5_path p -> no_directory (snd w) p -> json_sample s -> ~ In (CSave p) os ->
  snd (cstep (fst (cstep w (CVariable k s q mean std))) (CSave p)) = None /\
  let w1 := crun w (CVariable k s q mean std :: CSave p :: os) in
  exists c', cstep w1 (CLoad p) = ((c', snd w1), None) /\ holds c' k s q mean std.
Proof. intros Hp Hd Hs N. apply h5_path_name in Hp. split.
  - destruct w as [c d]. cbn [cstep fst snd] in *. pose proof (save_load_container d p k s q mean std c Hp Hd Hs) as S. destruct (save _ d p) as [d' e]. destruct S as [-> _]. reflexivity.
  - destruct (saved_later w p k s q mean std os Hp Hd Hs N) as (c' & E1 & E2 & H). exists c'. split; [|exact H]. rewrite (surjective_pairing (cstep _ _)), E1, E2. reflexivity. Qed.
Print Assumptions C178_round_trip.

(** Loading succeeds exactly if the file has all the parts, and then nothing of the previous content of the container is left. *)
Theorem C178_load {K V} (c : container K V) d p : snd (load c d p) = None <->
  exists k j s q mean std, d p = Some (EFile (Some k) (Some (mkGroup (Some j) (Some q) (Some mean) (Some std)))) /\ from_dict empty_structure j = (s, None) /\
    forall c2, load c2 d p = (from_variable k s q mean std, None).
Proof. split.
  - unfold load. destruct (d p) as [[[k|] [g|]|k]|]; try discriminate. destruct g as [[j|] gq gm gs]; cbn [dataset g_sample g_q g_mean g_std]; [|discriminate].
    destruct (from_dict empty_structure j) as [s [e|]] eqn:E; [discriminate|]. destruct gq as [q|]; cbn [dataset]; [|discriminate]. destruct gm as [m|]; cbn [dataset]; [|discriminate]. destruct gs as [sd|]; cbn [dataset]; [|discriminate].
    intros _. exists k, j, s, q, m, sd. split; [reflexivity|]. split; [exact E|]. intros c2. reflexivity.
  - intros (k & j & s & q & m & sd & _ & _ & H). rewrite H. reflexivity. Qed.
Print Assumptions C178_load.

(** Saving succeeds exactly if every field has a value and the sample can be written as JSON. *)
Theorem C178_save {K V} (c : container K V) d p : h5_path p -> no_directory d p -> (forall s, c_sample c = Some s -> storable_sample s) ->
  (snd (save c d p) = None <-> populated c /\ exists s, c_sample c = Some s /\ json_sample s) /\ (forall x, x <> p -> fst (save c d p) x = d x).
Proof. intros Hp Hd St. split; [|intros x N; apply save_other, N]. rewrite save_Ok_iff. split.
  - intros (_ & _ & P & s & j & Es & Ej). split; [exact P|]. exists s. split; [exact Es|]. split; [exact (St s Es)|]. intros F. rewrite (json_rejects s (St s Es) F) in Ej. discriminate.
  - intros (P & s & Es & J). split; [exact (h5_path_name p Hp)|]. split; [exact Hd|]. split; [exact P|]. destruct (json_ok s J) as (j & _ & Ej & _). eauto. Qed.
Print Assumptions C178_save.

(** Under a name without one of the extensions nothing can be saved so that it can be loaded. *)
Theorem C178_other_names {K V} (c : container K V) d p c2 : other_path p -> snd (save c d p) <> None /\ (fst (save c d p) p = d p \/ snd (load c2 (fst (save c d p)) p) = Some OSError).
Proof. intros Ho. apply other_fails, other_path_name, Ho. Qed.
Print Assumptions C178_other_names.

(** A save that fails leaves the other files alone (above), but not the file it was to replace: whatever has been there, nothing can be
    loaded from it any more. *)
Theorem C178_failed_save_refuted {K V} (c : container K V) d p c2 : c_keras c <> None -> h5_path p -> no_directory d p -> snd (save c d p) <> None ->
  snd (load c2 (fst (save c d p)) p) <> None.
Proof. intros Hk Hp. apply failed_save_lost; [exact Hk|apply h5_path_name, Hp]. Qed.
Print Assumptions C178_failed_save_refuted.

(** A load that finds no model leaves the container as it was. *)
Theorem C178_failed_load_partial {K V} (c : container K V) d p : (d p = None \/ exists g, d p = Some (EFile None g)) -> fst (load c d p) = c /\ snd (load c d p) <> None.
Proof. intros [H|[g H]]; unfold load; rewrite H; split; (reflexivity || discriminate). Qed.
Print Assumptions C178_failed_load_partial.

Lemma same_sample_refl s : same_sample s s.
Proof. assert (N : forall n, same_num n n) by (intros n; unfold same_num; auto). assert (O : forall o, same_opt o o) by (intros [[? ? ?|? ?]|]; cbn; auto).
  assert (L : forall l, same_layer l l) by (intros l; unfold same_layer; auto). split; [apply L|]. split; [apply L|]. induction (st_layers s); constructor; auto. Qed.

(** A load from a file with a keras model and nothing else fails, but has already replaced the network: the container then holds the
    new network with the sample, the q values and the standardization of the old one. *)
Theorem C178_failed_load_refuted {K V} (d : disk K V) p k1 k2 s q mean std : d p = Some (EFile (Some k2) None) ->
  let '(c', e) := load (from_variable k1 s q mean std) d p in e = Some KeyError /\ holds c' k2 s q mean std.
Proof. intros H. unfold load. rewrite H. split; [reflexivity|]. unfold holds. cbn. repeat split; auto. exists s. split; [reflexivity|apply same_sample_refl]. Qed.
Print Assumptions C178_failed_load_refuted.

(** What a load changes when parts are missing: the parts are read in the order network, sample, q values, mean, standard deviation, and
    everything before the first missing one is replaced. *)
Theorem C178_failed_load_state {K V} (c : container K V) d p k j gq gm gs s : d p = Some (EFile (Some k) (Some (mkGroup (Some j) gq gm gs))) -> from_dict empty_structure j = (s, None) ->
  (gq = None -> load c d p = (mkContainer (Some s) (Some k) (c_q c) (c_mean c) (c_std c), Some KeyError)) /\
  (forall q, gq = Some q -> gm = None -> load c d p = (mkContainer (Some s) (Some k) (Some q) (c_mean c) (c_std c), Some KeyError)) /\
  (forall q mean, gq = Some q -> gm = Some mean -> gs = None -> load c d p = (mkContainer (Some s) (Some k) (Some q) (Some mean) (c_std c), Some KeyError)).
Proof. intros H E. unfold load. rewrite H. cbn [g_sample g_q g_mean g_std dataset]. rewrite E. repeat split; intros; subst; reflexivity. Qed.
Print Assumptions C178_failed_load_state.
Theorem C178_failed_load_network {K V} (c : container K V) d p k : let c' := mkContainer (c_sample c) (Some k) (c_q c) (c_mean c) (c_std c) in
  (d p = Some (EDir k) -> load c d p = (c', Some OSError)) /\
  (forall gq gm gs, d p = Some (EFile (Some k) (Some (mkGroup None gq gm gs))) -> load c d p = (c', Some KeyError)) /\
  (forall j gq gm gs s e, d p = Some (EFile (Some k) (Some (mkGroup (Some j) gq gm gs))) -> from_dict empty_structure j = (s, Some e) -> load c d p = (c', Some e)).
Proof. intros c'. unfold load. split; [intros ->; reflexivity|]. split; [intros gq gm gs ->; reflexivity|]. intros j gq gm gs s e -> E. cbn [g_sample dataset]. rewrite E. reflexivity. Qed.
Print Assumptions C178_failed_load_network.
Theorem C178_nothing_to_load {K V} (c : container K V) d p : (d p = None -> load c d p = (c, Some OSError)) /\ (forall g, d p = Some (EFile None g) -> load c d p = (c, Some ValueError)).
Proof. unfold load. split; [intros ->|intros g ->]; reflexivity. Qed.
Print Assumptions C178_nothing_to_load.

(** What a save that fails leaves in the file: the network, and the parts before the first one without a value. *)
Theorem C178_failed_save_state {K V} (c : container K V) d p k s : h5_path p -> no_directory d p -> c_keras c = Some k -> c_sample c = Some s -> json_sample s -> exists j,
  (c_q c = None -> snd (save c d p) = Some TypeError /\ fst (save c d p) p = Some (EFile (Some k) (Some (mkGroup (Some j) None None None)))) /\
  (forall q, c_q c = Some q -> c_mean c = None -> snd (save c d p) = Some TypeError /\ fst (save c d p) p = Some (EFile (Some k) (Some (mkGroup (Some j) (Some q) None None)))) /\
  (forall q mean, c_q c = Some q -> c_mean c = Some mean -> c_std c = None -> snd (save c d p) = Some TypeError /\ fst (save c d p) p = Some (EFile (Some k) (Some (mkGroup (Some j) (Some q) (Some mean) None)))) /\
  exists s', from_dict empty_structure j = (s', None) /\ same_sample s s'.
Proof. intros Hp Hd Ek Es J. destruct (json_ok s J) as (j & s' & Ej & Ef & Ss). exists j. apply h5_path_name in Hp.
  assert (E : save c d p = (let '(g, e) := write_group j c in (put (put d p (EFile (Some k) None)) p (EFile (Some k) (Some g)), e))).
  { unfold save. rewrite Ek, Hp, Es. fold (json_of s). rewrite Ej. destruct (d p) as [[? ?|x]|] eqn:X; [reflexivity|exfalso; exact (Hd x X)|reflexivity]. }
  rewrite E. unfold write_group. split; [|split; [|split; [|eauto]]]; intros; repeat match goal with Q : _ = _ :> option V |- _ => rewrite Q; clear Q end; cbn [written fst snd]; (split; [reflexivity|apply put_same]). Qed.
Print Assumptions C178_failed_save_state.
Theorem C178_nothing_to_save {K V} (c : container K V) d p : (c_keras c = None -> save c d p = (d, Some AttributeError)) /\
  (forall k, c_keras c = Some k -> c_sample c = None -> h5_path p -> no_directory d p -> snd (save c d p) = Some AttributeError /\ fst (save c d p) p = Some (EFile (Some k) None)).
Proof. unfold save. split; [intros ->; reflexivity|]. intros k -> -> Hp Hd. rewrite (h5_path_name p Hp). destruct (d p) as [[? ?|x]|] eqn:X; [|exfalso; exact (Hd x X)|]; (split; [reflexivity|apply put_same]). Qed.
Print Assumptions C178_nothing_to_save.

Definition flat_sample : structure := mkStructure ex_amb (mkLayer KSubstrate "Si" None (Some (Const (Flt 1) (Some "roughness"))) (Some (Const (Cpx false 20 0) (Some "sld")))) [].
Lemma flat_storable : storable_sample flat_sample /\ has_flat_complex flat_sample.
Proof. split.
  - unfold storable_sample, storable_film, storable_real, storable_sld, const_opt, flat_sample; simpl. ex; intros ? E; inversion E; reflexivity.
  - unfold has_flat_complex, flat_complex. simpl. eapply Exists_exists. exists (st_substrate flat_sample). split; [simpl; auto|]. exists false, 20%R, (Some "sld"). reflexivity. Qed.

(** A good file; a failing save under the same name; a load of what is left of it into another container. *)
Definition ex_world : container nat (list R) * disk nat (list R) :=
  crun (container_new, fun _ => None) [CVariable 1%nat ex_sample [1; 2]%R [3]%R [4]%R; CSave "net.h5"].
Definition ex_after : list (cop nat (list R)) := [CVariable 2%nat flat_sample [5]%R [6]%R [7]%R; CSave "net.h5"; CVariable 3%nat ex_sample [8]%R [9]%R [10]%R; CLoad "net.h5"].

Example C178_example : h5_path "models/run_1.h5" /\ h5_path "net.h5" /\ other_path "models/run_1" /\ json_sample ex_sample /\
  snd (load container_new (snd ex_world) "net.h5") = None /\
  snd (load container_new (snd (crun ex_world ex_after)) "net.h5") = Some KeyError /\ fst (crun ex_world ex_after) = from_variable 2%nat ex_sample [8]%R [9]%R [10]%R.
Proof. assert (P : h5_path "net.h5") by (exists "", "n"%char, "et", "h5"; repeat split; auto; [discriminate|simpl; auto]).
  split; [exists "models/", "r"%char, "un_1", "h5"; repeat split; auto; [right; exists "models"; reflexivity|discriminate|simpl; auto]|].
  split; [exact P|]. split.
  { intros a ext He E. assert (Q : forall b, "models/run_1" = b ++ "." ++ ext -> has_char "." "models/run_1" = true) by (intros b ->; rewrite !has_char_app; cbn; destruct (has_char "." b); reflexivity). specialize (Q a E). discriminate. }
  pose proof C05_example as J. split; [exact J|].
  assert (W : exists d, ex_world = (from_variable 1%nat ex_sample [1; 2]%R [3]%R [4]%R, d) /\ snd (load container_new d "net.h5") = None /\ no_directory d "net.h5").
  { unfold ex_world, crun. cbn [fold_left cstep fst].
    pose proof (save_load_container (fun _ => None) "net.h5" 1%nat ex_sample [1; 2]%R [3]%R [4]%R container_new (h5_path_name _ P) ltac:(intros x; discriminate) J) as S.
    destruct (save _ _ "net.h5") as [d e]. destruct S as [_ (c' & L & _)]. exists d. split; [reflexivity|]. rewrite L. split; [reflexivity|]. intros k Hk. unfold load in L. rewrite Hk in L. discriminate. }
  destruct W as (d & -> & L & N). split; [exact L|]. unfold ex_after, crun. cbn [fold_left cstep fst].
  unfold save. cbn [from_variable c_keras c_sample]. rewrite (h5_path_name _ P). destruct flat_storable as [Fs Fc]. fold (json_of flat_sample). rewrite (json_rejects flat_sample Fs Fc).
  destruct (d "net.h5") as [[? ?|x]|] eqn:Ed; [|exfalso; exact (N x Ed)|]; cbn [fst snd]; unfold load; repeat (rewrite put_same; cbn [fst snd]); split; reflexivity. Qed.
