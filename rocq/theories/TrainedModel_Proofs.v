From Coq Require Import Reals Lra.
From Verif Require Import Py Str Sample_Model Sample_Spec Sample_Proofs TrainedModel_Model TrainedModel_Spec.

Lemma complex_to_dict_json v : jval_json (complex_to_dict v) = false <-> exists np re, v = Cpx np re 0.
Proof. destruct v as [x|np re im]; simpl.
  - split; [discriminate|intros (? & ? & H); discriminate].
  - destruct (Req_EM_T im 0) as [->|Hn]; simpl; split; eauto; try discriminate.
    intros (? & ? & H); inversion H; contradiction. Qed.

Lemma real_param_json n p : real_param n p -> pdict_json (parse_param p) = true.
Proof. destruct p as [[a|? ? ?] [b|? ? ?] [m|]|[a|? ? ?] [m|]]; simpl; try contradiction; reflexivity. Qed.

Lemma storable_sld_json o p : storable_sld o -> o = Some p -> (pdict_json (parse_param p) = false <-> flat_complex o).
Proof. intros H ->. destruct p as [lo hi m|v m].
  - destruct lo, hi, m; simpl in H; try contradiction. simpl. split; [discriminate|intros (? & ? & ? & E); discriminate].
  - simpl. rewrite complex_to_dict_json. split; [intros (np & re & ->); exists np, re, m; reflexivity|].
    intros (np & re & n & E); inversion E; subst; eauto. Qed.

Lemma layer_json l d : layer_to_dict l = Ok d -> storable_sld (l_sld l) ->
  (forall p, l_thickness l = Some p -> real_param "thickness" p) ->
  (forall p, l_roughness l = Some p -> real_param "roughness" p) ->
  (ldict_json d = false <-> flat_complex (l_sld l)).
Proof. intros E Hs Ht Hr. unfold layer_to_dict in E. destruct (l_sld l) as [ps|] eqn:Es; [|discriminate]. inversion E; subst; clear E.
  unfold ldict_json; simpl. rewrite <- (storable_sld_json (Some ps) ps Hs eq_refl).
  assert (A : opt_json (option_map parse_param (l_thickness l)) = true).
  { destruct (l_thickness l); simpl; [eapply real_param_json; auto|reflexivity]. }
  assert (B : opt_json (option_map parse_param (l_roughness l)) = true).
  { destruct (l_roughness l); simpl; [eapply real_param_json; auto|reflexivity]. }
  rewrite A, B. simpl. reflexivity. Qed.

Lemma film_json ls ds : Forall storable_film ls -> mapM layer_to_dict ls = Ok ds ->
  (forallb ldict_json ds = false <-> Exists (fun l => flat_complex (l_sld l)) ls).
Proof. intros H; revert ds; induction H as [|l ls Hl Hls IH]; intros ds E; simpl in E.
  - inversion E; subst. simpl. split; [discriminate|intros X; inversion X].
  - destruct (layer_to_dict l) as [d|] eqn:Ed; [|discriminate]; simpl in E.
    destruct (mapM layer_to_dict ls) as [ds'|] eqn:Em; [|discriminate]; simpl in E. inversion E; subst.
    simpl. rewrite andb_false_iff, (IH ds' eq_refl), Exists_cons.
    destruct Hl as ((pt & Ht & Hrt & _) & (pr & Hr & Hrr & _) & Hs).
    rewrite (layer_json l d Ed Hs); [tauto| |]; intros p Hp; congruence. Qed.

Lemma sample_json s d : storable_sample s -> to_dict s = Ok d -> (sdict_json d = false <-> has_flat_complex s).
Proof. intros ((A1 & A2 & A3 & A4) & (B1 & (pr & B2 & B2' & _) & B3 & B4 & B5) & Hls) E.
  unfold to_dict in E. destruct (layer_to_dict (st_ambient s)) as [da|] eqn:Ea; [|discriminate]; simpl in E.
  destruct (layer_to_dict (st_substrate s)) as [db|] eqn:Eb; [|discriminate]; simpl in E.
  destruct (mapM layer_to_dict (rev (st_layers s))) as [ds|] eqn:Em; [|discriminate]; simpl in E. inversion E; subst; clear E.
  unfold sdict_json; simpl. rewrite !andb_false_iff.
  rewrite (layer_json _ _ Ea A3) by (intros; congruence).
  rewrite (layer_json _ _ Eb B4) by (intros; congruence).
  rewrite (film_json (rev (st_layers s)) ds) by (auto using Forall_rev).
  unfold has_flat_complex, all_layers. rewrite Exists_cons, Exists_app, Exists_cons, Exists_nil.
  assert (R : Exists (fun l => flat_complex (l_sld l)) (rev (st_layers s)) <-> Exists (fun l => flat_complex (l_sld l)) (st_layers s)).
  { rewrite !Exists_exists. split; intros (x & Hx & P); exists x; split; auto; [apply in_rev|apply in_rev in Hx]; auto. }
  rewrite R. tauto. Qed.

Section TM.
  Context {K V : Type}.
  Implicit Types (f : fs K V) (t : trained_model K V).

  Lemma fs_set_same f p c : fs_set f p c p = Some c.
  Proof. unfold fs_set; now rewrite String.eqb_refl. Qed.
  Lemma fs_set_other f p c q : q <> p -> fs_set f p c q = f q.
  Proof. intros H; unfold fs_set. destruct (String.eqb_spec q p); [contradiction|reflexivity]. Qed.

  Lemma save_load f p t : storable_sample (tm_sample t) -> ~ has_flat_complex (tm_sample t) ->
    exists f' t', save_model f p t = (f', None) /\ from_file f' p = Ok t' /\
      tm_keras t' = tm_keras t /\ tm_q t' = tm_q t /\ tm_mean t' = tm_mean t /\ tm_std t' = tm_std t /\
      same_sample (tm_sample t) (tm_sample t') /\ label_names (tm_sample t') = label_names (tm_sample t) /\
      (forall q, q <> p -> f' q = f q).
  Proof. intros Hs Hf. destruct (dict_roundtrip _ Hs) as (d & s' & Ed & El & Hsame & Hl).
    unfold save_model. rewrite Ed. unfold json_dumps.
    destruct (sdict_json d) eqn:Ej; [|exfalso; apply Hf; eapply sample_json; eauto].
    eexists; eexists; split; [reflexivity|]. unfold from_file. rewrite fs_set_same. simpl. rewrite El.
    split; [reflexivity|]. simpl. repeat split; auto; try apply Hsame.
    intros q Hq. rewrite !fs_set_other by assumption. reflexivity. Qed.

  Lemma save_rejects f p t : storable_sample (tm_sample t) ->
    (snd (save_model f p t) <> None <-> has_flat_complex (tm_sample t)).
  Proof. intros Hs. destruct (dict_roundtrip _ Hs) as (d & s' & Ed & _).
    unfold save_model. rewrite Ed. unfold json_dumps. rewrite <- (sample_json _ d Hs Ed).
    destruct (sdict_json d); simpl; split; intros H; try discriminate; try congruence. Qed.

  (** A rejected save leaves a file that cannot be loaded, whatever was there before. *)
  Lemma save_reject_destroys f p t : storable_sample (tm_sample t) -> has_flat_complex (tm_sample t) ->
    exists f', save_model f p t = (f', Some TypeError) /\ from_file f' p = Raise KeyError.
  Proof. intros Hs Hf. destruct (dict_roundtrip _ Hs) as (d & s' & Ed & _).
    apply (sample_json _ d Hs Ed) in Hf. unfold save_model. rewrite Ed. unfold json_dumps. rewrite Hf.
    eexists; split; [reflexivity|]. unfold from_file. rewrite fs_set_same. reflexivity. Qed.
End TM.
