From Coq Require Import Reals Lra.
From Verif Require Import Py Str Sample_Model Sample_Spec Sample_Proofs TrainedModel_Model TrainedModel_Spec TrainedModel_Proofs Path_Model Utils_Spec Path_Proofs Container_Model Container_Spec.
Local Open Scope string_scope.

Section Container.
  Context {K V : Type}.
  Implicit Types (c : container K V) (d : disk K V) (w : container K V * disk K V).

  Lemma put_same d p e : put d p e p = Some e.
  Proof. unfold put. now rewrite String.eqb_refl. Qed.
  Lemma put_other d p e x : x <> p -> put d p e x = d x.
  Proof. intros N. unfold put. destruct (String.eqb_spec x p); [contradiction|reflexivity]. Qed.

  (** *** Loading *)
  Lemma load_complete c d p c' : load c d p = (c', None) -> populated c' /\ forall c2, load c2 d p = (c', None).
  Proof. unfold load. destruct (d p) as [[[k|] [g|]|k]|]; try discriminate.
    destruct (g_sample g) as [j|]; cbn [dataset]; [|discriminate]. destruct (from_dict empty_structure j) as [s [e|]]; [discriminate|].
    destruct (g_q g) as [q|]; cbn [dataset]; [|discriminate]. destruct (g_mean g) as [m|]; cbn [dataset]; [|discriminate]. destruct (g_std g) as [sd|]; cbn [dataset]; [|discriminate].
    intros H. injection H as <-. split; [|reflexivity]. repeat split; discriminate. Qed.

  (** *** Saving *)
  Definition json_of (s : structure) : res sdict := j <- to_dict s ;; json_dumps j.
  Lemma json_ok s : json_sample s -> exists j s', json_of s = Ok j /\ from_dict empty_structure j = (s', None) /\ same_sample s s'.
  Proof. intros [St Fl]. destruct (dict_roundtrip _ St) as (j & s' & Ej & El & Sa & _). exists j, s'. split; [|auto]. unfold json_of. rewrite Ej. cbn [bind]. unfold json_dumps.
    destruct (sdict_json j) eqn:E; [reflexivity|]. exfalso. apply Fl. eapply sample_json; eauto. Qed.
  Lemma json_rejects s : storable_sample s -> has_flat_complex s -> json_of s = Raise TypeError.
  Proof. intros St Fl. destruct (dict_roundtrip _ St) as (j & s' & Ej & _). unfold json_of. rewrite Ej. cbn [bind]. unfold json_dumps. apply (sample_json _ j St Ej) in Fl. rewrite Fl. reflexivity. Qed.

  Lemma save_Ok_iff c d p : snd (save c d p) = None <->
    h5_name p = true /\ (forall k, d p <> Some (EDir k)) /\ populated c /\ exists s j, c_sample c = Some s /\ json_of s = Ok j.
  Proof. unfold save, populated. destruct (c_keras c) as [k|]; [|split; [discriminate|intros (_ & _ & (_ & N & _) & _); contradiction]].
    destruct (h5_name p); [|split; [destruct (d p) as [[? ?|?]|]; try discriminate; destruct (match c_sample c with None => _ | Some _ => _ end); discriminate|intros (N & _); discriminate]].
    destruct (d p) as [[kk gg|kk]|] eqn:Ed; [|split; [discriminate|intros (_ & N & _); exfalso; apply (N kk); reflexivity]|].
    all: destruct (c_sample c) as [s|]; [fold (json_of s)|split; [discriminate|intros (_ & _ & (N & _) & _); contradiction]];
         destruct (json_of s) as [j|e] eqn:Ej; [|split; [discriminate|intros (_ & _ & _ & s' & j & Es & E'); injection Es as <-; congruence]];
         unfold write_group; destruct (c_q c) as [q|]; cbn [written]; [|split; [discriminate|intros (_ & _ & (_ & _ & N & _) & _); contradiction]];
         destruct (c_mean c) as [m|]; cbn [written]; [|split; [discriminate|intros (_ & _ & (_ & _ & _ & N & _) & _); contradiction]];
         destruct (c_std c) as [sd|]; cbn [written]; [|split; [discriminate|intros (_ & _ & (_ & _ & _ & _ & N) & _); contradiction]];
         cbn [snd]; split; [intros _|reflexivity]; split; [reflexivity|]; split; [intros x Hx; try rewrite Ed in Hx; discriminate|]; split; [repeat split; discriminate|]; eauto. Qed.

  Lemma save_other c d p x : x <> p -> fst (save c d p) x = d x.
  Proof. intros N. unfold save. destruct (c_keras c) as [k|]; [|reflexivity].
    assert (P1 : forall e, put d p e x = d x) by (intros e; apply put_other, N). assert (P2 : forall e e', put (put d p e) p e' x = d x) by (intros e e'; rewrite put_other by exact N; apply P1).
    destruct (h5_name p); destruct (d p) as [[? ?|?]|]; try reflexivity; destruct (match c_sample c with None => _ | Some _ => _ end) as [j|]; try apply P1;
      destruct (write_group j c); apply P2. Qed.

  Lemma save_load_container d p k s q mean std c2 : h5_name p = true -> (forall x, d p <> Some (EDir x)) -> json_sample s ->
    let '(d', e) := save (from_variable k s q mean std) d p in e = None /\ exists c', load c2 d' p = (c', None) /\ holds c' k s q mean std.
  Proof. intros Hp Hd Hs. destruct (json_ok s Hs) as (j & s' & Ej & El & Sa). unfold save. cbn [from_variable c_keras c_sample]. rewrite Hp. fold (json_of s). rewrite Ej. cbn [write_group from_variable c_q c_mean c_std written].
    assert (L : forall d0, exists c', load c2 (put d0 p (EFile (Some k) (Some (mkGroup (Some j) (Some q) (Some mean) (Some std))))) p = (c', None) /\ holds c' k s q mean std).
    { intros d0. unfold load. rewrite put_same. cbn [dataset g_sample g_q g_mean g_std]. rewrite El. eexists. split; [reflexivity|]. unfold holds. cbn [c_keras c_sample c_q c_mean c_std]. eauto 10. }
    destruct (d p) as [[? ?|x]|] eqn:Ed; [|exfalso; exact (Hd x eq_refl)|]; split; try reflexivity; apply L. Qed.

  (** A save that fails after keras has written its part leaves nothing that can be loaded. *)
  Lemma failed_save_lost c d p c2 : c_keras c <> None -> h5_name p = true -> (forall x, d p <> Some (EDir x)) -> snd (save c d p) <> None -> snd (load c2 (fst (save c d p)) p) <> None.
  Proof. intros Hk Hp Hd. unfold save. destruct (c_keras c) as [k|]; [|contradiction]. rewrite Hp.
    destruct (d p) as [[kk gg|x]|] eqn:Ed; [|exfalso; exact (Hd x eq_refl)|].
    all: destruct (match c_sample c with None => _ | Some _ => _ end) as [j|e'] eqn:Ej;
      [|intros _; cbn [fst]; unfold load; rewrite put_same; discriminate];
      unfold write_group; destruct (c_q c) as [q|]; cbn [written];
      [destruct (c_mean c) as [m|]; cbn [written]; [destruct (c_std c) as [sd|]; cbn [written]; [intros N; exfalso; apply N; reflexivity|]|]|];
      intros _; cbn [fst]; unfold load; rewrite put_same; cbn [dataset g_sample g_q g_mean g_std]; destruct (from_dict empty_structure j) as [s [e|]]; discriminate. Qed.
  (** Nothing else than a complete save makes a path loadable. *)
  Lemma save_loadable c d p c2 : snd (load c2 (fst (save c d p)) p) = None -> snd (save c d p) = None \/ (c_keras c = None /\ snd (load c2 d p) = None) \/ (h5_name p = false /\ fst (save c d p) p = d p).
  Proof. destruct (c_keras c) as [k|] eqn:Ek; [|unfold save; rewrite Ek; cbn [fst]; auto].
    destruct (h5_name p) eqn:Hp.
    - intros H. left. destruct (d p) as [[kk gg|x]|] eqn:Ed.
      + destruct (snd (save c d p)) eqn:E; [|reflexivity]. exfalso. apply (failed_save_lost c d p c2); [congruence|exact Hp|intros y Hy; congruence|congruence|exact H].
      + exfalso. revert H. unfold save. rewrite Ek, Hp, Ed. cbn [fst]. unfold load. rewrite Ed. discriminate.
      + destruct (snd (save c d p)) eqn:E; [|reflexivity]. exfalso. apply (failed_save_lost c d p c2); [congruence|exact Hp|intros y Hy; congruence|congruence|exact H].
    - unfold save. rewrite Ek, Hp. destruct (d p) as [[kk gg|x]|] eqn:Ed; [right; right; cbn [fst]; auto| |];
        destruct (match c_sample c with None => _ | Some _ => _ end) as [j|e'] eqn:Ej; cbn [fst]; unfold load at 1; rewrite put_same; discriminate. Qed.
  Lemma other_fails c d p c2 : h5_name p = false -> snd (save c d p) <> None /\ (fst (save c d p) p = d p \/ snd (load c2 (fst (save c d p)) p) = Some OSError).
  Proof. intros Hp. unfold save. destruct (c_keras c) as [k|]; [|split; [discriminate|left; reflexivity]]. rewrite Hp.
    destruct (d p) as [[kk gg|x]|] eqn:Ed; [split; [discriminate|left; exact Ed]| |];
      (destruct (match c_sample c with None => _ | Some _ => _ end) as [j|e'] eqn:Ej; split; [discriminate|right|discriminate|right]; cbn [fst]; unfold load; rewrite put_same; reflexivity). Qed.

  (** *** Names *)
  Lemma h5_path_name p : h5_path p -> h5_name p = true.
  Proof. intros (dir & x & stem & ext & Hd & Hx & Hs & He & ->).
    assert (Pe : plain ext /\ undotted ext) by (destruct He as [<-|[<-|[<-|[]]]]; split; reflexivity). destruct Pe as [Pe Ue].
    assert (B : basename (dir ++ String x stem ++ "." ++ ext) = String x stem ++ "." ++ ext).
    { assert (Q : has_char slash (String x stem ++ "." ++ ext) = false) by (rewrite !has_char_app; unfold plain in *; change slash with "/"%char; rewrite Hs, Pe; reflexivity).
      destruct Hd as [->|[d ->]]; unfold basename.
      - cbn [append] in Q |- *. rewrite (rsplit_none _ _ Q). reflexivity.
      - replace ((d ++ "/") ++ String x stem ++ "." ++ ext) with (d ++ String slash (String x stem ++ "." ++ ext)) by (rewrite append_assoc; reflexivity). rewrite rsplit_some by exact Q. reflexivity. }
    unfold h5_name, splitext. rewrite B. change ("." ++ ext) with (String dot ext). rewrite rsplit_some by exact Ue.
    assert (A : all_are dot (String x stem) = false). { unfold all_are. cbn [str_forall]. destruct (Ascii.eqb x dot) eqn:E; [|reflexivity]. apply Ascii.eqb_eq in E. contradiction. }
    rewrite A. cbn [snd]. destruct He as [<-|[<-|[<-|[]]]]; reflexivity. Qed.
  Lemma other_path_name p : other_path p -> h5_name p = false.
  Proof. intros Ho. destruct (h5_name p) eqn:E; [exfalso|reflexivity]. unfold h5_name in E. apply existsb_exists in E as (e & He & Hs). apply String.eqb_eq in Hs.
    assert (X : exists ext, In ext ["h5"; "hdf5"; "keras"] /\ snd (splitext p) = "." ++ ext).
    { destruct He as [<-|[<-|[<-|[]]]]; [exists "h5"|exists "hdf5"|exists "keras"]; cbn; auto. }
    destruct X as (ext & Hi & Hx). unfold splitext in Hx. pose proof (rsplit_inv dot (basename p)) as I. destruct (rsplit_char dot (basename p)) as [[a b]|]; [|discriminate].
    destruct (all_are dot a); [discriminate|]. cbn [snd] in Hx. injection Hx as ->. destruct I as [I _].
    unfold basename in I. pose proof (rsplit_inv slash p) as I2. destruct (rsplit_char slash p) as [[u v]|].
    - destruct I2 as [-> _]. apply (Ho (u ++ String slash a) ext Hi). rewrite I. rewrite append_assoc. reflexivity.
    - apply (Ho a ext Hi). exact I. Qed.

  (** *** Histories *)
  Lemma crun_app w a b : crun w (a ++ b)%list = crun (crun w a) b.
  Proof. unfold crun. apply fold_left_app. Qed.
  Lemma load_files c d p c2 : snd (load c d p) = snd (load c2 d p).
  Proof. unfold load. destruct (d p) as [[[k|] [g|]|k]|]; try reflexivity. destruct (dataset (g_sample g)); [|reflexivity]. destruct (from_dict empty_structure a) as [s [e|]]; [reflexivity|].
    destruct (dataset (g_q g)); [|reflexivity]. destruct (dataset (g_mean g)); [|reflexivity]. destruct (dataset (g_std g)); reflexivity. Qed.
  Lemma cstep_other w o x : (forall p, o = CSave p -> x <> p) -> snd (fst (cstep w o)) x = snd w x.
  Proof. destruct w as [c d]. destruct o as [k s q m sd|p|p]; intros N; cbn [cstep].
    - reflexivity.
    - destruct (load c d p). reflexivity.
    - pose proof (save_other c d p x (N p eq_refl)) as H. destruct (save c d p). exact H. Qed.
  Lemma crun_other os : forall w x, (forall p, In (CSave p) os -> x <> p) -> snd (crun w os) x = snd w x.
  Proof. induction os as [|o os IH]; intros w x N; [reflexivity|]. cbn [crun fold_left]. change (fold_left _ os ?z) with (crun z os). rewrite IH by (intros p Hp; apply N; right; exact Hp).
    apply cstep_other. intros p ->. apply N. left. reflexivity. Qed.
  Lemma load_put_ext c d d2 p : d p = d2 p -> load c d p = load c d2 p.
  Proof. unfold load. intros ->. reflexivity. Qed.

  (** The file written under a name, whatever is done with the container and under other names in between *)
  Lemma saved_later w p k s q mean std os : h5_name p = true -> no_directory (snd w) p -> json_sample s -> ~ In (CSave p) os ->
    exists c', let w1 := crun w (CVariable k s q mean std :: CSave p :: os) in fst (cstep w1 (CLoad p)) = (c', snd w1) /\ snd (cstep w1 (CLoad p)) = None /\ holds c' k s q mean std.
  Proof. intros Hp Hd Hs N. destruct w as [c d]. cbn [snd] in Hd. pose proof (save_load_container d p k s q mean std) as S.
    cbn [crun fold_left cstep fst]. destruct (save (from_variable k s q mean std) d p) as [d' e] eqn:Es. cbn [fst]. change (fold_left _ os ?z) with (crun z os).
    pose proof (crun_other os (from_variable k s q mean std, d') p) as O. cbn [snd] in O.
    destruct (crun (from_variable k s q mean std, d') os) as [c1 d1] eqn:E1. cbn [snd] in O. specialize (O ltac:(intros p' Hp' ->; contradiction)).
    destruct (S c1 Hp Hd Hs) as [-> (c' & L & H)]. exists c'. cbn [cstep]. rewrite (load_put_ext c1 d1 d' p O), L. cbn [fst snd]. auto. Qed.
End Container.
