(** Proofs about missing scans, ranges of scans and listings. *)
From Coq Require Import Reals Lra Sorted.
From Verif Require Import Py Str Sample_Model Sample_Spec Rng Arr Footprint_Model Scan_Model Scan_Spec Scan_Proofs Spec_Model SpecFile_Spec SpecLoader_Spec Spec_Proofs SpecLoader_Proofs Fio_Model P08_Model
  Preproc_Model Preproc_Spec OutPreproc_Proofs Interp_Model Interp_Spec Interp_Proofs Simulation_Model Fitter_Model Fitter_Spec Fitter_Proofs FitterOut_Proofs Polish_Proofs Choice_Proofs
  FileFitter_Model FileFitter_Spec FileFitter_Proofs.
Local Open Scope R_scope.
Local Open Scope string_scope.

(** ** Loops *)
Lemma Forall2_map_eq A B C (h : A -> C) (k : B -> C) : forall l l', Forall2 (fun a b => h a = k b) l l' -> map h l = map k l'.
Proof. induction 1 as [|a b l l' E _ IH]; [reflexivity|]. cbn [map]. now rewrite E, IH. Qed.
Lemma Forall2_impl A B (P Q : A -> B -> Prop) : (forall a b, P a b -> Q a b) -> forall l l', Forall2 P l l' -> Forall2 Q l l'.
Proof. intros H. induction 1; constructor; auto. Qed.
Lemma Forall2_right A B (P : A -> B -> Prop) (Q : B -> Prop) : (forall a b, P a b -> Q b) -> forall l l', Forall2 P l l' -> Forall Q l'.
Proof. intros H. induction 1; constructor; eauto. Qed.
Lemma Forall2_compose A B C (P : A -> B -> Prop) (Q : B -> C -> Prop) : forall l l', Forall2 P l l' -> forall l'', Forall2 Q l' l'' -> Forall2 (fun a c => exists b, P a b /\ Q b c) l l''.
Proof. induction 1 as [|a b l l' E _ IH]; intros l'' H; inversion H; subst; constructor; eauto. Qed.

Section Outcome.
  Context {S : Type} (g : rng S) (refl1d : option refl1d_fun) (pick : list fl -> nat) (cf : @curve_fit_fun S).
  Context (erf : R -> R) (to_float : string -> option fl).

  (** ** C75, C76 *)
  Lemma spec_missing f d s n a os ns : sf_spec f = Some d -> load_scan to_float d n (fa_front a) (fa_back a) = Raise NotReflectivityScanError ->
    spec_fit_body g refl1d pick cf erf to_float f s n a os ns = Raise NotReflectivityScanError.
  Proof. intros Ed El. unfold spec_fit_body. rewrite Ed, El. reflexivity. Qed.
  Lemma spec_key f d s n a os ns : sf_spec f = Some d -> load_scan to_float d n (fa_front a) (fa_back a) = Raise KeyError ->
    spec_fit_body g refl1d pick cf erf to_float f s n a os ns = Raise AttributeError.
  Proof. intros Ed El. unfold spec_fit_body. rewrite Ed, El. reflexivity. Qed.
  Lemma spec_never_none f s n a os ns s' : spec_fit_body g refl1d pick cf erf to_float f s n a os ns <> Ok (s', None).
  Proof. unfold spec_fit_body. destruct (sf_spec f) as [d|]; [|discriminate]. destruct (load_scan _ _ _ _ _) as [sc|e]; [|destruct e; discriminate].
    intros H. bind_inv H. destruct a0 as [s1 r]. discriminate. Qed.

  Lemma fio_fit_missing fs md f d s n a roi e : ff_loader f = Some d -> fio_load_scan to_float fs md d n (fa_front a) (fa_back a) roi "p100k" = Raise e ->
    fio_fit_body g refl1d pick cf erf to_float fs md f s n a roi =
    match e with NotReflectivityScanError => Ok (s, inr (NotReflectivity n)) | KeyError | FileNotFoundError => Ok (s, inr (ScanNotFound n)) | e => Raise e end.
  Proof. intros Ed El. unfold fio_fit_body. rewrite Ed, El. destruct e; reflexivity. Qed.

  Lemma spec_shift_none f s n a os ns s' r : fa_opt_q a = false -> spec_fit_body g refl1d pick cf erf to_float f s n a os ns = Ok (s', Some r) -> r_shift r = None.
  Proof. intros Ho H. unfold spec_fit_body in H. destruct (sf_spec f) as [d|]; [|discriminate]. destruct (load_scan _ _ _ _ _) as [sc|e]; [|destruct e; discriminate].
    bind_inv H. destruct a0 as [s1 r0]. injection H as <- <-. apply fit_scan_inv in E. destruct E as (m & c & q & qs & out & cs & refl & d0 & _ & _ & _ & _ & Ef & _ & _ & Ed & _ & ->).
    unfold fit_curve in Ef. apply optional_outputs in Ef. destruct Ef as [[_ Ef] _]. cbn [o_opt_q args_options] in Ef. rewrite (Ef Ho) in Ed. injection Ed as <-. reflexivity. Qed.
  Lemma spec_shift_some f s n a os ns s' r : fa_opt_q a = true -> spec_fit_body g refl1d pick cf erf to_float f s n a os ns = Ok (s', Some r) -> exists d, r_shift r = Some d.
  Proof. intros Ho H. unfold spec_fit_body in H. destruct (sf_spec f) as [d|]; [|discriminate]. destruct (load_scan _ _ _ _ _) as [sc|e]; [|destruct e; discriminate].
    bind_inv H. destruct a0 as [s1 r0]. injection H as <- <-. apply fit_scan_inv in E. destruct E as (m & c & q & qs & out & cs & refl & d0 & _ & _ & _ & _ & Ef & _ & _ & Ed & _ & ->).
    unfold fit_curve in Ef. apply optional_outputs in Ef. destruct Ef as [[Ef _] _]. cbn [o_opt_q args_options] in Ef. unfold shift_or_none in Ed.
    destruct (fo_shift out) as [ds|]; [|rewrite (Ef eq_refl) in Ho; discriminate]. bind_as Ed d1 Ed1. injection Ed as <-. exists d1. reflexivity. Qed.

  (** Without optimisation FioFitter.fit cannot return a result. *)
  Lemma fio_no_result fs md f s n a roi s' r : fa_opt_q a = false -> fio_fit_body g refl1d pick cf erf to_float fs md f s n a roi <> Ok (s', inl r).
  Proof. intros Ho H. unfold fio_fit_body in H. destruct (ff_loader f) as [d|]; [|discriminate]. destruct (fio_load_scan _ _ _ _ _ _ _ _ _) as [sc|e]; [|destruct e; discriminate].
    bind_inv H. destruct a0 as [s1 r0]. injection H as <- <-. apply fit_scan_inv in E. destruct E as (m & c & q & qs & out & cs & refl & d0 & _ & _ & _ & _ & Ef & _ & _ & Ed & _ & _).
    unfold fit_curve in Ef. apply optional_outputs in Ef. destruct Ef as [[_ Ef] _]. cbn [o_opt_q args_options] in Ef. rewrite (Ef Ho) in Ed. discriminate. Qed.
  (** ... although the fit itself succeeds. *)
  Lemma fio_type_error fs md f d s n a roi m sc c q qs s' out cs refl : fa_opt_q a = false -> ff_loader f = Some d -> ff_model f = Some m ->
    fio_load_scan to_float fs md d n (fa_front a) (fa_back a) roi "p100k" = Ok sc ->
    corrected_intensity erf (moved sc (fa_offset a)) = Ok c -> scan_q (moved sc (fa_offset a)) = Ok q -> all_finite q = Some qs ->
    fit_curve g refl1d pick cf m s (A1 c) qs (args_options a false 300) = Ok (s', out) -> fo_refl out = Some cs -> py_get cs 0 = Ok refl ->
    fio_fit_body g refl1d pick cf erf to_float fs md f s n a roi = Raise TypeError.
  Proof. intros Ho Ed Em El Ec Eq Eqs Ef Ecs Er. unfold fio_fit_body. rewrite Ed, El, Em. unfold fit_scan. cbv zeta. rewrite add_offset_moved, Ec. cbn [bind]. rewrite Eq. cbn [bind].
    rewrite Eqs, Ef. cbn [bind]. rewrite Ecs, Er. cbn [bind]. unfold fit_curve in Ef. apply optional_outputs in Ef. destruct Ef as [[_ Ef] _]. cbn [o_opt_q args_options] in Ef. rewrite (Ef Ho). reflexivity. Qed.

  (** ** C78 *)
  Lemma fio_body_result fs md f d s n a roi s' x : ff_loader f = Some d -> fio_fit_body g refl1d pick cf erf to_float fs md f s n a roi = Ok (s', x) ->
    match x with
    | inl r => is_ok (fio_load_scan to_float fs md d n (fa_front a) (fa_back a) roi "p100k") = true /\ r_scan r = n /\ r_index r = [r_scan r]
    | inr _ => is_ok (fio_load_scan to_float fs md d n (fa_front a) (fa_back a) roi "p100k") = false
    end.
  Proof. intros Ed H. unfold fio_fit_body in H. rewrite Ed in H. destruct (fio_load_scan to_float fs md d n (fa_front a) (fa_back a) roi "p100k") as [sc|e] eqn:El.
    - bind_inv H. destruct a0 as [s1 r0]. injection H as <- <-. split; [reflexivity|]. apply fit_scan_inv in E. destruct E as (m & c & q & qs & out & cs & refl & d0 & _ & _ & _ & _ & _ & _ & _ & _ & _ & ->).
      cbn [r_scan r_index]. split; [|reflexivity]. apply fio_load_number in El. apply El.
    - destruct e; try discriminate H; injection H as <- <-; reflexivity. Qed.

  Lemma fio_results fs md f d a roi : ff_loader f = Some d -> forall l s s' xs, mapS (fun s n => fio_fit_body g refl1d pick cf erf to_float fs md f s n a roi) s l = Ok (s', xs) ->
    Forall2 (fun n r => r_scan r = n /\ r_index r = [r_scan r] /\ exists s1 s2, fio_fit_body g refl1d pick cf erf to_float fs md f s1 n a roi = Ok (s2, inl r))
      (filter (fun n => is_ok (fio_load_scan to_float fs md d n (fa_front a) (fa_back a) roi "p100k")) l) (results_of xs).
  Proof. intros Ed l s s' xs H. apply mapS_Forall2 in H. induction H as [|n x l xs (s1 & s2 & E) _ IH]; [constructor|].
    pose proof (fio_body_result _ _ _ _ _ _ _ _ _ _ Ed E) as B. cbn [filter]. destruct x as [r|msg].
    - destruct B as (-> & B1 & B2). constructor; [eauto|exact IH].
    - rewrite B. exact IH. Qed.
  Lemma fio_range_inv fs md f s l a roi s' se : fio_range_body g refl1d pick cf erf to_float fs md f s l a roi = Ok (s', se) ->
    exists xs, mapS (fun s n => fio_fit_body g refl1d pick cf erf to_float fs md f s n a roi) s l = Ok (s', xs) /\ series_new (results_of xs) = Ok se.
  Proof. unfold fio_range_body. intros H. bind_inv H. destruct a0 as [s1 xs]. bind_inv H. injection H as <- <-. eauto. Qed.

  Lemma series_list l se : series_new l = Ok se -> se_list se = l.
  Proof. intros H. apply series_new_inv in H. destruct H as (p & f & r & _ & _ & ->). reflexivity. Qed.
  Lemma fio_range_order fs md f d s l a roi s' se : ff_loader f = Some d -> fio_range_body g refl1d pick cf erf to_float fs md f s l a roi = Ok (s', se) ->
    let kept := filter (fun n => is_ok (fio_load_scan to_float fs md d n (fa_front a) (fa_back a) roi "p100k")) l in
    se_scan se = kept /\ se_index se = kept /\ kept <> [] /\
    Forall2 (fun n r => exists s1 s2, snd (fio_fit g refl1d pick cf erf to_float fs md f s1 n a roi (ReloadKeyword false)) = Ok (s2, inl r)) kept (se_list se).
  Proof. intros Ed H kept. apply fio_range_inv in H. destruct H as (xs & Em & Es). pose proof (fio_results fs md f d a roi Ed l s s' xs Em) as F.
    assert (Fi : Forall (fun r => r_index r = [r_scan r]) (results_of xs)) by (revert F; apply Forall2_right; intros n r (_ & E & _); exact E).
    destruct (series_index _ _ Fi Es) as (-> & -> & Ne). rewrite (series_list _ _ Es).
    assert (Ek : map r_scan (results_of xs) = kept).
    { rewrite <- (map_id kept). symmetry. apply Forall2_map_eq. revert F. apply Forall2_impl. intros n r (E & _). symmetry. exact E. }
    rewrite Ek. repeat split; [intros E0; rewrite E0 in Ek; destruct (results_of xs); [congruence|discriminate Ek]|].
    revert F. apply Forall2_impl. intros n r (_ & _ & s1 & s2 & E). exists s1, s2. rewrite fio_fit_no_reload. exact E. Qed.
  Lemma fio_range_aligned fs md f names s l a roi s' se : rng_ok g -> pick_ok pick -> curve_fit_ok cf ->
    (forall m, ff_model f = Some m -> fittable refl1d (nn_sample m) /\ network_ok m names) -> samples_ok (args_options a false 300) -> NoDup names ->
    fio_range_body g refl1d pick cf erf to_float fs md f s l a roi = Ok (s', se) ->
    forall i r, nth_error (se_list se) i = Some r -> series_entry se i r.
  Proof. intros G Pk Cf Hm So Nd H. destruct (ff_loader f) as [d|] eqn:Ed.
    2: { exfalso. apply fio_range_inv in H. destruct H as (xs & Em & Es). destruct l as [|n l]; [injection Em as <- <-; discriminate|]. cbn [mapS] in Em. unfold fio_fit_body at 1 in Em. rewrite Ed in Em. discriminate. }
    apply fio_range_inv in H. destruct H as (xs & Em & Es). pose proof (fio_results fs md f d a roi Ed l s s' xs Em) as F.
    rewrite (series_list _ _ Es). refine (proj2 (series_aligned names _ se Nd _ Es)). revert F. apply Forall2_right. intros n r (_ & _ & s1 & s2 & E).
    unfold fio_fit_body in E. rewrite Ed in E. destruct (fio_load_scan _ _ _ _ _ _ _ _ _) as [sc|e]; [|destruct e; discriminate E]. bind_inv E. destruct a0 as [s3 r0]. injection E as <- <-.
    exact (proj1 (fit_scan_contents g refl1d pick cf erf _ _ names _ _ _ _ _ _ G Pk Cf Hm So E0)). Qed.
  Lemma fio_range_empty fs md f d s l a roi : ff_loader f = Some d ->
    (forall n, In n l -> fio_load_scan to_float fs md d n (fa_front a) (fa_back a) roi "p100k" = Raise NotReflectivityScanError \/
       fio_load_scan to_float fs md d n (fa_front a) (fa_back a) roi "p100k" = Raise FileNotFoundError) ->
    fio_range_body g refl1d pick cf erf to_float fs md f s l a roi = Raise ValueError.
  Proof. intros Ed H. unfold fio_range_body.
    assert (M : exists xs, mapS (fun s n => fio_fit_body g refl1d pick cf erf to_float fs md f s n a roi) s l = Ok (s, xs) /\ results_of xs = []).
    { induction l as [|n l IH]; [exists []; split; reflexivity|]. destruct (IH (fun n Hn => H n (or_intror Hn))) as (xs & E & Er). cbn [mapS].
      destruct (H n (or_introl eq_refl)) as [E0|E0]; rewrite (fio_fit_missing fs md f d s n a roi _ Ed E0); cbn [bind]; rewrite E; cbn [bind]; eexists; (split; [reflexivity|exact Er]). }
    destruct M as (xs & -> & Er). cbn [bind]. rewrite Er. reflexivity. Qed.

  Lemma spec_range_inv f d s l a s' se : sf_spec f = Some d -> spec_range_body g refl1d pick cf erf to_float f s l a = Ok (s', se) ->
    exists scans rs, load_scans to_float d l (fa_front a) (fa_back a) = Ok scans /\
      mapS (fun s sc => fit_scan g refl1d pick cf erf shift_or_none (sf_model f) s sc a (args_options a false 300)) s scans = Ok (s', rs) /\ series_new rs = Ok se.
  Proof. intros Ed H. unfold spec_range_body in H. rewrite Ed in H. bind_as H scans Es. bind_as H x Ex. destruct x as [s1 rs]. bind_as H se0 Ese. injection H as <- <-. eauto. Qed.
  Lemma spec_range_order f d s l a s' se : sf_spec f = Some d -> spec_range_body g refl1d pick cf erf to_float f s l a = Ok (s', se) ->
    let kept := filter (fun n => is_ok (load_scan to_float d n (fa_front a) (fa_back a))) l in
    se_scan se = kept /\ se_index se = kept /\ kept <> [] /\
    Forall2 (fun n r => exists s1 s2, spec_fit_body g refl1d pick cf erf to_float f s1 n a false 300 = Ok (s2, Some r)) kept (se_list se).
  Proof. intros Ed H kept. destruct (spec_range_inv f d s l a s' se Ed H) as (scans & rs & El & Em & Es). apply load_scans_accepted in El. apply accepted_filter in El. fold kept in El.
    apply mapS_Forall2 in Em. pose proof (Forall2_compose _ _ _ _ _ _ _ El _ Em) as F.
    assert (Fi : Forall (fun r => r_index r = [r_scan r]) rs).
    { revert F. apply Forall2_right. intros n r (sc & _ & s1 & s2 & E). apply fit_scan_inv in E. destruct E as (m & c & q & qs & out & cs & refl & d0 & _ & _ & _ & _ & _ & _ & _ & _ & _ & ->). reflexivity. }
    destruct (series_index _ _ Fi Es) as (-> & -> & Ne). rewrite (series_list _ _ Es).
    assert (Ek : map r_scan rs = kept).
    { rewrite <- (map_id kept). symmetry. apply Forall2_map_eq. revert F. apply Forall2_impl. intros n r (sc & E1 & s1 & s2 & E). apply load_number in E1.
      apply fit_scan_inv in E. destruct E as (m & c & q & qs & out & cs & refl & d0 & _ & _ & _ & _ & _ & _ & _ & _ & _ & ->). cbn [r_scan]. symmetry. exact E1. }
    rewrite Ek. repeat split; [intros E0; rewrite E0 in Ek; destruct rs; [congruence|discriminate Ek]|].
    revert F. apply Forall2_impl. intros n r (sc & E1 & s1 & s2 & E). exists s1, s2. unfold spec_fit_body. rewrite Ed, E1, E. reflexivity. Qed.
  Lemma spec_range_aligned f names s l a s' se : rng_ok g -> pick_ok pick -> curve_fit_ok cf ->
    (forall m, sf_model f = Some m -> fittable refl1d (nn_sample m) /\ network_ok m names) -> samples_ok (args_options a false 300) -> NoDup names ->
    spec_range_body g refl1d pick cf erf to_float f s l a = Ok (s', se) ->
    forall i r, nth_error (se_list se) i = Some r -> series_entry se i r.
  Proof. intros G Pk Cf Hm So Nd H. destruct (sf_spec f) as [d|] eqn:Ed; [|unfold spec_range_body in H; rewrite Ed in H; discriminate].
    destruct (spec_range_inv f d s l a s' se Ed H) as (scans & rs & El & Em & Es). rewrite (series_list _ _ Es). refine (proj2 (series_aligned names _ se Nd _ Es)).
    apply mapS_Forall2 in Em. revert Em. apply Forall2_right. intros sc r (s1 & s2 & E). exact (proj1 (fit_scan_contents g refl1d pick cf erf _ _ names _ _ _ _ _ _ G Pk Cf Hm So E)). Qed.
  Lemma spec_range_empty f d s l a : sf_spec f = Some d -> (forall n, In n l -> load_scan to_float d n (fa_front a) (fa_back a) = Raise NotReflectivityScanError) ->
    spec_range_body g refl1d pick cf erf to_float f s l a = Raise ValueError.
  Proof. intros Ed H. unfold spec_range_body. rewrite Ed.
    assert (E : load_scans to_float d l (fa_front a) (fa_back a) = Ok []).
    { apply load_scans_accepted. induction l as [|n l IH]; constructor; [apply H; left; reflexivity|]. apply IH. intros n' Hn'. apply H. right. exact Hn'. }
    rewrite E. reflexivity. Qed.
End Outcome.

(** ** C111: listings *)
Lemma fold_max l : forall x, (x <= fold_left Z.max l x)%Z /\ (forall y, In y l -> (y <= fold_left Z.max l x)%Z) /\ (fold_left Z.max l x = x \/ In (fold_left Z.max l x) l).
Proof. induction l as [|y l IH]; intros x; cbn [fold_left]; [split; [lia|split; [intros y []|auto]]|]. destruct (IH (Z.max x y)) as (A & B & C).
  split; [lia|]. split.
  - intros z [<-|Hz]; [lia|auto].
  - destruct C as [C|C]; [|right; right; exact C]. rewrite C. destruct (Z.max_spec x y) as [[_ ->]|[_ ->]]; [right; left; reflexivity|left; reflexivity]. Qed.
Lemma fold_min l : forall x, (fold_left Z.min l x <= x)%Z /\ (forall y, In y l -> (fold_left Z.min l x <= y)%Z) /\ (fold_left Z.min l x = x \/ In (fold_left Z.min l x) l).
Proof. induction l as [|y l IH]; intros x; cbn [fold_left]; [split; [lia|split; [intros y []|auto]]|]. destruct (IH (Z.min x y)) as (A & B & C).
  split; [lia|]. split.
  - intros z [<-|Hz]; [lia|auto].
  - destruct C as [C|C]; [|right; right; exact C]. rewrite C. destruct (Z.min_spec x y) as [[_ ->]|[_ ->]]; [left; reflexivity|right; left; reflexivity]. Qed.
Lemma z_max_spec l m : z_max l = Ok m -> In m l /\ forall y, In y l -> (y <= m)%Z.
Proof. destruct l as [|x l]; [discriminate|]. intros H. injection H as <-. destruct (fold_max l x) as (A & B & C). split; [destruct C as [->|C]; [left; reflexivity|right; exact C]|].
  intros y [<-|Hy]; auto. Qed.
Lemma z_min_spec l m : z_min l = Ok m -> In m l /\ forall y, In y l -> (m <= y)%Z.
Proof. destruct l as [|x l]; [discriminate|]. intros H. injection H as <-. destruct (fold_min l x) as (A & B & C). split; [destruct C as [->|C]; [left; reflexivity|right; exact C]|].
  intros y [<-|Hy]; auto. Qed.
Lemma consecutive_In a n i : In i (map (fun k => (a + Z.of_nat k)%Z) (seq 0 n)) <-> (a <= i < a + Z.of_nat n)%Z.
Proof. rewrite in_map_iff. split.
  - intros (k & <- & Hk). apply in_seq in Hk. lia.
  - intros H. exists (Z.to_nat (i - a)). split; [lia|]. apply in_seq. lia. Qed.
Lemma consecutive_sorted a n : forall b, StronglySorted Z.lt (map (fun k => (a + Z.of_nat k)%Z) (seq b n)).
Proof. induction n as [|n IH]; intros b; cbn [seq map]; constructor; [apply IH|]. apply Forall_map. apply Forall_forall. intros k Hk. apply in_seq in Hk. lia. Qed.
Lemma shown_range_spec keys lo hi r : shown_range keys lo hi = Ok r ->
  StronglySorted Z.lt r /\ (exists mn mx, In mn keys /\ In mx keys /\ (forall k, In k keys -> (mn <= k <= mx)%Z) /\
    forall i, In i r <-> (mn <= i <= mx)%Z /\ (forall l, lo = Some l -> (l <= i)%Z) /\ (forall h, hi = Some h -> (i <= h)%Z)).
Proof. unfold shown_range. intros H. bind_as H mx Ex. cbv zeta in H. bind_as H mn En. cbv zeta in H. injection H as <-. apply z_max_spec in Ex. apply z_min_spec in En.
  destruct Ex as [Ix Bx], En as [In0 Bn]. split; [apply consecutive_sorted|]. exists mn, mx. split; [exact In0|]. split; [exact Ix|]. split; [intros k Hk; split; auto|].
  intros i. rewrite consecutive_In. destruct lo as [l|], hi as [h|]; split.
  - intros H. split; [lia|]. split; intros ? E; injection E as <-; lia.
  - intros (H & Hl & Hh). specialize (Hl l eq_refl). specialize (Hh h eq_refl). lia.
  - intros H. split; [lia|]. split; [intros ? E; injection E as <-; lia|discriminate].
  - intros (H & Hl & _). specialize (Hl l eq_refl). lia.
  - intros H. split; [lia|]. split; [discriminate|intros ? E; injection E as <-; lia].
  - intros (H & _ & Hh). specialize (Hh h eq_refl). lia.
  - intros H. split; [lia|]. split; discriminate.
  - intros (H & _). lia. Qed.
Lemma shown_range_total keys lo hi : keys <> [] -> exists r, shown_range keys lo hi = Ok r.
Proof. destruct keys as [|k keys]; [congruence|]. intros _. unfold shown_range. cbn [z_max z_min bind]. eauto. Qed.
Lemma map_listed A (info : Z -> option A) (P : A -> bool) r : map listed (map (fun i => match info i with Some e => if P e then Shown i e else NotFound i | None => NotFound i end) r) = r.
Proof. rewrite map_map. rewrite <- (map_id r) at 2. apply map_ext. intros i. destruct (info i) as [e|]; [destruct (P e)|]; reflexivity. Qed.

Lemma spec_show_spec f d lo hi out : sf_spec f = Some d -> spec_show_body f lo hi = Ok out ->
  exists r, shown_range (map fst (p_index (ld_parser d))) lo hi = Ok r /\ map listed out = r /\
    forall x, In x out -> match x with
      | Shown i (c, t) => exists e, dict_get Z.eqb (p_index (ld_parser d)) i = Some e /\ e_command e = c /\ e_time e = Some t
      | NotFound i => dict_get Z.eqb (p_index (ld_parser d)) i = None \/ exists e, dict_get Z.eqb (p_index (ld_parser d)) i = Some e /\ e_time e = None
      end.
Proof. intros Ed H. unfold spec_show_body in H. rewrite Ed in H. cbv zeta in H. bind_as H r Er. injection H as <-. exists r. split; [reflexivity|]. split.
  - rewrite map_map. rewrite <- (map_id r) at 2. apply map_ext. intros i. destruct (dict_get _ _ _) as [e|]; [destruct (e_time e)|]; reflexivity.
  - intros x Hx. apply in_map_iff in Hx. destruct Hx as (i & <- & _). destruct (dict_get Z.eqb (p_index (ld_parser d)) i) as [e|] eqn:E; [|left; exact E].
    destruct (e_time e) as [t|] eqn:Et; [exists e; auto|right; exists e; auto]. Qed.
Lemma spec_show_empty f d lo hi : sf_spec f = Some d -> p_index (ld_parser d) = [] -> spec_show_body f lo hi = Raise ValueError.
Proof. intros Ed E. unfold spec_show_body. rewrite Ed, E. reflexivity. Qed.
Lemma fio_show_spec to_float fs f d lo hi out : ff_loader f = Some d -> fio_show_body to_float fs f lo hi = Ok out ->
  exists info r, scan_info to_float fs (fl_parser d) = Ok info /\ shown_range (map fst info) lo hi = Ok r /\ map listed out = r /\
    forall x, In x out -> match x with
      | Shown i (c, b) => exists file rd, dict_get Z.eqb info i = Some (file, rd, b) /\ r_command rd = c
      | NotFound i => dict_get Z.eqb info i = None
      end.
Proof. intros Ed H. unfold fio_show_body in H. rewrite Ed in H. bind_as H info Ei. bind_as H r Er. injection H as <-. exists info, r. split; [reflexivity|]. split; [exact Er|]. split.
  - rewrite map_map. rewrite <- (map_id r) at 2. apply map_ext. intros i. destruct (dict_get _ _ _) as [[[? ?] ?]|]; reflexivity.
  - intros x Hx. apply in_map_iff in Hx. destruct Hx as (i & <- & _). destruct (dict_get Z.eqb info i) as [[[file rd] b]|] eqn:E; [exists file, rd; auto|exact E]. Qed.

(** ** The result of a fit *)
Lemma all_finite_map xs : all_finite (map Some xs) = Some xs.
Proof. induction xs as [|x xs IH]; [reflexivity|]. cbn [map all_finite]. rewrite IH. reflexivity. Qed.
Lemma moved_angle sc x A : sc_angle sc = map Some A -> sc_angle (moved sc x) = map Some (map (fun a => a + x) A).
Proof. intros E. unfold moved. cbn [sc_angle]. rewrite E, !map_map. reflexivity. Qed.

Section Success.
  Context {S : Type} (g : rng S) (refl1d : option refl1d_fun) (pick : list fl -> nat) (cf : @curve_fit_fun S) (erf : R -> R).
  Lemma scan_fits shift m names s sc a o A I : rng_ok g -> pick_ok pick -> fittable refl1d (nn_sample m) -> network_ok m names -> samples_ok o -> o_sim o = true -> o_polish o = false ->
    Footprint_Spec.erf_positive erf -> geometry_ok sc -> sc_wavelength sc <> 0 -> sc_angle sc = map Some A -> sc_raw sc = map Some I -> Footprint_Spec.scattering_angles (map (fun x => x + fa_offset a) A) ->
    List.length I = List.length A -> Footprint_Spec.all_pos I -> I <> [] -> sc_norm sc = Some "max" \/ sc_norm sc = Some "first" ->
    (forall ds, ds <> [] -> exists d, shift (Some ds) = Ok d) -> (exists d, shift None = Ok d) \/ o_opt_q o = true ->
    exists s' r, fit_scan g refl1d pick cf erf shift (Some m) s sc a o = Ok (s', r).
  Proof. intros G Pk Hf Hn So Hsim Hp He Hg Hw HA HI Hs L Pos Ne Hno H1 H2. pose proof (moved_angle sc (fa_offset a) A HA) as EA.
    assert (Ec : exists out, corrected_intensity erf (moved sc (fa_offset a)) = Ok (map Some out) /\ List.length out = List.length I).
    { assert (L' : List.length I = List.length (map (fun x => x + fa_offset a) A)) by (rewrite map_length; exact L).
      destruct Hno as [Hno|Hno]; [destruct (corrected_max erf (moved sc (fa_offset a)) (map (fun x => x + fa_offset a) A) I He Hg EA HI Hs L' Pos Ne Hno) as (out & E & Lo & _)
        |destruct (corrected_first erf (moved sc (fa_offset a)) (map (fun x => x + fa_offset a) A) I He Hg EA HI Hs L' Pos Ne Hno) as (out & E & Lo & _)]; exists out; split; assumption. }
    destruct Ec as (out & Ec & Lo). pose proof (scan_q_finite (moved sc (fa_offset a)) _ Hw EA) as Eq.
    eapply (fit_scan_total g refl1d pick cf erf shift m names s sc a o (map Some out) _ _ G Pk Hf Hn So Hsim Hp Ec Eq (all_finite_map _)); try assumption.
    - destruct A; [|discriminate]. destruct I; [congruence|discriminate].
    - rewrite !map_length. congruence. Qed.

End Success.

(** ** Histories without changes *)
Section Same.
  Context {S : Type} (g : rng S) (refl1d : option refl1d_fun) (pick : list fl -> nat) (cf : @curve_fit_fun S).
  Context (erf : R -> R) (to_float : string -> option fl) (depth : nat).
  Notation srun := (spec_run g refl1d pick cf erf to_float depth).
  Notation sstep := (spec_step g refl1d pick cf erf to_float depth).
  Notation frun := (fio_run g refl1d pick cf erf to_float).
  Notation fstep := (fio_step g refl1d pick cf erf to_float).
  Definition basis (st : disk * spec_fitter) := (fst st, sf_import (snd st), sf_foot (snd st), sf_file (snd st)).
  Lemma spec_step_basis st op : spec_same op = true -> basis (sstep st op) = basis st.
  Proof. destruct st as [fs f]. destruct op; try discriminate; intros _; cbn [spec_step]; unfold basis; cbn [fst snd]; try reflexivity;
      unfold spec_fit, spec_fit_range, spec_show; rewrite fst_let; pose proof (spec_before_keeps depth fs f r) as K; cbv zeta in K; destruct K as (_ & _ & -> & -> & ->); reflexivity. Qed.
  Lemma spec_run_basis h : forall st, Forall (fun op => spec_same op = true) h -> basis (srun st h) = basis st.
  Proof. induction h as [|op h IH]; intros st F; [reflexivity|]. inversion F as [|? ? F1 F']; subst. refine (eq_trans (IH (sstep st op) F') _). apply spec_step_basis. exact F1. Qed.
  Lemma spec_unchanged fs f path f' h s n a os ns r : spec_set_file depth fs f path = (f', Ok tt) -> Forall (fun op => spec_same op = true) h ->
    let st := srun (fs, f') h in
    snd (spec_fit g refl1d pick cf erf to_float depth (fst st) (snd st) s n a os ns r) =
    fresh_spec_fit g refl1d pick cf erf to_float depth (fst st) (sf_model (snd st)) (sf_import (snd st)) (sf_foot (snd st)) path s n a os ns.
  Proof. intros E F st. pose proof (spec_run_basis h (fs, f') F) as B. fold st in B. unfold basis in B. cbn [fst snd] in B. injection B as B1 B2 B3 B4.
    assert (F0 : Forall (fun op => sets_spec_file op = false) h) by (revert F; apply Forall_impl; intros []; (reflexivity || discriminate)).
    pose proof (spec_run_model g refl1d pick cf erf to_float depth h (fs, f')) as M. fold st in M. cbn [snd] in M.
    unfold spec_set_file in E. destruct (spec_loader_new depth fs (Some path) (sf_import f) (sf_foot f)) as [d|] eqn:Ed; [|discriminate]. injection E as E. subst f'.
    cbn [sf_import sf_foot sf_file sf_model] in *.
    refine (eq_trans (spec_set_file_fixes g refl1d pick cf erf to_float depth fs f path _ h s n a os ns _ F0 r _) _).
    - unfold spec_set_file. rewrite Ed. reflexivity.
    - fold st. unfold spec_before. destruct (wants_reload r); [|reflexivity]. unfold spec_reload. rewrite B1, B2, B3, B4, Ed. reflexivity.
    - rewrite B1, B2, B3, M. reflexivity. Qed.

  Lemma fio_step_disk st op : fio_same_disk op = true -> fst (fstep st op) = fst st.
  Proof. destruct st as [[fs md] f]. destruct op; try discriminate; reflexivity. Qed.
  Lemma fio_run_disk h : forall st, Forall (fun op => fio_same_disk op = true) h -> fst (frun st h) = fst st.
  Proof. induction h as [|op h IH]; intros st F; [reflexivity|]. inversion F as [|? ? F1 F']; subst. refine (eq_trans (IH (fstep st op) F') _). apply fio_step_disk. exact F1. Qed.
  Lemma fio_unchanged fs md f stem f' h s n a roi : fio_set_file to_float fs f stem = (f', Ok tt) -> Forall (fun op => fio_quiet op = true) h -> Forall (fun op => fio_same_disk op = true) h ->
    let '(fs', md', f1) := frun (fs, md, f') h in
    snd (fio_fit g refl1d pick cf erf to_float fs' md' f1 s n a roi (ReloadKeyword false)) =
    fresh_fio_fit g refl1d pick cf erf to_float fs md (fio_last_model h (ff_model f)) (ff_import f) (ff_foot f) stem s n a roi.
  Proof. intros E Q D. pose proof (fio_history_quiet g refl1d pick cf erf to_float (fs, md, f') h s n a roi Q) as H. pose proof (fio_run_disk h (fs, md, f') D) as Ed.
    destruct (frun (fs, md, f') h) as [[fs' md'] f1]. cbn [fst] in Ed. injection Ed as -> ->. rewrite H. cbn [snd]. unfold fresh_fio_fit, fio_set_file in *.
    cbn [ff_model ff_import ff_foot]. destruct (fio_loader_make to_float fs (Some stem) (ff_import f) (ff_foot f)) as [d|] eqn:El; [|discriminate]. injection E as <-. reflexivity. Qed.
End Same.

(** ** Contents of the results of both fitters *)
Section Contents.
  Context {S : Type} (g : rng S) (refl1d : option refl1d_fun) (pick : list fl -> nat) (cf : @curve_fit_fun S) (erf : R -> R) (to_float : string -> option fl).
  Lemma fit_scan_from shift model s sc a o s' r : fit_scan g refl1d pick cf erf shift model s sc a o = Ok (s', r) ->
    exists m, model = Some m /\ from_fit g refl1d pick cf erf m sc s s' a o r.
  Proof. intros H. apply fit_scan_inv in H. destruct H as (m & c & q & qs & out & cs & refl & d & -> & Ec & Eq & Eqs & Ef & Ecs & Er & _ & _ & ->). exists m. split; [reflexivity|].
    unfold from_fit. cbn [r_corrected r_q r_scan r_time r_qpred r_sample r_params r_refl]. repeat (split; [first [reflexivity|assumption]|]). exists qs, out, cs. repeat split; try assumption.
    apply (py_get_nth _ cs 0). exact Er. Qed.
  Lemma spec_contents f s n a os ns s' r : spec_fit_body g refl1d pick cf erf to_float f s n a os ns = Ok (s', Some r) ->
    exists d m sc, sf_spec f = Some d /\ sf_model f = Some m /\ load_scan to_float d n (fa_front a) (fa_back a) = Ok sc /\ r_scan r = n /\
      from_fit g refl1d pick cf erf m sc s s' a (args_options a os ns) r.
  Proof. intros H. unfold spec_fit_body in H. destruct (sf_spec f) as [d|]; [|discriminate]. destruct (load_scan to_float d n (fa_front a) (fa_back a)) as [sc|e] eqn:El; [|destruct e; discriminate].
    bind_as H x Ex. destruct x as [s1 r1]. injection H as <- <-. apply fit_scan_from in Ex. destruct Ex as (m & Em & Hr). exists d, m, sc. repeat (split; [first [reflexivity|assumption]|]). split; [|exact Hr].
    apply load_number in El. destruct Hr as (_ & _ & -> & _). exact El. Qed.
  Lemma fio_contents fs md f s n a roi s' r : fio_fit_body g refl1d pick cf erf to_float fs md f s n a roi = Ok (s', inl r) ->
    exists d m sc, ff_loader f = Some d /\ ff_model f = Some m /\ fio_load_scan to_float fs md d n (fa_front a) (fa_back a) roi "p100k" = Ok sc /\ r_scan r = n /\
      from_fit g refl1d pick cf erf m sc s s' a (args_options a false 300) r.
  Proof. intros H. unfold fio_fit_body in H. destruct (ff_loader f) as [d|]; [|discriminate]. destruct (fio_load_scan to_float fs md d n (fa_front a) (fa_back a) roi "p100k") as [sc|e] eqn:El; [|destruct e; discriminate].
    bind_as H x Ex. destruct x as [s1 r1]. injection H as <- <-. apply fit_scan_from in Ex. destruct Ex as (m & Em & Hr). exists d, m, sc. repeat (split; [first [reflexivity|assumption]|]). split; [|exact Hr].
    apply fio_load_number in El. destruct Hr as (_ & _ & -> & _). apply El. Qed.

  Lemma from_fit_shape m names sc s s' a o r : rng_ok g -> pick_ok pick -> curve_fit_ok cf -> fittable refl1d (nn_sample m) -> network_ok m names -> samples_ok o ->
    from_fit g refl1d pick cf erf m sc s s' a o r ->
    shaped names 1 (r_params r) /\ List.length (r_refl r) = List.length (r_q r) /\ List.length (r_corrected r) = List.length (r_q r) /\ r_q r <> [].
  Proof. intros G Pk Cf Hf Hn So (_ & _ & _ & _ & _ & _ & qs & out & cs & Eqs & Ef & <- & Ecs & Er).
    assert (V : valid_input (A1 (r_corrected r)) qs) by (exact (fit_core_valid _ _ _ _ _ _ _ _ _ _ _ _ Ef)).
    destruct (fit_curve_shape g G refl1d pick Pk cf Cf m names Hf Hn s _ qs o s' out V So Ef) as [Sh Rf]. destruct (Rf cs Ecs) as [L F]. split; [exact Sh|].
    rewrite (all_finite_length _ _ Eqs). apply nth_error_In in Er. rewrite Forall_forall in F. split; [exact (F _ Er)|]. destruct V as (Vq & _ & Vl & _). inversion Vl as [|? ? Lc' _]; subst. split; [exact Lc'|].
    intros E. apply all_finite_length in Eqs. rewrite E in Eqs. destruct qs; [congruence|discriminate]. Qed.
  (** The curve on the trained q values *)
  Lemma from_fit_predicts m sc s s' a os ns r : fa_opt_q a && os = false -> fa_polish a = false -> from_fit g refl1d pick cf erf m sc s s' a (args_options a os ns) r ->
    exists qs row, all_finite (r_q r) = Some qs /\ interp_reflectivity (r_qpred r) qs (map (fun x => fmul x (Some (fa_factor a))) (r_corrected r)) = Ok row /\ predict_labels m [row] = Ok (r_params r).
  Proof. intros Nb Hp (_ & _ & _ & _ & Ep & _ & qs & out & cs & Eqs & Ef & <- & _). exists qs. rewrite Ep.
    unfold fit_curve in Ef. apply unoptimised_params in Ef; [|intros [B1 B2]; cbn in B1, B2; rewrite B1, B2 in Nb; discriminate|exact Hp]. destruct Ef as (ip & Ei & Ep').
    unfold interp_stage, interpolate_intensity in Ei. cbn [curves_of map mapM] in Ei. bind_as Ei row Er. injection Ei as <-. exists row. split; [exact Eqs|]. split; [|exact Ep'].
    cbn [o_dq o_factor args_options] in Er. rewrite interp_fl_shift in Er. exact Er. Qed.
  Lemma from_fit_interp m sc s s' a os ns r : fa_opt_q a && os = false -> fa_polish a = false -> fa_factor a = 1 -> from_fit g refl1d pick cf erf m sc s s' a (args_options a os ns) r ->
    exists row, result_interp r = Ok row /\ predict_labels m [row] = Ok (r_params r).
  Proof. intros Nb Hp Hk H. destruct (from_fit_predicts m sc s s' a os ns r Nb Hp H) as (qs & row & Eqs & Er & E). exists row. split; [|exact E]. unfold result_interp. rewrite Eqs, <- Er. f_equal.
    rewrite Hk. rewrite <- (map_id (r_corrected r)) at 1. apply map_ext. intros [x|]; [|reflexivity]. unfold fmul, lift2. now rewrite Rmult_1_r. Qed.
  Lemma from_fit_factor m sc s s' a os ns r : fa_opt_q a && os = false -> fa_polish a = false -> 0 < fa_factor a ->
    from_fit g refl1d pick cf erf m sc s s' a (args_options a os ns) r ->
    exists row, result_interp r = Ok row /\ List.length row = List.length (nn_q m) /\
      (forall xs, r_corrected r = map Some xs -> positive_curve xs -> exists ys, row = map Some ys /\ positive_curve ys) /\
      predict_labels m [map (option_map (Rmult (fa_factor a))) row] = Ok (r_params r).
  Proof. intros Nb Hp Hk H. destruct (from_fit_predicts m sc s s' a os ns r Nb Hp H) as (qs & row & Eqs & Er & E). unfold result_interp. rewrite Eqs.
    assert (M : map (fun x => fmul x (Some (fa_factor a))) (r_corrected r) = map (option_map (Rmult (fa_factor a))) (r_corrected r)).
    { apply map_ext. intros [x|]; [|reflexivity]. unfold fmul, lift2, option_map. now rewrite Rmult_comm. }
    rewrite M, (interp_scale _ _ _ _ Hk) in Er. destruct (interp_reflectivity (r_qpred r) qs (r_corrected r)) as [row0|e] eqn:E0; [|discriminate]. injection Er as <-.
    exists row0. split; [reflexivity|]. pose proof (Interp_Proofs.interp_length _ _ _ _ E0) as L0. split; [rewrite L0; destruct H as (_ & _ & _ & _ & -> & _); apply map_length|]. split; [|exact E].
    intros xs Ex Pos. rewrite Ex in E0. destruct (interp_cases (r_qpred r) qs (map Some xs)) as [[E1 _]|[_ [L1 N1]]]; [congruence|]. rewrite map_length in L1.
    destruct (interp_positive (r_qpred r) qs xs N1 L1 Pos) as (ys & E2 & _ & P2). rewrite E2 in E0. injection E0 as <-. eauto. Qed.
End Contents.

(** ** More about the outcome of a single fit *)
Section Outcome2.
  Context {S : Type} (g : rng S) (refl1d : option refl1d_fun) (pick : list fl -> nat) (cf : @curve_fit_fun S).
  Context (erf : R -> R) (to_float : string -> option fl).
  Lemma spec_fit_never_none depth fs f s n a os ns r s' : snd (spec_fit g refl1d pick cf erf to_float depth fs f s n a os ns r) <> Ok (s', None).
  Proof. unfold spec_fit. destruct (spec_before depth fs f r) as [f' [[]|e]]; cbn [snd bind]; [apply spec_never_none|discriminate]. Qed.
  Lemma spec_shift_iff f s n a os ns s' r : spec_fit_body g refl1d pick cf erf to_float f s n a os ns = Ok (s', Some r) -> (r_shift r = None <-> fa_opt_q a = false).
  Proof. intros H. split; intros E.
    - destruct (fa_opt_q a) eqn:Eo; [|reflexivity]. destruct (spec_shift_some g refl1d pick cf erf to_float f s n a os ns s' r Eo H) as (d & Ed). congruence.
    - exact (spec_shift_none g refl1d pick cf erf to_float f s n a os ns s' r E H). Qed.
  Lemma fio_fails_where_spec_fits fs md f d s n a roi m sc s' r : fa_opt_q a = false -> ff_loader f = Some d -> ff_model f = Some m ->
    fio_load_scan to_float fs md d n (fa_front a) (fa_back a) roi "p100k" = Ok sc ->
    fit_scan g refl1d pick cf erf shift_or_none (Some m) s sc a (args_options a false 300) = Ok (s', r) ->
    fio_fit_body g refl1d pick cf erf to_float fs md f s n a roi = Raise TypeError.
  Proof. intros Ho Ed Em El H. apply fit_scan_inv in H. destruct H as (m' & c & q & qs & out & cs & refl & d0 & Em' & Ec & Eq & Eqs & Ef & Ecs & Er & _). injection Em' as <-.
    exact (fio_type_error g refl1d pick cf erf to_float fs md f d s n a roi m sc c q qs s' out cs refl Ho Ed Em El Ec Eq Eqs Ef Ecs Er). Qed.
End Outcome2.
Lemma set_model_ok load old model path new : set_trained_model load old model path = (new, Ok tt) ->
  exists m, new = Some m /\ (model = Some m /\ path = None \/ model = None /\ exists p, path = Some p /\ load p = Ok m).
Proof. unfold set_trained_model. destruct model as [m|], path as [p|]; intros H; try discriminate; [injection H as <-; exists m; split; [reflexivity|left; split; reflexivity]|]. destruct (load p) as [m|] eqn:E; [|discriminate]. injection H as <-.
  exists m. split; [reflexivity|]. right. split; [reflexivity|]. exists p. split; [reflexivity|exact E]. Qed.
Lemma set_model_refused load old model path new e : set_trained_model load old model path = (new, Raise e) -> new = old.
Proof. unfold set_trained_model. destruct model as [m|], path as [p|]; intros H; try discriminate; try (injection H; congruence). destruct (load p) as [m|]; [discriminate|]. injection H; congruence. Qed.

(** ** Times and errors *)
Lemma delta_entry strptime se times xs : se_time se = map Some times -> Forall2 (fun t x => strptime t = Some x) times xs -> times <> [] ->
  exists ds, delta_t strptime se = Ok (Some ds) /\ List.length ds = List.length times /\ nth_error ds 0 = Some 0 /\
    forall i x x0, nth_error xs i = Some x -> nth_error xs 0 = Some x0 -> nth_error ds i = Some ((x - x0) / 60).
Proof. intros E F N. destruct xs as [|t0 ts]; [inversion F; congruence|]. exists (map (fun x => (x - t0) / 60) (t0 :: ts)).
  split; [exact (delta_some strptime se times t0 ts E F)|]. rewrite map_length. split; [symmetry; exact (Forall2_len F)|]. split; [cbn [map nth_error]; f_equal; unfold Rdiv; ring|].
  intros i x x0 Hi H0. cbn [nth_error] in H0. injection H0 as <-. rewrite nth_error_map, Hi. reflexivity. Qed.
Lemma fio_range_no_time {S} (g : rng S) refl1d pick cf erf to_float fs md f s l a roi s' se strptime :
  fio_range_body g refl1d pick cf erf to_float fs md f s l a roi = Ok (s', se) -> delta_t strptime se = Ok None.
Proof. intros H. destruct (ff_loader f) as [d|] eqn:Ed.
  2: { exfalso. apply fio_range_inv in H. destruct H as (xs & Em & Es). destruct l as [|n l]; [injection Em as <- <-; discriminate|]. cbn [mapS] in Em. unfold fio_fit_body at 1 in Em. rewrite Ed in Em. discriminate. }
  pose proof H as H'. apply fio_range_order with (d := d) in H'; [|exact Ed]. destruct H' as (_ & _ & Ne & F). apply delta_none. apply fio_range_inv in H. destruct H as (xs & _ & Es).
  pose proof (series_list _ _ Es) as El. apply series_new_inv in Es. destruct Es as (p & fst0 & rest & _ & Ex & ->). cbn [se_time se_list] in *. rewrite Ex in *. left.
  inversion F as [|n r ns rs (s1 & s2 & E) _ E1 E2]; subst. rewrite fio_fit_no_reload in E. cbn [snd] in E. apply fio_contents in E.
  destruct E as (d' & m & sc & _ & _ & Elo & _ & (_ & _ & _ & Et & _)). apply fio_load_number in Elo. rewrite Et. apply Elo. Qed.
Lemma result_mse_lengths round6 r : List.length (r_refl r) <> List.length (r_corrected r) -> result_mse round6 r = Raise ValueError.
Proof. intros H. unfold result_mse, mean_squared_error. cbn [arr_len]. rewrite !map_length. destruct (Nat.eqb_spec (List.length (r_refl r)) (List.length (r_corrected r))); [contradiction|reflexivity]. Qed.
Lemma fsum_none l : In None l -> fsum l = None.
Proof. induction l as [|x l IH]; [contradiction|]. intros [->|H]; [reflexivity|]. change (fsum (x :: l)) with (fadd x (fsum l)). rewrite (IH H). destruct x; reflexivity. Qed.
Lemma exists_none_zip (f : fl -> fl -> fl) (a : list fl) : forall b : list fl, List.length b = List.length a -> (forall x, f None x = None) -> (forall x, f x None = None) -> (In None a \/ In None b) ->
  In None (map (fun xy : fl * fl => f (fst xy) (snd xy)) (combine a b)).
Proof. induction a as [|x a IH]; intros [|y b] L H1 H2 H; try discriminate L; [destruct H as [[]|[]]|]. injection L as L. cbn [combine map fst snd]. destruct H as [[->|H]|[->|H]].
  - left. apply H1.
  - right. apply IH; auto.
  - left. apply H2.
  - right. apply IH; auto. Qed.
Lemma not_positive_log x : not_positive x -> flog10 x = None.
Proof. destruct x as [v|]; [|reflexivity]. cbn. destruct (Rlt_dec 0 v) as [P|P]; [|reflexivity]. intros H. exfalso. lra. Qed.
Lemma result_mse_not_finite round6 r : List.length (r_refl r) = List.length (r_corrected r) -> Exists not_positive (r_refl r) \/ Exists not_positive (r_corrected r) ->
  result_mse round6 r = Ok None.
Proof. intros L H. unfold result_mse, mean_squared_error. cbn [arr_len arr_sub]. rewrite !map_length, L, Nat.eqb_refl. cbn [negb].
  rewrite row_op_A1 by (rewrite !map_length; symmetry; exact L). cbn [bind map].
  assert (I : In None (map flog10 (r_refl r)) \/ In None (map flog10 (r_corrected r))).
  { destruct H as [H|H]; apply Exists_exists in H; destruct H as (x & Hx & E); [left|right]; apply in_map_iff; exists x; (split; [exact (not_positive_log x E)|exact Hx]). }
  assert (M : fmean (map fsq (bop fsub (List.length (map flog10 (r_refl r))) (map flog10 (r_refl r)) (map flog10 (r_corrected r)))) = None).
  { unfold fmean. rewrite fsum_none; [reflexivity|]. apply in_map_iff. exists None. split; [reflexivity|]. unfold bop. rewrite stretch_same.
    replace (List.length (map flog10 (r_refl r))) with (List.length (map flog10 (r_corrected r))) by (rewrite !map_length; symmetry; exact L). rewrite stretch_same.
    apply (exists_none_zip fsub); [rewrite !map_length; symmetry; exact L|reflexivity|intros [x|]; reflexivity|exact I]. }
  rewrite M. reflexivity. Qed.
Lemma result_mse_none round6 r : List.length (r_refl r) = List.length (r_corrected r) -> r_refl r = [] \/ Exists not_positive (r_refl r) \/ Exists not_positive (r_corrected r) ->
  result_mse round6 r = Ok None.
Proof. intros L [H|H]; [|exact (result_mse_not_finite round6 r L H)]. rewrite H in L. cbn [List.length] in L. unfold result_mse. rewrite H.
  destruct (r_corrected r); [|discriminate L]. unfold result_mse, mean_squared_error. cbn.
  unfold fmean, fdiv. cbn. destruct (Req_EM_T 0 0) as [_|N]; [reflexivity|contradiction]. Qed.
Lemma positive_or_not l : (exists a, l = map Some a /\ positive_row a) \/ Exists not_positive l.
Proof. induction l as [|x l IH]; [left; exists []; split; [reflexivity|constructor]|]. destruct IH as [(a & -> & P)|H]; [|right; apply Exists_cons_tl; exact H].
  destruct x as [v|]; [|right; left; exact I]. destruct (Rlt_le_dec 0 v) as [Hv|Hv]; [left; exists (v :: a); split; [reflexivity|constructor; assumption]|right; left; exact Hv]. Qed.
Lemma result_mse_cases round6 r : List.length (r_refl r) = List.length (r_corrected r) ->
  (exists a b, r_refl r = map Some a /\ r_corrected r = map Some b /\ a <> [] /\ positive_row a /\ positive_row b /\ result_mse round6 r = Ok (Some (round6 (log_error a b)))) \/
  ((r_refl r = [] \/ Exists not_positive (r_refl r) \/ Exists not_positive (r_corrected r)) /\ result_mse round6 r = Ok None).
Proof. intros L. assert (D : r_refl r = [] \/ r_refl r <> []) by (destruct (r_refl r); [left; reflexivity|right; discriminate]).
  destruct D as [D|D]; [right; split; [left; exact D|apply result_mse_none; [exact L|left; exact D]]|].
  destruct (positive_or_not (r_refl r)) as [(a & Ea & Pa)|H]; [|right; split; [right; left; exact H|apply result_mse_none; [exact L|right; left; exact H]]].
  destruct (positive_or_not (r_corrected r)) as [(b & Eb & Pb)|H]; [|right; split; [right; right; exact H|apply result_mse_none; [exact L|right; right; exact H]]].
  left. exists a, b. assert (a <> []) by (intros ->; apply D; exact Ea). repeat (split; [assumption|]). apply result_mse_value; try assumption.
  rewrite Ea, Eb, !map_length in L. exact L. Qed.
