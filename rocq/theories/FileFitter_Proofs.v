(** Proofs about fitting from data files. *)
From Coq Require Import Reals Lra.
From Verif Require Import Py Str Sample_Model Sample_Spec Rng Arr Footprint_Model Scan_Model Scan_Spec Scan_Proofs Spec_Model SpecFile_Spec SpecLoader_Spec Spec_Proofs SpecLoader_Proofs Fio_Model P08_Model Preproc_Model Preproc_Spec OutPreproc_Proofs Interp_Model
  Interp_Spec Interp_Proofs Simulation_Model Fitter_Model Fitter_Spec Fitter_Proofs FitterOut_Proofs Polish_Proofs Choice_Proofs FileFitter_Model FileFitter_Spec.
Local Open Scope R_scope.
Local Open Scope string_scope.

(** ** Results *)
Lemma fit_result_new_inv n t c q refl qp params d st r : fit_result_new n t c q refl qp params d st = Ok r ->
  fr_rows params = 1%nat /\ r = mkResult n t c q refl qp params [n] d st.
Proof. unfold fit_result_new. destruct (Nat.eqb_spec (fr_rows params) 1) as [E|E]; [|discriminate]. intros H. injection H as <-. auto. Qed.

Lemma concat_index l : Forall (fun r => r_index r = [r_scan r]) l -> List.concat (map r_index l) = map r_scan l.
Proof. induction 1 as [|r l E _ IH]; [reflexivity|]. cbn [map List.concat]. rewrite E, IH. reflexivity. Qed.

Lemma series_new_inv l se : series_new l = Ok se ->
  exists params first rest, concat_frames (map r_params l) = Ok params /\ l = first :: rest /\
    se = mkSeries l (map r_scan l) (map r_time l) (map r_corrected l) (map r_q l) (map r_refl l) (map r_qpred l) params
           (List.concat (map r_index l)) (map r_shift l) (r_sample first).
Proof. unfold series_new. intros H. bind_as H params Ep. destruct l as [|first rest]; [discriminate|]. change (py_get (first :: rest) 0) with (Ok first) in H. cbn [bind] in H.
  injection H as <-. exists params, first, rest. auto. Qed.


Lemma series_aligned names l se : NoDup names -> Forall (result_ok names) l -> series_new l = Ok se ->
  se_list se = l /\ forall i r, nth_error l i = Some r -> series_entry se i r.
Proof. intros Nd F H. apply series_new_inv in H. destruct H as (params & first & rest & Ep & El & ->). split; [reflexivity|].
  intros i r Hi. unfold series_entry. cbn [se_scan se_time se_corrected se_q se_refl se_qpred se_params se_index se_shift].
  assert (Ix : List.concat (map r_index l) = map r_scan l) by (apply concat_index; eapply Forall_impl; [|exact F]; intros r0 [_ E]; exact E).
  rewrite Ix. repeat (split; [apply map_nth_error; exact Hi|]).
  apply (concat_rows names (map r_params l) params Nd); [|exact Ep|apply map_nth_error; exact Hi].
  apply Forall_map. eapply Forall_impl; [|exact F]. intros r0 [E _]. exact E. Qed.
Lemma series_index l se : Forall (fun r => r_index r = [r_scan r]) l -> series_new l = Ok se -> se_index se = map r_scan l /\ se_scan se = map r_scan l /\ l <> [].
Proof. intros F H. apply series_new_inv in H. destruct H as (params & first & rest & Ep & -> & ->). cbn [se_index se_scan]. rewrite concat_index by exact F. repeat split. discriminate. Qed.
Lemma series_total l : l <> [] -> exists se, series_new l = Ok se.
Proof. intros H. unfold series_new. destruct (concat_total (map r_params l)) as (f & ->); [destruct l; [congruence|discriminate]|]. cbn [bind].
  destruct l as [|r l]; [congruence|]. change (py_get (r :: l) 0) with (Ok r). cbn [bind]. eauto. Qed.
Lemma series_empty : series_new [] = Raise ValueError. Proof. reflexivity. Qed.

Lemma mapM_const_fails A B (l : list A) e : l <> [] -> mapM (fun _ : A => @Raise B e) l = Raise e.
Proof. destruct l; [congruence|reflexivity]. Qed.
Lemma series_mse_fails l se : series_new l = Ok se -> series_mse se = Raise AttributeError.
Proof. intros H. apply series_new_inv in H. destruct H as (params & first & rest & Ep & -> & ->). reflexivity. Qed.

(** ** Errors of a result *)
Lemma flog10_pos xs : positive_row xs -> map flog10 (map Some xs) = map Some (map Interp_Model.log10 xs).
Proof. induction 1 as [|x xs Hx _ IH]; [reflexivity|]. cbn [map]. rewrite IH. unfold flog10 at 1. destruct (Rlt_dec 0 x); [reflexivity|contradiction]. Qed.
Lemma square_log a : forall b, square_error (map Interp_Model.log10 a) (map Interp_Model.log10 b) = log_error a b.
Proof. intros b. unfold square_error, log_error. f_equal. revert b. induction a as [|x a IH]; intros [|y b]; try reflexivity. cbn [map combine fst snd]. now rewrite IH. Qed.
Lemma result_mse_value round6 r a b : r_refl r = map Some a -> r_corrected r = map Some b -> a <> [] -> List.length a = List.length b ->
  positive_row a -> positive_row b -> result_mse round6 r = Ok (Some (round6 (log_error a b))).
Proof. intros Ea Eb Ha L Pa Pb. unfold result_mse. rewrite Ea, Eb, (flog10_pos a Pa), (flog10_pos b Pb).
  rewrite mse_vector; [|destruct a; [congruence|discriminate]|rewrite !map_length; exact L]. cbn [bind map]. rewrite square_log. reflexivity. Qed.

(** ** delta_t *)
Lemma mapM_Ok_Forall2 A B (f : A -> res B) : forall l out, mapM f l = Ok out -> Forall2 (fun a b => f a = Ok b) l out.
Proof. induction l as [|a l IH]; intros out H; cbn [mapM] in H; [injection H as <-; constructor|]. bind_as H b Eb. bind_as H bs Ebs. injection H as <-.
  constructor; [exact Eb|apply IH; reflexivity]. Qed.
Lemma delta_none strptime se : In None (se_time se) -> delta_t strptime se = Ok None.
Proof. intros H. unfold delta_t. destruct (existsb _ _) eqn:E; [reflexivity|]. exfalso.
  assert (X : existsb (fun t : option string => match t with None => true | Some _ => false end) (se_time se) = true).
  { apply existsb_exists. exists None. auto. }
  rewrite X in E. discriminate. Qed.
Lemma mapM_map A B C (f : B -> res C) (h : A -> B) l : mapM f (map h l) = mapM (fun a => f (h a)) l.
Proof. induction l as [|a l IH]; [reflexivity|]. cbn [map mapM]. rewrite IH. reflexivity. Qed.
Lemma mapM_pure A B (h : A -> B) l : mapM (fun a => Ok (h a)) l = Ok (map h l).
Proof. induction l as [|a l IH]; [reflexivity|]. cbn [map mapM]. rewrite IH. reflexivity. Qed.
Lemma delta_some strptime se times t0 ts : se_time se = map Some times -> Forall2 (fun t x => strptime t = Some x) times (t0 :: ts) ->
  delta_t strptime se = Ok (Some (map (fun x => (x - t0) / 60) (t0 :: ts))).
Proof. intros E F. unfold delta_t. rewrite E.
  assert (X : existsb (fun t : option string => match t with None => true | Some _ => false end) (map Some times) = false) by (clear; induction times; [reflexivity|exact IHtimes]).
  rewrite X, mapM_map.
  assert (M : mapM (fun t => match strptime t with Some x => Ok x | None => Raise ValueError end) times = Ok (t0 :: ts)).
  { clear -F. remember (t0 :: ts) as l. clear Heql. induction F as [|t x times l E F IH]; [reflexivity|]. cbn [mapM]. rewrite E, IH. reflexivity. }
  rewrite M. cbn [bind].
  assert (N : mapM (fun x : R => t1 <- py_get (t0 :: ts) 0;; Ok ((x - t1) / 60)) (t0 :: ts) = Ok (map (fun x => (x - t0) / 60) (t0 :: ts))).
  { rewrite <- mapM_pure. reflexivity. }
  rewrite N. reflexivity. Qed.
Lemma delta_unreadable strptime se times : se_time se = map Some times -> (exists t, In t times /\ strptime t = None) -> delta_t strptime se = Raise ValueError.
Proof. intros E (t & Ht & Es). unfold delta_t. rewrite E.
  assert (X : existsb (fun t : option string => match t with None => true | Some _ => false end) (map Some times) = false) by (clear; induction times; [reflexivity|exact IHtimes]).
  rewrite X, mapM_map.
  assert (M : mapM (fun t => match strptime t with Some x => Ok x | None => Raise ValueError end) times = Raise ValueError).
  { clear -Ht Es. induction times as [|t' times IH]; [contradiction|]. cbn [mapM]. destruct (strptime t') as [x|] eqn:E'; [|reflexivity]. cbn [bind].
    destruct Ht as [->|Ht]; [congruence|]. rewrite (IH Ht). reflexivity. }
  rewrite M. reflexivity. Qed.

(** ** Requested and accepted scans *)
Lemma accepted_filter A (f : Z -> res A) ns l : SpecLoader_Spec.accepted f ns l -> Forall2 (fun (n : Z) (x : A) => f n = Ok x) (filter (fun n => is_ok (f n)) ns) l.
Proof. induction 1 as [|n ns x l E _ IH|n ns l E _ IH]; cbn [filter]; [constructor|rewrite E; constructor; assumption|rewrite E; exact IH]. Qed.
Lemma scan_new_number n a i w b s sh no t : sc_number (scan_new n a i w b s sh no t) = n. Proof. reflexivity. Qed.
Lemma load_number to_float d n tf tb sc : load_scan to_float d n tf tb = Ok sc -> sc_number sc = n.
Proof. unfold load_scan. intros H. bind_inv H. destruct (negb _); [discriminate|]. repeat bind_inv H.
  destruct tb; destruct tf; cbv beta iota zeta in H; injection H as <-; reflexivity. Qed.
Lemma fio_load_number to_float fs md d n tf tb roi det sc : fio_load_scan to_float fs md d n tf tb roi det = Ok sc -> sc_number sc = n /\ sc_time sc = None.
Proof. unfold fio_load_scan. intros H. bind_inv H. destruct a as [s ok]. destruct (negb _); [discriminate|]. repeat bind_inv H.
  destruct tb; destruct tf; cbv beta iota zeta in H; injection H as <-; split; reflexivity. Qed.

Lemma add_offset_moved sc x : add_offset sc x = moved sc x. Proof. reflexivity. Qed.

Section FitScan.
  Context {S : Type} (g : rng S) (refl1d : option refl1d_fun) (pick : list fl -> nat) (cf : @curve_fit_fun S) (erf : R -> R).

  Lemma fit_scan_inv shift model s sc a o s' r : fit_scan g refl1d pick cf erf shift model s sc a o = Ok (s', r) ->
    exists m c q qs out cs refl d, model = Some m /\ corrected_intensity erf (moved sc (fa_offset a)) = Ok c /\ scan_q (moved sc (fa_offset a)) = Ok q /\
      all_finite q = Some qs /\ fit_curve g refl1d pick cf m s (A1 c) qs o = Ok (s', out) /\ fo_refl out = Some cs /\ py_get cs 0 = Ok refl /\
      shift (fo_shift out) = Ok d /\ fr_rows (fo_params out) = 1%nat /\
      r = mkResult (sc_number sc) (sc_time sc) c q refl (map (fun x => x - fa_dq a) (nn_q m)) (fo_params out) [sc_number sc] d (nn_sample m).
  Proof. unfold fit_scan. cbv zeta. intros H. destruct model as [m|]; [|discriminate]. rewrite add_offset_moved in H. bind_as H c Ec. bind_as H q Eq.
    destruct (all_finite q) as [qs|] eqn:Eqs; [|discriminate]. bind_as H so Eo. destruct so as [s1 out]. bind_as H refl Er. bind_as H d Ed. bind_as H r0 Ern. injection H as <- <-.
    destruct (fo_refl out) as [cs|] eqn:Ecs; [|discriminate]. apply fit_result_new_inv in Ern. destruct Ern as [Er1 ->].
    exists m, c, q, qs, out, cs, refl, d. cbn [sc_number sc_time moved]. auto 15. Qed.

  Lemma all_finite_length q qs : all_finite q = Some qs -> List.length q = List.length qs.
  Proof. revert qs. induction q as [|[x|] q IH]; intros qs H; cbn [all_finite] in H; [injection H as <-; reflexivity| |discriminate].
    destruct (all_finite q) as [xs|]; [|discriminate]. injection H as <-. cbn [List.length]. f_equal. apply IH. reflexivity. Qed.

  Lemma fit_core_valid fit m s c q o s' out : fit_core g refl1d pick cf fit m s (A1 c) q o = Ok (s', out) -> valid_input (A1 c) q.
  Proof. intros H. apply fit_core_inv in H. destruct H as (lo & hi & ip & s1 & shift & s2 & sc & p0 & s3 & p & Ew & Ei & _).
    unfold window in Ew. assert (Hq : q <> []). { intros ->. bind_inv Ew. discriminate. }
    split; [exact Hq|]. split; [discriminate|]. split; [|exact I]. constructor; [|constructor].
    unfold interp_stage, interpolate_intensity in Ei. cbn [curves_of map mapM] in Ei. bind_as Ei row Er. unfold interp_reflectivity in Er. rewrite !map_length in Er.
    destruct (Nat.eqb_spec (List.length q) (List.length c)) as [E|E]; [|discriminate]. symmetry. exact E. Qed.

  (** The contents of a result *)
  Lemma fit_scan_contents shift model names s sc a o s' r : rng_ok g -> pick_ok pick -> curve_fit_ok cf ->
    (forall m, model = Some m -> fittable refl1d (nn_sample m) /\ network_ok m names) -> samples_ok o ->
    fit_scan g refl1d pick cf erf shift model s sc a o = Ok (s', r) ->
    result_ok names r /\ List.length (r_refl r) = List.length (r_q r) /\ List.length (r_corrected r) = List.length (r_q r) /\ r_q r <> [].
  Proof. intros G Pk Cf Hm So H. apply fit_scan_inv in H. destruct H as (m & c & q & qs & out & cs & refl & d & -> & _ & _ & Eqs & Ef & Ecs & Er & _ & _ & ->).
    destruct (Hm m eq_refl) as [Hf Hn]. assert (V : valid_input (A1 c) qs) by (exact (fit_core_valid _ _ _ _ _ _ _ _ Ef)).
    destruct (fit_curve_shape g G refl1d pick Pk cf Cf m names Hf Hn s (A1 c) qs o s' out V So Ef) as [Sh Rf].
    destruct (Rf cs Ecs) as [L F]. cbn [curves_of List.length] in L, Sh. destruct cs as [|c0 [|? ?]]; try discriminate L. change (py_get [c0] 0) with (Ok c0) in Er. injection Er as <-.
    inversion F as [|? ? Lc _]; subst. destruct V as (Vq & _ & Vl & _). inversion Vl as [|? ? Lc' _]; subst. pose proof (all_finite_length q qs Eqs) as Lq.
    unfold result_ok. cbn [r_params r_index r_scan r_refl r_q r_corrected]. split; [split; [exact Sh|reflexivity]|]. rewrite Lq. split; [exact Lc|]. split; [exact Lc'|].
    intros ->. destruct qs; [congruence|discriminate]. Qed.

  Lemma fit_scan_total shift m names s sc a o c q qs : rng_ok g -> pick_ok pick -> fittable refl1d (nn_sample m) -> network_ok m names -> samples_ok o ->
    o_sim o = true -> o_polish o = false -> corrected_intensity erf (moved sc (fa_offset a)) = Ok c -> scan_q (moved sc (fa_offset a)) = Ok q -> all_finite q = Some qs ->
    qs <> [] -> List.length c = List.length qs -> (forall ds, ds <> [] -> exists d, shift (Some ds) = Ok d) -> (exists d, shift None = Ok d) \/ o_opt_q o = true ->
    exists s' r, fit_scan g refl1d pick cf erf shift (Some m) s sc a o = Ok (s', r).
  Proof. intros G Pk Hf Hn So Hsim Hp Ec Eq Eqs Nq L Hs1 Hs2.
    assert (V : valid_input (A1 c) qs) by (split; [exact Nq|split; [discriminate|split; [constructor; [exact L|constructor]|exact I]]]).
    destruct (fit_curve_total g G refl1d pick Pk cf m names Hf Hn s (A1 c) qs o V So Hp) as (s' & out & Ef & Sh & Rf). rewrite Hsim in Rf. destruct Rf as (cs & Ecs & Lc & _).
    unfold fit_scan. cbv zeta. rewrite add_offset_moved, Ec. cbn [bind]. rewrite Eq. cbn [bind]. rewrite Eqs, Ef. cbn [bind]. rewrite Ecs.
    cbn [curves_of List.length] in Lc, Sh. destruct cs as [|c0 [|? ?]]; try discriminate Lc. change (py_get [c0] 0) with (Ok c0). cbn [bind].
    assert (Hd : exists d, shift (fo_shift out) = Ok d).
    { pose proof Ef as Ef'. unfold fit_curve in Ef'. pose proof (optional_outputs g refl1d pick cf _ _ _ _ _ _ _ _ Ef') as [Os _]. destruct (fo_shift out) as [ds|] eqn:Eds.
      - apply Hs1. intros ->. apply fit_core_inv in Ef'. destruct Ef' as (lo & hi & ip & s1 & sh & s2 & sc0 & p0 & s3 & p & _ & _ & E1 & _ & _ & _ & _ & E2 & _).
        rewrite Eds in E2. destruct sh as [[ds f]|]; [|discriminate]. injection E2 as <-. unfold shift_stage in E1. destruct (o_opt_q o); [|discriminate]. bind_inv E1. destruct a0 as [s4 outs]. bind_inv E1.
        apply mapS_length in E. injection E1 as _ E1 _. destruct outs; [discriminate E|discriminate E1].
      - destruct Hs2 as [Hs2|Hs2]; [exact Hs2|]. destruct Os as [Os _]. rewrite (Os eq_refl) in Hs2. discriminate. }
    destruct Hd as (d & ->). cbn [bind]. unfold fit_result_new. destruct Sh as (_ & -> & _). cbn [Nat.eqb bind]. eauto. Qed.
End FitScan.

(** ** SPEC histories *)
Section SpecHistory.
  Context {S : Type} (g : rng S) (refl1d : option refl1d_fun) (pick : list fl -> nat) (cf : @curve_fit_fun S).
  Context (erf : R -> R) (to_float : string -> option fl) (depth : nat).
  Notation run := (spec_run g refl1d pick cf erf to_float depth).
  Notation step := (spec_step g refl1d pick cf erf to_float depth).

  Lemma spec_before_keeps fs f r : let f' := fst (spec_before depth fs f r) in
    sf_spec f' = sf_spec f /\ sf_model f' = sf_model f /\ sf_import f' = sf_import f /\ sf_foot f' = sf_foot f /\ sf_file f' = sf_file f.
  Proof. unfold spec_before, spec_reload. destruct (wants_reload r); [destruct (spec_loader_new _ _ _ _ _)|]; cbn [fst sf_spec sf_model sf_import sf_foot sf_file]; auto 6. Qed.
  Lemma fst_let A B C (p : A * B) (h : A -> B -> C) : fst (let '(a, b) := p in (a, h a b)) = fst p.
  Proof. destruct p. reflexivity. Qed.
  Lemma spec_step_spec st op : sets_spec_file op = false -> sf_spec (snd (step st op)) = sf_spec (snd st).
  Proof. destruct st as [fs f]. intros H. destruct op; try discriminate; cbn [spec_step snd]; try reflexivity; unfold spec_fit, spec_fit_range, spec_show; rewrite fst_let; apply spec_before_keeps. Qed.
  Lemma spec_step_model st op : sf_model (snd (step st op)) = match op with SModel m => Some m | _ => sf_model (snd st) end.
  Proof. destruct st as [fs f]. destruct op; cbn [spec_step snd]; try reflexivity; try (unfold spec_fit, spec_fit_range, spec_show; rewrite fst_let; apply spec_before_keeps).
    unfold spec_set_file. destruct (spec_loader_new _ _ _ _ _); reflexivity. Qed.
  Lemma spec_run_spec h : forall st, Forall (fun op => sets_spec_file op = false) h -> sf_spec (snd (run st h)) = sf_spec (snd st).
  Proof. induction h as [|op h IH]; intros st F; [reflexivity|]. inversion F as [|? ? H F']; subst. refine (eq_trans (IH (step st op) F') _). apply spec_step_spec. exact H. Qed.
  Lemma spec_run_model h : forall st, sf_model (snd (run st h)) = spec_last_model h (sf_model (snd st)).
  Proof. induction h as [|op h IH]; intros st; [reflexivity|]. refine (eq_trans (IH (step st op)) _). rewrite spec_step_model. destruct op; reflexivity. Qed.

  Lemma spec_body_ext f f' s n a os ns : sf_spec f = sf_spec f' -> sf_model f = sf_model f' ->
    spec_fit_body g refl1d pick cf erf to_float f s n a os ns = spec_fit_body g refl1d pick cf erf to_float f' s n a os ns.
  Proof. intros E1 E2. unfold spec_fit_body. rewrite E1, E2. reflexivity. Qed.
  Lemma spec_fit_no_reload fs f s n a os ns : spec_fit g refl1d pick cf erf to_float depth fs f s n a os ns (ReloadKeyword false) = (f, spec_fit_body g refl1d pick cf erf to_float f s n a os ns).
  Proof. unfold spec_fit, spec_before. cbn [wants_reload]. reflexivity. Qed.

  (** Reloading does not change the outcome. *)
  Lemma spec_reload_no_effect fs f s n a os ns r : is_ok (snd (spec_before depth fs f r)) = true ->
    snd (spec_fit g refl1d pick cf erf to_float depth fs f s n a os ns r) = spec_fit_body g refl1d pick cf erf to_float f s n a os ns.
  Proof. intros H. unfold spec_fit. pose proof (spec_before_keeps fs f r) as K. destruct (spec_before depth fs f r) as [f' [u|e]]; [|discriminate]. cbn [fst snd bind] in *.
    destruct K as (K1 & K2 & _). apply spec_body_ext; assumption. Qed.
  Lemma spec_fit_ok_reload fs f s n a os ns r x : snd (spec_fit g refl1d pick cf erf to_float depth fs f s n a os ns r) = Ok x -> is_ok (snd (spec_before depth fs f r)) = true.
  Proof. unfold spec_fit. destruct (spec_before depth fs f r) as [f' [u|e]]; [reflexivity|]. cbn [snd bind]. discriminate. Qed.

  Lemma spec_fresh fs m ip fp path d s n a os ns : spec_loader_new depth fs (Some path) ip fp = Ok d ->
    fresh_spec_fit g refl1d pick cf erf to_float depth fs m ip fp path s n a os ns =
    spec_fit_body g refl1d pick cf erf to_float (mkSpecFitter m ip fp (Some path) None (Some d)) s n a os ns.
  Proof. intros E. unfold fresh_spec_fit, spec_set_file. cbn [sf_import sf_foot]. rewrite E. cbn [bind sf_model sf_import sf_foot sf_loader]. rewrite spec_fit_no_reload. reflexivity. Qed.

  (** After a successful set_file the outcome is that of a new fitter reading the file as it was then. *)
  Lemma spec_set_file_fixes fs f path f' h s n a os ns : spec_set_file depth fs f path = (f', Ok tt) -> Forall (fun op => sets_spec_file op = false) h ->
    let st := run (fs, f') h in forall r, is_ok (snd (spec_before depth (fst st) (snd st) r)) = true ->
    snd (spec_fit g refl1d pick cf erf to_float depth (fst st) (snd st) s n a os ns r) =
    fresh_spec_fit g refl1d pick cf erf to_float depth fs (spec_last_model h (sf_model f)) (sf_import f) (sf_foot f) path s n a os ns.
  Proof. intros E F st r Hr. unfold spec_set_file in E. destruct (spec_loader_new depth fs (Some path) (sf_import f) (sf_foot f)) as [d|] eqn:Ed; [|discriminate]. injection E as <-.
    rewrite (spec_reload_no_effect _ _ _ _ _ _ _ _ Hr). rewrite (spec_fresh fs _ _ _ _ d s n a os ns Ed). apply spec_body_ext; cbn [sf_spec sf_model].
    - unfold st. rewrite spec_run_spec by exact F. reflexivity.
    - unfold st. rewrite spec_run_model. reflexivity. Qed.
End SpecHistory.

(** ** FIO histories *)
Section FioHistory.
  Context {S : Type} (g : rng S) (refl1d : option refl1d_fun) (pick : list fl -> nat) (cf : @curve_fit_fun S).
  Context (erf : R -> R) (to_float : string -> option fl).
  Notation run := (fio_run g refl1d pick cf erf to_float).
  Notation step := (fio_step g refl1d pick cf erf to_float).
  Notation body := (fio_fit_body g refl1d pick cf erf to_float).
  Notation fit := (fio_fit g refl1d pick cf erf to_float).

  Lemma fio_before_keeps fs f r : let f' := fst (fio_before to_float fs f r) in
    ff_model f' = ff_model f /\ ff_import f' = ff_import f /\ ff_foot f' = ff_foot f /\ ff_file f' = ff_file f.
  Proof. unfold fio_before, fio_reload. destruct (wants_reload r); [destruct (fio_loader_make _ _ _ _ _)|]; cbn [fst ff_model ff_import ff_foot ff_file]; auto 6. Qed.
  Definition settings (f : fio_fitter) := (ff_model f, ff_import f, ff_foot f).
  Lemma fio_before_settings fs f r : settings (fst (fio_before to_float fs f r)) = settings f.
  Proof. unfold settings. destruct (fio_before_keeps fs f r) as (-> & -> & -> & _). reflexivity. Qed.
  Lemma fio_step_settings st op : settings (snd (step st op)) =
    let '(m, ip, fp) := settings (snd st) in
    match op with FModel m' => (Some m', ip, fp) | FImport ip' => (m, Some ip', fp) | FFoot fp' => (m, ip, Some fp') | _ => (m, ip, fp) end.
  Proof. destruct st as [[fs md] f]. destruct op; cbn [fio_step snd]; try reflexivity; try (unfold fio_fit, fio_fit_range, fio_show; rewrite fst_let; exact (fio_before_settings fs f r)).
    unfold fio_set_file. destruct (fio_loader_make _ _ _ _ _); reflexivity. Qed.
  Lemma fio_run_settings h : forall st, settings (snd (run st h)) =
    (fio_last_model h (ff_model (snd st)), fio_last_import h (ff_import (snd st)), fio_last_foot h (ff_foot (snd st))).
  Proof. induction h as [|op h IH]; intros st; [reflexivity|]. refine (eq_trans (IH (step st op)) _). pose proof (fio_step_settings st op) as E. unfold settings in E.
    destruct op; cbv beta iota zeta in E; injection E as -> -> ->; reflexivity. Qed.
  Lemma fio_step_file st op : sets_stem op = false -> ff_file (snd (step st op)) = ff_file (snd st).
  Proof. destruct st as [[fs md] f]. intros H. destruct op; try discriminate; cbn [fio_step snd]; try reflexivity; unfold fio_fit, fio_fit_range, fio_show; rewrite fst_let; apply fio_before_keeps. Qed.
  Lemma fio_run_file h : forall st, Forall (fun op => sets_stem op = false) h -> ff_file (snd (run st h)) = ff_file (snd st).
  Proof. induction h as [|op h IH]; intros st F; [reflexivity|]. inversion F as [|? ? H F']; subst. refine (eq_trans (IH (step st op) F') _). apply fio_step_file. exact H. Qed.
  Lemma fio_step_quiet st op : fio_quiet op = true -> ff_loader (snd (step st op)) = ff_loader (snd st).
  Proof. destruct st as [[fs md] f]. intros H. destruct op; try discriminate; cbn [fio_step snd]; try reflexivity; cbn [fio_quiet] in H;
      unfold fio_fit, fio_fit_range, fio_show; rewrite fst_let; unfold fio_before; destruct r as [|[]|b]; try discriminate; reflexivity. Qed.
  Lemma fio_run_quiet h : forall st, Forall (fun op => fio_quiet op = true) h -> ff_loader (snd (run st h)) = ff_loader (snd st).
  Proof. induction h as [|op h IH]; intros st F; [reflexivity|]. inversion F as [|? ? H F']; subst. refine (eq_trans (IH (step st op) F') _). apply fio_step_quiet. exact H. Qed.

  Lemma fio_body_ext fs md f f' s n a roi : ff_loader f = ff_loader f' -> ff_model f = ff_model f' -> body fs md f s n a roi = body fs md f' s n a roi.
  Proof. intros E1 E2. unfold fio_fit_body. rewrite E1, E2. reflexivity. Qed.
  Lemma fio_fit_no_reload fs md f s n a roi : fit fs md f s n a roi (ReloadKeyword false) = (f, body fs md f s n a roi).
  Proof. reflexivity. Qed.
  Lemma fio_reload_fresh fs md f stem s n a roi r : wants_reload r = true -> ff_file f = Some stem ->
    snd (fit fs md f s n a roi r) = fresh_fio_fit g refl1d pick cf erf to_float fs md (ff_model f) (ff_import f) (ff_foot f) stem s n a roi.
  Proof. intros Hr Hs. unfold fio_fit, fio_before, fresh_fio_fit, fio_set_file, fio_reload. rewrite Hr, Hs. cbn [ff_import ff_foot].
    destruct (fio_loader_make to_float fs (Some stem) (ff_import f) (ff_foot f)) as [d|e]; [|reflexivity]. cbn [bind snd ff_model]. reflexivity. Qed.

  Lemma fio_history_reload fs md f stem f' h s n a roi r : fio_set_file to_float fs f stem = (f', Ok tt) -> Forall (fun op => sets_stem op = false) h -> wants_reload r = true ->
    let '(fs', md', f1) := run (fs, md, f') h in
    snd (fit fs' md' f1 s n a roi r) =
    fresh_fio_fit g refl1d pick cf erf to_float fs' md' (fio_last_model h (ff_model f)) (fio_last_import h (ff_import f)) (fio_last_foot h (ff_foot f)) stem s n a roi.
  Proof. intros E F Hr. unfold fio_set_file in E. destruct (fio_loader_make to_float fs (Some stem) (ff_import f) (ff_foot f)) as [d|]; [|discriminate]. injection E as <-.
    pose proof (fio_run_file h (fs, md, mkFioFitter (ff_model f) (ff_import f) (ff_foot f) (Some stem) (Some d)) F) as Ef.
    pose proof (fio_run_settings h (fs, md, mkFioFitter (ff_model f) (ff_import f) (ff_foot f) (Some stem) (Some d))) as Es.
    destruct (run _ h) as [[fs' md'] f1]. cbn [snd ff_file ff_model ff_import ff_foot] in *. unfold settings in Es. injection Es as <- <- <-.
    apply fio_reload_fresh; assumption. Qed.
  Lemma fio_history_reloads fs md f stem f' h s n a roi r : fio_set_file to_float fs f stem = (f', Ok tt) -> Forall (fun op => sets_stem op = false) h -> r <> ReloadKeyword false ->
    let '(fs', md', f1) := run (fs, md, f') h in
    snd (fit fs' md' f1 s n a roi r) =
    fresh_fio_fit g refl1d pick cf erf to_float fs' md' (fio_last_model h (ff_model f)) (fio_last_import h (ff_import f)) (fio_last_foot h (ff_foot f)) stem s n a roi.
  Proof. intros E F Hr. apply fio_history_reload; [exact E|exact F|]. destruct r as [|[]|b]; try reflexivity. contradiction. Qed.
  Lemma fio_history_quiet st h s n a roi : Forall (fun op => fio_quiet op = true) h ->
    let '(fs', md', f1) := run st h in
    snd (fit fs' md' f1 s n a roi (ReloadKeyword false)) =
    snd (fit fs' md' (mkFioFitter (fio_last_model h (ff_model (snd st))) (ff_import (snd st)) (ff_foot (snd st)) (ff_file (snd st)) (ff_loader (snd st))) s n a roi (ReloadKeyword false)).
  Proof. intros F. pose proof (fio_run_quiet h st F) as El. pose proof (fio_run_settings h st) as Es. destruct (run st h) as [[fs' md'] f1]. cbn [snd] in *.
    rewrite !fio_fit_no_reload. cbn [snd]. apply fio_body_ext; cbn [ff_loader ff_model]; [exact El|]. unfold settings in Es. congruence. Qed.
End FioHistory.
