(** Lemmas about the SPEC loader and the recursion depth of the parser. *)
From Coq Require Import Reals Lra.
From Verif Require Import Py Str Arr Footprint_Model Footprint_Proofs Scan_Model Scan_Proofs Spec_Model SpecFile_Spec SpecLoader_Spec Spec_Proofs.
Local Open Scope string_scope.

(** ** Recursion depth *)
Lemma index_too_deep bs : forall depth pre skip idx,
  Forall block_ok bs -> gaps_ok bs -> no_scan skip ->
  Forall (fun l => rstrip l = l) (List.concat (map block_lines bs)) ->
  (depth <= List.length bs)%nat ->
  index_scans depth (pre ++ skip ++ List.concat (map block_lines bs)) (List.length pre) idx = Raise RecursionError.
Proof. induction bs as [|b bs IH]; intros depth pre skip idx Hb Hg Hs Hst Hd; (destruct depth as [|depth]; [reflexivity|]); cbn [List.length] in Hd; [lia|].
  inversion Hb as [|? ? Hb1 Hb2]; subst. cbn [map List.concat] in Hst. apply Forall_app in Hst. destruct Hst as [St1 St2].
  cbn [index_scans map List.concat]. rewrite skipn_exact by reflexivity.
  assert (EB : (block_lines b ++ List.concat (map block_lines bs) = b_head b :: b_body b ++ b_gap b ++ List.concat (map block_lines bs))%list)
    by (unfold block_lines at 1; rewrite <- app_comm_cons, <- app_assoc; reflexivity).
  rewrite EB. clear EB. rewrite next_scan_skip; [|exact Hs|apply Hb1].
  assert (E : (pre ++ skip ++ b_head b :: b_body b ++ b_gap b ++ List.concat (map block_lines bs) =
    (pre ++ skip) ++ b_head b :: b_body b ++ (b_gap b ++ List.concat (map block_lines bs)))%list) by (rewrite <- app_assoc; reflexivity).
  rewrite E, skipn_exact by apply app_length. clear E.
  assert (R : (b_gap b ++ List.concat (map block_lines bs))%list = [] \/ exists r, (b_gap b ++ List.concat (map block_lines bs))%list = "" :: r).
  { destruct bs as [|c bs]; [destruct Hg as [-> | (g & -> & _)]; [left|right; exists (g ++ [])%list]; reflexivity|].
    destruct Hg as [(g & -> & _) _]. right. eexists. reflexivity. }
  assert (St : Forall (fun l => rstrip l = l) (b_body b)).
  { unfold block_lines in St1. inversion St1 as [|? ? _ F]; subst. apply Forall_app in F. apply F. }
  rewrite (read_block b _ _ Hb1 St R). cbn [bind]. rewrite block_end, py_int_dec. cbn [bind].
  assert (G : no_scan (b_gap b) /\ gaps_ok bs).
  { destruct bs as [|c bs]; [split; [|exact I]; destruct Hg as [-> | (g & -> & Hg)]|destruct Hg as [(g & -> & Hg) Hg']; split; [|exact Hg']];
      try (constructor; [reflexivity|exact Hg]). constructor. }
  destruct G as [G1 G2].
  assert (L : (List.length pre + List.length skip + List.length (b_body b) + 1)%nat = List.length (pre ++ skip ++ b_head b :: b_body b)).
  { rewrite !app_length. cbn [List.length]. lia. }
  rewrite L. assert (E : ((pre ++ skip) ++ b_head b :: b_body b ++ b_gap b ++ List.concat (map block_lines bs) =
    (pre ++ skip ++ b_head b :: b_body b) ++ b_gap b ++ List.concat (map block_lines bs))%list) by (rewrite <- !app_assoc; reflexivity).
  rewrite E. apply IH; try assumption. lia. Qed.

Lemma parse_too_deep depth file prelude bs : spec_file file prelude bs -> (depth <= List.length bs)%nat ->
  spec_parser depth file = Raise RecursionError.
Proof. intros (E & Hp & Hb & Hg) Hd. unfold spec_parser. pose proof (stripped_lines file) as St. rewrite E in St.
  apply Forall_app in St. destruct St as [_ St].
  pose proof (index_too_deep bs depth [] prelude [] Hb Hg Hp St Hd) as K. cbn [app List.length] in K. rewrite <- E in K. rewrite K. reflexivity. Qed.

(** ** Index contents *)
Lemma index_keys depth file prelude bs : spec_file file prelude bs -> (List.length bs < depth)%nat ->
  exists p, spec_parser depth file = Ok p /\ NoDup (map fst (p_index p)) /\
    (forall n, In n (map fst (p_index p)) <-> exists b, In b bs /\ n = Z.of_N (b_number b)) /\
    (NoDup (map b_number bs) -> map fst (p_index p) = map (fun b => Z.of_N (b_number b)) bs).
Proof. intros Hf Hd. eexists. split; [apply (parse_file _ _ _ _ Hf Hd)|]. cbn [p_index].
  change (set_all []) with (set_list (V := entry) Z.eqb []). split; [|split].
  - apply (set_list_NoDup Z.eqb Z.eqb_eq). constructor.
  - intros n. rewrite (set_list_keys Z.eqb Z.eqb_eq), entries_keys. cbn [map In]. rewrite in_map_iff. split.
    + intros [(b & <- & Hb)|[]]. exists b; auto.
    + intros (b & Hb & ->). left. exists b; auto.
  - intros Hn. rewrite (set_list_distinct Z.eqb Z.eqb_eq); [cbn [app]; apply entries_keys|]. cbn [map app]. rewrite entries_keys.
    rewrite <- (map_map b_number Z.of_N). apply FinFun.Injective_map_NoDup; [|exact Hn]. intros a b. apply N2Z.inj. Qed.

Lemma entry_contents depth file prelude bs b : spec_file file prelude bs -> (List.length bs < depth)%nat -> last_block bs b ->
  exists p e, spec_parser depth file = Ok p /\ dict_get Z.eqb (p_index p) (Z.of_N (b_number b)) = Some e /\
    e_command e = Some (join " " (b_command b)) /\
    nth_error (map rstrip file) (e_start e) = Some (b_head b) /\
    match last_with "#D" (b_body b) with
    | None => e_time e = None
    | Some l => forall tag ws, words_of (tag :: ws) l -> e_time e = Some (join " " ws)
    end.
Proof. intros Hf Hd (l & r & E & Hr). destruct (last_entry _ _ _ _ _ _ _ Hf Hd E Hr) as (p & Hp & Hl & Hg).
  exists p. eexists. split; [exact Hp|]. split; [exact Hg|]. split; [|split].
  - unfold block_entry, with_end. cbn [e_command]. rewrite upd_command. reflexivity.
  - unfold block_entry, with_end. cbn [e_start]. rewrite upd_start. cbn [first_entry e_start].
    destruct Hf as [Hf _]. rewrite Hf, E, map_app, concat_app. cbn [map List.concat]. unfold block_lines at 2. rewrite app_assoc.
    rewrite <- app_comm_cons. apply nth_error_mid.
  - unfold block_entry, with_end. cbn [e_time]. rewrite upd_time. destruct (last_with "#D" (b_body b)) as [t|]; [|reflexivity].
    intros tag ws Hw. rewrite (words_tail _ _ _ Hw). reflexivity. Qed.

(** ** Trimming *)
Section Load.
Variable to_float : string -> option fl.

Lemma crop_map {A B} (g : A -> B) f b l : map g (crop f b l) = crop f b (map g l).
Proof. unfold crop. rewrite map_length, firstn_map, skipn_map. reflexivity. Qed.
Lemma crop_trim {A} f b (l : list A) : (0 < b)%nat -> trim_front (Z.of_nat f) (trim_back (Z.of_nat b) l) = crop f b l.
Proof. intros H. rewrite trim_front_skipn, trim_back_firstn by exact H. reflexivity. Qed.
Lemma crop_front {A} f (l : list A) : trim_front (Z.of_nat f) l = crop f 0 l.
Proof. rewrite trim_front_skipn. unfold crop. rewrite Nat.sub_0_r, firstn_all. reflexivity. Qed.
Lemma crop_back {A} b (l : list A) : (0 < b)%nat -> trim_back (Z.of_nat b) l = crop 0 b l.
Proof. intros H. rewrite trim_back_firstn by exact H. reflexivity. Qed.
Lemma crop_none {A} (l : list A) : crop 0 0 l = l.
Proof. unfold crop. cbn [skipn]. rewrite Nat.sub_0_r. apply firstn_all. Qed.

Definition trim_arg (k : nat) : option Z := Some (Z.of_nat k).
(** The common part of [load_scan] before trimming *)
Definition load_raw (d : loader) (n : Z) : res (list fl * list fl * string) :=
  t <- match extract_scan to_float (ld_parser d) n with
       | Raise KeyError | Raise ValueError => Raise NotReflectivityScanError
       | x => x
       end ;;
  if negb (contains_counters (ld_angles d) (t_names t)) then Raise NotReflectivityScanError else
  time <- match dict_get Z.eqb (p_index (ld_parser d)) n with
          | Some e => match e_time e with Some s => Ok s | None => Raise KeyError end
          | None => Raise KeyError
          end ;;
  angle <- scattering_angle t (ld_angles d) ;;
  intensity <- loaded_intensity d t angle ;;
  Ok (angle, intensity, time).
Definition finish (d : loader) (n : Z) (x : list fl * list fl * string) : scan :=
  let '(angle, intensity, time) := x in
  scan_new n angle intensity (ld_wavelength d) (ld_beam d) (ld_sample d) (ld_shape d) (ld_norm d) (Some time).
Definition trim2 (tf tb : option Z) (x : list fl * list fl * string) : list fl * list fl * string :=
  let '(angle, intensity, time) := x in
  let '(angle, intensity) :=
    match tb with Some b => (trim_back b angle, trim_back b intensity) | None => (angle, intensity) end in
  let '(angle, intensity) :=
    match tf with Some f => (trim_front f angle, trim_front f intensity) | None => (angle, intensity) end in
  (angle, intensity, time).
Lemma load_scan_raw d n tf tb : load_scan to_float d n tf tb = rmap (fun x => finish d n (trim2 tf tb x)) (load_raw d n).
Proof. unfold load_scan, load_raw. match goal with |- bind ?X _ = _ => destruct X as [t|e]; [|reflexivity] end.
  cbn [bind]. destruct (negb _); [reflexivity|]. match goal with |- bind ?X _ = _ => destruct X as [time|e]; [|reflexivity] end. cbn [bind].
  destruct (scattering_angle t (ld_angles d)) as [angle|e]; [|reflexivity]. cbn [bind]. destruct (loaded_intensity d t angle) as [I|e]; [|reflexivity]. cbn [bind rmap].
  destruct tb, tf; reflexivity. Qed.

Lemma finish_crop d n f b x : finish d n (let '(a, i, t) := x in (crop f b a, crop f b i, t)) = cropped f b (finish d n x).
Proof. destruct x as [[a i] t]. unfold finish, cropped, scan_new. cbn [sc_number sc_angle sc_raw sc_wavelength sc_beam sc_sample sc_shape sc_norm sc_time].
  f_equal. unfold replace_zeros. apply crop_map. Qed.

Lemma load_crop d n f b tf tb :
  (forall x, trim2 tf tb x = let '(a, i, t) := x in (crop f b a, crop f b i, t)) ->
  load_scan to_float d n tf tb = rmap (cropped f b) (load_scan to_float d n None None).
Proof. intros H. rewrite !load_scan_raw. destruct (load_raw d n) as [x|e]; [|reflexivity]. cbn [rmap]. f_equal. rewrite H.
  rewrite finish_crop. f_equal. destruct x as [[a i] t]. reflexivity. Qed.

Lemma load_trimmed d n (f b : nat) : (0 < b)%nat ->
  load_scan to_float d n (trim_arg f) (trim_arg b) = rmap (cropped f b) (load_scan to_float d n None None) /\
  load_scan to_float d n (trim_arg f) None = rmap (cropped f 0) (load_scan to_float d n None None) /\
  load_scan to_float d n None (trim_arg b) = rmap (cropped 0 b) (load_scan to_float d n None None).
Proof. intros H. split; [|split]; apply load_crop; intros [[a i] t]; unfold trim2, trim_arg.
  - rewrite !crop_trim by exact H. reflexivity.
  - rewrite !crop_front. reflexivity.
  - rewrite !crop_back by exact H. reflexivity. Qed.

Lemma load_trim_zero d n tf s : load_scan to_float d n tf (trim_arg 0) = Ok s -> sc_angle s = [] /\ sc_raw s = [].
Proof. rewrite load_scan_raw. destruct (load_raw d n) as [[[a i] t]|e]; [|discriminate]. cbn [rmap]. intros E. injection E as <-.
  unfold trim2, trim_arg. change (Z.of_nat 0) with 0%Z. rewrite !trim_back_zero. destruct tf as [z|]; [|split; reflexivity].
  assert (T : forall A, trim_front z (@nil A) = []) by (intros A; unfold trim_front, py_slice; cbn [List.length]; rewrite skipn_nil, firstn_nil; reflexivity).
  rewrite !T. split; reflexivity. Qed.

(** ** Several scans *)
Definition collect {A} (load : Z -> res A) (ns : list Z) : res (list A) :=
  foldM (fun acc n => match load n with Ok s => Ok (acc ++ [s])%list | Raise NotReflectivityScanError => Ok acc | Raise e => Raise e end) [] ns.
Lemma collect_accepted {A} (load : Z -> res A) ns l :
  collect load ns = Ok l <-> accepted load ns l.
Proof. unfold collect.
  assert (G : forall acc l, foldM (fun acc n => match load n with Ok s => Ok (acc ++ [s])%list | Raise NotReflectivityScanError => Ok acc | Raise e => Raise e end) acc ns = Ok l
    <-> exists l', l = (acc ++ l')%list /\ accepted load ns l').
  { clear l. induction ns as [|n ns IH]; intros acc l; cbn [foldM].
    - split; [intros E; injection E as <-; exists []; split; [now rewrite app_nil_r|constructor]|].
      intros (l' & -> & H). inversion H; subst. now rewrite app_nil_r.
    - destruct (load n) as [s|e] eqn:E.
      + cbn [bind]. rewrite IH. split.
        * intros (l' & -> & H). exists (s :: l'). split; [rewrite <- app_assoc; reflexivity|]. constructor; [exact E|exact H].
        * intros (l' & -> & H). inversion H as [|? ? s' l2 E' H'|? ? ? E' H']; subst; cbv beta in E'; rewrite E in E'; [|discriminate].
          injection E' as ->. exists l2. split; [rewrite <- app_assoc; reflexivity|exact H'].
      + destruct (match e with NotReflectivityScanError => true | _ => false end) eqn:Q.
        * destruct e; try discriminate Q. cbn [bind]. rewrite IH. split; intros (l' & -> & H); exists l'; (split; [reflexivity|]).
          -- apply accepted_no; [exact E|exact H].
          -- inversion H as [|? ? s' l2 E' H'|? ? ? E' H']; subst; cbv beta in E'; rewrite E in E'; [discriminate|exact H'].
        * replace (match e with NotReflectivityScanError => Ok acc | _ => Raise e end) with (@Raise (list A) e) by (destruct e; try reflexivity; discriminate Q).
          cbn [bind]. split; [discriminate|]. intros (l' & -> & H).
          inversion H as [|? ? s' l2 E' H'|? ? ? E' H']; subst; cbv beta in E'; rewrite E in E'; [discriminate|]. injection E' as ->. discriminate Q. }
  rewrite G. cbn [app]. split; [intros (l' & -> & H); exact H|intros H; exists l; split; [reflexivity|exact H]]. Qed.

Lemma collect_error {A} (load : Z -> res A) ns e :
  collect load ns = Raise e <->
  exists before n after l, ns = (before ++ n :: after)%list /\ accepted load before l /\
    load n = Raise e /\ e <> NotReflectivityScanError.
Proof. unfold collect.
  assert (G : forall acc, foldM (fun acc n => match load n with Ok s => Ok (acc ++ [s])%list | Raise NotReflectivityScanError => Ok acc | Raise e => Raise e end) acc ns = Raise e
    <-> exists before n after l, ns = (before ++ n :: after)%list /\ accepted load before l /\
    load n = Raise e /\ e <> NotReflectivityScanError).
  { induction ns as [|n ns IH]; intros acc; cbn [foldM].
    - split; [discriminate|]. intros (b & n & a & l & E & _). destruct b; discriminate E.
    - destruct (load n) as [s|e'] eqn:E.
      + cbn [bind]. rewrite IH. split.
        * intros (b & m & a & l & -> & H & R). exists (n :: b), m, a, (s :: l). split; [reflexivity|]. split; [|exact R]. constructor; [exact E|exact H].
        * intros (b & m & a & l & F & H & R & Q). destruct b as [|x b]; cbn [app] in F; injection F as -> ->; [congruence|].
          inversion H as [|? ? s' l2 E' H'|? ? ? E' H']; subst; cbv beta in E'; rewrite E in E'; [|discriminate]. exists b, m, a, l2. auto.
      + destruct (match e' with NotReflectivityScanError => true | _ => false end) eqn:Q.
        * destruct e'; try discriminate Q. cbn [bind]. rewrite IH. split.
          -- intros (b & m & a & l & -> & H & R). exists (n :: b), m, a, l. split; [reflexivity|]. split; [|exact R]. apply accepted_no; [exact E|exact H].
          -- intros (b & m & a & l & F & H & R & Q'). destruct b as [|x b]; cbn [app] in F; injection F as -> ->; [congruence|].
             inversion H as [|? ? s' l2 E' H'|? ? ? E' H']; subst; cbv beta in E'; rewrite E in E'; [discriminate|]. exists b, m, a, l. auto.
        * replace (match e' with NotReflectivityScanError => Ok acc | _ => Raise e' end) with (@Raise (list A) e') by (destruct e'; try reflexivity; discriminate Q).
          cbn [bind]. split.
          -- intros F. injection F as ->. exists [], n, ns, []. split; [reflexivity|]. split; [constructor|]. split; [exact E|]. intros ->. discriminate Q.
          -- intros (b & m & a & l & F & H & R & Q'). destruct b as [|x b]; cbn [app] in F; injection F as -> ->; [congruence|].
             inversion H as [|? ? s' l2 E' H'|? ? ? E' H']; subst; cbv beta in E'; rewrite E in E'; [discriminate|]. injection E' as ->. discriminate Q. }
  apply G. Qed.

Lemma load_scans_accepted d tf tb ns l :
  load_scans to_float d ns tf tb = Ok l <-> accepted (fun n => load_scan to_float d n tf tb) ns l.
Proof. exact (collect_accepted (fun n => load_scan to_float d n tf tb) ns l). Qed.
Lemma load_scans_error d tf tb ns e :
  load_scans to_float d ns tf tb = Raise e <->
  exists before n after l, ns = (before ++ n :: after)%list /\ accepted (fun n => load_scan to_float d n tf tb) before l /\
    load_scan to_float d n tf tb = Raise e /\ e <> NotReflectivityScanError.
Proof. exact (collect_error (fun n => load_scan to_float d n tf tb) ns e). Qed.

(** Which scans are rejected *)
Lemma table_col_error t a e : table_col t a = Raise e -> e = KeyError.
Proof. unfold table_col. destruct (position a (t_names t)); congruence. Qed.
Lemma vec_op_error f a b e : vec_op f a b = Raise e -> e = ValueError.
Proof. unfold vec_op, bdim. destruct (Nat.eqb _ _); [discriminate|]. destruct (Nat.eqb _ _); [discriminate|]. destruct (Nat.eqb _ _); [discriminate|]. cbn. congruence. Qed.
Lemma py_get_error A (l : list A) i e : py_get l i = Raise e -> e = IndexError.
Proof. unfold py_get. destruct (norm_idx _ _); [destruct (nth_error _ _)|]; congruence. Qed.
Lemma kink_error A I i e : kink_step A I i = Raise e -> e = IndexError.
Proof. unfold kink_step. destruct (py_get A _) eqn:E1; cbn [bind]; [|intros H; injection H as <-; exact (py_get_error _ _ _ _ E1)].
  destruct (py_get A (Z.of_nat (i + 1))) eqn:E2; cbn [bind]; [|intros H; injection H as <-; exact (py_get_error _ _ _ _ E2)].
  destruct (feqb _ _); [|discriminate]. destruct (py_get I (Z.of_nat i)) eqn:E3; cbn [bind]; [|intros H; injection H as <-; exact (py_get_error _ _ _ _ E3)].
  destruct (py_get I (Z.of_nat (i + 1))) eqn:E4; cbn [bind]; [discriminate|intros H; injection H as <-; exact (py_get_error _ _ _ _ E4)]. Qed.
Lemma foldM_error A S (f : S -> A -> res S) (P : exn -> Prop) l : (forall s a e, f s a = Raise e -> P e) -> forall s e, foldM f s l = Raise e -> P e.
Proof. intros H. induction l as [|a l IH]; intros s e; cbn [foldM]; [discriminate|]. destruct (f s a) eqn:E; cbn [bind]; [apply IH|].
  intros F; injection F as <-. eapply H, E. Qed.
Lemma mapM_error A B (f : A -> res B) (P : exn -> Prop) l : (forall a e, f a = Raise e -> P e) -> forall e, mapM f l = Raise e -> P e.
Proof. intros H. induction l as [|a l IH]; intros e; cbn [mapM]; [discriminate|]. destruct (f a) eqn:E; cbn [bind].
  - destruct (mapM f l) eqn:E2; cbn [bind]; [discriminate|]. intros F; injection F as <-. apply IH. reflexivity.
  - intros F; injection F as <-. eapply H, E. Qed.

Definition later_error (e : exn) : Prop := e = KeyError \/ e = ValueError \/ e = IndexError.
Lemma angle_error t cs e : scattering_angle t cs = Raise e -> e = KeyError.
Proof. unfold scattering_angle. destruct (mapM _ cs) eqn:E; cbn [bind]; [discriminate|]. intros F; injection F as <-.
  refine (mapM_error _ _ _ (fun e => e = KeyError) _ _ _ E). intros a e'. destruct (table_col t a) eqn:G; cbn [bind]; [discriminate|].
  intros F; injection F as <-. exact (table_col_error _ _ _ G). Qed.
Lemma intensity_error d t angle e : loaded_intensity d t angle = Raise e -> later_error e.
Proof. unfold loaded_intensity, later_error. destruct (table_col t (ld_intensity d)) as [i0|e0] eqn:E0; cbn [bind].
  2:{ intros F; injection F as <-. left. exact (table_col_error _ _ _ E0). }
  assert (Q : forall i1 e, match ld_division d with None => Ok i1 | Some c => v <- table_col t c ;; apply_normalization i1 v end = Raise e -> e = KeyError \/ e = ValueError \/ e = IndexError).
  { intros i1 e1. destruct (ld_division d) as [c|]; [|discriminate]. destruct (table_col t c) as [v|] eqn:E; cbn [bind].
    - unfold apply_normalization, bdim. destruct (Nat.eqb (List.length i1) (List.length v)); cbn [bind]; [destruct (Nat.eqb _ _); [discriminate|intros F; injection F as <-; auto]|].
      destruct (Nat.eqb (List.length i1) 1); cbn [bind]; [destruct (Nat.eqb _ _); [discriminate|intros F; injection F as <-; auto]|].
      destruct (Nat.eqb (List.length v) 1); cbn [bind]; [destruct (Nat.eqb _ _); [discriminate|intros F; injection F as <-; auto]|]. intros F; injection F as <-; auto.
    - intros F; injection F as <-. left. exact (table_col_error _ _ _ E). }
  destruct (ld_attenuator d) as [a|]; [|apply Q]. destruct (table_col t a) as [c|] eqn:E1; cbn [bind].
  2:{ intros F; injection F as <-. left. exact (table_col_error _ _ _ E1). }
  destruct (apply_attenuation i0 c) as [i|] eqn:E2; cbn [bind].
  2:{ intros F; injection F as <-. right; left. exact (vec_op_error _ _ _ _ E2). }
  destruct (correct_discontinuities i angle) as [i1|] eqn:E3; cbn [bind]; [apply Q|].
  intros F; injection F as <-. right; right. unfold correct_discontinuities in E3. exact (foldM_error _ _ _ (fun e => e = IndexError) _ (kink_error angle) _ _ E3). Qed.

Lemma contains_counters_iff angles names : contains_counters angles names = true <-> forall a, In a angles -> In a names.
Proof. unfold contains_counters. rewrite forallb_forall. split; intros H a Ha.
  - specialize (H a Ha). apply existsb_exists in H. destruct H as (x & Hx & E). apply String.eqb_eq in E. congruence.
  - apply existsb_exists. exists a. split; [apply H, Ha|apply String.eqb_refl]. Qed.

Lemma rejected_iff d n tf tb : load_scan to_float d n tf tb = Raise NotReflectivityScanError <->
  extract_scan to_float (ld_parser d) n = Raise KeyError \/ extract_scan to_float (ld_parser d) n = Raise ValueError \/
  extract_scan to_float (ld_parser d) n = Raise NotReflectivityScanError \/
  exists t a, extract_scan to_float (ld_parser d) n = Ok t /\ In a (ld_angles d) /\ ~ In a (t_names t).
Proof. rewrite load_scan_raw. unfold load_raw. destruct (extract_scan to_float (ld_parser d) n) as [t|e] eqn:E; cbn [bind].
  - destruct (contains_counters (ld_angles d) (t_names t)) eqn:C; cbn [negb].
    + split.
      * intros F. exfalso. destruct (dict_get Z.eqb _ n) as [en|]; [destruct (e_time en) as [tm|]|]; cbn [bind rmap] in F; try discriminate F.
        destruct (scattering_angle t (ld_angles d)) as [an|e] eqn:A; cbn [bind rmap] in F; [|apply angle_error in A; congruence].
        destruct (loaded_intensity d t an) as [I|e] eqn:B; cbn [bind rmap] in F; [discriminate F|]. apply intensity_error in B. unfold later_error in B.
        injection F as ->. destruct B as [B|[B|B]]; discriminate B.
      * intros [F|[F|[F|(t' & a & F & Ha & Hn)]]]; try discriminate F. injection F as <-. exfalso. apply Hn. apply contains_counters_iff with (1 := C); exact Ha.
    + split; [|reflexivity]. intros _. right. right. right. exists t.
      assert (X : exists a, In a (ld_angles d) /\ ~ In a (t_names t)).
      { unfold contains_counters in C. clear - C. induction (ld_angles d) as [|a l IH]; [discriminate C|]. cbn [forallb] in C.
        destruct (existsb (String.eqb a) (t_names t)) eqn:F; cbn [andb] in C.
        - destruct (IH C) as (b & Hb & Hn). exists b. split; [right; exact Hb|exact Hn].
        - exists a. split; [left; reflexivity|]. intros J. assert (K : existsb (String.eqb a) (t_names t) = true) by (apply existsb_exists; exists a; split; [exact J|apply String.eqb_refl]). congruence. }
      destruct X as (a & Ha & Hn). exists a. auto.
  - split.
    + intros F. destruct e; cbn [bind rmap] in F; try discriminate F; auto.
    + intros [F|[F|[F|(t' & a & F & _)]]]; try discriminate F; injection F as ->; reflexivity. Qed.

Lemma missing_rejected d n tf tb : dict_get Z.eqb (p_index (ld_parser d)) n = None -> load_scan to_float d n tf tb = Raise NotReflectivityScanError.
Proof. intros H. apply rejected_iff. left. unfold extract_scan, column_names, data_start. rewrite H. reflexivity. Qed.

(** ** The contents of a loaded scan *)
Lemma position_value names : NoDup names -> forall name, In name names ->
  exists j, position name names = Some j /\ (j < List.length names)%nat /\
  forall row, List.length row = List.length names -> nth j row None = value names row name.
Proof. intros Hd name. unfold value. induction names as [|x names IH]; intros H; [contradiction|]. cbn [position].
  destruct (String.eqb_spec x name) as [-> |N].
  - exists 0%nat. split; [reflexivity|]. split; [cbn [List.length]; lia|]. intros [|y row] L; [discriminate L|]. cbn [combine find fst nth]. rewrite String.eqb_refl. reflexivity.
  - destruct H as [-> |H]; [contradiction|]. inversion Hd; subst. destruct (IH ltac:(assumption) H) as (j & E & J & K). exists (S j). rewrite E. split; [reflexivity|].
    split; [cbn [List.length]; lia|]. intros [|y row] L; [discriminate L|]. cbn [combine find fst nth]. destruct (String.eqb_spec name x); [congruence|]. apply K. cbn [List.length] in L. lia. Qed.

Lemma table_col_value names rows name : NoDup names -> In name names -> Forall (fun r => List.length r = List.length names) rows ->
  table_col (mkTable names rows) name = Ok (map (fun r => value names r name) rows).
Proof. intros Hd Hi Hw. unfold table_col. cbn [t_names t_rows]. destruct (position_value names Hd name Hi) as (j & -> & _ & K).
  f_equal. unfold column. apply map_ext_in. intros r Hr. rewrite Forall_forall in Hw. apply K, Hw, Hr. Qed.

Lemma by_column_rows (rows : list (list fl)) (gs : list (list fl -> fl)) : 
  by_column fsum (List.length rows) (map (fun g => map g rows) gs) = map (fun r => fsum (map (fun g => g r) gs)) rows.
Proof. unfold by_column. apply nth_error_ext. intros k. rewrite !nth_error_map.
  destruct (nth_error rows k) as [r|] eqn:E.
  - assert (K : (k < List.length rows)%nat) by (apply nth_error_Some; congruence).
    assert (Sq : nth_error (seq 0 (List.length rows)) k = Some k).
    { rewrite (nth_error_nth' (seq 0 (List.length rows)) 0%nat) by (rewrite seq_length; exact K). rewrite seq_nth by exact K. reflexivity. }
    rewrite Sq. cbn [option_map]. do 2 f_equal. unfold column. rewrite map_map. apply map_ext. intros g.
    rewrite nth_indep with (d' := g []) by (rewrite map_length; exact K). rewrite map_nth. f_equal.
    apply nth_error_nth with (d := []) in E. exact E.
  - apply nth_error_None in E. assert (Sq : nth_error (seq 0 (List.length rows)) k = None) by (apply nth_error_None; rewrite seq_length; exact E).
    rewrite Sq. reflexivity. Qed.

Lemma angle_rows names rows angles : NoDup names -> (forall a, In a angles -> In a names) -> angles <> [] -> Forall (fun r => List.length r = List.length names) rows ->
  scattering_angle (mkTable names rows) angles = Ok (map (fun r => abs_sum (map (value names r) angles)) rows).
Proof. intros Hd Hi Hn Hw. unfold scattering_angle.
  rewrite (mapM_map _ (fun a => map (fun r => fabs (value names r a)) rows)).
  2:{ intros a Ha. rewrite table_col_value by auto. cbn [bind]. rewrite map_map. reflexivity. }
  cbn [bind]. destruct angles as [|a angles]; [contradiction|].
  assert (L : match map (fun a => map (fun r => fabs (value names r a)) rows) (a :: angles) with [] => 0%nat | c :: _ => List.length c end = List.length rows) by (cbn [map]; apply map_length).
  rewrite L. pose proof (by_column_rows rows (map (fun a r => fabs (value names r a)) (a :: angles))) as B. rewrite map_map in B.
  rewrite B. f_equal. apply map_ext. intros r. unfold abs_sum. rewrite !map_map. reflexivity. Qed.

Definition time_of (e : option entry) (t : string) : Prop := match e with Some e => e_time e = Some t | None => False end.

Lemma load_contents d n names rows t tf tb : extract_scan to_float (ld_parser d) n = Ok (mkTable names rows) -> NoDup names ->
  Forall (fun r => List.length r = List.length names) rows ->
  ld_angles d <> [] -> (forall a, In a (ld_angles d) -> In a names) -> In (ld_intensity d) names ->
  time_of (dict_get Z.eqb (p_index (ld_parser d)) n) t ->
  forall I, loaded_intensity d (mkTable names rows) (map (fun r => abs_sum (map (value names r) (ld_angles d))) rows) = Ok I ->
  load_scan to_float d n tf tb = Ok (finish d n (trim2 tf tb (map (fun r => abs_sum (map (value names r) (ld_angles d))) rows, I, t))).
Proof. intros E Hd Hw Hne Ha Hi Ht I HI. rewrite load_scan_raw. unfold load_raw. rewrite E. cbn [bind t_names].
  rewrite (proj2 (contains_counters_iff _ _) Ha). cbn [negb]. unfold time_of in Ht. destruct (dict_get Z.eqb _ n) as [en|]; [|contradiction].
  rewrite Ht. cbn [bind]. rewrite angle_rows by assumption. cbn [bind]. rewrite HI. reflexivity. Qed.

Lemma intensity_plain d names rows angle : NoDup names -> Forall (fun r => List.length r = List.length names) rows -> In (ld_intensity d) names ->
  ld_attenuator d = None -> (forall c, ld_division d = Some c -> In c names) ->
  loaded_intensity d (mkTable names rows) angle = Ok (map (fun r =>
    match ld_division d with Some c => fdiv (value names r (ld_intensity d)) (value names r c) | None => value names r (ld_intensity d) end) rows).
Proof. intros Hd Hw Hi Ha Hc. unfold loaded_intensity. rewrite table_col_value by assumption. cbn [bind]. rewrite Ha. cbn [bind].
  destruct (ld_division d) as [c|]; [|reflexivity]. rewrite table_col_value by auto. cbn [bind]. unfold apply_normalization. rewrite !map_length, bdim_same. cbn [bind]. rewrite Nat.eqb_refl.
  f_equal. rewrite <- (map_length (fun r => value names r (ld_intensity d)) rows). rewrite bop_same by (rewrite !map_length; reflexivity).
  clear. induction rows as [|r rows IH]; [reflexivity|]. cbn [map combine fst snd]. f_equal. exact IH. Qed.

Lemma intensity_attenuated d names rows angle a : NoDup names -> Forall (fun r => List.length r = List.length names) rows -> In (ld_intensity d) names ->
  ld_attenuator d = Some a -> In a names -> ld_division d = None ->
  loaded_intensity d (mkTable names rows) angle =
    correct_discontinuities (map (fun r => fmul (value names r (ld_intensity d)) (value names r a)) rows) angle.
Proof. intros Hd Hw Hi Ha Hin Hc. unfold loaded_intensity. rewrite table_col_value by assumption. cbn [bind]. rewrite Ha.
  rewrite table_col_value by assumption. cbn [bind]. unfold apply_attenuation. rewrite vec_op_same by (rewrite !map_length; reflexivity). cbn [bind]. rewrite Hc.
  replace (map (fun xy => fmul (fst xy) (snd xy)) (combine (map (fun r => value names r (ld_intensity d)) rows) (map (fun r => value names r a) rows)))
    with (map (fun r => fmul (value names r (ld_intensity d)) (value names r a)) rows).
  - destruct (correct_discontinuities _ angle); reflexivity.
  - clear. induction rows as [|r rows IH]; [reflexivity|]. cbn [map combine fst snd]. f_equal. exact IH. Qed.
End Load.

(** ** The words of a line are determined *)
Lemma words_space ws c s : is_space c = true -> words_of ws s -> words_of ws (String c s).
Proof. intros Hc H. inversion H as [s0 Hb|pre w ws' rest Hp Hw Hr Hs]; subst.
  - constructor. unfold blank in *. cbn [str_forall]. rewrite Hc. exact Hb.
  - change (String c (pre ++ w ++ rest)) with (String c pre ++ w ++ rest). constructor; try assumption. unfold blank in *. cbn [str_forall]. rewrite Hc. exact Hp. Qed.
Lemma solid_app a b : str_forall (fun c => negb (is_space c)) (a ++ b) = str_forall (fun c => negb (is_space c)) a && str_forall (fun c => negb (is_space c)) b.
Proof. induction a as [|c a IH]; cbn [append str_forall]; [reflexivity|]. rewrite IH, andb_assoc. reflexivity. Qed.
Lemma words_split_aux s : forall cur, str_forall (fun c => negb (is_space c)) (rev_string cur) = true -> words_of (split_ws_aux cur s) (rev_string cur ++ s).
Proof. induction s as [|c s IH]; intros cur H; cbn [split_ws_aux].
  - destruct cur as [|x cur]; [constructor; reflexivity|]. apply (words_cons "" (rev_string (String x cur)) [] ""); [reflexivity| |constructor; reflexivity|left; reflexivity].
    split; [intros J; apply rev_string_nil in J; discriminate|exact H].
  - destruct (is_space c) eqn:E.
    + destruct cur as [|x cur]; [apply words_space; [exact E|apply (IH "" eq_refl)]|].
      apply (words_cons "" (rev_string (String x cur)) _ (String c s)); [reflexivity| |apply words_space; [exact E|apply (IH "" eq_refl)]|].
      * split; [intros J; apply rev_string_nil in J; discriminate|exact H].
      * right. exists c, s. auto.
    + specialize (IH (String c cur)). cbn [rev_string] in IH. rewrite append_assoc in IH. apply IH. rewrite solid_app, H. cbn [str_forall]. rewrite E. reflexivity. Qed.
Lemma words_of_split s : words_of (split_ws s) s.
Proof. apply (words_split_aux s "" eq_refl). Qed.
Lemma words_iff ws s : words_of ws s <-> split_ws s = ws.
Proof. split; [apply split_ws_words|intros <-; apply words_of_split]. Qed.

(** ** Files with many scans *)
Definition tiny_block : block := mkBlock 1 [] "#S 1" [] [""].
Lemma tiny_ok : block_ok tiny_block.
Proof. split; [reflexivity|]. split; [exists "#S"; apply words_iff; reflexivity|]. split; constructor. Qed.
Lemma tiny_file k : exists file, spec_file file [] (repeat tiny_block k).
Proof. exists (List.concat (map block_lines (repeat tiny_block k))). split; [|split; [constructor|split]].
  - cbn [app]. induction k as [|k IH]; [reflexivity|]. cbn [repeat map List.concat]. rewrite map_app, IH. reflexivity.
  - apply Forall_forall. intros b Hb. apply repeat_spec in Hb. subst. exact tiny_ok.
  - assert (G : gap_ok (b_gap tiny_block)) by (exists []; split; [reflexivity|constructor]).
    induction k as [|k IH]; [exact I|]. cbn [repeat gaps_ok]. destruct (repeat tiny_block k) eqn:E; [right; exact G|split; [exact G|exact IH]]. Qed.

(** ** Loading a scan of a file *)
Section Whole.
Variable to_float : string -> option fl.
Local Open Scope R_scope.

Lemma file_scan depth file prelude bs b names rows : spec_file file prelude bs -> (List.length bs < depth)%nat -> last_block bs b ->
  holds_table to_float b names rows -> names <> [] -> NoDup names -> ~ starts_with_any "#L " (join "  " names) -> rows <> [] ->
  exists p, spec_parser depth file = Ok p /\ extract_scan to_float p (Z.of_N (b_number b)) = Ok (mkTable names rows) /\
    Forall (fun r => List.length r = List.length names) rows /\
    forall tag ws l, last_with "#D" (b_body b) = Some l -> words_of (tag :: ws) l ->
      time_of (dict_get Z.eqb (p_index p) (Z.of_N (b_number b))) (join " " ws).
Proof. intros Hf Hd Hl Ht Hn Hnd Hs Hr. destruct (block_extract _ _ _ _ _ _ _ _ Hf Hd Hl Ht Hn Hs) as (p & Hp & He).
  exists p. split; [exact Hp|]. split; [destruct rows; [contradiction|exact He]|]. split; [destruct Ht as (_ & _ & _ & _ & _ & _ & _ & _ & Hw); exact Hw|].
  intros tag ws l Hlw Hw. destruct (entry_contents _ _ _ _ _ Hf Hd Hl) as (p' & e & Hp' & Hg & _ & _ & Htm).
  rewrite Hp in Hp'. injection Hp' as <-. rewrite Hg. cbn [time_of]. rewrite Hlw in Htm. apply (Htm tag ws Hw). Qed.

Lemma load_file depth file prelude bs b names rows tag ws l :
  spec_file file prelude bs -> (List.length bs < depth)%nat -> last_block bs b ->
  holds_table to_float b names rows -> names <> [] -> NoDup names -> ~ starts_with_any "#L " (join "  " names) -> rows <> [] ->
  last_with "#D" (b_body b) = Some l -> words_of (tag :: ws) l ->
  exists p, spec_parser depth file = Ok p /\ forall d, ld_parser d = p -> ld_angles d <> [] -> (forall a, In a (ld_angles d) -> In a names) -> In (ld_intensity d) names ->
    ld_attenuator d = None -> (forall c, ld_division d = Some c -> In c names) ->
    load_scan to_float d (Z.of_N (b_number b)) None None =
      Ok (mkScan (Z.of_N (b_number b)) (map (fun r => nonzero (abs_sum (map (value names r) (ld_angles d)))) rows)
            (map (fun r => match ld_division d with
                           | Some c => fdiv (value names r (ld_intensity d)) (value names r c)
                           | None => value names r (ld_intensity d) end) rows)
            (ld_wavelength d) (ld_beam d) (ld_sample d) (ld_shape d) (ld_norm d) (Some (join " " ws))).
Proof. intros Hf Hd Hl Ht Hn Hnd Hs Hr Hlw Hw. destruct (file_scan _ _ _ _ _ _ _ Hf Hd Hl Ht Hn Hnd Hs Hr) as (p & Hp & He & Hwd & Htm).
  exists p. split; [exact Hp|]. intros d Hdp Ha Hain Hi Hatt Hdiv. rewrite <- Hdp in *.
  rewrite (load_contents to_float d _ names rows (join " " ws) None None He Hnd Hwd Ha Hain Hi (Htm _ _ _ Hlw Hw) _
    (intensity_plain to_float d names rows _ Hnd Hwd Hi Hatt Hdiv)).
  unfold trim2, finish, scan_new, replace_zeros. rewrite map_map. reflexivity. Qed.

Lemma load_file_attenuated depth file prelude bs b names rows tag ws l a I :
  spec_file file prelude bs -> (List.length bs < depth)%nat -> last_block bs b ->
  holds_table to_float b names rows -> names <> [] -> NoDup names -> ~ starts_with_any "#L " (join "  " names) -> rows <> [] ->
  last_with "#D" (b_body b) = Some l -> words_of (tag :: ws) l ->
  exists p, spec_parser depth file = Ok p /\ forall d, ld_parser d = p -> ld_angles d <> [] -> (forall a, In a (ld_angles d) -> In a names) -> In (ld_intensity d) names ->
    ld_attenuator d = Some a -> In a names -> ld_division d = None ->
    correct_discontinuities (map (fun r => fmul (value names r (ld_intensity d)) (value names r a)) rows)
      (map (fun r => abs_sum (map (value names r) (ld_angles d))) rows) = Ok I ->
    load_scan to_float d (Z.of_N (b_number b)) None None =
      Ok (mkScan (Z.of_N (b_number b)) (map (fun r => nonzero (abs_sum (map (value names r) (ld_angles d)))) rows) I
            (ld_wavelength d) (ld_beam d) (ld_sample d) (ld_shape d) (ld_norm d) (Some (join " " ws))).
Proof. intros Hf Hd Hl Ht Hn Hnd Hs Hr Hlw Hw. destruct (file_scan _ _ _ _ _ _ _ Hf Hd Hl Ht Hn Hnd Hs Hr) as (p & Hp & He & Hwd & Htm).
  exists p. split; [exact Hp|]. intros d Hdp Ha Hain Hi Hatt Hat Hdiv HI. rewrite <- Hdp in *.
  rewrite <- (intensity_attenuated to_float d names rows _ a Hnd Hwd Hi Hatt Hat Hdiv) in HI.
  rewrite (load_contents to_float d _ names rows (join " " ws) None None He Hnd Hwd Ha Hain Hi (Htm _ _ _ Hlw Hw) _ HI).
  unfold trim2, finish, scan_new, replace_zeros. rewrite map_map. reflexivity. Qed.

Lemma load_no_time depth file prelude bs b names rows :
  spec_file file prelude bs -> (List.length bs < depth)%nat -> last_block bs b ->
  holds_table to_float b names rows -> names <> [] -> NoDup names -> ~ starts_with_any "#L " (join "  " names) -> rows <> [] ->
  last_with "#D" (b_body b) = None ->
  exists p, spec_parser depth file = Ok p /\ forall d tf tb, ld_parser d = p -> (forall a, In a (ld_angles d) -> In a names) ->
    load_scan to_float d (Z.of_N (b_number b)) tf tb = Raise KeyError.
Proof. intros Hf Hd Hl Ht Hn Hnd Hs Hr Hlw. destruct (file_scan _ _ _ _ _ _ _ Hf Hd Hl Ht Hn Hnd Hs Hr) as (p & Hp & He & Hwd & _).
  exists p. split; [exact Hp|]. intros d tf tb Hdp Hain. rewrite load_scan_raw. unfold load_raw. rewrite Hdp, He. cbn [bind t_names].
  rewrite (proj2 (contains_counters_iff _ _) Hain). cbn [negb].
  destruct (entry_contents _ _ _ _ _ Hf Hd Hl) as (p' & e & Hp' & Hg & _ & _ & Htm). rewrite Hp in Hp'. injection Hp' as <-.
  rewrite Hlw in Htm. rewrite Hg, Htm. reflexivity. Qed.
End Whole.
