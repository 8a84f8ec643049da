(** Lemmas about scan commands and the loader for FIO files. *)
From Coq Require Import Reals Lra Sorted.
From Verif Require Import Py Str Arr Footprint_Model Scan_Model Spec_Model Fio_Model P08_Model Footprint_Proofs Scan_Proofs
  SpecFile_Spec SpecLoader_Spec FioFile_Spec P08_Spec P08Scan_Spec Spec_Proofs SpecLoader_Proofs Fio_Proofs P08_Proofs P08Loader_Proofs.
Local Open Scope R_scope.
Local Open Scope string_scope.

(** ** Words of a command *)
Lemma contains_empty sub : sub <> "" -> contains sub "" = false.
Proof. intros H. destruct (contains sub "") eqn:E; [|reflexivity]. apply contains_iff in E as (a & b & E). destruct a; [|discriminate]. destruct sub; [congruence|discriminate]. Qed.
Lemma solid_no_space_char sub c : solid sub -> is_space c = true -> has_char c sub = false.
Proof. intros [_ H] Hc. apply (no_char_forall c _ _ H). rewrite Hc. reflexivity. Qed.
Lemma contains_blank sub pre s : solid sub -> blank pre -> contains sub (pre ++ s) = contains sub s.
Proof. intros Hs Hp. unfold blank in Hp. induction pre as [|c pre IH]; [reflexivity|]. cbn [str_forall] in Hp. apply andb_true_iff in Hp as [H1 H2].
  change (String c pre ++ s) with ("" ++ String c (pre ++ s)). rewrite contains_sep by (apply Hs || apply solid_no_space_char; assumption). rewrite contains_empty by apply Hs. cbn [orb]. apply IH, H2. Qed.
Lemma contains_words sub ws s : solid sub -> words_of ws s -> contains sub s = existsb (contains sub) ws.
Proof. intros Hs W. induction W as [s Hb|pre w ws rest Hp Hw W IH Hr].
  - cbn [existsb]. rewrite <- (append_nil_r s). rewrite contains_blank by assumption. apply contains_empty, Hs.
  - cbn [existsb]. rewrite contains_blank by assumption. destruct Hr as [-> |(c & r & -> & Hc)].
    + rewrite append_nil_r. rewrite <- IH, contains_empty by apply Hs. rewrite orb_false_r. reflexivity.
    + rewrite contains_sep by (apply Hs || apply solid_no_space_char; assumption). f_equal. rewrite <- IH.
      symmetry. apply (contains_blank sub (String c "") r Hs). unfold blank. cbn [str_forall]. rewrite Hc. reflexivity. Qed.
Lemma contains_trans a b s : contains a b = true -> contains b s = true -> contains a s = true.
Proof. rewrite !contains_iff. intros (x & y & ->) (u & v & ->). exists (u ++ x), (y ++ v). rewrite !append_assoc. reflexivity. Qed.
Lemma command_contains sub kind args cmd : scan_command kind args cmd -> solid sub -> contains "scan" sub = true -> contains sub cmd = contains sub kind.
Proof. intros [W F] Hs Hc. rewrite (contains_words _ _ _ Hs W). cbn [existsb]. replace (existsb (contains sub) args) with false; [apply orb_false_r|]. symmetry.
  clear W. induction F as [|w args Hw F IH]; [reflexivity|]. cbn [existsb]. rewrite IH. destruct (contains sub w) eqn:E; [|reflexivity]. rewrite (contains_trans _ _ _ Hc E) in Hw. discriminate. Qed.
Ltac solid_word := split; [discriminate|reflexivity].
Ltac command_word H := repeat (rewrite (command_contains _ _ _ _ H) by (solid_word || reflexivity)).
Lemma motors_1 kind m more cmd d : kind = "ascan" \/ kind = "dscan" -> scan_command kind (m :: more) cmd ->
  command_motors cmd d = (c <- data_col d m ;; Ok ([m], [c])).
Proof. intros K H. unfold command_motors. command_word H. pose proof (split_ws_words _ _ (proj1 H)) as E. rewrite E.
  destruct K as [-> | ->].
  - change (contains "lscan" "ascan") with false. change (contains "kscan" "ascan") with false. change (contains "hscan" "ascan") with false. change (contains "hklscan" "ascan") with false. change (contains "ascan" "ascan") with true.
    cbn [andb orb]. change (py_get ("ascan" :: m :: more) 1) with (py_get ("ascan" :: m :: more) (Z.of_nat 1)). rewrite (py_get_nat ("ascan" :: m :: more) 1 (x := m) eq_refl). cbn [bind mapM]. destruct (data_col d m); reflexivity.
  - change (contains "lscan" "dscan") with false. change (contains "kscan" "dscan") with false. change (contains "hscan" "dscan") with false. change (contains "hklscan" "dscan") with false. change (contains "ascan" "dscan") with false. change (contains "dscan" "dscan") with true.
    cbn [andb orb]. change (py_get ("dscan" :: m :: more) 1) with (py_get ("dscan" :: m :: more) (Z.of_nat 1)). rewrite (py_get_nat ("dscan" :: m :: more) 1 (x := m) eq_refl). cbn [bind mapM]. destruct (data_col d m); reflexivity. Qed.
Lemma motors_2 kind m1 a b m2 more cmd d : kind = "a2scan" \/ kind = "d2scan" -> scan_command kind (m1 :: a :: b :: m2 :: more) cmd ->
  command_motors cmd d = (c1 <- data_col d m1 ;; c2 <- data_col d m2 ;; Ok ([m1; m2], [c1; c2])).
Proof. intros K H. unfold command_motors. command_word H. pose proof (split_ws_words _ _ (proj1 H)) as E. rewrite E.
  change 1%Z with (Z.of_nat 1). change 4%Z with (Z.of_nat 4).
  rewrite (py_get_nat (kind :: m1 :: a :: b :: m2 :: more) 1 (x := m1) eq_refl), (py_get_nat (kind :: m1 :: a :: b :: m2 :: more) 4 (x := m2) eq_refl).
  destruct K as [-> | ->]; match goal with |- context [contains "lscan" ?k] => 
    change (contains "lscan" k) with false; change (contains "kscan" k) with false; change (contains "hscan" k) with false; change (contains "hklscan" k) with false;
    change (contains "ascan" k) with false; change (contains "dscan" k) with false end; cbn [andb orb].
  - change (contains "a2scan" "a2scan") with true. cbn [orb bind mapM]. destruct (data_col d m1); [|reflexivity]. cbn [bind]. destruct (data_col d m2); reflexivity.
  - change (contains "d2scan" "d2scan") with true. rewrite orb_true_r. cbn [orb bind mapM]. destruct (data_col d m1); [|reflexivity]. cbn [bind]. destruct (data_col d m2); reflexivity. Qed.
Lemma motors_3 kind m1 a b m2 a' b' m3 more cmd d : kind = "a3scan" \/ kind = "d3scan" -> scan_command kind (m1 :: a :: b :: m2 :: a' :: b' :: m3 :: more) cmd ->
  command_motors cmd d = (c1 <- data_col d m1 ;; c2 <- data_col d m2 ;; c3 <- data_col d m3 ;; Ok ([m1; m2; m3], [c1; c2; c3])).
Proof. intros K H. unfold command_motors. command_word H. pose proof (split_ws_words _ _ (proj1 H)) as E. rewrite E.
  change 1%Z with (Z.of_nat 1). change 4%Z with (Z.of_nat 4). change 7%Z with (Z.of_nat 7).
  rewrite (py_get_nat (kind :: m1 :: a :: b :: m2 :: a' :: b' :: m3 :: more) 1 (x := m1) eq_refl), (py_get_nat (kind :: m1 :: a :: b :: m2 :: a' :: b' :: m3 :: more) 4 (x := m2) eq_refl), (py_get_nat (kind :: m1 :: a :: b :: m2 :: a' :: b' :: m3 :: more) 7 (x := m3) eq_refl).
  destruct K as [-> | ->]; match goal with |- context [contains "lscan" ?k] => 
    change (contains "lscan" k) with false; change (contains "kscan" k) with false; change (contains "hscan" k) with false; change (contains "hklscan" k) with false;
    change (contains "ascan" k) with false; change (contains "dscan" k) with false; change (contains "a2scan" k) with false; change (contains "d2scan" k) with false end; cbn [andb orb].
  - change (contains "a3scan" "a3scan") with true. cbn [orb bind mapM]. destruct (data_col d m1); [|reflexivity]. cbn [bind]. destruct (data_col d m2); [|reflexivity]. cbn [bind]. destruct (data_col d m3); reflexivity.
  - change (contains "d3scan" "d3scan") with true. rewrite orb_true_r. cbn [orb bind mapM]. destruct (data_col d m1); [|reflexivity]. cbn [bind]. destruct (data_col d m2); [|reflexivity]. cbn [bind]. destruct (data_col d m3); reflexivity. Qed.

(** ** The kind of scan *)
Lemma theta_words p ws cmd : words_of ws cmd -> In (fp_theta p) ws -> In (fp_two_theta p) ws -> solid (fp_theta p) -> solid (fp_two_theta p) ->
  is_theta2theta p (Some cmd) = Ok true.
Proof. intros W H1 H2 S1 S2. unfold is_theta2theta. rewrite (contains_words _ _ _ S1 W), (contains_words _ _ _ S2 W).
  assert (C : forall s, contains s s = true) by (intros s; apply contains_iff; exists "", ""; rewrite append_nil_r; reflexivity).
  replace (existsb (contains (fp_theta p)) ws) with true by (symmetry; apply existsb_exists; exists (fp_theta p); auto).
  replace (existsb (contains (fp_two_theta p)) ws) with true by (symmetry; apply existsb_exists; exists (fp_two_theta p); auto). reflexivity. Qed.
Lemma theta_iff p ws cmd : words_of ws cmd -> solid (fp_theta p) -> solid (fp_two_theta p) ->
  (is_theta2theta p (Some cmd) = Ok true <-> (exists w, In w ws /\ contains (fp_theta p) w = true) /\ (exists w, In w ws /\ contains (fp_two_theta p) w = true)).
Proof. intros W S1 S2. unfold is_theta2theta. rewrite (contains_words _ _ _ S1 W), (contains_words _ _ _ S2 W). rewrite <- !existsb_exists. rewrite <- andb_true_iff.
  split; [intros E; injection E as E; exact E|intros ->; reflexivity]. Qed.

Lemma motors_hkl kind args cmd d : scan_command kind args cmd ->
  (kind = "hscan" -> command_motors cmd d = (c <- data_col d "kozhue6cctrl_h" ;; Ok (["h"], [c]))) /\
  (kind = "kscan" -> command_motors cmd d = (c <- data_col d "kozhue6cctrl_k" ;; Ok (["k"], [c]))) /\
  (kind = "lscan" -> command_motors cmd d = (c <- data_col d "kozhue6cctrl_l" ;; Ok (["l"], [c]))) /\
  (kind = "hklscan" -> command_motors cmd d =
     (h <- data_col d "kozhue6cctrl_h" ;; k <- data_col d "kozhue6cctrl_k" ;; l <- data_col d "kozhue6cctrl_l" ;; Ok (["h"; "k"; "l"], [h; k; l]))).
Proof. intros H. unfold command_motors. command_word H. repeat split; intros ->.
  - change (contains "lscan" "hscan") with false. change (contains "kscan" "hscan") with false. change (contains "hscan" "hscan") with true. cbn [andb mapM bind]. destruct (data_col d "kozhue6cctrl_h"); reflexivity.
  - change (contains "lscan" "kscan") with false. change (contains "kscan" "kscan") with true. cbn [andb mapM bind]. destruct (data_col d "kozhue6cctrl_k"); reflexivity.
  - change (contains "lscan" "lscan") with true. change (contains "hklscan" "lscan") with false. cbn [andb negb mapM bind]. destruct (data_col d "kozhue6cctrl_l"); reflexivity.
  - change (contains "lscan" "hklscan") with true. change (contains "hklscan" "hklscan") with true. change (contains "kscan" "hklscan") with false. change (contains "hscan" "hklscan") with false.
    cbn [andb negb mapM bind]. destruct (data_col d "kozhue6cctrl_h"); [|reflexivity]. cbn [bind]. destruct (data_col d "kozhue6cctrl_k"); [|reflexivity]. cbn [bind]. destruct (data_col d "kozhue6cctrl_l"); reflexivity. Qed.

(** ** Momentum transfer *)
Lemma calc_q_ok s e i pos : dict_get String.eqb (f_motors s) "energyfmb" = Some (Some e) -> e <> 0 ->
  In "om" (f_motor_names s) -> position "tt" (f_motor_names s) = Some i -> nth_error (f_positions s) i = Some pos ->
  exists s', calc_q s = Ok s' /\ f_motor_names s' = (f_motor_names s ++ ["q"])%list /\
    f_positions s' = (f_positions s ++ [map (option_map (fun a => 4 * PI / (12380 / e) * sin (a / 2 * PI / 180))) pos])%list /\ f_data s' = f_data s /\ f_images s' = f_images s.
Proof. intros He Hne Hom Hp Hpos. unfold calc_q, fio_wavelength. rewrite He. rewrite py_div_Ok by exact Hne. cbn [bind].
  assert (W : 12380 / e <> 0) by (unfold Rdiv; apply Rmult_integral_contrapositive_currified; [lra|apply Rinv_neq_0_compat, Hne]).
  rewrite py_div_Ok by exact W. cbn [bind].
  assert (Itt : existsb (String.eqb "tt") (f_motor_names s) = true).
  { clear - Hp. revert i Hp. induction (f_motor_names s) as [|x l IH]; intros i Hp; [discriminate|]. cbn [position existsb] in *. rewrite String.eqb_sym. destruct (String.eqb x "tt"); [reflexivity|].
    destruct (position "tt" l) as [j|]; [|discriminate]. exact (IH j eq_refl). }
  assert (Iom : existsb (String.eqb "om") (f_motor_names s) = true) by (apply existsb_exists; exists "om"; split; [exact Hom|reflexivity]).
  rewrite Itt, Iom. cbn [andb]. rewrite Hp, (py_get_nat _ _ Hpos). cbn [bind]. eexists. split; [reflexivity|]. cbn [f_motor_names f_positions f_data f_images]. repeat split.
  f_equal. f_equal. apply map_ext. intros [a|]; [|reflexivity]. cbn [option_map fmul lift2]. unfold fmul. cbn [lift2]. f_equal. unfold Rdiv. ring. Qed.
Lemma scan_q_nonzero s : sc_wavelength s <> 0 -> scan_q s = Ok (map (fun a => fmul (Some (4 * PI / sc_wavelength s)) (fhalf_sin a)) (sc_angle s)).
Proof. intros H. unfold scan_q. rewrite py_div_Ok by exact H. reflexivity. Qed.
Lemma half_sin_eq k a : fmul (Some k) (fhalf_sin (Some a)) = Some (k * sin (a / 2 * PI / 180)).
Proof. reflexivity. Qed.

(** ** Trimming and several scans *)
Section Load.
Variable to_float : string -> option fl.
Variable fs : disk.
Variable m : media.
Definition fio_raw (d : fio_loader) (n : Z) (roi : option (list Z)) (det : string) : res (list fl * list fl * R) :=
  ' (s, ok) <- extract_fio to_float fs m (fl_parser d) n ;;
  if negb ok then Raise NotReflectivityScanError else
  w <- fio_wavelength (f_motors s) ;;
  wavelength <- match w with Some x => Ok x | None => Raise ValueError end ;;
  angle <- data_col (f_data s) (fl_two_theta d) ;;
  intensity <- fio_intensity d s angle roi det ;;
  intensity <- match fl_division d with None => Ok intensity | Some _ => Raise TypeError end ;;
  Ok (angle, intensity, wavelength).
Definition fio_finish (d : fio_loader) (n : Z) (x : list fl * list fl * R) : scan :=
  let '(a, i, w) := x in scan_new n a i w (Some (fl_beam d)) (Some (fl_sample d)) (Some (fl_shape d)) (fl_norm d) None.
Definition fio_trim (tf tb : option Z) (x : list fl * list fl * R) : list fl * list fl * R :=
  let '(angle, intensity, w) := x in
  let '(angle, intensity) :=
    match tb with Some b => (trim_back b angle, trim_back b intensity) | None => (angle, intensity) end in
  let '(angle, intensity) :=
    match tf with Some f => (trim_front f angle, trim_front f intensity) | None => (angle, intensity) end in
  (angle, intensity, w).
Lemma fio_load_raw d n tf tb roi det : fio_load_scan to_float fs m d n tf tb roi det = rmap (fun x => fio_finish d n (fio_trim tf tb x)) (fio_raw d n roi det).
Proof. unfold fio_load_scan, fio_raw. destruct (extract_fio to_float fs m (fl_parser d) n) as [[s ok]|e]; [|reflexivity]. cbn [bind]. destruct (negb ok); [reflexivity|].
  destruct (fio_wavelength (f_motors s)) as [w|]; [|reflexivity]. cbn [bind]. destruct w as [w|]; [|reflexivity]. cbn [bind].
  destruct (data_col (f_data s) (fl_two_theta d)) as [a|]; [|reflexivity]. cbn [bind]. destruct (fio_intensity d s a roi det) as [i|]; [|reflexivity]. cbn [bind].
  destruct (fl_division d); [reflexivity|]. cbn [bind rmap]. destruct tb, tf; reflexivity. Qed.
Lemma fio_finish_crop d n f b x : fio_finish d n (let '(a, i, t) := x in (crop f b a, crop f b i, t)) = cropped f b (fio_finish d n x).
Proof. destruct x as [[a i] t]. unfold fio_finish, cropped, scan_new. cbn [sc_number sc_angle sc_raw sc_wavelength sc_beam sc_sample sc_shape sc_norm sc_time].
  f_equal. unfold replace_zeros. apply crop_map. Qed.
Lemma fio_crop d n f b tf tb roi det : (forall x, fio_trim tf tb x = let '(a, i, t) := x in (crop f b a, crop f b i, t)) ->
  fio_load_scan to_float fs m d n tf tb roi det = rmap (cropped f b) (fio_load_scan to_float fs m d n None None roi det).
Proof. intros H. rewrite !fio_load_raw. destruct (fio_raw d n roi det) as [x|e]; [|reflexivity]. cbn [rmap]. f_equal. rewrite H.
  rewrite fio_finish_crop. f_equal. destruct x as [[a i] t]. reflexivity. Qed.
Lemma fio_trimmed d n (f b : nat) roi det : (0 < b)%nat ->
  fio_load_scan to_float fs m d n (trim_arg f) (trim_arg b) roi det = rmap (cropped f b) (fio_load_scan to_float fs m d n None None roi det) /\
  fio_load_scan to_float fs m d n (trim_arg f) None roi det = rmap (cropped f 0) (fio_load_scan to_float fs m d n None None roi det) /\
  fio_load_scan to_float fs m d n None (trim_arg b) roi det = rmap (cropped 0 b) (fio_load_scan to_float fs m d n None None roi det).
Proof. intros H. split; [|split]; apply fio_crop; intros [[a i] t]; unfold fio_trim, trim_arg.
  - rewrite !crop_trim by exact H. reflexivity.
  - rewrite !crop_front. reflexivity.
  - rewrite !crop_back by exact H. reflexivity. Qed.
Lemma fio_trim_zero d n tf roi det s : fio_load_scan to_float fs m d n tf (trim_arg 0) roi det = Ok s -> sc_angle s = [] /\ sc_raw s = [].
Proof. rewrite fio_load_raw. destruct (fio_raw d n roi det) as [[[a i] t]|e]; [|discriminate]. cbn [rmap]. intros E. injection E as <-.
  unfold fio_trim, trim_arg. change (Z.of_nat 0) with 0%Z. rewrite !trim_back_zero. destruct tf as [z|]; [|split; reflexivity].
  assert (T : forall A, trim_front z (@nil A) = []) by (intros A; unfold trim_front, py_slice; cbn [List.length]; rewrite skipn_nil, firstn_nil; reflexivity).
  rewrite !T. split; reflexivity. Qed.
Lemma fio_scans_accepted d tf tb roi ns l :
  fio_load_scans to_float fs m d ns tf tb roi = Ok l <-> accepted (fun n => fio_load_scan to_float fs m d n tf tb roi "p100k") ns l.
Proof. exact (collect_accepted (fun n => fio_load_scan to_float fs m d n tf tb roi "p100k") ns l). Qed.
Lemma fio_scans_error d tf tb roi ns e :
  fio_load_scans to_float fs m d ns tf tb roi = Raise e <->
  exists before n after l, ns = (before ++ n :: after)%list /\ accepted (fun n => fio_load_scan to_float fs m d n tf tb roi "p100k") before l /\
    fio_load_scan to_float fs m d n tf tb roi "p100k" = Raise e /\ e <> NotReflectivityScanError.
Proof. exact (collect_error (fun n => fio_load_scan to_float fs m d n tf tb roi "p100k") ns e). Qed.
Lemma fio_missing d n tf tb roi det : dict_get String.eqb fs (scan_path (fl_parser d) n) = None ->
  fio_load_scan to_float fs m d n tf tb roi det = Raise FileNotFoundError.
Proof. intros H. unfold fio_load_scan, extract_fio, scan_load, read_fio. rewrite H. reflexivity. Qed.
Lemma fio_division d n c roi det : fl_division d = Some c -> forall tf tb s, fio_load_scan to_float fs m d n tf tb roi det <> Ok s.
Proof. intros H tf tb s. unfold fio_load_scan. destruct (extract_fio to_float fs m (fl_parser d) n) as [[sc ok]|e]; [|discriminate]. cbn [bind]. destruct (negb ok); [discriminate|].
  destruct (fio_wavelength (f_motors sc)) as [w|]; [|discriminate]. cbn [bind]. destruct w as [w|]; [|discriminate]. cbn [bind].
  destruct (data_col (f_data sc) (fl_two_theta d)) as [a|]; [|discriminate]. cbn [bind]. destruct (fio_intensity d sc a roi det) as [i|]; [|discriminate]. cbn [bind]. rewrite H. discriminate. Qed.
End Load.

(** ** From the file to the loaded scan *)
Lemma columns_get names rows name : NoDup names -> In name names -> Forall (fun r => List.length r = List.length names) rows ->
  dict_get String.eqb (columns_data names rows) name = Some (map (fun r => value names r name) rows).
Proof. intros Hd Hi Hw. destruct (position_value (fun _ => None) names Hd name Hi) as (j & P & J & K).
  assert (G : forall l k, position name l = Some j -> dict_get String.eqb (map (fun nj => (fst nj, column (snd nj) rows)) (combine l (seq k (List.length l)))) name = Some (column (k + j) rows)).
  { clear. intros l. revert j. induction l as [|x l IH]; intros j k H; [discriminate|]. cbn [position] in H. cbn [List.length seq combine map fst snd dict_get].
    destruct (String.eqb x name); [injection H as <-; rewrite Nat.add_0_r; reflexivity|]. destruct (position name l) as [i|]; [|discriminate]. injection H as <-.
    rewrite (IH i (S k) eq_refl). do 2 f_equal. lia. }
  unfold columns_data. rewrite (G names 0%nat P). cbn [Nat.add]. f_equal. unfold column. apply map_ext_in. intros r Hr. rewrite Forall_forall in Hw. apply K, Hw, Hr. Qed.
Lemma image_stack_fields m s s1 : load_image_stack m s = Ok s1 -> f_data s1 = f_data s /\ f_motors s1 = f_motors s /\ f_command s1 = f_command s /\
  f_motor_names s1 = f_motor_names s /\ f_positions s1 = f_positions s.
Proof. unfold load_image_stack. match goal with |- (bind ?x _ = _) -> _ => destruct x as [i|] end; [|discriminate]. cbn [bind]. intros E. injection E as <-. repeat split. Qed.
Section Loaded.
Variable to_float : string -> option fl.
Variable fs : disk.
Variable m : media.
Lemma no_mark names mark : no_pictures names -> In mark ["lambda"; "p100k"; "eiger"; "mythint"; "mythmax"; "mythroi1"; "mythroi2"] -> forall n, In n names -> contains mark n = false.
Proof. intros Np Hm n Hn. destruct (contains mark n) eqn:E; [|reflexivity]. exfalso. exact (Np n mark Hn Hm (proj1 (contains_iff mark n) E)). Qed.
Lemma bare_detectors names det : no_pictures names -> In det ["lambda"; "p100k"; "eiger"; "mythen"] -> existsb (String.eqb det) (detectors_of names) = false.
Proof. intros Np Hd. destruct (existsb (String.eqb det) (detectors_of names)) eqn:E; [|reflexivity]. exfalso.
  apply existsb_exists in E. destruct E as (d' & Hd' & E'). apply String.eqb_eq in E'. subst d'. unfold detectors_of in Hd'. apply filter_In in Hd'. destruct Hd' as [_ H].
  apply existsb_exists in H. destruct H as (n & Hn & H). unfold detector_of in H.
  rewrite (no_mark names "lambda" Np ltac:(cbn; tauto) n Hn), (no_mark names "p100k" Np ltac:(cbn; tauto) n Hn), (no_mark names "eiger" Np ltac:(cbn; tauto) n Hn), (no_mark names "mythint" Np ltac:(cbn; tauto) n Hn),
    (no_mark names "mythmax" Np ltac:(cbn; tauto) n Hn), (no_mark names "mythroi1" Np ltac:(cbn; tauto) n Hn), (no_mark names "mythroi2" Np ltac:(cbn; tauto) n Hn) in H. cbn [orb] in H.
  destruct (contains "p300k" n); [|destruct (contains "pe_roi" n || contains "pe_trigger" n)%bool]; try discriminate; apply String.eqb_eq in H; subst det; cbn in Hd; intuition discriminate. Qed.
Lemma bare_images names s : no_pictures names -> f_detectors s = detectors_of names -> load_image_stack m s = Ok s.
Proof. intros Np E. unfold load_image_stack. rewrite E. cbn [foldM].
  rewrite (bare_detectors names "lambda" Np ltac:(cbn; tauto)), (bare_detectors names "p100k" Np ltac:(cbn; tauto)), (bare_detectors names "eiger" Np ltac:(cbn; tauto)), (bare_detectors names "mythen" Np ltac:(cbn; tauto)).
  cbn [bind]. destruct s. reflexivity. Qed.
Lemma fio_loaded d n file before comments params columns lines names ms rs rows cmd kind m1 a b m2 more s1 e I :
  dict_get String.eqb fs (scan_path (fl_parser d) n) = Some file ->
  fio_layout file before comments params columns lines -> table_layout columns lines names -> param_block to_float params ms rs ->
  NoDup (map fst ms) -> NoDup (map fst rs) ->
  Forall2 (number_line to_float) lines rows -> Forall (fun row => List.length row = List.length names) rows -> rows <> [] ->
  command_of comments = Some cmd -> kind = "a2scan" \/ kind = "d2scan" -> scan_command kind (m1 :: a :: b :: m2 :: more) cmd ->
  In (fp_theta (fl_parser d)) [m1; m2] -> In (fp_two_theta (fl_parser d)) [m1; m2] -> In m1 names -> In m2 names ->
  (forall rois, load_image_stack m (mkFscan (rsplit_head "." (last_part "/" (scan_path (fl_parser d) n))) (rsplit_head "/" (scan_path (fl_parser d) n)) (Some cmd) ms
     (columns_data names rows) rois [m1; m2] [map (fun r => value names r m1) rows; map (fun r => value names r m2) rows] (detectors_of names) [] None false) = Ok (s1 rois)) ->
  In ("energyfmb", Some e) ms -> e <> 0 -> In (fl_two_theta d) names -> In (fl_roi_name d) names -> fl_division d = None ->
  match fl_attenuator d with
  | None => I = map (fun r => value names r (fl_roi_name d)) rows
  | Some at_ => In at_ names /\ correct_discontinuities (map (fun r => fmul (value names r (fl_roi_name d)) (value names r at_)) rows) (map (fun r => value names r (fl_two_theta d)) rows) = Ok I
  end ->
  forall det, fio_load_scan to_float fs m d n None None None det =
    Ok (mkScan n (map (fun r => nonzero (value names r (fl_two_theta d))) rows) I (12380 / e) (Some (fl_beam d)) (Some (fl_sample d)) (Some (fl_shape d)) (fl_norm d) None).
Proof. intros Hf L T B Nm Nr F W R Hc K Hs Ht H2 I1 I2 Him He Hne Hang Hroi Hdiv Hi det.
  pose proof T as (_ & _ & Nn & _).
  destruct (round_trip to_float _ _ _ _ _ _ _ _ _ _ L T B Nm Nr F W R) as (r & Er & Rm & Rn & Rc & _ & _ & _ & Rd).
  fold (columns_data names rows) in Rd.
  unfold fio_load_scan, extract_fio, scan_load, read_fio. rewrite Hf, Er. cbn [bind]. rewrite Rc, Hc. cbn [bind]. rewrite (motors_2 kind m1 a b m2 more cmd _ K Hs). rewrite Rd.
  unfold data_col at 1. rewrite (columns_get _ _ _ Nn I1 W). cbn [bind]. unfold data_col at 1. rewrite (columns_get _ _ _ Nn I2 W). cbn [bind]. rewrite Rm, Rn. rewrite Him. cbn [bind].
  destruct (image_stack_fields _ _ _ (Him (r_rois r))) as (Ed & Em & Ec & _ & _). cbn [f_data f_motors f_command] in Ed, Em, Ec. rewrite Ec.
  assert (So : forall w, In w (kind :: m1 :: a :: b :: m2 :: more) -> solid w).
  { destruct Hs as [Hw _]. clear - Hw. induction Hw as [|pre w ws rest Hp Hw W IH Hr]; intros x Hx; [destruct Hx|]. destruct Hx as [<- |Hx]; [exact Hw|exact (IH x Hx)]. }
  assert (Sub : forall w, In w [m1; m2] -> In w (kind :: m1 :: a :: b :: m2 :: more)) by (intros w [<- |[<- |[]]]; cbn; tauto).
  rewrite (theta_words (fl_parser d) _ cmd (proj1 Hs) (Sub _ Ht) (Sub _ H2) (So _ (Sub _ Ht)) (So _ (Sub _ H2))). cbn [bind negb].
  unfold fio_wavelength. rewrite Em. rewrite (dict_get_pair _ _ _ Nm He). rewrite py_div_Ok by exact Hne. cbn [bind]. rewrite Ed.
  unfold data_col at 1. rewrite (columns_get _ _ _ Nn Hang W). cbn [bind]. unfold fio_intensity. rewrite Ed. unfold data_col at 1. rewrite (columns_get _ _ _ Nn Hroi W). cbn [bind].
  destruct (fl_attenuator d) as [at_|].
  - destruct Hi as [Ha Hi]. unfold data_col at 1. rewrite (columns_get _ _ _ Nn Ha W). cbn [bind]. unfold apply_attenuation.
    rewrite vec_op_same by (rewrite !map_length; reflexivity). cbn [bind].
    replace (map (fun xy => fmul (fst xy) (snd xy)) (combine (map (fun r0 => value names r0 (fl_roi_name d)) rows) (map (fun r0 => value names r0 at_) rows)))
      with (map (fun r0 => fmul (value names r0 (fl_roi_name d)) (value names r0 at_)) rows)
      by (clear; induction rows as [|x l IH]; [reflexivity|]; cbn [map combine fst snd]; f_equal; exact IH).
    rewrite Hi. cbn [bind]. rewrite Hdiv. cbn [bind]. unfold scan_new, replace_zeros. rewrite map_map. reflexivity.
  - subst I. rewrite Hdiv. cbn [bind]. unfold scan_new, replace_zeros. rewrite map_map. reflexivity. Qed.
Lemma fio_loaded_bare d n file before comments params columns lines names ms rs rows cmd kind m1 a b m2 more e I :
  dict_get String.eqb fs (scan_path (fl_parser d) n) = Some file ->
  fio_layout file before comments params columns lines -> table_layout columns lines names -> param_block to_float params ms rs ->
  NoDup (map fst ms) -> NoDup (map fst rs) ->
  Forall2 (number_line to_float) lines rows -> Forall (fun row => List.length row = List.length names) rows -> rows <> [] ->
  command_of comments = Some cmd -> kind = "a2scan" \/ kind = "d2scan" -> scan_command kind (m1 :: a :: b :: m2 :: more) cmd ->
  In (fp_theta (fl_parser d)) [m1; m2] -> In (fp_two_theta (fl_parser d)) [m1; m2] -> In m1 names -> In m2 names ->
  no_pictures names ->
  In ("energyfmb", Some e) ms -> e <> 0 -> In (fl_two_theta d) names -> In (fl_roi_name d) names -> fl_division d = None ->
  match fl_attenuator d with
  | None => I = map (fun r => value names r (fl_roi_name d)) rows
  | Some at_ => In at_ names /\ correct_discontinuities (map (fun r => fmul (value names r (fl_roi_name d)) (value names r at_)) rows) (map (fun r => value names r (fl_two_theta d)) rows) = Ok I
  end ->
  forall det, fio_load_scan to_float fs m d n None None None det =
    Ok (mkScan n (map (fun r => nonzero (value names r (fl_two_theta d))) rows) I (12380 / e) (Some (fl_beam d)) (Some (fl_sample d)) (Some (fl_shape d)) (fl_norm d) None).
Proof. intros Hf L T B Nm Nr F W R Hc K Hs Ht H2 I1 I2 Np He Hne Hang Hroi Hdiv Hi det.
  refine (fio_loaded d n file before comments params columns lines names ms rs rows cmd kind m1 a b m2 more
    (fun rois => mkFscan (rsplit_head "." (last_part "/" (scan_path (fl_parser d) n))) (rsplit_head "/" (scan_path (fl_parser d) n)) (Some cmd) ms
     (columns_data names rows) rois [m1; m2] [map (fun r => value names r m1) rows; map (fun r => value names r m2) rows] (detectors_of names) [] None false) e I
    Hf L T B Nm Nr F W R Hc K Hs Ht H2 I1 I2 _ He Hne Hang Hroi Hdiv Hi det).
  intros rois. apply (bare_images names); [exact Np|reflexivity]. Qed.
Lemma no_stack_loaded s : (forall det, In det ["lambda"; "p100k"; "eiger"; "mythen"] -> ~ In det (f_detectors s)) -> load_image_stack m s = Ok s.
Proof. intros H. unfold load_image_stack.
  assert (E : forall det, In det ["lambda"; "p100k"; "eiger"; "mythen"] -> existsb (String.eqb det) (f_detectors s) = false).
  { intros det Hd. destruct (existsb _ _) eqn:E; [exfalso|reflexivity]. apply existsb_exists in E as (x & H1 & H2). apply String.eqb_eq in H2. subst x. exact (H det Hd H1). }
  cbn [foldM]. rewrite !E by (cbn; tauto). cbn [bind]. destruct s; reflexivity. Qed.
Lemma only_pilatus s x : (forall det, In det ["lambda"; "eiger"; "mythen"] -> ~ In det (f_detectors s)) -> In "p100k" (f_detectors s) -> f_removed s = None ->
  load_pilatus m (f_dir s) (f_name s) "p100k" (f_data s) = Ok x -> load_image_stack m s = Ok (set_images (dict_set String.eqb (f_images s) "p100k" x) s).
Proof. intros H Hp Hr E. unfold load_image_stack.
  assert (G : forall det, In det ["lambda"; "eiger"; "mythen"] -> existsb (String.eqb det) (f_detectors s) = false).
  { intros det Hd. destruct (existsb _ _) eqn:Q; [exfalso|reflexivity]. apply existsb_exists in Q as (y & H1 & H2). apply String.eqb_eq in H2. subst y. exact (H det Hd H1). }
  assert (P : existsb (String.eqb "p100k") (f_detectors s) = true) by (apply existsb_exists; exists "p100k"; split; [exact Hp|reflexivity]).
  cbn [foldM]. rewrite (G "lambda") by (cbn; tauto). cbn [bind]. rewrite P. unfold load_detector. change (String.eqb "p100k" "lambda") with false. change (String.eqb "p100k" "p100k") with true. cbv iota.
  rewrite E, Hr. cbn [bind remove_double_fromstack]. rewrite (G "eiger"), (G "mythen") by (cbn; tauto). reflexivity. Qed.
End Loaded.

(** ** Folders *)
Lemma mapM_fails {A B} (f : A -> res B) l x e : In x l -> f x = Raise e -> exists e', mapM f l = Raise e'.
Proof. intros H E. induction l as [|y l IH]; [destruct H|]. cbn [mapM]. destruct H as [->|H].
  - rewrite E. exists e. reflexivity.
  - destruct (f y) as [b|e']; [cbn [bind]|exists e'; reflexivity]. destruct (IH H) as [e' ->]. exists e'. reflexivity. Qed.
Lemma foldM_fails {A S'} (f : S' -> A -> res S') l x : In x l -> (forall s, exists e, f s x = Raise e) -> forall s, exists e, foldM f s l = Raise e.
Proof. intros H E. induction l as [|y l IH]; [destruct H|]. intros s. cbn [foldM]. destruct H as [->|H].
  - destruct (E s) as [e ->]. exists e. reflexivity.
  - destruct (f s y) as [b|e']; [cbn [bind]; apply IH, H|exists e'; reflexivity]. Qed.
Lemma split_absent sep s : contains sep s = false -> forall fuel, split_on fuel sep s = [s].
Proof. intros H fuel. revert s H. induction fuel as [|fuel IH]; intros s H; [reflexivity|]. cbn [split_on]. destruct s as [|c s].
  - cbn [contains] in H. apply orb_false_iff in H as [-> _]. reflexivity.
  - cbn [contains] in H. apply orb_false_iff in H as [-> H]. rewrite IH by exact H. reflexivity. Qed.
Section Folder.
Variable to_float : string -> option fl.
Variable fs : disk.
Lemma other_file p path : In path (map fst fs) -> in_reach (fp_stem p) path -> contains (fp_stem p ++ "_") path = false ->
  exists e, scan_numbers fs p = Raise e /\ fio_parser_new to_float fs (fp_stem p) (fp_theta p) (fp_two_theta p) = Raise e.
Proof. intros I R C. assert (H : In path (fio_path_list fs p)) by (apply path_list_In; split; assumption).
  destruct (mapM_fails (fun file => part <- py_get (split_str (fp_stem p ++ "_") file) 1 ;; py_int (strip_chars ".fio" part)) (fio_path_list fs p) path IndexError H) as [e E].
  - unfold split_str. rewrite split_absent by exact C. reflexivity.
  - assert (E' : scan_numbers fs p = Raise e) by exact E. exists e. split; [exact E'|]. unfold fio_parser_new, number_of_scans, scan_info. destruct p as [stem th tt]. cbn [fp_stem fp_theta fp_two_theta] in *. rewrite E'. reflexivity. Qed.
Lemma scan_info_from p : forall ns paths pre, Forall2 (fun n path => exists h c, read_fio to_float fs path = Ok h /\ r_command h = Some c) ns paths ->
  NoDup (map fst pre ++ map Z.of_N ns) ->
  exists info, foldM (fun d '(n, file) => h <- read_fio to_float fs file ;; b <- is_theta2theta p (r_command h) ;; Ok (dict_set Z.eqb d n (file, h, b))) pre (combine (map Z.of_N ns) paths) = Ok (pre ++ info)%list /\
    Forall2 (fun np e => listed to_float fs p (fst np) (snd np) e) (combine ns paths) info /\ map fst info = map Z.of_N ns.
Proof. intros ns paths pre F. revert pre. induction F as [|n path ns paths (h & c & Hr & Hc) F IH]; intros pre N.
  - exists []. cbn. rewrite app_nil_r. repeat split. constructor.
  - cbn [map combine foldM]. rewrite Hr. cbn [bind]. rewrite Hc. unfold is_theta2theta at 1. cbn [bind].
    rewrite (dict_set_fresh Z.eqb Z.eqb_eq).
    2: { cbn [map] in N. apply NoDup_remove_2 in N. intros H. apply N, in_or_app. left. exact H. }
    edestruct IH as (info & E & L & K); [|].
    2: { eexists (_ :: info). split; [refine (eq_trans E _); rewrite <- app_assoc; reflexivity|]. split.
      - constructor; [|exact L]. exists h, (contains (fp_theta p) c && contains (fp_two_theta p) c). split; [reflexivity|]. split; [exact Hr|]. rewrite Hc. reflexivity.
      - cbn [map fst]. rewrite K. reflexivity. }
    rewrite map_app, <- app_assoc. exact N. Qed.
Lemma folder_ok p : (forall path, In path (map fst fs) -> in_reach (fp_stem p) path -> exists n, numeric_name (fp_stem p) n path) ->
  (forall path, In path (map fst fs) -> in_reach (fp_stem p) path -> exists h c, read_fio to_float fs path = Ok h /\ r_command h = Some c) ->
  (forall n path path', In path (map fst fs) -> In path' (map fst fs) -> numeric_name (fp_stem p) n path -> numeric_name (fp_stem p) n path' -> path = path') -> NoDup (map fst fs) ->
  exists ns info, Forall2 (numeric_name (fp_stem p)) ns (fio_path_list fs p) /\ NoDup ns /\ scan_info to_float fs p = Ok info /\ map fst info = map Z.of_N ns /\
    Forall2 (fun np e => listed to_float fs p (fst np) (snd np) e) (combine ns (fio_path_list fs p)) info /\
    number_of_scans to_float fs p = Ok (List.length (fio_path_list fs p)) /\
    fio_parser_new to_float fs (fp_stem p) (fp_theta p) (fp_two_theta p) = Ok p.
Proof. intros Hn Hr Hu Nd. destruct (scan_numbers_ok fs p Hn) as (ns & E & F).
  assert (Np : NoDup (fio_path_list fs p)).
  { unfold fio_path_list. eapply Permutation.Permutation_NoDup; [apply sort_perm|]. unfold globbed. apply NoDup_filter, Nd. }
  assert (Ip : forall path, In path (fio_path_list fs p) -> In path (map fst fs)) by (intros path H; apply path_list_In in H; apply H).
  assert (Nn : NoDup ns).
  { revert Np Ip. clear - F Hu. induction F as [|n path ns paths H F IH]; intros Np Ip; constructor.
    - intros H'. inversion Np as [|? ? N1 N2]; subst. apply N1. assert (exists path', In path' paths /\ numeric_name (fp_stem p) n path') as (path' & I1 & I2).
      { clear - F H'. induction F as [|m q ns paths H F IH]; [destruct H'|]. destruct H' as [->|H']; [exists q; split; [left; reflexivity|exact H]|]. destruct (IH H') as (p' & ? & ?). exists p'. split; [right|]; assumption. }
      rewrite (Hu n path path'); [exact I1|apply Ip; left; reflexivity|apply Ip; right; exact I1|exact H|exact I2].
    - inversion Np as [|? ? N1 N2]; subst. apply IH; [exact N2|]. intros q Hq. apply Ip. right. exact Hq. }
  destruct (scan_info_from p ns (fio_path_list fs p) []) as (info & E2 & L & K).
  - clear - F Hr. assert (G : forall path, In path (fio_path_list fs p) -> exists h c, read_fio to_float fs path = Ok h /\ r_command h = Some c) by (intros path H; apply path_list_In in H; apply Hr; apply H).
    revert G. induction F as [|n path ns paths H F IH]; intros G; constructor; [apply G; left; reflexivity|]. apply IH. intros q Hq. apply G. right. exact Hq.
  - cbn. apply FinFun.Injective_map_NoDup; [|exact Nn]. intros a b. apply N2Z.inj.
  - exists ns, info. assert (I : scan_info to_float fs p = Ok info) by (unfold scan_info; rewrite E; exact E2). repeat (split; [assumption|]).
    split; [unfold number_of_scans; rewrite I; cbn [bind]; f_equal; rewrite <- (map_length fst info), K, map_length; exact (Forall2_len F)|].
    unfold fio_parser_new, number_of_scans. destruct p as [stem th tt]. cbn [fp_stem fp_theta fp_two_theta] in *. rewrite I. reflexivity. Qed.
Lemma no_command p path h : (forall path, In path (map fst fs) -> in_reach (fp_stem p) path -> exists n, numeric_name (fp_stem p) n path) ->
  In path (map fst fs) -> in_reach (fp_stem p) path -> read_fio to_float fs path = Ok h -> r_command h = None ->
  exists e, fio_parser_new to_float fs (fp_stem p) (fp_theta p) (fp_two_theta p) = Raise e.
Proof. intros Hn I R E C. destruct (scan_numbers_ok fs p Hn) as (ns & En & F).
  assert (H : In path (fio_path_list fs p)) by (apply path_list_In; split; assumption).
  assert (P : exists n, In (Z.of_N n, path) (combine (map Z.of_N ns) (fio_path_list fs p))).
  { clear - F H. induction F as [|n q ns paths Hq F IH]; [destruct H|]. cbn [map combine]. destruct H as [->|H]; [exists n; left; reflexivity|]. destruct (IH H) as (m & Hm). exists m. right. exact Hm. }
  destruct P as (n & P). destruct (foldM_fails (fun d '(n, file) => h <- read_fio to_float fs file ;; b <- is_theta2theta p (r_command h) ;; Ok (dict_set Z.eqb d n (file, h, b))) _ _ P) with (s := @nil (Z * (string * reader * bool))) as (e & Ee).
  - intros s. rewrite E. cbn [bind]. rewrite C. exists TypeError. reflexivity.
  - exists e. unfold fio_parser_new, number_of_scans, scan_info. destruct p as [stem th tt]. cbn [fp_stem fp_theta fp_two_theta] in *. rewrite En. cbn [bind]. rewrite Ee. reflexivity. Qed.
End Folder.
Lemma wavelengths_differ (motors : list (string * fl)) e : dict_get String.eqb motors "energyfmb" = Some (Some e) -> e <> 0 ->
  exists w w', fio_wavelength motors = Ok (Some w) /\ energy_to_wavelength e = Ok w' /\ w = 12380 / 12398 * w' /\ w <> w'.
Proof. intros H N. exists (12380 / e), (12398 / 10000 / e * 10000). unfold fio_wavelength, energy_to_wavelength. rewrite H, !py_div_Ok by exact N. cbn [bind].
  split; [reflexivity|]. split; [reflexivity|]. split; [field; exact N|]. intros E. assert (E' : 12380 = 12398).
  { apply (f_equal (fun z => z * e)) in E. replace (12380 / e * e) with 12380 in E by (field; exact N). replace (12398 / 10000 / e * 10000 * e) with 12398 in E by (field; exact N). exact E. } lra. Qed.
Lemma calc_q_scan s e i pos sc : dict_get String.eqb (f_motors s) "energyfmb" = Some (Some e) -> e <> 0 ->
  In "om" (f_motor_names s) -> position "tt" (f_motor_names s) = Some i -> nth_error (f_positions s) i = Some pos ->
  sc_wavelength sc = 12380 / e -> sc_angle sc = pos ->
  exists s' q, calc_q s = Ok s' /\ scan_q sc = Ok q /\ f_positions s' = (f_positions s ++ [q])%list.
Proof. intros H N O T P W A. destruct (calc_q_ok s e i pos H N O T P) as (s' & E & _ & Ep & _). assert (Nw : sc_wavelength sc <> 0).
  { rewrite W. unfold Rdiv. apply Rmult_integral_contrapositive_currified; [lra|apply Rinv_neq_0_compat, N]. }
  exists s'. eexists. split; [exact E|]. split; [exact (scan_q_nonzero sc Nw)|]. rewrite Ep, A, W. f_equal. f_equal. apply map_ext. intros [a|]; [|reflexivity]. rewrite half_sin_eq. reflexivity. Qed.
