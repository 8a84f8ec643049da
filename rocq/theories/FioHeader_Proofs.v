(** Lemmas about the header entries of FIO files and reading the header only. *)
From Coq Require Import Reals Lra DecimalString.
From Verif Require Import Py Str Arr Footprint_Model Spec_Model Fio_Model Scan_Proofs SpecFile_Spec FioFile_Spec FioHeader_Spec Spec_Proofs SpecLoader_Proofs Fio_Proofs.
Local Open Scope string_scope.

(** ** Small letters *)
Definition letters := list_ascii_of_string "abcdefghijklmnopqrstuvwxyz".
Lemma capital_lower c d : capital_of c d -> lower_char c = d.
Proof. intros (i & H1 & H2). do 26 (destruct i as [|i]; [cbn in H1, H2; injection H1 as <-; injection H2 as <-; reflexivity|]). discriminate H1. Qed.
Lemma small_lower d : In d letters -> lower_char d = d.
Proof. cbn. intros H. repeat destruct H as [<-|H]; try reflexivity. destruct H. Qed.
Lemma lower_small c d : In d letters -> lower_char c = d -> c = d \/ capital_of c d.
Proof. intros Hd H.
  assert (K : forallb (fun x => forallb (fun y => negb (Ascii.eqb (lower_char x) y) || Ascii.eqb x y ||
     existsb (fun i => match String.get i "ABCDEFGHIJKLMNOPQRSTUVWXYZ", String.get i "abcdefghijklmnopqrstuvwxyz" with Some a, Some b => Ascii.eqb a x && Ascii.eqb b y | _, _ => false end) (seq 0 26)) letters)
     (map ascii_of_nat (seq 0 256)) = true) by (vm_compute; reflexivity).
  rewrite forallb_forall in K. specialize (K c). rewrite forallb_forall in K.
  assert (Hc : In c (map ascii_of_nat (seq 0 256))).
  { apply in_map_iff. exists (nat_of_ascii c). split; [apply ascii_nat_embedding|]. apply in_seq. pose proof (nat_ascii_bounded c). lia. }
  specialize (K Hc d Hd). apply orb_true_iff in K as [K|K]; [apply orb_true_iff in K as [K|K]|].
  - apply negb_true_iff, Ascii.eqb_neq in K. contradiction.
  - left. apply Ascii.eqb_eq, K.
  - right. apply existsb_exists in K as (i & _ & K). exists i. destruct (String.get i _) as [a|]; [|discriminate]. destruct (String.get i _) as [b|]; [|discriminate].
    apply andb_true_iff in K as [K1 K2]. apply Ascii.eqb_eq in K1, K2. subst. split; reflexivity. Qed.
Lemma spelled_lower key : Forall (fun d => In d letters) (list_ascii_of_string key) -> forall s, spelled s key <-> lower s = key.
Proof. unfold lower. induction key as [|d key IH]; cbn [list_ascii_of_string]; intros F s.
  - split; [inversion 1; reflexivity|]. destruct s; [constructor|discriminate].
  - inversion F as [|? ? Fd Fk]; subst. split.
    + inversion 1 as [|c ? s' ? Hc Hs]; subst. cbn [map_string]. f_equal; [|apply IH; assumption].
      destruct Hc as [->|Hc]; [apply small_lower, Fd|apply capital_lower, Hc].
    + destruct s as [|c s]; [discriminate|]. cbn [map_string]. intros H. injection H as Hc Hs. constructor; [apply lower_small; assumption|apply IH; assumption]. Qed.
Lemma small_word l : forallb (fun d => existsb (Ascii.eqb d) letters) l = true -> Forall (fun d => In d letters) l.
Proof. intros H. rewrite forallb_forall in H. apply Forall_forall. intros d Hd. apply H in Hd. apply existsb_exists in Hd as (x & Hx & E). apply Ascii.eqb_eq in E. subst. exact Hx. Qed.
Lemma spelled_ub s : spelled s "ubmatrix" <-> lower s = "ubmatrix".
Proof. apply spelled_lower, small_word. reflexivity. Qed.
Lemma spelled_signal s : spelled s "signalcounter" <-> lower s = "signalcounter".
Proof. apply spelled_lower, small_word. reflexivity. Qed.

(** ** Positions and slices *)
Lemma map_string_app f a b : map_string f (a ++ b) = map_string f a ++ map_string f b.
Proof. induction a as [|c a IH]; [reflexivity|]. cbn [append map_string]. rewrite IH. reflexivity. Qed.
Lemma replace_none a b s : has_char a s = false -> replace_char a b s = s.
Proof. unfold replace_char. induction s as [|c s IH]; cbn [has_char map_string]; [reflexivity|]. intros H. apply orb_false_iff in H as [H1 H2]. rewrite IH by exact H2. rewrite Ascii.eqb_sym, H1. reflexivity. Qed.
Lemma replace_has a b x s : x <> b -> has_char x s = false -> has_char x (replace_char a b s) = false.
Proof. intros N. unfold replace_char. induction s as [|c s IH]; cbn [has_char map_string]; [reflexivity|]. intros H. apply orb_false_iff in H as [H1 H2]. rewrite (IH H2), orb_false_r.
  destruct (Ascii.eqb c a); [apply Ascii.eqb_neq, N|exact H1]. Qed.
Definition zlen (s : string) : Z := Z.of_nat (String.length s).
Lemma length_app a b : String.length (a ++ b) = (String.length a + String.length b)%nat.
Proof. induction a as [|c a IH]; [reflexivity|]. cbn [append String.length]. rewrite IH. reflexivity. Qed.
Lemma positions_app c a b : forall i, char_positions c i (a ++ b) = (char_positions c i a ++ char_positions c (i + zlen a) b)%list.
Proof. unfold zlen. induction a as [|d a IH]; intros i; cbn [append char_positions String.length]; [rewrite Z.add_0_r; reflexivity|].
  rewrite IH. replace (i + 1 + Z.of_nat (String.length a))%Z with (i + Z.of_nat (S (String.length a)))%Z by lia. destruct (Ascii.eqb d c); reflexivity. Qed.
Lemma positions_none c s : has_char c s = false -> forall i, char_positions c i s = [].
Proof. induction s as [|d s IH]; intros H i; [reflexivity|]. cbn [has_char] in H. apply orb_false_iff in H as [H1 H2]. cbn [char_positions]. rewrite Ascii.eqb_sym, H1. apply IH, H2. Qed.
Lemma list_ascii_app a b : list_ascii_of_string (a ++ b) = (list_ascii_of_string a ++ list_ascii_of_string b)%list.
Proof. induction a as [|c a IH]; [reflexivity|]. cbn. f_equal. exact IH. Qed.
Lemma list_ascii_length s : List.length (list_ascii_of_string s) = String.length s.
Proof. induction s as [|c s IH]; [reflexivity|]. cbn. f_equal. exact IH. Qed.
Lemma slice_mid a b c : str_slice (a ++ b ++ c) (Some (zlen a)) (Some (zlen a + zlen b)%Z) = b.
Proof. unfold str_slice, py_slice, zlen. rewrite !list_ascii_app, !app_length, !list_ascii_length.
  replace (clamp_idx (String.length a + (String.length b + String.length c)) (Z.of_nat (String.length a))) with (String.length a) by (unfold clamp_idx; destruct (Z.ltb_spec (Z.of_nat (String.length a)) 0); lia).
  replace (clamp_idx (String.length a + (String.length b + String.length c)) (Z.of_nat (String.length a) + Z.of_nat (String.length b))) with (String.length a + String.length b)%nat
    by (unfold clamp_idx; destruct (Z.ltb_spec (Z.of_nat (String.length a) + Z.of_nat (String.length b)) 0); lia).
  replace (String.length a + String.length b - String.length a)%nat with (String.length b) by lia.
  rewrite <- (list_ascii_length a), <- (list_ascii_length b), skipn_app, skipn_all, Nat.sub_diag. cbn [app skipn].
  rewrite firstn_app, firstn_all, Nat.sub_diag. cbn [firstn]. rewrite app_nil_r. apply string_of_list_ascii_of_string. Qed.

Definition cnt (c : ascii) (s : string) : nat := List.length (char_positions c 0 s).
Lemma cnt_from c s : forall i, List.length (char_positions c i s) = cnt c s.
Proof. unfold cnt. induction s as [|d s IH]; intros i; [reflexivity|]. cbn [char_positions]. destruct (Ascii.eqb d c); cbn [List.length]; rewrite (IH (i + 1)%Z), (IH (0 + 1)%Z); reflexivity. Qed.
Lemma cnt_app c a b : cnt c (a ++ b) = (cnt c a + cnt c b)%nat.
Proof. unfold cnt at 1. rewrite positions_app, app_length, !cnt_from. reflexivity. Qed.
Lemma cnt_none c s : has_char c s = false -> cnt c s = 0%nat.
Proof. intros H. unfold cnt. rewrite positions_none by exact H. reflexivity. Qed.
Lemma position_at c a b k : cnt c a = k -> py_get (char_positions c 0 (a ++ String c b)) (Z.of_nat k) = Ok (zlen a).
Proof. intros <-. apply py_get_nat. rewrite positions_app, nth_error_app2 by (apply Nat.le_refl). unfold cnt. rewrite Nat.sub_diag. cbn [char_positions]. rewrite Ascii.eqb_refl. cbn [nth_error]. rewrite Z.add_0_l. reflexivity. Qed.

Ltac congruence_sum := repeat match goal with H : cnt ?c ?x = _ |- context [cnt ?c ?x] => rewrite H end; reflexivity.

Section Header.
Variable to_float : string -> option fl.
Local Notation step := (step to_float).
Local Notation param_line := (param_line to_float).

(** ** The UB matrix *)
Lemma bracket_row a t b r (k : nat) : cnt "[" a = S k -> cnt "]" a = k -> has_char "[" t = false -> has_char "]" t = false -> number_line to_float t r ->
  let s := a ++ "[" ++ t ++ "]" ++ b in ub_row to_float s (char_positions "[" 0 s) (char_positions "]" 0 s) (Z.of_nat k) = Ok r.
Proof. intros HO HC T1 T2 (ws & W & F) s. unfold ub_row.
  replace (Z.of_nat k + 1)%Z with (Z.of_nat (S k)) by lia.
  assert (E1 : py_get (char_positions "[" 0 s) (Z.of_nat (S k)) = Ok (zlen a)) by (apply position_at, HO).
  assert (E2 : py_get (char_positions "]" 0 s) (Z.of_nat k) = Ok (zlen (a ++ "[") + zlen t)%Z).
  { unfold s. replace (a ++ "[" ++ t ++ "]" ++ b) with ((a ++ "[" ++ t) ++ String "]" b) by (rewrite ?append_assoc; reflexivity).
    rewrite position_at with (k := k); [unfold zlen; rewrite !length_app; apply (f_equal Ok); lia|]. rewrite !cnt_app, HC, (cnt_none "]" t T2). cbn. lia. }
  rewrite E1, E2. cbn [bind]. replace (zlen a + 1)%Z with (zlen (a ++ "[")) by (unfold zlen; rewrite length_app; cbn [String.length]; lia).
  unfold s. replace (a ++ "[" ++ t ++ "]" ++ b) with ((a ++ "[") ++ t ++ ("]" ++ b)) by (rewrite ?append_assoc; reflexivity).
  rewrite slice_mid, (split_ws_words _ _ W). apply (parse_cells to_float), F. Qed.
Lemma bracketed g0 g1 t1 g2 t2 g3 t3 tail r1 r2 r3 : between g0 -> between g1 -> between g2 -> between g3 -> row_text to_float t1 r1 -> row_text to_float t2 r2 -> row_text to_float t3 r3 ->
  let s := g0 ++ "[" ++ g1 ++ "[" ++ t1 ++ "]" ++ g2 ++ "[" ++ t2 ++ "]" ++ g3 ++ "[" ++ t3 ++ "]" ++ tail in
  mapM (ub_row to_float s (char_positions "[" 0 s) (char_positions "]" 0 s)) [0%Z; 1%Z; 2%Z] = Ok [r1; r2; r3].
Proof. intros (A0 & B0 & _) (A1 & B1 & _) (A2 & B2 & _) (A3 & B3 & _) ((C1 & D1 & _) & _ & W1) ((C2 & D2 & _) & _ & W2) ((C3 & D3 & _) & _ & W3) s.
  assert (O : cnt "[" "[" = 1%nat /\ cnt "]" "[" = 0%nat /\ cnt "[" "]" = 0%nat /\ cnt "]" "]" = 1%nat) by (repeat split; reflexivity). destruct O as (O1 & O2 & O3 & O4).
  pose proof (cnt_none "[" _ A0). pose proof (cnt_none "]" _ B0). pose proof (cnt_none "[" _ A1). pose proof (cnt_none "]" _ B1).
  pose proof (cnt_none "[" _ A2). pose proof (cnt_none "]" _ B2). pose proof (cnt_none "[" _ A3). pose proof (cnt_none "]" _ B3).
  pose proof (cnt_none "[" _ C1). pose proof (cnt_none "]" _ D1). pose proof (cnt_none "[" _ C2). pose proof (cnt_none "]" _ D2).
  assert (R1 := bracket_row (g0 ++ "[" ++ g1) t1 (g2 ++ "[" ++ t2 ++ "]" ++ g3 ++ "[" ++ t3 ++ "]" ++ tail) r1 0 ltac:(rewrite !cnt_app; congruence_sum) ltac:(rewrite !cnt_app; congruence_sum) C1 D1 W1).
  assert (R2 := bracket_row (g0 ++ "[" ++ g1 ++ "[" ++ t1 ++ "]" ++ g2) t2 (g3 ++ "[" ++ t3 ++ "]" ++ tail) r2 1 ltac:(rewrite !cnt_app; congruence_sum) ltac:(rewrite !cnt_app; congruence_sum) C2 D2 W2).
  assert (R3 := bracket_row (g0 ++ "[" ++ g1 ++ "[" ++ t1 ++ "]" ++ g2 ++ "[" ++ t2 ++ "]" ++ g3) t3 tail r3 2 ltac:(rewrite !cnt_app; congruence_sum) ltac:(rewrite !cnt_app; congruence_sum) C3 D3 W3).
  assert (E1 : (g0 ++ "[" ++ g1) ++ "[" ++ t1 ++ "]" ++ g2 ++ "[" ++ t2 ++ "]" ++ g3 ++ "[" ++ t3 ++ "]" ++ tail = s) by (unfold s; do 9 (cbn [append]; rewrite ?append_assoc); reflexivity).
  assert (E2 : (g0 ++ "[" ++ g1 ++ "[" ++ t1 ++ "]" ++ g2) ++ "[" ++ t2 ++ "]" ++ g3 ++ "[" ++ t3 ++ "]" ++ tail = s) by (unfold s; do 9 (cbn [append]; rewrite ?append_assoc); reflexivity).
  assert (E3 : (g0 ++ "[" ++ g1 ++ "[" ++ t1 ++ "]" ++ g2 ++ "[" ++ t2 ++ "]" ++ g3) ++ "[" ++ t3 ++ "]" ++ tail = s) by (unfold s; do 9 (cbn [append]; rewrite ?append_assoc); reflexivity).
  cbv zeta in R1, R2, R3. rewrite E1 in R1. rewrite E2 in R2. rewrite E3 in R3. clear E1 E2 E3. clearbody s.
  cbn [mapM]. change 0%Z with (Z.of_nat 0) at 3. rewrite R1. cbn [bind]. change 1%Z with (Z.of_nat 1). rewrite R2. cbn [bind]. change 2%Z with (Z.of_nat 2). rewrite R3. reflexivity. Qed.

(** ** Lines of the parameter block *)
Lemma between_replace g : between g -> between (replace_char ";" "," g).
Proof. intros (H1 & H2 & H3). repeat split; apply replace_has; assumption || discriminate. Qed.
Lemma spelled_nonempty key s : spelled s key -> key <> "" -> s <> "".
Proof. destruct 1; [auto|discriminate]. Qed.
Lemma left_nonempty left key : spelled (strip left) key -> key <> "" -> left <> "".
Proof. intros H N -> . inversion H. congruence. Qed.
Lemma rstrip_lstrip p s : rstrip_by p (lstrip_by p (rstrip_by p s)) = rstrip_by p (lstrip_by p s).
Proof. induction s as [|c s IH]; [reflexivity|]. destruct (p c) eqn:E.
  - cbn [rstrip_by lstrip_by]. rewrite E. destruct (rstrip_by p s) as [|d t]; [cbn in *; exact IH|]. cbn [lstrip_by] in *. rewrite E. exact IH.
  - assert (N : lstrip_by p (rstrip_by p (String c s)) = rstrip_by p (String c s)) by (cbn [rstrip_by]; rewrite E; destruct (rstrip_by p s); cbn [lstrip_by]; rewrite E; reflexivity).
    rewrite N, rstrip_by_idem. cbn [lstrip_by]. rewrite E. reflexivity. Qed.
Lemma strip_rstrip s : strip (rstrip s) = strip s.
Proof. apply rstrip_lstrip. Qed.
Lemma param_signal l text r : signal_definition to_float l text -> param_line l r = set_signal text r.
Proof. intros [left right H1 H2 H3 H4]. unfold Fio_Model.param_line. rewrite has_equals_app by (eapply left_nonempty; [exact H2|discriminate]). cbn [negb].
  rewrite split_equals by assumption. rewrite H4, strip_lstrip. apply spelled_signal in H2. rewrite H2. cbn [String.eqb Ascii.eqb Bool.eqb].
  rewrite strip_rstrip. reflexivity. Qed.
Lemma param_ub l m r : ub_definition to_float l m -> param_line l r = set_ubmatrix m r.
Proof. intros [left g0 g1 t1 g2 t2 g3 t3 tail r1 r2 r3 H1 H2 G0 G1 G2 G3 HT T1 T2 T3 HN].
  set (right := g0 ++ "[" ++ g1 ++ "[" ++ t1 ++ "]" ++ g2 ++ "[" ++ t2 ++ "]" ++ g3 ++ "[" ++ t3 ++ "]" ++ tail) in *.
  assert (HR : has_char "=" right = false).
  { unfold right. rewrite !has_char_app, HT, (proj2 (proj2 G0)), (proj2 (proj2 G1)), (proj2 (proj2 G2)), (proj2 (proj2 G3)), (proj2 (proj2 (proj1 T1))), (proj2 (proj2 (proj1 T2))), (proj2 (proj2 (proj1 T3))). reflexivity. }
  unfold Fio_Model.param_line. rewrite has_equals_app by (eapply left_nonempty; [exact H2|discriminate]). cbn [negb].
  rewrite split_equals by assumption. rewrite HN, strip_lstrip. apply spelled_ub in H2. rewrite H2. cbn [String.eqb Ascii.eqb Bool.eqb].
  enough (E : ub_matrix to_float (left ++ "=" ++ right) = Ok [r1; r2; r3]) by (rewrite E; reflexivity).
  unfold ub_matrix. set (f := replace_char ";" ",").
  assert (EF : f (left ++ "=" ++ right) = f left ++ "=" ++ f right) by (unfold f, replace_char; rewrite !map_string_app; reflexivity). rewrite EF. clear EF.
  rewrite split_equals by (apply replace_has; assumption || discriminate).
  change 1%Z with (Z.of_nat 1). rewrite (py_get_nat [lstrip (f left); rstrip (f right)] 1 (x := rstrip (f right)) eq_refl). cbn [bind].
  assert (ER : rstrip (f right) = f g0 ++ "[" ++ f g1 ++ "[" ++ t1 ++ "]" ++ f g2 ++ "[" ++ t2 ++ "]" ++ f g3 ++ "[" ++ t3 ++ "]" ++ rstrip (f tail)).
  { assert (EF : f right = (f g0 ++ "[" ++ f g1 ++ "[" ++ t1 ++ "]" ++ f g2 ++ "[" ++ t2 ++ "]" ++ f g3 ++ "[" ++ t3) ++ String "]" (f tail)).
    { rewrite <- (replace_none ";" "," t1), <- (replace_none ";" "," t2), <- (replace_none ";" "," t3) by (apply T1 || apply T2 || apply T3).
      unfold right, f, replace_char. rewrite !map_string_app. do 9 (cbn [append map_string Ascii.eqb Bool.eqb]; rewrite ?append_assoc). reflexivity. }
    rewrite EF. unfold rstrip. rewrite rstrip_app by reflexivity. do 9 (cbn [append]; rewrite ?append_assoc); reflexivity. }
  rewrite ER. apply bracketed; try assumption; apply between_replace; assumption. Qed.

(** Other lines keep the entries. *)
Lemma lstrip_decomp s : exists pre, blank pre /\ s = pre ++ lstrip s.
Proof. unfold blank, lstrip. induction s as [|c s (pre & H & E)]; [exists ""; split; reflexivity|]. cbn [lstrip_by]. destruct (is_space c) eqn:Ec.
  - exists (String c pre). cbn [str_forall append]. rewrite Ec, H. split; [reflexivity|]. f_equal. exact E.
  - exists "". split; reflexivity. Qed.
Lemma rstrip_decomp s : exists post, blank post /\ s = rstrip s ++ post.
Proof. unfold blank, rstrip. induction s as [|c s (post & H & E)]; [exists ""; split; reflexivity|]. cbn [rstrip_by].
  destruct (rstrip_by is_space s) as [|d t] eqn:Et.
  - cbn in E. subst s. destruct (is_space c) eqn:Ec; [exists (String c post); cbn [str_forall]; rewrite Ec, H; split; reflexivity|exists post; split; [exact H|reflexivity]].
  - exists post. split; [exact H|]. cbn [append]. f_equal. exact E. Qed.
Lemma strip_decomp s : exists pre post, blank pre /\ blank post /\ s = pre ++ strip s ++ post.
Proof. destruct (lstrip_decomp s) as (pre & Hp & E). destruct (rstrip_decomp (lstrip s)) as (post & Hq & E'). exists pre, post. split; [exact Hp|]. split; [exact Hq|].
  unfold strip. rewrite <- E'. exact E. Qed.
Lemma split_char_inv c s k v more : split_char c s = k :: v :: more -> exists rest, s = k ++ String c rest /\ has_char c k = false.
Proof. revert k v more. induction s as [|d s IH]; cbn [split_char]; intros k v more H; [discriminate|]. destruct (Ascii.eqb d c) eqn:E.
  - apply Ascii.eqb_eq in E. subst d. injection H as <- H. exists s. split; reflexivity.
  - destruct (split_char c s) as [|k' [|v' m']] eqn:Es; [discriminate|injection H as _ H; discriminate|]. injection H as <- <- <-.
    destruct (IH k' v' m' eq_refl) as (rest & -> & Hk). exists rest. split; [reflexivity|]. cbn [has_char]. rewrite Ascii.eqb_sym, E. exact Hk. Qed.
Lemma key_found l k v more key : split_char "=" (strip l) = k :: v :: more -> spelled (strip k) key -> has_key key l.
Proof. intros H K. destruct (split_char_inv _ _ _ _ _ H) as (rest & E & Hk). destruct (strip_decomp l) as (pre & post & Hp & Hq & El).
  exists (pre ++ k), (rest ++ post). split; [rewrite El, E; do 3 (cbn [append]; rewrite ?append_assoc); reflexivity|]. split.
  - rewrite has_char_app, Hk, (blank_no_char "=" pre Hp) by reflexivity. reflexivity.
  - unfold strip. rewrite lstrip_blank by exact Hp. exact K. Qed.
Lemma keeps_ub l r : ~ has_key "ubmatrix" l -> r_ubmatrix (param_line l r) = r_ubmatrix r.
Proof. intros N. unfold Fio_Model.param_line. destruct (negb (has_equals l)); [reflexivity|]. destruct (split_char "=" (strip l)) as [|k [|v more]] eqn:Es; [reflexivity|reflexivity|].
  destruct (to_float v); [reflexivity|]. destruct (String.eqb_spec (lower (strip k)) "ubmatrix") as [E|_]; [exfalso; apply N; eapply key_found; [exact Es|apply spelled_ub, E]|].
  destruct (String.eqb (lower (strip k)) "signalcounter"); [reflexivity|]. destruct (contains "roi" (strip k)); [|reflexivity]. destruct (roi_line to_float k v) as [[? ?]|]; reflexivity. Qed.
Lemma keeps_signal l r : ~ has_key "signalcounter" l -> r_signal (param_line l r) = r_signal r.
Proof. intros N. unfold Fio_Model.param_line. destruct (negb (has_equals l)); [reflexivity|]. destruct (split_char "=" (strip l)) as [|k [|v more]] eqn:Es; [reflexivity|reflexivity|].
  destruct (to_float v); [reflexivity|]. destruct (String.eqb (lower (strip k)) "ubmatrix"); [destruct (ub_matrix to_float l); reflexivity|].
  destruct (String.eqb_spec (lower (strip k)) "signalcounter") as [E|_]; [exfalso; apply N; eapply key_found; [exact Es|apply spelled_signal, E]|].
  destruct (contains "roi" (strip k)); [|reflexivity]. destruct (roi_line to_float k v) as [[? ?]|]; reflexivity. Qed.

(** ** Any parameter block *)
Definition all_params (ls : list string) (r : reader) : reader := fold_left (fun r l => param_line l r) ls r.
Lemma all_params_other ls : forall r, r_columns (all_params ls r) = r_columns r /\ r_names (all_params ls r) = r_names r /\
  r_data (all_params ls r) = r_data r /\ r_command (all_params ls r) = r_command r /\ r_section (all_params ls r) = r_section r.
Proof. induction ls as [|l ls IH]; intros r; [auto|]. cbn [all_params fold_left]. destruct (IH (param_line l r)) as (E1 & E2 & E3 & E4 & E5). destruct (param_line_other to_float l r) as (F1 & F2 & F3 & F4 & F5).
  fold (all_params ls (param_line l r)). repeat split; congruence. Qed.
Lemma steps_all_params ls : forall r, Forall plain ls -> r_section r = Params -> foldM step r ls = Ok (all_params ls r).
Proof. induction ls as [|l ls IH]; intros r P S; [reflexivity|]. inversion P as [|? ? Hl Hls]; subst. cbn [foldM]. rewrite plain_step by exact Hl. rewrite S. cbn [bind].
  apply IH; [exact Hls|]. destruct (param_line_other to_float l r) as (_ & _ & _ & _ & E). rewrite E. exact S. Qed.
Lemma entry_kept {A} (field : reader -> A) (good : string -> Prop) ls : (forall l r, good l -> field (param_line l r) = field r) -> Forall good ls -> forall r, field (all_params ls r) = field r.
Proof. intros K. induction 1 as [|l ls Hl H IH]; intros r; [reflexivity|]. cbn [all_params fold_left]. fold (all_params ls (param_line l r)). rewrite IH. apply K, Hl. Qed.
(** The state after the parameter block *)
Definition header_state (comments params : list string) : reader :=
  all_params params (mkReader [] Params false [] (command_of comments) None None [] []).
Definition whole_state (comments params names rows : list string) : reader :=
  let h := header_state comments params in
  mkReader (r_motors h) Data (match rows with [] => false | _ => true end) names (command_of comments) (r_ubmatrix h) (r_signal h) (r_rois h) (match rows with [] => [] | _ => table_data to_float names 0 (map split_ws rows) end).
Lemma read_any file before comments params columns rows names :
  fio_layout file before comments params columns rows -> table_layout columns rows names -> read to_float false file = Ok (whole_state comments params names rows).
Proof. intros (c & p & d & E & Hc & [Hp1 Hp2] & (Hd1 & Hd2 & Hd3) & Pb & Pc & Pp & Pco & Pr) (T1 & T2 & T3 & T4).
  rewrite read_step, foldM_significant, E. rewrite foldM_app, steps_before by (assumption || reflexivity). cbn [bind].
  cbn [foldM]. unfold Fio_Proofs.step at 1, Fio_Model.read_line. rewrite Hc. cbn [bind].
  rewrite foldM_app. rewrite steps_comments by (assumption || reflexivity). cbn [bind foldM]. unfold Fio_Proofs.step at 1, Fio_Model.read_line. rewrite Hp1, Hp2. cbn [bind].
  rewrite foldM_app. rewrite steps_all_params by (assumption || reflexivity). cbn [bind foldM]. unfold Fio_Proofs.step at 1, Fio_Model.read_line. rewrite Hd1, Hd2, Hd3. cbn [bind].
  match goal with |- context [all_params params ?r] => replace (all_params params r) with (header_state comments params) by (unfold header_state; f_equal; destruct (command_of comments); reflexivity) end.
  destruct (all_params_other params (mkReader [] Params false [] (command_of comments) None None [] [])) as (F1 & F2 & F3 & F4 & F5). fold (header_state comments params) in *. cbn [r_columns r_names r_data r_command r_section] in F1, F2, F3, F4, F5.
  rewrite foldM_app. rewrite (steps_columns _ _ _ T1); [|exact Pco|reflexivity|exact F1]. cbn [bind].
  unfold with_names, set_section. cbn [r_names r_motors r_section r_columns r_command r_ubmatrix r_signal r_rois r_data]. rewrite F1, F2, F3, F4. cbn [app].
  rewrite steps_rows; [|exact Pr|reflexivity|reflexivity|reflexivity|exact T3|exact T2|exact T4].
  unfold whole_state. destruct rows; reflexivity. Qed.

(** The last definition counts. *)
Lemma signal_of comments ps1 l ps2 text : signal_definition to_float l text -> Forall (fun l => ~ has_key "signalcounter" l) ps2 -> r_signal (header_state comments (ps1 ++ l :: ps2)) = Some text.
Proof. intros D N. unfold header_state, all_params. rewrite fold_left_app. cbn [fold_left]. rewrite (param_signal _ _ _ D).
  match goal with |- r_signal (fold_left _ ps2 ?r) = _ => refine (eq_trans (entry_kept r_signal _ ps2 keeps_signal N r) _) end. reflexivity. Qed.
Lemma ub_of comments ps1 l ps2 m : ub_definition to_float l m -> Forall (fun l => ~ has_key "ubmatrix" l) ps2 -> r_ubmatrix (header_state comments (ps1 ++ l :: ps2)) = Some m.
Proof. intros D N. unfold header_state, all_params. rewrite fold_left_app. cbn [fold_left]. rewrite (param_ub _ _ _ D).
  match goal with |- r_ubmatrix (fold_left _ ps2 ?r) = _ => refine (eq_trans (entry_kept r_ubmatrix _ ps2 keeps_ub N r) _) end. reflexivity. Qed.
Lemma no_signal comments ps : Forall (fun l => ~ has_key "signalcounter" l) ps -> r_signal (header_state comments ps) = None.
Proof. intros N. unfold header_state. rewrite (entry_kept r_signal _ ps keeps_signal N). reflexivity. Qed.
Lemma no_ub comments ps : Forall (fun l => ~ has_key "ubmatrix" l) ps -> r_ubmatrix (header_state comments ps) = None.
Proof. intros N. unfold header_state. rewrite (entry_kept r_ubmatrix _ ps keeps_ub N). reflexivity. Qed.

(** ** Reading the header only *)
Local Notation read_line := (read_line to_float).
Local Notation read_lines := (read_lines to_float).
(** the lines at which [header_only] makes no difference *)
Lemma header_line r l : r_section r <> Data \/ contains "Col " l = true -> read_line true r l = read_line false r l.
Proof. intros H. unfold Fio_Model.read_line. destruct (contains "%c" l); [reflexivity|]. destruct (contains "%p" l); [reflexivity|]. destruct (contains "%d" l); [reflexivity|]. destruct (contains "!" l); [reflexivity|].
  destruct (r_section r) eqn:S; try reflexivity. destruct H as [H|H]; [contradiction|]. rewrite H. reflexivity. Qed.
Lemma header_step r l rest r' : r_section r <> Data \/ contains "Col " l = true -> step r l = Ok r' -> read_lines true r (l :: rest) = read_lines true r' rest.
Proof. intros H E. cbn [Fio_Model.read_lines]. rewrite (header_line r l H). unfold Fio_Proofs.step in E. destruct (read_line false r l) as [o|e] eqn:El; [|discriminate]. cbn [bind] in *. destruct (read_line_some to_float r l o El) as (r'' & ->). injection E as <-. reflexivity. Qed.
Lemma header_remarks file : forall r, read_lines true r file = read_lines true r (significant file).
Proof. unfold significant. induction file as [|l file IH]; intros r; [reflexivity|]. cbn [filter].
  destruct (marker l || negb (contains "!" l)) eqn:E.
  - cbn [Fio_Model.read_lines]. destruct (read_line true r l) as [[r'|]|]; cbn [bind]; [apply IH|reflexivity|reflexivity].
  - cbn [Fio_Model.read_lines]. rewrite <- IH. apply orb_false_iff in E. destruct E as [E1 E2]. apply negb_false_iff in E2.
    unfold marker in E1. apply orb_false_iff in E1. destruct E1 as [E1 E3]. apply orb_false_iff in E1. destruct E1 as [E1 E4].
    unfold Fio_Model.read_line. rewrite E1, E4, E3, E2. reflexivity. Qed.
Lemma plain_section r l r' : plain l -> step r l = Ok r' -> r_section r' = r_section r.
Proof. intros P E. rewrite plain_step in E by exact P. destruct (r_section r) eqn:S.
  - cbn [andb] in E. destruct (r_columns r); [|injection E as <-; exact S]. destruct (next_row _ _ _ _); [|discriminate]. injection E as <-. exact S.
  - injection E as <-. destruct (_ || _); exact S.
  - injection E as <-. destruct (param_line_other to_float l r) as (_ & _ & _ & _ & F). rewrite F. exact S.
  - cbn [andb] in E. destruct (negb (r_columns r)).
    + destruct (contains "Col " l); [destruct (py_get (split_ws l) 2); [|discriminate]; injection E as <-; exact S|]. destruct (r_names r); injection E as <-; exact S.
    + destruct (r_columns r); [|injection E as <-; exact S]. destruct (next_row _ _ _ _); [|discriminate]. injection E as <-. exact S. Qed.
Lemma header_steps ls rest : forall r r', Forall plain ls -> r_section r <> Data -> foldM step r ls = Ok r' -> read_lines true r (ls ++ rest) = read_lines true r' rest.
Proof. induction ls as [|l ls IH]; intros r r' P S E; [injection E as <-; reflexivity|]. inversion P as [|? ? Hl Hls]; subst. cbn [foldM] in E. destruct (step r l) as [r1|e] eqn:E1; [|discriminate]. cbn [bind] in E.
  cbn [app]. rewrite (header_step r l _ r1 (or_introl S) E1). apply IH; [exact Hls| |exact E]. rewrite (plain_section r l r1 Hl E1). exact S. Qed.
Lemma header_columns ls rest : forall r r', Forall (fun l => contains "Col " l = true) ls -> foldM step r ls = Ok r' -> read_lines true r (ls ++ rest) = read_lines true r' rest.
Proof. induction ls as [|l ls IH]; intros r r' P E; [injection E as <-; reflexivity|]. inversion P as [|? ? Hl Hls]; subst. cbn [foldM] in E. destruct (step r l) as [r1|e] eqn:E1; [|discriminate]. cbn [bind] in E.
  cbn [app]. rewrite (header_step r l _ r1 (or_intror Hl) E1). apply IH; assumption. Qed.
Lemma read_header file before comments params columns rows names :
  fio_layout file before comments params columns rows -> table_layout columns rows names -> read to_float true file = Ok (whole_state comments params names []).
Proof. intros (c & p & d & E & Hc & [Hp1 Hp2] & (Hd1 & Hd2 & Hd3) & Pb & Pc & Pp & Pco & Pr) (T1 & T2 & T3 & T4).
  assert (N0 : Nowhere <> Data) by (intros Z; discriminate Z). assert (N1 : Comments <> Data) by (intros Z; discriminate Z). assert (N2 : Params <> Data) by (intros Z; discriminate Z).
  unfold read. rewrite header_remarks, E. rewrite (header_steps before _ reader0 reader0 Pb N0 (steps_before to_float before reader0 Pb eq_refl eq_refl)).
  assert (S1 : step reader0 c = Ok (set_section Comments reader0)) by (unfold Fio_Proofs.step, Fio_Model.read_line; rewrite Hc; reflexivity).
  rewrite (header_step reader0 c _ _ (or_introl N0) S1).
  rewrite (header_steps comments _ (set_section Comments reader0) _ Pc N1 (steps_comments to_float comments (set_section Comments reader0) Pc eq_refl)).
  match goal with |- read_lines true ?r _ = _ => assert (S2 : step r p = Ok (set_section Params r)) by (unfold Fio_Proofs.step, Fio_Model.read_line; rewrite Hp1, Hp2; reflexivity); rewrite (header_step r p _ _ (or_introl N1) S2) end.
  match goal with |- read_lines true ?r _ = _ => rewrite (header_steps params _ r _ Pp N2 (steps_all_params params r Pp eq_refl)) end.
  match goal with |- context [all_params params ?r] => replace (all_params params r) with (header_state comments params) by (unfold header_state; f_equal; destruct (command_of comments); reflexivity) end.
  destruct (all_params_other params (mkReader [] Params false [] (command_of comments) None None [] [])) as (F1 & F2 & F3 & F4 & F5). fold (header_state comments params) in *. cbn [r_columns r_names r_data r_command r_section] in F1, F2, F3, F4, F5.
  assert (F6 : r_section (header_state comments params) <> Data) by (rewrite F5; exact N2). rewrite (header_step (header_state comments params) d _ (set_section Data (header_state comments params)) (or_introl F6)) by (unfold Fio_Proofs.step, Fio_Model.read_line; rewrite Hd1, Hd2, Hd3; reflexivity).
  assert (Cs : Forall (fun l => contains "Col " l = true) columns) by (clear - T1; induction T1 as [|l n ls ns [H _] T IH]; constructor; assumption).
  rewrite (header_columns columns rows _ _ Cs (steps_columns to_float columns names T1 (set_section Data (header_state comments params)) Pco eq_refl F1)).
  unfold with_names, set_section. cbn [r_names r_motors r_section r_columns r_command r_ubmatrix r_signal r_rois r_data]. rewrite F1, F2, F3, F4. cbn [app].
  destruct rows as [|l rows]; [reflexivity|]. cbn [Fio_Model.read_lines]. inversion Pr as [|? ? [M B] _]; subst.
  unfold marker in M. apply orb_false_iff in M. destruct M as [M1 M3]. apply orb_false_iff in M1. destruct M1 as [M1 M2].
  unfold Fio_Model.read_line. rewrite M1, M2, M3, B. cbn [r_section r_columns andb negb r_names]. rewrite T4. destruct names; [contradiction|]. reflexivity. Qed.
End Header.
