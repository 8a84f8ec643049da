(** Facts about paths. *)
From Verif Require Import Py Str Spec_Model Fio_Model SpecFile_Spec Spec_Proofs P08Loader_Proofs Path_Model Utils_Spec.
Local Open Scope string_scope.

(** ** Splitting at the last occurrence *)
Lemma rsplit_none c s : has_char c s = false -> rsplit_char c s = None.
Proof. induction s as [|d s IH]; [reflexivity|]. cbn [has_char]. intros H. apply orb_false_iff in H as [H1 H2]. cbn [rsplit_char].
  rewrite (IH H2). rewrite Ascii.eqb_sym, H1. reflexivity. Qed.
Lemma rsplit_some c a b : has_char c b = false -> rsplit_char c (a ++ String c b) = Some (a, b).
Proof. intros H. induction a as [|d a IH]; cbn [append rsplit_char].
  - rewrite (rsplit_none _ _ H), Ascii.eqb_refl. reflexivity.
  - rewrite IH. reflexivity. Qed.
Lemma rsplit_inv c s : match rsplit_char c s with Some (a, b) => s = a ++ String c b /\ has_char c b = false | None => has_char c s = false end.
Proof. induction s as [|d s IH]; [reflexivity|]. cbn [rsplit_char]. destruct (rsplit_char c s) as [[a b]|].
  - destruct IH as [-> H]. split; [reflexivity|exact H].
  - destruct (Ascii.eqb d c) eqn:E.
    + apply Ascii.eqb_eq in E. subst d. split; [reflexivity|exact IH].
    + cbn [has_char]. rewrite Ascii.eqb_sym, E. exact IH. Qed.

Lemma basename_plain p : plain (basename p).
Proof. unfold plain, basename. pose proof (rsplit_inv slash p) as H. destruct (rsplit_char slash p) as [[a b]|]; [apply H|exact H]. Qed.

Lemma rstrip_by_last p s c : p c = false -> rstrip_by p (s ++ String c "") = s ++ String c "".
Proof. intros H. induction s as [|d s IH]; cbn [append rstrip_by]; [rewrite H; reflexivity|]. rewrite IH. destruct s; reflexivity. Qed.
Lemma rstrip_by_drop p s c : p c = true -> rstrip_by p (s ++ String c "") = rstrip_by p s.
Proof. intros H. induction s as [|d s IH]; cbn [append rstrip_by]; [rewrite H; reflexivity|]. rewrite IH. reflexivity. Qed.
Lemma rstrip_by_inv p s : rstrip_by p s = "" \/ exists t c, p c = false /\ rstrip_by p s = t ++ String c "".
Proof. induction s as [|d s IH]; [left; reflexivity|]. cbn [rstrip_by]. destruct IH as [->|(t & c & Hc & ->)].
  - destruct (p d) eqn:E; [left; reflexivity|right]. exists "", d. split; [exact E|reflexivity].
  - right. exists (String d t), c. split; [exact Hc|]. destruct t; reflexivity. Qed.
Lemma str_forall_app p a b : str_forall p (a ++ b) = str_forall p a && str_forall p b.
Proof. induction a as [|c a IH]; [reflexivity|]. cbn [append str_forall]. rewrite IH, andb_assoc. reflexivity. Qed.
Lemma rstrip_by_all p s : rstrip_by p s = "" -> str_forall p s = true.
Proof. induction s as [|d s IH]; [reflexivity|]. cbn [rstrip_by str_forall]. destruct (rstrip_by p s) as [|x y]; [|discriminate].
  destruct (p d); [|discriminate]. intros _. apply IH. reflexivity. Qed.
Lemma append_snoc a c b : a ++ String c b = (a ++ String c "") ++ b.
Proof. rewrite append_assoc. reflexivity. Qed.

(** What dirname returns *)
Definition dir_result (d : string) : Prop := d = "" \/ (d <> "" /\ all_are slash d = true) \/ exists t c, Ascii.eqb c slash = false /\ d = t ++ String c "".
Lemma dirname_result p : dir_result (dirname p).
Proof. unfold dirname, dir_result. destruct (rsplit_char slash p) as [[a b]|]; [|left; reflexivity]. cbv zeta.
  destruct (all_are slash (a ++ "/")) eqn:E.
  - right. left. split; [destruct a; discriminate|exact E].
  - destruct (rstrip_by_inv (fun d => Ascii.eqb d slash) (a ++ "/")) as [H|(t & c & Hc & H)].
    + apply rstrip_by_all in H. unfold all_are in E. congruence.
    + right. right. exists t, c. split; [exact Hc|exact H]. Qed.

Lemma dirname_prefix pre name : dir_prefix pre -> plain name -> exists d, dirname (pre ++ name) = d /\ basename (pre ++ name) = name /\ forall x, plain x -> path_join d x = pre ++ x.
Proof. intros Hp Hn. unfold plain in *.
  assert (J : forall d x, plain x -> d <> "" -> path_join d x = if endswith "/" d then d ++ x else d ++ "/" ++ x).
  { intros d x Hx Hd. unfold path_join. replace (startswith "/" x) with false.
    - destruct (String.eqb_spec d ""); [contradiction|]. reflexivity.
    - destruct x as [|c x]; [reflexivity|]. unfold plain in Hx. cbn [has_char] in Hx. apply orb_false_iff in Hx as [Hx _].
      unfold startswith. cbn [String.prefix]. destruct (Ascii.ascii_dec "/" c) as [<-|]; [discriminate Hx|reflexivity]. }
  destruct Hp as [-> |[-> |(d & c & Hc & ->)]].
  - exists "". cbn [append]. unfold dirname, basename. rewrite rsplit_none by exact Hn. repeat split. intros x Hx. unfold path_join.
    destruct (startswith "/" x); reflexivity.
  - exists "/". unfold dirname, basename. change ("/" ++ name) with ("" ++ String slash name). rewrite rsplit_some by exact Hn.
    repeat split. intros x Hx. rewrite J by (exact Hx || discriminate). reflexivity.
  - exists (d ++ String c ""). unfold dirname, basename. replace ((d ++ String c "/") ++ name) with ((d ++ String c "") ++ String slash name)
      by (rewrite !append_assoc; reflexivity). rewrite rsplit_some by exact Hn. repeat split.
    + cbv zeta. replace (all_are slash ((d ++ String c "") ++ "/")) with false.
      * rewrite rstrip_by_drop by reflexivity. apply rstrip_by_last. exact Hc.
      * symmetry. unfold all_are. rewrite !str_forall_app. cbn [str_forall]. change (Ascii.eqb c slash) with (Ascii.eqb c "/"). rewrite Hc.
        rewrite andb_false_r. reflexivity.
    + intros x Hx. rewrite J by (exact Hx || (destruct d; discriminate)). replace (endswith "/" (d ++ String c "")) with false.
      * rewrite !append_assoc. reflexivity.
      * symmetry. unfold endswith. rewrite rev_string_app. cbn [rev_string append]. cbn [String.prefix].
        destruct (Ascii.ascii_dec "/" c) as [<-|]; [discriminate Hc|reflexivity]. Qed.

(** Every path has such a form *)
Lemma endswith_snoc t c : Ascii.eqb c slash = false -> endswith "/" (t ++ String c "") = false.
Proof. intros Hc. unfold endswith. rewrite rev_string_app. cbn [rev_string append]. cbn [String.prefix].
  destruct (Ascii.ascii_dec "/" c) as [<-|]; [discriminate Hc|reflexivity]. Qed.
Lemma all_slash_end d : d <> "" -> all_are slash d = true -> exists a, d = a ++ "/".
Proof. induction d as [|c d IH]; [congruence|]. intros _ H. unfold all_are in *. cbn [str_forall] in H. apply andb_true_iff in H as [H1 H2].
  apply Ascii.eqb_eq in H1. subst c. destruct d as [|c d]; [exists ""; reflexivity|].
  destruct IH as [a E]; [discriminate|exact H2|]. exists (String slash a). rewrite E. reflexivity. Qed.
Lemma not_slash_start x : plain x -> startswith "/" x = false.
Proof. intros Hx. destruct x as [|c x]; [reflexivity|]. unfold plain in Hx. cbn [has_char] in Hx. apply orb_false_iff in Hx as [Hx _].
  unfold startswith. cbn [String.prefix]. destruct (Ascii.ascii_dec "/" c) as [<-|]; [discriminate Hx|reflexivity]. Qed.

(** Joining a directory and a name, and taking the path apart again *)
Lemma join_parts d x : dir_result d -> plain x -> dirname (path_join d x) = d /\ basename (path_join d x) = x.
Proof. intros Hd Hx. unfold path_join. rewrite (not_slash_start _ Hx). unfold plain in Hx. destruct Hd as [-> |[[Hd Ha]|(t & c & Hc & ->)]].
  - cbn [String.eqb orb append]. unfold dirname, basename. rewrite rsplit_none by exact Hx. split; reflexivity.
  - destruct (all_slash_end d Hd Ha) as [a ->]. replace (endswith "/" (a ++ "/")) with true by (symmetry; apply endswith_iff; exists a; reflexivity).
    rewrite orb_true_r. unfold dirname, basename. replace ((a ++ "/") ++ x) with (a ++ String slash x) by (rewrite append_assoc; reflexivity).
    rewrite rsplit_some by exact Hx. cbv zeta. rewrite Ha. split; reflexivity.
  - rewrite (endswith_snoc t c Hc). replace (String.eqb (t ++ String c "") "") with false by (symmetry; apply String.eqb_neq; destruct t; discriminate).
    cbn [orb]. unfold dirname, basename. change ("/" ++ x) with (String slash x). rewrite rsplit_some by exact Hx. cbv zeta. split; [|reflexivity].
    replace (all_are slash ((t ++ String c "") ++ "/")) with false.
    + rewrite rstrip_by_drop by reflexivity. apply rstrip_by_last. exact Hc.
    + symmetry. unfold all_are. rewrite !str_forall_app. cbn [str_forall]. rewrite Hc, andb_false_r. reflexivity. Qed.
Lemma join_result d x c : dir_result d -> plain (x ++ String c "") -> dir_result (path_join d (x ++ String c "")).
Proof. intros Hd Hx. right. right. exists (if String.eqb d "" || endswith "/" d then d ++ x else d ++ "/" ++ x), c.
  assert (Hc : Ascii.eqb c slash = false).
  { unfold plain in Hx. rewrite has_char_app in Hx. apply orb_false_iff in Hx as [_ Hx]. cbn [has_char] in Hx. rewrite orb_false_r in Hx. rewrite Ascii.eqb_sym. exact Hx. }
  split; [exact Hc|]. unfold path_join. rewrite (not_slash_start _ Hx). destruct (String.eqb d "" || endswith "/" d); rewrite !append_assoc; reflexivity. Qed.

(** ** Extensions *)
Lemma splitext_undotted p : undotted (basename p) -> splitext p = (p, "").
Proof. intros H. unfold splitext. rewrite rsplit_none by exact H. reflexivity. Qed.
Lemma splitext_name name e : plain name -> plain e -> undotted e -> all_are dot name = false -> splitext (name ++ "." ++ e) = (name, "." ++ e).
Proof. intros Hn He Hd Ha. unfold splitext, basename. unfold plain, undotted in *.
  assert (Q : has_char slash (name ++ "." ++ e) = false) by (rewrite !has_char_app; change (has_char slash name) with (has_char "/" name); change (has_char slash e) with (has_char "/" e); rewrite Hn, He; reflexivity).
  rewrite (rsplit_none _ _ Q).
  change ("." ++ e) with (String dot e). rewrite rsplit_some by exact Hd. rewrite Ha. reflexivity. Qed.

(** ** Integers *)
Lemma str_int_text z : str_int z = int_text z.
Proof. unfold str_int, int_text. destruct z; reflexivity. Qed.
Lemma dec_inj a b : dec a = dec b -> a = b.
Proof. intros H. pose proof (py_int_dec a) as A. pose proof (py_int_dec b) as B. rewrite H in A. rewrite A in B. injection B as B. lia. Qed.
Lemma dec_digits n : str_forall (fun c => match digit_val c with Some _ => true | None => false end) (dec n) = true.
Proof. apply digits_uint. Qed.
Lemma dec_no_minus n s : dec n <> "-" ++ s.
Proof. intros E. pose proof (dec_digits n) as H. rewrite E in H. discriminate H. Qed.
Lemma int_text_inj a b : int_text a = int_text b -> a = b.
Proof. destruct a, b; cbn [int_text]; intros H; try reflexivity.
  - exfalso. assert (Q : dec 0 = dec (N.pos p)) by exact H. apply dec_inj in Q. lia.
  - exfalso. apply (dec_no_minus 0 (dec (N.pos p))). exact H.
  - exfalso. assert (Q : dec (N.pos p) = dec 0) by exact H. apply dec_inj in Q. lia.
  - apply dec_inj in H. congruence.
  - exfalso. exact (dec_no_minus _ _ H).
  - exfalso. apply (dec_no_minus 0 (dec (N.pos p))). symmetry. exact H.
  - exfalso. exact (dec_no_minus _ _ (eq_sym H)).
  - apply append_inj_l in H. apply dec_inj in H. congruence. Qed.
Lemma int_text_plain z : plain (int_text z).
Proof. destruct z; cbn [int_text]; [reflexivity|apply dec_no_slash|]. unfold plain. rewrite has_char_app, dec_no_slash. reflexivity. Qed.

(** ** Directories *)
Lemma split_nonempty c s : split_char c s <> [].
Proof. induction s as [|x s IH]; cbn; [discriminate|]. destruct (Ascii.eqb x c); [discriminate|]. destruct (split_char c s); discriminate. Qed.
Lemma split_cat c a b : split_char c (a ++ String c b) = (split_char c a ++ split_char c b)%list.
Proof. induction a as [|x a IH]; cbn [append split_char].
  - rewrite Ascii.eqb_refl. reflexivity.
  - destruct (Ascii.eqb x c); [rewrite IH; reflexivity|]. rewrite IH. pose proof (split_nonempty c a) as N. destruct (split_char c a); [contradiction|reflexivity]. Qed.
Lemma same_place a b : place_of (a ++ "/./" ++ b) = place_of (a ++ "/" ++ b) /\ place_of (a ++ "//" ++ b) = place_of (a ++ "/" ++ b).
Proof. unfold place_of. cbn [append]. change "/"%char with slash. rewrite !split_cat.
  change (split_char slash (String "." (String slash b))) with ("." :: split_char slash b). change (split_char slash (String slash b)) with ("" :: split_char slash b).
  rewrite !filter_app. cbn [filter String.eqb Ascii.eqb Bool.eqb orb negb]. assert (P : forall s, String.prefix "" s = true) by (intros []; reflexivity).
  split; f_equal; unfold startswith; destruct a as [|x a]; cbn [append String.prefix]; destruct (Ascii.ascii_dec _ _); rewrite ?P; reflexivity. Qed.
Lemma same_directory fs a b : dir_exists fs (a ++ "/./" ++ b) = dir_exists fs (a ++ "/" ++ b) /\ dir_exists fs (a ++ "//" ++ b) = dir_exists fs (a ++ "/" ++ b).
Proof. destruct (same_place a b) as [E1 E2]. unfold dir_exists. rewrite E1, E2. split; f_equal; f_equal; destruct a; reflexivity. Qed.
Lemma place_eqb_refl x : place_eqb x x = true.
Proof. unfold place_eqb. rewrite Bool.eqb_reflx. destruct (list_eq_dec string_dec (snd x) (snd x)); [reflexivity|congruence]. Qed.
Lemma ancestors_self x : snd x <> [] -> In x (ancestors x).
Proof. destruct x as [b l]. cbn [snd]. intros H. unfold ancestors. cbn [fst snd]. apply in_map_iff. exists (List.length l).
  rewrite firstn_all. split; [reflexivity|]. apply in_seq. destruct l; [congruence|cbn [List.length]; lia]. Qed.
Lemma exists_app fs more p : dir_exists fs p = true -> dir_exists (fs ++ more)%list p = true.
Proof. unfold dir_exists. rewrite !andb_true_iff. intros [A B]. split; [exact A|]. destruct (snd (place_of p)); [exact B|].
  rewrite existsb_app, B. reflexivity. Qed.
Lemma makedirs_exists fs p fs' : makedirs fs p = Ok fs' -> dir_exists fs' p = true.
Proof. unfold makedirs. destruct (String.eqb_spec p "") as [|Hp]; [discriminate|]. destruct (dir_exists fs p); [discriminate|]. intros [= <-].
  unfold dir_exists. destruct (String.eqb_spec p ""); [contradiction|]. cbn [negb andb]. destruct (snd (place_of p)) as [|c l] eqn:E; [reflexivity|].
  apply existsb_exists. exists (place_of p). split; [|apply place_eqb_refl]. apply in_or_app. right. apply ancestors_self. rewrite E. discriminate. Qed.

Lemma int_of_text z : py_int (int_text z) = Ok z.
Proof. destruct z as [|p|p]; [reflexivity|exact (py_int_dec (Npos p))|]. cbn [int_text]. pose proof (py_int_dec (Npos p)) as H.
  pose proof (digits_uint (N.to_uint (Npos p))) as D. unfold digits in D. change (str_forall (fun c => match digit_val c with Some _ => true | None => false end) (dec (Npos p)) = true) in D.
  assert (G : strip ("-" ++ dec (Npos p)) = "-" ++ dec (Npos p)).
  { apply strip_id. cbn [append str_forall]. apply andb_true_iff. split; [reflexivity|]. apply (str_forall_imp (fun c => match digit_val c with Some _ => true | None => false end)); [|exact D].
    intros c Hc. apply digit_not_space in Hc. destruct Hc as [-> _]. reflexivity. }
  unfold py_int in *. rewrite G. cbn [append]. change (Ascii.eqb "-" "-") with true. cbv iota.
  assert (G' : strip (dec (Npos p)) = dec (Npos p)).
  { apply strip_id. apply (str_forall_imp (fun c => match digit_val c with Some _ => true | None => false end)); [|exact D].
    intros c Hc. apply digit_not_space in Hc. destruct Hc as [-> _]. reflexivity. }
  rewrite G' in H. destruct (dec (Npos p)) as [|c s]; [discriminate H|]. cbn [str_forall] in D. apply andb_true_iff in D as [Dc _]. destruct (digit_not_space c Dc) as (_ & N1 & N2).
  rewrite N1, N2 in H. destruct (int_digits 0 true (String c s)) as [x|]; [|discriminate H]. injection H as ->. reflexivity. Qed.
Lemma place_eqb_iff x y : place_eqb x y = true <-> x = y.
Proof. split; [|intros ->; apply place_eqb_refl]. unfold place_eqb. rewrite andb_true_iff. intros [A B]. apply Bool.eqb_prop in A. destruct (list_eq_dec string_dec (snd x) (snd y)) as [E|]; [|discriminate]. destruct x, y; cbn in *; congruence. Qed.
Lemma exists_iff fs p : dir_exists fs p = true <-> p <> "" /\ (snd (place_of p) = [] \/ In (place_of p) fs).
Proof. unfold dir_exists. rewrite andb_true_iff, negb_true_iff. destruct (String.eqb_spec p "") as [->|N]; [split; [intros [? _]; discriminate|intros [? _]; contradiction]|].
  assert (E : existsb (place_eqb (place_of p)) fs = true <-> In (place_of p) fs).
  { rewrite existsb_exists. split; [intros (x & I & Q); apply place_eqb_iff in Q; now subst x|intros I; exists (place_of p); split; [exact I|apply place_eqb_refl]]. }
  destruct (snd (place_of p)) eqn:S; [tauto|]. rewrite E. split; [tauto|]. intros [_ [?|?]]; [discriminate|tauto]. Qed.
Lemma created_iff fs p fs' d : makedirs fs p = Ok fs' -> dir_exists fs' d = true <-> dir_exists fs d = true \/
  (d <> "" /\ exists k, (1 <= k <= List.length (snd (place_of p)))%nat /\ place_of d = (fst (place_of p), firstn k (snd (place_of p)))).
Proof. unfold makedirs. destruct (String.eqb p ""); [discriminate|]. destruct (dir_exists fs p); [discriminate|]. intros [= <-]. rewrite !exists_iff, in_app_iff. unfold ancestors.
  assert (I : In (place_of d) (map (fun k => (fst (place_of p), firstn k (snd (place_of p)))) (seq 1 (List.length (snd (place_of p))))) <->
    exists k, (1 <= k <= List.length (snd (place_of p)))%nat /\ place_of d = (fst (place_of p), firstn k (snd (place_of p)))).
  { rewrite in_map_iff. split; intros (k & A & B); exists k; [apply in_seq in B; split; [lia|congruence]|split; [congruence|apply in_seq; lia]]. }
  rewrite I. tauto. Qed.
