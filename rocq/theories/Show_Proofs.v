(** Lemmas about the text form, indexing and comparison of samples. *)
From Coq Require Import Reals Lra.
From Verif Require Import Py Str Sample_Model Sample_Spec Show_Model Show_Spec.
Local Open Scope string_scope.

(** ** Text of a sample *)
Lemma Ok_inj {A} (a b : A) : Ok a = Ok b -> a = b.
Proof. congruence. Qed.
Lemma paste_app a b : paste (a ++ b) = paste a ++ paste b.
Proof. induction a as [|x a IH]; [reflexivity|]. cbn [paste List.app]. now rewrite IH, append_assoc. Qed.
Section Text.
  Context (show : num -> string) (show_n : nat -> string).
  Notation text := (layer_text show).

  Lemma fold_entries (ls : list layer) ts out (n : nat) : Forall2 (fun l t => text l = Ok t) ls ts -> (n <= List.length ls)%nat ->
    foldM (fun out i => l <- py_get ls (Z.of_nat i) ;; t <- text l ;; Ok (out ++ "[" ++ show_n i ++ "] " ++ t ++ nl)) out (rev (seq 0 n)) =
    Ok (out ++ paste (rev (map (numbered_entry show_n) (combine (seq 0 n) ts)))).
  Proof. intros F. revert out. induction n as [|n IH]; intros out Hn; [cbn; now rewrite append_nil_r|].
    rewrite seq_S, rev_app_distr. cbn [rev List.app plus]. cbn [foldM].
    destruct (nth_error ls n) as [l|] eqn:El; [|apply nth_error_None in El; lia]. rewrite (py_get_nat _ _ El). cbn [bind].
    assert (Q : exists t, nth_error ts n = Some t /\ text l = Ok t).
    { clear - F El. revert n El. induction F as [|a b ls ts H F IH]; intros [|n] E; try discriminate; cbn in *; [injection E as <-; eauto|exact (IH n E)]. }
    destruct Q as (t & Et & Tl). rewrite Tl. cbn [bind]. rewrite IH by lia.
    assert (C1 : combine (seq 0 n ++ [n]) ts = (combine (seq 0 n) ts ++ [(n, t)])%list).
    { clear - Et. assert (G : forall a, combine (seq a n ++ [(a + n)%nat]) ts = (combine (seq a n) ts ++ [((a + n)%nat, t)])%list).
      { revert ts Et. induction n as [|n IH]; intros [|u ts] Et a; try discriminate; cbn in Et.
        - injection Et as ->. destruct ts; reflexivity.
        - cbn [seq List.app combine]. specialize (IH ts Et (S a)). replace (S a + n)%nat with (a + S n)%nat in IH by lia. rewrite IH. reflexivity. }
      exact (G 0%nat). }
    rewrite C1, map_app, rev_app_distr. cbn [map rev List.app]. change (paste (numbered_entry show_n (n, t) :: ?x)) with (numbered_entry show_n (n, t) ++ paste x).
    cbn [paste]. unfold numbered_entry at 2. cbn [fst snd]. rewrite !append_assoc. reflexivity. Qed.

  Lemma text_of_sample s a b ts : text (st_ambient s) = Ok a -> text (st_substrate s) = Ok b -> Forall2 (fun l t => text l = Ok t) (st_layers s) ts ->
    sample_text show show_n s = Ok (a ++ line_break ++ paste (rev (map (numbered_entry show_n) (combine (seq 0 (List.length (st_layers s))) ts))) ++ b).
  Proof. intros Ha Hb F. unfold sample_text. rewrite Ha. cbn [bind]. rewrite (fold_entries _ ts _ _ F (le_n _)). cbn [bind]. rewrite Hb. cbn [bind]. rewrite !append_assoc. reflexivity. Qed.

  Lemma film_text l : film_layer l -> l_kind l = KLayer \/ l_kind l = KConstantLayer -> exists t r d, l_thickness l = Some t /\ l_roughness l = Some r /\ l_sld l = Some d /\
    text l = Ok (l_name l ++ ":" ++ nl ++ tab ++ "thickness: " ++ param_text show t ++ " [Å]" ++ nl ++ tab ++ "roughness: " ++ param_text show r ++ " [Å]" ++ nl ++ tab ++ "sld: " ++ param_text show d ++ " [1e-6 1/Å^2]").
  Proof. intros ((t & Et & _) & (r & Er & _) & (d & Ed & _)) K. exists t, r, d. repeat (split; [assumption|]). unfold layer_text. destruct K as [-> | ->]; rewrite Et, Er, Ed; reflexivity. Qed.
  Lemma substrate_text l : substrate_layer l -> l_kind l = KSubstrate -> exists r d, l_thickness l = None /\ l_roughness l = Some r /\ l_sld l = Some d /\
    text l = Ok (l_name l ++ " (substrate):" ++ nl ++ tab ++ "roughness: " ++ param_text show r ++ " [Å]" ++ nl ++ tab ++ "sld: " ++ param_text show d ++ " [1e-6 1/Å^2]").
  Proof. intros (Et & (r & Er & _) & (d & Ed & _)) K. exists r, d. repeat (split; [assumption|]). unfold layer_text. rewrite K, Er, Ed. reflexivity. Qed.
  Lemma ambient_text l : ambient_layer l -> l_kind l = KAmbient -> exists d, l_thickness l = None /\ l_roughness l = None /\ l_sld l = Some d /\
    text l = Ok (l_name l ++ " (ambient):" ++ nl ++ tab ++ "sld: " ++ param_text show d ++ " [1e-6 1/Å^2]").
  Proof. intros (Et & Er & (d & Ed & _)) K. exists d. repeat (split; [assumption|]). unfold layer_text. rewrite K, Ed. reflexivity. Qed.

  (** ** The text determines the sample *)
  Lemma cut_eq c a b x y : has_char c a = false -> has_char c b = false -> a ++ String c x = b ++ String c y -> a = b /\ x = y.
  Proof. revert b. induction a as [|d a IH]; intros [|e b] Ha Hb H; cbn [append] in H.
    - injection H as <-. auto.
    - injection H as <- H. cbn [has_char] in Hb. rewrite Ascii.eqb_refl in Hb. discriminate.
    - injection H as -> H. cbn [has_char] in Ha. rewrite Ascii.eqb_refl in Ha. discriminate.
    - injection H as -> H. cbn [has_char] in Ha, Hb. apply Bool.orb_false_iff in Ha, Hb. destruct (IH b (proj2 Ha) (proj2 Hb) H) as [-> ->]. auto. Qed.

  Context (machine : num -> Prop) (Hs : show_ok machine show).
  Lemma param_line p : has_char newline_char (param_text show p) = false.
  Proof. destruct p; cbn [param_text]; [|apply Hs]. rewrite !has_char_app, !(show_line _ _ Hs). reflexivity. Qed.
  Lemma param_inj p q : values_in machine p -> values_in machine q -> param_text show p = param_text show q -> same_values p q.
  Proof. destruct p as [a b n|a n], q as [c d m|c m]; cbn [param_text same_values]; intros [M1 M2] [M3 M4] H; cbn [p_min p_max] in *.
    - cbn [append] in H. injection H as H. destruct (cut_eq "," (show a) (show c) _ _ (show_comma _ _ Hs a) (show_comma _ _ Hs c) H) as [E1 E2]. injection E2 as E2. apply append_inj_r in E2. split; apply (show_inj _ _ Hs); assumption.
    - pose proof (show_comma _ _ Hs c) as N. rewrite <- H in N. rewrite !has_char_app in N. change (has_char "," ", ") with true in N. rewrite !Bool.orb_true_r in N. discriminate.
    - pose proof (show_comma _ _ Hs a) as N. rewrite H in N. rewrite !has_char_app in N. change (has_char "," ", ") with true in N. rewrite !Bool.orb_true_r in N. discriminate.
    - apply (show_inj _ _ Hs); assumption. Qed.
  (** One line of a layer, followed by more *)
  Lemma line_eq pre p q post x y : values_in machine p -> values_in machine q -> has_char newline_char pre = false -> has_char newline_char post = false ->
    pre ++ param_text show p ++ post ++ nl ++ x = pre ++ param_text show q ++ post ++ nl ++ y -> same_values p q /\ x = y.
  Proof. intros M1 M2 N1 N2 H. apply append_inj_l in H. change (nl ++ ?z) with (String newline_char z) in H. rewrite <- !append_assoc in H. apply cut_eq in H.
    - destruct H as [H ->]. apply append_inj_r in H. split; [apply param_inj; assumption|reflexivity].
    - now rewrite has_char_app, param_line, N2.
    - now rewrite has_char_app, param_line, N2. Qed.
  Lemma name_eq a b post x y : has_char newline_char a = false -> has_char newline_char b = false -> has_char newline_char post = false ->
    a ++ post ++ nl ++ x = b ++ post ++ nl ++ y -> a = b /\ x = y.
  Proof. intros N1 N2 N3 H. change (nl ++ ?z) with (String newline_char z) in H. rewrite <- !append_assoc in H. apply cut_eq in H.
    - destruct H as [H ->]. apply append_inj_r in H. auto.
    - now rewrite has_char_app, N1, N3.
    - now rewrite has_char_app, N2, N3. Qed.
  Lemma film_inj l m t u x y : layer_in machine l -> layer_in machine m -> film_layer l -> film_layer m -> (l_kind l = KLayer \/ l_kind l = KConstantLayer) -> (l_kind m = KLayer \/ l_kind m = KConstantLayer) ->
    has_char newline_char (l_name l) = false -> has_char newline_char (l_name m) = false -> text l = Ok t -> text m = Ok u -> t ++ nl ++ x = u ++ nl ++ y -> same_layer l m /\ x = y.
  Proof. intros Ml Mm Fl Fm Kl Km Nl Nm Tl Tm H. destruct (film_text l Fl Kl) as (t1 & r1 & d1 & A1 & A2 & A3 & A4). destruct (film_text m Fm Km) as (t2 & r2 & d2 & B1 & B2 & B3 & B4).
    rewrite A4 in Tl. rewrite B4 in Tm. apply Ok_inj in Tl, Tm. subst t u. rewrite !append_assoc in H. apply name_eq in H; try assumption; [|reflexivity]. destruct H as [En H].
    rewrite <- !(append_assoc tab) in H. apply line_eq in H; [|apply Ml; tauto|apply Mm; tauto|reflexivity|reflexivity]. destruct H as [Et H]. apply line_eq in H; [|apply Ml; tauto|apply Mm; tauto|reflexivity|reflexivity]. destruct H as [Er H]. apply line_eq in H; [|apply Ml; tauto|apply Mm; tauto|reflexivity|reflexivity]. destruct H as [Ed ->].
    split; [|reflexivity]. split; [exact En|]. rewrite A1, A2, A3, B1, B2, B3. cbn [same_opt]. auto. Qed.
  Lemma substrate_inj l m t u : layer_in machine l -> layer_in machine m -> substrate_layer l -> substrate_layer m -> l_kind l = KSubstrate -> l_kind m = KSubstrate ->
    has_char newline_char (l_name l) = false -> has_char newline_char (l_name m) = false -> text l = Ok t -> text m = Ok u -> t = u -> same_layer l m.
  Proof. intros Ml Mm Fl Fm Kl Km Nl Nm Tl Tm H. destruct (substrate_text l Fl Kl) as (r1 & d1 & A1 & A2 & A3 & A4). destruct (substrate_text m Fm Km) as (r2 & d2 & B1 & B2 & B3 & B4).
    rewrite A4 in Tl. rewrite B4 in Tm. apply Ok_inj in Tl, Tm. subst t u. apply (f_equal (fun z => z ++ nl ++ "")) in H. rewrite !append_assoc in H. apply name_eq in H; try assumption; [|reflexivity]. destruct H as [En H].
    rewrite <- !(append_assoc tab) in H. apply line_eq in H; [|apply Ml; tauto|apply Mm; tauto|reflexivity|reflexivity]. destruct H as [Er H]. apply line_eq in H; [|apply Ml; tauto|apply Mm; tauto|reflexivity|reflexivity]. destruct H as [Ed _].
    split; [exact En|]. rewrite A1, A2, A3, B1, B2, B3. cbn [same_opt]. auto. Qed.
  Lemma ambient_inj l m t u x y : layer_in machine l -> layer_in machine m -> ambient_layer l -> ambient_layer m -> l_kind l = KAmbient -> l_kind m = KAmbient ->
    has_char newline_char (l_name l) = false -> has_char newline_char (l_name m) = false -> text l = Ok t -> text m = Ok u -> t ++ nl ++ x = u ++ nl ++ y -> same_layer l m /\ x = y.
  Proof. intros Ml Mm Fl Fm Kl Km Nl Nm Tl Tm H. destruct (ambient_text l Fl Kl) as (d1 & A1 & A2 & A3 & A4). destruct (ambient_text m Fm Km) as (d2 & B1 & B2 & B3 & B4).
    rewrite A4 in Tl. rewrite B4 in Tm. apply Ok_inj in Tl, Tm. subst t u. rewrite !append_assoc in H. apply name_eq in H; try assumption; [|reflexivity]. destruct H as [En H].
    rewrite <- !(append_assoc tab) in H. apply line_eq in H; [|apply Ml; tauto|apply Mm; tauto|reflexivity|reflexivity]. destruct H as [Ed ->]. split; [|reflexivity].
    split; [exact En|]. rewrite A1, A2, A3, B1, B2, B3. cbn [same_opt]. auto. Qed.

  (** Number of lines *)
  Fixpoint lines_in (s : string) : nat := match s with "" => 0%nat | String c s' => ((if Ascii.eqb newline_char c then 1 else 0) + lines_in s')%nat end.
  Lemma lines_app a b : lines_in (a ++ b) = (lines_in a + lines_in b)%nat.
  Proof. induction a as [|c a IH]; [reflexivity|]. cbn [lines_in append]. rewrite IH. lia. Qed.
  Lemma lines_none a : has_char newline_char a = false -> lines_in a = 0%nat.
  Proof. induction a as [|c a IH]; [reflexivity|]. cbn [has_char lines_in]. intros H. apply Bool.orb_false_iff in H. destruct H as [H1 H2]. rewrite H1, (IH H2). reflexivity. Qed.
  Lemma film_lines l t : film_layer l -> l_kind l = KLayer \/ l_kind l = KConstantLayer -> has_char newline_char (l_name l) = false -> text l = Ok t -> lines_in t = 3%nat.
  Proof. intros F K N T. destruct (film_text l F K) as (t1 & r1 & d1 & _ & _ & _ & A4). rewrite A4 in T. apply Ok_inj in T. subst t. rewrite !lines_app, (lines_none _ N), !(lines_none _ (param_line _)). reflexivity. Qed.
  Lemma entries_lines (k : nat) ls ts : Forall film_layer ls -> Forall (fun l => l_kind l = KLayer \/ l_kind l = KConstantLayer) ls -> Forall (fun l => has_char newline_char (l_name l) = false) ls ->
    Forall2 (fun l t => text l = Ok t) ls ts -> (forall i, has_char newline_char (show_n i) = false) ->
    lines_in (paste (rev (map (numbered_entry show_n) (combine (seq k (List.length ls)) ts)))) = (4 * List.length ls)%nat.
  Proof. intros F K N T Sn. revert k. induction T as [|l t ls ts H T IH]; intros k; [reflexivity|]. inversion F; inversion K; inversion N; subst. cbn [List.length seq combine map rev].
    rewrite paste_app, lines_app, IH by assumption. cbn [paste]. rewrite append_nil_r. unfold numbered_entry. cbn [fst snd]. rewrite !lines_app, (lines_none _ (Sn k)), (film_lines l t) by assumption. cbn. lia. Qed.

  Lemma entries_inj (k : nat) ls ms ts us x y : Forall (layer_in machine) ls -> Forall (layer_in machine) ms -> Forall film_layer ls -> Forall (fun l => l_kind l = KLayer \/ l_kind l = KConstantLayer) ls -> Forall (fun l => has_char newline_char (l_name l) = false) ls ->
    Forall film_layer ms -> Forall (fun l => l_kind l = KLayer \/ l_kind l = KConstantLayer) ms -> Forall (fun l => has_char newline_char (l_name l) = false) ms ->
    Forall2 (fun l t => text l = Ok t) ls ts -> Forall2 (fun l t => text l = Ok t) ms us -> List.length ls = List.length ms ->
    paste (rev (map (numbered_entry show_n) (combine (seq k (List.length ls)) ts))) ++ x = paste (rev (map (numbered_entry show_n) (combine (seq k (List.length ms)) us))) ++ y ->
    Forall2 same_layer ls ms /\ x = y.
  Proof. intros M M' F K N F' K' N' T. revert ms us k x y M' F' K' N'. induction T as [|l t ls ts H T IH]; intros [|m ms] us k x y M' F' K' N' U L E; try discriminate; [auto|].
    inversion U as [|? u ? us' Hu U']; subst. inversion M; inversion M'; inversion F; inversion K; inversion N; inversion F'; inversion K'; inversion N'; subst. cbn [List.length seq combine map rev] in E. rewrite !paste_app in E. cbn [paste] in E. rewrite !append_nil_r, !append_assoc in E.
    injection L as L. destruct (IH ltac:(assumption) ltac:(assumption) ltac:(assumption) ltac:(assumption) ms us' (S k) _ _ ltac:(assumption) ltac:(assumption) ltac:(assumption) ltac:(assumption) U' L E) as [A B].
    unfold numbered_entry in B. cbn [fst snd] in B. rewrite !append_assoc in B. apply append_inj_l in B. apply append_inj_l in B. apply append_inj_l in B.
    destruct (film_inj l m t u x y) as [C D]; auto. Qed.

  Lemma text_inj s s' t : (forall i, has_char newline_char (show_n i) = false) -> sample_in machine s -> sample_in machine s' -> ordinary_sample s -> ordinary_sample s' -> standard s -> standard s' ->
    sample_text show show_n s = Ok t -> sample_text show show_n s' = Ok t -> same_sample s s'.
  Proof. intros Sn Ms Ms' (Os & Of & Oa) (Os' & Of' & Oa') (Ka & Ks & Kf & N) (Ka' & Ks' & Kf' & N') T T'.
    unfold sample_in, all_layers in Ms, Ms'. inversion Ms as [|? ? Ms1 Mr]; subst. inversion Ms' as [|? ? Ms1' Mr']; subst. apply Forall_app in Mr, Mr'. destruct Mr as [Mf Ma]. destruct Mr' as [Mf' Ma']. inversion Ma; inversion Ma'; subst.
    unfold all_layers in N, N'. inversion N as [|? ? Ns Nr]; subst. inversion N' as [|? ? Ns' Nr']; subst. apply Forall_app in Nr, Nr'. destruct Nr as [Nf Na]. destruct Nr' as [Nf' Na']. inversion Na; inversion Na'; subst.
    destruct (ambient_text _ Oa Ka) as (d & _ & _ & _ & Ta). destruct (ambient_text _ Oa' Ka') as (d' & _ & _ & _ & Ta').
    destruct (substrate_text _ Os Ks) as (r1 & d1 & _ & _ & _ & Ts). destruct (substrate_text _ Os' Ks') as (r1' & d1' & _ & _ & _ & Ts').
    assert (X : forall ls, Forall film_layer ls -> Forall (fun l => l_kind l = KLayer \/ l_kind l = KConstantLayer) ls -> exists ts, Forall2 (fun l u => text l = Ok u) ls ts).
    { clear. intros ls F K. induction ls as [|l ls IH]; [exists []; constructor|]. inversion F; inversion K; subst. destruct IH as (ts & IH); try assumption. destruct (film_text l) as (t & r & d & _ & _ & _ & E); try assumption. eexists. constructor; [exact E|exact IH]. }
    destruct (X _ Of Kf) as (ts & Tf). destruct (X _ Of' Kf') as (ts' & Tf'). clear X.
    match type of Ta with _ = Ok ?x => set (ta := x) in Ta end. match type of Ta' with _ = Ok ?x => set (ta' := x) in Ta' end. match type of Ts with _ = Ok ?x => set (tb := x) in Ts end. match type of Ts' with _ = Ok ?x => set (tb' := x) in Ts' end.
    assert (La : lines_in ta = lines_in ta') by (unfold ta, ta'; rewrite !lines_app, !(lines_none _ (param_line _)), (lines_none (l_name (st_ambient s))), (lines_none (l_name (st_ambient s'))) by assumption; reflexivity).
    assert (Lb : lines_in tb = lines_in tb') by (unfold tb, tb'; rewrite !lines_app, !(lines_none _ (param_line _)), (lines_none (l_name (st_substrate s))), (lines_none (l_name (st_substrate s'))) by assumption; reflexivity).
    pose proof (eq_trans (eq_sym T) (text_of_sample s _ _ ts Ta Ts Tf)) as E. pose proof (eq_trans (eq_sym T') (text_of_sample s' _ _ ts' Ta' Ts' Tf')) as E'. apply Ok_inj in E, E'. rewrite E in E'.
    assert (L : List.length (st_layers s) = List.length (st_layers s')).
    { pose proof (f_equal lines_in E') as Q. rewrite !lines_app in Q. rewrite !(entries_lines 0) in Q by assumption. lia. }
    destruct (ambient_inj (st_ambient s) (st_ambient s') ta ta' _ _ ltac:(assumption) ltac:(assumption) Oa Oa' Ka Ka' ltac:(assumption) ltac:(assumption) Ta Ta' E') as [A B].
    destruct (entries_inj 0 (st_layers s) (st_layers s') ts ts' _ _ Mf Mf' Of Kf Nf Of' Kf' Nf' Tf Tf' L B) as [C D].
    split; [exact A|]. split; [|exact C]. exact (substrate_inj _ _ tb tb' Ms1 Ms1' Os Os' Ks Ks' Ns Ns' Ts Ts' D). Qed.
End Text.

(** ** Indexing *)
Lemma get_layer s i l : nth_error (st_layers s) i = Some l -> sample_get s (Z.of_nat i + 1) = Ok l.
Proof. intros H. unfold sample_get. replace (Z.of_nat i + 1)%Z with (Z.of_nat (S i)) by lia. apply py_get_nat. unfold sample_structure. cbn [List.app nth_error]. rewrite nth_error_app1; [exact H|]. apply nth_error_Some. rewrite H. discriminate. Qed.
Lemma get_ends s : sample_get s 0 = Ok (st_substrate s) /\ sample_get s (-1) = Ok (st_ambient s) /\ sample_len s = (List.length (st_layers s) + 2)%nat.
Proof. split; [reflexivity|]. unfold sample_get, sample_len, sample_structure. cbn [List.app]. split; [|cbn [List.length]; rewrite app_length; cbn; lia].
  unfold py_get, norm_idx. replace ((0 <=? -1)%Z && _)%bool with false by reflexivity. set (n := List.length _).
  assert (E : n = (List.length (st_layers s) + 2)%nat) by (unfold n; cbn [List.length]; rewrite app_length; cbn; lia). clearbody n. subst n.
  replace (_ <=? -1)%Z with true by (symmetry; apply Z.leb_le; lia). cbn [andb Z.ltb Z.compare]. replace (Z.to_nat _) with (S (List.length (st_layers s) + 0)) by lia. cbn [nth_error]. rewrite nth_error_app2 by lia.
  replace (_ + 0 - _)%nat with 0%nat by lia. reflexivity. Qed.
Lemma get_beyond s i : (Z.of_nat (List.length (st_layers s)) + 2 <= i)%Z -> sample_get s i = Raise IndexError.
Proof. intros H. unfold sample_get, py_get, norm_idx. pose proof (proj2 (proj2 (get_ends s))) as L. unfold sample_len in L. rewrite L. destruct (Z.ltb_spec i (Z.of_nat (List.length (st_layers s) + 2))); [lia|]. rewrite Bool.andb_false_r. destruct (Z.ltb_spec i 0); [lia|]. rewrite Bool.andb_false_r. reflexivity. Qed.

(** ** Comparison *)
Lemma stands_float o y : stands_for o y -> operand_float o = Ok y.
Proof. destruct o as [[x|]|[? ? ?|[x|] ?]|]; cbn; try contradiction; intros ->; reflexivity. Qed.
Lemma rel_iff r x y : rel_holds r x y = true <-> related r x y.
Proof. destruct r; cbn [rel_holds related]; unfold Reqb, Rltb, Rleb; repeat match goal with |- context [if ?d then _ else _] => destruct d end; cbn; split; intros; try discriminate; try reflexivity; try lra; try contradiction; auto. Qed.
Lemma compare_real r x o y : stands_for o y -> exists b, const_compare r (Flt x) o = Ok b /\ (b = true <-> related r x y).
Proof. intros H. unfold const_compare. cbn [num_float bind]. rewrite (stands_float o y H). cbn [bind]. eexists. split; [reflexivity|]. apply rel_iff. Qed.

(** ** Ranges *)
Lemma ranges_film l : film_layer l -> l_kind l = KLayer \/ l_kind l = KConstantLayer ->
  layer_ranges l = Ok (List.concat (map (fun kp => [("min_" ++ fst kp, p_min (snd kp)); ("max_" ++ fst kp, p_max (snd kp))]) (parameters_of l))).
Proof. intros ((t & Et & _) & (r & Er & _) & (d & Ed & _)) K. unfold layer_ranges, parameters_of. rewrite Et, Er, Ed. destruct K as [-> | ->]; reflexivity. Qed.
Lemma ranges_substrate l : substrate_layer l -> l_kind l = KSubstrate ->
  layer_ranges l = Ok (List.concat (map (fun kp => [("min_" ++ fst kp, p_min (snd kp)); ("max_" ++ fst kp, p_max (snd kp))]) (parameters_of l))).
Proof. intros (Et & (r & Er & _) & (d & Ed & _)) K. unfold layer_ranges, parameters_of. rewrite Et, Er, Ed, K. reflexivity. Qed.
Lemma ranges_ambient l : ambient_layer l -> l_kind l = KAmbient ->
  layer_ranges l = Ok (List.concat (map (fun kp => [("min_" ++ fst kp, p_min (snd kp)); ("max_" ++ fst kp, p_max (snd kp))]) (parameters_of l))).
Proof. intros (Et & Er & (d & Ed & _)) K. unfold layer_ranges, parameters_of. rewrite Et, Er, Ed, K. reflexivity. Qed.
Lemma missing_sld show l : l_sld l = None -> (forall t, layer_text show l = Ok t -> exists a, t = a ++ "sld: None [1e-6 1/Å^2]") /\
  (l_kind l = KAmbient -> layer_text show l = Ok (l_name l ++ " (ambient):" ++ nl ++ tab ++ "sld: None [1e-6 1/Å^2]")).
Proof. intros E. unfold layer_text. rewrite E. cbn [sld_text]. change ("sld: " ++ "None" ++ " [1e-6 1/Å^2]") with "sld: None [1e-6 1/Å^2]". split; [|intros ->; reflexivity].
  intros t H. destruct (l_kind l); repeat match type of H with (bind (attr_text show ?p) _ = _) => destruct (attr_text show p); [|discriminate]; cbn [bind] in H end;
    (assert (E2 := f_equal (fun x => match x with Ok y => y | Raise _ => t end) H)); cbv beta iota in E2; rewrite <- E2, <- !append_assoc; eexists; reflexivity. Qed.
Lemma missing_length show show_n s i l : nth_error (st_layers s) i = Some l -> l_kind l = KLayer \/ l_kind l = KConstantLayer -> l_thickness l = None \/ l_roughness l = None ->
  layer_text show l = Raise AttributeError /\ forall t, sample_text show show_n s <> Ok t.
Proof. intros N K M. assert (E : layer_text show l = Raise AttributeError).
  { unfold layer_text. destruct K as [-> | ->]; destruct M as [M|M]; rewrite M; cbn [attr_text bind]; try reflexivity; destruct (l_thickness l); reflexivity. }
  split; [exact E|]. intros t H. unfold sample_text in H. destruct (layer_text show (st_ambient s)) as [a|]; [|discriminate]. cbn [bind] in H. match type of H with bind ?x _ = _ => destruct x as [out|] eqn:Eo; [|discriminate] end. clear H.
  assert (I : In i (rev (seq 0 (List.length (st_layers s))))) by (apply in_rev; rewrite rev_involutive; apply in_seq; assert (i < List.length (st_layers s))%nat by (apply nth_error_Some; congruence); lia).
  revert out Eo. generalize (a ++ nl). induction (rev (seq 0 (List.length (st_layers s)))) as [|j js IH]; intros o out Eo; [contradiction|]. cbn [foldM] in Eo. destruct I as [->|I].
  - rewrite (py_get_nat _ _ N) in Eo. cbn [bind] in Eo. rewrite E in Eo. discriminate.
  - match type of Eo with bind ?x _ = _ => destruct x as [o'|]; [|discriminate] end. exact (IH I _ _ Eo). Qed.
