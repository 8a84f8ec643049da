(** Lemmas about the SPEC parser. *)
From Coq Require Import Reals Lra DecimalString Decimal DecimalN DecimalFacts.
From Verif Require Import Py Str Arr Footprint_Model Scan_Model Spec_Model SpecFile_Spec.
Local Open Scope string_scope.

(** ** Text *)
Lemma split_ws_blank cur s : blank s -> split_ws_aux cur s = match cur with "" => [] | _ => [rev_string cur] end.
Proof. unfold blank. revert cur; induction s as [|c s IH]; intros cur H; cbn [split_ws_aux]; [reflexivity|].
  cbn [str_forall] in H. apply andb_true_iff in H. destruct H as [H1 H2]. rewrite H1. rewrite IH by exact H2. destruct cur; reflexivity. Qed.

Lemma split_ws_skip pre s : blank pre -> split_ws_aux "" (pre ++ s) = split_ws_aux "" s.
Proof. unfold blank. induction pre as [|c p IH]; intros H; cbn [append split_ws_aux]; [reflexivity|].
  cbn [str_forall] in H. apply andb_true_iff in H. destruct H as [H1 H2]. rewrite H1. apply IH, H2. Qed.

Lemma split_ws_word cur w s : str_forall (fun c => negb (is_space c)) w = true ->
  split_ws_aux cur (w ++ s) = split_ws_aux (rev_string w ++ cur) s.
Proof. revert cur; induction w as [|c w IH]; intros cur H; cbn [append rev_string split_ws_aux]; [reflexivity|].
  cbn [str_forall] in H. apply andb_true_iff in H. destruct H as [H1 H2]. apply negb_true_iff in H1. rewrite H1.
  rewrite IH by exact H2. rewrite append_assoc. reflexivity. Qed.

Lemma rev_string_nil s : rev_string s = "" -> s = "".
Proof. intros H. rewrite <- (rev_string_involutive s), H. reflexivity. Qed.

Lemma split_ws_words ws s : words_of ws s -> split_ws s = ws.
Proof. unfold split_ws. induction 1 as [s H|pre w ws rest Hp [Hn Hw] H IH Hr].
  - apply (split_ws_blank "" s H).
  - rewrite split_ws_skip by exact Hp. rewrite split_ws_word by exact Hw. rewrite append_nil_r.
    destruct Hr as [-> | (c & r & -> & Hc)].
    + cbn [split_ws_aux] in *. destruct (rev_string w) as [|x y] eqn:E; [apply rev_string_nil in E; contradiction|].
      rewrite <- E, rev_string_involutive, <- IH. reflexivity.
    + cbn [split_ws_aux] in *. rewrite Hc in *. destruct (rev_string w) as [|x y] eqn:E; [apply rev_string_nil in E; contradiction|].
      rewrite <- E, rev_string_involutive, <- IH. reflexivity. Qed.

Lemma rstrip_by_nil p s : rstrip_by p s = "" <-> str_forall p s = true.
Proof. induction s as [|c s IH]; cbn [rstrip_by str_forall]; [split; reflexivity|].
  destruct (rstrip_by p s) as [|d r]; destruct (p c) eqn:E; cbn [andb]; split; intros H; try reflexivity; try discriminate.
  - apply IH; reflexivity.
  - apply IH in H; discriminate. Qed.

Lemma rstrip_by_idem p s : rstrip_by p (rstrip_by p s) = rstrip_by p s.
Proof. induction s as [|c s IH]; cbn [rstrip_by]; [reflexivity|].
  destruct (rstrip_by p s) as [|d r] eqn:E.
  - destruct (p c) eqn:F; [reflexivity|]. cbn [rstrip_by]. rewrite F. reflexivity.
  - change (match rstrip_by p (String d r) with "" => if p c then "" else String c "" | String a s0 => String c (String a s0) end = String c (String d r)).
    rewrite IH. reflexivity. Qed.

Lemma lstrip_by_forall p s : str_forall p (lstrip_by p s) = true -> str_forall p s = true.
Proof. induction s as [|c s IH]; cbn [lstrip_by str_forall]; [reflexivity|]. destruct (p c) eqn:E; cbn [andb]; [apply IH|].
  cbn [str_forall]. rewrite E. intros H; exact H. Qed.

Lemma strip_nonblank l : rstrip l = l -> l <> "" -> strip l <> "".
Proof. intros H Hn K. apply Hn. rewrite <- H. unfold rstrip, strip, lstrip in *. apply rstrip_by_nil in K. apply lstrip_by_forall in K. apply rstrip_by_nil, K. Qed.

(** ** Decimal numbers *)
Fixpoint uint_acc (acc : Z) (u : uint) : Z :=
  match u with
  | Nil => acc
  | D0 u => uint_acc (acc * 10 + 0) u | D1 u => uint_acc (acc * 10 + 1) u | D2 u => uint_acc (acc * 10 + 2) u
  | D3 u => uint_acc (acc * 10 + 3) u | D4 u => uint_acc (acc * 10 + 4) u | D5 u => uint_acc (acc * 10 + 5) u
  | D6 u => uint_acc (acc * 10 + 6) u | D7 u => uint_acc (acc * 10 + 7) u | D8 u => uint_acc (acc * 10 + 8) u
  | D9 u => uint_acc (acc * 10 + 9) u
  end.

Lemma int_digits_uint u acc : int_digits acc false (NilEmpty.string_of_uint u) = Some (uint_acc acc u).
Proof. revert acc; induction u as [|u IH|u IH|u IH|u IH|u IH|u IH|u IH|u IH|u IH|u IH]; intros acc; [reflexivity|..];
  cbn [NilEmpty.string_of_uint int_digits uint_acc]; rewrite <- IH; reflexivity. Qed.

Lemma uint_acc_pos u p : uint_acc (Z.pos p) u = Z.pos (Pos.of_uint_acc u p).
Proof. revert p; induction u; intros p; cbn [uint_acc Pos.of_uint_acc]; [reflexivity|..]; rewrite <- IHu; f_equal; lia. Qed.

Lemma uint_acc_0 u : uint_acc 0 u = Z.of_N (N.of_uint u).
Proof. unfold N.of_uint. induction u; cbn [uint_acc Pos.of_uint]; try reflexivity; try (exact IHu);
  cbn [Z.mul Z.add]; apply uint_acc_pos. Qed.

Lemma dec_not_nil n : N.to_uint n <> Nil.
Proof. destruct n as [|p]; [discriminate|]. cbn [N.to_uint]. intros H.
  assert (K : Pos.of_uint (Pos.to_uint p) = N.pos p) by apply DecimalPos.Unsigned.of_to. rewrite H in K. discriminate. Qed.

Definition digits (s : string) : Prop := str_forall (fun c => match digit_val c with Some _ => true | None => false end) s = true.
Lemma digits_uint u : digits (NilEmpty.string_of_uint u).
Proof. unfold digits. induction u; [reflexivity|..]; cbn [NilEmpty.string_of_uint str_forall]; rewrite IHu; reflexivity. Qed.

Lemma digit_not_space c : match digit_val c with Some _ => true | None => false end = true -> is_space c = false /\ Ascii.eqb c "-" = false /\ Ascii.eqb c "+" = false.
Proof. destruct c as [[] [] [] [] [] [] [] []]; vm_compute; intros H; try discriminate H; auto. Qed.

Lemma str_forall_imp (p q : ascii -> bool) s : (forall c, p c = true -> q c = true) -> str_forall p s = true -> str_forall q s = true.
Proof. intros H. induction s as [|c s IH]; cbn [str_forall]; [reflexivity|]. rewrite !andb_true_iff. intros [A B]; auto. Qed.

Lemma lstrip_by_id p s : str_forall (fun c => negb (p c)) s = true -> lstrip_by p s = s.
Proof. destruct s as [|c s]; cbn [str_forall lstrip_by]; [reflexivity|]. rewrite andb_true_iff, negb_true_iff. intros [-> _]. reflexivity. Qed.
Lemma rstrip_by_id p s : str_forall (fun c => negb (p c)) s = true -> rstrip_by p s = s.
Proof. induction s as [|c s IH]; cbn [str_forall rstrip_by]; [reflexivity|]. rewrite andb_true_iff, negb_true_iff. intros [H K].
  rewrite IH by exact K. rewrite H. destruct s; reflexivity. Qed.
Lemma strip_id s : str_forall (fun c => negb (is_space c)) s = true -> strip s = s.
Proof. intros H. unfold strip, lstrip, rstrip. rewrite lstrip_by_id by exact H. apply rstrip_by_id, H. Qed.

Lemma py_int_dec n : py_int (dec n) = Ok (Z.of_N n).
Proof. unfold py_int, dec. pose proof (digits_uint (N.to_uint n)) as D. pose proof (dec_not_nil n) as N0.
  assert (V : uint_acc 0 (N.to_uint n) = Z.of_N n) by (rewrite uint_acc_0, DecimalN.Unsigned.of_to; reflexivity).
  assert (S' : strip (NilEmpty.string_of_uint (N.to_uint n)) = NilEmpty.string_of_uint (N.to_uint n)).
  { apply strip_id. apply (str_forall_imp (fun c => match digit_val c with Some _ => true | None => false end)); [|exact D].
    intros c Hc. apply digit_not_space in Hc. destruct Hc as [-> _]. reflexivity. }
  rewrite S'. unfold digits in D. destruct (NilEmpty.string_of_uint (N.to_uint n)) as [|c s] eqn:E.
  - exfalso. apply N0. destruct (N.to_uint n); cbn in E; try discriminate E; reflexivity.
  - cbn [str_forall] in D. apply andb_true_iff in D. destruct D as [Dc Ds]. destruct (digit_not_space c Dc) as (_ & -> & ->).
    assert (K : int_digits 0 true (String c s) = int_digits 0 false (String c s)).
    { cbn [int_digits]. destruct (digit_val c); [reflexivity|discriminate Dc]. }
    rewrite K, <- E, int_digits_uint, V. reflexivity. Qed.

(** ** The scan index *)
Definition step (l : string) (i : nat) (e : entry) : entry :=
  if startswith "#D" l then mkEntry (e_start e) (e_end e) (e_command e) (Some (join " " (py_slice (split_ws l) (Some 1%Z) None))) (e_data e)
  else if startswith "#L" l then mkEntry (e_start e) (e_end e) (e_command e) (e_time e) (Some i) else e.
Fixpoint upd (ls : list string) (i : nat) (e : entry) : entry :=
  match ls with [] => e | l :: ls' => upd ls' (S i) (step l i e) end.
Definition with_end (e : entry) (k : nat) : entry := mkEntry (e_start e) (Some k) (e_command e) (e_time e) (e_data e).

Lemma upd_app a b i e : upd (a ++ b) i e = upd b (i + List.length a) (upd a i e).
Proof. revert i e; induction a as [|l a IH]; intros i e; cbn [app upd List.length]; [now rewrite Nat.add_0_r|].
  rewrite IH. f_equal. lia. Qed.

Lemma read_body body rest i num e :
  Forall (fun l => strip l <> "") body -> no_scan body -> (rest = [] \/ exists r, rest = "" :: r) ->
  read_scan (body ++ rest) i num e = Ok (num, with_end (upd body i e) (i + List.length body - 1)).
Proof. intros Hb Hn Hr. revert i e; induction body as [|l body IH]; intros i e.
  - cbn [app upd List.length]. rewrite Nat.add_0_r. destruct Hr as [-> | [r ->]]; reflexivity.
  - inversion Hb as [|? ? Hl Hb']; subst. inversion Hn as [|? ? Hs Hn']; subst.
    cbn [app read_scan upd List.length]. rewrite Hs. unfold step.
    replace (i + S (List.length body) - 1)%nat with (S i + List.length body - 1)%nat by lia.
    destruct (startswith "#D" l); [apply IH; assumption|]. destruct (startswith "#L" l); [apply IH; assumption|].
    destruct (String.eqb_spec (strip l) ""); [contradiction|]. apply IH; assumption. Qed.

Lemma next_scan_skip a l b i : no_scan a -> startswith "#S" l = true -> next_scan (a ++ l :: b) i = Some (i + List.length a)%nat.
Proof. intros H Hl. revert i; induction H as [|x a Hx H IH]; intros i; cbn [app next_scan List.length].
  - rewrite Hl. f_equal; lia.
  - rewrite Hx, IH. f_equal; lia. Qed.
Lemma next_scan_none a i : no_scan a -> next_scan a i = None.
Proof. intros H. revert i; induction H as [|x a Hx H IH]; intros i; cbn [next_scan]; [reflexivity|]. rewrite Hx. apply IH. Qed.

Lemma skipn_exact {A} (a b : list A) n : List.length a = n -> skipn n (a ++ b) = b.
Proof. intros <-. induction a; simpl; auto. Qed.

Definition first_entry (b : block) (i : nat) : entry := mkEntry i None (Some (join " " (b_command b))) None None.
Definition block_entry (b : block) (i : nat) : entry := with_end (upd (b_body b) (S i) (first_entry b i)) (i + List.length (b_body b)).
Fixpoint entries (i : nat) (bs : list block) : list (Z * entry) :=
  match bs with
  | [] => []
  | b :: bs' => (Z.of_N (b_number b), block_entry b i) :: entries (i + List.length (block_lines b)) bs'
  end.
Definition set_all (idx : index) (l : list (Z * entry)) : index := fold_left (fun d ke => dict_set Z.eqb d (fst ke) (snd ke)) l idx.

Lemma read_block b rest i : block_ok b -> Forall (fun l => rstrip l = l) (b_body b) -> (rest = [] \/ exists r, rest = "" :: r) ->
  read_scan (b_head b :: b_body b ++ rest) i None (mkEntry i None None None None) = Ok (Some (dec (b_number b)), block_entry b i).
Proof. intros (Hh & [tag Hw] & Hb & Hn) Hstrip Hr. cbn [read_scan]. rewrite Hh. apply split_ws_words in Hw. rewrite Hw.
  change (py_get (tag :: dec (b_number b) :: b_command b) 1) with (py_get (tag :: dec (b_number b) :: b_command b) (Z.of_nat 1)).
  rewrite (py_get_nat (tag :: dec (b_number b) :: b_command b) 1 (x := dec (b_number b)) eq_refl). cbn [bind].
  assert (SL : py_slice (tag :: dec (b_number b) :: b_command b) (Some 2%Z) None = b_command b).
  { unfold py_slice. change 2%Z with (Z.of_nat 2). rewrite clamp_idx_nat. cbn [List.length]. rewrite Nat.min_l by lia. cbn [skipn].
    apply firstn_all2. lia. }
  rewrite SL. cbn [e_start e_end e_time e_data]. rewrite read_body; [|clear - Hb Hstrip|exact Hn|exact Hr].
  - unfold block_entry. do 2 f_equal. unfold first_entry. f_equal. lia.
  - rewrite Forall_forall in *. intros l Hl. apply strip_nonblank; auto. Qed.

Lemma gaps_tail b bs : gaps_ok (b :: bs) -> bs <> [] -> gap_ok (b_gap b) /\ gaps_ok bs.
Proof. destruct bs as [|c bs]; [contradiction|]. intros H _. exact H. Qed.

Lemma block_end b i : e_end (block_entry b i) = Some (i + List.length (b_body b)).
Proof. reflexivity. Qed.

Lemma index_blocks bs : forall depth pre skip idx,
  Forall block_ok bs -> gaps_ok bs -> no_scan skip ->
  Forall (fun l => rstrip l = l) (List.concat (map block_lines bs)) ->
  (List.length bs < depth)%nat ->
  index_scans depth (pre ++ skip ++ List.concat (map block_lines bs)) (List.length pre) idx =
    Ok (set_all idx (entries (List.length pre + List.length skip) bs)).
Proof. induction bs as [|b bs IH]; intros depth pre skip idx Hb Hg Hs Hst Hd; destruct depth as [|depth]; try (cbn in Hd; lia).
  - cbn [index_scans map List.concat]. rewrite app_nil_r, skipn_exact by reflexivity. rewrite next_scan_none by exact Hs. reflexivity.
  - inversion Hb as [|? ? Hb1 Hb2]; subst. cbn [map List.concat] in Hst. apply Forall_app in Hst. destruct Hst as [St1 St2].
    cbn [index_scans map List.concat]. rewrite skipn_exact by reflexivity.
    assert (EB : (block_lines b ++ List.concat (map block_lines bs) = b_head b :: b_body b ++ b_gap b ++ List.concat (map block_lines bs))%list)
      by (unfold block_lines at 1; rewrite <- app_comm_cons, <- app_assoc; reflexivity).
    rewrite EB. clear EB.
    rewrite next_scan_skip; [|exact Hs|apply Hb1].
    assert (E : (pre ++ skip ++ b_head b :: b_body b ++ b_gap b ++ List.concat (map block_lines bs) =
      (pre ++ skip) ++ b_head b :: b_body b ++ (b_gap b ++ List.concat (map block_lines bs)))%list) by (rewrite <- app_assoc; reflexivity).
    rewrite E, skipn_exact by apply app_length. clear E.
    assert (R : (b_gap b ++ List.concat (map block_lines bs))%list = [] \/ exists r, (b_gap b ++ List.concat (map block_lines bs))%list = "" :: r).
    { destruct bs as [|c bs]; [destruct Hg as [-> | (g & -> & _)]; [left|right; exists (g ++ [])%list]; reflexivity|].
      destruct Hg as [(g & -> & _) _]. right. eexists. reflexivity. }
    assert (St : Forall (fun l => rstrip l = l) (b_body b)).
    { unfold block_lines in St1. inversion St1 as [|? ? _ F]; subst. apply Forall_app in F. apply F. }
    rewrite (read_block b _ _ Hb1 St R). cbn [bind]. rewrite block_end, py_int_dec. cbn [bind].
    set (k := (List.length pre + List.length skip)%nat).
    assert (G : no_scan (b_gap b) /\ gaps_ok bs).
    { destruct bs as [|c bs]; [split; [|exact I]; destruct Hg as [-> | (g & -> & Hg)]|destruct Hg as [(g & -> & Hg) Hg']; split; [|exact Hg']];
        try (constructor; [reflexivity|exact Hg]). constructor. }
    destruct G as [G1 G2]. cbn [List.length] in Hd.
    specialize (IH depth (pre ++ skip ++ b_head b :: b_body b)%list (b_gap b) (dict_set Z.eqb idx (Z.of_N (b_number b)) (block_entry b k)) Hb2 G2 G1 St2 ltac:(lia)).
    assert (L : List.length (pre ++ skip ++ b_head b :: b_body b) = (k + List.length (b_body b) + 1)%nat).
    { rewrite !app_length. cbn [List.length]. unfold k. lia. }
    rewrite L in IH. assert (E : ((pre ++ skip) ++ b_head b :: b_body b ++ b_gap b ++ List.concat (map block_lines bs) =
      (pre ++ skip ++ b_head b :: b_body b) ++ b_gap b ++ List.concat (map block_lines bs))%list) by (rewrite <- !app_assoc; reflexivity).
    rewrite E, IH. cbn [entries]. unfold set_all. cbn [fold_left fst snd].
    do 3 f_equal. unfold block_lines. cbn [List.length]. rewrite app_length. lia. Qed.

Lemma stripped_lines file : Forall (fun l => rstrip l = l) (map rstrip file).
Proof. apply Forall_forall. intros l Hl. apply in_map_iff in Hl. destruct Hl as (l0 & <- & _). apply rstrip_by_idem. Qed.

Lemma parse_file depth file prelude bs : spec_file file prelude bs -> (List.length bs < depth)%nat ->
  spec_parser depth file = Ok (mkParser (map rstrip file) (set_all [] (entries (List.length prelude) bs))).
Proof. intros (E & Hp & Hb & Hg) Hd. unfold spec_parser. pose proof (stripped_lines file) as St. rewrite E in St.
  apply Forall_app in St. destruct St as [_ St].
  pose proof (index_blocks bs depth [] prelude [] Hb Hg Hp St Hd) as K. cbn [app List.length Nat.add] in K.
  rewrite <- E in K. rewrite K. reflexivity. Qed.

(** ** Dictionaries *)
Section DictFacts.
Context {K V : Type}.
Variable eqb : K -> K -> bool.
Hypothesis eqb_ok : forall a b, eqb a b = true <-> a = b.
Lemma eqb_refl' a : eqb a a = true. Proof. apply eqb_ok; reflexivity. Qed.
Lemma eqb_neq a b : a <> b -> eqb a b = false.
Proof. intros H. destruct (eqb a b) eqn:E; [apply eqb_ok in E; contradiction|reflexivity]. Qed.
Lemma dict_get_set (d : list (K * V)) k v k' : dict_get eqb (dict_set eqb d k v) k' = if eqb k k' then Some v else dict_get eqb d k'.
Proof. induction d as [|[a b] d IH]; cbn [dict_set dict_get]; [reflexivity|].
  destruct (eqb a k) eqn:E; cbn [dict_get].
  - apply eqb_ok in E. subst a. destruct (eqb k k'); reflexivity.
  - rewrite IH. destruct (eqb k k') eqn:F; [|reflexivity]. apply eqb_ok in F. subst k'. rewrite E. reflexivity. Qed.
Lemma dict_set_keys (d : list (K * V)) k v k' : In k' (map fst (dict_set eqb d k v)) <-> k' = k \/ In k' (map fst d).
Proof. induction d as [|[a b] d IH]; cbn [dict_set map fst In]; [intuition|].
  destruct (eqb a k) eqn:E; cbn [map fst In].
  - apply eqb_ok in E. subst a. intuition.
  - rewrite IH. intuition. Qed.
Lemma dict_set_NoDup (d : list (K * V)) k v : NoDup (map fst d) -> NoDup (map fst (dict_set eqb d k v)).
Proof. induction d as [|[a b] d IH]; cbn [dict_set map fst]; intros H; [constructor; [intros []|constructor]|].
  inversion H as [|? ? Hn Hd]; subst. destruct (eqb a k) eqn:E; cbn [map fst].
  - apply eqb_ok in E. subst a. exact H.
  - constructor; [|apply IH, Hd]. rewrite dict_set_keys. intros [-> |J]; [|contradiction]. rewrite eqb_refl' in E. discriminate. Qed.
Lemma dict_set_fresh (d : list (K * V)) k v : ~ In k (map fst d) -> dict_set eqb d k v = (d ++ [(k, v)])%list.
Proof. induction d as [|[a b] d IH]; cbn [dict_set map fst In app]; intros H; [reflexivity|].
  rewrite eqb_neq by (intros ->; apply H; left; reflexivity). rewrite IH by (intros J; apply H; right; exact J). reflexivity. Qed.
Definition set_list (d : list (K * V)) (l : list (K * V)) := fold_left (fun d ke => dict_set eqb d (fst ke) (snd ke)) l d.
Lemma set_list_keys l : forall d k, In k (map fst (set_list d l)) <-> In k (map fst l) \/ In k (map fst d).
Proof. unfold set_list. induction l as [|[a b] l IH]; intros d k; cbn [fold_left map fst snd In]; [intuition|].
  rewrite IH, dict_set_keys. intuition. Qed.
Lemma set_list_NoDup l : forall d, NoDup (map fst d) -> NoDup (map fst (set_list d l)).
Proof. unfold set_list. induction l as [|[a b] l IH]; intros d H; cbn [fold_left fst snd]; [exact H|]. apply IH, dict_set_NoDup, H. Qed.
Lemma set_list_other l : forall d k, ~ In k (map fst l) -> dict_get eqb (set_list d l) k = dict_get eqb d k.
Proof. unfold set_list. induction l as [|[a b] l IH]; intros d k H; cbn [fold_left fst snd]; [reflexivity|]. cbn [map fst In] in H.
  rewrite IH by tauto. rewrite dict_get_set, eqb_neq by (intros ->; tauto). reflexivity. Qed.
Lemma set_list_last a k v c : forall d, ~ In k (map fst c) -> dict_get eqb (set_list d (a ++ (k, v) :: c)) k = Some v.
Proof. intros d H. unfold set_list. rewrite fold_left_app. cbn [fold_left fst snd].
  change (dict_get eqb (set_list (dict_set eqb (fold_left (fun d0 ke => dict_set eqb d0 (fst ke) (snd ke)) a d) k v) c) k = Some v).
  rewrite set_list_other by exact H. rewrite dict_get_set, eqb_refl'. reflexivity. Qed.
Lemma set_list_distinct l : forall d, NoDup (map fst d ++ map fst l) -> set_list d l = (d ++ l)%list.
Proof. unfold set_list. induction l as [|[a b] l IH]; intros d H; cbn [fold_left fst snd]; [now rewrite app_nil_r|].
  cbn [map fst] in H. rewrite dict_set_fresh by (intros J; apply NoDup_remove_2 in H; apply H, in_or_app; left; exact J).
  rewrite IH; [rewrite <- app_assoc; reflexivity|]. rewrite map_app. cbn [map fst]. rewrite <- app_assoc. exact H. Qed.
End DictFacts.

Lemma entries_keys bs : forall i, map fst (entries i bs) = map (fun b => Z.of_N (b_number b)) bs.
Proof. induction bs as [|b bs IH]; intros i; cbn [entries map fst]; [reflexivity|]. rewrite IH. reflexivity. Qed.
Lemma entries_app a c : forall i, entries i (a ++ c) = (entries i a ++ entries (i + List.length (List.concat (map block_lines a))) c)%list.
Proof. induction a as [|b a IH]; intros i; cbn [app entries map List.concat List.length]; [now rewrite Nat.add_0_r|].
  rewrite IH. do 2 f_equal. rewrite app_length. f_equal. lia. Qed.

(** Position and entry of the last block with a number *)
Lemma last_entry depth file prelude bs l b r : spec_file file prelude bs -> (List.length bs < depth)%nat ->
  bs = (l ++ b :: r)%list -> Forall (fun b' => b_number b' <> b_number b) r ->
  exists p, spec_parser depth file = Ok p /\ p_lines p = map rstrip file /\
    dict_get Z.eqb (p_index p) (Z.of_N (b_number b)) = Some (block_entry b (List.length (prelude ++ List.concat (map block_lines l)))).
Proof. intros Hf Hd -> Hr. eexists. split; [apply (parse_file _ _ _ _ Hf Hd)|]. split; [reflexivity|]. cbn [p_index].
  rewrite entries_app. cbn [entries]. rewrite app_length.
  apply (set_list_last Z.eqb Z.eqb_eq). rewrite entries_keys. intros J. apply in_map_iff in J. destruct J as (b' & J & Hb').
  rewrite Forall_forall in Hr. apply (Hr b' Hb'). lia. Qed.

(** ** Contents of an entry *)
Lemma prefix_disjoint (l : string) : startswith "#D" l = true -> startswith "#L" l = false.
Proof. unfold startswith. intros H. apply prefix_iff in H. destruct H as [r ->]. reflexivity. Qed.

Lemma upd_time ls i e : e_time (upd ls i e) =
  match last_with "#D" ls with Some l => Some (join " " (py_slice (split_ws l) (Some 1%Z) None)) | None => e_time e end.
Proof. unfold last_with. revert i e. induction ls as [|l ls IH] using rev_ind; intros i e; [reflexivity|].
  rewrite upd_app, rev_app_distr. cbn [upd rev app find]. unfold step. destruct (startswith "#D" l); [reflexivity|].
  destruct (startswith "#L" l); cbn [e_time]; apply IH. Qed.
Lemma upd_command ls i e : e_command (upd ls i e) = e_command e.
Proof. revert i e. induction ls as [|l ls IH]; intros i e; [reflexivity|]. cbn [upd]. rewrite IH. unfold step.
  destruct (startswith "#D" l); [reflexivity|]. destruct (startswith "#L" l); reflexivity. Qed.
Lemma upd_start ls i e : e_start (upd ls i e) = e_start e.
Proof. revert i e. induction ls as [|l ls IH]; intros i e; [reflexivity|]. cbn [upd]. rewrite IH. unfold step.
  destruct (startswith "#D" l); [reflexivity|]. destruct (startswith "#L" l); reflexivity. Qed.
Lemma upd_data_none ls i e : Forall (fun l => startswith "#L" l = false) ls -> e_data (upd ls i e) = e_data e.
Proof. revert i e. induction ls as [|l ls IH]; intros i e H; [reflexivity|]. inversion H as [|? ? H1 H2]; subst. cbn [upd]. rewrite IH by exact H2.
  unfold step. rewrite H1. destruct (startswith "#D" l); reflexivity. Qed.
Lemma upd_data a l c i e : startswith "#L" l = true -> Forall (fun l => startswith "#L" l = false) c ->
  e_data (upd (a ++ l :: c) i e) = Some (i + List.length a)%nat.
Proof. intros Hl Hc. rewrite upd_app. cbn [upd]. rewrite upd_data_none by exact Hc. unfold step.
  destruct (startswith "#D" l) eqn:E; [apply prefix_disjoint in E; congruence|]. rewrite Hl. reflexivity. Qed.

Lemma words_tail tag ws l : words_of (tag :: ws) l -> py_slice (split_ws l) (Some 1%Z) None = ws.
Proof. intros H. apply split_ws_words in H. rewrite H. unfold py_slice. change 1%Z with (Z.of_nat 1). rewrite clamp_idx_nat.
  cbn [List.length]. rewrite Nat.min_l by lia. cbn [skipn]. apply firstn_all2. lia. Qed.

(** ** Column names *)
Lemma split_two_app (c : ascii) s : split_two " " " " (String c s) =
  match s with
  | String d s2 => if Ascii.eqb c " " && Ascii.eqb d " " then "" :: split_two " " " " s2
                   else match split_two " " " " s with [] => [String c ""] | w :: ws => String c w :: ws end
  | "" => [String c ""]
  end.
Proof. destruct s as [|d s2]; reflexivity. Qed.

Lemma split_two_nil s : split_two " " " " s <> [].
Proof. destruct s as [|c s]; [discriminate|]. rewrite split_two_app. destruct s as [|d s2]; [discriminate|].
  destruct (_ && _); [discriminate|]. destruct (split_two " " " " (String d s2)); discriminate. Qed.

Lemma join_cons sep w ws : ws <> [] -> join sep (w :: ws) = w ++ sep ++ join sep ws.
Proof. destruct ws; [contradiction|reflexivity]. Qed.

Lemma join_split_two s : join "  " (split_two " " " " s) = s.
Proof. remember (String.length s) as n eqn:E. assert (L : (String.length s <= n)%nat) by lia. clear E. revert s L.
  induction n as [|n IH]; intros s L; (destruct s as [|c s]; [reflexivity|]); cbn [String.length] in L; [lia|].
  rewrite split_two_app. destruct s as [|d s2]; [reflexivity|]. destruct (Ascii.eqb c " " && Ascii.eqb d " ") eqn:E.
  - apply andb_true_iff in E. destruct E as [E1 E2]. apply Ascii.eqb_eq in E1, E2. subst.
    rewrite join_cons by apply split_two_nil. rewrite IH by (cbn [String.length] in L; lia). reflexivity.
  - pose proof (IH (String d s2) ltac:(lia)) as K. destruct (split_two " " " " (String d s2)) as [|w ws] eqn:F; [apply split_two_nil in F; contradiction|].
    destruct ws as [|w' ws]; [cbn [join] in *; congruence|]. rewrite <- K. reflexivity. Qed.

Lemma contains_two w : contains "  " (String " " (String " " w)) = true.
Proof. apply contains_iff. exists "", w. reflexivity. Qed.
Lemma split_two_word w : separable w -> split_two " " " " w = [w].
Proof. intros [H _]. induction w as [|c w IH]; [reflexivity|]. rewrite split_two_app. destruct w as [|d w]; [reflexivity|].
  destruct (Ascii.eqb c " " && Ascii.eqb d " ") eqn:E.
  - apply andb_true_iff in E. destruct E as [E1 E2]. apply Ascii.eqb_eq in E1, E2. subst. rewrite contains_two in H. discriminate H.
  - rewrite IH; [reflexivity|]. cbn [contains] in H. apply orb_false_iff in H. exact (proj2 H). Qed.

Lemma split_two_sep w s : separable w -> split_two " " " " (w ++ "  " ++ s) = w :: split_two " " " " s.
Proof. intros [H E]. induction w as [|c w IH]; [reflexivity|]. change (String c w ++ "  " ++ s) with (String c (w ++ "  " ++ s)). rewrite split_two_app.
  destruct (w ++ "  " ++ s) as [|d t] eqn:F; [destruct w; discriminate F|].
  assert (Hw : contains "  " w = false) by (cbn [contains] in H; apply orb_false_iff in H; exact (proj2 H)).
  assert (N : Ascii.eqb c " " && Ascii.eqb d " " = false).
  { apply not_true_is_false. intros J. apply andb_true_iff in J. destruct J as [J1 J2]. apply Ascii.eqb_eq in J1, J2. subst.
    destruct w as [|x w]; [discriminate E|]. cbn [append] in F. injection F as -> _. rewrite contains_two in H. discriminate H. }
  rewrite N. assert (Ew : endswith " " w = false).
  { destruct (endswith " " w) eqn:G; [|reflexivity]. apply endswith_iff in G. destruct G as [r ->].
    assert (K : endswith " " (String c (r ++ " ")) = true) by (apply endswith_iff; exists (String c r); reflexivity). congruence. }
  rewrite IH by assumption. reflexivity. Qed.

Lemma split_two_join names : names <> [] -> Forall separable names -> split_two " " " " (join "  " names) = names.
Proof. induction names as [|w ws IH]; intros Hn H; [contradiction|]. inversion H as [|? ? H1 H2]; subst.
  destruct ws as [|w' ws]; [apply split_two_word, H1|]. rewrite join_cons by discriminate. rewrite split_two_sep by exact H1.
  rewrite IH by (discriminate || exact H2). reflexivity. Qed.

Lemma lstrip_by_head p c s : p c = false -> lstrip_by p (String c s) = String c s.
Proof. intros H. cbn [lstrip_by]. rewrite H. reflexivity. Qed.
Lemma lstrip_by_length p s : (String.length (lstrip_by p s) <= String.length s)%nat.
Proof. induction s as [|c s IH]; [exact (le_n 0)|]. cbn [lstrip_by]. destruct (p c); cbn [String.length]; lia. Qed.

Definition tag_char (c : ascii) : bool := has_char c "#L ".
Lemma strip_header s : lstrip_by tag_char ("#L " ++ s) = lstrip_by tag_char s.
Proof. reflexivity. Qed.
Lemma names_of_header names : names <> [] -> Forall separable names ->
  (split_two " " " " (lstrip_by tag_char (header names)) = names <-> ~ starts_with_any "#L " (join "  " names)).
Proof. intros Hn Hs. unfold header. rewrite strip_header. split.
  - intros E (c & r & F & Hc). pose proof (join_split_two (lstrip_by tag_char (join "  " names))) as J. rewrite E in J.
    rewrite F in J. cbn [lstrip_by] in J. unfold tag_char at 1 in J. rewrite Hc in J. pose proof (lstrip_by_length tag_char r) as L.
    rewrite <- J in L. cbn [String.length] in L. lia.
  - intros H. replace (lstrip_by tag_char (join "  " names)) with (join "  " names); [apply split_two_join; assumption|].
    destruct (join "  " names) as [|c r] eqn:F; [reflexivity|]. symmetry. apply lstrip_by_head.
    destruct (tag_char c) eqn:G; [|reflexivity]. exfalso. apply H. exists c, r. split; [reflexivity|exact G]. Qed.

(** ** The table of a block *)
Section Table.
Variable to_float : string -> option fl.

Lemma data_rows_lines lines rows rest : Forall2 (row_line to_float) lines rows -> Forall (fun l => l <> "") lines ->
  (rest = [] \/ exists l r, rest = l :: r /\ (startswith "#" l = true \/ l = "")) ->
  data_rows (lines ++ rest) = map split_ws lines.
Proof. intros H. induction H as [|l r lines rows [H0 _] H IH]; intros Hn Hr.
  - destruct Hr as [-> | (l & r & -> & Hl)]; [reflexivity|]. cbn [app data_rows map]. destruct Hl as [-> | ->]; reflexivity.
  - inversion Hn as [|? ? Hl Hn']; subst. cbn [app data_rows map]. rewrite H0. destruct (String.eqb_spec l ""); [contradiction|].
    cbn [orb]. rewrite IH by assumption. reflexivity. Qed.

Lemma row_words l r : row_line to_float l r -> Forall2 (fun w x => to_float w = Some x) (split_ws l) r.
Proof. intros (_ & ws & Hw & H). apply split_ws_words in Hw. rewrite Hw. exact H. Qed.

Lemma parse_rows lines rows : Forall2 (row_line to_float) lines rows -> mapM (mapM (parse_cell to_float)) (map split_ws lines) = Ok rows.
Proof. intros H. apply mapM_Ok_iff. induction H as [|l r lines rows H0 H IH]; cbn [map]; constructor; [|exact IH].
  apply mapM_Ok_iff. apply row_words in H0. clear - H0. induction H0 as [|w x ws xs E _ IH]; constructor; [|exact IH].
  unfold parse_cell. rewrite E. reflexivity. Qed.

Lemma rows_width lines rows k : Forall2 (row_line to_float) lines rows -> Forall (fun r => List.length r = k) rows ->
  Forall (fun ws => List.length ws = k) (map split_ws lines).
Proof. intros H. induction H as [|l r lines rows H0 H IH]; intros Hk; cbn [map]; constructor.
  - inversion Hk as [|? ? Hr Hk']; subst. apply row_words, Forall2_len in H0. exact H0.
  - inversion Hk; subst. apply IH. assumption. Qed.

(** Everything about the header and the data lines of a block in a file *)
Lemma block_table depth file prelude bs b names rows : spec_file file prelude bs -> (List.length bs < depth)%nat -> last_block bs b ->
  holds_table to_float b names rows -> names <> [] ->
  exists p k, spec_parser depth file = Ok p /\ data_start p (Z.of_N (b_number b)) = Ok k /\
    column_names p (Z.of_N (b_number b)) = Ok (split_two " " " " (lstrip_by tag_char (header names))) /\
    scan_data to_float p (Z.of_N (b_number b)) = Ok rows.
Proof. intros Hf Hd (l & r & E & Hr) (before & lines & after & Eb & Hrows & Hafter & Hstop & _ & Hw) Hnames.
  destruct (last_entry _ _ _ _ _ _ _ Hf Hd E Hr) as (p & Hp & Hl & Hg).
  set (i := List.length (prelude ++ List.concat (map block_lines l))) in *.
  assert (Hbody : Forall (fun s => s <> "") (b_body b)).
  { destruct Hf as (_ & _ & Hb & _). rewrite E in Hb. apply Forall_app in Hb. destruct Hb as [_ Hb]. inversion Hb as [|? ? Hb0 _]; subst. apply Hb0. }
  rewrite Eb in Hbody. apply Forall_app in Hbody. destruct Hbody as [_ Hbody]. inversion Hbody as [|? ? _ Hbody']; subst.
  apply Forall_app in Hbody'. destruct Hbody' as [Hlines Hafter_ne].
  assert (NL : Forall (fun s => startswith "#L" s = false) (lines ++ after)%list).
  { apply Forall_app. split; [|exact Hafter]. clear - Hrows. induction Hrows as [|x y xs ys [H0 _] H IH]; constructor; [|exact IH].
    destruct (startswith "#L" x) eqn:F; [|reflexivity]. apply prefix_iff in F. destruct F as [t ->]. discriminate H0. }
  assert (HD : data_start p (Z.of_N (b_number b)) = Ok (S i + List.length before)%nat).
  { unfold data_start. rewrite Hg. unfold block_entry, with_end. cbn [e_data]. rewrite Eb, upd_data; [reflexivity|reflexivity|exact NL]. }
  set (A := (prelude ++ List.concat (map block_lines l) ++ b_head b :: before)%list).
  set (T := (b_gap b ++ List.concat (map block_lines r))%list).
  assert (EL : p_lines p = (A ++ header names :: lines ++ after ++ T)%list).
  { rewrite Hl. destruct Hf as [Hf _]. rewrite Hf. rewrite map_app, concat_app. cbn [map List.concat].
    unfold block_lines at 2. rewrite Eb. unfold A, T. repeat (rewrite <- !app_assoc; cbn [app]). reflexivity. }
  assert (LA : List.length A = (S i + List.length before)%nat).
  { unfold A, i. rewrite !app_length. cbn [List.length]. lia. }
  exists p, (S i + List.length before)%nat. split; [exact Hp|]. split; [exact HD|]. split.
  - unfold column_names. rewrite HD. cbn [bind]. rewrite EL, <- LA. rewrite (py_get_nat _ (List.length A) (x := header names)) by apply nth_error_mid.
    reflexivity.
  - unfold scan_data. rewrite HD. cbn [bind]. rewrite EL.
    assert (SK : skipn (S i + List.length before + 1) (A ++ header names :: lines ++ after ++ T) = (lines ++ after ++ T)%list).
    { change (A ++ header names :: lines ++ after ++ T)%list with (A ++ [header names] ++ lines ++ after ++ T)%list. rewrite app_assoc. apply skipn_exact.
      rewrite app_length, LA. cbn [List.length]. lia. }
    rewrite SK. assert (TT : T = [] \/ exists s t, T = s :: t /\ s = "").
    { destruct Hf as (_ & _ & _ & Hgap). unfold T. clear - Hgap. revert Hgap. induction l as [|x l IH]; intros Hgap.
      - destruct r as [|c r]; [destruct Hgap as [-> | (g & -> & _)]; [left; reflexivity|right; exists "", g%list; split; [cbn; now rewrite app_nil_r|reflexivity]]|].
        destruct Hgap as [(g & -> & _) _]. right. eexists _, _. split; [reflexivity|reflexivity].
      - apply IH. apply (gaps_tail x). exact Hgap. destruct l; discriminate. }
    rewrite (data_rows_lines lines rows (after ++ T) Hrows Hlines).
    2:{ destruct Hstop as [-> | (s & t & -> & Hs)]; [|right; exists s, (t ++ T)%list; split; [reflexivity|left; exact Hs]].
        destruct TT as [-> | (s & t & -> & Hs)]; [left; reflexivity|right; exists s, t; split; [reflexivity|right; exact Hs]]. }
    pose proof (rows_width lines rows _ Hrows Hw) as W. destruct (map split_ws lines) as [|w ws] eqn:EW.
    + destruct lines; [|discriminate EW]. inversion Hrows. reflexivity.
    + rewrite <- EW in *. assert (FB : forallb (fun r' => Nat.eqb (List.length r') (List.length w)) (map split_ws lines) = true).
      { apply forallb_forall. intros x Hx. rewrite Forall_forall in W. rewrite (W x Hx), (W w); [apply Nat.eqb_refl|].
        rewrite EW. left; reflexivity. }
      rewrite FB. apply parse_rows, Hrows. Qed.

Lemma block_extract depth file prelude bs b names rows : spec_file file prelude bs -> (List.length bs < depth)%nat -> last_block bs b ->
  holds_table to_float b names rows -> names <> [] ->
  ~ starts_with_any "#L " (join "  " names) ->
  exists p, spec_parser depth file = Ok p /\ extract_scan to_float p (Z.of_N (b_number b)) =
    if match rows with [] => Nat.eqb 1 (List.length names) | _ => true end then Ok (mkTable names rows) else Raise ValueError.
Proof. intros Hf Hd Hl Ht Hn Hs. destruct (block_table _ _ _ _ _ _ _ Hf Hd Hl Ht Hn) as (p & k & Hp & _ & Hc & Hr).
  exists p. split; [exact Hp|]. destruct Ht as (_ & _ & _ & _ & _ & _ & _ & Hsep & Hw). unfold extract_scan. rewrite Hc. cbn [bind].
  rewrite (proj2 (names_of_header names Hn Hsep) Hs), Hr. cbn [bind]. destruct rows as [|r rows]; [reflexivity|].
  inversion Hw as [|? ? H1 _]; subst. rewrite H1, Nat.eqb_refl. reflexivity. Qed.
End Table.
