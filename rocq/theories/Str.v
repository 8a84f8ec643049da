(** Python string operations on Coq strings (one character per [ascii], i.e. code points 0..255). *)
From Verif Require Import Py.
Local Open Scope string_scope.

(** [sub in s] *)
Fixpoint contains (sub s : string) : bool :=
  String.prefix sub s ||
  match s with EmptyString => false | String _ s' => contains sub s' end.

(** [s.startswith(p)] *)
Definition startswith (p s : string) : bool := String.prefix p s.

Fixpoint rev_string (s : string) : string :=
  match s with EmptyString => "" | String c s' => rev_string s' ++ String c "" end.

(** [s.endswith(p)] *)
Definition endswith (p s : string) : bool := String.prefix (rev_string p) (rev_string s).

(** [c in s] for a single character *)
Fixpoint has_char (c : ascii) (s : string) : bool :=
  match s with EmptyString => false | String d s' => Ascii.eqb c d || has_char c s' end.

(** [str.isspace] for code points 0..255 *)
Definition is_space (c : ascii) : bool :=
  let n := N_of_ascii c in
  ((9 <=? n)%N && (n <=? 13)%N) || ((28 <=? n)%N && (n <=? 32)%N) || (n =? 133)%N || (n =? 160)%N.

(** [s.lstrip(chars)] with the character set as a predicate *)
Fixpoint lstrip_by (p : ascii -> bool) (s : string) : string :=
  match s with
  | EmptyString => ""
  | String c s' => if p c then lstrip_by p s' else s
  end.

(** [s.rstrip(chars)] *)
Fixpoint rstrip_by (p : ascii -> bool) (s : string) : string :=
  match s with
  | EmptyString => ""
  | String c s' =>
      match rstrip_by p s' with
      | EmptyString => if p c then "" else String c ""
      | r => String c r
      end
  end.

Definition rstrip (s : string) : string := rstrip_by is_space s.
Definition lstrip (s : string) : string := lstrip_by is_space s.
Definition strip (s : string) : string := rstrip (lstrip s).

(** [s.split()]: maximal runs of non-whitespace characters.  [cur] is the run read so far, reversed. *)
Fixpoint split_ws_aux (cur : string) (s : string) : list string :=
  match s with
  | EmptyString => match cur with EmptyString => [] | _ => [rev_string cur] end
  | String c s' =>
      if is_space c
      then match cur with EmptyString => split_ws_aux "" s' | _ => rev_string cur :: split_ws_aux "" s' end
      else split_ws_aux (String c cur) s'
  end.
Definition split_ws (s : string) : list string := split_ws_aux "" s.

(** [s.split(sep)] for a one-character separator *)
Fixpoint split_char (sep : ascii) (s : string) : list string :=
  match s with
  | EmptyString => [""]
  | String c s' =>
      if Ascii.eqb c sep then "" :: split_char sep s'
      else match split_char sep s' with
           | [] => [String c ""]
           | w :: ws => String c w :: ws
           end
  end.

(** [s.split(sep)] for a two-character separator [a b] (leftmost, non-overlapping matches) *)
Fixpoint split_two (a b : ascii) (s : string) : list string :=
  match s with
  | EmptyString => [""]
  | String c s1 =>
      let cont := match split_two a b s1 with
                  | [] => [String c ""]
                  | w :: ws => String c w :: ws
                  end in
      match s1 with
      | EmptyString => cont
      | String d s2 => if Ascii.eqb c a && Ascii.eqb d b then "" :: split_two a b s2 else cont
      end
  end.

(** [sep.join(l)] *)
Fixpoint join (sep : string) (l : list string) : string :=
  match l with
  | [] => ""
  | [w] => w
  | w :: ws => w ++ sep ++ join sep ws
  end.

Fixpoint str_forall (p : ascii -> bool) (s : string) : bool :=
  match s with EmptyString => true | String c s' => p c && str_forall p s' end.

(* ------------------------------------------------------------------ *)
(** * Lemmas *)

Lemma append_assoc (a b c : string) : (a ++ b) ++ c = a ++ (b ++ c).
Proof. induction a as [|x a IH]; simpl; congruence. Qed.

Lemma append_nil_r (a : string) : a ++ "" = a.
Proof. induction a as [|x a IH]; simpl; congruence. Qed.

Lemma length_append (a b : string) : String.length (a ++ b) = String.length a + String.length b.
Proof. induction a as [|x a IH]; simpl; congruence. Qed.

Lemma append_inj_l (p a b : string) : p ++ a = p ++ b -> a = b.
Proof. induction p as [|x p IH]; simpl; intros H; [assumption|]. inversion H; auto. Qed.

Lemma append_inj_len (a b c d : string) :
  String.length b = String.length d -> a ++ b = c ++ d -> a = c /\ b = d.
Proof. revert c; induction a as [|x a IH]; intros [|y c]; simpl; intros Hl H.
  - auto.
  - subst b. simpl in Hl. rewrite length_append in Hl. lia.
  - subst d. simpl in Hl. rewrite length_append in Hl. lia.
  - inversion H; subst. destruct (IH c Hl H2) as [-> ->]; auto. Qed.

Lemma append_inj_r (a b s : string) : a ++ s = b ++ s -> a = b.
Proof. intros H; eapply append_inj_len in H; [apply H|reflexivity]. Qed.

Lemma prefix_iff (p s : string) : String.prefix p s = true <-> exists r, s = p ++ r.
Proof. revert s; induction p as [|c p IH]; intros s; simpl.
  - split; [eauto|]. intros _; destruct s; reflexivity.
  - destruct s as [|d s]; simpl; [split; [discriminate|intros [r H]; discriminate]|].
    destruct (Ascii.ascii_dec c d) as [->|Hne].
    + rewrite IH; split; intros [r H]; exists r; [congruence|inversion H; reflexivity].
    + split; [discriminate|]. intros [r H]; inversion H; congruence. Qed.

Lemma prefix_app (p r : string) : String.prefix p (p ++ r) = true.
Proof. apply prefix_iff; eauto. Qed.

Lemma contains_iff (sub s : string) : contains sub s = true <-> exists a b, s = a ++ sub ++ b.
Proof. induction s as [|c s IH]; cbn [contains].
  - rewrite orb_false_r, prefix_iff; split.
    + intros [r H]; exists "", r; exact H.
    + intros (a & b & H); destruct a; [exists b; exact H|discriminate].
  - rewrite orb_true_iff, prefix_iff, IH; split.
    + intros [[r H]|(a & b & H)]; [exists "", r; exact H|exists (String c a), b; simpl; congruence].
    + intros (a & b & H); destruct a as [|c' a]; [left; exists b; exact H|].
      right; inversion H; subst; eauto. Qed.

Lemma contains_mid (a sub b : string) : contains sub (a ++ sub ++ b) = true.
Proof. apply contains_iff; eauto. Qed.

Lemma contains_end (a sub : string) : contains sub (a ++ sub) = true.
Proof. apply contains_iff; exists a, ""; now rewrite append_nil_r. Qed.

Lemma has_char_app c (a b : string) : has_char c (a ++ b) = has_char c a || has_char c b.
Proof. induction a as [|x a IH]; simpl; [reflexivity|]. now rewrite IH, orb_assoc. Qed.

Lemma has_char_contains c sub s : has_char c sub = true -> contains sub s = true -> has_char c s = true.
Proof. intros H1 H2; apply contains_iff in H2; destruct H2 as (a & b & ->).
  rewrite !has_char_app, H1. now rewrite orb_true_r. Qed.

(** Equal concatenations are comparable. *)
Lemma append_split (a b c d : string) : a ++ b = c ++ d ->
  (exists m, c = a ++ m /\ b = m ++ d) \/ (exists m, a = c ++ m /\ d = m ++ b).
Proof. revert c; induction a as [|x a IH]; intros c; simpl; intros H.
  - left; exists c; auto.
  - destruct c as [|y c]; simpl in H.
    + right; exists (String x a); auto.
    + inversion H; subst. destruct (IH c H2) as [(m & -> & ->)|(m & -> & ->)]; [left|right]; exists m; auto. Qed.

(** A word without the character [sep] occurs in [a ++ sep ++ b] only inside [a] or inside [b]. *)
Lemma contains_sep (sep : ascii) (sub a b : string) :
  has_char sep sub = false -> sub <> "" ->
  contains sub (a ++ String sep b) = contains sub a || contains sub b.
Proof. intros Hs Hne. apply eq_true_iff_eq. rewrite orb_true_iff, !contains_iff. split.
  - intros (x & y & H). apply append_split in H. destruct H as [(m & -> & H)|(m & -> & H)].
    + destruct m as [|c m]; simpl in H.
      * destruct sub as [|c sub]; [congruence|]. simpl in H; inversion H; subst.
        simpl in Hs. rewrite Ascii.eqb_refl in Hs; discriminate.
      * inversion H; subst. right; eauto.
    + (* a = x ++ m ; sub ++ y = m ++ String sep b *)
      apply append_split in H. destruct H as [(m2 & -> & H)|(m2 & -> & H)].
      * left; exists x, m2. reflexivity.
      * destruct m2 as [|c m2]; simpl in H; inversion H; subst.
        -- left; exists x, ""; rewrite append_nil_r. now rewrite append_nil_r.
        -- exfalso. rewrite has_char_app in Hs. simpl in Hs. rewrite Ascii.eqb_refl in Hs.
           rewrite orb_true_r in Hs; discriminate.
  - intros [(x & y & ->)|(x & y & ->)].
    + exists x, (y ++ String sep b). now rewrite !append_assoc.
    + exists (a ++ String sep x), y. now rewrite append_assoc. Qed.

Lemma rev_string_app (a b : string) : rev_string (a ++ b) = rev_string b ++ rev_string a.
Proof. induction a as [|c a IH]; simpl; [now rewrite append_nil_r|]. now rewrite IH, append_assoc. Qed.

Lemma rev_string_involutive (a : string) : rev_string (rev_string a) = a.
Proof. induction a as [|c a IH]; simpl; [reflexivity|]. rewrite rev_string_app; simpl. congruence. Qed.

Lemma endswith_iff p s : endswith p s = true <-> exists r, s = r ++ p.
Proof. unfold endswith; rewrite prefix_iff; split; intros [r H].
  - exists (rev_string r). rewrite <- (rev_string_involutive s), H, rev_string_app.
    now rewrite rev_string_involutive.
  - exists (rev_string r). rewrite H. apply rev_string_app. Qed.

Lemma rev_string_length s : String.length (rev_string s) = String.length s.
Proof. induction s as [|c s IH]; simpl; [reflexivity|]. rewrite length_append; simpl; lia. Qed.
