(** Python primitives used by the model: exceptions as values, list indexing, slicing and in-place list
    operations with Python's treatment of negative and out-of-range indices. *)
From Coq Require Export List Arith ZArith Lia Bool String Ascii Permutation.
From Coq Require Import ZifyBool ZifyNat.
Export ListNotations.
Set Implicit Arguments.

(** Exceptions that the modelled code raises or that Python raises on its behalf. *)
Inductive exn :=
| ValueError | TypeError | KeyError | IndexError | AttributeError
| NotImplementedError | RecursionError | NotReflectivityScanError | FileNotFoundError
| StopIteration | ZeroDivisionError | UnboundLocalError | NameError | AssertionError
| OverflowError | FileExistsError | OSError.

(** Result of a computation that may raise. *)
Inductive res (A : Type) := Ok (a : A) | Raise (e : exn).
Arguments Ok {A} a.
Arguments Raise {A} e.

Definition bind {A B} (x : res A) (f : A -> res B) : res B :=
  match x with Ok a => f a | Raise e => Raise e end.
Definition rmap {A B} (f : A -> B) (x : res A) : res B :=
  match x with Ok a => Ok (f a) | Raise e => Raise e end.

Declare Scope py_scope.
Delimit Scope py_scope with py.
Notation "x <- e ;; k" := (bind e (fun x => k))
  (at level 61, e at next level, right associativity) : py_scope.
Notation "' p <- e ;; k" := (bind e (fun x => match x with p => k end))
  (at level 61, p pattern, e at next level, right associativity) : py_scope.
Open Scope py_scope.

(** Left-to-right evaluation of a list of computations, stopping at the first exception
    (a Python [for] loop that appends results). *)
Fixpoint mapM {A B} (f : A -> res B) (l : list A) : res (list B) :=
  match l with
  | [] => Ok []
  | a :: l' => b <- f a ;; bs <- mapM f l' ;; Ok (b :: bs)
  end.

(** [foldM f s l]: a loop with an accumulator that may raise. *)
Fixpoint foldM {A S} (f : S -> A -> res S) (s : S) (l : list A) : res S :=
  match l with
  | [] => Ok s
  | a :: l' => s' <- f s a ;; foldM f s' l'
  end.

(** Position denoted by a Python index [i] into a list of length [n]; [None] if out of range. *)
Definition norm_idx (n : nat) (i : Z) : option nat :=
  if (0 <=? i)%Z && (i <? Z.of_nat n)%Z then Some (Z.to_nat i)
  else if (- Z.of_nat n <=? i)%Z && (i <? 0)%Z then Some (Z.to_nat (Z.of_nat n + i))
  else None.

(** [l[i]] *)
Definition py_get {A} (l : list A) (i : Z) : res A :=
  match norm_idx (List.length l) i with
  | Some k => match nth_error l k with Some x => Ok x | None => Raise IndexError end
  | None => Raise IndexError
  end.

Fixpoint set_nth {A} (l : list A) (k : nat) (x : A) : list A :=
  match l, k with
  | [], _ => []
  | _ :: l', 0 => x :: l'
  | a :: l', S k' => a :: set_nth l' k' x
  end.

(** [l[i] = x] *)
Definition py_set {A} (l : list A) (i : Z) (x : A) : res (list A) :=
  match norm_idx (List.length l) i with
  | Some k => Ok (set_nth l k x)
  | None => Raise IndexError
  end.

(** Slice/insert bound: negative bounds count from the end, everything is clamped to [0..n]. *)
Definition clamp_idx (n : nat) (i : Z) : nat :=
  let j := if (i <? 0)%Z then (i + Z.of_nat n)%Z else i in
  Z.to_nat (Z.max 0 (Z.min j (Z.of_nat n))).

(** [l.insert(i, x)] *)
Definition py_insert {A} (l : list A) (i : Z) (x : A) : list A :=
  let k := clamp_idx (List.length l) i in firstn k l ++ x :: skipn k l.

(** [l[lo:hi]]; [None] is an omitted bound. *)
Definition py_slice {A} (l : list A) (lo hi : option Z) : list A :=
  let n := List.length l in
  let a := match lo with Some i => clamp_idx n i | None => 0 end in
  let b := match hi with Some i => clamp_idx n i | None => n end in
  firstn (b - a) (skipn a l).

(** [l.remove(x)]: the first element equal to [x]; ValueError if there is none. *)
Fixpoint py_remove {A} (eqb : A -> A -> bool) (l : list A) (x : A) : res (list A) :=
  match l with
  | [] => Raise ValueError
  | a :: l' => if eqb a x then Ok l' else rmap (cons a) (py_remove eqb l' x)
  end.

(** Element deletion, used in specifications. *)
Fixpoint del_nth {A} (l : list A) (k : nat) : list A :=
  match l, k with
  | [], _ => []
  | _ :: l', 0 => l'
  | a :: l', S k' => a :: del_nth l' k'
  end.

(* ------------------------------------------------------------------ *)
(** * Lemmas *)

Lemma norm_idx_nonneg n i k : norm_idx n i = Some k -> (0 <= i)%Z -> k = Z.to_nat i /\ k < n.
Proof. unfold norm_idx; intros H Hi; destruct (_ && _) eqn:E in H; [inversion H; lia|].
  destruct ((- Z.of_nat n <=? i)%Z && _) eqn:E2 in H; inversion H; lia. Qed.

Lemma norm_idx_lt n i k : norm_idx n i = Some k -> k < n.
Proof. unfold norm_idx; intros H; destruct (_ && _) eqn:E in H; [inversion H; lia|].
  destruct ((- Z.of_nat n <=? i)%Z && _) eqn:E2 in H; inversion H; lia. Qed.

Lemma norm_idx_of_nat n k : k < n -> norm_idx n (Z.of_nat k) = Some k.
Proof. intros H; unfold norm_idx. replace ((0 <=? Z.of_nat k)%Z && (Z.of_nat k <? Z.of_nat n)%Z) with true by lia.
  f_equal; lia. Qed.

Lemma norm_idx_None n i : norm_idx n i = None <-> (i < - Z.of_nat n)%Z \/ (Z.of_nat n <= i)%Z.
Proof. unfold norm_idx; destruct (_ && _) eqn:E; [split; [discriminate|intros H; exfalso; lia]|].
  destruct ((- Z.of_nat n <=? i)%Z && _) eqn:E2; split; try discriminate; intros H; try reflexivity; try (exfalso; lia); lia. Qed.

Lemma norm_idx_Some n i k : norm_idx n i = Some k <->
  (0 <= i < Z.of_nat n /\ k = Z.to_nat i)%Z \/ (- Z.of_nat n <= i < 0 /\ k = Z.to_nat (Z.of_nat n + i))%Z.
Proof. unfold norm_idx; destruct (_ && _) eqn:E.
  - split; [intros H; inversion H; left; lia|intros [[H ->]|[H ->]]; [reflexivity|lia]].
  - destruct ((- Z.of_nat n <=? i)%Z && _) eqn:E2.
    + split; [intros H; inversion H; right; lia|intros [[H ->]|[H ->]]; [lia|reflexivity]].
    + split; [discriminate|intros [[H _]|[H _]]; lia]. Qed.

Lemma length_set_nth A (l : list A) k x : List.length (set_nth l k x) = List.length l.
Proof. revert k; induction l as [|a l IH]; intros [|k]; simpl; auto. Qed.

Lemma nth_error_set_nth A (l : list A) k x j :
  nth_error (set_nth l k x) j =
  if Nat.eqb j k then (if Nat.ltb k (List.length l) then Some x else None) else nth_error l j.
Proof. revert k j; induction l as [|a l IH]; intros k j; simpl.
  - destruct (Nat.eqb j k); destruct j; reflexivity.
  - destruct k as [|k]; destruct j as [|j]; simpl; try reflexivity. apply IH. Qed.

Lemma py_get_spec A (l : list A) i x : py_get l i = Ok x ->
  exists k, norm_idx (List.length l) i = Some k /\ nth_error l k = Some x.
Proof. unfold py_get; destruct (norm_idx _ _) as [k|] eqn:E; [|discriminate].
  destruct (nth_error l k) eqn:E2; [|discriminate]. intros H; inversion H; subst; eauto. Qed.

Lemma py_get_total A (l : list A) i k : norm_idx (List.length l) i = Some k ->
  exists x, nth_error l k = Some x /\ py_get l i = Ok x.
Proof. intros H; pose proof (norm_idx_lt _ _ H) as Hlt; unfold py_get; rewrite H.
  destruct (nth_error l k) as [x|] eqn:E; [eauto|]. apply nth_error_None in E; lia. Qed.

Lemma py_get_nat A (l : list A) k x : nth_error l k = Some x -> py_get l (Z.of_nat k) = Ok x.
Proof. intros H; unfold py_get. rewrite norm_idx_of_nat; [now rewrite H|].
  apply nth_error_Some; congruence. Qed.

Lemma mapM_Ok_length A B (f : A -> res B) l r : mapM f l = Ok r -> List.length r = List.length l.
Proof. revert r; induction l as [|a l IH]; simpl; intros r H; [inversion H; reflexivity|].
  destruct (f a) as [b|]; [|discriminate]; simpl in H.
  destruct (mapM f l) as [bs|]; [|discriminate]; simpl in H. inversion H; simpl; f_equal; auto. Qed.

Lemma mapM_Ok_iff A B (f : A -> res B) l r : mapM f l = Ok r <-> Forall2 (fun a b => f a = Ok b) l r.
Proof. revert r; induction l as [|a l IH]; simpl; intros r; split; intros H.
  - inversion H; constructor.
  - inversion H; reflexivity.
  - destruct (f a) as [b|] eqn:E; [|discriminate]; simpl in H.
    destruct (mapM f l) as [bs|] eqn:E2; [|discriminate]; simpl in H. inversion H; subst.
    constructor; [assumption|]; apply IH; reflexivity.
  - inversion H as [|? b ? bs Hb Hbs]; subst. rewrite Hb; simpl.
    apply IH in Hbs; rewrite Hbs; reflexivity. Qed.

Lemma mapM_map A B (f : A -> res B) g l : (forall a, In a l -> f a = Ok (g a)) -> mapM f l = Ok (map g l).
Proof. induction l as [|a l IH]; simpl; intros H; [reflexivity|].
  rewrite H by (left; reflexivity); simpl. rewrite IH by (intros; apply H; right; assumption). reflexivity. Qed.

Lemma clamp_idx_le n i : clamp_idx n i <= n.
Proof. unfold clamp_idx; destruct (i <? 0)%Z; lia. Qed.

Lemma clamp_idx_nat n k : clamp_idx n (Z.of_nat k) = Nat.min k n.
Proof. unfold clamp_idx; destruct (Z.of_nat k <? 0)%Z eqn:E; lia. Qed.

Lemma length_py_insert A (l : list A) i x : List.length (py_insert l i x) = S (List.length l).
Proof. unfold py_insert; rewrite app_length; simpl. rewrite firstn_length, skipn_length.
  pose proof (clamp_idx_le (List.length l) i); lia. Qed.

Lemma py_insert_perm A (l : list A) i x : Permutation (py_insert l i x) (x :: l).
Proof. unfold py_insert. rewrite <- Permutation_middle. rewrite firstn_skipn. reflexivity. Qed.

Lemma py_remove_Ok A (eqb : A -> A -> bool) (l r : list A) x :
  (forall a b, eqb a b = true <-> a = b) ->
  py_remove eqb l x = Ok r -> exists a b, l = a ++ x :: b /\ r = a ++ b /\ ~ In x a.
Proof. intros Heq; revert r; induction l as [|y l IH]; simpl; intros r H; [discriminate|].
  destruct (eqb y x) eqn:E.
  - inversion H; subst. apply Heq in E; subst. exists [], r; simpl; auto.
  - destruct (py_remove eqb l x) as [r'|]; simpl in H; [|discriminate]. inversion H; subst.
    destruct (IH r' eq_refl) as (a & b & -> & -> & Hn). exists (y :: a), b; simpl; repeat split; auto.
    intros [->|Hi]; [|auto]. assert (eqb x x = true) by (apply Heq; reflexivity). congruence. Qed.

Lemma py_remove_In A (eqb : A -> A -> bool) (l : list A) x :
  (forall a b, eqb a b = true <-> a = b) -> In x l -> exists r, py_remove eqb l x = Ok r.
Proof. intros Heq; induction l as [|y l IH]; simpl; intros H; [contradiction|].
  destruct (eqb y x) eqn:E; [eauto|]. destruct H as [->|H].
  - assert (eqb x x = true) by (apply Heq; reflexivity); congruence.
  - destruct (IH H) as [r ->]; simpl; eauto. Qed.

Lemma del_nth_app A (a b : list A) x : del_nth (a ++ x :: b) (List.length a) = a ++ b.
Proof. induction a; simpl; congruence. Qed.

Lemma nth_error_mid A (a b : list A) x : nth_error (a ++ x :: b) (List.length a) = Some x.
Proof. rewrite nth_error_app2 by lia. now rewrite Nat.sub_diag. Qed.

Lemma NoDup_split_unique A (a b a' b' : list A) x :
  NoDup (a ++ x :: b) -> a ++ x :: b = a' ++ x :: b' -> a = a' /\ b = b'.
Proof. revert a'; induction a as [|y a IH]; intros [|y' a']; simpl; intros Hn H.
  - inversion H; auto.
  - inversion H; subst. inversion Hn as [|? ? Hni Hnd]; subst. exfalso; apply Hni, in_or_app; right; left; auto.
  - inversion H; subst. inversion Hn as [|? ? Hni Hnd]; subst. exfalso; apply Hni, in_or_app; right; left; auto.
  - inversion H; subst. inversion Hn as [|? ? Hni Hnd]; subst.
    destruct (IH a' Hnd H2) as [-> ->]; auto. Qed.

Lemma firstn_skipn_mid A (l : list A) k x : nth_error l k = Some x -> l = firstn k l ++ x :: skipn (S k) l.
Proof. revert k; induction l as [|a l IH]; intros [|k]; simpl; intros H; try discriminate.
  - inversion H; reflexivity.
  - f_equal; apply IH; assumption. Qed.

Lemma nth_error_mid' A (a b : list A) x k : List.length a = k -> nth_error (a ++ x :: b) k = Some x.
Proof. intros <-; apply nth_error_mid. Qed.

Lemma del_nth_app' A (a b : list A) x k : List.length a = k -> del_nth (a ++ x :: b) k = a ++ b.
Proof. intros <-; apply del_nth_app. Qed.

Lemma nth_error_ext A (l m : list A) : (forall k, nth_error l k = nth_error m k) -> l = m.
Proof. revert m; induction l as [|x l IH]; intros [|y m] H; [reflexivity| | |].
  - specialize (H 0); discriminate.
  - specialize (H 0); discriminate.
  - f_equal; [specialize (H 0); simpl in H; congruence|]. apply IH; intros k; exact (H (S k)). Qed.

Lemma Forall2_len A B (P : A -> B -> Prop) l m : Forall2 P l m -> List.length l = List.length m.
Proof. induction 1; simpl; congruence. Qed.
