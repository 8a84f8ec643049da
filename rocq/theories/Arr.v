(** numpy floating-point arrays of one or two dimensions.
    A float is a real number or NaN ([None]).  Rounding is not modelled; an infinity can only arise here from a division by
    zero and is identified with NaN ("not a finite number"). *)
From Coq Require Import Reals Lra.
From Verif Require Import Py.
Local Open Scope R_scope.

Definition fl := option R.
Definition lift2 (f : R -> R -> R) (a b : fl) : fl :=
  match a, b with Some x, Some y => Some (f x y) | _, _ => None end.
Definition fadd := lift2 Rplus.
Definition fsub := lift2 Rminus.
Definition fmul := lift2 Rmult.
Definition fdiv (a b : fl) : fl :=
  match a, b with Some x, Some y => if Req_EM_T y 0 then None else Some (x / y) | _, _ => None end.
Definition fsqrt (a : fl) : fl :=
  match a with Some x => if Rlt_dec x 0 then None else Some (sqrt x) | None => None end.

(** np.sum, np.mean, np.std of a one-dimensional array; the mean of nothing is NaN. *)
Definition fsum (l : list fl) : fl := fold_right fadd (Some 0) l.
Definition fmean (l : list fl) : fl := fdiv (fsum l) (Some (INR (List.length l))).
Definition fstd (l : list fl) : fl := fsqrt (fmean (map (fun x => fmul (fsub x (fmean l)) (fsub x (fmean l))) l)).

(** One-dimensional array; two-dimensional array given by its number of columns and its rows. *)
Inductive arr := A1 (v : list fl) | A2 (m : nat) (rows : list (list fl)).

(** All rows have the stated length. *)
Definition wf_arr (a : arr) : Prop :=
  match a with A1 _ => True | A2 m rows => Forall (fun r => List.length r = m) rows end.
(** a.shape *)
Definition shape (a : arr) : list nat :=
  match a with A1 v => [List.length v] | A2 m rows => [List.length rows; m] end.

(** Column [j] of a two-dimensional array (the default is never used within the array's bounds). *)
Definition column (j : nat) (rows : list (list fl)) : list fl := map (fun r => nth j r None) rows.
(** Reduction along axis 0 *)
Definition by_column (f : list fl -> fl) (m : nat) (rows : list (list fl)) : list fl :=
  map (fun j => f (column j rows)) (seq 0 m).

(** numpy's broadcasting of one dimension: equal lengths, or one of them is 1 *)
Definition bdim (m k : nat) : res nat :=
  if Nat.eqb m k then Ok m else if Nat.eqb m 1 then Ok k else if Nat.eqb k 1 then Ok m else Raise ValueError.
Definition stretch (n : nat) (v : list fl) : list fl :=
  match v with [x] => repeat x n | _ => v end.
Definition bop (f : fl -> fl -> fl) (n : nat) (a b : list fl) : list fl :=
  map (fun xy => f (fst xy) (snd xy)) (combine (stretch n a) (stretch n b)).
(** [a op v] for a one-dimensional [v] *)
Definition row_op (f : fl -> fl -> fl) (a : arr) (v : list fl) : res arr :=
  match a with
  | A1 x => n <- bdim (List.length x) (List.length v) ;; Ok (A1 (bop f n x v))
  | A2 m rows => n <- bdim m (List.length v) ;; Ok (A2 n (map (fun r => bop f n r v) rows))
  end.

(* ------------------------------------------------------------------ *)
(** * Lemmas *)

Lemma bdim_same n : bdim n n = Ok n.
Proof. unfold bdim. now rewrite Nat.eqb_refl. Qed.

Lemma stretch_same v : stretch (List.length v) v = v.
Proof. destruct v as [|x [|y v]]; reflexivity. Qed.

Lemma bop_same f a b : List.length a = List.length b ->
  bop f (List.length a) a b = map (fun xy => f (fst xy) (snd xy)) (combine a b).
Proof. intros E. unfold bop. rewrite stretch_same. rewrite E, stretch_same. reflexivity. Qed.

Lemma length_bop f a b : List.length a = List.length b -> List.length (bop f (List.length a) a b) = List.length a.
Proof. intros E. rewrite bop_same by assumption. rewrite map_length, combine_length. lia. Qed.

Lemma nth_bop f a b j : List.length a = List.length b -> (j < List.length a)%nat ->
  nth j (bop f (List.length a) a b) None = f (nth j a None) (nth j b None).
Proof. intros E Hj. rewrite bop_same by assumption.
  rewrite nth_indep with (d' := f None None) by (rewrite map_length, combine_length; lia).
  change (f None None) with ((fun xy : fl * fl => f (fst xy) (snd xy)) (None, None)).
  rewrite map_nth. rewrite combine_nth by assumption. reflexivity. Qed.

Lemma length_bop_n f n a b : List.length a = n -> List.length b = n -> List.length (bop f n a b) = n.
Proof. intros <- E. apply length_bop. congruence. Qed.
Lemma nth_bop_n f n a b j : List.length a = n -> List.length b = n -> (j < n)%nat -> nth j (bop f n a b) None = f (nth j a None) (nth j b None).
Proof. intros <- E Hj. apply nth_bop; congruence. Qed.

Lemma row_op_A2 f m rows v : List.length v = m -> row_op f (A2 m rows) v = Ok (A2 m (map (fun r => bop f m r v) rows)).
Proof. intros <-. unfold row_op. now rewrite bdim_same. Qed.

Lemma row_op_A1 f x v : List.length v = List.length x -> row_op f (A1 x) v = Ok (A1 (bop f (List.length x) x v)).
Proof. intros E. unfold row_op. rewrite E. now rewrite bdim_same. Qed.

Lemma length_by_column f m rows : List.length (by_column f m rows) = m.
Proof. unfold by_column. now rewrite map_length, seq_length. Qed.

Lemma nth_by_column f m rows j : (j < m)%nat -> nth j (by_column f m rows) None = f (column j rows).
Proof. intros H. unfold by_column. rewrite nth_indep with (d' := f (column 0 rows)) by (rewrite map_length, seq_length; exact H).
  change (f (column 0 rows)) with ((fun j => f (column j rows)) 0%nat). rewrite map_nth, seq_nth by exact H. reflexivity. Qed.

(** Finite data *)
Lemma fsum_finite l : fsum (map Some l) = Some (fold_right Rplus 0 l).
Proof. induction l as [|x l IH]; [reflexivity|]. simpl. change (fold_right fadd (Some 0) (map Some l)) with (fsum (map Some l)).
  rewrite IH. reflexivity. Qed.
Lemma fmean_finite l : l <> [] -> fmean (map Some l) = Some (fold_right Rplus 0 l / INR (List.length l)).
Proof. intros H. unfold fmean. rewrite fsum_finite, map_length. simpl. destruct (Req_EM_T _ _) as [E|]; [|reflexivity].
  destruct l; [congruence|]. exfalso. cbn [List.length] in E. rewrite S_INR in E. pose proof (pos_INR (List.length l)). lra. Qed.
