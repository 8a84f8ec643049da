(** numpy's random generator as an arbitrary record of functions over an abstract state, together with the part of numpy's
    documented behaviour that the theorems rely on ([rng_ok]).  Everything is universally quantified over such records;
    nothing is assumed about distributions.  See numpy.random.{uniform,normal,shuffle}. *)
From Coq Require Import Reals Lra.
From Verif Require Import Py.

Record rng (S : Type) := mkRng {
  rng_uniform : S -> R -> R -> nat -> S * list R;   (* uniform(low, high, n) *)
  rng_normal : S -> R -> R -> nat -> S * list R;    (* normal(loc, scale, n), scale >= 0 *)
  rng_shuffle : S -> list R -> S * list R }.        (* shuffle, returning the new contents *)
Arguments rng_uniform {S}. Arguments rng_normal {S}. Arguments rng_shuffle {S}. Arguments mkRng {S}.

Record rng_ok {S} (g : rng S) : Prop := mkRngOk {
  uniform_length : forall s a b n, List.length (snd (rng_uniform g s a b n)) = n;
  uniform_bounds : forall s a b n, Forall (fun x => (Rmin a b <= x <= Rmax a b)%R) (snd (rng_uniform g s a b n));
  normal_length : forall s m d n, List.length (snd (rng_normal g s m d n)) = n;
  normal_degenerate : forall s m n, snd (rng_normal g s m 0 n) = repeat m n;
  shuffle_perm : forall s l, Permutation l (snd (rng_shuffle g s l)) }.

(** Normal draws stay within [k] standard deviations. *)
Definition tails_within {S} (g : rng S) (k : R) : Prop :=
  forall s m d n, (0 <= d)%R -> Forall (fun x => (Rabs (x - m) <= k * d)%R) (snd (rng_normal g s m d n)).

(** A concrete generator: uniform draws alternate between the ends and the middle of the range, normal draws alternate
    between one standard deviation above and below, the shuffle reverses. *)
Definition ex_uniform (s : nat) (a b : R) (n : nat) : nat * list R :=
  (s + n, map (fun i => if Nat.even (s + i) then a else ((a + b) / 2)%R) (seq 0 n)).
Definition ex_normal (s : nat) (m d : R) (n : nat) : nat * list R :=
  (s + n, map (fun i => if Nat.even (s + i) then (m + d)%R else (m - d)%R) (seq 0 n)).
Definition ex_rng : rng nat := mkRng ex_uniform ex_normal (fun s l => (S s, rev l)).

Lemma ex_rng_ok : rng_ok ex_rng.
Proof. constructor; intros; simpl.
  - now rewrite map_length, seq_length.
  - apply Forall_forall. intros x Hx. apply in_map_iff in Hx. destruct Hx as (i & <- & _).
    unfold Rmin, Rmax. destruct (Rle_dec a b), (Nat.even (s + i)); lra.
  - now rewrite map_length, seq_length.
  - generalize 0. induction n as [|n IH]; intros i; simpl; [reflexivity|]. rewrite IH. f_equal. destruct (Nat.even (s + i)); lra.
  - apply Permutation_rev. Qed.

Lemma ex_rng_tails k : (1 <= k)%R -> tails_within ex_rng k.
Proof. intros Hk s m d n Hd. simpl. apply Forall_forall. intros x Hx. apply in_map_iff in Hx. destruct Hx as (i & <- & _).
  assert (d <= k * d)%R by (rewrite <- (Rmult_1_l d) at 1; apply Rmult_le_compat_r; assumption).
  destruct (Nat.even (s + i)); unfold Rabs; destruct (Rcase_abs _); lra. Qed.

(** A generator with heavy normal tails (allowed by numpy: normal draws are unbounded). *)
Definition wild_rng : rng nat := mkRng ex_uniform (fun s m d n => (s, repeat (m + 4 * d)%R n)) (fun s l => (S s, l)).
Lemma wild_rng_ok : rng_ok wild_rng.
Proof. pose proof ex_rng_ok as [A B _ _ _]. constructor; intros; simpl; [apply A|apply B|apply repeat_length| |apply Permutation_refl].
  f_equal. lra. Qed.
