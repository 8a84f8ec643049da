(** The further random functions of numpy that noise generation, batch shuffling and footprint rescaling use, again as an
    arbitrary record of functions ([nrng]) with the part of numpy's documented behaviour that is relied on ([nrng_ok]). *)
From Coq Require Import Reals Lra.
From Verif Require Import Py Rng Arr.
Local Open Scope R_scope.

Record nrng (S : Type) := mkNrng {
  nr_g : rng S;
  nr_normals : S -> list (fl * fl) -> S * list fl;   (* normal(loc, scale) for arrays, no negative scale *)
  nr_poisson : S -> list R -> S * list nat;          (* poisson(lam) for an array of rates between 0 and the maximum *)
  nr_lam_max : R;                                    (* largest rate that poisson accepts *)
  nr_perm : S -> list nat -> S * list nat;           (* shuffle of an integer array, returning the new contents *)
  nr_choice : S -> list R -> S * R }.                (* choice(a), a not empty *)
Arguments nr_g {S}. Arguments nr_normals {S}. Arguments nr_poisson {S}. Arguments nr_lam_max {S}. Arguments nr_perm {S}. Arguments nr_choice {S}. Arguments mkNrng {S}.

(** What one draw of normal(loc, scale) can be: a number if both arguments are, the mean itself for scale 0, otherwise NaN. *)
Definition normal_draw (ms : fl * fl) (x : fl) : Prop :=
  match ms with
  | (Some m, Some d) => (exists r, x = Some r) /\ (d = 0 -> x = Some m)
  | _ => x = None
  end.

Record nrng_ok {S} (g : nrng S) : Prop := mkNrngOk {
  nr_base : rng_ok (nr_g g);
  normals_draws : forall s ms, Forall2 normal_draw ms (snd (nr_normals g s ms));
  poisson_draws : forall s ls, Forall2 (fun l k => l = 0 -> k = 0%nat) ls (snd (nr_poisson g s ls));
  lam_max_pos : 0 < nr_lam_max g;
  perm_perm : forall s l, Permutation l (snd (nr_perm g s l));
  choice_in : forall s l, l <> [] -> In (snd (nr_choice g s l)) l }.

Arguments nr_base {S g}. Arguments normals_draws {S g}. Arguments poisson_draws {S g}. Arguments lam_max_pos {S g}. Arguments perm_perm {S g}. Arguments choice_in {S g}.

(** numpy's argument checks: [normal] rejects negative scales (NaN passes), [poisson] rejects negative, NaN and huge rates,
    [choice] rejects an empty list. *)
Definition neg_fl (x : fl) : bool := match x with Some r => if Rlt_dec r 0 then true else false | None => false end.
Definition np_normals {S} (g : nrng S) (s : S) (ms : list (fl * fl)) : res (S * list fl) :=
  if existsb (fun p => neg_fl (snd p)) ms then Raise ValueError else Ok (nr_normals g s ms).
Definition good_rate {S} (g : nrng S) (x : fl) : res R :=
  match x with
  | Some r => if Rlt_dec r 0 then Raise ValueError else if Rlt_dec (nr_lam_max g) r then Raise ValueError else Ok r
  | None => Raise ValueError
  end.
Definition np_poisson {S} (g : nrng S) (s : S) (ls : list fl) : res (S * list nat) :=
  rs <- mapM (good_rate g) ls ;; Ok (nr_poisson g s rs).
Definition np_choice {S} (g : nrng S) (s : S) (l : list R) : res (S * R) :=
  match l with [] => Raise ValueError | _ => Ok (nr_choice g s l) end.

(** A concrete generator *)
Definition ex_nrng : nrng nat := mkNrng ex_rng
  (fun s ms => (s + 1, map (fun p => fadd (fst p) (snd p)) ms)%nat)
  (fun s ls => (s + 1, map (fun l => if Req_EM_T l 0 then 0 else 2) ls)%nat)
  1000 (fun s l => (s + 1, rev l)%nat) (fun s l => (s + 1, last l 0%R)%nat).

Lemma ex_nrng_ok : nrng_ok ex_nrng.
Proof. constructor; simpl.
  - exact ex_rng_ok.
  - intros _ ms. induction ms as [|[m d] ms IH]; constructor; [|exact IH]. destruct m as [m|], d as [d|]; simpl; try reflexivity.
    split; [eauto|]. intros ->. f_equal. lra.
  - intros _ ls. induction ls as [|l ls IH]; constructor; [|exact IH]. destruct (Req_EM_T l 0); [reflexivity|contradiction].
  - lra.
  - intros _ l. apply Permutation_rev.
  - intros _ l H. destruct (exists_last H) as (l' & x & ->). rewrite last_last. apply in_app_iff. simpl. auto. Qed.
