(** Model of reflectivity simulation from label tables.
    Sources: /repo/mlreflect/data_generation/data_generator.py (107-228), model_mixer.py. *)
From Coq Require Import Reals Lra.
From Coquelicot Require Import Complex.
From Verif Require Import Py Str Cplx Sample_Model Rng Sampling_Model Reflectivity_Model.
Local Open Scope string_scope.
Local Open Scope R_scope.

(** data_generator.py 208-228: [separate_labels_by_category].  The result is given as three lists of columns (the code
    transposes them).  Simplification: column names are unique (with repeated names pandas returns a table for each name). *)
Definition category (name : string) : option nat :=
  if contains "thickness" name then Some 0%nat
  else if contains "roughness" name then Some 1%nat
  else if contains "sld" name then Some 2%nat else None.
Definition of_category (k : nat) (t : cols) : list (list C) :=
  map snd (filter (fun kc => match category (fst kc) with Some j => Nat.eqb j k | None => false end) t).
Definition separate (t : cols) : list (list C) * list (list C) * list (list C) :=
  (of_category 0 t, of_category 1 t, of_category 2 t).

(** Number of rows of the transposed array: np.array([]).T has shape (0,). *)
Definition n_rows (cs : list (list C)) : nat := match cs with [] => 0 | c :: _ => List.length c end.
(** Row [i] of the transposed array; indexing a one-dimensional empty array with two indices raises IndexError. *)
Definition row (cs : list (list C)) (i : nat) : res (list C) :=
  match cs with
  | [] => Raise IndexError
  | _ => mapM (fun c => match nth_error c i with Some x => Ok x | None => Raise IndexError end) cs
  end.

(** The q_noise_spread argument *)
Inductive spread := SNum (d : R) | SStr (s : string).

Fixpoint chunks (k : nat) (n : nat) (l : list R) : list (list R) :=
  match k with O => [] | S k' => firstn n l :: chunks k' n (skipn n l) end.

(** refl1d's reflectivity function, if the package is installed: kz, depth, sigma, rho, irho *)
Definition refl1d_fun := list R -> list R -> list R -> list R -> option (list R) -> list (option R).

Section Sim.
  Context {S : Type} (g : rng S) (refl1d : option refl1d_fun).

  (** data_generator.py 193-196: [_make_noisy_q_values]; a string cannot be converted to a number (ValueError). *)
  Definition noisy_q (s : S) (qs : list R) (d : spread) (n : nat) : res (S * list (list R)) :=
    match d with
    | SStr _ => Raise ValueError
    | SNum d =>
        '(s1, xs) <- np_normal g s 1 d (Z.of_nat (n * List.length qs)) ;;
        Ok (s1, map (fun xs => map (fun qx => fst qx * snd qx) (combine qs xs)) (chunks n (List.length qs) xs))
    end.

  (** data_generator.py 175-191: [_builtin].  Thicknesses and roughnesses are taken as real (a complex table of
      thicknesses is not modelled). *)
  Definition builtin_row (ts rs ss : list (list C)) (qrow : list R) (i : nat) : res (list (option R)) :=
    t <- row ts i ;; r <- row rs i ;; sl <- row ss i ;;
    match rev sl with
    | [] => Raise IndexError
    | amb :: _ =>
        multilayer_reflectivity (map (fun q => q * 10 ^ 10) qrow) (map (fun x => fst x * / 10 ^ 10) t)
          (map (fun x => fst x * / 10 ^ 10) r) (map (fun x => (x * RtoC (10 ^ 14))%C) (removelast sl)) (amb * RtoC (10 ^ 14))%C
    end.
  Definition builtin (ts rs ss : list (list C)) (qrows : list (list R)) : res (list (list (option R))) :=
    mapM (fun iq => builtin_row ts rs ss (snd iq) (fst iq)) (combine (seq 0 (n_rows ts)) qrows).

  (** data_generator.py 150-173: [_refl1d]; np.fliplr of a one-dimensional array raises ValueError. *)
  Definition refl1d_row (f : refl1d_fun) (ts rs ss : list (list C)) (qrow : list R) (i : nat) : res (list (option R)) :=
    t <- row ts i ;; r <- row rs i ;; sl <- row ss i ;;
    let rho := rev sl in
    Ok (f (map (fun q => q / 2) qrow) (1 :: rev (map fst t) ++ [1])%list (rev (map fst r)) (map fst rho)
          (if existsb (fun z => negb (Reqb (snd z) 0)) rho then Some (map snd rho) else None)).
  Definition run_refl1d (f : refl1d_fun) (ts rs ss : list (list C)) (qrows : list (list R)) : res (list (list (option R))) :=
    match ts, ss with
    | [], _ | _, [] => Raise ValueError
    | _, _ => mapM (fun iq => refl1d_row f ts rs ss (snd iq) (fst iq)) (combine (seq 0 (n_rows ts)) qrows)
    end.

  (** data_generator.py 107-148: [simulate_reflectivity] *)
  Definition simulate_reflectivity (s : S) (qs : list R) (t : cols) (d : spread) (engine : string) : res (S * list (list (option R))) :=
    if String.eqb engine "refl1d" || String.eqb engine "builtin" then
      let '(ts, rs, ss) := separate t in
      '(s1, qrows) <- noisy_q s qs d (n_rows ts) ;;
      match refl1d with
      | Some f => if String.eqb engine "refl1d" then c <- run_refl1d f ts rs ss qrows ;; Ok (s1, c)
                  else c <- builtin ts rs ss qrows ;; Ok (s1, c)
      | None => c <- builtin ts rs ss qrows ;; Ok (s1, c)
      end
    else Raise ValueError.

  (** ** model_mixer.py *)
  (** [np.random.choice(generators, p=weights)]: an index, or an exception (no models, weights that are not
      probabilities). *)
  Context (choice : S -> list R -> res (S * nat)).

  (** [new_labels[labels.columns] = np.array(labels[i:i+1])]: existing columns are overwritten, others appended *)
  Fixpoint set_columns (t : cols) (i : nat) (labels : cols) : res cols :=
    match labels with
    | [] => Ok t
    | (k, c) :: labels' => match nth_error c i with
                           | Some x => set_columns (upd t k [x]) i labels'
                           | None => Raise IndexError
                           end
    end.

  (** model_mixer.py 37-50: the loop of [ModelMixer.simulate_reflectivity].  The second positional argument of
      generator.simulate_reflectivity is q_noise_spread, so the engine name is passed there. *)
  Fixpoint mixer_loop (s : S) (qs : list R) (models : list structure) (weights : list R) (labels : cols) (engine : string) (is : list nat)
    : res (S * list (list (option R))) :=
    match is with
    | [] => Ok (s, [])
    | i :: is' =>
        '(s1, j) <- choice s weights ;;
        match nth_error models j with
        | None => Raise ValueError
        | Some m =>
            '(s2, new) <- generate_random_labels g s1 m 1 (mkDparams "bolstered" (15 / 100) (1 / 10)) ;;
            new' <- set_columns new i labels ;;
            '(s3, c) <- simulate_reflectivity s2 qs new' (SStr engine) "refl1d" ;;
            '(s4, cs) <- mixer_loop s3 qs models weights labels engine is' ;;
            Ok (s4, c ++ cs)%list
        end
    end.
  Definition mixer_simulate (s : S) (qs : list R) (models : list structure) (weights : list R) (n : nat) (labels : cols) (engine : string) :=
    let total := fold_right Rplus 0 weights in
    mixer_loop s qs models (map (fun w => w / total) weights) labels engine (seq 0 n).
End Sim.
