(** Model of the noise functions.  Source: /repo/mlreflect/data_generation/noise.py.
    Arrays have one or two dimensions ([arr]); arrays of other dimensions raise ValueError (58, 62) and are not represented.
    Arrays are of floating-point type. *)
From Coq Require Import Reals Lra.
From Verif Require Import Py Rng Sampling_Model Arr NRng.
Local Open Scope R_scope.

(** A number, a tuple, or anything else (including numpy scalars and arrays), as [type(x) in (float, int)] and
    [type(x) is tuple] distinguish them. *)
Inductive level := LvNum (x : R) | LvTuple (l : list R) | LvOther.

(** Rows of a flat array, [a.reshape(n, m)] *)
Fixpoint reshape {A} (n m : nat) (l : list A) : list (list A) :=
  match n with O => [] | S n' => firstn m l :: reshape n' m (skipn m l) end.

Section Noise.
  Context {S : Type} (g : nrng S).

  (** [random_logarithmic_distribution] called as [f( *t, n)]: anything but a pair raises TypeError. *)
  Definition log_levels (s : S) (t : list R) (n : nat) : res (S * list R) :=
    match t with
    | [lo; hi] => logarithmic (nr_g g) s lo hi (Z.of_nat n)
    | _ => Raise TypeError
    end.

  (** noise.py 24-27: [apply_uniform_noise]; [noise_range] is a pair. *)
  Definition apply_uniform_noise (s : S) (a : arr) (lo hi : R) : S * arr :=
    match a with
    | A1 v => let '(s, us) := rng_uniform (nr_g g) s lo hi (List.length v) in
              (s, A1 (map (fun xu => fmul (fst xu) (Some (snd xu))) (combine v us)))
    | A2 m rows => let '(s, us) := rng_uniform (nr_g g) s lo hi (List.length rows * m) in
              (s, A2 m (map (fun ru => map (fun xu => fmul (fst xu) (Some (snd xu))) (combine (fst ru) (snd ru)))
                            (combine rows (reshape (List.length rows) m us))))
    end.

  Definition scale_row (k : R) (r : list fl) : list fl := map (fun x => fmul x (Some k)) r.
  (** noise.py 30-39: [apply_scaling_factor]; a single curve loses its first dimension. *)
  Definition apply_scaling_factor (s : S) (a : arr) (lo hi : R) : S * arr :=
    let '(m, rows) := match a with A1 v => (List.length v, [v]) | A2 m rows => (m, rows) end in
    let '(s, ks) := rng_uniform (nr_g g) s lo hi (List.length rows) in
    let rows := map (fun rk => scale_row (snd rk) (fst rk)) (combine rows ks) in
    (s, match rows with [r] => A1 r | _ => A2 m rows end).

  (** [np.clip(x, 1e-16, None)] *)
  Definition tiny : R := / 10 ^ 16.
  Definition clip (x : fl) : fl := option_map (Rmax tiny) x.

  (** noise.py 72-73, 76: one curve with shot noise *)
  Definition shot_row (s : S) (curve : list fl) (spread : R) : res (S * list fl) :=
    '(s, xs) <- np_normals g s (map (fun c => (c, fsqrt (fmul c (Some spread)))) curve) ;; Ok (s, map clip xs).
  (** noise.py 111, 114: one curve with Poisson noise *)
  Definition poisson_row (s : S) (curve : list fl) (spread : R) : res (S * list fl) :=
    '(s, ks) <- np_poisson g s (map (fun c => fmul c (Some spread)) curve) ;;
    Ok (s, map (fun k => clip (fdiv (Some (INR k)) (Some spread))) ks).

  (** The loop over [zip(reflectivity_curves, spreads)] *)
  Fixpoint noise_rows (f : S -> list fl -> R -> res (S * list fl)) (s : S) (rows : list (list fl)) (ks : list R) : res (S * list (list fl)) :=
    match rows, ks with
    | r :: rows, k :: ks => '(s, r') <- f s r k ;; '(s, rs') <- noise_rows f s rows ks ;; Ok (s, r' :: rs')
    | _, _ => Ok (s, [])
    end.

  Definition n_curves (a : arr) : nat := match a with A1 _ => 1 | A2 _ rows => List.length rows end.

  (** noise.py 64-69, 103-108 *)
  Definition spread_values (s : S) (sp : level) (n : nat) : res (S * list R) :=
    match sp with
    | LvNum x => Ok (s, repeat x n)
    | LvTuple t => log_levels s t n
    | LvOther => Raise TypeError
    end.

  (** noise.py 56-78 and 95-116: the common body of [apply_shot_noise] and [apply_poisson_noise].  The list of zero curves
      becomes the one-dimensional empty array [np.array([])]. *)
  Definition apply_noise (f : S -> list fl -> R -> res (S * list fl)) (s : S) (a : arr) (sp : level) : res (S * (arr * list R)) :=
    '(s, ks) <- spread_values s sp (n_curves a) ;;
    match a with
    | A1 v => k <- py_get ks 0 ;; '(s, v') <- f s v k ;; Ok (s, (A1 v', ks))
    | A2 m [] => Ok (s, (A1 [], ks))
    | A2 m [r] => k <- py_get ks 0 ;; '(s, r') <- f s r k ;; Ok (s, (A2 m [r'], ks))
    | A2 m rows => '(s, rows') <- noise_rows f s rows ks ;; Ok (s, (A2 m rows', ks))
    end.
  Definition apply_shot_noise := apply_noise shot_row.
  Definition apply_poisson_noise := apply_noise poisson_row.

  (** noise.py 119-145: [generate_background]; sizes are natural numbers. *)
  Definition generate_background (s : S) (n k : nat) (lv : level) (spread : R) : res (S * (list (list fl) * list R)) :=
    match lv with
    | LvNum x =>
        if Rlt_dec (spread * x) 0 then Raise ValueError else
        let '(s, xs) := rng_normal (nr_g g) s x (spread * x) (n * k) in
        Ok (s, (reshape n k (map Some xs), repeat x n))
    | LvTuple t =>
        '(s, mean) <- log_levels s t n ;;
        let means := List.concat (map (fun x => repeat x k) mean) in
        '(s, xs) <- np_normals g s (map (fun m => (Some m, Some (spread * m))) means) ;;
        Ok (s, (reshape n k xs, mean))
    | LvOther => Raise TypeError
    end.
End Noise.
