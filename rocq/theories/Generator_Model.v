(** Model of the batch generators.  Source: /repo/mlreflect/training/noise_generator.py.
    Floating-point arrays live in a heap, because the generators add the background in place ([refl += ...]).
    Labels are two-dimensional and given by their rows.  Sample numbers are natural numbers, batch sizes and batch numbers
    integers. *)
From Coq Require Import Reals Lra.
From Verif Require Import Py Str Rng Sampling_Model Arr Preproc_Model NRng Noise_Model.
Local Open Scope string_scope.
Local Open Scope R_scope.

Definition heap := list arr.
Definition deref (h : heap) (r : nat) : res arr := match nth_error h r with Some a => Ok a | None => Raise NameError end.
Definition alloc (h : heap) (a : arr) : heap * nat := ((h ++ [a])%list, List.length h).

Record gen := mkGen {
  gn_n : nat; gn_bs : Z; gn_input : nat;            (* n_samples, batch_size, n_input *)
  gn_refl : nat; gn_labels : list (list cell);      (* reflectivity (heap address), labels *)
  gn_shuffle : bool; gn_idx : list nat }.           (* shuffle, indexes *)

(** [a[indexes]] for an index array: a new array with copied rows *)
Definition pick {A} (l : list A) (idx : list nat) : res (list A) :=
  mapM (fun i => match nth_error l i with Some x => Ok x | None => Raise IndexError end) idx.
Definition fancy (a : arr) (idx : list nat) : res arr :=
  match a with
  | A1 v => v' <- pick v idx ;; Ok (A1 v')
  | A2 m rows => rows' <- pick rows idx ;; Ok (A2 m rows')
  end.

(** [refl += b] for a matrix [b] with [k] columns: same shape required (the target has as many rows as [b] whenever it is
    two-dimensional, so numpy's broadcasting is not needed). *)
Definition iadd (a : arr) (k : nat) (b : list (list fl)) : res arr :=
  match a with
  | A1 _ => Raise ValueError
  | A2 m rows =>
      if Nat.eqb m k && Nat.eqb (List.length rows) (List.length b)
      then Ok (A2 m (map (fun rb => map (fun xy => fadd (fst xy) (snd xy)) (combine (fst rb) (snd rb))) (combine rows b)))
      else Raise ValueError
  end.

Section Gen.
  Context {S : Type} (g : nrng S).

  (** noise_generator.py 37-39: [__shuffle] *)
  Definition do_shuffle (s : S) (shuffle : bool) (idx : list nat) : S * list nat :=
    if shuffle then nr_perm g s idx else (s, idx).

  (** noise_generator.py 11-23: [BaseGenerator.__init__]; [refl] is the address of the reflectivity array. *)
  Definition gen_new (s : S) (h : heap) (refl : nat) (labels : list (list cell)) (bs : Z) (shuffle : bool) : res (S * gen) :=
    a <- deref h refl ;;
    let n := match a with A1 v => List.length v | A2 _ rows => List.length rows end in
    if (Z.of_nat n <? bs)%Z then Raise ValueError else
    match a with
    | A1 _ => Raise IndexError
    | A2 m _ => let '(s, idx) := do_shuffle s shuffle (seq 0 n) in Ok (s, mkGen n bs m refl labels shuffle idx)
    end.

  (** noise_generator.py 25-26: [__len__]; Python's [len] rejects a negative result. *)
  Definition gen_len (gn : gen) : res Z :=
    if (gn_bs gn =? 0)%Z then Raise ZeroDivisionError
    else let k := (Z.of_nat (gn_n gn) / gn_bs gn)%Z in if (k <? 0)%Z then Raise ValueError else Ok k.

  (** noise_generator.py 29, 81, 129, 166 *)
  Definition batch_indexes (gn : gen) (i : Z) : list nat :=
    py_slice (gn_idx gn) (Some (i * gn_bs gn)%Z) (Some ((i + 1) * gn_bs gn)%Z).

  (** noise_generator.py 34-35: [on_epoch_end] *)
  Definition epoch_end (s : S) (gn : gen) : S * gen :=
    let '(s, idx) := do_shuffle s (gn_shuffle gn) (gn_idx gn) in
    (s, mkGen (gn_n gn) (gn_bs gn) (gn_input gn) (gn_refl gn) (gn_labels gn) (gn_shuffle gn) idx).
  (** The generator after several epochs; the random numbers are also used for other purposes in between, so that every epoch ends with a state of its own. *)
  Definition epochs (states : list S) (gn : gen) : gen := fold_left (fun gn s => snd (epoch_end s gn)) states gn.

  (** noise_generator.py 28-32, 41-46: [BaseGenerator.__getitem__] *)
  Definition base_getitem (h : heap) (gn : gen) (fs : list (arr * list (list cell) -> res (arr * list (list cell)))) (i : Z) : res (arr * list (list cell)) :=
    a <- deref h (gn_refl gn) ;;
    x <- fancy a (batch_indexes gn i) ;; y <- pick (gn_labels gn) (batch_indexes gn i) ;;
    foldM (fun xy f => f xy) (x, y) fs.

  (** [random_logarithmic_distribution( *r, 1)] followed by a function that gets the resulting array, in batch mode (94-95,
      103-104).  Simplification: every range that is not a tuple raises TypeError here. *)
  Definition batch_level (s : S) (r : level) : res (S * level) :=
    match r with
    | LvTuple t => '(s, _) <- log_levels g s t 1 ;; Ok (s, LvOther)
    | _ => Raise TypeError
    end.

  (** noise_generator.py 90-97: shot noise, a new array *)
  Definition noise_step (s : S) (h : heap) (r : nat) (mode : pystr) (range : option level) : res (S * (heap * nat)) :=
    match range with
    | None => Ok (s, (h, r))
    | Some lv =>
        a <- deref h r ;;
        '(s, lv) <- (if is_lit mode "single" then Ok (s, lv)
                     else if is_lit mode "batch" then batch_level s lv else Raise ValueError) ;;
        '(s, (b, _)) <- apply_shot_noise g s a lv ;; Ok (s, alloc h b)
    end.
  (** noise_generator.py 98-107: background, added in place *)
  Definition background_step (s : S) (h : heap) (r : nat) (n_input : nat) (mode : pystr) (range : option level) (spread : R) : res (S * heap) :=
    match range with
    | None => Ok (s, h)
    | Some lv =>
        a <- deref h r ;;
        let n := match a with A1 v => List.length v | A2 _ rows => List.length rows end in
        '(s, lv) <- (if is_lit mode "single" then Ok (s, lv)
                     else if is_lit mode "batch" then batch_level s lv else Raise ValueError) ;;
        '(s, (b, _)) <- generate_background g s n n_input lv spread ;;
        a' <- iadd a n_input b ;; Ok (s, set_nth h r a')
    end.

  (** noise_generator.py 86-96 ff: the part that [NoiseGenerator] and [NoiseGeneratorLog] share *)
  Definition noisy_batch (s : S) (h : heap) (gn : gen) (mode : pystr) (noise background : option level) (spread : R) (idx : list nat) : res (S * (heap * nat)) :=
    a <- deref h (gn_refl gn) ;; x <- fancy a idx ;;
    let '(h, r) := alloc h x in
    '(s, (h, r)) <- noise_step s h r mode noise ;;
    '(s, h) <- background_step s h r (gn_input gn) mode background spread ;;
    Ok (s, (h, r)).

  (** noise_generator.py 80-109: [NoiseGenerator.__getitem__]; returns the generator state, the heap, the preprocessor state and
      the batch. *)
  Definition noise_getitem (s : S) (h : heap) (ip : ip_state) (gn : gen) (mode : pystr) (noise background : option level) (spread : R) (i : Z)
    : res (S * heap * ip_state * (arr * list (list cell))) :=
    saved <- has_saved ip ;;
    if negb saved then Raise ValueError else
    '(s, (h, r)) <- noisy_batch s h gn mode noise background spread (batch_indexes gn i) ;;
    a <- deref h r ;;
    let '(ip, x) := standardize ip a in
    x <- x ;; y <- pick (gn_labels gn) (batch_indexes gn i) ;; Ok (s, h, ip, (x, y)).

  (** noise_generator.py 122-132: [UniformNoiseGenerator.__getitem__] *)
  Definition uniform_getitem (s : S) (h : heap) (ip : ip_state) (gn : gen) (noise scaling : R * R) (i : Z)
    : res (S * heap * ip_state * (arr * list (list cell))) :=
    a <- deref h (gn_refl gn) ;; x <- fancy a (batch_indexes gn i) ;;
    let '(s, x) := apply_uniform_noise g s x (fst noise) (snd noise) in
    let '(s, x) := apply_scaling_factor g s x (fst scaling) (snd scaling) in
    let '(ip, x) := standardize ip x in
    x <- x ;; y <- pick (gn_labels gn) (batch_indexes gn i) ;; Ok (s, h, ip, (x, y)).

  (** noise_generator.py 163: [abs(np.log10(refl) / 10)]; the logarithm of a non-positive number is not finite. *)
  Definition log_entry (x : fl) : fl :=
    match x with Some r => if Rle_dec r 0 then None else Some (Rabs (log10 r / 10)) | None => None end.
  Definition amap (f : fl -> fl) (a : arr) : arr := match a with A1 v => A1 (map f v) | A2 m rows => A2 m (map (map f) rows) end.
  (** noise_generator.py 142-169: [NoiseGeneratorLog.__getitem__] *)
  Definition log_getitem (s : S) (h : heap) (gn : gen) (mode : pystr) (noise background : option level) (spread : R) (i : Z)
    : res (S * heap * (arr * list (list cell))) :=
    '(s, (h, r)) <- noisy_batch s h gn mode noise background spread (batch_indexes gn i) ;;
    a <- deref h r ;;
    y <- pick (gn_labels gn) (batch_indexes gn i) ;; Ok (s, h, (amap log_entry a, y)).
End Gen.
