(** Model of the trainer.  Source: /repo/mlreflect/training/training.py.
    keras is not modelled: the fitted network is whatever the function [fit] returns for the arguments it is given. *)
From Coq Require Import Reals Lra.
From Coquelicot Require Import Complex.
From Flocq Require Import Core.Raux.
From Verif Require Import Py Str Cplx Sample_Model TrainedModel_Model Rng Sampling_Model Simulation_Model Arr Preproc_Model NRng Noise_Model Generator_Model.
Local Open Scope string_scope.
Local Open Scope R_scope.

(** training.py 42-45: the training data *)
Record tdata := mkTdata { td_labels : frame; td_refl : arr }.
(** training.py 23-35: the attributes that change or are used later (the noise and scaling ranges are fixed to (0.9, 1.1)). *)
Record trainer := mkTrainer { tr_sample : structure; tr_q : list R; tr_data : option tdata; tr_ip : option ip_state }.
Definition noise_range : R * R := (9 / 10, 11 / 10).
Definition scaling_range : R * R := (9 / 10, 11 / 10).
Definition tr_output (t : trainer) : out_pp := mkOp (mkPystr "min_to_zero" true) (tr_sample t).

(** training.py 23-35: [__init__]; the number of used labels is needed for the network. *)
Definition trainer_new (smp : structure) (qs : list R) : res trainer :=
  _ <- all_params smp ;; Ok (mkTrainer smp qs None None).

(** A label table as DataFrame of [n] rows *)
Definition frame_of (n : nat) (t : cols) : frame := mkFrame n (map (fun kc => (fst kc, map Some (snd kc))) t).

(** [df[lo:hi]] (positions) and np.array(df) *)
Definition fr_slice (f : frame) (lo hi : option Z) : frame :=
  mkFrame (List.length (py_slice (seq 0 (fr_rows f)) lo hi)) (map (fun kc => (fst kc, py_slice (snd kc) lo hi)) (fr_cols f)).
Definition matrix (f : frame) : list (list cell) :=
  map (fun i => map (fun kc => nth i (snd kc) None) (fr_cols f)) (seq 0 (fr_rows f)).
Definition arr_slice (a : arr) (lo hi : option Z) : arr :=
  match a with A1 v => A1 (py_slice v lo hi) | A2 m rows => A2 m (py_slice rows lo hi) end.

(** training.py 68: [int((1 - val_split) * n)], where [rnd] rounds the result of each floating-point operation. *)
Definition n_train (rnd : R -> R) (v : R) (n : nat) : Z := Ztrunc (rnd (rnd (1 - v) * INR n)).

(** training.py 126-133: [_prepare_callbacks] is a staticmethod with the parameters [self] and [verbose=1]; the argument of the
    call is bound to [self].  The result is the verbosity of the callback. *)
Definition prepare_callbacks (self : Z) (verbose : option Z) : Z := match verbose with Some v => v | None => 1%Z end.

Record fit_args := mkFit {
  fa_heap : heap; fa_train : gen; fa_val : gen; fa_ip : option ip_state; fa_epochs : Z; fa_verbose : Z; fa_callback : Z }.

Section Trainer.
  Context {S K : Type} (g : nrng S) (refl1d : option refl1d_fun) (rnd : R -> R).

  (** training.py 118-124: [_prepare_input_preprocessor] *)
  Definition prepare_ip (s : S) (refl : arr) : S * res ip_state :=
    let '(s, x) := apply_uniform_noise g s refl (fst noise_range) (snd noise_range) in
    let '(s, x) := apply_scaling_factor g s x (fst scaling_range) (snd scaling_range) in
    let '(ip, r) := standardize ip_new x in
    (s, _ <- r ;; Ok ip).

  (** training.py 37-47: [generate_training_data]; the new state and the exception, if any.  The random state after an exception
      is not modelled. *)
  Definition generate_training_data (s : S) (t : trainer) (n : Z) : S * trainer * option exn :=
    match generate_random_labels (nr_g g) s (tr_sample t) n (mkDparams "bolstered" (15 / 100) (1 / 10)) with
    | Raise e => (s, t, Some e)
    | Ok (s1, labels) =>
        match simulate_reflectivity (nr_g g) refl1d s1 (tr_q t) labels (SNum 0) "refl1d" with
        | Raise e => (s1, t, Some e)
        | Ok (s2, rows) =>
            let refl := A2 (List.length (tr_q t)) rows in
            let t1 := mkTrainer (tr_sample t) (tr_q t) (Some (mkTdata (frame_of (Z.to_nat n) labels) refl)) (tr_ip t) in
            match prepare_ip s2 refl with
            | (s3, Ok ip) => (s3, mkTrainer (tr_sample t) (tr_q t) (tr_data t1) (Some ip), None)
            | (s3, Raise e) => (s3, t1, Some e)
            end
        end
    end.

  (** training.py 64-77: the two generators.  The slices of the reflectivity are views; they are modelled as new arrays, because
      the generators never write to their reflectivity (C39). *)
  Definition prepare_generators (s : S) (t : trainer) (bs : Z) (v : R) : res (S * (heap * (gen * gen))) :=
    match tr_data t with
    | None => Raise ValueError
    | Some d =>
        '(prep, _) <- apply_preprocessing (tr_output t) (LFrame (td_labels d)) ;;
        let k := n_train rnd v (fr_rows prep) in
        let h := [arr_slice (td_refl d) None (Some k); arr_slice (td_refl d) (Some k) None] in
        '(s, gt) <- gen_new g s h 0 (matrix (fr_slice prep None (Some k))) bs true ;;
        '(s, gv) <- gen_new g s h 1 (matrix (fr_slice prep (Some k) None)) bs true ;;
        Ok (s, (h, (gt, gv)))
    end.

  (** training.py 49-90: [train].  A preprocessor without statistics does not occur ([prepare_ip] never returns one). *)
  Definition train (fit : K -> fit_args -> S -> res (S * K)) (keras : K) (s : S) (t : trainer) (n_epochs bs verbose : Z) (v : R)
    : res (S * @trained_model K (list fl)) :=
    '(s, (h, (gt, gv))) <- prepare_generators s t bs v ;;
    '(s, k) <- fit keras (mkFit h gt gv (tr_ip t) n_epochs verbose (prepare_callbacks verbose None)) s ;;
    match tr_ip t with
    | None => Raise AttributeError
    | Some ip =>
        match ip_mean ip, ip_std ip with
        | Some mean, Some std => Ok (s, mkTM (tr_sample t) k (map Some (tr_q t)) mean std)
        | _, _ => Raise TypeError
        end
    end.
End Trainer.
