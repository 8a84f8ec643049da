(** Model of a session: several trainers, samples and trained models that share objects.  Sources: /repo/mlreflect/training/
    training.py, /repo/mlreflect/data_generation/data_generator.py, /repo/mlreflect/models/trained_model.py.
    In Trainer_Model every object holds its own copy of its sample and network.  Here samples and networks are objects with an
    address: a trainer keeps the sample it was given (training.py 24), the trained model keeps the network and the sample of its
    trainer (training.py 86-89, trained_model.py 46-50), and numpy's random state belongs to the whole process.  Arrays (q values,
    means, standard deviations) are values: nothing in the package writes to them. *)
From Coq Require Import Reals.
From Verif Require Import Py Str Sample_Model TrainedModel_Model Rng Sampling_Model Simulation_Model Arr Preproc_Model NRng Noise_Model Generator_Model Trainer_Model.
Local Open Scope string_scope.
Local Open Scope R_scope.

(** A trainer and a trained model; samples and networks are addresses. *)
Record ctrainer := mkCtr { ct_sample : nat; ct_net : nat; ct_q : list R; ct_data : option tdata; ct_ip : option ip_state }.
Record cmodel := mkCm { cm_sample : nat; cm_net : nat; cm_q : list fl; cm_mean : list fl; cm_std : list fl }.

(** What exists: numpy's random state, the sample objects, the networks, the trainers, the trained models and the files *)
Record world (S K : Type) := mkWorld {
  w_rng : S; w_samples : list structure; w_nets : list K; w_trainers : list ctrainer; w_models : list cmodel;
  w_files : fs K (list fl) }.
Arguments mkWorld {S K}. Arguments w_rng {S K}. Arguments w_samples {S K}. Arguments w_nets {S K}. Arguments w_trainers {S K}. Arguments w_models {S K}. Arguments w_files {S K}.

(** What the user does.  [OEdit f] changes sample objects in place (rename_layer, add_layer, new limits, …), in any way; [OSample st]
    makes a new sample object; [ODraw f] stands for other code that uses numpy's random state. *)
Inductive op (S : Type) : Type :=
| OSample (st : structure)
| OEdit (f : list structure -> list structure)
| ODraw (f : S -> S)
| OGenerator (a : nat) (seed : option Z)
| OTrainer (a : nat) (qs : list R) (seed : option Z)
| OGenerate (t : nat) (n : Z)
| OTrain (t : nat) (n_epochs bs verbose : Z) (v : R)
| OSave (m : nat) (path : string)
| OLoad (path : string).
Arguments OSample {S}. Arguments OEdit {S}. Arguments ODraw {S}. Arguments OGenerator {S}. Arguments OTrainer {S}. Arguments OGenerate {S}. Arguments OTrain {S}. Arguments OSave {S}. Arguments OLoad {S}.

Fixpoint put {A} (l : list A) (i : nat) (x : A) : list A :=
  match l, i with
  | [], _ => []
  | _ :: l, O => x :: l
  | y :: l, Datatypes.S i => y :: put l i x
  end.

Section Session.
  Context {S K : Type} (g : nrng S) (refl1d : option refl1d_fun) (rnd : R -> R).
  (** [seed k] is the random state after numpy.random.seed(k), [fresh n m] a new network with [n] inputs and [m] outputs (its
      initial weights come from tensorflow's own random state), [fit] the training of keras: the new random state, the network as
      it is left, and the exception if training is interrupted. *)
  Context (seed : Z -> S) (fresh : nat -> nat -> K) (fit : K -> fit_args -> S -> S * K * option exn).

  (** data_generator.py 38-39; numpy accepts seeds from 0 to 2^32 - 1. *)
  Definition reseed (s : S) (k : option Z) : res S :=
    match k with
    | None => Ok s
    | Some k => if ((0 <=? k) && (k <? 2 ^ 32))%Z then Ok (seed k) else Raise ValueError
    end.

  Definition with_rng (w : world S K) (s : S) : world S K := mkWorld s (w_samples w) (w_nets w) (w_trainers w) (w_models w) (w_files w).

  (** The trainer with the current contents of its sample *)
  Definition look (w : world S K) (c : ctrainer) : res trainer :=
    match nth_error (w_samples w) (ct_sample c) with
    | Some st => Ok (mkTrainer st (ct_q c) (ct_data c) (ct_ip c))
    | None => Raise NameError
    end.

  (** The trained model with the current contents of its sample and its network *)
  Definition view (w : world S K) (c : cmodel) : res (trained_model K (list fl)) :=
    match nth_error (w_samples w) (cm_sample c), nth_error (w_nets w) (cm_net c) with
    | Some st, Some k => Ok (mkTM st k (cm_q c) (cm_mean c) (cm_std c))
    | _, _ => Raise NameError
    end.

  (** training.py 49-90: [train], as in Trainer_Model but on the shared network. *)
  Definition do_train (w : world S K) (c : ctrainer) (t : trainer) (k : K) (n_epochs bs verbose : Z) (v : R) : world S K * option exn :=
    match prepare_generators g rnd (w_rng w) t bs v with
    | Raise e => (w, Some e)
    | Ok (s, (h, (gt, gv))) =>
        let '(s', k', e) := fit k (mkFit h gt gv (tr_ip t) n_epochs verbose (prepare_callbacks verbose None)) s in
        let w' := mkWorld s' (w_samples w) (put (w_nets w) (ct_net c) k') (w_trainers w) (w_models w) (w_files w) in
        match e with
        | Some e => (w', Some e)
        | None =>
            match tr_ip t with
            | None => (w', Some AttributeError)
            | Some ip =>
                match ip_mean ip, ip_std ip with
                | Some mean, Some std =>
                    (mkWorld s' (w_samples w) (w_nets w') (w_trainers w) (w_models w ++ [mkCm (ct_sample c) (ct_net c) (map Some (ct_q c)) mean std])%list (w_files w), None)
                | _, _ => (w', Some TypeError)
                end
            end
        end
    end.

  (** One step: the world afterwards and the exception, if any (the user goes on afterwards). *)
  Definition step (w : world S K) (o : op S) : world S K * option exn :=
    match o with
    | OSample st => (mkWorld (w_rng w) (w_samples w ++ [st])%list (w_nets w) (w_trainers w) (w_models w) (w_files w), None)
    | OEdit f => (mkWorld (w_rng w) (f (w_samples w)) (w_nets w) (w_trainers w) (w_models w) (w_files w), None)
    | ODraw f => (with_rng w (f (w_rng w)), None)
    (* data_generator.py 29-42 *)
    | OGenerator a k => match reseed (w_rng w) k with Ok s => (with_rng w s, None) | Raise e => (w, Some e) end
    (* training.py 23-35 *)
    | OTrainer a qs k =>
        match reseed (w_rng w) k with
        | Raise e => (w, Some e)
        | Ok s =>
            match nth_error (w_samples w) a with
            | None => (w, Some NameError)
            | Some st =>
                match all_params st with
                | Raise e => (with_rng w s, Some e)
                | Ok ps => (mkWorld s (w_samples w) (w_nets w ++ [fresh (List.length qs) (List.length (used_params ps))])%list
                                (w_trainers w ++ [mkCtr a (List.length (w_nets w)) qs None None])%list (w_models w) (w_files w), None)
                end
            end
        end
    (* training.py 37-47 *)
    | OGenerate t n =>
        match nth_error (w_trainers w) t with
        | None => (w, Some NameError)
        | Some c =>
            match look w c with
            | Raise e => (w, Some e)
            | Ok tr =>
                let '(s, tr', e) := generate_training_data g refl1d (w_rng w) tr n in
                (mkWorld s (w_samples w) (w_nets w) (put (w_trainers w) t (mkCtr (ct_sample c) (ct_net c) (ct_q c) (tr_data tr') (tr_ip tr'))) (w_models w) (w_files w), e)
            end
        end
    | OTrain t n_epochs bs verbose v =>
        match nth_error (w_trainers w) t with
        | None => (w, Some NameError)
        | Some c =>
            match look w c, nth_error (w_nets w) (ct_net c) with
            | Ok tr, Some k => do_train w c tr k n_epochs bs verbose v
            | Raise e, _ => (w, Some e)
            | _, None => (w, Some NameError)
            end
        end
    (* trained_model.py 66-79 *)
    | OSave m path =>
        match nth_error (w_models w) m with
        | None => (w, Some NameError)
        | Some c =>
            match view w c with
            | Raise e => (w, Some e)
            | Ok tm => let '(f, e) := save_model (w_files w) path tm in (mkWorld (w_rng w) (w_samples w) (w_nets w) (w_trainers w) (w_models w) f, e)
            end
        end
    (* trained_model.py 52-64: a new container with a new network and a new sample *)
    | OLoad path =>
        match from_file (w_files w) path with
        | Raise e => (w, Some e)
        | Ok tm =>
            (mkWorld (w_rng w) (w_samples w ++ [tm_sample tm])%list (w_nets w ++ [tm_keras tm])%list (w_trainers w)
               (w_models w ++ [mkCm (List.length (w_samples w)) (List.length (w_nets w)) (tm_q tm) (tm_mean tm) (tm_std tm)])%list (w_files w), None)
        end
    end.

  Fixpoint run (w : world S K) (os : list (op S)) : world S K :=
    match os with [] => w | o :: os => run (fst (step w o)) os end.

  (** data_generator.py 44-…: labels drawn by a generator of the sample at [a] *)
  Definition draw_labels (w : world S K) (a : nat) (n : Z) (d : dparams) : res (S * Sampling_Model.cols) :=
    match nth_error (w_samples w) a with
    | Some st => generate_random_labels (nr_g g) (w_rng w) st n d
    | None => Raise NameError
    end.
End Session.
