(** Model of the training of networks with keras callbacks.
    Sources: /repo/mlreflect/models/simple_model.py (45-73), /repo/mlreflect/training/training.py (83-84, 126-133).
    What one epoch does to the weights is left open ([epoch]); the callbacks of keras (tensorflow 2.1) are modelled as far as they act on
    the network, the learning rate and the disk.  Simplifications: keras accepts the shapes of the data; the learning rate is a real number
    (halving a binary32 number is exact until it becomes subnormal). *)
From Coq Require Import Reals Lra.
From Verif Require Import Py Str Arr Sample_Model TrainedModel_Model Path_Model Utils_Model Container_Model.
Local Open Scope R_scope.

(** [np.less(x, best - delta)]: nan and infinity (None) are not below anything, and everything else is below infinity. *)
Definition below (delta : R) (x best : fl) : bool :=
  match x, best with
  | None, _ => false
  | Some _, None => true
  | Some x, Some b => if Rlt_dec x (b - delta) then true else false
  end.

Inductive callback :=
  | Board (log_dir : string)
  | Checkpoint (path : string) (best : fl)
  | Plateau (best : fl) (wait : nat).

(** simple_model.py 70-71, training.py 128: a new ModelCheckpoint(save_best_only) and ReduceLROnPlateau(factor=0.5) with the default
    patience 10, min_delta 1e-4, cooldown 0 and min_lr 0 *)
Definition checkpoint_new (path : string) : callback := Checkpoint path None.
Definition plateau_new : callback := Plateau None 0.
Definition patience : nat := 10.
Definition min_delta : R := / 10000.
Definition factor : R := / 2.

Section Training.
  Context {S K D V : Type}.
  (** One epoch of training and validation: data, batch size (None: the data are batches), random state, network, learning rate *)
  Context (epoch : D -> option Z -> S -> K -> R -> S * (K * fl)).

  (** The network with its learning rate (both are saved), and the files *)
  Definition fitting := (K * R * disk (K * R) V)%type.

  (** on_train_begin *)
  Definition cb_begin (c : callback) : callback := match c with Plateau _ _ => Plateau None 0 | c => c end.
  (** on_epoch_end *)
  Definition cb_epoch (val : fl) (f : fitting) (c : callback) : fitting * callback :=
    let '(k, lr, d) := f in
    match c with
    | Board l => (f, c)
    | Checkpoint p best => if below 0 val best then ((k, lr, put d p (EFile (Some (k, lr)) None)), Checkpoint p val) else (f, c)
    | Plateau best wait =>
        if below min_delta val best then (f, Plateau val 0)
        else
          let wait := (wait + 1)%nat in
          if Nat.leb patience wait then
            if Rlt_dec 0 lr then ((k, Rmax (lr * factor) 0, d), Plateau best 0) else (f, Plateau best wait)
          else (f, Plateau best wait)
    end.
  Fixpoint cb_all (val : fl) (f : fitting) (cs : list callback) : fitting * list callback :=
    match cs with
    | [] => (f, [])
    | c :: cs => let '(f, c) := cb_epoch val f c in let '(f, cs) := cb_all val f cs in (f, c :: cs)
    end.

  (** model.fit: the history has the validation loss and the learning rate of every epoch. *)
  Fixpoint fit_loop (n : nat) (x : D) (bs : option Z) (s : S) (f : fitting) (cs : list callback) (hist : list (fl * R)) : S * (fitting * list (fl * R)) :=
    match n with
    | O => (s, (f, hist))
    | Datatypes.S n =>
        let '(k, lr, d) := f in
        let '(s, (k, val)) := epoch x bs s k lr in
        let '(f, cs) := cb_all val (k, lr, d) cs in
        fit_loop n x bs s f cs (hist ++ [(val, lr)])%list
    end.
  Definition keras_fit (x : D) (bs : option Z) (epochs : Z) (s : S) (f : fitting) (cs : list callback) : S * (fitting * list (fl * R)) :=
    fit_loop (Z.to_nat epochs) x bs s f (map cb_begin cs) [].

  (** simple_model.py 13-14: the directory, the network and the learning rate of its optimizer *)
  Record simple := mkSimple { sm_dir : string; sm_net : K; sm_lr : R }.
  (** simple_model.py 40-43: the learning rate of a new model *)
  Definition simple_new (dir : string) (k : K) : simple := mkSimple dir k (5 / 10000).

  (** simple_model.py 61-73: the callbacks of one training *)
  Definition training_callbacks (log_dir path : string) : list callback := [Board log_dir; checkpoint_new path; plateau_new].

  (** simple_model.py 45-60: [train] ([Some 256] as batch size) and [train_with_generator] (None), at the time [now] *)
  Definition simple_fit (bs : option Z) (m : simple) (fs : dirs) (d : disk (K * R) V) (now : datetime) (s : S) (x : D) (epochs : Z)
    : res (S * (simple * (dirs * disk (K * R) V)) * (list (fl * R) * string)) :=
    '(fs, (log_dir, path, ts)) <- setup_training fs (sm_dir m) now ;;
    let '(s, ((k, lr, d), hist)) := keras_fit x bs epochs s (sm_net m, sm_lr m, d) (training_callbacks log_dir path) in
    Ok (s, (mkSimple (sm_dir m) k lr, (fs, d)), (hist, ts)).
  Definition simple_train := simple_fit (Some 256%Z).
  Definition train_with_generator := simple_fit None.

  (** training.py 83-84, 126-133: the training of a Trainer has no checkpoints. *)
  Definition trainer_fit (x : D) (epochs : Z) (s : S) (f : fitting) : S * (fitting * list (fl * R)) := keras_fit x None epochs s f [plateau_new].
End Training.
