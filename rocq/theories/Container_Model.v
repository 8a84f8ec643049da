(** Model of the container class itself, with fields that may still be empty, and of model files in all states they can be left in.
    Source: /repo/mlreflect/models/trained_model.py.  keras, h5py and json are trusted (tensorflow 2.1, h5py 2.10). *)
From Verif Require Import Py Str Sample_Model TrainedModel_Model Path_Model.
Local Open Scope string_scope.

Section Container.
  Context {K V : Type}.

  (** trained_model.py 26-31: the container; None until something is assigned *)
  Record container := mkContainer { c_sample : option structure; c_keras : option K; c_q : option V; c_mean : option V; c_std : option V }.
  Definition container_new : container := mkContainer None None None None None.
  (** trained_model.py 33-48: [from_variable] *)
  Definition from_variable (k : K) (s : structure) (q mean std : V) : container := mkContainer (Some s) (Some k) (Some q) (Some mean) (Some std).

  (** What is stored under a path: an .h5 file with the keras model (if it has one) and the datasets of the group
      'prediction_params' (None if the group does not exist), or a directory with a saved keras model *)
  Record group := mkGroup { g_sample : option sdict; g_q : option V; g_mean : option V; g_std : option V }.
  Inductive entry := EFile (k : option K) (g : option group) | EDir (k : K).
  Definition disk := string -> option entry.
  Definition put (d : disk) (p : string) (e : entry) : disk := fun x => if String.eqb x p then Some e else d x.

  (** keras writes an .h5 file for these extensions, and a directory otherwise. *)
  Definition h5_name (p : string) : bool := existsb (String.eqb (snd (splitext p))) [".h5"; ".hdf5"; ".keras"].

  Definition dataset {A} (x : option A) : res A := match x with Some a => Ok a | None => Raise KeyError end.

  (** trained_model.py 50-64: [from_file]; the container after the call and the exception.  keras raises OSError if there is nothing
      and ValueError for a file without a model; h5py cannot open a directory. *)
  Definition load (c : container) (d : disk) (p : string) : container * option exn :=
    match d p with
    | None => (c, Some OSError)
    | Some (EDir k) => (mkContainer (c_sample c) (Some k) (c_q c) (c_mean c) (c_std c), Some OSError)
    | Some (EFile None _) => (c, Some ValueError)
    | Some (EFile (Some k) g) =>
        let c1 := mkContainer (c_sample c) (Some k) (c_q c) (c_mean c) (c_std c) in
        match g with
        | None => (c1, Some KeyError)
        | Some g =>
            match dataset (g_sample g) with
            | Raise e => (c1, Some e)
            | Ok j =>
                match from_dict empty_structure j with
                | (_, Some e) => (c1, Some e)
                | (s, None) =>
                    let c2 := mkContainer (Some s) (Some k) (c_q c) (c_mean c) (c_std c) in
                    match dataset (g_q g) with
                    | Raise e => (c2, Some e)
                    | Ok q =>
                        let c3 := mkContainer (Some s) (Some k) (Some q) (c_mean c) (c_std c) in
                        match dataset (g_mean g) with
                        | Raise e => (c3, Some e)
                        | Ok mean =>
                            let c4 := mkContainer (Some s) (Some k) (Some q) (Some mean) (c_std c) in
                            match dataset (g_std g) with
                            | Raise e => (c4, Some e)
                            | Ok std => (mkContainer (Some s) (Some k) (Some q) (Some mean) (Some std), None)
                            end
                        end
                    end
                end
            end
        end
    end.

  (** h5py's create_dataset(data=None) is a TypeError. *)
  Definition written {A} (x : option A) : res A := match x with Some a => Ok a | None => Raise TypeError end.
  Definition write_group (j : sdict) (c : container) : group * option exn :=
    let g := mkGroup (Some j) None None None in
    match written (c_q c) with
    | Raise e => (g, Some e)
    | Ok q =>
        match written (c_mean c) with
        | Raise e => (mkGroup (Some j) (Some q) None None, Some e)
        | Ok mean =>
            match written (c_std c) with
            | Raise e => (mkGroup (Some j) (Some q) (Some mean) None, Some e)
            | Ok std => (mkGroup (Some j) (Some q) (Some mean) (Some std), None)
            end
        end
    end.

  (** trained_model.py 66-79: [save_model]; keras cannot save None (AttributeError), replaces an existing file, and cannot replace a
      directory by a file or a file by a directory (OSError); None has no to_dict (AttributeError). *)
  Definition save (c : container) (d : disk) (p : string) : disk * option exn :=
    match c_keras c with
    | None => (d, Some AttributeError)
    | Some k =>
        let json := match c_sample c with None => Raise AttributeError | Some s => j <- to_dict s ;; json_dumps j end in
        if h5_name p then
          match d p with
          | Some (EDir _) => (d, Some OSError)
          | _ =>
              let d1 := put d p (EFile (Some k) None) in
              match json with
              | Raise e => (d1, Some e)
              | Ok j => let '(g, e) := write_group j c in (put d1 p (EFile (Some k) (Some g)), e)
              end
          end
        else
          match d p with
          | Some (EFile _ _) => (d, Some OSError)
          | _ =>
              let d1 := put d p (EDir k) in
              match json with Raise e => (d1, Some e) | Ok _ => (d1, Some OSError) end
          end
    end.

  (** Everything that can be done with one container; exceptions are caught by the caller *)
  Inductive cop := CVariable (k : K) (s : structure) (q mean std : V) | CLoad (p : string) | CSave (p : string).
  Definition cstep (w : container * disk) (o : cop) : (container * disk) * option exn :=
    let '(c, d) := w in
    match o with
    | CVariable k s q mean std => ((from_variable k s q mean std, d), None)
    | CLoad p => let '(c', e) := load c d p in ((c', d), e)
    | CSave p => let '(d', e) := save c d p in ((c, d'), e)
    end.
  Definition crun (w : container * disk) (os : list cop) : container * disk := fold_left (fun w o => fst (cstep w o)) os w.
End Container.
Arguments container : clear implicits.
Arguments disk : clear implicits.
Arguments entry : clear implicits.
Arguments cop : clear implicits.
