(** Model of mlreflect.data_generation.ModelMixer as an object.
    Sources: /repo/mlreflect/data_generation/model_mixer.py, data_generator.py (28-41). *)
From Coq Require Import Reals Lra.
From Coquelicot Require Import Complex.
From Verif Require Import Py Str Cplx Sample_Model Rng Sampling_Model Reflectivity_Model Simulation_Model.
Local Open Scope R_scope.

(** data_generator.py 28-41: what a ReflectivityGenerator without a random seed keeps; the same engine is found for all of them. *)
Record generator := mkGenerator { gn_q : list R; gn_sample : structure }.
(** model_mixer.py 15-19 *)
Record mixer := mkMixer { mx_models : list structure; mx_weights : list R; mx_generators : list generator; mx_q : list R }.
Definition mixer_new (q : list R) : mixer := mkMixer [] [] [] q.
(** model_mixer.py 38-39: [_add_generator] *)
Definition add_generator (m : mixer) (smp : structure) : mixer :=
  mkMixer (mx_models m) (mx_weights m) (mx_generators m ++ [mkGenerator (mx_q m) smp])%list (mx_q m).
(** model_mixer.py 33-36: [add_model]; the weight is 1 if it is not given. *)
Definition add_model (m : mixer) (smp : structure) (weight : option R) : mixer :=
  add_generator (mkMixer (mx_models m ++ [smp]) (mx_weights m ++ [match weight with None => 1 | Some w => w end]) (mx_generators m) (mx_q m))%list smp.

(** model_mixer.py 41-50: [simulate_reflectivity] for a table of [n] rows.  Division of the weights by a sum of 0 gives NaN or
    infinities, or an empty array if there are no models; np.random.choice refuses both. *)
Definition mixer_run {S} (g : rng S) (refl1d : option refl1d_fun) (choice : S -> list R -> res (S * nat)) (s : S) (m : mixer)
    (n : nat) (labels : cols) (engine : string) : res (S * list (list (option R))) :=
  match n with
  | O => Ok (s, [])
  | _ => if Req_EM_T (fold_right Rplus 0 (mx_weights m)) 0 then Raise ValueError
         else mixer_simulate g refl1d choice s (mx_q m) (map gn_sample (mx_generators m)) (mx_weights m) n labels engine
  end.
