(** Vocabulary for statements about simulation from label tables. *)
From Coq Require Import Reals Lra.
From Coquelicot Require Import Complex.
From Verif Require Import Py Str Sample_Model Sample_Spec Rng Sampling_Model Reflectivity_Model Simulation_Model.
Local Open Scope string_scope.
Local Open Scope R_scope.

(** A layer name that contains neither of the words that label columns are recognised by first *)
Definition clean_name (n : string) : Prop := contains "thickness" n = false /\ contains "roughness" n = false.
Definition clean_names (s : structure) : Prop := Forall (fun l => clean_name (l_name l)) (all_layers s).

(** A table with [n] rows whose columns are the labels of [s] in order, cut into its thickness, roughness and SLD part *)
Definition label_table (s : structure) (n : nat) (T Ru Sl : cols) : Prop :=
  map fst T = labels_of "thickness" (st_layers s) /\
  map fst Ru = labels_of "roughness" (st_substrate s :: st_layers s) /\
  map fst Sl = labels_of "sld" (all_layers s) /\
  Forall (fun kc => List.length (snd kc) = n) (T ++ Ru ++ Sl)%list.

(** The entries of row [i] *)
Definition entries (i : nat) (t : cols) : list C := map (fun kc => nth i (snd kc) (RtoC 0)) t.

(** The engine applied to one row of the table *)
Definition row_curve (qs : list R) (T Ru Sl : cols) (i : nat) : res (list (option R)) :=
  multilayer_reflectivity (map (fun q => q * 10 ^ 10) qs) (map (fun x => fst x * / 10 ^ 10) (entries i T))
    (map (fun x => fst x * / 10 ^ 10) (entries i Ru)) (map (fun x => (x * RtoC (10 ^ 14))%C) (removelast (entries i Sl)))
    (last (entries i Sl) (RtoC 0) * RtoC (10 ^ 14))%C.

(** The ambient SLD is zero in every row *)
Definition zero_ambient (n : nat) (Sl : cols) : Prop := forall i, (i < n)%nat -> last (entries i Sl) (RtoC 0) = 0.

(** The refl1d engine applied to one row of the table *)
Definition refl1d_curve (f : refl1d_fun) (qs : list R) (T Ru Sl : cols) (i : nat) : list (option R) :=
  f (map (fun q => q / 2) qs) (1 :: rev (map fst (entries i T)) ++ [1])%list (rev (map fst (entries i Ru))) (rev (map fst (entries i Sl)))
    (if existsb (fun z => negb (Reqb (snd z) 0)) (entries i Sl) then Some (rev (map snd (entries i Sl))) else None).
