(** Vocabulary for statements about batch generators. *)
From Coq Require Import Reals Lra.
From Verif Require Import Py Str Arr Preproc_Model Preproc_Spec NRng Noise_Model Noise_Spec Generator_Model.
Local Open Scope R_scope.

(** [gn] is a generator over the curves [rows] (with [m] points each) stored at its address, after any number of epochs, whatever the random numbers are used for in between. *)
Definition generator_over {S} (g : nrng S) (h : heap) (m : nat) (rows : list (list fl)) (labels : list (list cell)) (bs : nat) (gn : gen) : Prop :=
  exists s refl shuffle s1 gn0 states,
    nth_error h refl = Some (A2 m rows) /\ (0 < bs)%nat /\
    gen_new g s h refl labels (Z.of_nat bs) shuffle = Ok (s1, gn0) /\ epochs g states gn0 = gn.

(** Batches 0 to k-1 *)
Definition batches (gn : gen) (k : nat) : list (list nat) := map (fun i => batch_indexes gn (Z.of_nat i)) (seq 0 k).

(** How a row of the input arises from a curve: noise, background, standardisation *)
Definition noise_link {S} (g : nrng S) (noise : option level) (r r' : list fl) : Prop :=
  match noise with None => r' = r | Some lv => exists k, allowed lv k /\ shot_noise_of g r k r' end.
Definition background_link (background : option level) (spread : R) (r r' : list fl) : Prop :=
  match background with
  | None => r' = r
  | Some lv => exists b x, allowed lv x /\ List.length b = List.length r /\ Forall (normal_draw (Some x, Some (spread * x))) b /\
                 r' = map (fun xy => fadd (fst xy) (snd xy)) (combine r b)
  end.
Definition standardised_row (mean std r : list fl) : list fl :=
  map (fun xms => fdiv (fsub (fst (fst xms)) (snd (fst xms))) (snd xms)) (combine (combine r mean) std).

(** The input of the logarithmic generator: the absolute value of a tenth of the logarithm to base 10; not finite unless the
    intensity is positive *)
Definition log_scaled (x y : fl) : Prop :=
  (forall v, x = Some v -> 0 < v -> y = Some (Rabs (ln v / ln 10 / 10))) /\ ((forall v, x = Some v -> v <= 0) -> y = None).

(** [r'] is [r] with every entry multiplied by [k] and by a factor of its own between [lo] and [hi]. *)
Definition uniform_link (lo hi k : R) (r r' : list fl) : Prop :=
  exists us, List.length us = List.length r /\ Forall (fun u => Rmin lo hi <= u <= Rmax lo hi) us /\
    r' = map (fun xu => option_map (fun v => v * snd xu * k) (fst xu)) (combine r us).

(** A level that background generation accepts *)
Definition usable_background (lv : level) (spread : R) : Prop :=
  match lv with LvNum x => 0 <= spread * x | LvTuple [lo; hi] => 0 < lo /\ 0 < hi /\ 0 <= spread | _ => False end.
Definition opt {A} (P : A -> Prop) (o : option A) : Prop := match o with Some x => P x | None => True end.
