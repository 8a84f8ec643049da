(** Model of the constructors of the batch generators.
    Sources: /repo/mlreflect/training/noise_generator.py (68-78, 113-120, 136-140).
    Arguments are given by keyword; the preprocessor is passed on every access. *)
From Coq Require Import Reals.
From Verif Require Import Py Str Arr Preproc_Model NRng Noise_Model Generator_Model.
Local Open Scope string_scope.
Local Open Scope R_scope.

(** Keyword arguments of a constructor; [None] is an argument that is not given.  [None] for a range can also be given itself. *)
Record gen_args := mkGenArgs {
  ga_bs : option Z; ga_shuffle : option bool; ga_mode : option pystr; ga_noise : option (option level); ga_background : option (option level); ga_spread : option R;
  ga_uniform : option (R * R); ga_scaling : option (R * R) }.
Definition no_args : gen_args := mkGenArgs None None None None None None None None.
Definition given {A} (d : A) (o : option A) : A := match o with Some a => a | None => d end.

Inductive gen_class := GNoise | GUniform | GLog.
(** A generator object: its class, what BaseGenerator stores, and the other attributes *)
Record gen_obj := mkGenObj {
  go_class : gen_class; go_gen : gen; go_mode : pystr; go_noise : option level; go_background : option level; go_spread : R; go_uniform : R * R; go_scaling : R * R }.

Section GenObj.
  Context {S : Type} (g : nrng S).

  (** noise_generator.py 68-78: [NoiseGenerator.__init__].  The preprocessor is an object outside of the generator and is passed to [gen_item]. *)
  Definition noise_new (s : S) (h : heap) (refl : nat) (labels : list (list cell)) (a : gen_args) : res (S * gen_obj) :=
    '(s, gn) <- gen_new g s h refl labels (given 32%Z (ga_bs a)) (given true (ga_shuffle a)) ;;
    Ok (s, mkGenObj GNoise gn (given (mkPystr "single" true) (ga_mode a)) (given None (ga_noise a)) (given None (ga_background a)) (given (1/10) (ga_spread a)) (1, 1) (1, 1)).
  (** noise_generator.py 113-120: [UniformNoiseGenerator.__init__] calls that of NoiseGenerator without ranges. *)
  Definition uniform_new (s : S) (h : heap) (refl : nat) (labels : list (list cell)) (a : gen_args) : res (S * gen_obj) :=
    '(s, o) <- noise_new s h refl labels (mkGenArgs (Some (given 32%Z (ga_bs a))) (Some (given true (ga_shuffle a))) (Some (given (mkPystr "single" true) (ga_mode a))) (Some None) (Some None) (Some 0) None None) ;;
    Ok (s, mkGenObj GUniform (go_gen o) (go_mode o) (go_noise o) (go_background o) (go_spread o) (given (1, 1) (ga_uniform a)) (given (1, 1) (ga_scaling a))).
  (** noise_generator.py 136-140: [NoiseGeneratorLog.__init__] *)
  Definition log_new (s : S) (h : heap) (refl : nat) (labels : list (list cell)) (a : gen_args) : res (S * gen_obj) :=
    '(s, o) <- noise_new s h refl labels (mkGenArgs (Some (given 32%Z (ga_bs a))) (Some (given true (ga_shuffle a))) (Some (given (mkPystr "single" true) (ga_mode a)))
      (Some (given None (ga_noise a))) (Some (given None (ga_background a))) (Some (given (1/10) (ga_spread a))) None None) ;;
    Ok (s, mkGenObj GLog (go_gen o) (go_mode o) (go_noise o) (go_background o) (go_spread o) (1, 1) (1, 1)).

  (** [generator[i]] (noise_generator.py 80-84, 128-132, 165-169): every class has its own [__getitem__]; NoiseGeneratorLog has no preprocessor. *)
  Definition gen_item (s : S) (h : heap) (ip : ip_state) (o : gen_obj) (i : Z) : res (S * heap * ip_state * (arr * list (list cell))) :=
    match go_class o with
    | GNoise => noise_getitem g s h ip (go_gen o) (go_mode o) (go_noise o) (go_background o) (go_spread o) i
    | GUniform => uniform_getitem g s h ip (go_gen o) (go_uniform o) (go_scaling o) i
    | GLog => '(s, h, b) <- log_getitem g s h (go_gen o) (go_mode o) (go_noise o) (go_background o) (go_spread o) i ;; Ok (s, h, ip, b)
    end.
End GenObj.
