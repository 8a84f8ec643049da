(** Properties of the reflectivity engine: continuity, films of vacuum (C159, C160). *)
From Coq Require Import Reals Lra Psatz List.
From Coquelicot Require Import Complex Hierarchy.
From Verif Require Import Py Cplx Reflectivity_Model Reflectivity_Spec Reflectivity_Proofs ReflectivityFlux_Proofs ReflectivityLimit_Spec ReflectivityLimit_Proofs.
Local Open Scope R_scope.

Local Notation simulate qs s := (multilayer_reflectivity qs (thickness_array s) (roughness_array s) (sld_array s) 0).

(** ** C159 *)
(** [T] and [F] describe the kind of limit: sequences, neighbourhoods of a point, … *)
Theorem C159_continuous {T} (F : (T -> Prop) -> Prop) {FF : Filter F} q s qn (sn : T -> stack) :
  passive s -> regular q s -> tends F qn q -> stack_tends F sn s ->
  exists x xs, simulate [q] s = Ok [Some x] /\ F (fun t => simulate [qn t] (sn t) = Ok [Some (xs t)]) /\ tends F xs x.
Proof. exact (engine_continuous F q s qn sn). Qed.
Print Assumptions C159_continuous.

Theorem C159_continuous_in_q s : passive s -> (forall q, regular q s) ->
  exists f, continuity f /\ forall q, simulate [q] s = Ok [Some (f q)].
Proof. exact (engine_continuous_q s). Qed.
Print Assumptions C159_continuous_in_q.

Definition ex_lim : stack := mkStack [mkFilm 200 0 (0.001, 0.0001)] 0 (0.00002, 0).
(** The thickness of the film shrinks from 200 + t to 200. *)
Example C159_example : passive ex_lim /\ (forall q, regular q ex_lim) /\
  stack_tends (locally 0) (fun t => mkStack [mkFilm (200 + t) 0 (0.001, 0.0001)] 0 (0.00002, 0)) ex_lim.
Proof. assert (P : passive ex_lim) by (split; repeat constructor; unfold Im; simpl; lra).
  split; [exact P|]. split; [intros q; apply smooth_regular; [exact P|]; split; repeat constructor; simpl; lra|].
  split; [|split; [apply (t_const (locally 0))|apply (c_const (locally 0))]]. cbn [s_films ex_lim films_tend].
  exists (fun t => mkFilm (200 + t) 0 (0.001, 0.0001)), (fun _ => []). split; [reflexivity|]. split; [|reflexivity].
  split; [|split; [apply (t_const (locally 0))|apply (c_const (locally 0))]]. cbn [f_thickness].
  pose proof (t_plus (locally 0) (fun _ => 200) (fun t => t) 200 0 (t_const (locally 0) 200) (fun P H => H)) as K. rewrite Rplus_0_r in K. exact K. Qed.

(** ** C160 *)
(** A film of vacuum on top of the sample: nothing changes, apart from the tiny absorption that the engine adds everywhere. *)
Theorem C160_film_of_vacuum q d tau s out : q <> 0 -> 0 <= d -> simulate [q] s = Ok out ->
  let s' := mkStack (mkFilm d tau 0 :: s_films s) (s_roughness s) (s_sld s) in
  exists out', simulate [q] s' = Ok out' /\
    Forall2 (fun o o' => match o, o' with Some x, Some x' => Rabs (x' - x) <= 16 * PI * tiny * d / Rabs q | None, None => True | _, _ => False end) out out'.
Proof. exact (engine_lifted q d tau s out). Qed.
Print Assumptions C160_film_of_vacuum.

Example C160_example : exists out, simulate [0.1] ex_lim = Ok out /\ s_films (mkStack (mkFilm 50 2 0 :: s_films ex_lim) 0 (s_sld ex_lim)) <> s_films ex_lim.
Proof. rewrite engine_stack. eexists. split; [reflexivity|]. discriminate. Qed.
