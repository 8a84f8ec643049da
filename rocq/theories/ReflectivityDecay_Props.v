(** Properties of the reflectivity engine: decay with q, total reflection, roughness of a bare substrate (C152-C155). *)
From Coq Require Import Reals Lra Psatz.
From Coquelicot Require Import Complex.
From Verif Require Import Py Cplx Reflectivity_Model Reflectivity_Spec Reflectivity_Proofs ReflectivityDecay_Spec ReflectivityDecay_Proofs.
Local Open Scope R_scope.

Local Notation simulate qs s := (multilayer_reflectivity qs (thickness_array s) (roughness_array s) (sld_array s) 0).
Local Notation bare sigma sld := (mkStack [] sigma sld).

(** ** C152 *)
Theorem C152_decay qs s out : passive s -> solid s -> simulate qs s = Ok out ->
  Forall2 (fun q o => q <> 0 -> forall x, o = Some x -> x <= (32 * PI * variation s / (q * q)) ^ 2) qs out.
Proof. exact (engine_decay qs s out). Qed.
Print Assumptions C152_decay.

(** Far from the critical edges of the stack the engine always yields a number. *)
Theorem C152_numbers qs s : passive s -> solid s -> Forall (fun q => 0 < q /\ 32 * PI * variation s <= q * q) qs ->
  exists xs, simulate qs s = Ok (map Some xs) /\ Forall2 (fun q x => 0 <= x <= (32 * PI * variation s / (q * q)) ^ 2) qs xs.
Proof. exact (engine_decay_numbers qs s). Qed.
Print Assumptions C152_numbers.

Definition ex_film : stack := mkStack [mkFilm 100 5 (0.00002, 0.000001)] 3 (0.00001, 0).
Example C152_example : passive ex_film /\ solid ex_film /\ 32 * PI * variation ex_film <= 1 * 1.
Proof. unfold passive, solid, ex_film, variation; cbn [s_films s_sld variation_below f_sld f_thickness]. repeat split.
  - repeat constructor. unfold Im; simpl; lra.
  - unfold Im; simpl; lra.
  - repeat constructor; simpl; lra.
  - assert (A : Cmod (0 - (0.00002, 0.000001))%C <= 0.001).
    { replace 0.001 with (sqrt (0.001 * 0.001)) by (apply sqrt_square; lra). apply sqrt_le_1_alt. unfold RtoC; simpl. lra. }
    assert (B : Cmod ((0.00002, 0.000001) - (0.00001, 0))%C <= 0.001).
    { replace 0.001 with (sqrt (0.001 * 0.001)) by (apply sqrt_square; lra). apply sqrt_le_1_alt. simpl. lra. }
    pose proof PI_4. pose proof PI_RGT_0. nra. Qed.

(** ** C153 *)
Theorem C153_bounds qs sld : 0 <= Im sld -> Forall (fun q => 16 * PI * Cmod sld < q * q) qs ->
  exists xs, simulate qs (bare 0 sld) = Ok (map Some xs) /\ Forall2 (fun q x =>
    (4 * PI * Cmod sld / (q * q + 8 * PI * (Cmod sld + 2 * tiny))) ^ 2 <= x <= (4 * PI * Cmod sld / (q * q - 12 * PI * Cmod sld)) ^ 2) qs xs.
Proof. exact (engine_porod qs sld). Qed.
Print Assumptions C153_bounds.

Theorem C153_limit sld eps : 0 <= Im sld -> 0 < eps -> exists q0, forall q, q0 < q -> 
  exists x, simulate [q] (bare 0 sld) = Ok [Some x] /\ Rabs (x * q ^ 4 - (4 * PI * Cmod sld) ^ 2) < eps.
Proof. exact (engine_porod_limit sld eps). Qed.
Print Assumptions C153_limit.

Example C153_example : exists sld : C, 0 <= Im sld /\ sld <> 0.
Proof. exists (0.00002, 0). split; [unfold Im; simpl; lra|]. intros E. injection E as E. lra. Qed.

(** ** C154 *)
Theorem C154_total_reflection qs rho : Forall (fun q => below_edge q rho) qs ->
  exists xs, simulate qs (bare 0 (RtoC rho)) = Ok (map Some xs) /\
    Forall2 (fun q x => 1 - 16 * PI * tiny / (q * evanescence q rho) <= x <= 1) qs xs.
Proof. exact (engine_total qs rho). Qed.
Print Assumptions C154_total_reflection.

Example C154_example : below_edge 0.01 0.00002 /\ below_edge 0.03 0.00002.
Proof. unfold below_edge. pose proof PI2_3_2. assert (3 < PI) by lra. repeat split; lra. Qed.

(** ** C155 *)
Theorem C155_roughness_lowers qs sld s1 s2 : 0 <= Im sld -> Forall (fun q => 16 * PI * Re sld <= q * q) qs -> Rabs s1 <= Rabs s2 ->
  exists xs ys, simulate qs (bare s1 sld) = Ok (map Some xs) /\ simulate qs (bare s2 sld) = Ok (map Some ys) /\ Forall2 Rle ys xs.
Proof. exact (engine_rough qs sld s1 s2). Qed.
Print Assumptions C155_roughness_lowers.

(** Well below the edge the artificial absorption turns the effect round. *)
Theorem C155_below_the_edge q rho sigma : 0 < q -> q * q < 8 * PI * rho -> sigma <> 0 ->
  exists x y, simulate [q] (bare 0 (RtoC rho)) = Ok [Some x] /\ simulate [q] (bare sigma (RtoC rho)) = Ok [Some y] /\ x < y.
Proof. exact (engine_rough_below q rho sigma). Qed.
Print Assumptions C155_below_the_edge.

Example C155_example : 16 * PI * Re (0.00002, 0.000001) <= 0.1 * 0.1 /\ 0.01 * 0.01 < 8 * PI * 0.00002 /\ Rabs 3 <= Rabs (-5).
Proof. pose proof PI_4. pose proof PI2_3_2. unfold Re; simpl. rewrite Rabs_right, Rabs_left by lra. repeat split; lra. Qed.

(** ** C156 *)
Theorem C156_opaque_film q d rho below sld : 0 <= d -> 0 <= Im rho -> passive (mkStack below 0 sld) -> smooth (mkStack below 0 sld) -> veil q d rho < 1 ->
  exists x y, simulate [q] (mkStack (mkFilm d 0 rho :: below) 0 sld) = Ok [Some x] /\ simulate [q] (bare 0 rho) = Ok [Some y] /\
    Rabs (x - y) <= 4 * veil q d rho / (1 - veil q d rho).
Proof. exact (engine_opaque q d rho below sld). Qed.
Print Assumptions C156_opaque_film.

(** With growing thickness the film hides everything beneath it, uniformly in what lies there. *)
Theorem C156_thick_film q rho eps : 0 <= Im rho -> 0 < eps -> exists d0, forall d below sld, d0 <= d ->
  passive (mkStack below 0 sld) -> smooth (mkStack below 0 sld) ->
  exists x y, simulate [q] (mkStack (mkFilm d 0 rho :: below) 0 sld) = Ok [Some x] /\ simulate [q] (bare 0 rho) = Ok [Some y] /\ Rabs (x - y) <= eps.
Proof. exact (engine_thick q rho eps). Qed.
Print Assumptions C156_thick_film.

Example C156_example : exists d, 0 <= d /\ veil 0.1 d (0.00002, 0.000001) < 1.
Proof. destruct (veil_vanishes 0.1 (0.00002, 0.000001) 1) as (d & D & H); [unfold Im; simpl; lra|lra|]. exists d. split; [assumption|apply H; lra]. Qed.
