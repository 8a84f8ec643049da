(** Properties C192 and C193: rescaled intensities, energies and wavelengths in double precision; and C52 applied twice. *)
From Coq Require Import Reals ZArith Lia Lra List.
From Flocq Require Import Core IEEE754.BinarySingleNaN IEEE754.Binary IEEE754.Bits.
From Verif Require Import Float64 Double_Model Double_Spec Double_Proofs Double_Props DoubleMse_Proofs DoubleUnits_Model DoubleUnits_Proofs.
Import ListNotations.
Local Open Scope R_scope.

(** ** C192 *)
(** Curves rescaled to the maximum [m0] of the original curve have this maximum exactly, lie between 0 and it, and keep their order. *)
Theorem C192_rescaled m m0 l : In m l -> 0 < b64R m -> b64fin m0 = true -> 0 <= b64R m0 -> Forall (fun x => b64fin x = true /\ 0 <= b64R x <= b64R m) l ->
  List.length (b64_rescale m m0 l) = List.length l /\ Forall (fun y => b64fin y = true /\ 0 <= b64R y <= b64R m0) (b64_rescale m m0 l) /\ Exists (fun y => b64R y = b64R m0) (b64_rescale m m0 l) /\
  (forall i j x x' y y', nth_error l i = Some x -> nth_error l j = Some x' -> nth_error (b64_rescale m m0 l) i = Some y -> nth_error (b64_rescale m m0 l) j = Some y' -> b64R x <= b64R x' -> b64R y <= b64R y').
Proof. intros I P F P0 A. rewrite Forall_forall in A. unfold b64_rescale. split; [apply map_length|]. split; [|split].
  - apply Forall_forall. intros y Hy. apply in_map_iff in Hy. destruct Hy as (x & <- & Hx). destruct (A x Hx) as [Fx Bx]. destruct (rescale_value m m0 P F P0 x Fx Bx) as (G & _ & _ & B). auto.
  - apply Exists_exists. exists (mul64 (div64 m m) m0). split; [apply in_map_iff; eauto|]. apply rescale_max; auto. apply A, I.
  - intros i j x x' y y' Hx Hx' Hy Hy' L. rewrite (map_nth_error _ _ _ Hx) in Hy. rewrite (map_nth_error _ _ _ Hx') in Hy'. inversion Hy. inversion Hy'. destruct (A x (nth_error_In _ _ Hx)) as [Fx Bx]. destruct (A x' (nth_error_In _ _ Hx')) as [Fx' Bx']. apply rescale_order; auto; lra. Qed.
Print Assumptions C192_rescaled.
Example C192_example : In f09 [f03; f09; f01] /\ 0 < b64R f09 /\ b64fin f1 = true /\ 0 <= b64R f1 /\ Forall (fun x => b64fin x = true /\ 0 <= b64R x <= b64R f09) [f03; f09; f01].
Proof. split; [right; left; reflexivity|]. assert (S : forall x y, lt64 x y = true -> b64fin x = true -> b64fin y = true -> b64R x < b64R y) by (intros; apply lt64_spec; assumption). assert (Z : b64R (Binary.B754_zero 53 1024 false) = 0) by reflexivity.
  assert (P : forall x, lt64 (Binary.B754_zero 53 1024 false) x = true -> b64fin x = true -> 0 < b64R x) by (intros x A B; rewrite <- Z; apply S; auto).
  split; [apply P; reflexivity|]. split; [reflexivity|]. split; [left; apply P; reflexivity|]. repeat (apply Forall_cons; [split; [reflexivity|split; [left; apply P; reflexivity|first [right; reflexivity|left; apply S; reflexivity]]]|]). constructor. Qed.

(** ** C52 *)
(** Normalising a normalised curve, whose maximum is 1, changes nothing. *)
Theorem C52_double_twice one l : b64R one = 1 -> Forall (fun x => b64fin x = true) l -> map b64R (b64_normalize_to one l) = map b64R l.
Proof. intros E F. unfold b64_normalize_to. rewrite map_map. apply map_ext_in. intros x I. rewrite Forall_forall in F. apply (div_one one x E (F x I)). Qed.
Print Assumptions C52_double_twice.
Example C52_double_twice_example : b64R f1 = 1 /\ Forall (fun x => b64fin x = true) [f03; f1].
Proof. split; [vm_compute; lra|repeat constructor]. Qed.

(** ** C193 *)
(** The wavelength of an energy is a positive number, up to a relative error of 4 * 2^-53 the exact 12398 / energy, and smaller or equal for larger energies. *)
Lemma nearest_12398 : Rabs (b64R f12398 - 12398 / 10000) <= eps64 * (12398 / 10000).
Proof. assert (E : b64R f12398 = 5583562818013941 / 4503599627370496) by (vm_compute; lra). rewrite E. apply Rabs_le. unfold eps64. change (bpow radix2 (-53)) with (/ 9007199254740992). lra. Qed.
Theorem C193_value x : b64fin x = true -> bpow radix2 (-500) <= b64R x <= bpow radix2 500 -> let w := 12398 / b64R x in
  b64fin (b64_energy_to_wavelength x) = true /\ 0 < b64R (b64_energy_to_wavelength x) /\ Rabs (b64R (b64_energy_to_wavelength x) - w) <= 4 * bpow radix2 (-53) * w.
Proof. intros F I w. destruct (convert_value 500 x ltac:(lia) F I) as (G & J & _ & e1 & e2 & H1 & H2 & E). split; [exact G|]. split; [exact (inside_pos _ _ J)|]. pose proof (inside_pos 500 _ I) as P. pose proof nearest_12398 as A. pose proof eps_small as S. rewrite E. fold eps64. set (a := b64R f12398) in *.
  set (e0 := a / (12398 / 10000) - 1). assert (H0 : Rabs e0 <= eps64). { unfold e0. replace (a / (12398 / 10000) - 1) with ((a - 12398 / 10000) / (12398 / 10000)) by field. unfold Rdiv at 1. rewrite Rabs_mult, (Rabs_pos_eq (/ (12398 / 10000))) by lra. apply Rmult_le_reg_r with (12398 / 10000); [lra|]. rewrite Rmult_assoc, Rinv_l by lra. lra. }
  assert (W : 0 < w) by (apply Rdiv_lt_0_compat; lra). replace (a / b64R x * (1 + e1) * 10000 * (1 + e2) - w) with (((1 + e0) * (1 + e1) * (1 + e2) - 1) * w) by (unfold w, e0; field; lra). rewrite Rabs_mult, (Rabs_pos_eq w) by lra. apply Rmult_le_compat_r; [lra|].
  apply Rabs_le_inv in H0, H1, H2. apply Rabs_le. assert (Q : (1 - eps64) * (1 - eps64) <= (1 + e0) * (1 + e1) <= (1 + eps64) * (1 + eps64)) by nra. split; nra. Qed.
Print Assumptions C193_value.
Theorem C193_order x y : b64fin x = true -> b64fin y = true -> bpow radix2 (-500) <= b64R x -> b64R x <= b64R y -> b64R y <= bpow radix2 500 -> b64R (b64_energy_to_wavelength y) <= b64R (b64_energy_to_wavelength x).
Proof. intros F G A B C. apply (convert_order 500); auto; [lia| |]; unfold inside; change (- (500))%Z with (-500)%Z; lra. Qed.
Print Assumptions C193_order.
(** Converting back gives the energy up to a relative error of 5 * 2^-53, *)
Theorem C193_back x : b64fin x = true -> bpow radix2 (-500) <= b64R x <= bpow radix2 500 ->
  b64fin (b64_wavelength_to_energy (b64_energy_to_wavelength x)) = true /\ Rabs (b64R (b64_wavelength_to_energy (b64_energy_to_wavelength x)) - b64R x) <= 5 * eps64 * b64R x.
Proof. exact (convert_back x). Qed.
Print Assumptions C193_back.
(** not always exactly: 8000 eV become 7999.999999999999 eV. *)
Definition f8000 : binary64 := b64_of_bits 4665518107723300864.
Example C193_example : b64fin f8000 = true /\ bpow radix2 (-500) <= b64R f8000 <= bpow radix2 500.
Proof. split; [reflexivity|]. assert (E : b64R f8000 = 8000) by (vm_compute; lra). rewrite E. split; [apply Rle_trans with (bpow radix2 0); [apply bpow_le; lia|simpl; lra]|apply Rle_trans with (bpow radix2 13); [simpl; lra|apply bpow_le; lia]]. Qed.
Theorem C193_not_exact : exists x, b64fin x = true /\ bpow radix2 (-500) <= b64R x <= bpow radix2 500 /\ b64R (b64_wavelength_to_energy (b64_energy_to_wavelength x)) < b64R x.
Proof. exists f8000. destruct C193_example as [A B]. split; [exact A|]. split; [exact B|]. apply lt64_spec; vm_compute; reflexivity. Qed.
Print Assumptions C193_not_exact.
