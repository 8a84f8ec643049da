(** Property C195: the heights of scattering length density profiles in double precision. *)
From Coq Require Import Reals ZArith Lia Lra Psatz.
From Flocq Require Import Core IEEE754.BinarySingleNaN IEEE754.Binary IEEE754.Bits.
From Verif Require Import Float64 Double_Model Double_Proofs DoubleRange_Model DoubleRange_Proofs.
Local Open Scope R_scope.

(** ** C195 *)
(** The first height is the start; each of the first 2^24 heights is a number that differs from the exact one by at most 2^-16, and they increase strictly. *)
Theorem C195_heights start i : b64fin start = true -> Rabs (b64R start) <= 1024 -> (i < 2 ^ 24)%nat ->
  b64_height start 0 = start /\ b64fin (b64_height start i) = true /\ Rabs (b64R (b64_height start i) - (b64R start + INR i / 10)) <= / 65536 /\ b64R (b64_height start i) < b64R (b64_height start (S i)).
Proof. intros F B I. destruct (height_value start F B i ltac:(lia)) as [G V]. destruct (height_value start F B (S i) ltac:(lia)) as [_ W]. split; [reflexivity|]. split; [exact G|]. split; [exact V|]. apply Rabs_le_inv in V, W. rewrite S_INR in W. lra. Qed.
Print Assumptions C195_heights.
(** The number of heights is the exact one, rounded up, or one more or less; the last height is at most 2^-15 above the end and at most 0.1 + 2^-15 below it. *)
Theorem C195_last start stop : b64fin start = true -> b64fin stop = true -> Rabs (b64R start) <= 1024 -> Rabs (b64R stop) <= 1048576 -> b64R start + / 10 <= b64R stop ->
  exists k, b64_count start stop = Z.of_nat (S k) /\ (S k <= 2 ^ 24)%nat /\ Rabs (INR (S k) - 10 * (b64R stop - b64R start) - / 2) <= / 2 + / 1000000 /\
  b64R stop - / 10 - / 32768 <= b64R (b64_height start k) <= b64R stop + / 32768.
Proof. intros F G B D L. destruct (count_value start F B stop G D ltac:(lra)) as [C1 C2]. pose proof (Rabs_le_inv _ _ B) as B'. pose proof (Rabs_le_inv _ _ D) as D'.
  assert (N : (1 <= b64_count start stop <= 16777216)%Z). { split; [apply Z.lt_pred_le; change (Z.pred 1) with 0%Z; apply lt_IZR; lra|apply le_IZR; lra]. }
  set (k := Z.to_nat (b64_count start stop - 1)). assert (E : b64_count start stop = Z.of_nat (S k)) by (unfold k; lia). assert (K : (S k <= 2 ^ 24)%nat) by (apply Nat2Z.inj_le; rewrite Nat2Z.inj_pow, <- E; apply N).
  rewrite E, <- INR_IZR_INZ in C1, C2. exists k. split; [exact E|]. split; [exact K|]. split; [apply Rabs_le; lra|]. destruct (height_value start F B k ltac:(lia)) as [_ V]. apply Rabs_le_inv in V. rewrite S_INR in C1, C2. lra. Qed.
Print Assumptions C195_last.
(** The end, which np.arange excludes in exact arithmetic, can be passed: a substrate with roughness 2.1 below a layer of thickness 0.3 with roughness 2.1, from -16.3 to 16.6. *)
Definition f163 : binary64 := b64_of_bits (-4598090777052263219 + 2 ^ 64).
Definition f166 : binary64 := b64_of_bits 4625365702295525786.
Lemma above_329 : b64R (nat64 329) < b64R (div64 (sub64 f166 f163) step64).
Proof. apply lt64_spec; vm_compute; reflexivity. Qed.
Lemma below_330 : b64R (div64 (sub64 f166 f163) step64) <= b64R (nat64 330).
Proof. apply Rnot_lt_le. intros H. apply lt64_spec in H; [|vm_compute; reflexivity|vm_compute; reflexivity]. vm_compute in H. discriminate. Qed.
Theorem C195_end_passed : exists start stop k, b64fin start = true /\ b64fin stop = true /\ b64_count start stop = Z.of_nat (S k) /\ b64R stop < b64R (b64_height start k).
Proof. exists f163, f166, 329%nat. split; [reflexivity|]. split; [reflexivity|]. split; [|apply lt64_spec; vm_compute; reflexivity].
  unfold b64_count. apply Zceil_imp. pose proof above_329 as A. pose proof below_330 as B. destruct (nat_value 329 ltac:(cbn; lia)) as [_ E]. destruct (nat_value 330 ltac:(cbn; lia)) as [_ E']. rewrite E in A. rewrite E' in B. rewrite INR_IZR_INZ in A, B. split; [exact A|exact B]. Qed.
Print Assumptions C195_end_passed.
Example C195_example : b64fin f163 = true /\ b64fin f166 = true /\ Rabs (b64R f163) <= 1024 /\ Rabs (b64R f166) <= 1048576 /\ b64R f163 + / 10 <= b64R f166.
Proof. assert (A : -17 <= b64R f163 <= -16) by (vm_compute; lra). assert (B : 16 <= b64R f166 <= 17) by (vm_compute; lra). split; [reflexivity|]. split; [reflexivity|]. repeat split; try apply Rabs_le; lra. Qed.
