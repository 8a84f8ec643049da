(** Proofs about sums of binary64 numbers *)
From Coq Require Import Reals ZArith Lia Lra Psatz List Bool Permutation.
From Flocq Require Import Core IEEE754.BinarySingleNaN IEEE754.Binary IEEE754.Bits.
From Verif Require Import Float64 FloatTrain Double_Model Double_Spec Double_Proofs DoubleMse_Model DoubleMse_Spec.
Import ListNotations.
Local Open Scope R_scope.
#[local] Existing Instances Hp Hpe.

Lemma eps_small : 0 < eps64 <= / 1000000.
Proof. exact u_small. Qed.
Lemma add_finite x y : b64fin (add64 x y) = true -> b64fin x = true /\ b64fin y = true.
Proof. destruct x as [s|s|s p H|s m e H], y as [s'|s'|s' p' H'|s' m' e' H']; try (intros; split; reflexivity); unfold add64, Binary.Bplus; cbn; try discriminate; destruct (Bool.eqb s s'); cbn; discriminate. Qed.
Lemma sub_finite x y : b64fin (sub64 x y) = true -> b64fin x = true /\ b64fin y = true.
Proof. destruct x as [s|s|s p H|s m e H], y as [s'|s'|s' p' H'|s' m' e' H']; try (intros; split; reflexivity); unfold sub64, Binary.Bminus; cbn; try discriminate; destruct (Bool.eqb s (negb s')); cbn; discriminate. Qed.
Lemma mul_finite x y : b64fin (mul64 x y) = true -> b64fin x = true /\ b64fin y = true.
Proof. destruct x as [s|s|s p H|s m e H], y as [s'|s'|s' p' H'|s' m' e' H']; try (intros; split; reflexivity); unfold mul64, Binary.Bmult; cbn; discriminate. Qed.
Lemma div_finite x y : b64fin y = true -> b64fin (div64 x y) = true -> b64fin x = true.
Proof. destruct x as [s|s|s p H|s m e H], y as [s'|s'|s' p' H'|s' m' e' H']; try reflexivity; try discriminate; unfold div64, Binary.Bdiv; cbn; discriminate. Qed.

Lemma count_value n : (Z.of_nat n <= 2 ^ 53)%Z -> b64R (count64 n) = INR n /\ b64fin (count64 n) = true.
Proof. intros Hn. pose proof (Binary.binary_normalize_correct 53 1024 Hp Hpe mode_NE (Z.of_nat n) 0 false) as G.
  assert (E : F2R (Float radix2 (Z.of_nat n) 0) = INR n) by (unfold F2R; cbn [Fnum Fexp bpow]; rewrite Rmult_1_r; symmetry; apply INR_IZR_INZ). rewrite E in G.
  change (round radix2 (SpecFloat.fexp 53 1024) (round_mode mode_NE) (INR n)) with (rnd64 (INR n)) in G. rewrite rnd64_INR in G by exact Hn.
  rewrite Rlt_bool_true in G; [destruct G as (G1 & G2 & _); split; assumption|]. rewrite Rabs_pos_eq by apply pos_INR. rewrite INR_IZR_INZ.
  apply Rle_lt_trans with (bpow radix2 53); [change (bpow radix2 53) with (IZR (2 ^ 53)); apply IZR_le; exact Hn|apply bpow_lt; lia]. Qed.

Lemma rel_bounds x e : 0 <= x -> Rabs e <= eps64 -> (1 - eps64) * x <= x * (1 + e) <= (1 + eps64) * x.
Proof. intros Hx He. apply Rabs_le_inv in He. split; nra. Qed.
Lemma above_pos k : 1 <= above k.
Proof. unfold above. apply pow_R1_Rle. pose proof eps_small. lra. Qed.
Lemma below_pos k : 0 < below k <= 1.
Proof. unfold below. pose proof eps_small. split; [apply pow_lt; lra|]. induction k as [|k IH]; cbn [pow]; [lra|]. assert (0 < (1 - eps64) ^ k) by (apply pow_lt; lra). nra. Qed.
Lemma above_S k : above (S k) = (1 + eps64) * above k. Proof. reflexivity. Qed.
Lemma below_S k : below (S k) = (1 - eps64) * below k. Proof. reflexivity. Qed.
Lemma above_mono j k : (j <= k)%nat -> above j <= above k.
Proof. intros H. unfold above. apply Rle_pow; [pose proof eps_small; lra|exact H]. Qed.
Lemma below_mono j k : (j <= k)%nat -> below k <= below j.
Proof. induction 1 as [|k H IH]; [lra|]. rewrite below_S. pose proof (below_pos k). pose proof eps_small. nra. Qed.

Definition total (l : list binary64) : R := fold_right Rplus 0 (map b64R l).
Lemma total_app l l' : total (l ++ l') = total l + total l'.
Proof. unfold total. induction l as [|x l IH]; cbn [app map fold_right]; [lra|]. rewrite IH. lra. Qed.
Lemma total_pos l : Forall (fun x => 0 <= b64R x) l -> 0 <= total l.
Proof. unfold total. induction 1 as [|x l H _ IH]; cbn [map fold_right]; lra. Qed.
Lemma total_perm l l' : Permutation l l' -> total l = total l'.
Proof. unfold total. induction 1; cbn [map fold_right]; lra. Qed.

Lemma sum_bounds o : b64fin (sum64 o) = true -> Forall (fun x => 0 <= b64R x) (addends o) -> Forall (fun x => b64fin x = true) (addends o) /\ below (depth o) * total (addends o) <= b64R (sum64 o) <= above (depth o) * total (addends o).
Proof. induction o as [|x|a IHa b IHb]; cbn [sum64 addends depth]; intros F P.
  - split; [constructor|]. change (b64R zero64) with 0. unfold total, above, below; cbn. lra.
  - split; [repeat constructor; exact F|]. unfold total, above, below; cbn. lra.
  - destruct (add_finite _ _ F) as [Fa Fb]. apply Forall_app in P. destruct P as [Pa Pb]. destruct (IHa Fa Pa) as [A1 A2]. destruct (IHb Fb Pb) as [B1 B2]. split; [apply Forall_app; auto|].
    rewrite (plus_value _ _ Fa Fb F). destruct (rnd_sum (sum64 a) (sum64 b)) as (e & He & ->). pose proof (total_pos _ Pa) as Ta. pose proof (total_pos _ Pb) as Tb. rewrite total_app.
    set (m := Nat.max (depth a) (depth b)). pose proof (above_mono (depth a) m (Nat.le_max_l _ _)) as U1. pose proof (above_mono (depth b) m (Nat.le_max_r _ _)) as U2.
    pose proof (below_mono (depth a) m (Nat.le_max_l _ _)) as L1. pose proof (below_mono (depth b) m (Nat.le_max_r _ _)) as L2. pose proof (below_pos m) as Pm. pose proof eps_small as Es.
    assert (S1 : below m * (total (addends a) + total (addends b)) <= b64R (sum64 a) + b64R (sum64 b)) by nra.
    assert (S2 : b64R (sum64 a) + b64R (sum64 b) <= above m * (total (addends a) + total (addends b))) by nra.
    assert (S0 : 0 <= b64R (sum64 a) + b64R (sum64 b)) by nra. rewrite above_S, below_S. pose proof (rel_bounds _ e S0 He) as [R1 R2].
    split; (eapply Rle_trans; [|eassumption]) || (eapply Rle_trans; [eassumption|]); rewrite Rmult_assoc; apply Rmult_le_compat_l; lra. Qed.

Definition tiny : R := bpow radix2 (-1075).
Lemma tiny_pos : 0 < tiny. Proof. apply bpow_gt_0. Qed.
Lemma rnd_bounds x : 0 <= x -> (1 - eps64) * x - tiny <= rnd64 x <= (1 + eps64) * x + tiny.
Proof. intros H. pose proof (rnd64_error x) as E. rewrite (Rabs_pos_eq x H) in E. apply Rabs_le_inv in E. fold eps64 tiny in E. lra. Qed.

Lemma square_value x y : b64fin (square_diff64 x y) = true -> let d := (b64R x - b64R y) ^ 2 in
  b64fin x = true /\ b64fin y = true /\ 0 <= b64R (square_diff64 x y) /\ below 3 * d - tiny <= b64R (square_diff64 x y) <= above 3 * d + tiny.
Proof. intros F d. unfold square_diff64 in *. destruct (mul_finite _ _ F) as [Fd _]. destruct (sub_finite _ _ Fd) as [Fx Fy]. split; [exact Fx|]. split; [exact Fy|].
  rewrite (mult_value _ _ F), (minus_value _ _ Fx Fy Fd). destruct (rnd_diff x y) as (e & He & ->). set (t := b64R x - b64R y) in *.
  replace (t * (1 + e) * (t * (1 + e))) with (d * (1 + e) * (1 + e)) by (unfold d; ring). assert (D : 0 <= d) by (unfold d; apply pow2_ge_0). pose proof eps_small as Es.
  pose proof (rel_bounds d e D He) as [A1 A2]. assert (D1 : 0 <= d * (1 + e)) by nra. pose proof (rel_bounds _ e D1 He) as [B1 B2]. assert (D2 : 0 <= d * (1 + e) * (1 + e)) by nra.
  split; [apply rnd64_sign; exact D2|]. pose proof (rnd_bounds _ D2) as [C1 C2]. unfold above, below. cbn [pow]. split.
  - apply Rle_trans with ((1 - eps64) * (d * (1 + e) * (1 + e)) - tiny); [|exact C1]. apply Rplus_le_compat_r. replace ((1 - eps64) * ((1 - eps64) * ((1 - eps64) * 1)) * d) with ((1 - eps64) * ((1 - eps64) * ((1 - eps64) * d))) by ring.
    apply Rmult_le_compat_l; [lra|]. eapply Rle_trans; [|exact B1]. apply Rmult_le_compat_l; lra.
  - apply Rle_trans with ((1 + eps64) * (d * (1 + e) * (1 + e)) + tiny); [exact C2|]. apply Rplus_le_compat_r. replace ((1 + eps64) * ((1 + eps64) * ((1 + eps64) * 1)) * d) with ((1 + eps64) * ((1 + eps64) * ((1 + eps64) * d))) by ring.
    apply Rmult_le_compat_l; [lra|]. eapply Rle_trans; [exact B2|]. apply Rmult_le_compat_l; lra. Qed.

Lemma squares_total : forall a b, List.length b = List.length a -> Forall (fun x => b64fin x = true) (squares64 a b) ->
  let s := fold_right Rplus 0 (map (fun xy => (b64R (fst xy) - b64R (snd xy)) ^ 2) (combine a b)) in
  Forall (fun x => 0 <= b64R x) (squares64 a b) /\ 0 <= s /\ below 3 * s - INR (List.length a) * tiny <= total (squares64 a b) <= above 3 * s + INR (List.length a) * tiny.
Proof. induction a as [|x a IH]; intros [|y b] L F; try discriminate.
  - cbn. split; [constructor|]. split; [lra|]. unfold total; cbn. lra.
  - cbn [squares64 combine map fst snd] in F. inversion F as [|? ? F0 F1]; subst. destruct (IH b ltac:(injection L; auto) F1) as (A & B & C1 & C2). destruct (square_value x y F0) as (_ & _ & S0 & S1 & S2).
    cbn [squares64 combine map fst snd fold_right]. fold (squares64 a b). split; [constructor; [exact S0|exact A]|]. split; [pose proof (pow2_ge_0 (b64R x - b64R y)); lra|].
    change (total (square_diff64 x y :: squares64 a b)) with (b64R (square_diff64 x y) + total (squares64 a b)). cbn [List.length]. rewrite S_INR. lra. Qed.

Lemma mse_bounds k a b e : computed_mse k a b e -> below (k + 4) * exact_mse a b - 2 * above (k + 1) * tiny <= b64R e <= above (k + 4) * exact_mse a b + 2 * above (k + 1) * tiny /\ 0 <= b64R e /\ 0 <= exact_mse a b.
Proof. intros (Ne & L & Hn & Fa & Fb & Fe & o & Hk & Pm & ->). set (n := List.length a) in *. assert (Pn : 0 < INR n) by (apply lt_0_INR; destruct a; [congruence|unfold n; cbn; lia]).
  destruct (count_value n Hn) as [En Fn]. unfold mean64 in *. pose proof (div_finite _ _ Fn Fe) as Fs.
  assert (FA : Forall (fun x => b64fin x = true) (addends o)).
  { clear -Fs. induction o as [|x|p IHp q IHq]; cbn [sum64 addends] in *; [constructor|repeat constructor; exact Fs|]. destruct (add_finite _ _ Fs). apply Forall_app. auto. }
  assert (FS : Forall (fun x => b64fin x = true) (squares64 a b)) by (rewrite <- Pm; exact FA).
  destruct (squares_total a b L FS) as (Q & S0 & T1 & T2). fold n in T1, T2. set (s := fold_right Rplus 0 _) in *.
  assert (P : Forall (fun x => 0 <= b64R x) (addends o)) by (rewrite Pm; exact Q). destruct (sum_bounds o Fs P) as (_ & B1 & B2). pose proof (total_pos _ P) as T0. rewrite (total_perm _ _ Pm) in *.
  rewrite (div_value _ _ ltac:(rewrite En; lra) Fe), En. pose proof (above_mono _ _ Hk) as U. pose proof (below_mono _ _ Hk) as W. pose proof (below_pos k) as Pk. pose proof (above_pos k) as Ak. pose proof eps_small as Es. pose proof tiny_pos as Pt.
  set (t := total (squares64 a b)) in *. set (h := b64R (sum64 o)) in *. assert (H0 : 0 <= h) by (pose proof (below_pos (depth o)); nra).
  assert (H1 : below k * t <= h) by nra. assert (H2 : h <= above k * t) by nra.
  set (d := s / INR n). assert (Ed : exact_mse a b = d) by reflexivity. rewrite Ed. assert (D0 : 0 <= d) by (unfold d; apply Rmult_le_pos; [exact S0|left; apply Rinv_0_lt_compat; exact Pn]).
  assert (Es' : s = d * INR n) by (unfold d; field; lra). assert (M0 : 0 <= h / INR n) by (apply Rmult_le_pos; [exact H0|left; apply Rinv_0_lt_compat; exact Pn]).
  assert (M2 : h / INR n <= above k * (above 3 * d + tiny)).
  { apply (Rmult_le_reg_r (INR n)); [exact Pn|]. replace (h / INR n * INR n) with h by (field; lra). eapply Rle_trans; [exact H2|]. rewrite Rmult_assoc. apply Rmult_le_compat_l; [lra|]. rewrite Es' in T2. lra. }
  assert (M1 : below k * (below 3 * d - tiny) <= h / INR n).
  { apply (Rmult_le_reg_r (INR n)); [exact Pn|]. replace (h / INR n * INR n) with h by (field; lra). eapply Rle_trans; [|exact H1]. rewrite Rmult_assoc. apply Rmult_le_compat_l; [lra|]. rewrite Es' in T1. lra. }
  pose proof (rnd_bounds _ M0) as [R1 R2]. split; [|split; [apply rnd64_sign; exact M0|exact D0]].
  replace (above (k + 4)) with ((1 + eps64) * (above k * above 3)) by (unfold above; rewrite pow_add; cbn [pow]; ring). replace (below (k + 4)) with ((1 - eps64) * (below k * below 3)) by (unfold below; rewrite pow_add; cbn [pow]; ring).
  replace (above (k + 1)) with ((1 + eps64) * above k) by (unfold above; rewrite pow_add; cbn [pow]; ring). 
  assert (V : 1 <= (1 + eps64) * above k) by nra. assert (V' : (1 - eps64) * below k <= 1) by nra. split.
  - eapply Rle_trans; [|exact R1]. assert (X : (1 - eps64) * (below k * (below 3 * d - tiny)) <= (1 - eps64) * (h / INR n)) by (apply Rmult_le_compat_l; lra). nra.
  - eapply Rle_trans; [exact R2|]. assert (X : (1 + eps64) * (h / INR n) <= (1 + eps64) * (above k * (above 3 * d + tiny))) by (apply Rmult_le_compat_l; lra). nra. Qed.

Lemma skipn_tail {A} (l : list A) : forall i x l', skipn i l = x :: l' -> skipn (S i) l = l' /\ nth_error l i = Some x.
Proof. induction l as [|y l IH]; intros [|i] x l' H; cbn in *; try discriminate; [injection H as -> ->; auto|]. exact (IH i x l' H). Qed.
Lemma argmin64_from_ok : forall l i best b full, Forall (fun x => b64fin x = true) full -> skipn i full = l -> nth_error full best = Some b -> (best < i)%nat ->
  (forall j x, (j < i)%nat -> nth_error full j = Some x -> b64R b <= b64R x) -> (forall j x, (j < best)%nat -> nth_error full j = Some x -> b64R b < b64R x) ->
  exists y, nth_error full (argmin64_from i best b l) = Some y /\ (forall j x, nth_error full j = Some x -> b64R y <= b64R x) /\ (forall j x, (j < argmin64_from i best b l)%nat -> nth_error full j = Some x -> b64R y < b64R x).
Proof. induction l as [|x l IH]; intros i best b full F E Eb Lb A B; cbn [argmin64_from].
  - exists b. split; [exact Eb|]. split; [|exact B]. intros j x Hx. apply (A j x); [|exact Hx]. assert (J : (j < List.length full)%nat) by (apply nth_error_Some; congruence). pose proof (skipn_length i full) as K. rewrite E in K. cbn in K. lia.
  - destruct (skipn_tail full i x l E) as [E' Ex].
    assert (Fx : b64fin x = true) by (eapply Forall_forall in F; [exact F|eapply nth_error_In; exact Ex]). assert (Fb : b64fin b = true) by (eapply Forall_forall in F; [exact F|eapply nth_error_In; exact Eb]).
    destruct (lt64 x b) eqn:C.
    + apply lt64_spec in C; try assumption. apply IH; try assumption; [lia| |].
      * intros j z Hj Hz. destruct (Nat.eq_dec j i) as [->|N]; [rewrite Ex in Hz; injection Hz as <-; lra|]. specialize (A j z ltac:(lia) Hz). lra.
      * intros j z Hj Hz. specialize (A j z Hj Hz). lra.
    + apply lt64_false in C; try assumption. apply IH; try assumption; [lia|].
      intros j z Hj Hz. destruct (Nat.eq_dec j i) as [->|N]; [rewrite Ex in Hz; injection Hz as <-; lra|]. apply (A j z); [lia|exact Hz]. Qed.
Lemma argmin64_ok errors : Forall (fun x => b64fin x = true) errors -> errors <> [] -> exists i y, argmin64 errors = Some i /\ nth_error errors i = Some y /\
  (forall j x, nth_error errors j = Some x -> b64R y <= b64R x) /\ (forall j x, (j < i)%nat -> nth_error errors j = Some x -> b64R y < b64R x).
Proof. intros F N. destruct errors as [|x l]; [congruence|]. cbn [argmin64]. exists (argmin64_from 1 0 x l). destruct (argmin64_from_ok l 1 0 x (x :: l) F eq_refl eq_refl ltac:(lia)) as (y & A & B & C).
  - intros j z Hj Hz. destruct j; [|lia]. injection Hz as <-. lra.
  - intros j z Hj. lia.
  - exists y. auto. Qed.

Lemma Forall2_nth_r {A B} (P : A -> B -> Prop) l l' : Forall2 P l l' -> forall i b, nth_error l' i = Some b -> exists a, nth_error l i = Some a /\ P a b.
Proof. induction 1 as [|a b l l' H _ IH]; intros [|i] y E; try discriminate; [injection E as <-; exists a; auto|exact (IH i y E)]. Qed.
Lemma Forall2_In_l {A B} (P : A -> B -> Prop) l l' a : Forall2 P l l' -> In a l -> exists i b, nth_error l' i = Some b /\ P a b.
Proof. induction 1 as [|x b l l' H _ IH]; intros I; [destruct I|]. destruct I as [->|I]; [exists 0%nat, b; auto|]. destruct (IH I) as (i & c & E & Q). exists (S i), c. auto. Qed.

Lemma selection k data variants errors i : Forall2 (computed_mse k data) variants errors -> argmin64 errors = Some i ->
  exists v, nth_error variants i = Some v /\ forall w, In w variants -> below (k + 4) * exact_mse data v <= above (k + 4) * exact_mse data w + above (k + 1) * bpow radix2 (-1073).
Proof. intros F E. assert (Ff : Forall (fun x => b64fin x = true) errors) by (clear E; induction F as [|v e vs es (_ & _ & _ & _ & _ & H & _) _ IH]; constructor; assumption).
  destruct (argmin64_ok errors Ff ltac:(intros ->; discriminate)) as (i' & y & E' & Ey & M & _). rewrite E in E'. injection E' as <-.
  destruct (Forall2_nth_r _ _ _ F i y Ey) as (v & Ev & Cv). exists v. split; [exact Ev|]. intros w Hw. destruct (Forall2_In_l _ _ _ w F Hw) as (j & z & Ez & Cz).
  pose proof (M j z Ez). destruct (mse_bounds _ _ _ _ Cv) as ((B1 & _) & _). destruct (mse_bounds _ _ _ _ Cz) as ((_ & B2) & _).
  replace (bpow radix2 (-1073)) with (4 * tiny) by (unfold tiny; change (-1073)%Z with (2 + -1075)%Z; rewrite bpow_plus; simpl (bpow radix2 2); lra). lra. Qed.

Lemma bernoulli_below k : 1 - INR k * eps64 <= below k.
Proof. induction k as [|k IH]; [unfold below; cbn; lra|]. rewrite below_S, S_INR. pose proof (below_pos k). pose proof eps_small. pose proof (pos_INR k). nra. Qed.
Lemma bernoulli_above k : INR k * eps64 <= / 2 -> above k <= 1 + 2 * INR k * eps64.
Proof. induction k as [|k IH]; intros H; [unfold above; cbn; lra|]. rewrite above_S. rewrite S_INR in *. pose proof eps_small. pose proof (pos_INR k). specialize (IH ltac:(nra)). nra. Qed.
Lemma relative_32 k : (Z.of_nat (k + 4) <= 2 ^ 20)%Z -> 1 - bpow radix2 (-32) <= below (k + 4) /\ above (k + 4) <= 1 + bpow radix2 (-32).
Proof. intros Hk. assert (K : INR (k + 4) <= IZR (2 ^ 20)) by (rewrite INR_IZR_INZ; apply IZR_le; exact Hk). assert (E : 2 * IZR (2 ^ 20) * eps64 = bpow radix2 (-32)).
  { unfold eps64. change (IZR (2 ^ 20)) with (bpow radix2 20). replace 2 with (bpow radix2 1) by reflexivity. rewrite <- !bpow_plus. reflexivity. }
  pose proof eps_small. pose proof (pos_INR (k + 4)). assert (L : bpow radix2 (-32) <= / 2) by (apply Rle_trans with (bpow radix2 (-1)); [apply bpow_le; lia|simpl; lra]).
  pose proof (bernoulli_below (k + 4)). split; [nra|]. eapply Rle_trans; [apply bernoulli_above|]; nra. Qed.

Lemma square_same x : b64fin (square_diff64 x x) = true -> b64R (square_diff64 x x) = 0.
Proof. intros F. unfold square_diff64 in *. destruct (mul_finite _ _ F) as [Fd _]. destruct (sub_finite _ _ Fd) as [Fx _]. rewrite (mult_value _ _ F), (minus_value _ _ Fx Fx Fd).
  rewrite Rminus_diag_eq, rnd64_0, Rmult_0_l by reflexivity. apply rnd64_0. Qed.
Lemma mse_zero k a e : computed_mse k a a e -> b64R e = 0.
Proof. intros (Ne & L & Hn & Fa & Fb & Fe & o & Hk & Pm & ->). set (n := List.length a) in *. assert (Pn : 0 < INR n) by (apply lt_0_INR; destruct a; [congruence|unfold n; cbn; lia]).
  destruct (count_value n Hn) as [En Fn]. unfold mean64 in *. pose proof (div_finite _ _ Fn Fe) as Fs.
  assert (FA : Forall (fun x => b64fin x = true) (addends o)).
  { clear -Fs. induction o as [|x|p IHp q IHq]; cbn [sum64 addends] in *; [constructor|repeat constructor; exact Fs|]. destruct (add_finite _ _ Fs). apply Forall_app. auto. }
  assert (Z : Forall (fun x => b64R x = 0) (addends o)).
  { rewrite Pm in *. clear -FA. unfold squares64 in *. induction a as [|x a IH]; cbn [combine map] in *; [constructor|]. inversion FA; subst. constructor; [apply square_same; assumption|auto]. }
  assert (T : total (addends o) = 0) by (clear -Z; unfold total; induction Z as [|x l H _ IH]; cbn [map fold_right]; lra).
  destruct (sum_bounds o Fs) as (_ & B1 & B2); [eapply Forall_impl; [|exact Z]; cbn; intros; lra|]. rewrite T in *. rewrite (div_value _ _ ltac:(rewrite En; lra) Fe).
  replace (b64R (sum64 o)) with 0 by lra. unfold Rdiv. rewrite Rmult_0_l. apply rnd64_0. Qed.

(** 2^-600 *)
Definition f_small : binary64 := b64_of_bits 1905022642377719808.
Lemma zero_underflow : exists a b e, computed_mse 1 a b e /\ exact_mse a b > 0 /\ b64R e = 0.
Proof. exists [f_small], [zero64], (mean64 (Entry (square_diff64 f_small zero64)) 1). split; [|split].
  - split; [discriminate|]. split; [reflexivity|]. split; [cbn; lia|]. split; [repeat constructor|]. split; [repeat constructor|]. split; [reflexivity|].
    exists (Entry (square_diff64 f_small zero64)). split; [cbn; lia|]. split; [reflexivity|reflexivity].
  - assert (H : b64R zero64 < b64R f_small) by (apply lt64_spec; reflexivity). change (b64R zero64) with 0 in H. unfold exact_mse. cbn [combine map fold_right fst snd List.length INR]. change (b64R zero64) with 0. apply Rlt_gt. apply Rdiv_lt_0_compat; [|lra].
    assert (0 < (b64R f_small - 0) ^ 2) by (apply pow_lt; lra). lra.
  - replace (mean64 _ _) with zero64; reflexivity. Qed.
