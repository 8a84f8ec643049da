(** Proofs about scattering length density profiles. *)
From Coq Require Import Reals Lra.
From Coquelicot Require Import Complex.
From Verif Require Import Py Str Sample_Model Sample_Spec Sampling_Model Simulation_Model Simulation_Spec Simulation_Proofs SldProfile_Model SldProfile_Spec.
Local Open Scope R_scope.

Section Profile.
  Context (erf : R -> R).

  Lemma smooth_step_eq z c w l r : w <> 0 -> smooth_step erf z c w l r = Some ((r - l) * normal_cdf erf w (z - c)).
  Proof. intros W. unfold smooth_step, erf_quot, normal_cdf. destruct (Req_EM_T w 0); [contradiction|].
    f_equal. set (e := erf _). destruct (Rlt_dec r l); unfold Rabs; destruct (Rcase_abs (l - r)); try lra; try (replace r with l by lra); field. Qed.

  Lemma smooth_step_sharp z c l r : z <> c -> smooth_step erf z c 0 l r = Some (if Rlt_dec z c then 0 else r - l).
  Proof. intros N. unfold smooth_step, erf_quot. destruct (Req_EM_T 0 0); [|contradiction].
    destruct (Rlt_dec z c); [|destruct (Rlt_dec c z); [|lra]]; f_equal; destruct (Rlt_dec r l); unfold Rabs; destruct (Rcase_abs (l - r)); lra. Qed.

  Lemma smooth_step_nan z l r : smooth_step erf z z 0 l r = None.
  Proof. unfold smooth_step, erf_quot. destruct (Req_EM_T 0 0); [|contradiction]. destruct (Rlt_dec z z); [lra|reflexivity]. Qed.

  Lemma smooth_step_zero z c l r : smooth_step erf z c 0 l r = (if Req_EM_T z c then None else Some (if Rlt_dec z c then 0 else r - l)).
  Proof. destruct (Req_EM_T z c) as [->|N]; [apply smooth_step_nan|apply smooth_step_sharp, N]. Qed.

  Lemma add_steps_eq z amb : forall films ws h below acc, List.length ws = Datatypes.S (List.length films) -> Forall (fun w => w <> 0) ws ->
    add_steps erf z (Some acc) (cumsum h (map fst films)) ws (below :: map snd films ++ [amb])%list =
    Some (profile_value erf acc (stack_interfaces h below films ws amb) z).
  Proof. induction films as [|[d rho] films IH]; intros ws h below acc L W.
    - destruct ws as [|w [|? ?]]; try discriminate. apply Forall_inv in W. simpl. rewrite smooth_step_eq by assumption. simpl. unfold profile_value. simpl. f_equal. ring.
    - destruct ws as [|w ws]; [discriminate|]. pose proof (Forall_inv W) as W1. apply Forall_inv_tail in W.
      cbn [map fst snd cumsum app add_steps]. rewrite smooth_step_eq by assumption. cbn [oplus]. rewrite IH; [|simpl in L; lia|assumption].
      f_equal. unfold profile_value. simpl. ring. Qed.

  Lemma fold_total xs a : fold_left Rplus xs a = a + total xs.
  Proof. revert a. induction xs as [|x xs IH]; intros a; simpl; [ring|]. rewrite IH. ring. Qed.

  Lemma make_profile_errors t sl ro sub amb :
    make_sld_profile erf t sl ro sub amb = Raise ValueError <-> ~ (List.length t = List.length sl /\ List.length ro = Datatypes.S (List.length sl)).
  Proof. unfold make_sld_profile. destruct (Nat.eqb_spec (List.length t) (List.length sl)); cbn [andb].
    - destruct (Z.eqb_spec (Z.of_nat (List.length sl)) (Z.of_nat (List.length ro) - 1)).
      + destruct ro; [cbn [List.length] in *; lia|]. simpl map. cbv iota. split; [discriminate|]. intros H. exfalso. apply H. cbn [List.length] in *. lia.
      + split; [|reflexivity]. intros _ [_ H]. lia.
    - split; [|reflexivity]. intros _ [H _]. contradiction. Qed.

  Definition films_of (t : list R) (sl : list C) : list (R * R) := combine (map Rabs t) (map fst sl).

  Lemma combine_fst A B (a : list A) : forall b : list B, List.length a = List.length b -> map fst (combine a b) = a.
  Proof. induction a; intros [|]; simpl; intros; try discriminate; f_equal; auto. Qed.
  Lemma combine_snd A B (a : list A) : forall b : list B, List.length a = List.length b -> map snd (combine a b) = b.
  Proof. induction a; intros [|]; simpl; intros; try discriminate; f_equal; auto. Qed.

  Lemma make_profile_eq t sl r0 ro sub amb : List.length t = List.length sl -> List.length ro = List.length sl ->
    Forall (fun r => r <> 0) (r0 :: ro) ->
    exists heights, make_sld_profile erf t sl (r0 :: ro) sub amb =
      Ok (heights, map (fun z => Some (profile_value erf (fst sub) (stack_interfaces 0 (fst sub) (films_of t sl) (map Rabs (r0 :: ro)) (fst amb)) z)) heights) /\
      let start := - (10 + 3 * Rabs r0) in
      let stop := total (map Rabs t) + (10 + 3 * Rabs (last ro r0)) in
      (forall i, (i < List.length heights)%nat -> nth i heights 0 = start + INR i * (1/10)) /\
      (0 < List.length heights)%nat /\
      start + INR (List.length heights - 1) * (1/10) < stop <= start + INR (List.length heights) * (1/10).
  Proof. intros L1 L2 F. unfold make_sld_profile. rewrite (proj2 (Nat.eqb_eq _ _) L1). cbn [andb].
    assert (Z.of_nat (List.length sl) =? Z.of_nat (List.length (r0 :: ro)) - 1 = true)%Z as -> by (apply Z.eqb_eq; cbn [List.length]; lia).
    cbn [map fst]. eexists. split.
    - f_equal. f_equal. apply map_ext. intros z. rewrite map_app. cbn [map].
      assert (S1 : map fst (films_of t sl) = map Rabs t) by (apply combine_fst; rewrite !map_length; assumption).
      assert (S2 : map snd (films_of t sl) = map fst sl) by (apply combine_snd; rewrite !map_length; assumption).
      assert (H : List.length (Rabs r0 :: map Rabs ro) = Datatypes.S (List.length (films_of t sl))) by (unfold films_of; rewrite combine_length; cbn [List.length]; rewrite !map_length, L1, L2, Nat.min_id; reflexivity).
      assert (W : Forall (fun w => w <> 0) (Rabs r0 :: map Rabs ro)).
      { rewrite <- (map_cons Rabs r0 ro). apply Forall_map. eapply Forall_impl; [|exact F]. intros a Ha. apply Rabs_no_R0, Ha. }
      pose proof (add_steps_eq z (fst amb) _ _ 0 (fst sub) (fst sub) H W) as Q. rewrite S1, S2 in Q. exact Q.
    - cbv zeta. rewrite fold_total, Rplus_0_l.
      assert (E : last (Rabs r0 :: map Rabs ro) 0 = Rabs (last ro r0)).
      { clear. revert r0. induction ro as [|a ro IH]; intros r0; [reflexivity|]. cbn [map]. change (last (Rabs r0 :: Rabs a :: map Rabs ro) 0) with (last (Rabs a :: map Rabs ro) 0). rewrite IH. clear. revert r0 a. induction ro as [|b ro IH]; intros; [reflexivity|]. change (Rabs (last (b :: ro) a) = Rabs (last (b :: ro) r0)). rewrite <- (IH a b), <- (IH r0 b). reflexivity. }
      rewrite E. set (sta := - (10 + 3 * Rabs r0)). set (sto := total (map Rabs t) + (10 + 3 * Rabs (last ro r0))).
      assert (D : 20 <= sto - sta). { unfold sta, sto. assert (0 <= total (map Rabs t)). { clear. induction t; simpl; [lra|]. pose proof (Rabs_pos a). lra. } pose proof (Rabs_pos r0). pose proof (Rabs_pos (last ro r0)). lra. }
      unfold arange. rewrite map_length, seq_length. set (x := (sto - sta) / (/ 10)). assert (X : x = 10 * (sto - sta)) by (unfold x; field).
      pose proof (base_Int_part (- x)) as [B1 B2]. set (k := ceil x). assert (K : x <= IZR k < x + 1) by (unfold k, ceil; rewrite opp_IZR; lra).
      assert (0 < k)%Z by (apply lt_IZR; lra).
      assert (KN : INR (Z.to_nat k) = IZR k) by (rewrite INR_IZR_INZ, Z2Nat.id by lia; reflexivity).
      repeat split; try lia.
      + intros i Hi. rewrite nth_indep with (d' := sta + INR 0 * (/10)) by (rewrite map_length, seq_length; lia).
        change (sta + INR 0 * (/ 10)) with ((fun i => sta + INR i * / 10) 0%nat). rewrite map_nth, seq_nth by assumption. simpl Nat.add. lra.
      + rewrite minus_INR by lia. rewrite KN. simpl INR. lra.
      + rewrite KN. lra. Qed.

  (** *** Shape of the profile *)
  Lemma total_telescope films : forall h below ws amb, List.length ws = Datatypes.S (List.length films) ->
    total (map (fun i => i_above i - i_below i) (stack_interfaces h below films ws amb)) = amb - below.
  Proof. induction films as [|[d rho] films IH]; intros h below ws amb L; destruct ws as [|w ws]; try discriminate; simpl; [ring|].
    rewrite IH by (simpl in L; lia). ring. Qed.

  Context (E : erf_ok erf).

  Lemma cdf_bound s x : 0 <= normal_cdf erf s x <= 1.
  Proof. unfold normal_cdf. pose proof (erf_bound erf E (x / (s * sqrt 2))). lra. Qed.

  Lemma profile_lower sub is z : Rabs (profile_value erf sub is z - sub) <= lower_tail erf is z.
  Proof. unfold profile_value, lower_tail. replace (sub + _ - sub) with (total (map (fun i => (i_above i - i_below i) * normal_cdf erf (i_width i) (z - i_height i)) is)) by ring.
    induction is as [|i is IH]; simpl; [rewrite Rabs_R0; lra|]. eapply Rle_trans; [apply Rabs_triang|].
    rewrite Rabs_mult, (Rabs_pos_eq (normal_cdf _ _ _)) by apply cdf_bound. lra. Qed.

  Lemma profile_upper sub amb h films ws z : List.length ws = Datatypes.S (List.length films) ->
    Rabs (profile_value erf sub (stack_interfaces h sub films ws amb) z - amb) <= upper_tail erf (stack_interfaces h sub films ws amb) z.
  Proof. intros L. pose proof (total_telescope films h sub ws amb L) as T. set (is := stack_interfaces _ _ _ _ _) in *.
    assert (D : profile_value erf sub is z - amb = - total (map (fun i => (i_above i - i_below i) * (1 - normal_cdf erf (i_width i) (z - i_height i))) is)).
    { unfold profile_value. replace amb with (sub + total (map (fun i => i_above i - i_below i) is)) by lra. clear. induction is; simpl; [ring|]. lra. }
    rewrite D, Rabs_Ropp. unfold upper_tail. clear - E. induction is as [|i is IH]; simpl; [rewrite Rabs_R0; lra|]. eapply Rle_trans; [apply Rabs_triang|].
    pose proof (cdf_bound (i_width i) (z - i_height i)). rewrite Rabs_mult, (Rabs_pos_eq (1 - _)) by lra. lra. Qed.

  Lemma cdf_mono s x y : 0 < s -> x <= y -> normal_cdf erf s x <= normal_cdf erf s y.
  Proof. intros Hs H. unfold normal_cdf. assert (erf (x / (s * sqrt 2)) <= erf (y / (s * sqrt 2))); [|lra]. apply (erf_mono erf E).
    apply Rmult_le_compat_r; [|assumption]. left. apply Rinv_0_lt_compat, Rmult_lt_0_compat; [assumption|apply sqrt_lt_R0; lra]. Qed.

  Lemma profile_mono sub is z z' : Forall (fun i => 0 < i_width i /\ i_below i <= i_above i) is -> z <= z' ->
    profile_value erf sub is z <= profile_value erf sub is z'.
  Proof. intros F H. unfold profile_value. apply Rplus_le_compat_l. induction is as [|i is IH]; simpl; [lra|]. pose proof (Forall_inv F) as [W B]. apply Forall_inv_tail in F.
    apply Rplus_le_compat; [|auto]. apply Rmult_le_compat_l; [lra|]. apply cdf_mono; [assumption|lra]. Qed.

  Lemma cdf_half s : normal_cdf erf s 0 = 1/2.
  Proof. unfold normal_cdf. pose proof (erf_odd erf E 0) as O. rewrite Ropp_0 in O. replace (0 / (s * sqrt 2)) with 0 by (unfold Rdiv; ring). lra. Qed.
End Profile.

(** ** One profile per row *)
Section Rows.
  Context (erf : R -> R).
  Lemma profile_rows smp n T Ru Sl : st_layers smp <> [] -> clean_names smp -> label_table smp n T Ru Sl ->
    exists out, simulate_sld_profiles erf n (T ++ Ru ++ Sl)%list = Ok out /\ Forall2 (fun i p => row_profile erf T Ru Sl i = Ok p) (seq 0 n) out.
  Proof. intros Hl Cl Lt. unfold simulate_sld_profiles. rewrite (separate_table smp n T Ru Sl Cl Lt).
    pose proof (separate_counts _ _ _ _ _ Lt) as (L1 & L2 & L3).
    assert (N1 : T <> []). { intros ->. destruct (st_layers smp); [contradiction|discriminate L1]. }
    assert (N2 : Ru <> []) by (intros ->; discriminate L2). assert (N3 : Sl <> []) by (intros ->; discriminate L3).
    destruct Lt as (_ & _ & _ & F). apply Forall_app in F. destruct F as [F1 F]. apply Forall_app in F. destruct F as [F2 F3].
    assert (M : exists out, mapM (profile_row erf (map snd T) (map snd Ru) (map snd Sl)) (seq 0 n) = Ok out).
    { destruct (mapM_exists _ _ (profile_row erf (map snd T) (map snd Ru) (map snd Sl)) (fun _ => True) (seq 0 n)) as (out & H & _); [|eauto].
      intros i Hi. apply in_seq in Hi. unfold profile_row. rewrite !(row_entries _ n) by (assumption || lia). cbn [bind].
      assert (P1 : List.length (map fst (entries i T)) = List.length (st_layers smp)) by (unfold entries; rewrite !map_length in *; lia).
      assert (P2 : List.length (map fst (entries i Ru)) = S (List.length (st_layers smp))) by (unfold entries; rewrite !map_length in *; lia).
      assert (P3 : List.length (entries i Sl) = S (S (List.length (st_layers smp)))) by (unfold entries; rewrite !map_length in *; lia).
      destruct (entries i Sl) as [|sub rest]; [discriminate|]. simpl in P3. 
      destruct rest as [|b rest'] using rev_ind; [discriminate|]. rewrite rev_unit, removelast_last. rewrite app_length in P3. simpl in P3.
      destruct (make_sld_profile erf (map fst (entries i T)) rest' (map fst (entries i Ru)) sub b) as [p|x] eqn:EQ; [eauto|].
      exfalso. unfold make_sld_profile in EQ. rewrite (proj2 (Nat.eqb_eq (List.length (map fst (entries i T))) (List.length rest')) ltac:(lia)) in EQ.
      rewrite (proj2 (Z.eqb_eq (Z.of_nat (List.length rest')) (Z.of_nat (List.length (map fst (entries i Ru))) - 1)) ltac:(lia)) in EQ. cbn [andb] in EQ.
      destruct (map fst (entries i Ru)); [discriminate|]. discriminate EQ. }
    destruct M as (out & M). exists out. split.
    - destruct (map snd Ru) eqn:E1; [destruct Ru; [contradiction|discriminate]|]. destruct (map snd Sl) eqn:E2; [destruct Sl; [contradiction|discriminate]|]. exact M.
    - apply mapM_Ok_Forall2 in M. assert (Q : Forall (fun i => (i < n)%nat) (seq 0 n)) by (apply Forall_forall; intros i Hi; apply in_seq in Hi; lia).
      revert Q M. generalize (seq 0 n). intros l Q M. induction M as [|i p l ps Hp M IH]; [constructor|]. constructor; [|apply IH, (Forall_inv_tail Q)].
      apply Forall_inv in Q. unfold profile_row in Hp. rewrite !(row_entries _ n) in Hp by (assumption || lia). cbn [bind] in Hp. unfold row_profile.
      destruct (entries i Sl) as [|sub rest]; [exact Hp|]. destruct rest as [|b rest'] using rev_ind; [exact Hp|]. rewrite rev_unit in Hp. rewrite last_last. exact Hp. Qed.

  Lemma profile_rows_bare smp n T Ru Sl : st_layers smp = [] -> clean_names smp -> label_table smp n T Ru Sl -> (0 < n)%nat ->
    simulate_sld_profiles erf n (T ++ Ru ++ Sl)%list = Raise IndexError.
  Proof. intros Hl Cl Lt Hn. unfold simulate_sld_profiles. rewrite (separate_table smp n T Ru Sl Cl Lt).
    pose proof (separate_counts _ _ _ _ _ Lt) as (L1 & L2 & L3). rewrite Hl in *. destruct T; [|discriminate]. destruct Ru; [discriminate|]. destruct Sl; [discriminate|].
    destruct n; [lia|]. reflexivity. Qed.
End Rows.
