(** Property C185: the generators as they are constructed. *)
From Coq Require Import Reals Lra Lia.
From Coquelicot Require Import Complex.
From Verif Require Import Py Str Cplx Arr Preproc_Model Preproc_Spec NRng Noise_Model Noise_Spec Noise_Proofs Generator_Model Generator_Spec Generator_Proofs Generator_Props GenObj_Model.
Local Open Scope string_scope.
Local Open Scope R_scope.

(** What a row of the input of a batch is, given the class of the generator, its arguments and the stored curve: the default of both ranges is None, that of the spread 0.1,
    those of the uniform noise and of the scaling (1, 1). *)
Definition input_row {S} (g : nrng S) (c : gen_class) (a : gen_args) (mean std curve x : list fl) : Prop :=
  let noise := match ga_noise a with Some r => r | None => None end in
  let background := match ga_background a with Some r => r | None => None end in
  let spread := match ga_spread a with Some v => v | None => 1/10 end in
  let factors := match ga_uniform a with Some r => r | None => (1, 1) end in
  let scaling := match ga_scaling a with Some r => r | None => (1, 1) end in
  match c with
  | GNoise => exists r1 r2, noise_link g noise curve r1 /\ background_link background spread r1 r2 /\ x = standardised_row mean std r2
  | GUniform => exists k r, Rmin (fst scaling) (snd scaling) <= k <= Rmax (fst scaling) (snd scaling) /\ uniform_link (fst factors) (snd factors) k curve r /\ x = standardised_row mean std r
  | GLog => exists r1 r2, noise_link g noise curve r1 /\ background_link background spread r1 r2 /\ Forall2 log_scaled r2 x
  end.
Definition new_of {S} (g : nrng S) (c : gen_class) := match c with GNoise => noise_new g | GUniform => uniform_new g | GLog => log_new g end.
Definition usable_args (a : gen_args) : Prop :=
  (forall lv, ga_noise a = Some (Some lv) -> usable_level lv) /\
  (forall lv, ga_background a = Some (Some lv) -> usable_background lv (match ga_spread a with Some v => v | None => 1/10 end)) /\
  (ga_mode a = None \/ ga_mode a = Some (literal "single")).
Definition batch_size (a : gen_args) : Z := match ga_bs a with Some b => b | None => 32%Z end.

Lemma new_gen {S} (g : nrng S) c s h refl labels a s' o : new_of g c s h refl labels a = Ok (s', o) ->
  gen_new g s h refl labels (given 32%Z (ga_bs a)) (given true (ga_shuffle a)) = Ok (s', go_gen o) /\ go_class o = c /\ go_mode o = given (literal "single") (ga_mode a) /\
  (c <> GUniform -> go_noise o = given None (ga_noise a) /\ go_background o = given None (ga_background a) /\ go_spread o = given (1/10) (ga_spread a)) /\
  (c = GUniform -> go_uniform o = given (1, 1) (ga_uniform a) /\ go_scaling o = given (1, 1) (ga_scaling a)).
Proof. destruct c; cbn [new_of]; unfold uniform_new, log_new, noise_new; cbn [ga_bs ga_shuffle given]; destruct (gen_new _ _ _ _ _ _ _) as [[s1 gn]|e]; cbn [bind]; intros H; try discriminate;
  injection H as <- <-; cbn; repeat split; congruence. Qed.

(** ** C185 *)
Theorem C185_batches S (g : nrng S) : nrng_ok g -> forall c h m rows labels refl a s s1 o states gn s3 mean std i bs,
  nth_error h refl = Some (A2 m rows) -> Forall (fun r => List.length r = m) rows -> List.length labels = List.length rows -> usable_args a -> batch_size a = Z.of_nat bs -> (0 < bs)%nat -> (c = GUniform -> (2 <= bs)%nat) ->
  new_of g c s h refl labels a = Ok (s1, o) -> epochs g states (go_gen o) = gn -> (i < List.length rows / bs)%nat -> List.length mean = m -> List.length std = m ->
  exists s' extra xs ys, gen_item g s3 h (mkIp (Some mean) (Some std)) (mkGenObj (go_class o) gn (go_mode o) (go_noise o) (go_background o) (go_spread o) (go_uniform o) (go_scaling o)) (Z.of_nat i) =
      Ok (s', (h ++ extra)%list, mkIp (Some mean) (Some std), (A2 m xs, ys)) /\ List.length xs = bs /\ List.length ys = bs /\
    forall p j, nth_error (batch_indexes gn (Z.of_nat i)) p = Some j -> exists curve lab x, nth_error rows j = Some curve /\ nth_error labels j = Some lab /\ nth_error ys p = Some lab /\
      nth_error xs p = Some x /\ input_row g c a mean std curve x.
Proof. intros G c h m rows labels refl a s s1 o states gn s3 mean std i bs Hh Fr Ll (Un & Ub & Um) Bs Pb Pu En Ek Hi Lm Ls. destruct (new_gen g c s h refl labels a s1 o En) as (E & Ec & Em & Er & Eu).
  assert (Go : generator_over g h m rows labels bs gn). { exists s, refl, (given true (ga_shuffle a)), s1, (go_gen o), states. repeat split; try assumption. rewrite <- Bs. exact E. }
  assert (Em' : go_mode o = literal "single") by (rewrite Em; destruct Um as [-> | ->]; reflexivity). rewrite Em'. unfold gen_item. cbn [go_class go_gen go_mode go_noise go_background go_spread go_uniform go_scaling]. rewrite Ec.
  assert (O1 : opt usable_level (given None (ga_noise a))) by (unfold given; destruct (ga_noise a) as [[lv|]|]; cbn; auto).
  assert (O2 : opt (fun lv => usable_background lv (given (1/10) (ga_spread a))) (given None (ga_background a))) by (unfold given; destruct (ga_background a) as [[lv|]|]; cbn; auto).
  destruct c.
  - destruct (Er ltac:(discriminate)) as (-> & -> & ->).
    destruct (noise_batch g G h m rows labels bs gn i s3 mean std _ _ _ Go Fr Ll Hi Lm Ls O1 O2) as (s' & extra & xs & ys & B & L1 & L2 & _ & K).
    exists s', extra, xs, ys. split; [exact B|]. split; [exact L1|]. split; [exact L2|]. intros p j Hp. destruct (K p j Hp) as (curve & r1 & r2 & lab & A1 & A2 & A3 & A4 & A5 & A6).
    exists curve, lab, (standardised_row mean std r2). repeat (split; [assumption|]). exists r1, r2. auto.
  - destruct (Eu eq_refl) as (-> & ->).
    destruct (uniform_batch g G h m rows labels bs gn i s3 mean std (given (1, 1) (ga_uniform a)) (given (1, 1) (ga_scaling a)) Go Fr Ll Hi (Pu eq_refl) Lm Ls) as (s' & xs & ys & B & L1 & L2 & _ & K).
    exists s', [], xs, ys. rewrite app_nil_r. split; [exact B|]. split; [exact L1|]. split; [exact L2|]. intros p j Hp. destruct (K p j Hp) as (curve & kk & r & lab & A1 & A2 & A3 & A4 & A5 & A6).
    exists curve, lab, (standardised_row mean std r). repeat (split; [assumption|]). exists kk, r. auto.
  - destruct (Er ltac:(discriminate)) as (-> & -> & ->).
    destruct (log_batch g G h m rows labels bs gn i s3 _ _ _ Go Fr Ll Hi O1 O2) as (s' & extra & xs & ys & B & L1 & L2 & _ & K). rewrite B. cbn [bind].
    exists s', extra, xs, ys. split; [reflexivity|]. split; [exact L1|]. split; [exact L2|]. intros p j Hp. destruct (K p j Hp) as (curve & r1 & r2 & lab & A1 & A2 & A3 & (r3 & A4 & A4') & A5 & A6).
    exists curve, lab, r3. repeat (split; [assumption|]). exists r1, r2. auto. Qed.
Print Assumptions C185_batches.
(** Without arguments the curves are not changed except by the standardisation or by the logarithm. *)
Theorem C185_default_input S (g : nrng S) c mean std curve x : input_row g c no_args mean std curve x -> match c with GLog => Forall2 log_scaled curve x | _ => x = standardised_row mean std curve end.
Proof. destruct c; cbn.
  - intros (r1 & r2 & -> & -> & ->). reflexivity.
  - intros (k & r & Hk & (us & L & F & ->) & ->). f_equal. unfold Rmin, Rmax in *. destruct (Rle_dec 1 1) as [_|N]; [|exfalso; apply N; lra]. assert (k = 1) by lra. subst k. clear Hk.
    revert us L F. induction curve as [|v curve IH]; intros [|u us] L F; try discriminate; [reflexivity|]. inversion F as [|? ? F0 F1]; subst. cbn [combine map fst snd]. rewrite IH; [|injection L; auto|exact F1].
    assert (u = 1) by lra. subst u. destruct v as [v|]; cbn [option_map]; [|reflexivity]. f_equal. f_equal. ring.
  - intros (r1 & r2 & -> & -> & F). exact F. Qed.
Print Assumptions C185_default_input.
(** The batch size is 32 unless given: fewer curves are refused. *)
Theorem C185_too_few S (g : nrng S) c h m rows labels refl a s : nth_error h refl = Some (A2 m rows) -> (Z.of_nat (List.length rows) < batch_size a)%Z -> new_of g c s h refl labels a = Raise ValueError.
Proof. intros Hh Hb. pose proof (gen_new_too_large g s h refl m rows labels (given 32%Z (ga_bs a)) (given true (ga_shuffle a)) Hh Hb) as E.
  destruct c; cbn [new_of]; unfold uniform_new, log_new, noise_new; cbn [ga_bs ga_shuffle given]; rewrite E; reflexivity. Qed.
Print Assumptions C185_too_few.
(** With shuffle=False the batches have the order of the curves. *)
Theorem C185_order S (g : nrng S) c h m rows labels refl a s s1 o : nth_error h refl = Some (A2 m rows) -> new_of g c s h refl labels a = Ok (s1, o) -> ga_shuffle a = Some false ->
  s1 = s /\ gn_idx (go_gen o) = seq 0 (List.length rows).
Proof. intros Hh E Es. apply new_gen in E. destruct E as (E & _). rewrite Es in E. cbn [given] in E. unfold gen_new in E. unfold deref in E. rewrite Hh in E. cbn [bind] in E.
  destruct (_ <? _)%Z; [discriminate|]. cbn [do_shuffle] in E. injection E as <- <-. auto. Qed.
Print Assumptions C185_order.
(** By default the order is that of the generator of random permutations. *)
Theorem C185_shuffled S (g : nrng S) c h m rows labels refl a s s1 o : nth_error h refl = Some (A2 m rows) -> new_of g c s h refl labels a = Ok (s1, o) -> ga_shuffle a = None \/ ga_shuffle a = Some true ->
  nr_perm g s (seq 0 (List.length rows)) = (s1, gn_idx (go_gen o)).
Proof. intros Hh E Es. apply new_gen in E. destruct E as (E & _). replace (given true (ga_shuffle a)) with true in E by (destruct Es as [-> | ->]; reflexivity). unfold gen_new in E. unfold deref in E. rewrite Hh in E. cbn [bind] in E.
  destruct (_ <? _)%Z; [discriminate|]. unfold do_shuffle in E. destruct (nr_perm g s (seq 0 (List.length rows))) as [s' idx]. injection E as <- <-. reflexivity. Qed.
Print Assumptions C185_shuffled.

Example C185_example : exists s1 o, new_of ex_nrng GNoise 0%nat ex_heap 1 ex_ys (mkGenArgs (Some 2%Z) (Some false) None None None None None None) = Ok (s1, o) /\ gn_idx (go_gen o) = [0; 1; 2; 3; 4]%nat /\
  new_of ex_nrng GUniform 0%nat ex_heap 1 ex_ys no_args = Raise ValueError /\ usable_args no_args.
Proof. do 2 eexists. split; [reflexivity|]. split; [reflexivity|]. split; [reflexivity|]. split; [discriminate|]. split; [discriminate|left; reflexivity]. Qed.
