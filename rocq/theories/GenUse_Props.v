(** Properties C185 and C188: generators in use, with any accesses, ends of epochs and other random draws. *)
From Coq Require Import Reals Lra Lia Permutation.
From Coquelicot Require Import Complex.
From Verif Require Import Py Str Cplx Arr Preproc_Model Preproc_Spec NRng Noise_Model Noise_Spec Noise_Proofs Generator_Model Generator_Spec Generator_Proofs Generator_Props GenObj_Model GenObj_Props.
Local Open Scope string_scope.
Local Open Scope R_scope.

Definition with_gen (o : gen_obj) (gn : gen) : gen_obj := mkGenObj (go_class o) gn (go_mode o) (go_noise o) (go_background o) (go_spread o) (go_uniform o) (go_scaling o).
(** What may happen to a generator: a batch is requested (with any number), an epoch ends, or something else uses random numbers and creates arrays. *)
Inductive in_use {S} (g : nrng S) : S * heap * ip_state * gen_obj -> S * heap * ip_state * gen_obj -> Prop :=
| use_nothing x : in_use g x x
| use_batch s h ip o i s' h' ip' b x : gen_item g s h ip o i = Ok (s', h', ip', b) -> in_use g (s', h', ip', o) x -> in_use g (s, h, ip, o) x
| use_epoch s h ip o s' gn x : epoch_end g s (go_gen o) = (s', gn) -> in_use g (s', h, ip, with_gen o gn) x -> in_use g (s, h, ip, o) x
| use_other s h ip o s' extra x : in_use g (s', (h ++ extra)%list, ip, o) x -> in_use g (s, h, ip, o) x.

Lemma set_nth_app {A} (h : list A) : forall l r a, (List.length h <= r)%nat -> exists l', set_nth (h ++ l)%list r a = (h ++ l')%list.
Proof. induction h as [|x h IH]; intros l r a L; [exists (set_nth l r a); reflexivity|]. destruct r as [|r]; [cbn in L; lia|]. destruct (IH l r a) as (l' & E); [cbn in L; lia|]. exists l'. cbn. rewrite E. reflexivity. Qed.

Section Use.
  Context {S : Type} (g : nrng S) (Hg : nrng_ok g).

  Lemma noisy_grows s h gn mode noise background spread idx s' h' r : noisy_batch g s h gn mode noise background spread idx = Ok (s', (h', r)) -> exists extra, h' = (h ++ extra)%list.
  Proof. unfold noisy_batch. destruct (deref h (gn_refl gn)) as [a|]; cbn [bind]; [|discriminate]. destruct (fancy a idx) as [x|]; cbn [bind]; [|discriminate]. cbn [alloc].
    assert (N : forall s1 h1 r1, noise_step g s (h ++ [x])%list (List.length h) mode noise = Ok (s1, (h1, r1)) -> exists l, h1 = (h ++ l)%list /\ (List.length h <= r1)%nat).
    { intros s1 h1 r1. unfold noise_step. destruct noise as [lv|]; [|intros E; injection E as <- <- <-; eauto]. destruct (deref _ _) as [a1|]; cbn [bind]; [|discriminate].
      match goal with |- context [bind ?e _] => destruct e as [[s2 lv']|]; cbn [bind]; [|discriminate] end. destruct (apply_shot_noise _ _ _ _) as [[s3 [b w]]|]; cbn [bind]; [|discriminate]. unfold alloc. intros E. injection E as <- <- <-.
      rewrite <- app_assoc. eexists. split; [reflexivity|]. rewrite app_length. lia. }
    destruct (noise_step _ _ _ _ _ _) as [[s1 [h1 r1]]|]; cbn [bind]; [|discriminate]. destruct (N s1 h1 r1 eq_refl) as (l & -> & L). unfold background_step. destruct background as [lv|]; cbn [bind]; [|intros E; injection E as <- <- <-; eauto].
    destruct (deref _ _) as [a2|]; cbn [bind]; [|discriminate]. match goal with |- context [bind ?e _] => match e with context [is_lit] => idtac | _ => fail end end.
    destruct (if is_lit mode "single" then _ else _) as [[s2 lv']|]; cbn [bind]; [|discriminate]. destruct (generate_background _ _ _ _ _ _) as [[s3 [b w]]|]; cbn [bind]; [|discriminate].
    destruct (iadd _ _ _) as [a3|]; cbn [bind]; [|discriminate]. intros E. injection E as <- <- <-. apply set_nth_app. exact L. Qed.
  Lemma standardize_saved mean std a : fst (standardize (mkIp (Some mean) (Some std)) a) = mkIp (Some mean) (Some std).
  Proof. reflexivity. Qed.
  Lemma item_grows s h mean std o i s' h' ip' b : gen_item g s h (mkIp (Some mean) (Some std)) o i = Ok (s', h', ip', b) -> ip' = mkIp (Some mean) (Some std) /\ exists extra, h' = (h ++ extra)%list.
  Proof. unfold gen_item. destruct (go_class o).
    - unfold noise_getitem. destruct (has_saved _) as [[|]|]; cbn [bind negb]; try discriminate. destruct (noisy_batch _ _ _ _ _ _ _ _ _) as [[s1 [h1 r]]|] eqn:E; cbn [bind]; [|discriminate]. apply noisy_grows in E.
      destruct (deref h1 r) as [a|]; cbn [bind]; [|discriminate]. pose proof (standardize_saved mean std a) as F. destruct (standardize _ a) as [ip2 [x|]]; cbn [bind fst] in *; [|discriminate]. destruct (pick _ _); cbn [bind]; [|discriminate]. intros H. injection H as <- <- <- <-. auto.
    - unfold uniform_getitem. destruct (deref _ _) as [a|]; cbn [bind]; [|discriminate]. destruct (fancy _ _) as [x|]; cbn [bind]; [|discriminate]. destruct (apply_uniform_noise _ _ _ _ _) as [s1 x1]. destruct (apply_scaling_factor _ _ _ _ _) as [s2 x2].
      pose proof (standardize_saved mean std x2) as F. destruct (standardize _ x2) as [ip2 [x3|]]; cbn [bind fst] in *; [|discriminate]. destruct (pick _ _); cbn [bind]; [|discriminate]. intros H. injection H as <- <- <- <-. split; [exact F|]. exists []. symmetry. apply app_nil_r.
    - unfold log_getitem. destruct (noisy_batch _ _ _ _ _ _ _ _ _) as [[s1 [h1 r]]|] eqn:E; cbn [bind]; [|discriminate]. apply noisy_grows in E. destruct (deref h1 r) as [a|]; cbn [bind]; [|discriminate]. destruct (pick _ _); cbn [bind]; [|discriminate]. intros H. injection H as <- <- <- <-. auto. Qed.

  Lemma use_keeps x y : in_use g x y -> forall s h mean std o m rows labels bs, x = (s, h, mkIp (Some mean) (Some std), o) -> generator_over g h m rows labels bs (go_gen o) ->
    exists s' extra gn states, y = (s', (h ++ extra)%list, mkIp (Some mean) (Some std), with_gen o gn) /\ gn = epochs g states (go_gen o) /\ generator_over g (h ++ extra)%list m rows labels bs gn.
  Proof. induction 1 as [x|s h ip o i s' h' ip' b x E _ IH|s h ip o s' gn x E _ IH|s h ip o s' extra x _ IH]; intros s0 h0 mean std o0 m rows labels bs Q G.
    - subst x. exists s0, [], (go_gen o0), []. rewrite app_nil_r. split; [destruct o0; reflexivity|]. split; [reflexivity|exact G].
    - injection Q as -> -> -> ->. destruct (item_grows _ _ _ _ _ _ _ _ _ _ E) as [-> (e & ->)]. destruct (IH s' (h0 ++ e)%list mean std o0 m rows labels bs eq_refl (generator_grown g h0 e m rows labels bs _ G)) as (s2 & e2 & gn & ss & -> & R & G').
      exists s2, (e ++ e2)%list, gn, ss. rewrite app_assoc. auto.
    - injection Q as -> -> -> ->. assert (Eg : gn = epochs g [s0] (go_gen o0)) by (cbn; rewrite E; reflexivity). destruct (IH s' h0 mean std (with_gen o0 gn) m rows labels bs eq_refl) as (s2 & e2 & gn2 & ss & -> & R & G'); [cbn [with_gen go_gen]; rewrite Eg; apply generator_later; exact G|].
      exists s2, e2, gn2, (s0 :: ss). split; [reflexivity|]. split; [|exact G']. rewrite R. cbn [with_gen go_gen]. rewrite Eg. reflexivity.
    - injection Q as -> -> -> ->. destruct (IH s' (h0 ++ extra)%list mean std o0 m rows labels bs eq_refl (generator_grown g h0 extra m rows labels bs _ G)) as (s2 & e2 & gn & ss & -> & R & G').
      exists s2, (extra ++ e2)%list, gn, ss. rewrite app_assoc. auto. Qed.
End Use.

(** ** C185 *)
(** Whatever has happened to a generator since its construction: the stored curves and the statistics are those of the construction, its order is one of all curves, and its batches are as described. *)
Theorem C185_in_use S (g : nrng S) : nrng_ok g -> forall c h m rows labels refl a s s1 o mean std bs s2 h2 ip2 o2,
  nth_error h refl = Some (A2 m rows) -> Forall (fun r => List.length r = m) rows -> List.length labels = List.length rows -> usable_args a -> batch_size a = Z.of_nat bs -> (0 < bs)%nat -> (c = GUniform -> (2 <= bs)%nat) ->
  new_of g c s h refl labels a = Ok (s1, o) -> List.length mean = m -> List.length std = m -> in_use g (s1, h, mkIp (Some mean) (Some std), o) (s2, h2, ip2, o2) ->
  ip2 = mkIp (Some mean) (Some std) /\ nth_error h2 refl = Some (A2 m rows) /\ Permutation (seq 0 (List.length rows)) (gn_idx (go_gen o2)) /\
  forall i, (i < List.length rows / bs)%nat -> exists s' extra xs ys, gen_item g s2 h2 ip2 o2 (Z.of_nat i) = Ok (s', (h2 ++ extra)%list, ip2, (A2 m xs, ys)) /\ List.length xs = bs /\ List.length ys = bs /\
    forall p j, nth_error (batch_indexes (go_gen o2) (Z.of_nat i)) p = Some j -> exists curve lab x, nth_error rows j = Some curve /\ nth_error labels j = Some lab /\ nth_error ys p = Some lab /\
      nth_error xs p = Some x /\ input_row g c a mean std curve x.
Proof. intros G c h m rows labels refl a s s1 o mean std bs s2 h2 ip2 o2 Hh Fr Ll U Bs Pb Pu En Lm Ls Use. destruct (new_gen g c s h refl labels a s1 o En) as (E & _).
  assert (Go : generator_over g h m rows labels bs (go_gen o)). { exists s, refl, (given true (ga_shuffle a)), s1, (go_gen o), []. repeat split; try assumption. unfold batch_size in Bs. unfold given in E. rewrite Bs in E. exact E. }
  destruct (use_keeps g _ _ Use s1 h mean std o m rows labels bs eq_refl Go) as (s' & extra & gn & states & Q & R & G'). injection Q as -> -> -> ->.
  split; [reflexivity|]. assert (Hh' : nth_error (h ++ extra)%list refl = Some (A2 m rows)) by (rewrite nth_error_app1; [exact Hh|apply nth_error_Some; congruence]). split; [exact Hh'|]. split; [exact (proj2 (proj2 (proj2 (proj2 (proj2 (proj2 (generator_facts g G _ _ _ _ _ _ G')))))))|].
  intros i Hi. assert (En' : new_of g c s (h ++ extra)%list refl labels a = Ok (s1, o)).
  { clear -En Hh Hh'. destruct c; cbn [new_of] in *; unfold uniform_new, log_new, noise_new, gen_new, deref in *; rewrite Hh in En; rewrite Hh'; exact En. }
  destruct (C185_batches S g G c (h ++ extra)%list m rows labels refl a s s1 o states gn s' mean std i bs Hh' Fr Ll U Bs Pb Pu En' (eq_sym R) Hi Lm Ls) as (s3 & e3 & xs & ys & B). exists s3, e3, xs, ys. exact B. Qed.
Print Assumptions C185_in_use.

(** Batch 1, the end of an epoch, and batch 0 *)
Example C185_example_use : exists s1 o x, new_of ex_nrng GLog 0%nat ex_heap 1 ex_ys (mkGenArgs (Some 2%Z) None None None None None None None) = Ok (s1, o) /\
  in_use ex_nrng (s1, ex_heap, mkIp (Some [Some 4; Some 3]) (Some [Some 1; Some 2]), o) x /\ List.length (snd (fst (fst x))) = 4%nat.
Proof. do 3 eexists. split; [reflexivity|]. split.
  - eapply use_batch with (i := 1%Z); [reflexivity|]. eapply use_epoch; [reflexivity|]. eapply use_batch with (i := 0%Z); [reflexivity|]. apply use_nothing.
  - reflexivity. Qed.
