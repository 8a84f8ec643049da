(** Properties of the text form, indexing, ranges and comparison of samples (C149-C151). *)
From Coq Require Import Reals Lra.
From Verif Require Import Py Str Sample_Model Sample_Spec Show_Model Show_Spec Show_Proofs.
Local Open Scope string_scope.

(** ** C149 *)
(** From top to bottom: ambient layer, layers with their numbers, substrate *)
Theorem C149_text show show_n s a b ts : layer_text show (st_ambient s) = Ok a -> layer_text show (st_substrate s) = Ok b -> Forall2 (fun l t => layer_text show l = Ok t) (st_layers s) ts ->
  sample_text show show_n s = Ok (a ++ line_break ++ paste (rev (map (numbered_entry show_n) (combine (seq 0 (List.length (st_layers s))) ts))) ++ b).
Proof. exact (text_of_sample show show_n s a b ts). Qed.
Print Assumptions C149_text.
(** Samples with the same text have the same layers with the same values. *)
Theorem C149_unambiguous show show_n machine s s' t : show_ok machine show -> (forall i, has_char newline_char (show_n i) = false) -> sample_in machine s -> sample_in machine s' ->
  ordinary_sample s -> ordinary_sample s' -> standard s -> standard s' -> sample_text show show_n s = Ok t -> sample_text show show_n s' = Ok t -> same_sample s s'.
Proof. intros H. exact (text_inj show show_n machine H s s' t). Qed.
Print Assumptions C149_unambiguous.
(** A layer without an SLD shows None; one without thickness or roughness cannot be printed, nor a sample with it. *)
Theorem C149_missing_sld show l : l_sld l = None -> (forall t, layer_text show l = Ok t -> exists a, t = a ++ "sld: None [1e-6 1/Å^2]") /\
  (l_kind l = KAmbient -> layer_text show l = Ok (l_name l ++ " (ambient):" ++ nl ++ tab ++ "sld: None [1e-6 1/Å^2]")).
Proof. exact (missing_sld show l). Qed.
Print Assumptions C149_missing_sld.
Theorem C149_missing_length show show_n s i l : nth_error (st_layers s) i = Some l -> l_kind l = KLayer \/ l_kind l = KConstantLayer -> l_thickness l = None \/ l_roughness l = None ->
  layer_text show l = Raise AttributeError /\ forall t, sample_text show show_n s <> Ok t.
Proof. exact (missing_length show show_n s i l). Qed.
Print Assumptions C149_missing_length.
(** Indexing starts with the substrate. *)
Theorem C149_index s : sample_get s 0 = Ok (st_substrate s) /\ sample_get s (-1) = Ok (st_ambient s) /\ sample_len s = (List.length (st_layers s) + 2)%nat /\
  (forall i l, nth_error (st_layers s) i = Some l -> sample_get s (Z.of_nat i + 1) = Ok l) /\ (forall i, (Z.of_nat (sample_len s) <= i)%Z -> sample_get s i = Raise IndexError) /\
  (forall i l, nth_error (sample_iter s) i = Some l -> sample_get s (Z.of_nat i) = Ok l).
Proof. destruct (get_ends s) as (A & B & C). split; [exact A|]. split; [exact B|]. split; [exact C|]. split; [exact (get_layer s)|]. split.
  - intros i H. apply get_beyond. rewrite C in H. lia.
  - intros i l H. exact (py_get_nat _ _ H). Qed.
Print Assumptions C149_index.

Definition sx_show (a : num) : string := if Rlt_dec (num_re a) (1 / 2) then "0" else "1".
Definition sx_machine (a : num) : Prop := a = Flt 0 \/ a = Flt 1.
Definition sx_digit (n : nat) : string := match n with 0%nat => "0" | _ => "1" end.
Lemma sx_show_ok : show_ok sx_machine sx_show.
Proof. split; unfold sx_show.
  - intros a. destruct (Rlt_dec _ _); reflexivity.
  - intros a. destruct (Rlt_dec _ _); reflexivity.
  - intros a b [-> | ->] [-> | ->]; cbn [num_re]; intros H; try (split; reflexivity); destruct (Rlt_dec 0 (1 / 2)), (Rlt_dec 1 (1 / 2)); try discriminate; lra. Qed.
Lemma sx_zero : sx_show (Flt 0) = "0".
Proof. unfold sx_show. cbn [num_re]. destruct (Rlt_dec 0 (1 / 2)); [reflexivity|lra]. Qed.
Lemma sx_one : sx_show (Flt 1) = "1".
Proof. unfold sx_show. cbn [num_re]. destruct (Rlt_dec 1 (1 / 2)); [lra|reflexivity]. Qed.
Definition sx_film_of (z o : R) (n : string) : layer := mkLayer KLayer n (Some (Range (Flt z) (Flt o) (Some "thickness"))) (Some (Const (Flt z) (Some "roughness"))) (Some (Const (Flt o) (Some "sld"))).
Definition sx_sample_of (z o : R) : structure :=
  mkStructure (mkLayer KAmbient "air" None None (Some (Const (Flt z) (Some "sld")))) (mkLayer KSubstrate "Si" None (Some (Const (Flt o) (Some "roughness"))) (Some (Const (Flt o) (Some "sld"))))
    [sx_film_of z o "oxide"; sx_film_of z o "film"].
Definition sx_film : string -> layer := sx_film_of 0 1.
Definition sx_sample : structure := sx_sample_of 0 1.
Definition sx_film_text : string := "film:
	thickness: (0, 1) [Å]
	roughness: 0 [Å]
	sld: 1 [1e-6 1/Å^2]".
Definition sx_text : string := "air (ambient):
	sld: 0 [1e-6 1/Å^2]
[1] film:
	thickness: (0, 1) [Å]
	roughness: 0 [Å]
	sld: 1 [1e-6 1/Å^2]
[0] oxide:
	thickness: (0, 1) [Å]
	roughness: 0 [Å]
	sld: 1 [1e-6 1/Å^2]
Si (substrate):
	roughness: 1 [Å]
	sld: 1 [1e-6 1/Å^2]".
Lemma sx_texts show z o : show (Flt z) = "0" -> show (Flt o) = "1" -> sample_text show sx_digit (sx_sample_of z o) = Ok sx_text /\ layer_text show (sx_film_of z o "film") = Ok sx_film_text.
Proof. intros Hz Ho. vm_compute. rewrite !Hz, !Ho. split; reflexivity. Qed.
(** The printed number of a layer is not its index. *)
Theorem C149_printed_index_refuted : exists s i l m t, nth_error (st_layers s) i = Some l /\ sample_get s (Z.of_nat i) = Ok m /\ l_name l <> l_name m /\
  layer_text sx_show l = Ok t /\ exists a b, sample_text sx_show sx_digit s = Ok (a ++ "[" ++ sx_digit i ++ "] " ++ t ++ b).
Proof. destruct (sx_texts sx_show 0 1 sx_zero sx_one) as [A B]. exists sx_sample, 1%nat, (sx_film "film"), (sx_film "oxide"), sx_film_text. split; [reflexivity|]. split; [reflexivity|]. split; [discriminate|]. split; [exact B|].
  eexists "air (ambient):
	sld: 0 [1e-6 1/Å^2]
", _. refine (eq_trans A _). reflexivity. Qed.
Print Assumptions C149_printed_index_refuted.
Example C149_example : sample_text sx_show sx_digit sx_sample = Ok sx_text /\ ordinary_sample sx_sample /\ standard sx_sample /\ sample_in sx_machine sx_sample.
Proof. split; [|split; [|split]].
  - exact (proj1 (sx_texts sx_show 0 1 sx_zero sx_one)).
  - assert (F : forall n, film_layer (sx_film n)). { intros n. split; [|split]; eexists; (split; [reflexivity|]); (split; [|reflexivity]); cbn; try exact I. split; [left; split; reflexivity|left; cbn; lra]. }
    split; [|split].
    + split; [reflexivity|]. split; eexists; (split; [reflexivity|]); split; try reflexivity; exact I.
    + repeat constructor; apply F.
    + split; [reflexivity|]. split; [reflexivity|]. eexists; split; [reflexivity|]. split; [exact I|reflexivity].
  - split; [reflexivity|]. split; [reflexivity|]. split; [repeat constructor|]. repeat constructor.
  - unfold sample_in, all_layers. cbn [st_substrate st_layers st_ambient sx_sample List.app]. repeat (constructor; [intros p [H|[H|H]]; cbn in H; try discriminate; injection H as <-; split; cbn; unfold sx_machine; tauto|]). constructor. Qed.

(** ** C150 *)
(** Constant real parameters compare like their values, with each other and with numbers. *)
Theorem C150_real r x o y : stands_for o y -> exists b, const_compare r (Flt x) o = Ok b /\ (b = true <-> related r x y).
Proof. exact (compare_real r x o y). Qed.
Print Assumptions C150_real.
(** Ranges and other objects are refused, also by == and !=. *)
Theorem C150_refused r x o : match o with OParam (Range _ _ _) | OOther => True | _ => False end -> const_compare r (Flt x) o = Raise TypeError.
Proof. destruct o as [|[]|]; cbn; try contradiction; reflexivity. Qed.
Print Assumptions C150_refused.
(** A complex parameter is not even equal to itself. *)
Theorem C150_complex_refuted r re im o : const_compare r (Cpx false re im) o = Raise TypeError.
Proof. reflexivity. Qed.
Print Assumptions C150_complex_refuted.
(** Numpy numbers: parameters with different imaginary parts are equal. *)
Theorem C150_numpy_refuted : exists v w n, ~ same_num v w /\ const_compare REq v (OParam (Const w n)) = Ok true.
Proof. exists (Cpx true 1 0), (Cpx true 1 2), None. split; [intros [_ H]; cbn in H; lra|]. unfold const_compare. cbn. unfold Reqb. destruct (Req_EM_T 1 1); [reflexivity|contradiction]. Qed.
Print Assumptions C150_numpy_refuted.
Example C150_example n : const_compare RLt (Flt 1) (OParam (Const (Flt 2) n)) = Ok true /\ const_compare RGe (Flt 1) (ONum (Flt 2)) = Ok false /\ const_compare REq (Flt 1) OOther = Raise TypeError.
Proof. split; [|split; [|reflexivity]].
  - destruct (C150_real RLt 1 (OParam (Const (Flt 2) n)) 2 eq_refl) as (b & E & H). rewrite E. f_equal. apply H. cbn. lra.
  - destruct (C150_real RGe 1 (ONum (Flt 2)) 2 eq_refl) as (b & E & H). rewrite E. f_equal. destruct b; [|reflexivity]. pose proof (proj1 H eq_refl) as Q. cbn in Q. lra. Qed.

(** ** C151 *)
(** The ranges list the limits of exactly the parameters of the layer. *)
Theorem C151_ranges l : (film_layer l /\ (l_kind l = KLayer \/ l_kind l = KConstantLayer)) \/ (substrate_layer l /\ l_kind l = KSubstrate) \/ (ambient_layer l /\ l_kind l = KAmbient) ->
  layer_ranges l = Ok (List.concat (map (fun kp => [("min_" ++ fst kp, p_min (snd kp)); ("max_" ++ fst kp, p_max (snd kp))]) (parameters_of l))) /\
  forall k p, In (k, p) (parameters_of l) -> valid_param p /\ (p_min p = p_max p \/ num_below (p_min p) (p_max p)).
Proof. intros H. split.
  - destruct H as [[F K]|[[F K]|[F K]]]; [exact (ranges_film l F K)|exact (ranges_substrate l F K)|exact (ranges_ambient l F K)].
  - intros k p Hp. assert (V : valid_param p).
    { unfold parameters_of in Hp. assert (N : forall x (o : option param), named x o -> forall q, o = Some q -> valid_param q) by (intros x o (q & E & Q & _) q' E'; congruence).
      rewrite !in_app_iff in Hp. destruct H as [[(A & B & C) _]|[[(A & B & C) _]|[(A & B & C) _]]]; rewrite ?A, ?B in Hp;
        destruct Hp as [Hp|[Hp|Hp]]; try contradiction;
        repeat match goal with Hp : In _ (match ?o with _ => _ end) |- _ => destruct o eqn:?; [|contradiction] end; destruct Hp as [Hp|[]]; injection Hp as _ <-; eauto. }
    split; [exact V|]. destruct p as [lo hi n|v n]; [right; exact (proj2 V)|left; reflexivity]. Qed.
Print Assumptions C151_ranges.
(** A constant layer created with a pair as scattering length density has none. *)
Theorem C151_missing_refuted : exists l, mk_constant_layer "film" (PIVal (JNum (Flt 1))) (PIVal (JNum (Flt 1))) (PISeq [JNum (Flt 1); JNum (Flt 2)]) = Ok l /\ layer_ranges l = Raise AttributeError.
Proof. exists (mkLayer KConstantLayer "film" (Some (Const (Flt 1) (Some "thickness"))) (Some (Const (Flt 1) (Some "roughness"))) None). split; [|reflexivity]. cbn. unfold check_nonneg, num_lt. cbn. unfold Rltb, Reqb. destruct (Rlt_dec 1 0); [lra|]. destruct (Req_EM_T 1 0); [lra|]. reflexivity. Qed.
Print Assumptions C151_missing_refuted.
Example C151_example : layer_ranges (sx_film "film") = Ok [("min_thickness", Flt 0); ("max_thickness", Flt 1); ("min_roughness", Flt 0); ("max_roughness", Flt 0); ("min_sld", Flt 1); ("max_sld", Flt 1)].
Proof. reflexivity. Qed.
