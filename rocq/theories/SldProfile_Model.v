(** Model of the scattering length density profile.
    Source: /repo/mlreflect/data_generation/data_generator.py 230-330. Exact real arithmetic; [None] is NaN. *)
From Coq Require Import Reals Lra.
From Coquelicot Require Import Complex.
From Verif Require Import Py Str Sample_Model Sampling_Model Simulation_Model.
Local Open Scope R_scope.

(** np.arange(start, stop, step) for step > 0 *)
Definition ceil (x : R) : Z := (- Int_part (- x))%Z.
Definition arange (start stop step : R) : list R :=
  map (fun i => start + INR i * step) (seq 0 (Z.to_nat (ceil ((stop - start) / step)))).

Definition oplus (a b : option R) : option R := match a, b with Some x, Some y => Some (x + y) | _, _ => None end.

Section Profile.
  (** scipy.special.erf on finite arguments; erf(+-inf) = +-1 *)
  Context (erf : R -> R).

  (** data_generator.py 318: erf((z - center) / (stdev * sqrt 2)), including division by zero (numpy: +-inf, or NaN for 0/0) *)
  Definition erf_quot (z center stdev : R) : option R :=
    if Req_EM_T stdev 0 then
      if Rlt_dec z center then Some (-1) else if Rlt_dec center z then Some 1 else None
    else Some (erf ((z - center) / (stdev * sqrt 2))).

  (** data_generator.py 313-330: [_smooth_step], one height *)
  Definition smooth_step (z center stdev left right : R) : option R :=
    let difference := Rabs (left - right) in
    match erf_quot z center stdev with
    | None => None
    | Some e => Some ((if Rlt_dec right left then (e + 1) * -1 else e + 1) * (difference / 2))
    end.

  (** np.append(0, np.cumsum(thickness)) *)
  Fixpoint cumsum (acc : R) (ts : list R) : list R :=
    acc :: match ts with [] => [] | t :: ts' => cumsum (acc + t) ts' end.

  (** data_generator.py 301-309: the loop over the interfaces, one height *)
  Fixpoint add_steps (z : R) (acc : option R) (centers widths slds : list R) : option R :=
    match centers, widths, slds with
    | c :: centers', w :: widths', l :: ((r :: _) as slds') =>
        add_steps z (oplus acc (smooth_step z c w l r)) centers' widths' slds'
    | _, _, _ => acc
    end.

  (** data_generator.py 269-311: [make_sld_profile] *)
  Definition make_sld_profile (thickness : list R) (sld : list C) (roughness : list R) (sub amb : C) : res (list R * list (option R)) :=
    if Nat.eqb (List.length thickness) (List.length sld) && (Z.of_nat (List.length sld) =? Z.of_nat (List.length roughness) - 1)%Z then
      let th := map Rabs thickness in
      let ro := map Rabs roughness in
      let total := fold_left Rplus th 0 in
      let slds := map fst (sub :: sld ++ [amb])%list in
      match ro, slds with
      | r0 :: _, s0 :: _ =>
          let height := arange (- (10 + 3 * r0)) (total + (10 + 3 * last ro 0)) (/ 10) in
          Ok (height, map (fun z => add_steps z (Some s0) (cumsum 0 th) ro slds) height)
      | _, _ => Raise IndexError
      end
    else Raise ValueError.

  (** data_generator.py 230-267: [simulate_sld_profiles]; [n] is the number of rows of the table *)
  Definition profile_row (ts rs ss : list (list C)) (i : nat) : res (list R * list (option R)) :=
    t <- row ts i ;; sl <- row ss i ;; r <- row rs i ;;
    match sl with
    | sub :: rest => match rev rest with
                     | amb :: _ => make_sld_profile (map fst t) (removelast rest) (map fst r) sub amb
                     | [] => make_sld_profile (map fst t) [] (map fst r) sub sub
                     end
    | [] => Raise IndexError
    end.
  Definition simulate_sld_profiles (n : nat) (t : cols) : res (list (list R * list (option R))) :=
    let '(ts, rs, ss) := separate t in
    match rs, ss with
    | [], _ | _, [] => Raise IndexError
    | _, _ => mapM (profile_row ts rs ss) (seq 0 n)
    end.
End Profile.
