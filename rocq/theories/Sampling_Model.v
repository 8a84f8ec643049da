(** Model of random sampling and label generation.
    Sources: /repo/mlreflect/data_generation/distributions.py, parameters.py (sample), data_generator.py (44-105).
    Real arithmetic stands for numpy's floats (rounding is not modelled here). *)
From Coq Require Import Reals Lra.
From Coquelicot Require Import Complex.
From Verif Require Import Py Str Sample_Model Rng.
Local Open Scope string_scope.
Local Open Scope R_scope.

(** The keyword arguments distribution_type, bolster_fraction, bolster_width *)
Record dparams := mkDparams { dp_type : string; dp_fraction : R; dp_width : R }.

(** distributions.py 64-72: [_fold_distribution], one value *)
Definition fold1 (lo hi x : R) : R :=
  if Rlt_dec x lo then x + 2 * (lo - x) else if Rlt_dec hi x then x + 2 * (hi - x) else x.

(** np.log10 on positive numbers *)
Definition log10 (x : R) : R := ln x / ln 10.

Section Sampling.
  Context {S : Type} (g : rng S).

  (** [np.random.uniform(low, high, n)] for an integer n: a negative n raises ValueError *)
  Definition np_uniform (s : S) (a b : R) (n : Z) : res (S * list R) :=
    if (n <? 0)%Z then Raise ValueError else Ok (rng_uniform g s a b (Z.to_nat n)).
  (** [np.random.normal(loc, scale, n)]: a negative scale or n raises ValueError *)
  Definition np_normal (s : S) (m d : R) (n : Z) : res (S * list R) :=
    if Rlt_dec d 0 then Raise ValueError
    else if (n <? 0)%Z then Raise ValueError else Ok (rng_normal g s m d (Z.to_nat n)).

  (** distributions.py 32-61: [bolstered_uniform_distribution] *)
  Definition bolstered (s : S) (lo hi : R) (n : Z) (fraction width : R) : res (S * list R) :=
    let span := hi - lo in
    let nb := Int_part (IZR n * fraction / 2) in
    let nu := (n - 2 * nb)%Z in
    '(s1, uni) <- np_uniform s lo hi nu ;;
    '(s2, bmin) <- np_normal s1 lo (span * width) nb ;;
    '(s3, bmax) <- np_normal s2 hi (span * width) nb ;;
    Ok (rng_shuffle g s3 (map (fold1 lo hi) bmin ++ uni ++ map (fold1 lo hi) bmax)%list).

  (** distributions.py 75-78: [random_logarithmic_distribution]; a non-positive limit makes the logarithmic range infinite
      or NaN, which np.random.uniform rejects with OverflowError. *)
  Definition logarithmic (s : S) (lo hi : R) (n : Z) : res (S * list R) :=
    if Rle_dec lo 0 then Raise OverflowError
    else if Rle_dec hi 0 then Raise OverflowError
    else '(s1, us) <- np_uniform s (log10 lo) (log10 hi) n ;; Ok (s1, map (Rpower 10) us).

  (** distributions.py 7-29: [sample_distribution] *)
  Definition sample_distribution (s : S) (n : Z) (dp : dparams) (lo hi : R) : res (S * list R) :=
    if String.eqb (dp_type dp) "bolstered" then bolstered s lo hi n (dp_fraction dp) (dp_width dp)
    else if String.eqb (dp_type dp) "uniform" then np_uniform s lo hi n
    else if String.eqb (dp_type dp) "logarithmic" then logarithmic s lo hi n
    else Raise ValueError.

  Definition num_C (v : num) : C := (num_re v, num_im v).

  (** parameters.py 28-57 ([Parameter.sample]) and 99-101 ([ConstantParameter.sample]).  A range of complex type whose
      imaginary parts are both zero cannot be cast to float by numpy (TypeError). *)
  Definition sample_param (s : S) (p : param) (n : Z) (dp : dparams) : res (S * list C) :=
    match p with
    | Const v _ => if (n <? 0)%Z then Raise ValueError else Ok (s, repeat (num_C v) (Z.to_nat n))
    | Range lo hi _ =>
        if Reqb (num_im lo) 0 && Reqb (num_im hi) 0 then
          match lo, hi with
          | Flt a, Flt b => '(s1, xs) <- sample_distribution s n dp a b ;; Ok (s1, map RtoC xs)
          | _, _ => Raise TypeError
          end
        else
          '(s1, xs) <- sample_distribution s n dp (num_re lo) (num_re hi) ;;
          '(s2, ys) <- sample_distribution s1 n dp (num_im lo) (num_im hi) ;;
          Ok (s2, combine xs ys)
    end.

  (** The same for thickness and roughness parameters.  Simplification: complex thicknesses and roughnesses are not
      modelled (TypeError). *)
  Definition sample_real (s : S) (p : param) (n : Z) (dp : dparams) : res (S * list R) :=
    match p with
    | Const (Flt v) _ => if (n <? 0)%Z then Raise ValueError else Ok (s, repeat v (Z.to_nat n))
    | Range (Flt a) (Flt b) _ => sample_distribution s n dp a b
    | _ => Raise TypeError
    end.

  (** data_generator.py 102-105: [_get_max_roughness] *)
  Definition max_roughness (t : R) : R := t / 2.

  (** data_generator.py 89-99: the row loop *)
  Fixpoint recouple (s : S) (lo hi : R) (dp : dparams) (ts rs : list R) : res (S * list R) :=
    match ts, rs with
    | t :: ts', r :: rs' =>
        if Rlt_dec (max_roughness t) lo then
          '(s2, out) <- recouple s lo hi dp ts' rs' ;; Ok (s2, lo :: out)
        else if Rlt_dec hi (max_roughness t) then
          '(s2, out) <- recouple s lo hi dp ts' rs' ;; Ok (s2, r :: out)
        else
          '(s1, xs) <- sample_distribution s 1 dp lo (max_roughness t) ;;
          match xs with
          | [x] => '(s2, out) <- recouple s1 lo hi dp ts' rs' ;; Ok (s2, x :: out)
          | _ => Raise ValueError
          end
    | _, _ => Ok (s, [])
    end.

  (** data_generator.py 84-100: [_generate_roughness_from_thickness] *)
  Definition roughness_from_thickness (s : S) (p : param) (ts : list R) (dp : dparams) : res (S * list R) :=
    '(s1, rs) <- sample_real s p (Z.of_nat (List.length ts)) dp ;;
    match p_min p, p_max p with
    | Flt lo, Flt hi => recouple s1 lo hi dp ts rs
    | _, _ => Raise TypeError
    end.

  (** A Python dictionary with string keys, in insertion order *)
  Definition cols := list (string * list C).
  Fixpoint upd (d : cols) (k : string) (v : list C) : cols :=
    match d with
    | [] => [(k, v)]
    | (k', v') :: d' => if String.eqb k' k then (k, v) :: d' else (k', v') :: upd d' k v
    end.
  Fixpoint get (d : cols) (k : string) : option (list C) :=
    match d with
    | [] => None
    | (k', v') :: d' => if String.eqb k' k then Some v' else get d' k
    end.

  (** data_generator.py 71-80: one pass of the loop over the layers *)
  Definition gen_layer (s : S) (n : Z) (dp : dparams) (l : layer) (d : cols) : res (S * cols) :=
    match l_sld l with
    | None => Raise AttributeError
    | Some p =>
        '(s1, c) <- sample_param s p n dp ;;
        let d1 := upd d (l_name l ++ "_sld") c in
        match l_thickness l with
        | Some pt =>
            '(s2, ts) <- sample_real s1 pt n dp ;;
            let d2 := upd d1 (l_name l ++ "_thickness") (map RtoC ts) in
            match l_roughness l with
            | None => Raise AttributeError
            | Some pr =>
                '(s3, rs) <- roughness_from_thickness s2 pr ts dp ;;
                Ok (s3, upd d2 (l_name l ++ "_roughness") (map RtoC rs))
            end
        | None =>
            match l_roughness l with
            | None => Ok (s1, d1)
            | Some pr =>
                '(s2, rs) <- sample_real s1 pr n dp ;;
                Ok (s2, upd d1 (l_name l ++ "_roughness") (map RtoC rs))
            end
        end
    end.
  Fixpoint gen_layers (s : S) (n : Z) (dp : dparams) (ls : list layer) (d : cols) : res (S * cols) :=
    match ls with
    | [] => Ok (s, d)
    | l :: ls' => '(s1, d1) <- gen_layer s n dp l d ;; gen_layers s1 n dp ls' d1
    end.

  (** pd.DataFrame(d)[names] *)
  Definition select (d : cols) (names : list string) : res cols :=
    mapM (fun k => match get d k with Some c => Ok (k, c) | None => Raise KeyError end) names.

  (** data_generator.py 44-82: [generate_random_labels] *)
  Definition generate_random_labels (s : S) (smp : structure) (n : Z) (dp : dparams) : res (S * cols) :=
    if (0 <? n)%Z then
      names <- label_names smp ;;
      '(s1, d) <- gen_layers s n dp (sample_structure smp) [] ;;
      t <- select d names ;;
      Ok (s1, t)
    else Raise ValueError.
End Sampling.
