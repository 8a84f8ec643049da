(** Vocabulary for scans with detector pictures, independent of the code. *)
From Coq Require Import Reals Lra Sorted.
From Verif Require Import Py Str Arr SpecFile_Spec.
Local Open Scope R_scope.
Local Open Scope string_scope.

(** The point after [k] has the same position. *)
Definition followed_by_same (pos : list fl) (k : nat) : Prop :=
  exists x, nth_error pos k = Some (Some x) /\ nth_error pos (S k) = Some (Some x).
(** [l'] consists of the entries of [l] with the given numbers. *)
Definition entries_of {A} (ks : list nat) (l l' : list A) : Prop := Forall2 (fun k x => nth_error l k = Some x) ks l'.
Definition increasing_nat (ks : list nat) : Prop := StronglySorted lt ks.

(** Entries outside the selection count as zero. *)
Definition masked (p : nat -> bool) (l : list fl) : list fl :=
  map (fun iv => if p (fst iv) then snd iv else Some 0) (combine (seq 0 (List.length l)) l).
Definition between (lo hi : nat) (i : nat) : bool := (lo <=? i)%nat && (i <? hi)%nat.
(** The sum over the pixels with row from [bottom] up to [top] and column from [left] up to [right], bounds excluded *)
Definition region_sum (left bottom right top : nat) (img : list (list fl)) : fl :=
  fsum (masked (between bottom top) (map (fun row => fsum (masked (between left right) row)) img)).
Definition line_sum (lo hi : nat) (l : list fl) : fl := fsum (masked (between lo hi) l).
Definition total_sum (img : list (list fl)) : fl := fsum (map fsum img).
(** Pictures of the same rectangular size *)
Definition sized (h w : nat) (img : list (list fl)) : Prop :=
  List.length img = h /\ Forall (fun row => List.length row = w) img.
Definition pixel (img : list (list fl)) (y x : nat) : fl := nth x (nth y img []) None.

(** The attenuation of point [k]; no column means no attenuation. *)
Definition attenuation_at (column : option (list fl)) (k : nat) : fl :=
  match column with Some c => nth k c None | None => Some 1 end.
Definition attenuation_fits (column : option (list fl)) (n : nat) : Prop :=
  match column with Some c => List.length c = n | None => True end.
(** One number per picture, each times its attenuation *)
Definition attenuated {A} (column : option (list fl)) (f : A -> fl) (imgs : list A) : list fl :=
  map (fun ki => fmul (f (snd ki)) (attenuation_at column (fst ki))) (combine (seq 0 (List.length imgs)) imgs).
(** A region of interest of a picture and of a line detector *)
Definition roi4 (left bottom right top : nat) : list Z := [Z.of_nat left; Z.of_nat bottom; Z.of_nat right; Z.of_nat top].
Definition roi2 (lo hi : nat) : list Z := [Z.of_nat lo; Z.of_nat hi].
(** A rectangle: left, bottom, right, top *)
Definition rectangle : Type := nat * nat * nat * nat.
Definition corners (q : rectangle) : list Z := let '(l, b, r, t) := q in roi4 l b r t.
(** The sum over a rectangle of a picture; a line detector only uses the first two numbers as bounds. *)
Definition sum_in (q : rectangle) (img : list (list fl)) : fl := let '(l, b, r, t) := q in region_sum l b r t img.
Definition sum_in_line (q : rectangle) (l : list fl) : fl := let '(lo, hi, _, _) := q in line_sum lo hi l.

(** The picture file of frame [n]: five digits at least *)
Fixpoint nulls (k : nat) : string := match k with O => "" | S k' => String "0" (nulls k') end.
Definition frame_file (base : string) (n : N) : string := base ++ "_" ++ nulls (5 - String.length (dec n)) ++ dec n ++ ".tif".
Definition frame_number (n : N) : fl := Some (IZR (Z.of_N n)).
Definition black (h w : nat) : list (list fl) := repeat (repeat (Some 0) w) h.
Definition found {A} (l : list (option A)) : list A := flat_map (fun o => match o with Some x => [x] | None => [] end) l.

(** Pixels inside a rectangle, and the topmost layer that covers a pixel *)
Definition inside (q : rectangle) (y x : nat) : bool := let '(l, b, r, t) := q in between b t y && between l r x.
Definition composite (layers : list (rectangle * list (list fl))) (y x : nat) : fl :=
  fold_left (fun v qi => if inside (fst qi) y x then pixel (snd qi) y x else v) layers (Some 0).
(** A picture times a number *)
Definition brighter (a : fl) (img : list (list fl)) : list (list fl) := map (map (fmul a)) img.
