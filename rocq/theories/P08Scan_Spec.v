(** Vocabulary about the scan objects of the P08 tools. *)
From Coq Require Import Reals Lra.
From Verif Require Import Py Str Arr Spec_Model Fio_Model P08_Model SpecFile_Spec P08_Spec.
Local Open Scope R_scope.
Local Open Scope string_scope.

(** The number of pictures of a stack, and the pictures with the given numbers *)
Definition stack_size (s : stack) : nat := match s with S3 l => List.length l | S2 l => List.length l end.
Definition stack_entries (ks : list nat) (s s' : stack) : Prop :=
  match s, s' with S3 l, S3 l' => entries_of ks l l' | S2 l, S2 l' => entries_of ks l l' | _, _ => False end.
(** Everything has one entry per position. *)
Definition aligned (n : nat) (s : fscan) : Prop :=
  Forall (fun kv => List.length (snd kv) = n) (f_data s) /\ Forall (fun c => List.length c = n) (f_positions s) /\
  Forall (fun kv => stack_size (snd kv) = n) (f_images s).
(** The sums of all regions of a stack, the whole picture first *)
Definition sums_of (column : option (list fl)) (rois : list (string * rectangle)) (s : stack) : list (string * list fl) :=
  match s with
  | S3 imgs => ("all", attenuated column total_sum imgs) :: map (fun kq => (fst kq, attenuated column (sum_in (snd kq)) imgs)) rois
  | S2 lines => ("all", attenuated column fsum lines) :: map (fun kq => (fst kq, attenuated column (sum_in_line (snd kq)) lines)) rois
  end.
(** Every picture times its attenuation *)
Definition brighten (c : list fl) (imgs : list image) : list image := map (fun ki => brighter (nth (fst ki) c None) (snd ki)) (combine (seq 0 (List.length imgs)) imgs).
(** One layer: a scan, its rectangle, its pictures and attenuations *)
Definition layer_ok (det : string) (h w n : nat) (s : fscan) (imgs : list image) (c : list fl) : Prop :=
  f_doubles s = true /\ dict_get String.eqb (f_images s) det = Some (S3 imgs) /\ List.length imgs = n /\ Forall (sized h w) imgs /\
  dict_get String.eqb (f_data s) "atten_position" = Some c /\ (n <= List.length c)%nat.
Record layer := mkLayer { la_scan : fscan; la_area : rectangle; la_images : list image; la_atten : list fl }.
Definition scaled_scan (det : string) (la : layer) : fscan := set_images (dict_set String.eqb (f_images (la_scan la)) det (S3 (brighten (la_atten la) (la_images la)))) (la_scan la).
(** The columns of a table by name *)
Definition columns_data (names : list string) (rows : list (list fl)) : list (string * list fl) :=
  map (fun nj => (fst nj, column (snd nj) rows)) (combine names (seq 0 (List.length names))).
(** No column belongs to a detector whose pictures are loaded. *)
Definition no_pictures (names : list string) : Prop :=
  forall n mark, In n names -> In mark ["lambda"; "p100k"; "eiger"; "mythint"; "mythmax"; "mythroi1"; "mythroi2"] -> ~ exists a b, n = a ++ mark ++ b.
(** An entry of the list of scans *)
Definition listed (to_float : string -> option fl) (fs : disk) (p : fio_parser) (n : N) (path : string) (entry : Z * (string * reader * bool)) : Prop :=
  exists h b, entry = (Z.of_N n, (path, h, b)) /\ read_fio to_float fs path = Ok h /\ is_theta2theta p (r_command h) = Ok b.
