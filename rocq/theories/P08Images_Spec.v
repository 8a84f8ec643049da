(** Vocabulary for the pictures of a scan, independent of the loader. *)
From Coq Require Import Reals.
From Verif Require Import Py Str Arr P08_Spec.
Local Open Scope R_scope.
Local Open Scope string_scope.

(** Picture [k] is named by the index column; without a column every picture is. *)
Definition in_index (column : option (list fl)) (k : nat) : Prop :=
  match column with None => True | Some c => In (Some (INR k)) c end.
(** [l'] consists of the entries of [l] whose number satisfies [P], in the order of [l]. *)
Definition selection {A} (P : nat -> Prop) (l l' : list A) : Prop :=
  exists ks, increasing_nat ks /\ (forall k, In k ks <-> (k < List.length l)%nat /\ P k) /\ entries_of ks l l'.
(** Point [k] was not removed. *)
Definition without (removed : option (list nat)) (k : nat) : Prop := match removed with None => True | Some idxes => ~ In k idxes end.
(** Entry [i] of [l'] is the entry of [l] with the number in entry [i] of the column. *)
Definition matching {A} (column : list fl) (l l' : list A) : Prop :=
  Forall2 (fun x a => exists k, x = Some (INR k) /\ nth_error l k = Some a) column l'.

(** The files of the detectors *)
Definition lambda_path (dir name : string) : string := dir ++ "/" ++ name ++ "/lambda/" ++ name ++ "_00000.nxs".
Definition eiger_dir (dir folder : string) : string := dir ++ "/" ++ folder ++ "/eiger1m".
Definition eiger_path (dir folder : string) : string := eiger_dir dir folder ++ "/" ++ folder ++ "_master.h5".
(** The folder of the eiger detector: the scan name, or for "a.b_c" (and "a.b_c.d") the name "a_c" *)
Inductive eiger_name : string -> string -> Prop :=
| eiger_plain name : has_char "." name = false -> eiger_name name name
| eiger_dotted a b c rest : has_char "." a = false -> has_char "." b = false -> has_char "." c = false -> has_char "_" c = false ->
    (rest = "" \/ exists r, rest = "." ++ r) -> eiger_name (a ++ "." ++ b ++ "_" ++ c ++ rest) (a ++ "_" ++ c).
(** The profile files of a line detector *)
Definition profile_file (dir name detector path : string) : Prop :=
  exists mid, path = dir ++ "/" ++ name ++ "/" ++ detector ++ "/" ++ name ++ mid ++ ".raw" /\ has_char "/" mid = false.
(** A file of the eiger folder that looks like a master file *)
Definition master_file (dir folder path : string) : Prop :=
  exists file, path = eiger_dir dir folder ++ "/" ++ file /\ contains "_master.h5" file = true /\ has_char "/" file = false.
(** The detectors of a scan are recognised by parts of the column names; a column counts for the first detector that matches. *)
Definition part (w name : string) : Prop := exists a b, name = a ++ w ++ b.
Definition detector_parts (det : string) : list string :=
  if String.eqb det "mythen" then ["mythint"; "mythmax"; "mythroi1"; "mythroi2"]
  else if String.eqb det "pe" then ["pe_roi"; "pe_trigger"] else [det].
