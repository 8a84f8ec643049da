(** Model of the path functions of the Python standard library (posixpath, os) that the code uses, and of str(int).
    Cited by: /repo/mlreflect/utils/h5_tools.py (95-96), /repo/mlreflect/models/model_helpers.py, /repo/mlreflect/curve_fitter/results.py
    (141, 147). *)
From Verif Require Import Py Str Fio_Model.
Local Open Scope string_scope.

(** The text before and after the last occurrence of a character *)
Fixpoint rsplit_char (c : ascii) (s : string) : option (string * string) :=
  match s with
  | "" => None
  | String d s' =>
      match rsplit_char c s' with
      | Some (a, b) => Some (String d a, b)
      | None => if Ascii.eqb d c then Some ("", s') else None
      end
  end.
Definition slash : ascii := "/".
Definition dot : ascii := ".".
Definition all_are (c : ascii) : string -> bool := str_forall (fun d => Ascii.eqb d c).

(** posixpath.basename: everything after the last slash *)
Definition basename (p : string) : string := match rsplit_char slash p with Some (_, b) => b | None => p end.
(** posixpath.dirname: everything up to the last slash; trailing slashes are dropped unless there is nothing else *)
Definition dirname (p : string) : string :=
  match rsplit_char slash p with
  | None => ""
  | Some (a, _) => let head := a ++ "/" in if all_are slash head then head else rstrip_by (fun d => Ascii.eqb d slash) head
  end.
(** posixpath.join of two paths *)
Definition path_join (a b : string) : string :=
  if startswith "/" b then b
  else if String.eqb a "" || endswith "/" a then a ++ b
  else a ++ "/" ++ b.
(** posixpath.splitext: the last dot of the base name separates the extension, unless only dots come before it *)
Definition splitext (p : string) : string * string :=
  let dir := match rsplit_char slash p with Some (a, _) => a ++ "/" | None => "" end in
  match rsplit_char dot (basename p) with
  | Some (a, e) => if all_are dot a then (p, "") else (dir ++ a, "." ++ e)
  | None => (p, "")
  end.

(** str(n) of an integer *)
Definition str_int (z : Z) : string := if (z <? 0)%Z then "-" ++ decimal (Z.to_N (- z)) else decimal (Z.to_N z).

(** Directories.  A directory is whether its path is absolute, and the components of the path without empty ones and ".".
    Simplification: ".." is an ordinary component, there are no links, and no file is in the way. *)
Definition place := (bool * list string)%type.
Definition place_of (p : string) : place :=
  (startswith "/" p, filter (fun c => negb (String.eqb c "" || String.eqb c ".")) (split_char slash p)).
Definition place_eqb (a b : place) : bool :=
  Bool.eqb (fst a) (fst b) && (if list_eq_dec string_dec (snd a) (snd b) then true else false).
Definition dirs := list place.
(** os.path.exists *)
Definition dir_exists (fs : dirs) (p : string) : bool :=
  negb (String.eqb p "") && (match snd (place_of p) with [] => true | _ => existsb (place_eqb (place_of p)) fs end).
(** os.makedirs: the directory and all the directories above it *)
Definition ancestors (x : place) : dirs := map (fun k => (fst x, firstn k (snd x))) (seq 1 (List.length (snd x))).
Definition makedirs (fs : dirs) (p : string) : res dirs :=
  if String.eqb p "" then Raise FileNotFoundError
  else if dir_exists fs p then Raise FileExistsError
  else Ok (fs ++ ancestors (place_of p))%list.
