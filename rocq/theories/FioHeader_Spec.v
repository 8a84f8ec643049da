(** Vocabulary for the header entries of FIO files: keys in any spelling, the signal counter and the UB matrix. *)
From Verif Require Import Py Str Arr SpecFile_Spec FioFile_Spec.
Local Open Scope string_scope.

(** A capital letter and its small letter *)
Definition capital_of (c d : ascii) : Prop :=
  exists i, String.get i "ABCDEFGHIJKLMNOPQRSTUVWXYZ" = Some c /\ String.get i "abcdefghijklmnopqrstuvwxyz" = Some d.
(** A word in small letters, written with any capitals *)
Inductive spelled : string -> string -> Prop :=
| spelled_nil : spelled "" ""
| spelled_cons c d s k : c = d \/ capital_of c d -> spelled s k -> spelled (String c s) (String d k).
(** "key = …" with the key in any spelling *)
Definition has_key (key l : string) : Prop :=
  exists left right, l = left ++ "=" ++ right /\ has_char "=" left = false /\ spelled (strip left) key.

Section Entries.
Variable to_float : string -> option fl.
(** "signalcounter = text", where the text is not a number *)
Inductive signal_definition : string -> string -> Prop :=
| signal_definition_intro left right : has_char "=" left = false -> spelled (strip left) "signalcounter" -> has_char "=" right = false ->
    to_float (rstrip right) = None -> signal_definition (left ++ "=" ++ right) (strip right).
(** Text between brackets: no brackets, no '=' *)
Definition between (s : string) : Prop := has_char "[" s = false /\ has_char "]" s = false /\ has_char "=" s = false.
(** The numbers of a row, separated by blanks *)
Definition row_text (s : string) (nums : list fl) : Prop :=
  between s /\ has_char ";" s = false /\ number_line to_float s nums.
(** "ubmatrix = [[a b c] [d e f] [g h i]]" with anything but brackets and '=' between the brackets *)
Inductive ub_definition : string -> list (list fl) -> Prop :=
| ub_definition_intro left g0 g1 t1 g2 t2 g3 t3 tail r1 r2 r3 :
    has_char "=" left = false -> spelled (strip left) "ubmatrix" -> between g0 -> between g1 -> between g2 -> between g3 -> has_char "=" tail = false ->
    row_text t1 r1 -> row_text t2 r2 -> row_text t3 r3 ->
    to_float (rstrip (g0 ++ "[" ++ g1 ++ "[" ++ t1 ++ "]" ++ g2 ++ "[" ++ t2 ++ "]" ++ g3 ++ "[" ++ t3 ++ "]" ++ tail)) = None ->
    ub_definition (left ++ "=" ++ g0 ++ "[" ++ g1 ++ "[" ++ t1 ++ "]" ++ g2 ++ "[" ++ t2 ++ "]" ++ g3 ++ "[" ++ t3 ++ "]" ++ tail) [r1; r2; r3].
End Entries.
