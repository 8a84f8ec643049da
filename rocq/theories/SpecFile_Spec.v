(** Vocabulary for SPEC files, independent of the parser: words of a line, decimal numbers and the layout of a file. *)
From Coq Require Import DecimalString.
From Verif Require Import Py Str Arr.
Local Open Scope string_scope.

Definition blank (s : string) : Prop := str_forall is_space s = true.
Definition solid (s : string) : Prop := s <> "" /\ str_forall (fun c => negb (is_space c)) s = true.
(** The line is the list of words, separated by whitespace. *)
Inductive words_of : list string -> string -> Prop :=
| words_nil s : blank s -> words_of [] s
| words_cons pre w ws rest : blank pre -> solid w -> words_of ws rest ->
    (rest = "" \/ exists c r, rest = String c r /\ is_space c = true) -> words_of (w :: ws) (pre ++ w ++ rest).

(** Decimal notation *)
Definition dec (n : N) : string := NilEmpty.string_of_uint (N.to_uint n).

(** A scan block: its scan number, the words of its command, the "#S" line, the following lines and the gap after it *)
Record block := mkBlock {
  b_number : N;
  b_command : list string;
  b_head : string;
  b_body : list string;
  b_gap : list string }.
Definition block_lines (b : block) : list string := (b_head b :: b_body b ++ b_gap b)%list.
Definition no_scan (ls : list string) : Prop := Forall (fun l => startswith "#S" l = false) ls.
Definition block_ok (b : block) : Prop :=
  startswith "#S" (b_head b) = true /\
  (exists tag, words_of (tag :: dec (b_number b) :: b_command b) (b_head b)) /\
  Forall (fun l => l <> "") (b_body b) /\ no_scan (b_body b).
(** Blocks are separated by at least one blank line. *)
Definition gap_ok (g : list string) : Prop := exists g', g = "" :: g' /\ no_scan g'.
Fixpoint gaps_ok (bs : list block) : Prop :=
  match bs with
  | [] => True
  | [b] => b_gap b = [] \/ gap_ok (b_gap b)
  | b :: bs' => gap_ok (b_gap b) /\ gaps_ok bs'
  end.
(** The file, lines taken without trailing whitespace, is a prelude followed by scan blocks. *)
Definition spec_file (file prelude : list string) (bs : list block) : Prop :=
  map rstrip file = (prelude ++ List.concat (map block_lines bs))%list /\
  no_scan prelude /\ Forall block_ok bs /\ gaps_ok bs.

(** The last line beginning with a tag *)
Definition last_with (tag : string) (ls : list string) : option string := find (startswith tag) (rev ls).
(** [b] is the last block with its number. *)
Definition last_block (bs : list block) (b : block) : Prop :=
  exists l r, bs = (l ++ b :: r)%list /\ Forall (fun b' => b_number b' <> b_number b) r.

(** Column names that two blanks separate unambiguously *)
Definition separable (name : string) : Prop := contains "  " name = false /\ endswith " " name = false.
(** The header line of the data *)
Definition header (names : list string) : string := "#L " ++ join "  " names.
Definition starts_with_any (chars s : string) : Prop := exists c r, s = String c r /\ has_char c chars = true.
(** A data line holding the numbers *)
Definition row_line (to_float : string -> option fl) (line : string) (row : list fl) : Prop :=
  startswith "#" line = false /\ exists ws, words_of ws line /\ Forall2 (fun w x => to_float w = Some x) ws row.
(** A block with its table of numbers: other lines, the header, the data, and possibly further comments *)
Definition holds_table (to_float : string -> option fl) (b : block) (names : list string) (rows : list (list fl)) : Prop :=
  exists before lines after,
    b_body b = (before ++ header names :: lines ++ after)%list /\
    Forall2 (row_line to_float) lines rows /\
    Forall (fun l => startswith "#L" l = false) after /\
    (after = [] \/ exists l r, after = l :: r /\ startswith "#" l = true) /\
    Forall separable names /\ Forall (fun r => List.length r = List.length names) rows.
