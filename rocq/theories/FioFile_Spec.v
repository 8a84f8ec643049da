(** Vocabulary for FIO files, independent of the reader: the layout of a file and what its lines mean. *)
From Verif Require Import Py Str Arr SpecFile_Spec.
Local Open Scope string_scope.

(** A line that opens a block; lines with '!' are remarks. *)
Definition marker (l : string) : bool := contains "%c" l || contains "%p" l || contains "%d" l.
Definition plain (l : string) : Prop := marker l = false /\ contains "!" l = false.
(** The file without remarks *)
Definition significant (file : list string) : list string := filter (fun l => marker l || negb (contains "!" l)) file.
(** The file: other lines, a comment block, a parameter block, a data block with column lines and data lines *)
Definition fio_layout (file before comments params columns rows : list string) : Prop :=
  exists c p d,
    significant file = (before ++ c :: comments ++ p :: params ++ d :: columns ++ rows)%list /\
    contains "%c" c = true /\
    (contains "%p" p = true /\ contains "%c" p = false) /\
    (contains "%d" d = true /\ contains "%c" d = false /\ contains "%p" d = false) /\
    Forall plain before /\ Forall plain comments /\ Forall plain params /\ Forall plain columns /\ Forall plain rows.

(** A column line: "Col", the number of the column, its name and possibly more *)
Definition column_line (l name : string) : Prop :=
  contains "Col " l = true /\ exists a b more, words_of (a :: b :: name :: more) l.
(** A column line without a name *)
Definition short_column (l : string) : Prop := contains "Col " l = true /\ ~ exists a b c ws, words_of (a :: b :: c :: ws) l.
(** The data block is well formed: names, and a first data line that is not a column line *)
Definition table_layout (columns rows names : list string) : Prop :=
  Forall2 column_line columns names /\ names <> [] /\ NoDup names /\
  match rows with [] => True | r :: _ => contains "Col " r = false end.

(** The scan command: the last comment that mentions a scan or a mesh *)
Definition command_of (comments : list string) : option string :=
  option_map strip (find (fun l => contains "scan" l || contains "mesh" l) (rev comments)).

Section Numbers.
Variable to_float : string -> option fl.

(** The [j]-th word of a line as a number; not a number if it is missing or unreadable *)
Inductive reads_as (line : string) (j : nat) : fl -> Prop :=
| reads_number ws w x : words_of ws line -> nth_error ws j = Some w -> to_float w = Some x -> reads_as line j x
| reads_unreadable ws w : words_of ws line -> nth_error ws j = Some w -> to_float w = None -> reads_as line j None
| reads_missing ws : words_of ws line -> nth_error ws j = None -> reads_as line j None.
(** A data line that holds exactly the numbers *)
Definition number_line (line : string) (row : list fl) : Prop :=
  exists ws, words_of ws line /\ Forall2 (fun w x => to_float w = Some x) ws row.

(** "name = number" *)
Inductive motor_line : string -> string -> fl -> Prop :=
| motor_line_intro left right x :
    left <> "" -> has_char "=" left = false -> has_char "=" right = false -> to_float (rstrip right) = Some x ->
    motor_line (left ++ "=" ++ right) (strip left) x.
(** "kind name = [a, b, c, d, …]" where the text before '=' mentions "roi" *)
Inductive roi_definition : string -> string -> list fl -> Prop :=
| roi_definition_intro pre kind name post gap texts tail nums :
    blank pre -> solid kind -> solid name -> blank post -> (post = "" \/ exists r, post = String " " r) ->
    has_char "=" kind = false -> has_char "=" name = false ->
    contains "roi" kind = true \/ contains "roi" name = true ->
    blank gap -> blank tail -> texts <> [] ->
    Forall (fun t => has_char "," t = false /\ has_char "=" t = false) texts ->
    to_float (gap ++ "[" ++ join "," texts ++ "]") = None ->
    Forall2 (fun t x => to_float t = Some x) texts nums ->
    roi_definition (pre ++ kind ++ " " ++ name ++ post ++ "=" ++ gap ++ "[" ++ join "," texts ++ "]" ++ tail) name nums.
(** A parameter block: motor positions, region definitions and lines without '=' *)
Inductive param_block : list string -> list (string * fl) -> list (string * list fl) -> Prop :=
| params_nil : param_block [] [] []
| params_motor l ls name x ms rs : motor_line l name x -> param_block ls ms rs -> param_block (l :: ls) ((name, x) :: ms) rs
| params_rois l ls name nums ms rs : roi_definition l name nums -> param_block ls ms rs -> param_block (l :: ls) ms ((name, nums) :: rs)
| params_other l ls ms rs : has_char "=" l = false -> param_block ls ms rs -> param_block (l :: ls) ms rs.
End Numbers.

(** Groups of four, the last one possibly shorter *)
Inductive groups_of_four {A} : list A -> list (list A) -> Prop :=
| groups_nil : groups_of_four [] []
| groups_last l : (0 < List.length l <= 4)%nat -> groups_of_four l [l]
| groups_cons g l gs : List.length g = 4%nat -> groups_of_four l gs -> groups_of_four (g ++ l)%list (g :: gs).
(** "roi1", "roi2", … *)
Definition numbered (gs : list (list fl)) (named : list (string * list fl)) : Prop :=
  map snd named = gs /\ forall k name, nth_error (map fst named) k = Some name -> name = "roi" ++ dec (N.of_nat (S k)).

(** Scan files of an experiment *)
Definition numeric_name (stem : string) (n : N) (path : string) : Prop :=
  exists pad, str_forall (fun c => Ascii.eqb c "0") pad = true /\ path = stem ++ "_" ++ pad ++ dec n ++ ".fio".
Definition in_reach (stem path : string) : Prop := exists mid, path = stem ++ mid ++ ".fio" /\ has_char "/" mid = false.

(** A scan command: the kind of scan and its arguments, none of which contains the text "scan" *)
Definition scan_command (kind : string) (args : list string) (cmd : string) : Prop :=
  words_of (kind :: args) cmd /\ Forall (fun w => contains "scan" w = false) args.

(** How often a name occurs *)
Definition often (k : string) (names : list string) : nat := List.length (filter (String.eqb k) names).
