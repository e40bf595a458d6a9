(** What the command line program shows for a list of files (C105). *)
From Verif Require Import Base Types Buffer Header Column Metadata Reader Cli
  SpecNumber SpecValues SpecFile SpecRoundtrip SpecCells SpecTable.
Local Open Scope N_scope.

(** How the printing of something ends: it is complete, an exception is thrown, or the
    behaviour is undefined. *)
Inductive ending : Type := Complete | Thrown | Lost.

(** A cell which cannot be printed, and what happens: a missing date or datetime throws, a
    missing time reads outside its buffer (C55). *)
Inductive no_text (d : field_desc) : content -> ending -> Prop :=
| no_date : forall bits, is_date d -> no_text d (Missing bits) Thrown
| no_datetime : forall bits, is_datetime d -> no_text d (Missing bits) Thrown
| no_time : forall bits, is_time d -> no_text d (Missing bits) Lost.

(** The text of the rows from index [i] on: whole lines, up to the first row with a cell
    which cannot be printed; of that row, the index and the cells before it. *)
Inductive rows_text (fields : list field_desc) : N -> list (list content) -> bytes -> ending -> Prop :=
| rows_none : forall i, rows_text fields i [] [] Complete
| rows_line : forall i vs rest line text en, Forall2 printable fields vs -> print_line i vs line ->
    rows_text fields (i + 1) rest text en -> rows_text fields i (vs :: rest) (line ++ text) en
| rows_cut : forall i rest fs1 d fs2 vs1 v vs2 ti ts en,
    fields = fs1 ++ d :: fs2 -> Forall2 printable fs1 vs1 -> no_text d v en ->
    short_decimal ti (Z.of_N i) -> Forall2 text_is vs1 ts ->
    rows_text fields i ((vs1 ++ v :: vs2) :: rest) (ti ++ concat (map (fun t => [x2c] ++ t) ts)) en.

(** --nlines: the first [n] rows; all of them when [n] is negative or not given. *)
Definition asked_rows (nlines : option Z) (contents : list (list content)) : list (list content) :=
  match nlines with
  | Some n => if (n <? 0)%Z then contents else firstn (Z.to_nat n) contents
  | None => contents
  end.

(** The bytes are those of a table none of whose names has a brace (see C60). *)
Definition table_of (c : cfg) (fields : list field_desc) (contents : list (list content)) (file : bytes) : Prop :=
  (exists e, holds_table c e fields contents file)
  /\ Forall (fun d => ~ In x7b (fd_name d) /\ ~ In x7d (fd_name d)) fields.

(** The text of a table: what [props] makes of the properties, the names, the rows. *)
Definition table_text (c : cfg) (props : header -> metadata -> bytes) (nlines : option Z) (file : bytes)
    (text : bytes) (en : ending) : Prop :=
  exists fields contents r ev rows,
    table_of c fields contents file
    /\ open_reader c file_source None (file_open file) = Ok (r, ev)
    /\ text = props (rs_h r) (rs_md r) ++ bs "#" ++ concat (map (fun d => [x2c] ++ fd_name d) fields) ++ [x0a] ++ rows
    /\ rows_text fields 0 (asked_rows nlines contents) rows en.

(** A file which is not there or which the reader refuses. *)
Definition refused (c : cfg) (fs : fsys) (name : bytes) : Prop :=
  fs_get fs name = None
  \/ exists file e, fs_get fs name = Some file /\ open_reader c file_source None (file_open file) = Exn e.

(** The files one after the other, until one cannot be printed completely. *)
Inductive shows (c : cfg) (props : header -> metadata -> bytes) (nlines : option Z) (fs : fsys)
  : list bytes -> bytes -> ending -> Prop :=
| shows_none : shows c props nlines fs [] [] Complete
| shows_file : forall name file text rest texts en, fs_get fs name = Some file ->
    table_text c props nlines file text Complete -> shows c props nlines fs rest texts en ->
    shows c props nlines fs (name :: rest) (text ++ texts) en
| shows_cut : forall name file text rest en, fs_get fs name = Some file ->
    table_text c props nlines file text en -> en <> Complete ->
    shows c props nlines fs (name :: rest) text en
| shows_refused : forall name rest, refused c fs name ->
    shows c props nlines fs (name :: rest) [] Thrown.

(** Each file holds a table or is refused. *)
Definition table_or_refused (c : cfg) (fs : fsys) (name : bytes) : Prop :=
  (exists file fields contents, fs_get fs name = Some file /\ table_of c fields contents file)
  \/ refused c fs name.

(** The process: it returns 0, is terminated by the exception, or has no defined
    behaviour. *)
Definition process_ends (en : ending) (x : res unit) : Prop :=
  match en with
  | Complete => x = Ok tt
  | Thrown => x = Abort
  | Lost => exists u, x = Undef u
  end.
