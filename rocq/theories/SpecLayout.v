(** Two files which say the same table in different layouts. *)
From Verif Require Import Base Types Column Header Metadata Reader Sinks SpecValues SpecReader SpecFile SpecSinks SpecCells SpecTable.
Local Open Scope N_scope.

(** The fields are the same for a user: name, label, format name, number or text.  Where the
    field is in the row, and on how many bytes, is left free. *)
Definition same_field (d d' : field_desc) : Prop :=
  fd_name d = fd_name d' /\ fd_label d = fd_label d' /\ fd_format d = fd_format d' /\ fd_numeric d = fd_numeric d'.

(** The filter looks at what a user knows of a column: name, label, format name, type. *)
Definition by_facts (flt : option (column -> bool)) : Prop :=
  match flt with
  | Some f => forall a b, column_facts a = column_facts b -> f a = f b
  | None => True
  end.

(** Two cells which cannot be told apart: value and text (or the same failure). *)
Definition same_cell (p p' : pview) (a b : column) : Prop :=
  column_facts a = column_facts b
  /\ (exists x, cell_value a p x /\ cell_value b p' x)
  /\ c_to_string a p = c_to_string b p'.

(** Two rows with the same index and the same cells. *)
Definition same_row (cs cs' : list column) (r r' : N * pview) : Prop :=
  fst r = fst r' /\ Forall2 (same_cell (snd r) (snd r')) cs cs'.

(** The two sequences of calls lead the sinks to the same: the text of the csv sink, the
    text of the print sink behind its report of the file, the calls of the Python object by
    the sinks by chunks and for the whole table, and those of the R object. *)
Definition calls_made {A B} (x : res (A * B)) : res B :=
  match x with Ok (_, b) => Ok b | Exn e => Exn e | Abort => Abort | Undef u => Undef u | Fuel => Fuel end.

Definition same_outputs (evs evs' : list event) : Prop :=
  (forall f, csv_run f evs = csv_run f evs')
  /\ (forall report, print_run (fun _ _ => report) evs = print_run (fun _ _ => report) evs')
  /\ (forall size, calls_made (feed pychunk_step (pychunk_new size, []) evs)
                   = calls_made (feed pychunk_step (pychunk_new size, []) evs')
               /\ calls_made (feed pydata_step (pychunk_new size, []) evs)
                   = calls_made (feed pydata_step (pychunk_new size, []) evs'))
  /\ (forall size, calls_made (feed rchunk_step (rsink_new size, []) evs)
                   = calls_made (feed rchunk_step (rsink_new size, []) evs')
               /\ calls_made (feed rdata_step (rsink_new size, []) evs)
                   = calls_made (feed rdata_step (rsink_new size, []) evs')).
