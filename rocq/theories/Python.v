(** The Python package: the choice of the C++ sink ([python/pycppsas7bdat/cpp/reader.cpp]),
    the sink classes ([python/pycppsas7bdat/sink.py]) and read_sas
    ([python/pycppsas7bdat/read_sas.py]). *)
From Verif Require Import Base Types Buffer Header Column Metadata Reader Drive Sinks
  Callbacks Utf8 PyObjects.
Local Open Scope N_scope.

(** Exceptions seen by the Python program (reader.cpp:74, sink.py:29-66). *)
Definition E_system_error : exn := E_client 1.   (* SystemError *)
(* E_client 2 is ValueError, see PyObjects.v *)
Definition E_attribute_error : exn := E_client 3. (* AttributeError *)
Definition E_name_error : exn := E_client 4.     (* no Reader any more *)
Definition E_not_a_sink : exn := E_client 5.     (* "Not a valid sink" *)
(* E_client 6 is UnicodeDecodeError, see Callbacks.v *)

(** ** Choice of the sink *)

(** reader.cpp:58-75. *)

Inductive sink_kind : Type := RowSink | ChunkSink | DataSink.

(** reader.cpp:52-77 build: [has] tells which attributes the object has. *)
Definition select_sink (has : bytes -> bool) : res sink_kind :=
  if has (bs "chunk_size") && has (bs "set_properties") && has (bs "push_rows")
  then Ok ChunkSink
  else if has (bs "set_properties") && has (bs "set_data") then Ok DataSink
  else if has (bs "set_properties") && has (bs "push_row") then Ok RowSink
  else Exn E_not_a_sink.

(** reader.cpp:25-50 filter: a missing list filters nothing.  Simplification: the
    arguments are lists of strings; anything else throws. *)
Definition py_filter (include exclude : option (list bytes)) : column -> bool :=
  include_exclude_accept
    (match include with Some l => l | None => [] end)
    (match exclude with Some l => l | None => [] end).

(** ** sink.py *)

(** The three classes, sink.py:20-66. *)
Inductive py_class : Type := SinkByRow | SinkByChunk | SinkWholeData.

(** A DataFrame of pandas (sink.py:33, 44, 51, 60): the columns with their names, in order; [None]
    is a missing cell. *)
Definition frame : Type := list (bytes * list (option value)).

(** The attributes: properties (a copy which the object shares, sink.hpp:52-54), columns,
    _rows of SinkByRow, _rows of SinkByChunk, _df. *)
Record py_object : Type := PyObject {
  po_properties : option (header * metadata);
  po_columns : list bytes;
  po_rows : list (list value);
  po_frames : list frame;
  po_df : option frame
}.
Definition py_new : py_object := PyObject None [] [] [] None.

(** sink.py:44, 60 pd.DataFrame(rows, columns = names) of a dict: the columns called [names] in that
    order; one which is not in the dict is filled with missing cells. *)
Fixpoint dict_get {V} (d : list (bytes * V)) (k : bytes) : option V :=
  match d with
  | [] => None
  | (k', v) :: r => if bytes_eqb k' k then Some v else dict_get r k
  end.

Definition frame_of_dict (names : list bytes) (d : list (bytes * list value)) : frame :=
  let n := match d with [] => O | (_, v) :: _ => length v end in
  map (fun name => (name, match dict_get d name with
                          | Some v => map Some v
                          | None => repeat None n
                          end)) names.

(** sink.py:51 pd.concat of frames which have the same columns. *)
Fixpoint append_frame (f g : frame) : frame :=
  match f, g with
  | (n, v) :: f', (_, w) :: g' => (n, v ++ w) :: append_frame f' g'
  | _, _ => []
  end.

Definition concat_frames (l : list frame) : res frame :=
  match l with
  | [] => Exn E_value_error
  | f :: r => Ok (fold_left append_frame r f)
  end.

(** sink.py:33 pd.DataFrame.from_records(rows, columns = names): the rows must have as many
    values as there are names. *)
Fixpoint record_columns (names : list bytes) (j : nat) (rows : list (list value)) : frame :=
  match names with
  | [] => []
  | n :: r => (n, map (fun row => nth_error row j) rows) :: record_columns r (S j) rows
  end.

Definition frame_of_records (names : list bytes) (rows : list (list value)) : res frame :=
  if forallb (fun row => Nat.eqb (length row) (length names)) rows
  then Ok (record_columns names 0 rows) else Exn E_value_error.

(** sink.py:14-16 set_properties, 28-29 push_row, 46-48 push_rows, 61-62 set_data.  A
    method which the class does not have raises AttributeError.  col.name is a str object
    (pycppsas7bdat.cpp:52), see [E_unicode_error]. *)
Definition py_methods (cls : py_class) : pyobj py_object := fun q o =>
  match q, cls with
  | PyProps h md, _ =>
      if named_in_utf8 (md_columns md)
      then (Ok tt, PyObject (Some (h, md)) (map c_name (md_columns md)) (po_rows o) (po_frames o) (po_df o))
      else (Exn E_unicode_error, PyObject (Some (h, md)) (po_columns o) (po_rows o) (po_frames o) (po_df o))
  | PyCall (PyPushRow i l), SinkByRow =>
      (Ok tt, PyObject (po_properties o) (po_columns o) (po_rows o ++ [l]) (po_frames o) (po_df o))
  | PyCall (PyPushRows a b d), SinkByChunk =>
      (Ok tt, PyObject (po_properties o) (po_columns o) (po_rows o)
                (po_frames o ++ [frame_of_dict (po_columns o) d]) (po_df o))
  | PyCall (PySetData d), SinkWholeData =>
      (Ok tt, PyObject (po_properties o) (po_columns o) (po_rows o) (po_frames o)
                (Some (frame_of_dict (po_columns o) d)))
  | _, _ => (Exn E_attribute_error, o)
  end.

(** The attributes of the classes, sink.py:8-66. *)
Definition py_has (cls : py_class) (name : bytes) : bool :=
  in_set name
    match cls with
    | SinkByRow => [bs "set_properties"; bs "push_row"; bs "df"]
    | SinkByChunk => [bs "set_properties"; bs "chunk_size"; bs "push_rows"; bs "df"]
    | SinkWholeData => [bs "set_properties"; bs "set_data"; bs "df"]
    end.

(** The C++ sink of an object of the class, reader.cpp:58-75. *)
Definition kind_sink (k : sink_kind) {P} (o : pyobj P) : sink (pyst P) :=
  match k with
  | RowSink => row_sink o
  | ChunkSink => chunk_sink o
  | DataSink => data_sink o
  end.

Definition class_sink (cls : py_class) : sink (pyst py_object) := fun ev st =>
  match select_sink (py_has cls) with
  | Ok k => kind_sink k (py_methods cls) ev st
  | Exn e => (Exn e, st)
  | Abort => (Abort, st)
  | Undef u => (Undef u, st)
  | Fuel => (Fuel, st)
  end.

(** ** A Python program *)

(** Back in the interpreter (after a method of reader.cpp:92-104): a call which returns with the
    error indicator set
    raises SystemError; a call which raises replaces the pending error. *)
Definition settle {A P} (x : res A) (st : pyst P) : res A * pyst P :=
  let st' := PySt (pt_cpp st) false (pt_c st) (pt_obj st) in
  match x with
  | Ok _ => if pt_err st then (Exn E_system_error, st') else (x, st)
  | Exn _ => (x, st')
  | _ => (x, st)
  end.

(** The program holds a Reader (until it drops it) and a sink object, as read_sas.py:9-13. *)
Record program (S : Type) : Type := Program {
  pg_reader : option (rstate S);
  pg_st : pyst py_object
}.
Arguments Program {S} _ _.
Arguments pg_reader {S} _.
Arguments pg_st {S} _.

(** Reader(filename, sink, include, exclude): reader.cpp:21-23, 52-84.  When the
    constructor throws, the C++ sink is destroyed. *)
Definition py_open {S} (c : cfg) (src : source S) (cls : py_class) (chunk_size : N)
    (flt : column -> bool) (s : S) : res unit * program S :=
  let st0 := PySt false false
               (pychunk_new match cls with SinkByChunk => chunk_size | _ => 0 end) py_new in
  let '(x, st, _) := drive_open c src (class_sink cls) (Some flt) s st0 in
  let '(y, st') := settle x st in
  (rmap (fun _ => tt) y, Program (match y with Ok r => Some r | _ => None end) st').

(** A method of Reader (reader.cpp:97-105: read_all, read_row, read_rows, skip,
    end_of_data). *)
Definition py_do {S} (c : cfg) (src : source S) (cls : py_class) (o : op) (p : program S)
  : res out * program S :=
  match pg_reader p with
  | None => (Exn E_name_error, p)
  | Some r =>
      let '(x, r', st, _) := drive_step c src (class_sink cls) o r (pg_st p) in
      let '(y, st') := settle x st in (y, Program (Some r') st')
  end.

(** sink.py:18-19 _cpp_flush_sink and sink.hpp:57-60 flush_sink: _cpp refers to the C++
    sink inside the Reader (sink.hpp:42), which the attribute does not keep alive. *)
Definition py_flush_sink {S} (cls : py_class) (p : program S) : res unit * program S :=
  if pt_cpp (pg_st p) then
    match pg_reader p with
    | None => (Undef UB_lifetime, p)
    | Some r =>
        let '(x, st) := class_sink cls EvEnd (pg_st p) in
        let '(y, st') := settle x st in (y, Program (Some r) st')
    end
  else (Ok tt, p).

Definition with_df {S} (f : frame) (p : program S) : program S :=
  let st := pg_st p in
  let o := pt_obj st in
  Program (pg_reader p)
    (PySt (pt_cpp st) (pt_err st) (pt_c st)
       (PyObject (po_properties o) (po_columns o) (po_rows o) (po_frames o) (Some f))).

(** The property df: sink.py:31-36, 50-55, 64-68. *)
Definition py_df {S} (cls : py_class) (p : program S) : res (option frame) * program S :=
  match po_df (pt_obj (pg_st p)) with
  | Some f => (Ok (Some f), p)
  | None =>
      let '(x, p1) := py_flush_sink cls p in
      match x with
      | Ok tt =>
          let o := pt_obj (pg_st p1) in
          match cls with
          | SinkWholeData => (Ok (po_df o), p1)
          | SinkByChunk =>
              match concat_frames (po_frames o) with
              | Ok f => (Ok (Some f), with_df f p1)
              | Exn e => (Exn e, p1)
              | Abort => (Abort, p1)
              | Undef u => (Undef u, p1)
              | Fuel => (Fuel, p1)
              end
          | SinkByRow =>
              match frame_of_records (po_columns o) (po_rows o) with
              | Ok f => (Ok (Some f), with_df f p1)
              | Exn e => (Exn e, p1)
              | Abort => (Abort, p1)
              | Undef u => (Undef u, p1)
              | Fuel => (Fuel, p1)
              end
          end
      | Exn e => (Exn e, p1)
      | Abort => (Abort, p1)
      | Undef u => (Undef u, p1)
      | Fuel => (Fuel, p1)
      end
  end.

(** del reader (read_sas.py:13, the end of the variable): the Reader and the C++ sink in it are
    destroyed; the attribute _cpp of
    the sink object stays. *)
Definition py_drop {S} (p : program S) : program S := Program None (pg_st p).

(** read_sas.py:9-13: the Reader is a local variable. *)
Definition read_sas {S} (c : cfg) (src : source S) (cls : py_class) (chunk_size : N)
    (include exclude : option (list bytes)) (s : S) : res unit * program S :=
  let '(x, p) := py_open c src cls chunk_size (py_filter include exclude) s in
  match x with
  | Ok tt =>
      let '(y, p') := py_do c src cls OpReadAll p in
      (rmap (fun _ => tt) y, py_drop p')
  | _ => (x, p)
  end.
