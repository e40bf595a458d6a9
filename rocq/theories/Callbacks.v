(** The Python, R and print sinks when a callback fails or a row cannot be printed:
    what they keep, as sinks of [Drive.v].  The same sinks with callbacks which return
    are modelled in [Sinks.v]. *)
From Verif Require Import Base Types Float DateTime Header Column Metadata Reader Drive Sinks Print Utf8 PyObjects.
Local Open Scope N_scope.

(** ** python/pycppsas7bdat/cpp/sink.hpp *)

(** Methods of the Python object called by the C++ sinks: set_properties (52-54) and
    those of [pycall].  A Python object is a state [P] and the effect of its methods;
    a Python exception arrives in C++ as error_already_set and is thrown through the
    reader. *)
Inductive pyreq : Type :=
| PyProps (h : header) (md : metadata)
| PyCall (k : pycall).

Definition pyobj (P : Type) : Type := pyreq -> P -> res unit * P.

(** The Python side of a sink: has the object the attribute _cpp, is the error
    indicator of the interpreter set, the members of the C++ sink
    (python/pycppsas7bdat/cpp/sink.hpp:129-139, 180-185, 391), the object (76-77). *)
Record pyst (P : Type) : Type := PySt {
  pt_cpp : bool;
  pt_err : bool;
  pt_c : pychunk;
  pt_obj : P
}.
Arguments PySt {P} _ _ _ _.
Arguments pt_cpp {P} _.
Arguments pt_err {P} _.
Arguments pt_c {P} _.
Arguments pt_obj {P} _.

(** call_method (52, 116, 374, 411): the interpreter must not be entered while the
    error indicator is set. *)
Definition py_method {P} (o : pyobj P) (q : pyreq) (st : pyst P) : res unit * pyst P :=
  if pt_err st then (Undef UB_api, st)
  else let '(y, p) := o q (pt_obj st) in
       (y, PySt (pt_cpp st) (pt_err st) (pt_c st) p).

(** 40-45 set_cpp_attr, 47 del_cpp_attr: PyObject_DelAttrString of an attribute which
    is not there sets the error indicator; its result is not looked at. *)
Definition set_cpp {P} (st : pyst P) : pyst P :=
  PySt true (pt_err st) (pt_c st) (pt_obj st).
Definition del_cpp {P} (st : pyst P) : pyst P :=
  PySt false (pt_err st || negb (pt_cpp st)) (pt_c st) (pt_obj st).

Definition with_chunk {P} (c : pychunk) (st : pyst P) : pyst P :=
  PySt (pt_cpp st) (pt_err st) c (pt_obj st).

(** 326-368 set_dict_values: for each column the list of its values, converted one by
    one, then its name as a str object, which raises UnicodeDecodeError
    (error_already_set, thrown) for a name which is not UTF-8. *)
Definition E_unicode_error : exn := E_client 6.
Definition named_in_utf8 (cs : list column) : bool := forallb (fun c => utf8_ok (c_name c)) cs.
Fixpoint dict_ready (cs : list column) (vals : list (list value)) : res unit :=
  match cs, vals with
  | c :: cs', v :: vals' =>
      _ <- mapM to_py v ;;
      if utf8_ok (c_name c) then dict_ready cs' vals' else Exn E_unicode_error
  | _, _ => Ok tt
  end.

(** sink.hpp:372-374, 410-412: set_dict_values, then call_method.  Simplification: the dict is
    built even with an
    error pending. *)
Definition dict_method {P} (o : pyobj P) (q : pyreq) (st : pyst P) : res unit * pyst P :=
  if pt_err st then (Undef UB_api, st)
  else match dict_ready (py_cols (pt_c st)) (py_vals (pt_c st)) with
       | Ok tt => py_method o q st
       | other => (other, st)
       end.

(** 370-377 SinkChunk::flush: the values are cleared when push_rows has returned. *)
Definition cb_flush {P} (o : pyobj P) (st : pyst P) : res unit * pyst P :=
  let s := pt_c st in
  if py_idata s =? 0 then (Ok tt, st)
  else
    match dict_method o (PyCall (PyPushRows (py_istart s) (py_iend s)
                                 (py_dict (py_cols s) (py_vals s) []))) st with
    | (Ok tt, st1) => (Ok tt, with_chunk (py_clear s) st1)
    | other => other
    end.

(** 394-416 SinkData: set_data instead of push_rows, at the end only. *)
Definition cb_set_data {P} (o : pyobj P) (st : pyst P) : res unit * pyst P :=
  let s := pt_c st in
  if py_idata s =? 0 then (Ok tt, st)
  else
    match dict_method o (PyCall (PySetData (py_dict (py_cols s) (py_vals s) []))) st with
    | (Ok tt, st1) => (Ok tt, with_chunk (py_clear s) st1)
    | other => other
    end.

(** 230-269 SinkChunk::push_row.  The getters are noexcept: when one fails the process
    is gone, and the values already pushed are not represented. *)
Definition cb_push {P} (flush : pyst P -> res unit * pyst P) (i : N) (p : pview)
    (st : pyst P) : res unit * pyst P :=
  let s := pt_c st in
  match mapM (fun c => group_value c p) (py_cols s) with
  | Ok vs =>
      let s' := PyChunk (py_size s) (py_idata s +! 1) (py_istart s) i (py_cols s)
                  (append_values (py_vals s) vs) in
      let st' := with_chunk s' st in
      if py_idata s' =? py_size s' then flush st' else (Ok tt, st')
  | Exn e => (Exn e, st)
  | Abort => (Abort, st)
  | Undef u => (Undef u, st)
  | Fuel => (Fuel, st)
  end.

(** 49-55 SinkBase::set_properties: _cpp first, then the method; what the derived
    class does comes after it and is not done when it throws. *)
Definition cb_props {P} (o : pyobj P) (h : header) (md : metadata)
    (prepare : pychunk -> pychunk) (st : pyst P) : res unit * pyst P :=
  match py_method o (PyProps h md) (set_cpp st) with
  | (Ok tt, st1) => (Ok tt, with_chunk (prepare (pt_c st1)) st1)
  | other => other
  end.

(** python sink.hpp:207-275, 370-388 SinkChunk. *)
Definition chunk_sink {P} (o : pyobj P) : sink (pyst P) := fun ev st =>
  match ev with
  | EvProps h md => cb_props o h md (fun s => pychunk_props s (md_columns md)) st
  | EvRow i p => cb_push (cb_flush o) i p st
  | EvEnd => cb_flush o (del_cpp st)
  end.

(** SinkData: the size is set before SinkChunk::set_properties (398-401). *)
Definition data_sink {P} (o : pyobj P) : sink (pyst P) := fun ev st =>
  match ev with
  | EvProps h md =>
      let s := pt_c st in
      cb_props o h md (fun s => pychunk_props s (md_columns md))
        (with_chunk (PyChunk (md_row_count md) (py_idata s) (py_istart s) (py_iend s)
                       (py_cols s) (py_vals s)) st)
  | EvRow i p => cb_push (fun st => (Ok tt, st)) i p st
  | EvEnd => cb_set_data o (del_cpp st)
  end.

(** 95-114: a value and its conversion. *)
Definition row_cell (c : column) (p : pview) : res (option value) :=
  x <- column_value c p ;;
  match x with
  | Some v => _ <- to_py v ;; Ok (Some v)
  | None => Ok None
  end.

(** Sink (80-127); of the members only the columns are used. *)
Definition row_sink {P} (o : pyobj P) : sink (pyst P) := fun ev st =>
  match ev with
  | EvProps h md =>
      cb_props o h md
        (fun s => PyChunk (py_size s) (py_idata s) (py_istart s) (py_iend s)
                    (md_columns md) (py_vals s)) st
  | EvRow i p =>
      match mapM (fun c => row_cell c p) (py_cols (pt_c st)) with
      | Ok vs => py_method o (PyCall (PyPushRow i (somes vs))) st
      | Exn e => (Exn e, st)
      | Abort => (Abort, st)
      | Undef u => (Undef u, st)
      | Fuel => (Fuel, st)
      end
  | EvEnd => (Ok tt, del_cpp st)
  end.

(** ** R/CPPSAS7BDAT/src/wrap_properties.hpp, sink*.hpp *)

(** An R value, as far as the properties need it; a number has the 64 bits of a double. *)
Inductive rv : Type :=
| RvNull
| RvText (t : bytes)
| RvNum (bits : N)
| RvList (l : list (bytes * rv)).

(** wrap (R/CPPSAS7BDAT/src/wrap_properties.hpp:32-36): of a std::string, of a size_t (an R
    numeric). *)
Definition wrap_text (t : bytes) : rv := RvText (r_text t).
Definition wrap_size (n : N) : rv := RvNum (bits_of_sf (sf_of_Z (Z.of_N n))).

(** wrap_properties.hpp:56-71 the columns, 73-107 the list. *)
Definition wrap_column (c : column) : bytes * rv :=
  (r_name c, RvList [(bs "name", wrap_text (c_name c)); (bs "label", wrap_text (c_label c));
                     (bs "format", wrap_text (c_format c)); (bs "type", wrap_text (type_word (c_type c)))]).

Definition wrap_properties (h : header) (md : metadata) : res rv :=
  created <- datetime_to_string (h_date_created h) ;;
  modified <- datetime_to_string (h_date_modified h) ;;
  Ok (RvList
    [(bs "endianness", wrap_text (endian_word (h_endianness h)));
     (bs "platform", wrap_text (platform_word (h_platform h)));
     (bs "date_created", wrap_text created);
     (bs "date_modified", wrap_text modified);
     (bs "dataset_name", wrap_text (h_dataset_name h));
     (bs "encoding", wrap_text (h_encoding h));
     (bs "file_type", wrap_text (h_file_type h));
     (bs "sas_release", wrap_text (h_sas_release h));
     (bs "sas_server_type", wrap_text (h_sas_server_type h));
     (bs "os_type", wrap_text (h_os_type h));
     (bs "os_name", wrap_text (h_os_name h));
     (bs "header_length", wrap_size (h_header_length h));
     (bs "page_length", wrap_size (h_page_length h));
     (bs "page_count", wrap_size (h_page_count h));
     (bs "compression", wrap_text (compression_word (md_compression md)));
     (bs "creator", wrap_text (md_creator md));
     (bs "creator_proc", wrap_text (md_creator_proc md));
     (bs "row_length", wrap_size (md_row_length md));
     (bs "row_count", wrap_size (md_row_count md));
     (bs "column_count", wrap_size (md_column_count md));
     (bs "col_count_p1", wrap_size (md_col_count_p1 md));
     (bs "col_count_p2", wrap_size (md_col_count_p2 md));
     (bs "mix_page_row_count", wrap_size (md_mix_page_row_count md));
     (bs "lcs", wrap_size (md_lcs md));
     (bs "lcp", wrap_size (md_lcp md));
     (bs "columns", RvList (map wrap_column (md_columns md)))]).

(** The functions of the R object called by the C++ sinks: set_properties
    (sink_base.hpp:22-26), push_rows and set_data (sink_chunk.hpp:42, sink_data.hpp:26)
    and push_row (sink.hpp:87).  R sees the vectors and the list row of the sink
    themselves: the request has the heap, and for the list rows its names
    (sink_by_columns.hpp:188-203).  An R error arrives in C++ as an exception. *)
Inductive rreq : Type :=
| RqProps (p : rv)
| RqRows (hp : rheap) (names : list bytes) (k : rcall)
| RqRow (hp : rheap) (i : N) (row : nat).

Definition robj (P : Type) : Type := rreq -> P -> res unit * P.

(** sink_base.hpp:22-26 SinkBase::set_properties, and what the derived class does after
    it (sink.hpp:18-23, sink_by_columns.hpp:59-66).  When it fails there is no Reader and the sink is gone. *)
Definition rcb_props {P} (o : robj P) (h : header) (md : metadata) (st st' : rstate_sink) (a : P)
  : res unit * (rstate_sink * P) :=
  match wrap_properties h md with
  | Ok p =>
      match o (RqProps p) a with
      | (Ok tt, a') => (Ok tt, (st', a'))
      | (y, a') => (y, (st, a'))
      end
  | Exn e => (Exn e, (st, a))
  | Abort => (Abort, (st, a))
  | Undef u => (Undef u, (st, a))
  | Fuel => (Fuel, (st, a))
  end.

(** sink_chunk.hpp:38-45 flush: idata and istartrow are set when push_rows has
    returned. *)
Definition rcb_flush {P} (o : robj P) (st : rstate_sink) (p : P)
  : res unit * rstate_sink * P :=
  if (r_iend st <? r_istart st) || (r_idata st =? 0) then (Ok tt, st, p)
  else
    let '(st1, call) := r_deliver st in
    let '(y, p') := o (RqRows (r_heap st1) (map r_name (r_cols st1)) call) p in
    match y with
    | Ok tt =>
        (Ok tt, r_with st1 0 (r_iend st1 +! 1) (r_iend st1) (r_index st1) (r_heap st1), p')
    | _ => (y, st1, p')
    end.

(** sink_chunk.hpp:22-34 push_row.  Simplification: when a datetime has no text, the
    elements of the row stored before it stay; the next row is stored over them. *)
Definition rcb_push {P} (o : robj P) (i : N) (p : pview) (st : rstate_sink) (a : P)
  : res unit * rstate_sink * P :=
  match r_base_push st i p with
  | Ok st1 =>
      let st2 := r_with st1 (r_idata st1) (r_istart st1) i (r_index st1) (r_heap st1) in
      if r_idata st2 =? r_size st2 then
        match rcb_flush o st2 a with
        | (Ok tt, st3, a') =>
            if (r_ilast st3 <? r_istart st3 +! r_size st3) && (r_istart st3 <? r_ilast st3)
            then (Ok tt, r_prepare st3 (r_ilast st3 -! r_istart st3), a')
            else (Ok tt, st3, a')
        | other => other
        end
      else (Ok tt, st2, a)
  | Exn e => (Exn e, st, a)
  | Abort => (Abort, st, a)
  | Undef u => (Undef u, st, a)
  | Fuel => (Fuel, st, a)
  end.

(** R sink_chunk.hpp:22-45 SinkChunk. *)
Definition rchunk_sink {P} (o : robj P) : sink (rstate_sink * P) := fun ev sa =>
  let '(st, a) := sa in
  match ev with
  | EvProps h md => rcb_props o h md st (r_props st md) a
  | EvRow i p => let '(y, st', a') := rcb_push o i p st a in (y, (st', a'))
  | EvEnd => let '(y, st', a') := rcb_flush o st a in (y, (st', a'))
  end.

(** sink_data.hpp:16-30 SinkData: idata keeps its value. *)
Definition rdata_sink {P} (o : robj P) : sink (rstate_sink * P) := fun ev sa =>
  let '(st, a) := sa in
  match ev with
  | EvProps h md => rcb_props o h md st (r_props st md) a
  | EvRow i p =>
      match r_base_push st i p with
      | Ok st' => (Ok tt, (st', a))
      | Exn e => (Exn e, (st, a))
      | Abort => (Abort, (st, a))
      | Undef u => (Undef u, (st, a))
      | Fuel => (Fuel, (st, a))
      end
  | EvEnd =>
      if r_idata st =? 0 then (Ok tt, (st, a))
      else let '(st1, call) := r_deliver st in
           let '(y, a') := o (RqRows (r_heap st1) (map r_name (r_cols st1)) call) a in (y, (st1, a'))
  end.

(** sink.hpp:26-60 process_value: a number which is not one is NA, a missing datetime,
    date or time NULL ([None]). *)
Definition r_row_cell (v : value) : res (option rval) :=
  match v with
  | VString s => Ok (Some (RText (r_text s)))
  | VInteger z => Ok (Some (RInt z))
  | VNumber b => Ok (Some (if sf_isnan (sf_of_bits b) then RNa else RReal b))
  | VDateTime NotADateTime | VDate NotADate | VTime NotATime => Ok None
  | VDateTime t => x <- datetime_to_string t ;; Ok (Some (RText x))
  | VDate d => x <- date_to_string d ;; Ok (Some (RText x))
  | VTime t => x <- time_to_string t ;; Ok (Some (RText x))
  end.

(** sink.hpp:62-87: the elements of the list row are set one after the other; a column of
    type unknown leaves its element. *)
Fixpoint r_row_cells (cs : list column) (p : pview) (row : list (option rval))
  : res (list (option rval)) :=
  match cs, row with
  | c :: cs', x :: row' =>
      v <- column_value c p ;;
      y <- match v with Some v' => r_row_cell v' | None => Ok x end ;;
      rest <- r_row_cells cs' p row' ;; Ok (y :: rest)
  | _, _ => Ok row
  end.

(** sink.hpp:14-107 Sink: push_row of the object is given the list row itself, which is
    made by set_properties (94-102) and holds NULL at first.  Of the members of the state
    the columns and row (as [r_index]) are used.  Simplification:
    when a datetime has no text the elements set before it stay; the next row is set over
    them. *)
Definition rrow_sink {P} (o : robj P) : sink (rstate_sink * P) := fun ev sa =>
  let '(st, a) := sa in
  match ev with
  | EvProps h md =>
      let '(ix, hp) := r_alloc (r_heap st) (lenN (md_columns md)) in
      rcb_props o h md st
        (RSink (r_size st) (r_idata st) (r_ilast st) (r_istart st) (r_iend st)
           (md_columns md) ix (r_vecs st) hp) a
  | EvRow i p =>
      match r_row_cells (r_cols st) p (nth (r_index st) (r_heap st) []) with
      | Ok cells =>
          let st' := r_with st (r_idata st) (r_istart st) (r_iend st) (r_index st)
                       (upd (r_index st) cells (r_heap st)) in
          let '(y, a') := o (RqRow (r_heap st') i (r_index st')) a in (y, (st', a'))
      | Exn e => (Exn e, (st, a))
      | Abort => (Abort, (st, a))
      | Undef u => (Undef u, (st, a))
      | Fuel => (Fuel, (st, a))
      end
  | EvEnd => (Ok tt, (st, a))
  end.

(** ** include/cppsas7bdat/sink/print.hpp *)

(** 75-81 push_row: each part is written as it is made; what is written stays written
    when the text of a column cannot be made. *)
Fixpoint print_cells (cs : list column) (p : pview) (out : bytes) : res unit * bytes :=
  match cs with
  | [] => (Ok tt, out ++ newline)
  | c :: r =>
      match c_to_string c p with
      | Ok t => print_cells r p (out ++ comma ++ t)
      | Exn e => (Exn e, out)
      | Abort => (Abort, out)
      | Undef u => (Undef u, out)
      | Fuel => (Fuel, out)
      end
  end.

(** 64-73 set_properties: likewise for the names. *)
Fixpoint print_names (cs : list column) (out : bytes) : res unit * bytes :=
  match cs with
  | [] => (Ok tt, out ++ newline)
  | c :: r =>
      match fmt_noargs (c_name c) with
      | Ok t => print_names r (out ++ comma ++ t)
      | Exn e => (Exn e, out ++ comma)
      | Abort => (Abort, out ++ comma)
      | Undef u => (Undef u, out ++ comma)
      | Fuel => (Fuel, out ++ comma)
      end
  end.

(** include/cppsas7bdat/sink/print.hpp:64-83: its columns and the text written.  fmt::print formats
    into a
    buffer before it writes, so a name which is not a valid format writes nothing. *)
Definition print_sink (props : header -> metadata -> bytes)
  : sink (list column * bytes) := fun ev st =>
  let '(cs, out) := st in
  match ev with
  | EvProps h md =>
      let '(y, out') := print_names (md_columns md) (out ++ props h md ++ bs "#") in
      (y, (md_columns md, out'))
  | EvRow i p =>
      let '(y, out') := print_cells cs p (out ++ dec i) in (y, (cs, out'))
  | EvEnd => (Ok tt, (cs, out))
  end.
