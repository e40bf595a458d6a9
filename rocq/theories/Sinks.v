(** Models of the sinks: [include/cppsas7bdat/sink/csv.hpp], [.../print.hpp],
    [.../null.hpp], [python/pycppsas7bdat/cpp/sink.hpp] and
    [R/CPPSAS7BDAT/src/sink*.hpp].  A sink is a state machine driven by the
    events of the reader. *)
From Verif Require Import Base Types Float DateTime Header Column Metadata Reader.
Local Open Scope N_scope.

(** A value read from a column, include/cppsas7bdat/column.hpp:94-101. *)
Inductive value : Type :=
| VString (s : bytes)
| VInteger (z : Z)
| VNumber (bits : N)
| VDateTime (t : ptime)
| VDate (d : gdate)
| VTime (t : tduration).

(** The switch on column.type which every sink writes out: csv.hpp:48-67,
    null.hpp:30-49, python sink.hpp:95-114, R sink.hpp:66-85.  A column of type
    unknown takes no branch. *)
Definition column_value (c : column) (p : pview) : res (option value) :=
  match c_type c with
  | TString => x <- c_get_string c p ;; Ok (Some (VString x))
  | TInteger => x <- c_get_integer c p ;; Ok (Some (VInteger x))
  | TNumber => x <- c_get_number c p ;; Ok (Some (VNumber x))
  | TDateTime => x <- c_get_datetime c p ;; Ok (Some (VDateTime x))
  | TDate => x <- c_get_date c p ;; Ok (Some (VDate x))
  | TTime => x <- c_get_time c p ;; Ok (Some (VTime x))
  | TUnknown => Ok None
  end.

(** Evaluation of one action per element, from left to right, the first failure
    stops (the loops of csv.hpp:31-37, 43-68). *)
Fixpoint mapM {A B} (f : A -> res B) (l : list A) : res (list B) :=
  match l with
  | [] => Ok []
  | a :: r => b <- f a ;; bs' <- mapM f r ;; Ok (b :: bs')
  end.

(** Text pieces written with a separator between them (csv.hpp:30-37, 42-47). *)
Fixpoint join (sep : bytes) (l : list bytes) : bytes :=
  match l with
  | [] => []
  | [x] => x
  | x :: r => x ++ sep ++ join sep r
  end.

Definition comma : bytes := [x2c].
Definition newline : bytes := [x0a].
Definition quote : bytes := [x22].

(** ** csv.hpp *)

(** The texts that fmt and Boost produce for "{}" of a double, a ptime, a date
    and a time_duration (csv.hpp:75-82): not modelled, given as parameters. *)
Record csv_fmt : Type := CsvFmt {
  cf_number : N -> bytes;
  cf_datetime : ptime -> bytes;
  cf_date : gdate -> bytes;
  cf_time : tduration -> bytes
}.

(** csv.hpp:74-82 print. *)
Definition csv_quoted (s : bytes) : bytes := quote ++ s ++ quote.

Definition csv_field (f : csv_fmt) (v : option value) : bytes :=
  match v with
  | None => []
  | Some (VString s) => csv_quoted s
  | Some (VNumber b) => if sf_isnan (sf_of_bits b) then [] else cf_number f b
  | Some (VInteger z) => dec_Z z
  | Some (VDateTime t) => cf_datetime f t
  | Some (VDate d) => cf_date f d
  | Some (VTime t) => cf_time f t
  end.

(** csv.hpp:28-39 set_properties. *)
Definition csv_header (cs : list column) : bytes :=
  join comma (map (fun c => csv_quoted (c_name c)) cs) ++ newline.

(** csv.hpp:41-70 push_row.  Simplification: when a getter terminates the
    process the part of the line already written is not represented. *)
Definition csv_row (f : csv_fmt) (cs : list column) (p : pview) : res bytes :=
  vs <- mapM (fun c => column_value c p) cs ;;
  Ok (join comma (map (csv_field f) vs) ++ newline).

(** The csv sink, csv.hpp:21-83: its columns, and the text it has written. *)
Definition csv_step (f : csv_fmt) (st : list column * bytes) (ev : event)
  : res (list column * bytes) :=
  let '(cs, out) := st in
  match ev with
  | EvProps h md => Ok (md_columns md, out ++ csv_header (md_columns md))
  | EvRow i p => line <- csv_row f cs p ;; Ok (cs, out ++ line)
  | EvEnd => Ok (cs, out)
  end.

(** A sink receiving the events one after the other (include/cppsas7bdat/reader.hpp:56-64). *)
Fixpoint feed {A} (step : A -> event -> res A) (a : A) (evs : list event) : res A :=
  match evs with
  | [] => Ok a
  | ev :: r => a' <- step a ev ;; feed step a' r
  end.

Definition csv_run (f : csv_fmt) (evs : list event) : res bytes :=
  r <- feed (csv_step f) ([], []) evs ;; Ok (snd r).

(** *** csv_ofstream: csv.hpp:85-94, the sink made from a file name.

    The object owns an ofstream [ofs] and its base class csv holds the reference
    [os], bound to [ofs] of the object under construction (csv.hpp:92-93).  The
    class has the implicit move constructor: [ofs] is moved into the new object
    and the reference [os] is copied, so it still designates the [ofs] of the
    object moved from.  [DatasetSinkModel] (include/cppsas7bdat/reader.hpp:51-69)
    moves the sink given to the Reader into itself. *)
Record ofobj : Type := OfObj {
  of_alive : bool;          (* the object exists *)
  of_file : bool;           (* its ofs is associated with the file *)
}.

(** A csv_ofstream, csv.hpp:22, 85-94: its own identity and the identity [os] refers to. *)
Record csv_of : Type := CsvOf { co_self : nat; co_os : nat }.

(** The objects (by identity) and the content of the named file (csv.hpp:86-88); [upd] is the
    assignment to an element. *)
Record of_world : Type := OfWorld { ow_objs : list ofobj; ow_file : bytes }.

Fixpoint upd {A} (n : nat) (a : A) (l : list A) : list A :=
  match l, n with
  | [], _ => []
  | _ :: r, O => a :: r
  | x :: r, S n' => x :: upd n' a r
  end.

(** csv.hpp:85-93: constructor from a file name; opening truncates the file. *)
Definition csv_of_new (w : of_world) : csv_of * of_world :=
  let n := length (ow_objs w) in
  (CsvOf n n, OfWorld (ow_objs w ++ [OfObj true true]) []).

(** The implicit move constructor of csv.hpp:91-94. *)
Definition csv_of_move (x : csv_of) (w : of_world) : csv_of * of_world :=
  let n := length (ow_objs w) in
  (CsvOf n (co_os x),
   OfWorld (upd (co_self x) (OfObj true false) (ow_objs w) ++ [OfObj true true])
     (ow_file w)).

(** The destructor of csv.hpp:91-94. *)
Definition csv_of_destroy (x : csv_of) (w : of_world) : of_world :=
  OfWorld (upd (co_self x) (OfObj false false) (ow_objs w)) (ow_file w).

(** fmt::print(os, ...), csv.hpp:35-82: a stream without a file sets badbit and writes nothing;
    a stream whose object is gone is undefined behaviour. *)
Definition csv_of_print (x : csv_of) (text : bytes) (w : of_world) : res of_world :=
  match nth_error (ow_objs w) (co_os x) with
  | Some (OfObj true true) => Ok (OfWorld (ow_objs w) (ow_file w ++ text))
  | Some (OfObj true false) => Ok w
  | _ => Undef UB_lifetime
  end.

(** Reader(source, csv(filename)): the temporary sink is moved into the Reader,
    which calls set_properties (src/reader-impl.hpp:23-26) while the temporary
    still exists; then the temporary is destroyed and the rows are pushed. *)
Definition csv_file_sink (f : csv_fmt) (h : header) (md : metadata)
    (rows : list (N * pview)) (w : of_world) : res of_world :=
  let '(tmp, w1) := csv_of_new w in
  let '(obj, w2) := csv_of_move tmp w1 in
  w3 <- csv_of_print obj (csv_header (md_columns md)) w2 ;;
  let w4 := csv_of_destroy tmp w3 in
  (fix go rows w :=
     match rows with
     | [] => Ok w
     | (_, p) :: rest =>
         line <- csv_row f (md_columns md) p ;;
         w' <- csv_of_print obj line w ;; go rest w'
     end) rows w4.

(** ** print.hpp *)

(** fmt::print(os, name) with the column name as format string and no argument
    (print.hpp:70): "{{" and "}}" are
    escapes, any other brace is an error (fmt 8.0.1 parse_format_string). *)
Fixpoint fmt_noargs (s : bytes) : res bytes :=
  match s with
  | [] => Ok []
  | a :: r =>
      if beq a x7b then
        match r with
        | b :: r' => if beq b x7b then t <- fmt_noargs r' ;; Ok (x7b :: t)
                     else Exn E_format_error
        | [] => Exn E_format_error
        end
      else if beq a x7d then
        match r with
        | b :: r' => if beq b x7d then t <- fmt_noargs r' ;; Ok (x7d :: t)
                     else Exn E_format_error
        | [] => Exn E_format_error
        end
      else t <- fmt_noargs r ;; Ok (a :: t)
  end.

(** print.hpp:64-73 set_properties, after print_properties (25-62), whose text
    [props] is a parameter. *)
Definition print_header (props : header -> metadata -> bytes) (h : header)
    (md : metadata) : res bytes :=
  names <- mapM (fun c => t <- fmt_noargs (c_name c) ;; Ok (comma ++ t))
             (md_columns md) ;;
  Ok (props h md ++ bs "#" ++ concat names ++ newline).

(** print.hpp:75-81 push_row. *)
Definition print_row (cs : list column) (i : N) (p : pview) : res bytes :=
  ts <- mapM (fun c => t <- c_to_string c p ;; Ok (comma ++ t)) cs ;;
  Ok (dec i ++ concat ts ++ newline).

Definition print_step (props : header -> metadata -> bytes)
    (st : list column * bytes) (ev : event) : res (list column * bytes) :=
  let '(cs, out) := st in
  match ev with
  | EvProps h md =>
      t <- print_header props h md ;; Ok (md_columns md, out ++ t)
  | EvRow i p => line <- print_row cs i p ;; Ok (cs, out ++ line)
  | EvEnd => Ok (cs, out)
  end.

Definition print_run (props : header -> metadata -> bytes) (evs : list event)
  : res bytes :=
  r <- feed (print_step props) ([], []) evs ;; Ok (snd r).

(** ** null.hpp:16-52: the getters are called, nothing is kept. *)
Definition null_step (cs : list column) (ev : event) : res (list column) :=
  match ev with
  | EvProps h md => Ok (md_columns md)
  | EvRow i p => _ <- mapM (fun c => column_value c p) cs ;; Ok cs
  | EvEnd => Ok cs
  end.

(** ** Column groups of the chunk sinks *)

(** The order in which python sink.hpp:232-264 and R sink_by_columns.hpp:122-151
    visit the columns. *)
Definition grouped (cs : list column) : list column :=
  let g := columns_of cs in
  cs_numbers g ++ cs_integers g ++ cs_datetimes g ++ cs_dates g ++ cs_times g
  ++ cs_strings g.

(** The value of a column which belongs to a group, sink.hpp:232-264. *)
Definition group_value (c : column) (p : pview) : res value :=
  x <- column_value c p ;;
  match x with Some v => Ok v | None => Undef UB_index end.

(** ** python/pycppsas7bdat/cpp/sink.hpp *)

(** A Python dict filled by assignments (sink.hpp:331-333): an assignment to a present key replaces
    its value in place. *)
Fixpoint dict_set {V} (d : list (bytes * V)) (k : bytes) (v : V)
  : list (bytes * V) :=
  match d with
  | [] => [(k, v)]
  | (k', v') :: r => if bytes_eqb k' k then (k, v) :: r
                     else (k', v') :: dict_set r k v
  end.

(** Calls received by the Python object, sink.hpp:53-55, 117, 374, 412. *)
Inductive pycall : Type :=
| PyPushRows (istart iend : N) (d : list (bytes * list value))
| PySetData (d : list (bytes * list value))
| PyPushRow (irow : N) (l : list value).

(** sink.hpp:129-132, 180-185, 390-391: the members of SinkChunk.  The six
    groups of vectors are kept in one list, in the order of [grouped]. *)
Record pychunk : Type := PyChunk {
  py_size : N;
  py_idata : N;
  py_istart : N;
  py_iend : N;
  py_cols : list column;
  py_vals : list (list value)
}.

(** sink.hpp:187-188 (the constructor) and 129-132. *)
Definition pychunk_new (size : N) : pychunk := PyChunk size 0 0 0 [] [].

(** sink.hpp:207-218 set_properties. *)
Definition pychunk_props (st : pychunk) (cs : list column) : pychunk :=
  PyChunk (py_size st) (py_idata st) (py_istart st) (py_iend st) (grouped cs)
    (map (fun _ => []) (grouped cs)).

(** sink.hpp:220-228 push_values: one value appended to each vector. *)
Fixpoint append_values (vals : list (list value)) (new : list value)
  : list (list value) :=
  match vals, new with
  | v :: vals', x :: new' => (v ++ [x]) :: append_values vals' new'
  | _, _ => vals
  end.

(** sink.hpp:326-334 and 336-368: the dict.  Simplification: its keys are the bytes of the
    names, which are taken to be UTF-8; Callbacks.v has the other names. *)
Fixpoint py_dict (cs : list column) (vals : list (list value))
    (d : list (bytes * list value)) : list (bytes * list value) :=
  match cs, vals with
  | c :: cs', v :: vals' => py_dict cs' vals' (dict_set d (c_name c) v)
  | _, _ => d
  end.

(** sink.hpp:379-388 clear_values. *)
Definition py_clear (st : pychunk) : pychunk :=
  PyChunk (py_size st) 0 (py_iend st +! 1) (py_iend st) (py_cols st)
    (map (fun _ => []) (py_vals st)).

(** sink.hpp:370-377 SinkChunk::flush. *)
Definition py_flush (st : pychunk) : pychunk * list pycall :=
  if py_idata st =? 0 then (st, [])
  else (py_clear st,
        [PyPushRows (py_istart st) (py_iend st)
           (py_dict (py_cols st) (py_vals st) [])]).

(** sink.hpp:230-269 SinkChunk::push_row; [flush] is the virtual function. *)
Definition py_push_row (flush : pychunk -> pychunk * list pycall) (st : pychunk)
    (i : N) (p : pview) : res (pychunk * list pycall) :=
  vs <- mapM (fun c => group_value c p) (py_cols st) ;;
  let st' := PyChunk (py_size st) (py_idata st +! 1) (py_istart st) i (py_cols st)
               (append_values (py_vals st) vs) in
  if py_idata st' =? py_size st' then Ok (flush st') else Ok (st', []).

(** SinkChunk driven by events, sink.hpp:207-275; the calls made so far are the second
    component.  Simplification: the attribute _cpp is not modelled, and the
    Python callbacks return normally. *)
Definition pychunk_step (st : pychunk * list pycall) (ev : event)
  : res (pychunk * list pycall) :=
  let '(s, calls) := st in
  match ev with
  | EvProps h md => Ok (pychunk_props s (md_columns md), calls)
  | EvRow i p =>
      '(s', new) <- py_push_row py_flush s i p ;; Ok (s', calls ++ new)
  | EvEnd => let '(s', new) := py_flush s in Ok (s', calls ++ new)
  end.

(** sink.hpp:394-416 SinkData: size is the row count, flush does nothing and
    end_of_data delivers everything. *)
Definition pydata_step (st : pychunk * list pycall) (ev : event)
  : res (pychunk * list pycall) :=
  let '(s, calls) := st in
  match ev with
  | EvProps h md =>
      Ok (pychunk_props
            (PyChunk (md_row_count md) (py_idata s) (py_istart s) (py_iend s)
               (py_cols s) (py_vals s)) (md_columns md), calls)
  | EvRow i p =>
      '(s', new) <- py_push_row (fun x => (x, [])) s i p ;; Ok (s', calls ++ new)
  | EvEnd =>
      if py_idata s =? 0 then Ok (s, calls)
      else Ok (py_clear s,
               calls ++ [PySetData (py_dict (py_cols s) (py_vals s) [])])
  end.

(** sink.hpp:95-116 Sink::push_row: one list per row; a column of type unknown adds
    nothing to it.  The sink itself is [row_sink] in [Callbacks.v]. *)
Fixpoint somes {A} (l : list (option A)) : list A :=
  match l with
  | [] => []
  | Some a :: r => a :: somes r
  | None :: r => somes r
  end.

(** ** R/CPPSAS7BDAT/src/sink_by_columns.hpp, sink_chunk.hpp, sink_data.hpp *)

(** R vectors live in a heap and are designated by references: an Rcpp vector is
    a reference, assigning one to an element of an Rcpp::List stores the
    reference, and writing an element modifies the shared vector in place.
    [None] is the element a fresh vector holds.  Elements: of an integer, of a numeric
    (the 64 bits), of a character vector, and NA. *)
Inductive rval : Type := RNa | RInt (z : Z) | RReal (bits : N) | RText (t : bytes).
Definition rheap : Type := list (list (option rval)).

(** Conversion of a size_t to int (32 bits). *)
Definition int32 (z : Z) : Z := ((z + 2 ^ 31) mod 2 ^ 32 - 2 ^ 31)%Z.

(** Rcpp makes an R text of a std::string (R sink_by_columns.hpp:68-71, sink.hpp:26-28) with
    Rf_mkChar(s.c_str()): what is behind a NUL
    character is lost. *)
Fixpoint r_text (s : bytes) : bytes :=
  match s with
  | [] => []
  | b :: r => if Byte.eqb b x00 then [] else b :: r_text r
  end.

(** sink_by_columns.hpp:188-196: the name of a column. *)
Definition r_name (c : column) : bytes := r_text (c_name c).

(** sink_by_columns.hpp:68-105 push_value: what is stored for a value.  The texts of
    dates and times have no NUL. *)
Definition r_val (v : value) : res rval :=
  match v with
  | VString s => Ok (RText (r_text s))
  | VNumber b => Ok (RReal b)
  | VInteger z => Ok (RInt z)
  | VDateTime NotADateTime | VDate NotADate | VTime NotATime => Ok RNa
  | VDateTime t => x <- datetime_to_string t ;; Ok (RText x)
  | VDate d => x <- date_to_string d ;; Ok (RText x)
  | VTime t => x <- time_to_string t ;; Ok (RText x)
  end.

(** A chunk as R receives it (sink_chunk.hpp:42): the reference of row_index, the references held by
    the list [rows] at the time of the call, and what they contain then. *)
Record rcall : Type := RCall {
  rc_index : nat;
  rc_rows : list nat;
  rc_index_seen : list (option rval);
  rc_rows_seen : list (list (option rval))
}.

(** sink_by_columns.hpp:17-34, 205-207 and sink_chunk.hpp:17. *)
Record rstate_sink : Type := RSink {
  r_size : N;
  r_idata : N;
  r_ilast : N;
  r_istart : N;
  r_iend : N;
  r_cols : list column;
  r_index : nat;            (* row_index *)
  r_vecs : list nat;        (* col_numbers, ..., col_strings *)
  r_heap : rheap
}.

(** sink_by_columns.hpp:36-37. *)
Definition rsink_new (size : N) : rstate_sink := RSink size 0 0 0 0 [] 0 [] [[]].

(** A new vector of [n] elements, sink_by_columns.hpp:40-57. *)
Definition r_alloc (h : rheap) (n : N) : nat * rheap :=
  (length h, h ++ [repeat None (N.to_nat n)]).

Fixpoint r_allocs (h : rheap) (cs : list column) (n : N) : list nat * rheap :=
  match cs with
  | [] => ([], h)
  | _ :: r =>
      let '(v, h1) := r_alloc h n in
      let '(vs, h2) := r_allocs h1 r n in (v :: vs, h2)
  end.

(** sink_by_columns.hpp:48-57 prepare_values. *)
Definition r_prepare (st : rstate_sink) (n : N) : rstate_sink :=
  let '(ix, h1) := r_alloc (r_heap st) n in
  let '(vs, h2) := r_allocs h1 (r_cols st) n in
  RSink (r_size st) (r_idata st) (r_ilast st) (r_istart st) (r_iend st)
    (r_cols st) ix vs h2.

(** sink_by_columns.hpp:59-66 set_properties. *)
Definition r_props (st : rstate_sink) (md : metadata) : rstate_sink :=
  let last := md_row_count md in
  r_prepare
    (RSink (r_size st) (r_idata st) last (r_istart st) (r_iend st)
       (grouped (md_columns md)) (r_index st) (r_vecs st) (r_heap st))
    (if r_size st =? 0 then last else N.min (r_size st) last).

(** Writing element [i] of a vector (68-105 push_value, 120). *)
Definition r_store (h : rheap) (v : nat) (i : N) (x : rval) : res rheap :=
  match nth_error h v with
  | None => Undef UB_index
  | Some cells =>
      if i <? lenN cells then Ok (upd v (upd (N.to_nat i) (Some x) cells) h)
      else Undef UB_oob_write
  end.

(** 107-115 push_values, all the groups in turn. *)
Fixpoint r_push_values (h : rheap) (cs : list column) (vecs : list nat) (i : N)
    (p : pview) : res rheap :=
  match cs, vecs with
  | c :: cs', v :: vecs' =>
      x <- group_value c p ;;
      y <- r_val x ;;
      h' <- r_store h v i y ;;
      r_push_values h' cs' vecs' i p
  | _, _ => Ok h
  end.

Definition r_with (st : rstate_sink) (idata istart iend : N) (ix : nat)
    (h : rheap) : rstate_sink :=
  RSink (r_size st) idata (r_ilast st) istart iend (r_cols st) ix (r_vecs st) h.

(** 117-154 push_row. *)
Definition r_base_push (st : rstate_sink) (i : N) (p : pview) : res rstate_sink :=
  h1 <- r_store (r_heap st) (r_index st) (r_idata st) (RInt (int32 (Z.of_N i))) ;;
  h2 <- r_push_values h1 (r_cols st) (r_vecs st) (r_idata st) p ;;
  Ok (r_with st (r_idata st +! 1) (r_istart st) (r_iend st) (r_index st) h2).

(** 157-163 resize_vector: a new vector holding the first elements. *)
Definition r_resize (h : rheap) (v : nat) (n : N) : nat * rheap :=
  (length h, h ++ [firstn (N.to_nat n) (nth v h [])]).

(** 165-186 set_values: the vectors put into the list [rows]; a vector which has
    the right size is put as it is, otherwise a resized copy. *)
Fixpoint r_set_values (h : rheap) (vecs : list nat) (n : N) : list nat * rheap :=
  match vecs with
  | [] => ([], h)
  | v :: r =>
      let '(w, h1) := if n =? lenN (nth v h []) then (v, h) else r_resize h v n in
      let '(ws, h2) := r_set_values h1 r n in (w :: ws, h2)
  end.

(** The call of the R function with (row_index, rows), after set_values:
    sink_chunk.hpp:41-42, sink_by_columns.hpp:165-186. *)
Definition r_deliver (st : rstate_sink) : rstate_sink * rcall :=
  let n := r_idata st in
  let '(ix, h1) :=
    if n =? lenN (nth (r_index st) (r_heap st) []) then (r_index st, r_heap st)
    else r_resize (r_heap st) (r_index st) n in
  let '(ws, h2) := r_set_values h1 (r_vecs st) n in
  (r_with st n (r_istart st) (r_iend st) ix h2,
   RCall ix ws (nth ix h2 []) (map (fun w => nth w h2 []) ws)).

(** sink_chunk.hpp:38-45 flush. *)
Definition r_flush (st : rstate_sink) : rstate_sink * list rcall :=
  if (r_iend st <? r_istart st) || (r_idata st =? 0) then (st, [])
  else
    let '(st1, call) := r_deliver st in
    (r_with st1 0 (r_iend st1 +! 1) (r_iend st1) (r_index st1) (r_heap st1), [call]).

(** sink_chunk.hpp:22-34 push_row. *)
Definition r_push_row (st : rstate_sink) (i : N) (p : pview)
  : res (rstate_sink * list rcall) :=
  st1 <- r_base_push st i p ;;
  let st2 := r_with st1 (r_idata st1) (r_istart st1) i (r_index st1) (r_heap st1) in
  if r_idata st2 =? r_size st2 then
    let '(st3, calls) := r_flush st2 in
    if (r_ilast st3 <? r_istart st3 +! r_size st3) && (r_istart st3 <? r_ilast st3)
    then Ok (r_prepare st3 (r_ilast st3 -! r_istart st3), calls)
    else Ok (st3, calls)
  else Ok (st2, []).

(** SinkChunk driven by events, sink_chunk.hpp:22-45.  Simplification: the callbacks return
    normally. *)
Definition rchunk_step (st : rstate_sink * list rcall) (ev : event)
  : res (rstate_sink * list rcall) :=
  let '(s, calls) := st in
  match ev with
  | EvProps h md => Ok (r_props s md, calls)
  | EvRow i p => '(s', new) <- r_push_row s i p ;; Ok (s', calls ++ new)
  | EvEnd => let '(s', new) := r_flush s in Ok (s', calls ++ new)
  end.

(** sink_data.hpp:16-30 SinkData (size 0): end_of_data delivers the rows; idata
    keeps its value. *)
Definition rdata_step (st : rstate_sink * list rcall) (ev : event)
  : res (rstate_sink * list rcall) :=
  let '(s, calls) := st in
  match ev with
  | EvProps h md => Ok (r_props s md, calls)
  | EvRow i p => s' <- r_base_push s i p ;; Ok (s', calls)
  | EvEnd =>
      if r_idata s =? 0 then Ok (s, calls)
      else let '(s', call) := r_deliver s in Ok (s', calls ++ [call])
  end.
