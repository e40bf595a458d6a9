(** The R package: the choice of the C++ sink and the filter
    ([R/CPPSAS7BDAT/src/reader.cpp], [filter.cpp]), the sink classes
    ([R/CPPSAS7BDAT/R/sink.R]) and read_sas ([R/CPPSAS7BDAT/R/read_sas.R]). *)
From Verif Require Import Base Types Buffer Header Column Metadata Reader Drive Sinks
  Callbacks Float.
Local Open Scope N_scope.

(** Errors seen by the R program (reader.cpp:46, sink.R:14-61). *)
Definition E_r_not_a_sink : exn := E_client 11.  (* "Not a valid sink" *)
Definition E_r_dollar : exn := E_client 12.      (* $ operator is invalid for atomic vectors *)
Definition E_r_extent : exn := E_client 13.      (* non-numeric matrix extent *)
Definition E_r_function : exn := E_client 14.    (* no such function *)
Definition E_r_reader : exn := E_client 15.      (* no Reader *)

(** ** Operators of R *)

(** x$name (sink.R:16-17, 39, 57): of a list the element of that name, else the only one whose name
    begins with
    it, else NULL; of NULL it is NULL. *)
Definition r_dollar (x : rv) (name : bytes) : res rv :=
  match x with
  | RvNull => Ok RvNull
  | RvList l =>
      match find (fun e => bytes_eqb (fst e) name) l with
      | Some (_, v) => Ok v
      | None =>
          match filter (fun e => is_prefix name (fst e)) l with
          | [(_, v)] => Ok v
          | _ => Ok RvNull
          end
      end
  | _ => Exn E_r_dollar
  end.

(** names(x), sink.R:16. *)
Definition r_names (x : rv) : list bytes :=
  match x with RvList l => map fst l | _ => [] end.

(** A data frame, or a list of vectors (sink.R:17, 42, 60): the columns with their names, in order. *)
Definition rframe : Type := list (bytes * list (option rval)).

(** A number as the extent of a matrix, sink.R:17. *)
Definition r_extent (bits : N) : nat :=
  match lround (sf_of_bits bits) with Ok z => Z.to_nat z | _ => O end.

(** sink.R:17-18 data.frame(matrix(NA, nrow, ncol)) followed by names(df) = names. *)
Definition r_matrix_frame (nrow ncol : rv) (names : list bytes) : res rframe :=
  match nrow, ncol with
  | RvNum n, RvNum m =>
      Ok (combine names (repeat (repeat (Some RNa) (r_extent n)) (r_extent m)))
  | _, _ => Exn E_r_extent
  end.

(** The attribute df (sink.R:10, 30, 51): NULL, a frame whose columns are vectors in the heap, or a
    frame
    which is not shared. *)
Inductive rdf : Type :=
| DfNull
| DfShared (names : list bytes) (refs : list nat)
| DfOwn (f : rframe).

Definition r_contents (hp : rheap) (d : rdf) : option rframe :=
  match d with
  | DfNull => None
  | DfShared names refs => Some (combine names (map (fun v => nth v hp []) refs))
  | DfOwn f => Some f
  end.

(** sink.R:44 rbind of two data frames: a copy.  Simplification: both have the same columns, in the
    same order. *)
Fixpoint r_rbind (f g : rframe) : rframe :=
  match f, g with
  | (n, v) :: f', (_, w) :: g' => (n, v ++ w) :: r_rbind f' g'
  | _, _ => []
  end.

(** ** sink.R *)

(** sink.R:8-26, 28-47, 49-63. *)

Inductive r_class : Type := RSinkByRow | RSinkByChunk | RSinkWholeData.

(** The attributes properties, columns and df, sink.R:10-12, 30-32, 51-53. *)
Record r_object : Type := RObject { rob_properties : rv; rob_columns : list bytes; rob_df : rdf }.
Definition r_new : r_object := RObject RvNull [] DfNull.

(** sink.R:14-19, 37-40, 55-58 set_properties. *)
Definition r_columns_of (p : rv) : res (list bytes) :=
  m <- r_dollar p (bs "metadata") ;; cs <- r_dollar m (bs "columns") ;; Ok (r_names cs).

Definition r_by_row_frame (p : rv) (names : list bytes) : res rframe :=
  m <- r_dollar p (bs "metadata") ;;
  n <- r_dollar m (bs "row_count") ;;
  k <- r_dollar m (bs "column_count") ;;
  r_matrix_frame n k names.

(** sink.R:20-24 push_row: the elements which are not NULL are put into row [i + 1] of the
    columns; a column which is too short grows. *)
Definition r_put (i : N) (x : option rval) (col : list (option rval)) : list (option rval) :=
  match x with
  | None => col
  | Some _ =>
      upd (N.to_nat i) x (col ++ repeat (Some RNa) (N.to_nat (i + 1 - lenN col)))
  end.

Fixpoint r_put_row (i : N) (row : list (option rval)) (f : rframe) : rframe :=
  match row, f with
  | x :: row', (n, col) :: f' => (n, r_put i x col) :: r_put_row i row' f'
  | _, _ => f
  end.

Definition r_outcome {A} (x : res A) (k : A -> res unit * r_object) (o : r_object) : res unit * r_object :=
  match x with
  | Ok a => k a
  | Exn e => (Exn e, o)
  | Abort => (Abort, o)
  | Undef u => (Undef u, o)
  | Fuel => (Fuel, o)
  end.

(** The methods: set_properties, push_row, sink.R:41-45 push_rows, 59-61 set_data.
    as.data.frame(rows) keeps the vectors of the list and changes the names into [mk]
    names (make.names); in SinkWholeData the list itself is kept. *)
Definition r_methods (mk : list bytes -> list bytes) (cls : r_class) : robj r_object := fun q o =>
  match q, cls with
  | RqProps p, RSinkByRow =>
      let o0 := RObject p (rob_columns o) (rob_df o) in
      r_outcome (r_columns_of p) (fun cs =>
        let o1 := RObject p cs (rob_df o) in
        r_outcome (r_by_row_frame p cs) (fun f => (Ok tt, RObject p cs (DfOwn f))) o1) o0
  | RqProps p, _ =>
      r_outcome (r_columns_of p) (fun cs => (Ok tt, RObject p cs (rob_df o)))
        (RObject p (rob_columns o) (rob_df o))
  | RqRow hp i row, RSinkByRow =>
      match r_contents hp (rob_df o) with
      | Some f => (Ok tt, RObject (rob_properties o) (rob_columns o) (DfOwn (r_put_row i (nth row hp []) f)))
      | None => (Exn E_r_extent, o)
      end
  | RqRows hp names k, RSinkByChunk =>
      let rows := DfShared (mk names) (rc_rows k) in
      match r_contents hp (rob_df o), r_contents hp rows with
      | Some f, Some g => (Ok tt, RObject (rob_properties o) (rob_columns o) (DfOwn (r_rbind f g)))
      | _, _ => (Ok tt, RObject (rob_properties o) (rob_columns o) rows)
      end
  | RqRows hp names k, RSinkWholeData =>
      (Ok tt, RObject (rob_properties o) (rob_columns o) (DfShared names (rc_rows k)))
  | _, _ => (Exn E_r_function, o)
  end.

(** ** reader.cpp, filter.cpp *)

(** reader.cpp:36, 40, 43. *)

Inductive r_kind : Type := RRowSink | RChunkSink | RDataSink.

(** reader.cpp:26-48 _build: [has] tells which names the environment has. *)
Definition r_select (has : bytes -> bool) : res r_kind :=
  if has (bs "set_properties") && has (bs "chunk_size") && has (bs "push_rows")
  then Ok RChunkSink
  else if has (bs "set_properties") && has (bs "set_data") then Ok RDataSink
  else if has (bs "set_properties") && has (bs "push_row") then Ok RRowSink
  else Exn E_r_not_a_sink.

(** The public members of the classes, sink.R:9-25, 29-46, 50-62. *)
Definition r_has (cls : r_class) (name : bytes) : bool :=
  in_set name
    match cls with
    | RSinkByRow => [bs "df"; bs "properties"; bs "columns"; bs "initialize"; bs "set_properties"; bs "push_row"]
    | RSinkByChunk =>
        [bs "df"; bs "properties"; bs "columns"; bs "chunk_size"; bs "initialize"; bs "set_properties"; bs "push_rows"]
    | RSinkWholeData => [bs "df"; bs "properties"; bs "columns"; bs "initialize"; bs "set_properties"; bs "set_data"]
    end.

Definition r_kind_sink (k : r_kind) {P} (o : robj P) : sink (rstate_sink * P) :=
  match k with
  | RRowSink => rrow_sink o
  | RChunkSink => rchunk_sink o
  | RDataSink => rdata_sink o
  end.

Definition r_class_sink (mk : list bytes -> list bytes) (cls : r_class) : sink (rstate_sink * r_object) :=
  fun ev st =>
  match r_select (r_has cls) with
  | Ok k => r_kind_sink k (r_methods mk cls) ev st
  | Exn e => (Exn e, st)
  | Abort => (Abort, st)
  | Undef u => (Undef u, st)
  | Fuel => (Fuel, st)
  end.

(** filter.cpp:14-37.  Simplification: the arguments are NULL or character vectors;
    anything else throws. *)
Definition r_filter (include exclude : option (list bytes)) : column -> bool :=
  include_exclude_accept
    (match include with Some l => l | None => [] end)
    (match exclude with Some l => l | None => [] end).

(** ** An R program *)

(** A Reader and a sink object, as in read_sas.R:6-12. *)

Record r_program (S : Type) : Type := RProgram {
  rp_reader : option (rstate S);
  rp_st : rstate_sink * r_object
}.
Arguments RProgram {S} _ _.
Arguments rp_reader {S} _.
Arguments rp_st {S} _.

(** sas_reader(filename, sink, include, exclude): reader.R:6-10, reader.cpp:22-48. *)
Definition r_open {S} (c : cfg) (src : source S) (mk : list bytes -> list bytes) (cls : r_class)
    (chunk_size : N) (flt : column -> bool) (s : S) : res unit * r_program S :=
  let st0 := (rsink_new match cls with RSinkByChunk => chunk_size | _ => 0 end, r_new) in
  let '(x, st, _) := drive_open c src (r_class_sink mk cls) (Some flt) s st0 in
  (rmap (fun _ => tt) x, RProgram (match x with Ok r => Some r | _ => None end) st).

(** A method of the Reader, reader.cpp:59-79. *)
Definition r_do {S} (c : cfg) (src : source S) (mk : list bytes -> list bytes) (cls : r_class) (o : op)
    (p : r_program S) : res out * r_program S :=
  match rp_reader p with
  | None => (Exn E_r_reader, p)
  | Some r =>
      let '(x, r', st, _) := drive_step c src (r_class_sink mk cls) o r (rp_st p) in
      (x, RProgram (Some r') st)
  end.

(** sink$df (sink.R:10, 30, 51), as it is now. *)
Definition r_df {S} (p : r_program S) : option rframe :=
  r_contents (r_heap (fst (rp_st p))) (rob_df (snd (rp_st p))).

(** Opening a file and reading all of it with a sink object of the class; read_sas.R:6-12
    is the case of SinkWholeData. *)
Definition r_read {S} (c : cfg) (src : source S) (mk : list bytes -> list bytes) (cls : r_class)
    (chunk_size : N) (include exclude : option (list bytes)) (s : S) : res unit * r_program S :=
  let '(x, p) := r_open c src mk cls chunk_size (r_filter include exclude) s in
  match x with
  | Ok tt => let '(y, p') := r_do c src mk cls OpReadAll p in (rmap (fun _ => tt) y, p')
  | _ => (x, p)
  end.
