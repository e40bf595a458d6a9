(** A sink object of the Python package which is given to a further Reader. *)
From Verif Require Import Base Types Buffer Header Column Metadata Reader Drive Sinks
  Callbacks PyObjects Python.
Local Open Scope N_scope.

(** Reader(filename, sink, include, exclude) with the object of the program [p0]:
    python/pycppsas7bdat/cpp/reader.cpp:21-23, 52-84 makes a new C++ sink; the attributes of the object
    stay (python/pycppsas7bdat/sink.py:14-16 set_properties assigns properties and columns only).
    Simplifications: the earlier Reader is not used any more; no Python error is pending (see
    [settle]). *)
Definition py_open_with {S0 S} (p0 : program S0) (c : cfg) (src : source S) (cls : py_class) (chunk_size : N)
    (flt : column -> bool) (s : S) : res unit * program S :=
  let st0 := PySt (pt_cpp (pg_st p0)) false
               (pychunk_new match cls with SinkByChunk => chunk_size | _ => 0 end) (pt_obj (pg_st p0)) in
  let '(x, st, _) := drive_open c src (class_sink cls) (Some flt) s st0 in
  let '(y, st') := settle x st in
  (rmap (fun _ => tt) y, Program (match y with Ok r => Some r | _ => None end) st').

(** python/pycppsas7bdat/read_sas.py:9-13 with that object. *)
Definition read_sas_with {S0 S} (p0 : program S0) (c : cfg) (src : source S) (cls : py_class) (chunk_size : N)
    (include exclude : option (list bytes)) (s : S) : res unit * program S :=
  let '(x, p) := py_open_with p0 c src cls chunk_size (py_filter include exclude) s in
  match x with
  | Ok tt =>
      let '(y, p') := py_do c src cls OpReadAll p in
      (rmap (fun _ => tt) y, py_drop p')
  | _ => (x, p)
  end.
