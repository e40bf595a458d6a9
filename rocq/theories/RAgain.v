(** A sink object of the R package which is given to a further Reader. *)
From Verif Require Import Base Types Buffer Header Column Metadata Reader Drive Sinks Callbacks RPackage.
Local Open Scope N_scope.

(** The object of the program [p0], as the next Reader finds it: the attributes properties, columns and
    df of R/CPPSAS7BDAT/R/sink.R:10-12, 30-32, 51-53.  Simplification: the earlier Reader is not used any
    more, so that the vectors which df may share with it do not change.  rbind of sink.R:44 is that of
    frames with the same columns ([r_rbind]): R raises an error for other names, and converts the cells
    when the types are others, which is not modelled; what is stated about SinkByChunk has this as a
    condition. *)
Definition r_kept_object {S0} (p0 : r_program S0) : r_object :=
  let o := snd (rp_st p0) in
  RObject (rob_properties o) (rob_columns o)
    match r_df p0 with Some f => DfOwn f | None => DfNull end.

(** sas_reader(filename, sink, include, exclude) with that object: R/CPPSAS7BDAT/src/reader.cpp:22-48
    makes a new C++ sink. *)
Definition r_open_with {S0 S} (p0 : r_program S0) (c : cfg) (src : source S) (mk : list bytes -> list bytes)
    (cls : r_class) (chunk_size : N) (flt : column -> bool) (s : S) : res unit * r_program S :=
  let st0 := (rsink_new match cls with RSinkByChunk => chunk_size | _ => 0 end, r_kept_object p0) in
  let '(x, st, _) := drive_open c src (r_class_sink mk cls) (Some flt) s st0 in
  (rmap (fun _ => tt) x, RProgram (match x with Ok r => Some r | _ => None end) st).

(** And reading all of it, as in R/CPPSAS7BDAT/R/read_sas.R:6-12. *)
Definition r_read_with {S0 S} (p0 : r_program S0) (c : cfg) (src : source S) (mk : list bytes -> list bytes)
    (cls : r_class) (chunk_size : N) (include exclude : option (list bytes)) (s : S) : res unit * r_program S :=
  let '(x, p) := r_open_with p0 c src mk cls chunk_size (r_filter include exclude) s in
  match x with
  | Ok tt => let '(y, p') := r_do c src mk cls OpReadAll p in (rmap (fun _ => tt) y, p')
  | _ => (x, p)
  end.
