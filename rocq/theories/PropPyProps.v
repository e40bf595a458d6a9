(** The properties of a file as Python objects (C100). *)
From Verif Require Import Base Types DateTime Buffer Column Header Metadata Reader Drive Sinks Callbacks PyObjects Python
  PyProps SpecTime SpecReader SpecFile SpecCells SpecUtf8 SpecPyObjects SpecPyProps Samples ProofPyProps.
Local Open Scope N_scope.

(** C100.  An object of class Properties has each fact of the file under its name: the words of
    the enums, exact numbers, the texts which are UTF-8, the dates as datetime objects; and
    no other name. *)
Theorem C100_attributes : forall h md, py_properties_say h md (py_attr h md).
Proof. exact attrs_say. Qed.
Print Assumptions C100_attributes.

Theorem C100_no_other : forall h md name, ~ In name property_names -> py_attr h md name = Exn E_attribute_error.
Proof. exact no_other. Qed.
Print Assumptions C100_no_other.

(** sink.properties of the three classes has them, whatever the program does afterwards,
    also when it has no Reader any more; reader.properties() gives them as long as there is
    the Reader.  For any source, any filter, any file which opens. *)
Theorem C100_kept : forall S c (src : source S) cls size flt s p0 acts, py_open c src cls size flt s = (Ok tt, p0) ->
  exists r ev, open_reader c src (Some flt) s = Ok (r, ev)
    /\ let p := fold_left (py_act c src cls) acts p0 in
       (exists x, py_sink_properties p = Some x /\ py_properties_say (rs_h r) (rs_md r) (py_get p x))
       /\ (forall x, py_reader_properties p = Ok x -> py_properties_say (rs_h r) (rs_md r) (py_get p x))
       /\ (~ In ActDrop acts -> exists x, py_reader_properties p = Ok x).
Proof. exact props_kept. Qed.
Print Assumptions C100_kept.

Definition opened_file (cls : py_class) (file : bytes) : res unit * program fstate :=
  py_open sample_cfg file_source cls 2 (fun _ => true) (file_open file).

(** The sample file, read, and the Reader gone. *)
Definition after_reading (cls : py_class) (file : bytes) : program fstate :=
  fold_left (py_act sample_cfg file_source cls) [ActDo OpReadAll; ActDf; ActDrop] (snd (opened_file cls file)).
Definition shared_attr (file name : bytes) : res pyattr :=
  match py_sink_properties (after_reading SinkByChunk file) with
  | Some x => py_get (after_reading SinkByChunk file) x name
  | None => Exn E_attribute_error
  end.

Example C100_case :
  fst (opened_file SinkByChunk sample_file) = Ok tt
  /\ shared_attr sample_file (bs "endianness") = Ok (PaEnum (bs "big"))
  /\ shared_attr sample_file (bs "dataset_name") = Ok (PaStr (bs "SAMPLE"))
  /\ shared_attr sample_file (bs "date_created") = Ok (PaValue (PvDateTime 1960 1 1 0 0 0 0))
  /\ shared_attr sample_file (bs "row_count") = Ok (PaInt 6)
  /\ (exists a b, shared_attr sample_file (bs "columns") = Ok (PaColumns [a; b])
       /\ py_column_attr b (bs "name") = Ok (PaStr (bs "NAME"))
       /\ py_column_attr b (bs "type") = Ok (PaEnum (bs "string")))
  /\ shared_attr sample_file (bs "rows") = Exn E_attribute_error.
Proof.
  split; [vm_compute; reflexivity|]. split; [vm_compute; reflexivity|]. split; [vm_compute; reflexivity|].
  split; [vm_compute; reflexivity|]. split; [vm_compute; reflexivity|].
  split; [|vm_compute; reflexivity]. eexists _, _. split; [vm_compute; reflexivity|].
  split; vm_compute; reflexivity.
Qed.

(** False: what reader.properties() gives can be used as long as the program has it.  It
    refers to the Reader, which it does not keep alive. *)
Theorem C100_dangling_refuted : exists file p x,
  opened_file SinkByChunk file = (Ok tt, p) /\ py_reader_properties p = Ok x
  /\ py_get p x (bs "row_count") = Ok (PaInt 6)
  /\ py_get (py_drop p) x (bs "row_count") = Undef UB_lifetime.
Proof.
  exists sample_file. eexists _, PpReader. split; [vm_compute; reflexivity|].
  split; [vm_compute; reflexivity|]. split; vm_compute; reflexivity.
Qed.
Print Assumptions C100_dangling_refuted.

(** No attribute of it can be read then. *)
Theorem C100_dangling : forall S (p : program S) x name, py_reader_properties p = Ok x ->
  py_get (py_drop p) x name = Undef UB_lifetime.
Proof. exact props_gone. Qed.
Print Assumptions C100_dangling.

(** False: the texts of every file which can be read can be read.  A data set with a
    latin-1 name opens and all rows are read; its dataset_name raises UnicodeDecodeError. *)
Definition latin1_name_file : bytes :=
  file_bytes Big Bit32 false 320 800 (bs "CAF" ++ xc9 :: bs "S") sample_table.

Theorem C100_texts_refuted : exists file p p',
  opened_file SinkByRow file = (Ok tt, p)
  /\ py_do sample_cfg file_source SinkByRow OpReadAll p = (Ok OUnit, p')
  /\ lenN (po_rows (pt_obj (pg_st p'))) = 6
  /\ exists x, py_sink_properties p' = Some x
     /\ py_get p' x (bs "dataset_name") = Exn E_unicode_error.
Proof.
  exists latin1_name_file. eexists _, _. split; [vm_compute; reflexivity|]. split; [vm_compute; reflexivity|].
  split; [vm_compute; reflexivity|]. eexists. split; [vm_compute; reflexivity|]. vm_compute. reflexivity.
Qed.
Print Assumptions C100_texts_refuted.

(** False: asking for an attribute changes nothing.  Each time a missing date is asked for
    a reference to None is lost; with [count] of them the interpreter before CPython 3.12
    stops at the latest after so many times.  A date which is there loses none. *)
Theorem C100_none : forall n count, (0 < count)%Z ->
  none_steps count (repeat (none_asked NotADateTime) n)
  = if (Z.of_nat n <? count)%Z then Ok (count - Z.of_nat n)%Z else Abort.
Proof. exact none_asked_stop. Qed.
Print Assumptions C100_none.

Theorem C100_none_kept : forall n u count, (0 < count)%Z ->
  none_steps count (repeat (none_asked (PTicks u)) n) = Ok count.
Proof. exact none_asked_kept. Qed.
Print Assumptions C100_none_kept.

Definition undated_file : bytes := firstn 164 sample_file ++ [x7f; xf8] ++ skipn 166 sample_file.

Theorem C100_none_refuted : exists file r ev,
  open_reader sample_cfg file_source None (file_open file) = Ok (r, ev)
  /\ shared_attr file (bs "date_created") = Ok (PaValue PvNone)
  /\ none_steps 5000 (repeat (none_asked (h_date_created (rs_h r))) 10) = Ok 4990%Z.
Proof.
  exists undated_file. eexists _, _. split; [vm_compute; reflexivity|].
  split; [vm_compute; reflexivity|]. vm_compute. reflexivity.
Qed.
Print Assumptions C100_none_refuted.
