From Verif Require Import Base Types Buffer Header Column Metadata Reader Drive Sinks Callbacks PyObjects Python
  PyAgain SpecFile SpecPython SpecAgain ProofAgain Samples PropCells PropPython.
Local Open Scope N_scope.

(** C122.  A sink object of the Python package used for one file after another.  Whatever the object
    was used for before, every call has the outcome it has with a new object. *)
Theorem C122_same_outcome : forall S0 S (p0 : program S0) c (src : source S) cls size flt inc exc s,
  fst (py_open_with p0 c src cls size flt s) = fst (py_open c src cls size flt s)
  /\ (fst (py_open c src cls size flt s) = Ok tt -> forall ops,
      fst (answers c src cls ops (snd (py_open_with p0 c src cls size flt s)))
      = fst (answers c src cls ops (snd (py_open c src cls size flt s))))
  /\ fst (read_sas_with p0 c src cls size inc exc s) = fst (read_sas c src cls size inc exc s).
Proof. exact same_outcome. Qed.
Print Assumptions C122_same_outcome.

(** SinkWholeData: the frame is the one a new object has.  (Full claim: so for the three classes and
    for files without rows.) *)
Theorem C122_whole_partial : forall S0 (p0 : program S0) S c (src : source S) size inc exc s p f,
  read_sas c src SinkWholeData size inc exc s = (Ok tt, p) -> fst (py_df SinkWholeData p) = Ok (Some f) ->
  exists p', read_sas_with p0 c src SinkWholeData size inc exc s = (Ok tt, p')
    /\ fst (py_df SinkWholeData p') = Ok (Some f).
Proof. exact whole_again. Qed.
Print Assumptions C122_whole_partial.

(** But where a new object has no frame, the one of the file before stays. *)
Theorem C122_whole_no_rows : forall S0 (p0 p1 : program S0) f0 S c (src : source S) size inc exc s p,
  py_df SinkWholeData p0 = (Ok (Some f0), p1) ->
  read_sas c src SinkWholeData size inc exc s = (Ok tt, p) -> fst (py_df SinkWholeData p) = Ok None ->
  exists p', read_sas_with p1 c src SinkWholeData size inc exc s = (Ok tt, p')
    /\ fst (py_df SinkWholeData p') = Ok (Some f0).
Proof. exact whole_no_rows. Qed.
Print Assumptions C122_whole_no_rows.

(** SinkByRow and SinkByChunk: once df was asked, it is the frame of the file before, whatever is
    read. *)
Theorem C122_stays : forall S0 (p0 p1 : program S0) cls f, py_df cls p0 = (Ok (Some f), p1) -> cls <> SinkWholeData ->
  forall S c (src : source S) size flt inc exc s ops,
  fst (py_df cls (snd (answers c src cls ops (snd (py_open_with p1 c src cls size flt s))))) = Ok (Some f)
  /\ fst (py_df cls (snd (read_sas_with p1 c src cls size inc exc s))) = Ok (Some f).
Proof. exact stays. Qed.
Print Assumptions C122_stays.

(** When df was not asked between: the rows of both, under the names of the second file; with another
    number of columns SinkByRow raises ValueError. *)
Theorem C122_by_row : forall S1 c1 (src1 : source S1) size1 inc1 exc1 s1 p1 f1
    S c (src : source S) size inc exc s p f,
  read_sas c1 src1 SinkByRow size1 inc1 exc1 s1 = (Ok tt, p1) -> fst (py_df SinkByRow p1) = Ok (Some f1) ->
  read_sas c src SinkByRow size inc exc s = (Ok tt, p) -> fst (py_df SinkByRow p) = Ok (Some f) ->
  exists p', read_sas_with p1 c src SinkByRow size inc exc s = (Ok tt, p')
    /\ (length f1 = length f -> fst (py_df SinkByRow p') = Ok (Some (stacked f1 f)))
    /\ (length f1 <> length f -> (exists col, In col f1 /\ snd col <> []) -> fst (py_df SinkByRow p') = Exn E_value_error).
Proof. exact rows_again. Qed.
Print Assumptions C122_by_row.

Theorem C122_by_chunk : forall S1 c1 (src1 : source S1) size1 inc1 exc1 s1 p1 f1
    S c (src : source S) size inc exc s p f,
  read_sas c1 src1 SinkByChunk size1 inc1 exc1 s1 = (Ok tt, p1) -> fst (py_df SinkByChunk p1) = Ok (Some f1) ->
  read_sas c src SinkByChunk size inc exc s = (Ok tt, p) -> fst (py_df SinkByChunk p) = Ok (Some f) ->
  map fst f1 = map fst f ->
  exists p', read_sas_with p1 c src SinkByChunk size inc exc s = (Ok tt, p')
    /\ fst (py_df SinkByChunk p') = Ok (Some (stacked f1 f)).
Proof. exact chunks_again. Qed.
Print Assumptions C122_by_chunk.

(** A program which reads two files with one object: asks for df between, or does not. *)
Definition one_file (cls : py_class) (file : bytes) : program fstate :=
  snd (read_sas sample_cfg file_source cls 4 None None (file_open file)).
Definition next_file (p : program fstate) (cls : py_class) (inc : option (list bytes)) (file : bytes) :=
  fst (py_df cls (snd (read_sas_with p sample_cfg file_source cls 4 inc None (file_open file)))).
Definition asked (cls : py_class) (p : program fstate) : program fstate := snd (py_df cls p).

Definition pair_of (a b : bytes) : bytes :=
  file_bytes Big Bit32 false 320 800 (bs "PAIR")
    (Table [FieldDesc a [] [] 0 2 false; FieldDesc b [] [] 2 2 false] 4 [bs "abcd"; bs "efgh"] []).
Definition single : bytes :=
  file_bytes Big Bit32 false 320 800 (bs "ONE") (Table [FieldDesc (bs "C") [] [] 0 2 false] 2 [bs "xy"] []).
Definition txt (t : bytes) : option value := Some (VString t).
Definition pair_frame (a b : bytes) : frame := [(a, [txt (bs "ab"); txt (bs "ef")]); (b, [txt (bs "cd"); txt (bs "gh")])].
Definition single_frame : frame := [(bs "C", [txt (bs "xy")])].

(** The hypotheses of the theorems: both files are read, with each class. *)
Example C122_case : forall cls,
  fst (read_sas sample_cfg file_source cls 4 None None (file_open (pair_of (bs "A") (bs "B")))) = Ok tt
  /\ fst (py_df cls (one_file cls (pair_of (bs "A") (bs "B")))) = Ok (Some (pair_frame (bs "A") (bs "B")))
  /\ fst (py_df cls (one_file cls single)) = Ok (Some single_frame)
  /\ fst (py_df SinkWholeData (one_file SinkWholeData no_rows)) = Ok None
  /\ next_file (asked SinkWholeData (one_file SinkWholeData (pair_of (bs "A") (bs "B")))) SinkWholeData None single
     = Ok (Some single_frame).
Proof. intros []; vm_compute; auto. Qed.

(** False: the frame is that of the second file. *)
Theorem C122_second_frame_refuted : exists first second, forall cls,
  fst (py_df cls (one_file cls second)) = Ok (Some single_frame)
  /\ (cls <> SinkWholeData ->
      next_file (asked cls (one_file cls first)) cls None second = Ok (Some (pair_frame (bs "A") (bs "B")))).
Proof.
  exists (pair_of (bs "A") (bs "B")), single. intros []; (split; [vm_compute; reflexivity|intros NW]);
    try (vm_compute; reflexivity). destruct (NW eq_refl).
Qed.
Print Assumptions C122_second_frame_refuted.

(** False without asking for df between: the rows of the first file are there under other names, or df
    raises. *)
Theorem C122_not_asked_refuted : exists first second third,
  next_file (one_file SinkByRow first) SinkByRow None second
  = Ok (Some [(bs "X", [txt (bs "ab"); txt (bs "ef"); txt (bs "ab"); txt (bs "ef")]);
              (bs "Y", [txt (bs "cd"); txt (bs "gh"); txt (bs "cd"); txt (bs "gh")])])
  /\ next_file (one_file SinkByRow first) SinkByRow None third = Exn E_value_error
  /\ next_file (one_file SinkByChunk first) SinkByChunk None first
  = Ok (Some [(bs "A", [txt (bs "ab"); txt (bs "ef"); txt (bs "ab"); txt (bs "ef")]);
              (bs "B", [txt (bs "cd"); txt (bs "gh"); txt (bs "cd"); txt (bs "gh")])]).
Proof. exists (pair_of (bs "A") (bs "B")), (pair_of (bs "X") (bs "Y")), single. vm_compute. auto. Qed.
Print Assumptions C122_not_asked_refuted.

(** False for a second file without rows: the frame of the first is still there. *)
Theorem C122_no_rows_refuted : exists first second,
  fst (py_df SinkWholeData (one_file SinkWholeData second)) = Ok None
  /\ next_file (asked SinkWholeData (one_file SinkWholeData first)) SinkWholeData None second
     = Ok (Some (pair_frame (bs "A") (bs "B"))).
Proof. exists (pair_of (bs "A") (bs "B")), no_rows. vm_compute. auto. Qed.
Print Assumptions C122_no_rows_refuted.
