(** The Python package: read_sas, its sinks and their property df (C79 to C82, C93). *)
From Verif Require Import PyObjects Base Types Buffer Page Column Header Metadata Decomp Data Reader Drive Sinks
  Utf8 Callbacks Python SpecDecomp SpecReader SpecDrive SpecSinks SpecCallbacks SpecFile SpecRoundtrip
  SpecCells SpecTable SpecUtf8 SpecPyObjects SpecPython Samples
  ProofUtf8 ProofFileCheck ProofPython ProofPyFile ProofPyEnd ProofPyNames PropSinks PropCells.
Local Open Scope N_scope.

(** C79.  read_sas(file, sink, include, exclude).df is the table: the wanted columns, in the
    order of the file, with their names; cell (i, j) has the content j of row i.  Asked
    again, it is the same.  For files of known content with at least one row; the full
    statement has no condition on the rows and the names. *)
Theorem C79_table_partial : forall c cls size inc exc e fields contents file, holds_table c e fields contents file ->
  NoDup (map fd_name fields) -> Forall (fun n => wanted inc exc n -> utf8_text n) (map fd_name fields) ->
  contents <> [] ->
  exists p f names contents', read_sas c file_source cls size inc exc (file_open file) = (Ok tt, p)
    /\ fst (py_df cls p) = Ok (Some f)
    /\ kept (wanted inc exc) (map fd_name fields) (map fd_name fields) names
    /\ Forall2 (kept (wanted inc exc) (map fd_name fields)) contents contents'
    /\ frame_holds names contents' f.
Proof. exact read_file. Qed.
Print Assumptions C79_table_partial.

(** For any source, when the reader gives these rows: the answer of df, once and again. *)
Theorem C79_df_partial : forall S c (src : source S) cls size inc exc s r0 ev r1 rows,
  open_reader c src (Some (py_filter inc exc)) s = Ok (r0, ev) ->
  read_all c src r0 = (Ok tt, r1, SpecSinks.pushes rows ++ [EvEnd]) ->
  named (md_columns (rs_md r0)) -> showable (md_columns (rs_md r0)) rows -> lenN rows < W64 ->
  exists p f, read_sas c src cls size inc exc s = (Ok tt, p)
    /\ (rows <> [] \/ cls = SinkByRow -> frame_is (md_columns (rs_md r0)) rows f)
    /\ fst (py_df cls p) = df_answer cls rows f
    /\ fst (py_df cls (snd (py_df cls p))) = df_answer cls rows f.
Proof. exact read_sas_frame. Qed.
Print Assumptions C79_df_partial.

Definition names_and_sizes (f : frame) : list (bytes * nat) := map (fun col => (fst col, length (snd col))) f.

Definition df_of (cls : py_class) (size : N) (inc exc : option (list bytes)) (file : bytes) :=
  fst (py_df cls (snd (read_sas sample_cfg file_source cls size inc exc (file_open file)))).

Example C79_hypotheses : holds_table sample_cfg Big people [ann; nobody] people_file
  /\ NoDup (map fd_name people)
  /\ Forall (fun n => wanted None None n -> utf8_text n) (map fd_name people) /\ [ann; nobody] <> [].
Proof.
  split; [apply C73_case|]. split; [cbn; repeat constructor; cbn; intuition discriminate|].
  split; [|discriminate]. cbn. repeat constructor; intros _; apply utf8_ok_text; reflexivity.
Qed.

(** The six rows in chunks of four. *)
Example C79_case :
  df_of SinkByChunk 4 None None sample_file
  = df_of SinkByRow 0 None None sample_file
  /\ df_of SinkWholeData 0 None None sample_file = df_of SinkByRow 0 None None sample_file
  /\ df_of SinkByChunk 4 None (Some [bs "ID"]) sample_file
     = Ok (Some [(bs "NAME", map (fun t => Some (VString t))
          [bs "abcd"; bs "efgh"; bs "ijkl"; bs "mnop"; bs "qrst"; bs "uvwx"])])
  /\ df_of SinkByChunk 4 (Some [bs "NAME"]) (Some [bs "NAME"]) sample_file
     = df_of SinkByChunk 4 None (Some [bs "ID"]) sample_file.
Proof. vm_compute. auto. Qed.

(** A file with two columns and no row. *)
Definition no_rows : bytes := file_bytes Big Bit32 false 320 800 (bs "NONE") (Table sample_fields 12 [] []).

(** False for a file without rows: the three classes answer differently; SinkByChunk
    raises, SinkWholeData has no frame. *)
Theorem C79_no_rows_refuted : exists file r0 ev r1,
  open_reader sample_cfg file_source (Some (py_filter None None)) (file_open file) = Ok (r0, ev)
  /\ read_all sample_cfg file_source r0 = (Ok tt, r1, [EvEnd])
  /\ named (md_columns (rs_md r0))
  /\ df_of SinkByRow 0 None None file = Ok (Some [(bs "ID", []); (bs "NAME", [])])
  /\ df_of SinkByChunk 4 None None file = Exn E_value_error
  /\ df_of SinkWholeData 0 None None file = Ok None.
Proof.
  exists no_rows.
  destruct (open_reader sample_cfg file_source (Some (py_filter None None)) (file_open no_rows))
    as [[r0 ev]| | | |] eqn:O; try (vm_compute in O; discriminate O).
  exists r0, ev. vm_compute in O. injection O as <- <-.
  eexists. split; [reflexivity|]. split; [vm_compute; reflexivity|].
  split; [|vm_compute; auto].
  split; [repeat constructor|]. split; [cbn; repeat constructor; cbn; intuition discriminate|].
  apply utf8_named. reflexivity.
Qed.
Print Assumptions C79_no_rows_refuted.

(** False when two columns have the same name: by chunks or whole, both show the values
    of the second; by rows each has its own. *)
Theorem C79_same_names_refuted : exists file,
  df_of SinkByRow 0 None None file
    = Ok (Some [(bs "A", [Some (VString (bs "ab"))]); (bs "A", [Some (VString (bs "cd"))])])
  /\ df_of SinkByChunk 4 None None file
    = Ok (Some [(bs "A", [Some (VString (bs "cd"))]); (bs "A", [Some (VString (bs "cd"))])])
  /\ df_of SinkWholeData 0 None None file = df_of SinkByChunk 4 None None file.
Proof.
  exists (file_bytes Big Bit32 false 320 800 (bs "TWICE")
            (Table [FieldDesc (bs "A") [] [] 0 2 false; FieldDesc (bs "A") [] [] 2 2 false] 4 [bs "abcd"] [])).
  vm_compute. auto.
Qed.
Print Assumptions C79_same_names_refuted.

(** False when a column has no known type (a number of 9 bytes): SinkByRow raises, since its
    rows have a value less than there are names; the two others have a column without values. *)
Theorem C79_unknown_refuted : exists file,
  df_of SinkByRow 0 None None file = Exn E_value_error
  /\ df_of SinkByRow 0 None (Some [bs "X"]) file = Ok (Some [(bs "A", [Some (VString (bs "ab"))])])
  /\ df_of SinkByChunk 4 None None file
    = Ok (Some [(bs "A", [Some (VString (bs "ab"))]); (bs "X", [None])])
  /\ df_of SinkWholeData 0 None None file = df_of SinkByChunk 4 None None file.
Proof.
  exists (file_bytes Big Bit32 false 320 800 (bs "WIDE")
            (Table [FieldDesc (bs "A") [] [] 0 2 false; FieldDesc (bs "X") [] [] 2 9 true] 11 [bs "ab012345678"] [])).
  vm_compute. auto.
Qed.
Print Assumptions C79_unknown_refuted.

(** C80.  Reading again at the end, or a second end_of_data, is not harmless with a Python
    sink: whatever was read before, the second call which tells the end raises
    SystemError. *)
Theorem C80_second_end : forall S c (src : source S) cls size flt s p o b p1 o2, max_alloc c < row_limit ->
  reading c src cls size flt s p -> py_do c src cls o p = (Ok b, p1) -> tells_end o (Ok b) = true ->
  (o2 = OpEnd \/ (reports_end o (Ok b) = true /\ asks o2 = true /\ o2 <> OpNoSink)) ->
  fst (py_do c src cls o2 p1) = Exn E_system_error.
Proof. exact reading_end_twice. Qed.
Print Assumptions C80_second_end.

Definition opened_by (cls : py_class) (size : N) (file : bytes) : program fstate :=
  snd (py_open sample_cfg file_source cls size (fun _ => true) (file_open file)).
Definition doing (cls : py_class) (o : op) (p : program fstate) := py_do sample_cfg file_source cls o p.

Lemma opened_reading : forall cls size file,
  fst (py_open sample_cfg file_source cls size (fun _ => true) (file_open file)) = Ok tt ->
  reading sample_cfg file_source cls size (fun _ => true) (file_open file) (opened_by cls size file).
Proof.
  intros cls size file H. exists (opened_by cls size file). split; [|constructor].
  unfold opened_by. rewrite <- H. destruct py_open. reflexivity.
Qed.

Theorem C80_end_is_repeatable_refuted : exists cls p b p1 p2,
  reading sample_cfg file_source cls 4 (fun _ => true) (file_open sample_file) p
  /\ doing cls OpReadAll p = (Ok b, p1)
  /\ doing cls OpReadAll p1 = (Exn E_system_error, p2)
  /\ fst (doing cls OpReadRow p1) = Exn E_system_error
  /\ fst (doing cls OpEnd p1) = Exn E_system_error.
Proof.
  exists SinkByChunk. eexists _, _, _, _. split; [apply opened_reading; vm_compute; reflexivity|].
  split; [vm_compute; reflexivity|]. vm_compute. auto.
Qed.
Print Assumptions C80_end_is_repeatable_refuted.

(** C81.  When the Reader is gone before the end was told, asking the sink object for df
    uses the destroyed C++ sink. *)
Theorem C81_df_without_reader : forall S c (src : source S) cls size flt s p, max_alloc c < row_limit ->
  reading c src cls size flt s p -> fst (py_df cls (py_drop p)) = Undef UB_lifetime.
Proof. exact df_dangling. Qed.
Print Assumptions C81_df_without_reader.

(** Two rows are read, the Reader is dropped; with the Reader alive df has the rows. *)
Theorem C81_df_defined_refuted : exists p b p1,
  reading sample_cfg file_source SinkByChunk 4 (fun _ => true) (file_open sample_file) p
  /\ doing SinkByChunk (OpReadRows 2) p = (Ok b, p1)
  /\ (exists f, fst (py_df SinkByChunk p1) = Ok (Some f) /\ names_and_sizes f = [(bs "ID", 2%nat); (bs "NAME", 2%nat)])
  /\ fst (py_df SinkByChunk (py_drop p1)) = Undef UB_lifetime.
Proof.
  eexists _, _, _. split; [apply opened_reading; vm_compute; reflexivity|].
  split; [vm_compute; reflexivity|].
  split; [eexists; split; [vm_compute; reflexivity|vm_compute; reflexivity]|vm_compute; reflexivity].
Qed.
Print Assumptions C81_df_defined_refuted.

(** C82.  After df was asked for in the middle, reading on is not seen: with SinkByRow and
    SinkByChunk df stays what it was; with SinkWholeData read_all enters the interpreter with
    an error pending, which is undefined. *)
Theorem C82_df_is_stale : forall S c (src : source S) cls size flt s p f p1, max_alloc c < row_limit ->
  reading c src cls size flt s p -> py_df cls p = (Ok (Some f), p1) -> cls <> SinkWholeData ->
  forall p2, reads c src cls p1 p2 -> fst (py_df cls p2) = Ok (Some f).
Proof. exact stale_frame. Qed.
Print Assumptions C82_df_is_stale.

Theorem C82_read_all_after_df : forall S c (src : source S) size flt s p r x p1 r1 rows, max_alloc c < row_limit ->
  reading c src SinkWholeData size flt s p -> pg_reader p = Some r ->
  py_df SinkWholeData p = (Ok x, p1) ->
  read_all c src r = (Ok tt, r1, SpecSinks.pushes rows ++ [EvEnd]) -> rows <> [] ->
  readable (md_columns (rs_md r)) rows -> lenN rows < W64 ->
  fst (py_do c src SinkWholeData OpReadAll p1) = Undef UB_api.
Proof. exact data_after_df. Qed.
Print Assumptions C82_read_all_after_df.

Theorem C82_df_sees_all_rows_refuted : exists p b p1 f p2 b' p3,
  reading sample_cfg file_source SinkByRow 0 (fun _ => true) (file_open sample_file) p
  /\ doing SinkByRow (OpReadRows 2) p = (Ok b, p1)
  /\ py_df SinkByRow p1 = (Ok (Some f), p2)
  /\ doing SinkByRow (OpReadRows 3) p2 = (Ok b', p3) /\ b' = OBool true
  /\ fst (py_df SinkByRow p3) = Ok (Some f)
  /\ names_and_sizes f = [(bs "ID", 2%nat); (bs "NAME", 2%nat)].
Proof.
  eexists _, _, _, _, _, _, _. split; [apply opened_reading; vm_compute; reflexivity|].
  split; [vm_compute; reflexivity|]. split; [vm_compute; reflexivity|].
  split; [vm_compute; reflexivity|]. vm_compute. auto.
Qed.
Print Assumptions C82_df_sees_all_rows_refuted.

Theorem C82_read_on_refuted : exists p b p1 f p2,
  reading sample_cfg file_source SinkWholeData 0 (fun _ => true) (file_open sample_file) p
  /\ doing SinkWholeData (OpReadRows 2) p = (Ok b, p1)
  /\ py_df SinkWholeData p1 = (Ok (Some f), p2)
  /\ fst (doing SinkWholeData OpReadAll p2) = Undef UB_api.
Proof.
  eexists _, _, _, _, _. split; [apply opened_reading; vm_compute; reflexivity|].
  split; [vm_compute; reflexivity|]. split; [vm_compute; reflexivity|]. vm_compute. reflexivity.
Qed.
Print Assumptions C82_read_on_refuted.

(** C93.  A reader opens with a sink of the package exactly when the names of the columns
    which are wanted are UTF-8 texts; otherwise it raises UnicodeDecodeError, and so does
    read_sas.  For any source. *)
Theorem C93_open : forall S c (src : source S) cls size inc exc s r0 ev,
  open_reader c src (Some (py_filter inc exc)) s = Ok (r0, ev) ->
  (Forall (fun c => utf8_text (c_name c)) (md_columns (rs_md r0)) ->
     fst (py_open c src cls size (py_filter inc exc) s) = Ok tt)
  /\ (~ Forall (fun c => utf8_text (c_name c)) (md_columns (rs_md r0)) ->
     fst (py_open c src cls size (py_filter inc exc) s) = Exn E_unicode_error
     /\ fst (read_sas c src cls size inc exc s) = Exn E_unicode_error).
Proof. exact open_text. Qed.
Print Assumptions C93_open.

(** The check of a name. *)
Theorem C93_utf8 : forall l, utf8_ok l = true <-> utf8_text l.
Proof. exact utf8_ok_text. Qed.
Print Assumptions C93_utf8.

(** Any object with set_properties and push_rows, which takes the properties: no chunk is
    ever given to it when a column of a known type has such a name.  The row which fills
    the chunk and the end of the data raise. *)
Theorem C93_chunks : forall P (o : pyobj P) size h md rows p col,
  In col (md_columns md) -> known col = true -> ~ utf8_text (c_name col) ->
  showable (md_columns md) rows -> lenN rows < W64 -> fst (o (PyProps h md) p) = Ok tt ->
  let k := chunk_sink (noted o) in
  let st := after k (chunk_start size p) (EvProps h md :: SpecSinks.pushes rows) in
  returned (snd (pt_obj st)) = [] /\ pt_cpp st = true
  /\ (rows <> [] -> fst (k EvEnd st) = Exn E_unicode_error /\ returned (snd (pt_obj (snd (k EvEnd st)))) = [])
  /\ (forall i q, showable (md_columns md) [(i, q)] -> lenN rows + 1 < W64 ->
        fst (k (EvRow i q) st) = if lenN rows + 1 =? size then Exn E_unicode_error else Ok tt).
Proof. exact chunks_undecodable. Qed.
Print Assumptions C93_chunks.

(** The name Et with an accent in UTF-8 and in Latin-1; the bytes of a surrogate; too long a form. *)
Example C93_texts : utf8_text [xc3; x89; x74] /\ ~ utf8_text [xc9; x74] /\ ~ utf8_text [xed; xa0; x80]
  /\ ~ utf8_text [xc0; x80] /\ utf8_text [xf0; x9f; x98; x80].
Proof. rewrite <- !utf8_ok_text. vm_compute. intuition discriminate. Qed.

(** A table with one row and a column named in Latin-1. *)
Definition phones : list field_desc :=
  [FieldDesc [x54; xe9; x6c] [] [] 0 2 false; FieldDesc (bs "B") [] [] 2 2 false].
Definition phones_file : bytes := file_bytes Big Bit32 false 320 800 (bs "PHONES") (Table phones 4 [bs "abcd"] []).

Lemma phones_holds : holds_table sample_cfg Big phones [[Text (bs "ab"); Text (bs "cd")]] phones_file.
Proof.
  exists [bs "abcd"]. split.
  - constructor; [|constructor]. unfold row_of, phones. constructor; [|constructor; [|constructor]].
    + exists [], (bs "ab" ++ []), (bs "cd"). split; [reflexivity|]. split; [reflexivity|].
      apply st_text; [reflexivity| |reflexivity|constructor].
      right. exists (bs "a"), x62. split; [reflexivity|]. intros K. vm_compute in K. intuition discriminate.
    + exists (bs "ab"), (bs "cd" ++ []), []. split; [reflexivity|]. split; [reflexivity|].
      apply st_text; [reflexivity| |reflexivity|constructor].
      right. exists (bs "c"), x64. split; [reflexivity|]. intros K. vm_compute in K. intuition discriminate.
  - apply (plain_rows _ _ _ _ Bit32); [reflexivity|reflexivity|apply good_sizesb_ok; vm_compute; reflexivity
      |apply good_tableb_ok; vm_compute; reflexivity| |].
    + unfold room, row_limit. split; [vm_compute; reflexivity|]. split; [vm_compute; discriminate|].
      split; [cbn; lia|]. split; [vm_compute; discriminate|]. vm_compute. lia.
    + left. apply no_compression_nameb_ok. vm_compute. reflexivity.
Qed.

(** False of such a file: nothing is read with any class; without that column, the rest. *)
Theorem C93_names_refuted : exists fields contents file,
  holds_table sample_cfg Big fields contents file
  /\ (forall cls, fst (read_sas sample_cfg file_source cls 4 None None (file_open file)) = Exn E_unicode_error)
  /\ df_of SinkByChunk 4 (Some [bs "B"]) None file = Ok (Some [(bs "B", [Some (VString (bs "cd"))])]).
Proof.
  exists phones, [[Text (bs "ab"); Text (bs "cd")]], phones_file. split; [apply phones_holds|].
  split; [intros []; vm_compute; reflexivity|vm_compute; reflexivity].
Qed.
Print Assumptions C93_names_refuted.

(** An object which takes everything: three rows in chunks of three. *)
Definition latin_columns : list column :=
  [Column [x4e; xe9] [] [] (Formatter FString 0 5 Little);
   Column (bs "N") [] (bs "BEST") (Formatter FSmallInt 5 2 Little)].
Example C93_case :
  (exists col, In col latin_columns /\ known col = true /\ ~ utf8_text (c_name col))
  /\ showable latin_columns ex_rows
  /\ let k := chunk_sink (noted (fun _ (n : nat) => (Ok tt, Datatypes.S n))) in
     let st n := after k (chunk_start 3 0%nat)
                   (EvProps empty_header (ex_meta 3 latin_columns) :: SpecSinks.pushes (firstn n ex_rows)) in
     map (fun r => fst (k (EvRow (fst r) (snd r)) (st 1%nat))) ex_rows = [Ok tt; Ok tt; Ok tt]
     /\ map (fun r => fst (k (EvRow (fst r) (snd r)) (st 2%nat))) ex_rows
        = [Exn E_unicode_error; Exn E_unicode_error; Exn E_unicode_error]
     /\ fst (k EvEnd (st 1%nat)) = Exn E_unicode_error.
Proof.
  split; [eexists; split; [left; reflexivity|]; split; [reflexivity|]; rewrite <- utf8_ok_text; discriminate|].
  split; [|vm_compute; auto].
  repeat (constructor; [repeat constructor; intros _|]); try constructor;
    first [eexists (VString _); split; [split; [reflexivity|vm_compute; reflexivity]|exact Logic.I]
          |eexists (VInteger _); split; [split; [reflexivity|vm_compute; reflexivity]|exact Logic.I]].
Qed.
