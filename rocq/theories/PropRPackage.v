(** The R package: read_sas and the sink classes of sink.R (C86 to C89, C99). *)
From Coq Require Import Permutation.
From Verif Require Import Base Types DateTime Buffer Page Column Header Metadata Decomp Data Reader Drive Sinks
  Callbacks RPackage SpecDecomp SpecReader SpecDrive SpecTime SpecSinks SpecFile SpecCells SpecTable SpecPython
  SpecRPackage Samples ProofRChunks ProofRPackage ProofRFile ProofRRow ProofRProps PropSinks PropCells PropCallbacks PropPython.
Local Open Scope N_scope.

(** C86.  With the class SinkByRow of the package no file can be opened, for any source:
    set_properties asks for row_count and column_count inside metadata, where they are
    not. *)
Theorem C86_by_row_never_opens : forall S c (src : source S) mk size flt s,
  fst (r_open c src mk RSinkByRow size flt s) <> Ok tt.
Proof. exact by_row_never. Qed.
Print Assumptions C86_by_row_never_opens.

Definition r_opens (cls : r_class) (file : bytes) : res unit :=
  fst (r_open sample_cfg file_source (fun l => l) cls 4 (fun _ => true) (file_open file)).

(** False: a file which opens with one class opens with each. *)
Theorem C86_classes_agree_refuted : exists file,
  r_opens RSinkWholeData file = Ok tt /\ r_opens RSinkByChunk file = Ok tt
  /\ r_opens RSinkByRow file = Exn E_r_extent.
Proof. exists sample_file. vm_compute. auto. Qed.
Print Assumptions C86_classes_agree_refuted.

(** Nor does a file with a created or modified date which has no text: the C++ reader reads
    it, R cannot open it with any class. *)
Definition odd_date_file : bytes :=
  firstn 164 sample_file ++ SpecValues.write_int Big 8 13994078682612760576 ++ skipn 172 sample_file.

Theorem C86_dates_refuted : exists file r ev,
  open_reader sample_cfg file_source None (file_open file) = Ok (r, ev)
  /\ md_row_count (rs_md r) = 6
  /\ ~ dated (rs_h r)
  /\ r_opens RSinkWholeData file = Exn E_bad_year
  /\ r_opens RSinkByChunk file = Exn E_bad_year.
Proof.
  exists odd_date_file.
  destruct (open_reader sample_cfg file_source None (file_open odd_date_file)) as [[r ev]| | | |] eqn:O;
    try (vm_compute in O; discriminate O).
  exists r, ev. vm_compute in O. injection O as <- <-.
  split; [reflexivity|]. split; [reflexivity|].
  split; [intros [[t E] _]; vm_compute in E; discriminate E|]. vm_compute. auto.
Qed.
Print Assumptions C86_dates_refuted.

(** C87.  read_sas(file, include, exclude) in R has one column for each wanted field, with
    its name; each column has the contents of its field, in the order of the rows.  Names
    and texts are those of the file up to a zero byte.  For files of known content with at
    least one row and at most [r_rows_limit] rows.  The full statement has no condition on
    the rows, the columns in the order of the file, and whole texts. *)
Theorem C87_table_partial : forall c mk size inc exc e fields contents file, holds_table c e fields contents file ->
  contents <> [] -> lenN contents <= r_rows_limit ->
  exists p f js, r_read c file_source mk RSinkWholeData size inc exc (file_open file) = (Ok tt, p)
    /\ r_df p = Some f
    /\ NoDup js
    /\ (forall j, In j js <-> exists d, nth_error fields j = Some d /\ wanted inc exc (fd_name d))
    /\ Forall2 (r_column_is fields contents) js f.
Proof. exact r_read_file. Qed.
Print Assumptions C87_table_partial.

(** For any source, when the reader gives these rows. *)
Theorem C87_df_partial : forall S c (src : source S) mk size inc exc s r0 ev r1 rows, max_alloc c < row_limit ->
  open_reader c src (Some (r_filter inc exc)) s = Ok (r0, ev) ->
  read_all c src r0 = (Ok tt, r1, SpecSinks.pushes rows ++ [EvEnd]) ->
  dated (rs_h r0) -> md_row_count (rs_md r0) <= r_rows_limit -> r_readable (md_columns (rs_md r0)) rows ->
  exists p order names, r_read c src mk RSinkWholeData size inc exc s = (Ok tt, p)
    /\ Permutation order (filter known (md_columns (rs_md r0)))
    /\ Forall2 (fun c n => until_zero (c_name c) n) order names
    /\ r_df_is names order rows (r_df p).
Proof. exact r_read_whole_names. Qed.
Print Assumptions C87_df_partial.

Definition r_df_of (cls : r_class) (size : N) (inc exc : option (list bytes)) (file : bytes) : option rframe :=
  r_df (snd (r_read sample_cfg file_source (fun l => l) cls size inc exc (file_open file))).

Example C87_hypotheses : holds_table sample_cfg Big people [ann; nobody] people_file
  /\ [ann; nobody] <> [] /\ lenN [ann; nobody] <= r_rows_limit.
Proof. split; [apply C73_case|]. split; [discriminate|]. vm_compute. discriminate. Qed.

Definition six_names : list (option rval) :=
  map (fun t => Some (RText t)) [bs "abcd"; bs "efgh"; bs "ijkl"; bs "mnop"; bs "qrst"; bs "uvwx"].

Example C87_case : r_df_of RSinkWholeData 0 None (Some [bs "ID"]) sample_file = Some [(bs "NAME", six_names)].
Proof. vm_compute. reflexivity. Qed.

(** False: the columns are in the order of the file. *)
Theorem C87_order_refuted : exists file fields f, holds_table sample_cfg Big fields [ann; nobody] file
  /\ r_df_of RSinkWholeData 0 None None file = Some f
  /\ Permutation (map fst f) (map fd_name fields) /\ map fst f <> map fd_name fields.
Proof.
  exists people_file, people. eexists. split; [apply C73_case|]. split; [vm_compute; reflexivity|].
  split; [|vm_compute; discriminate].
  apply NoDup_Permutation; [vm_compute; repeat constructor; cbn; intuition discriminate
    |vm_compute; repeat constructor; cbn; intuition discriminate|].
  intros x. cbn. intuition.
Qed.
Print Assumptions C87_order_refuted.

(** False: a text is whole.  A text with a zero byte inside ends there. *)
Theorem C87_zero_refuted : exists file contents, holds_table sample_cfg Big pair_fields contents file
  /\ contents = [[Text [x61; x00; x62]; Text (bs "z")]]
  /\ r_df_of RSinkWholeData 0 None None file
     = Some [(bs "A", [Some (RText (bs "a"))]); (bs "B", [Some (RText (bs "z"))])].
Proof.
  assert (U : forall t b, ~ SpecValues.blank b -> unpadded (t ++ [b])) by (intros t b NB; right; exists t, b; auto).
  exists (pair_file (([x61; x00; x62] ++ bs "  ") ++ (bs "z" ++ bs "    "))). eexists.
  split; [|split; [reflexivity|vm_compute; reflexivity]].
  apply pair_holds; [reflexivity|reflexivity|apply (U [x61; x00])|apply (U [])|repeat constructor|repeat constructor
    |vm_compute; reflexivity]; intros K; vm_compute in K; intuition discriminate.
Qed.
Print Assumptions C87_zero_refuted.

(** False for a file without rows: there is no data frame, df is NULL. *)
Theorem C87_no_rows_refuted : exists file,
  fst (r_read sample_cfg file_source (fun l => l) RSinkWholeData 0 None None (file_open file)) = Ok tt
  /\ r_df_of RSinkWholeData 0 None None file = None.
Proof. exists no_rows. vm_compute. auto. Qed.
Print Assumptions C87_no_rows_refuted.

(** C88.  What SinkByChunk holds at the end: the rows of the file when there are fewer than
    two full chunks; else the second chunk stands in the place of the first, and again in
    its own.  [mk] are the names data.frame makes of the names. *)
Theorem C88_chunks : forall S c (src : source S) mk size inc exc s r0 ev r1 rows, max_alloc c < row_limit ->
  (forall l, length (mk l) = length l) ->
  open_reader c src (Some (r_filter inc exc)) s = Ok (r0, ev) ->
  read_all c src r0 = (Ok tt, r1, SpecSinks.pushes rows ++ [EvEnd]) ->
  dated (rs_h r0) -> md_row_count (rs_md r0) <= r_rows_limit -> r_readable (md_columns (rs_md r0)) rows ->
  lenN rows = md_row_count (rs_md r0) ->
  exists p order names, r_read c src mk RSinkByChunk size inc exc s = (Ok tt, p)
    /\ Permutation order (filter known (md_columns (rs_md r0)))
    /\ Forall2 (fun c n => until_zero (c_name c) n) order names
    /\ r_df_is (mk names) order (r_kept_rows size rows) (r_df p).
Proof. exact r_read_chunks_names. Qed.
Print Assumptions C88_chunks.

(** The same for the files of known content: the columns have the contents of their fields
    in the rows which are kept; the names are those made of the names of the fields. *)
Theorem C88_file : forall c mk size inc exc e fields contents file, holds_table c e fields contents file ->
  (forall l, length (mk l) = length l) ->
  contents <> [] -> lenN contents <= r_rows_limit ->
  exists p f names js, r_read c file_source mk RSinkByChunk size inc exc (file_open file) = (Ok tt, p)
    /\ r_df p = Some f
    /\ NoDup js
    /\ (forall j, In j js <-> exists d, nth_error fields j = Some d /\ wanted inc exc (fd_name d))
    /\ map fst f = mk names
    /\ Forall2 (r_column_is fields (r_kept_rows size contents)) js (combine names (map snd f)).
Proof. exact r_chunks_file. Qed.
Print Assumptions C88_file.

(** The six rows of the sample file meet the hypotheses. *)
Example C88_hypotheses : exists r0 ev r1 rows,
  open_reader sample_cfg file_source (Some (r_filter None (Some [bs "ID"]))) (file_open sample_file) = Ok (r0, ev)
  /\ read_all sample_cfg file_source r0 = (Ok tt, r1, SpecSinks.pushes rows ++ [EvEnd])
  /\ dated (rs_h r0) /\ md_row_count (rs_md r0) <= r_rows_limit /\ r_readable (md_columns (rs_md r0)) rows
  /\ lenN rows = md_row_count (rs_md r0) /\ lenN rows = 6 /\ max_alloc sample_cfg < row_limit.
Proof.
  destruct (open_reader sample_cfg file_source (Some (r_filter None (Some [bs "ID"]))) (file_open sample_file))
    as [[r0 ev]| | | |] eqn:O; try (vm_compute in O; discriminate O).
  exists r0, ev. vm_compute in O. injection O as <- <-.
  eexists _, [(0, _); (1, _); (2, _); (3, _); (4, _); (5, _)].
  split; [reflexivity|]. split; [vm_compute; reflexivity|].
  split; [split; eexists; vm_compute; reflexivity|]. split; [vm_compute; discriminate|].
  split; [|vm_compute; auto].
  assert (S : forall c p s, c_type c = TString /\ c_get_string c p = Ok s -> exists y, r_cell c p y).
  { intros c p s H. exists (RText (r_text s)), (VString s).
    split; [exact H|exists (r_text s); split; [apply r_text_until|reflexivity]]. }
  repeat (constructor; [constructor; [intros _; eapply S; split; [reflexivity|vm_compute; reflexivity]|constructor]|]).
  constructor.
Qed.

(** False: SinkByChunk holds the table.  Six rows in chunks of two: the rows 0 and 1 are
    gone, the rows 2 and 3 are there twice. *)
Theorem C88_table_refuted : exists file,
  r_df_of RSinkWholeData 0 None (Some [bs "ID"]) file = Some [(bs "NAME", six_names)]
  /\ r_df_of RSinkByChunk 2 None (Some [bs "ID"]) file
     = Some [(bs "NAME", map (fun t => Some (RText t))
         [bs "ijkl"; bs "mnop"; bs "ijkl"; bs "mnop"; bs "qrst"; bs "uvwx"])]
  /\ r_df_of RSinkByChunk 4 None (Some [bs "ID"]) file = Some [(bs "NAME", six_names)].
Proof. exists sample_file. vm_compute. auto. Qed.
Print Assumptions C88_table_refuted.

(** C89.  The row sink of the R binding gives an object which looks at each row when it is
    pushed the index and the cells of the row. *)
Theorem C89_rows : forall size h md rows, dated h -> r_readable (md_columns md) rows ->
  let k := rrow_sink r_looks in
  let evs := EvProps h md :: SpecSinks.pushes rows ++ [EvEnd] in
  accepts k (rsink_new size, []) evs
  /\ Forall2 (fun r x => fst x = fst r /\ r_row_is (md_columns md) (snd r) (snd x)) rows
       (snd (after k (rsink_new size, []) evs)).
Proof. exact row_sink_shows. Qed.
Print Assumptions C89_rows.

(** An object which keeps the lists has, at the end, the cells of the last row in each. *)
Theorem C89_kept_rows : forall size h md rows r, dated h -> r_readable (md_columns md) (rows ++ [r]) ->
  let k := rrow_sink r_keeps in
  let evs := EvProps h md :: SpecSinks.pushes (rows ++ [r]) ++ [EvEnd] in
  accepts k (rsink_new size, []) evs
  /\ let '(st, refs) := after k (rsink_new size, []) evs in
     length refs = length (rows ++ [r])
     /\ Forall (fun w => r_row_is (md_columns md) (snd r) (nth w (r_heap st) [])) refs.
Proof. exact row_sink_keeps. Qed.
Print Assumptions C89_kept_rows.

Example C89_hypotheses : dated dated_header /\ r_readable ex_columns ex_rows.
Proof.
  split; [|exact ex_r_readable]. split; eexists; vm_compute; reflexivity.
Qed.

(** False: the lists which were pushed hold their rows. *)
Theorem C89_keeping_refuted : exists h md rows st refs,
  dated h /\ r_readable (md_columns md) rows
  /\ after (rrow_sink r_keeps) (rsink_new 0, []) (EvProps h md :: SpecSinks.pushes rows ++ [EvEnd]) = (st, refs)
  /\ map (fun w => nth w (r_heap st) []) refs
     = repeat [Some (RText (bs "xyz")); Some (RInt 255)] 3
  /\ map snd (snd (after (rrow_sink r_looks) (rsink_new 0, []) (EvProps h md :: SpecSinks.pushes rows ++ [EvEnd])))
     = [[Some (RText (bs "a,b")); Some (RInt 7)]; [Some (RText []); Some (RInt 0)];
        [Some (RText (bs "xyz")); Some (RInt 255)]].
Proof.
  exists dated_header, (ex_meta 3 ex_columns), ex_rows. eexists _, _.
  split; [apply C89_hypotheses|]. split; [apply C89_hypotheses|].
  split; [vm_compute; reflexivity|]. vm_compute. auto.
Qed.
Print Assumptions C89_keeping_refuted.

(** C99.  An R object is told what is known of the file, each fact under its name; words,
    texts up to a zero byte, days and times, numbers, and the columns.  With any object
    and any of the three sinks of the binding. *)
Theorem C99_told : forall P (o : robj P) k h md st a, dated h ->
  exists q, r_properties_say h md q
    /\ fst (r_kind_sink k o (EvProps h md) (st, a)) = fst (o (RqProps q) a)
    /\ snd (snd (r_kind_sink k o (EvProps h md) (st, a))) = snd (o (RqProps q) a).
Proof. exact r_object_told. Qed.
Print Assumptions C99_told.

(** The classes of the package keep it, whatever is read; the attribute columns is empty. *)
Theorem C99_kept : forall S c (src : source S) mk cls size flt s r ev ops, cls <> RSinkByRow ->
  open_reader c src (Some flt) s = Ok (r, ev) -> dated (rs_h r) ->
  exists p, r_open c src mk cls size flt s = (Ok tt, p)
    /\ let ob := snd (rp_st (fold_left (fun p o => snd (r_do c src mk cls o p)) ops p)) in
       r_properties_say (rs_h r) (rs_md r) (rob_properties ob) /\ rob_columns ob = [].
Proof. exact r_told. Qed.
Print Assumptions C99_kept.

Definition told_of (file : bytes) : rv :=
  rob_properties (snd (rp_st (snd
    (r_open sample_cfg file_source (fun l => l) RSinkWholeData 0 (fun _ => true) (file_open file))))).

(** The six rows and the columns of the sample file. *)
Example C99_case :
  r_dollar (told_of sample_file) (bs "endianness") = Ok (RvText (bs "big"))
  /\ r_dollar (told_of sample_file) (bs "dataset_name") = Ok (RvText (bs "SAMPLE"))
  /\ r_dollar (told_of sample_file) (bs "date_created") = Ok (RvText (bs "1960-01-01 00:00:00"))
  /\ r_dollar (told_of sample_file) (bs "row_count") = Ok (RvNum 4618441417868443648)
  /\ (cs <- r_dollar (told_of sample_file) (bs "columns") ;; c <- r_dollar cs (bs "NAME") ;; r_dollar c (bs "type"))
     = Ok (RvText (bs "string")).
Proof. vm_compute. auto 10. Qed.

(** False: sink$columns has the names of the columns. *)
Theorem C99_columns_refuted : exists file r ev,
  open_reader sample_cfg file_source None (file_open file) = Ok (r, ev)
  /\ map c_name (md_columns (rs_md r)) = [bs "ID"; bs "NAME"]
  /\ rob_columns (snd (rp_st (snd
       (r_open sample_cfg file_source (fun l => l) RSinkWholeData 0 (fun _ => true) (file_open file))))) = [].
Proof.
  exists sample_file. eexists _, _. split; [vm_compute; reflexivity|]. vm_compute. auto.
Qed.
Print Assumptions C99_columns_refuted.

(** False: the numbers are exact.  2^53 + 1 becomes 2^53. *)
Definition big_number_file : bytes :=
  firstn 634 sample_file_64 ++ SpecValues.write_int Little 8 (2 ^ 53 + 1) ++ skipn 642 sample_file_64.

Theorem C99_numbers_refuted : exists file r ev b,
  open_reader sample_cfg file_source None (file_open file) = Ok (r, ev)
  /\ md_col_count_p1 (rs_md r) = 2 ^ 53 + 1
  /\ r_dollar (told_of file) (bs "col_count_p1") = Ok (RvNum b)
  /\ b = 1076 * 2 ^ 52.
Proof.
  exists big_number_file. eexists _, _, _. split; [vm_compute; reflexivity|]. split; [vm_compute; reflexivity|].
  split; [vm_compute; reflexivity|]. vm_compute. reflexivity.
Qed.
Print Assumptions C99_numbers_refuted.

(** False: all of it is given.  The format of the file, 32 or 64 bits, is not; the report
    has it. *)
Theorem C99_format_refuted : exists file r ev,
  open_reader sample_cfg file_source None (file_open file) = Ok (r, ev)
  /\ h_format (rs_h r) = Bit64 /\ r_dollar (told_of file) (bs "format") = Ok RvNull.
Proof.
  exists sample_file_64. eexists _, _. split; [vm_compute; reflexivity|]. vm_compute. auto.
Qed.
Print Assumptions C99_format_refuted.
