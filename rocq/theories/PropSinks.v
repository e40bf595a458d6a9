(** Properties of the sinks and of the command line program (C58 to C65, C68, C69). *)
From Coq Require Import Permutation.
From Verif Require Import Base Types Buffer Float DateTime Page Column Header Metadata Decomp Data Reader
  SpecDecomp SpecReader SpecFile Samples Sinks Cli SpecSinks ProofReader ProofCsv ProofPyChunks ProofRChunks ProofCli.
Local Open Scope N_scope.

(** A table for the examples: a text of five bytes, a two byte integer, and rows of
    seven bytes. *)
Definition ex_columns : list column :=
  [Column (bs "NAME") [] [] (Formatter FString 0 5 Little);
   Column (bs "N") [] (bs "BEST") (Formatter FSmallInt 5 2 Little)].
Definition ex_meta (rows : N) (cs : list column) : metadata :=
  Metadata CompNone [] [] 7 rows (lenN cs) (lenN cs) 0 0 0 0 cs.
Definition ex_row (i : N) (t : bytes) (n : byte) : N * pview := (i, PView (map Some (t ++ [n; x00])) 0).
Definition ex_formats : csv_fmt := CsvFmt (fun _ => bs "1.5") (fun _ => []) (fun _ => []) (fun _ => []).
Definition ex_rows : list (N * pview) :=
  [ex_row 0 (bs "a,b  ") x07; ex_row 1 (bs "     ") x00; ex_row 2 (bs "xyz  ") xff].

Example ex_formats_bare : bare_formats ex_formats.
Proof. repeat split; cbn; intuition discriminate. Qed.

Example ex_readable : readable ex_columns ex_rows.
Proof.
  repeat (constructor; [repeat constructor; intros _|]); try constructor;
    first [eexists (VString _); split; [reflexivity|vm_compute; reflexivity]
          |eexists (VInteger _); split; [reflexivity|vm_compute; reflexivity]].
Qed.

Example ex_r_readable : r_readable ex_columns ex_rows.
Proof.
  assert (S : forall c p s, c_type c = TString /\ c_get_string c p = Ok s -> exists y, r_cell c p y).
  { intros c p s H. exists (RText (r_text s)), (VString s).
    split; [exact H|exists (r_text s); split; [apply r_text_until|reflexivity]]. }
  assert (I : forall c p z, c_type c = TInteger /\ c_get_integer c p = Ok z -> exists y, r_cell c p y).
  { intros c p z H. exists (RInt z), (VInteger z). split; [exact H|reflexivity]. }
  repeat (constructor; [constructor; [intros _; eapply S; split; [reflexivity|vm_compute; reflexivity]|
    constructor; [intros _; eapply I; split; [reflexivity|vm_compute; reflexivity]|constructor]]|]). constructor.
Qed.

(** C58.  The csv sink writes a line for the names and a line for each row; each has one
    field per column, the text of the value of the row in that column. *)
Theorem C58_lines : forall f h md evs, bare_formats f -> md_columns md <> [] ->
  names_clean (md_columns md) -> no_props evs -> readable (md_columns md) (rows_of evs) ->
  Forall (fun r => texts_clean (md_columns md) (snd r)) (rows_of evs) ->
  exists header lines,
    csv_run f (EvProps h md :: evs) = Ok (concat (map (fun l => l ++ [x0a]) (header :: lines)))
    /\ ~ In x0a header
    /\ csv_fields header = map (fun c => [x22] ++ c_name c ++ [x22]) (md_columns md)
    /\ Forall2 (fun r line => csv_line_of f (md_columns md) (snd r) line) (rows_of evs) lines.
Proof. exact csv_output. Qed.
Print Assumptions C58_lines.

Theorem C58_no_columns : forall f h md evs, md_columns md = [] -> no_props evs ->
  csv_run f (EvProps h md :: evs) = Ok (repeat x0a (Datatypes.S (length (rows_of evs)))).
Proof. exact csv_no_columns. Qed.
Print Assumptions C58_no_columns.

Example C58_case :
  csv_run ex_formats (EvProps empty_header (ex_meta 3 ex_columns) :: pushes ex_rows ++ [EvEnd])
  = Ok (bs """NAME"",""N""" ++ [x0a] ++ bs """a,b"",7" ++ [x0a] ++ bs """"",0" ++ [x0a]
        ++ bs """xyz"",255" ++ [x0a])
  /\ csv_fields (bs """a,b"",7") = [bs """a,b"""; bs "7"].
Proof. vm_compute. auto. Qed.

(** C59.  False: a text with a quote is not escaped.  The rows (a","b ; c) and
    (a ; b","c) give the same line. *)
Theorem C59_text_determines_refuted : exists f cs p q line,
  Forall (fun c => c_type c = TString) cs
  /\ csv_row f cs p = Ok line /\ csv_row f cs q = Ok line
  /\ map (fun c => c_get_string c p) cs <> map (fun c => c_get_string c q) cs.
Proof.
  exists ex_formats, [Column (bs "A") [] [] (Formatter FString 0 5 Little);
                      Column (bs "B") [] [] (Formatter FString 5 5 Little)],
    (PView (map Some (bs "a"",""bc    ")) 0), (PView (map Some (bs "a    b"",""c")) 0),
    (bs """a"",""b"",""c""" ++ [x0a]).
  split; [repeat constructor|]. split; [vm_compute; reflexivity|]. split; [vm_compute; reflexivity|].
  vm_compute. discriminate.
Qed.
Print Assumptions C59_text_determines_refuted.

(** What holds: without quotes and line breaks in the texts, equal lines come from equal
    texts.  The full statement is without [texts_clean]. *)
Theorem C59_text_determines_partial : forall f cs p q line line', bare_formats f -> cs <> [] ->
  Forall (fun c => c_type c = TString) cs -> texts_clean cs p -> texts_clean cs q ->
  csv_row f cs p = Ok line -> csv_row f cs q = Ok line' -> line = line' ->
  Forall (fun c => c_get_string c p = c_get_string c q) cs.
Proof. exact csv_line_det. Qed.
Print Assumptions C59_text_determines_partial.

Example C59_case :
  let cs := [Column (bs "A") [] [] (Formatter FString 0 3 Little);
             Column (bs "B") [] [] (Formatter FString 3 3 Little)] in
  csv_row ex_formats cs (PView (map Some (bs "a,bc  ")) 0) = Ok (bs """a,b"",""c""" ++ [x0a])
  /\ csv_row ex_formats cs (PView (map Some (bs "a  b,c")) 0) = Ok (bs """a"",""b,c""" ++ [x0a]).
Proof. vm_compute. auto. Qed.

(** C60.  False: the name is used as a format string.  A brace is an error, a doubled
    one is printed once. *)
Theorem C60_names_verbatim_refuted : exists props h md,
  print_header props h md = Exn E_format_error.
Proof.
  exists (fun _ _ => []), empty_header, (ex_meta 0 [Column (bs "A{B") [] [] (Formatter FString 0 5 Little)]).
  vm_compute. reflexivity.
Qed.
Print Assumptions C60_names_verbatim_refuted.

(** What holds: the names are printed verbatim exactly when none has a brace. *)
Theorem C60_names_verbatim_partial : forall props h md,
  print_header props h md
  = Ok (props h md ++ bs "#" ++ concat (map (fun c => [x2c] ++ c_name c) (md_columns md)) ++ [x0a])
  <-> Forall (fun c => ~ In x7b (c_name c) /\ ~ In x7d (c_name c)) (md_columns md).
Proof. exact print_header_iff. Qed.
Print Assumptions C60_names_verbatim_partial.

Example C60_case :
  print_header (fun _ _ => []) empty_header (ex_meta 0 ex_columns) = Ok (bs "#,NAME,N" ++ [x0a])
  /\ print_header (fun _ _ => []) empty_header
       (ex_meta 0 [Column (bs "A{{") [] [] (Formatter FString 0 5 Little)]) = Ok (bs "#,A{" ++ [x0a]).
Proof. vm_compute. auto. Qed.

(** C61.  When the columns have different names, the rows pushed before end_of_data
    are delivered in order, each once, in chunks of the given size (the last one may be
    shorter); with size 0 there is one chunk.  The full statement is without [NoDup]. *)
Theorem C61_chunks_partial : forall size h md rows, NoDup (map c_name (filter known (md_columns md))) ->
  readable (md_columns md) rows -> lenN rows < W64 ->
  exists s calls cks,
    feed pychunk_step (pychunk_new size, []) (EvProps h md :: pushes rows ++ [EvEnd]) = Ok (s, calls)
    /\ chunked size rows cks
    /\ Forall2 (py_chunk (md_columns md)) cks calls.
Proof.
  exact (fun size h md rows ND RD B =>
    match py_read_all size h md rows ND RD B with
    | ex_intro _ s (ex_intro _ calls (ex_intro _ cks (conj F (conj G (conj K _))))) =>
        ex_intro _ s (ex_intro _ calls (ex_intro _ cks (conj F (conj G K))))
    end).
Qed.
Print Assumptions C61_chunks_partial.

(** The same for every history which ends with end_of_data: it may also come earlier,
    then a chunk may be shorter. *)
Theorem C61_history_partial : forall size h md evs, NoDup (map c_name (filter known (md_columns md))) ->
  no_props evs -> readable (md_columns md) (rows_of evs) -> lenN (rows_of evs) < W64 ->
  exists s calls cks,
    feed pychunk_step (pychunk_new size, []) (EvProps h md :: evs ++ [EvEnd]) = Ok (s, calls)
    /\ rows_of evs = concat cks
    /\ Forall2 (py_chunk (md_columns md)) cks calls
    /\ Forall (fun ch => ch <> []) cks
    /\ (size <> 0 -> Forall (fun ch => lenN ch <= size) cks).
Proof.
  exact (fun size h md evs ND NP RD B =>
    match py_history size h md evs ND NP RD B with
    | ex_intro _ s (ex_intro _ calls (ex_intro _ cks (conj F (conj G (conj K (conj L (conj M _))))))) =>
        ex_intro _ s (ex_intro _ calls (ex_intro _ cks (conj F (conj G (conj K (conj L M))))))
    end).
Qed.
Print Assumptions C61_history_partial.

(** SinkData: everything at once. *)
Theorem C61_data_partial : forall h md rows size, NoDup (map c_name (filter known (md_columns md))) ->
  readable (md_columns md) rows -> lenN rows < W64 ->
  exists s calls,
    feed pydata_step (pychunk_new size, []) (EvProps h md :: pushes rows ++ [EvEnd]) = Ok (s, calls)
    /\ py_delivered (md_columns md) rows calls.
Proof. exact pydata_all. Qed.
Print Assumptions C61_data_partial.

(** The same for every history which ends with end_of_data: each row is in one call, also
    when end_of_data comes more than once. *)
Theorem C61_data_history_partial : forall size h md evs, NoDup (map c_name (filter known (md_columns md))) ->
  no_props evs -> readable (md_columns md) (rows_of evs) -> lenN (rows_of evs) < W64 ->
  exists s calls cks,
    feed pydata_step (pychunk_new size, []) (EvProps h md :: evs ++ [EvEnd]) = Ok (s, calls)
    /\ rows_of evs = concat cks
    /\ Forall2 (fun ch k => exists d, k = PySetData d /\ py_data (md_columns md) ch d) cks calls
    /\ Forall (fun ch => ch <> []) cks.
Proof. exact pydata_history. Qed.
Print Assumptions C61_data_history_partial.

Example C61_data_history_case :
  rmap snd (feed pydata_step (pychunk_new 0, [])
    (EvProps empty_header (ex_meta 3 ex_columns) :: pushes ex_rows ++ [EvEnd; EvEnd]))
  = Ok [PySetData [(bs "N", [VInteger 7; VInteger 0; VInteger 255]);
                   (bs "NAME", [VString (bs "a,b"); VString []; VString (bs "xyz")])]].
Proof. vm_compute. reflexivity. Qed.

Example C61_case :
  rmap snd (feed pychunk_step (pychunk_new 2, [])
    (EvProps empty_header (ex_meta 3 ex_columns) :: pushes ex_rows ++ [EvEnd]))
  = Ok [PyPushRows 0 1 [(bs "N", [VInteger 7; VInteger 0]); (bs "NAME", [VString (bs "a,b"); VString []])];
        PyPushRows 2 2 [(bs "N", [VInteger 255]); (bs "NAME", [VString (bs "xyz")])]].
Proof. vm_compute. reflexivity. Qed.

Example C61_case_hypotheses : NoDup (map c_name (filter known ex_columns)).
Proof. repeat constructor; cbn; intuition discriminate. Qed.

(** False when two columns have the same name: the dict has one entry, the values of
    the first column are not delivered. *)
Theorem C61_same_names_refuted : exists h md rows s d c v,
  feed pychunk_step (pychunk_new 0, []) (EvProps h md :: pushes rows ++ [EvEnd]) = Ok (s, [PyPushRows 0 0 d])
  /\ In c (md_columns md) /\ Forall (fun r => cell_value c (snd r) v) rows
  /\ forall name vs, In (name, vs) d -> ~ In v vs.
Proof.
  exists empty_header, (ex_meta 1 [Column (bs "A") [] [] (Formatter FString 0 2 Little);
                                   Column (bs "A") [] [] (Formatter FString 2 2 Little)]),
    [ex_row 0 (bs "abcd ") x00].
  eexists _, [(bs "A", [VString (bs "cd")])], (Column (bs "A") [] [] (Formatter FString 0 2 Little)), (VString (bs "ab")).
  split; [vm_compute; reflexivity|]. split; [left; reflexivity|].
  split; [constructor; [split; [reflexivity|vm_compute; reflexivity]|constructor]|].
  intros name vs [E|[]] I. injection E as <- <-. destruct I as [I|[]]. discriminate.
Qed.
Print Assumptions C61_same_names_refuted.

(** C62.  False after a skip: rows 0, 1, 5, 6 in chunks of two; the second chunk is
    announced as starting at row 2. *)
Theorem C62_range_refuted : exists size h md rows s calls,
  increasing 0 (md_row_count md) rows
  /\ feed pychunk_step (pychunk_new size, []) (EvProps h md :: pushes rows ++ [EvEnd]) = Ok (s, calls)
  /\ exists first last d, In (PyPushRows first last d) calls /\ ~ In first (map fst rows).
Proof.
  exists 2, empty_header, (ex_meta 9 ex_columns),
    [ex_row 0 (bs "aaaaa") x00; ex_row 1 (bs "bbbbb") x01; ex_row 5 (bs "fffff") x05; ex_row 6 (bs "ggggg") x06].
  eexists _, _. split; [cbn; lia|]. split; [vm_compute; reflexivity|].
  eexists 2, 6, _. split; [right; left; reflexivity|]. cbn. intuition discriminate.
Qed.
Print Assumptions C62_range_refuted.

(** What holds: without skips (the indices are 0, 1, 2, ...) both bounds are right,
    also when end_of_data comes early; [py_chunk] in C61 says that the end is always
    right. *)
Theorem C62_range_partial : forall size h md evs, NoDup (map c_name (filter known (md_columns md))) ->
  no_props evs -> readable (md_columns md) (rows_of evs) -> lenN (rows_of evs) < W64 ->
  consecutive 0 (rows_of evs) ->
  exists s calls cks,
    feed pychunk_step (pychunk_new size, []) (EvProps h md :: evs ++ [EvEnd]) = Ok (s, calls)
    /\ rows_of evs = concat cks /\ Forall2 (py_chunk (md_columns md)) cks calls
    /\ Forall2 py_ranges cks calls.
Proof.
  exact (fun size h md evs ND NP RD B CO =>
    match py_history size h md evs ND NP RD B with
    | ex_intro _ s (ex_intro _ calls (ex_intro _ cks (conj F (conj G (conj K (conj _ (conj _ (conj _ R)))))))) =>
        ex_intro _ s (ex_intro _ calls (ex_intro _ cks (conj F (conj G (conj K (R CO))))))
    end).
Qed.
Print Assumptions C62_range_partial.

Example C62_case : consecutive 0 ex_rows /\ py_range ex_rows 0 2.
Proof. split; [reflexivity|]. exists [0; 1]. split; reflexivity. Qed.

(** C63.  The rows a reader pushes over any history have increasing indices, below the
    row count. *)
Theorem C63_reader_rows : forall S c (src : source S) flt s r0 ops t r,
  max_alloc c < row_limit -> opened c src flt s r0 -> trace c src ops (Some r0) = (t, r) ->
  increasing 0 (md_row_count (rs_md r0)) (rows_of (all_events t)).
Proof. exact history_increasing. Qed.
Print Assumptions C63_reader_rows.

(** For such rows, and end_of_data at the end, the R chunk sink writes inside its
    vectors and delivers every row once, in order, with its index: what R receives in
    each call are the indices and the values of the rows of the chunk. *)
Theorem C63_chunks_partial : forall size h md rows k, md_row_count md <= r_rows_limit ->
  r_readable (md_columns md) rows -> increasing 0 (md_row_count md) rows ->
  exists s calls cks order,
    feed rchunk_step (rsink_new size, []) (EvProps h md :: pushes rows ++ repeat EvEnd (Datatypes.S k)) = Ok (s, calls)
    /\ chunked size rows cks
    /\ Permutation order (filter known (md_columns md))
    /\ Forall2 (r_data order) cks calls.
Proof.
  exact (fun size h md rows k B RD INC =>
    match r_chunks size h md rows k B RD INC with
    | ex_intro _ s (ex_intro _ calls (ex_intro _ cks (conj F (conj G K)))) =>
        ex_intro _ s (ex_intro _ calls (ex_intro _ cks (ex_intro _ (grouped (md_columns md))
          (conj F (conj G (conj (grouped_perm (md_columns md)) K))))))
    end).
Qed.
Print Assumptions C63_chunks_partial.

Theorem C63_data_partial : forall h md rows, md_row_count md <= r_rows_limit ->
  r_readable (md_columns md) rows -> increasing 0 (md_row_count md) rows ->
  exists s calls order,
    feed rdata_step (rsink_new 0, []) (EvProps h md :: pushes rows ++ [EvEnd]) = Ok (s, calls)
    /\ Permutation order (filter known (md_columns md))
    /\ r_delivered order rows calls.
Proof.
  exact (fun h md rows B RD INC =>
    match r_data_all h md rows B RD INC with
    | ex_intro _ s (ex_intro _ calls (conj F G)) =>
        ex_intro _ s (ex_intro _ calls (ex_intro _ (grouped (md_columns md))
          (conj F (conj (grouped_perm (md_columns md)) G))))
    end).
Qed.
Print Assumptions C63_data_partial.

(** Five rows of nine after skips, in chunks of two. *)
Example C63_case :
  rmap (fun x => map (fun k => (rc_index_seen k, rc_rows_seen k)) (snd x))
    (feed rchunk_step (rsink_new 2, [])
      (EvProps empty_header (ex_meta 4 ex_columns) :: pushes (ex_row 1 (bs "q    ") x09 :: [ex_row 3 (bs "r    ") x08])
       ++ [EvEnd; EvEnd]))
  = Ok [([Some (RInt 1); Some (RInt 3)],
         [[Some (RInt 9); Some (RInt 8)];
          [Some (RText (bs "q")); Some (RText (bs "r"))]])]
  /\ increasing 0 4 (ex_row 1 (bs "q    ") x09 :: [ex_row 3 (bs "r    ") x08]).
Proof. split; [vm_compute; reflexivity|cbn; lia]. Qed.

(** False when end_of_data comes before more rows (Reader::end_of_data is public, and
    the sink is told again): the index vector was shortened, the next row is written
    beyond its end. *)
Theorem C63_early_end_refuted : exists size h md rows1 rows2,
  increasing 0 (md_row_count md) (rows1 ++ rows2)
  /\ r_readable (md_columns md) (rows1 ++ rows2)
  /\ feed rchunk_step (rsink_new size, []) (EvProps h md :: pushes rows1 ++ [EvEnd] ++ pushes rows2)
     = Undef UB_oob_write.
Proof.
  exists 3, empty_header, (ex_meta 9 ex_columns), [ex_row 0 (bs "a,b  ") x07],
    [ex_row 1 (bs "     ") x00; ex_row 2 (bs "xyz  ") xff].
  split; [cbn; lia|]. split; [exact ex_r_readable|]. vm_compute. reflexivity.
Qed.
Print Assumptions C63_early_end_refuted.

(** False: the row index is an int; row 2^31 is given as NA_integer_. *)
Theorem C63_index_refuted : exists size h md i p s k,
  increasing 0 (md_row_count md) [(i, p)] /\ r_readable (md_columns md) [(i, p)]
  /\ feed rchunk_step (rsink_new size, []) (EvProps h md :: pushes [(i, p)] ++ [EvEnd]) = Ok (s, [k])
  /\ rc_index_seen k = [Some (RInt (- 2 ^ 31))] /\ i = 2 ^ 31.
Proof.
  exists 1, empty_header, (ex_meta 2147483650 ex_columns), 2147483648, (snd (ex_row 0 (bs "a,b  ") x07)).
  eexists _, _. split; [cbn; lia|]. split; [|split; [vm_compute; reflexivity|split; reflexivity]].
  pose proof ex_r_readable as H. inversion H; subst. constructor; [assumption|constructor].
Qed.
Print Assumptions C63_index_refuted.

(** False: a datetime which was read but has no text (its year is not between 1400 and
    9999) makes the sink throw. *)
Theorem C63_datetime_text_refuted : exists h md rows e,
  increasing 0 (md_row_count md) rows /\ readable (md_columns md) rows
  /\ feed rdata_step (rsink_new 0, []) (EvProps h md :: pushes rows) = Exn e.
Proof.
  exists empty_header, (ex_meta 1 [Column (bs "T") [] [] (Formatter FDateTime 0 8 Big)]).
  exists [(0, PView (map Some (SpecValues.write_int Big 8 13994078682612760576)) 0)], E_bad_year.
  split; [cbn; lia|]. split; [|vm_compute; reflexivity].
  constructor; [|constructor]. constructor; [|constructor]. intros _.
  eexists (VDateTime _). split; [reflexivity|]. vm_compute. reflexivity.
Qed.
Print Assumptions C63_datetime_text_refuted.

(** And R's data sink delivers the rows again at each end_of_data. *)
Theorem C63_data_twice_refuted : exists h md rows s k1 k2,
  increasing 0 (md_row_count md) rows
  /\ feed rdata_step (rsink_new 0, []) (EvProps h md :: pushes rows ++ [EvEnd; EvEnd]) = Ok (s, [k1; k2])
  /\ rc_index_seen k1 = rc_index_seen k2 /\ rc_index_seen k1 <> [].
Proof.
  exists empty_header, (ex_meta 3 ex_columns), ex_rows. eexists _, _, _.
  split; [cbn; lia|]. split; [vm_compute; reflexivity|]. split; [reflexivity|discriminate].
Qed.
Print Assumptions C63_data_twice_refuted.

(** C69.  False: the vectors given to R are reused for the next chunk, so the data R
    kept from the first call changes afterwards. *)
Theorem C69_chunk_kept_refuted : exists size h md rows s k rest,
  increasing 0 (md_row_count md) rows
  /\ feed rchunk_step (rsink_new size, []) (EvProps h md :: pushes rows ++ [EvEnd]) = Ok (s, k :: rest)
  /\ rc_index_seen k = [Some (RInt 0)]
  /\ nth (rc_index k) (r_heap s) [] = [Some (RInt 2)].
Proof.
  exists 1, empty_header, (ex_meta 3 ex_columns), ex_rows. eexists _, _, _.
  split; [cbn; lia|]. split; [vm_compute; reflexivity|]. split; vm_compute; reflexivity.
Qed.
Print Assumptions C69_chunk_kept_refuted.

(** C64.  False for every file: when the reader is constructed the file is empty, and no
    other file is written; the Reader sees no data. *)
Theorem C64_input_kept_refuted : exists c sink_first name fs content,
  fs_get fs name = Some content /\ content <> []
  /\ fs_get (fst (process_csv_open c sink_first name fs)) name <> Some content.
Proof.
  exists sample_cfg, false, (bs "a.sas7bdat"), [(bs "a.sas7bdat", sample_file)], sample_file.
  split; [reflexivity|]. split; vm_compute; discriminate.
Qed.
Print Assumptions C64_input_kept_refuted.

Theorem C64_input_destroyed : forall c sink_first name fs content, fs_get fs name = Some content ->
  let '(fs', x) := process_csv_open c sink_first name fs in
  fs_get fs' name = Some [] /\ (forall other, other <> name -> fs_get fs' other = fs_get fs other)
  /\ x = open_reader c file_source None (file_open []).
Proof. exact csv_destroys. Qed.
Print Assumptions C64_input_destroyed.

Example C64_case :
  process_csv_open sample_cfg true (bs "a.sas7bdat") [(bs "a.sas7bdat", sample_file); (bs "b", bs "x")]
  = ([(bs "a.sas7bdat", []); (bs "b", bs "x")], Exn E_header_too_short).
Proof. vm_compute. reflexivity. Qed.

(** C65. *)
Theorem C65_rows : forall S c (src : source S) s n r ev0 r2 ev2,
  max_alloc c < row_limit -> open_reader c src None s = Ok (r, ev0) ->
  read_all c src r = (Ok tt, r2, ev2) ->
  exists evs, process_print c src n s = (Ok tt, evs)
  /\ rows_of evs = (if (n <? 0)%Z then rows_of ev2 else firstn (Z.to_nat n) (rows_of ev2)).
Proof. exact print_rows. Qed.
Print Assumptions C65_rows.

(** Also when a row cannot be read: what the calls of read_all or read_rows give. *)
Theorem C65_calls : forall S c (src : source S) s n r ev0,
  max_alloc c < row_limit -> open_reader c src None s = Ok (r, ev0) ->
  process_print c src n s
  = if (n <? 0)%Z
    then let '(x, _, ev) := read_all c src r in (x, ev0 ++ ev)
    else let '(x, _, ev) := read_rows c src (Z.to_nat n) r in
         (match x with Ok _ => Ok tt | Exn e => Exn e | Abort => Abort | Undef u => Undef u
                  | Fuel => Fuel end, ev0 ++ ev).
Proof. exact process_print_spec. Qed.
Print Assumptions C65_calls.

Example C65_case :
  let rows n := map (fun r => (fst r, row_text 12 (snd r)))
                  (rows_of (snd (process_print sample_cfg file_source n (file_open sample_file)))) in
  rows 2%Z = [(0, bs "AAAAAAAAabcd"); (1, bs "BBBBBBBBefgh")]
  /\ length (rows 100%Z) = 6%nat /\ length (rows (-1)%Z) = 6%nat /\ rows 0%Z = [].
Proof. vm_compute. auto. Qed.

(** C68.  False: the csv sink made from a file name never writes to the file; the first
    row is printed to a stream which no longer exists. *)
Theorem C68_csv_file_refuted : exists f h md rows w,
  csv_file_sink f h md rows w = Undef UB_lifetime.
Proof.
  exists ex_formats, empty_header, (ex_meta 3 ex_columns), ex_rows, (OfWorld [] []). vm_compute. reflexivity.
Qed.
Print Assumptions C68_csv_file_refuted.

Theorem C68_csv_file_lost : forall f h md rows w,
  match csv_file_sink f h md rows w with
  | Ok w' => rows = [] /\ ow_file w' = []
  | Undef UB_lifetime => rows <> []
  | _ => exists i p rest, rows = (i, p) :: rest /\ forall line, csv_row f (md_columns md) p <> Ok line
  end.
Proof. exact csv_file_lost. Qed.
Print Assumptions C68_csv_file_lost.

Example C68_case :
  csv_file_sink ex_formats empty_header (ex_meta 0 ex_columns) [] (OfWorld [] (bs "old"))
  = Ok (OfWorld [OfObj false false; OfObj true true] []).
Proof. vm_compute. reflexivity. Qed.
