(** Whole files: C66 and C70. *)
From Verif Require Import Base Types Buffer Column Header Metadata Decomp Data Reader Lemmas SpecValues SpecHeader
  SpecDecomp SpecReader SpecPages SpecFile Samples SpecRoundtrip ProofRows ProofRoundtrip ProofRoundtripC ProofFileCheck.
Local Open Scope N_scope.

(** C66, full statement: for every table which fits the pages.  What holds: when the
    texts of the columns are clean (visible ASCII at both ends) and no page of rows
    is empty, in each format and byte order, with and without the shift of the
    header, for every split of the rows into pages and every history of calls: the
    columns are those of the table and any history is the one of a cursor over its
    rows.  What a name of a compression inside the texts does is said by
    [believed]. *)
Theorem C66_round_trip_partial : forall c flt e f sh hlen plen name t,
  good_sizes f sh hlen plen name -> good_table e f plen t ->
  room c hlen plen (lenN (t_fields t)) (1 + lenN (t_pages t)) ->
  no_compression_name (t_fields t) \/ t_row_length t <= max_alloc c ->
  exists r cols,
    open_reader c file_source flt (file_open (file_bytes e f sh hlen plen name t))
    = Ok (r, [EvProps (rs_h r) (rs_md r)])
    /\ h_format (rs_h r) = f /\ h_endianness (rs_h r) = e /\ h_dataset_name (rs_h r) = name
    /\ believed (t_fields t) (md_compression (rs_md r))
    /\ md_row_length (rs_md r) = t_row_length t /\ md_row_count (rs_md r) = lenN (t_rows t)
    /\ md_column_count (rs_md r) = lenN (t_fields t)
    /\ md_columns (rs_md r) = (match flt with Some p => filter p cols | None => cols end)
    /\ Forall2 (column_for e) (t_fields t) cols
    /\ forall ops,
         let cu := (0, map Ok (t_rows t)) in
         seen (t_row_length t) (fst (trace c file_source ops (Some r))) = fst (cur_trace ops cu)
         /\ current_row_index (snd (trace c file_source ops (Some r))) = fst (snd (cur_trace ops cu)).
Proof. exact round_trip. Qed.
Print Assumptions C66_round_trip_partial.

(** C66, read_all: the rows of the table, numbered from 0, then the end. *)
Theorem C66_read_all_partial : forall c flt e f sh hlen plen name t,
  good_sizes f sh hlen plen name -> good_table e f plen t ->
  room c hlen plen (lenN (t_fields t)) (1 + lenN (t_pages t)) ->
  no_compression_name (t_fields t) \/ t_row_length t <= max_alloc c ->
  exists r ev, open_reader c file_source flt (file_open (file_bytes e f sh hlen plen name t)) = Ok (r, ev)
    /\ seen (t_row_length t) (fst (trace c file_source [OpReadAll] (Some r)))
       = [(OpReadAll, Ok CUnit, numbered 0 (t_rows t) ++ [CEnd])].
Proof. exact round_trip_read_all. Qed.
Print Assumptions C66_read_all_partial.

(** The two samples: a 32 bit big-endian file, and a 64 bit little-endian shifted
    one; and a table without rows on its first page. *)
Example C66_case :
  good_sizes Bit32 false 320 800 (bs "SAMPLE") /\ good_table Big Bit32 800 sample_table
  /\ good_sizes Bit64 true 320 1300 (bs "SAMPLE") /\ good_table Little Bit64 1300 sample_table
  /\ good_table Little Bit32 900 (Table sample_fields 12 [] [[bs "AAAAAAAAabcd"; bs "BBBBBBBBefgh"]])
  /\ room sample_cfg 320 1300 2 3 /\ no_compression_name sample_fields.
Proof.
  split; [apply good_sizesb_ok; vm_compute; reflexivity|].
  split; [apply good_tableb_ok; vm_compute; reflexivity|].
  split; [apply good_sizesb_ok; vm_compute; reflexivity|].
  split; [apply good_tableb_ok; vm_compute; reflexivity|].
  split; [apply good_tableb_ok; vm_compute; reflexivity|].
  split; [|apply no_compression_nameb_ok; vm_compute; reflexivity].
  unfold room, row_limit. split; [vm_compute; reflexivity|]. split; [vm_compute; discriminate|].
  split; [vm_compute; discriminate|]. split; [vm_compute; discriminate|]. vm_compute. lia.
Qed.

(** C66 is false of the code: a label which starts with the UTF-8 letter E acute
    comes back empty. *)
Definition accent_table : table :=
  Table [FieldDesc (bs "CITY") (xc3 :: x89 :: bs "tat") [] 0 4 false] 4 [bs "abcd"] [].

Theorem C66_label_refuted : exists t r d,
  opened sample_cfg file_source None (file_open (file_bytes Little Bit32 false 320 800 (bs "X") t)) r
  /\ t_fields t = [d] /\ lenN (fd_label d) = 5 /\ map c_label (md_columns (rs_md r)) = [[]].
Proof.
  destruct (reader_of sample_cfg (file_bytes Little Bit32 false 320 800 (bs "X") accent_table)) as [r|] eqn:E;
    [|vm_compute in E; discriminate].
  exists accent_table, r. eexists. split; [apply reader_of_opened; exact E|].
  split; [reflexivity|]. split; [reflexivity|]. vm_compute in E. injection E as <-. reflexivity.
Qed.
Print Assumptions C66_label_refuted.

(** A table whose only column is labelled with the name of a compression: the file is
    not compressed, the reader says that it is. *)
Definition named_table : table :=
  Table [FieldDesc (bs "A") (bs "SASYZCRL") [] 0 4 false] 4 [bs "abcd"] [].

Theorem C66_compression_refuted : exists t r,
  good_table Little Bit32 800 t
  /\ opened sample_cfg file_source None (file_open (file_bytes Little Bit32 false 320 800 (bs "X") t)) r
  /\ md_compression (rs_md r) = CompRLE.
Proof.
  destruct (reader_of sample_cfg (file_bytes Little Bit32 false 320 800 (bs "X") named_table)) as [r|] eqn:E;
    [|vm_compute in E; discriminate].
  exists named_table, r. split; [apply good_tableb_ok; vm_compute; reflexivity|].
  split; [apply reader_of_opened; exact E|].
  vm_compute in E. injection E as <-. reflexivity.
Qed.
Print Assumptions C66_compression_refuted.

(** C70, full statement: for every table and every compressed form of its rows.  What
    holds: with clean texts without the name of a compression, rows which do not
    look like a subheader on the first page which has some, and compressed forms
    which do not end with the commands which are lost (C26, C29). *)
Theorem C70_compressed_partial : forall c flt e f sh hlen plen name k fields rl first pages rows,
  good_sizes f sh hlen plen name -> good_compressed e f plen k fields rl first pages rows ->
  room c hlen plen (lenN fields) (1 + lenN pages) -> rl <= max_alloc c ->
  exists r cols,
    open_reader c file_source flt (file_open
      (compressed_file e f sh hlen plen name (comp_text k) fields rl (lenN rows) first pages))
    = Ok (r, [EvProps (rs_h r) (rs_md r)])
    /\ h_format (rs_h r) = f /\ h_endianness (rs_h r) = e /\ h_dataset_name (rs_h r) = name
    /\ md_compression (rs_md r) = k
    /\ md_row_length (rs_md r) = rl /\ md_row_count (rs_md r) = lenN rows
    /\ md_column_count (rs_md r) = lenN fields
    /\ md_columns (rs_md r) = (match flt with Some p => filter p cols | None => cols end)
    /\ Forall2 (column_for e) fields cols
    /\ forall ops,
         let cu := (0, map Ok rows) in
         seen rl (fst (trace c file_source ops (Some r))) = fst (cur_trace ops cu)
         /\ current_row_index (snd (trace c file_source ops (Some r))) = fst (snd (cur_trace ops cu)).
Proof. exact round_trip_compressed. Qed.
Print Assumptions C70_compressed_partial.

(** Two RLE rows and one which is not compressed; the last row is on another page. *)
Example C70_rle_case :
  good_compressed Big Bit32 900 CompRLE sample_fields 12
    [x83 :: bs "abcd" ++ [xe2; x82] ++ bs "xyz"; bs "CCCCCCCCijkl"]
    [[x83 :: bs "mnop" ++ [xe6; x00]]]
    [bs "abcd    xyz" ++ [x00]; bs "CCCCCCCCijkl"; bs "mnop        "].
Proof.
  apply good_compressedb_ok; [vm_compute; reflexivity|].
  constructor; [|constructor; [|constructor; [|constructor]]];
    (split; [reflexivity|split; [vm_compute; reflexivity|]]).
  - right. split; [vm_compute; reflexivity|].
    exists [RCopy1 3 (bs "abcd"); RBlank2 2; RCopy1 2 (bs "xyz")], [].
    split; [reflexivity|]. split; [reflexivity|]. split; [repeat constructor|].
    split; [vm_compute; discriminate|]. split; [left; reflexivity|]. right.
    intros cs' c E. apply (f_equal (@rev _)) in E. rewrite rev_unit in E. injection E as E _.
    subst c. vm_compute. discriminate.
  - left. reflexivity.
  - right. split; [vm_compute; reflexivity|].
    exists [RCopy1 3 (bs "mnop"); RBlank2 6], [x00].
    split; [reflexivity|]. split; [reflexivity|]. split; [repeat constructor|].
    split; [vm_compute; discriminate|]. split; [right; reflexivity|]. left. discriminate.
Qed.

Example C70_rdc_case :
  good_compressed Little Bit64 1300 CompRDC sample_fields 12 []
    [[]; [[x40; x00; x41; x08; x20; x00; x00; x00]]]
    [bs "A" ++ repeat x20 11].
Proof.
  apply good_compressedb_ok; [vm_compute; reflexivity|].
  constructor; [|constructor]. split; [reflexivity|split; [vm_compute; reflexivity|]].
  right. split; [vm_compute; reflexivity|].
  exists [[DLiteral x41; DShortRun 8 x20]], [x00; x00; x00].
  split; [reflexivity|]. split; [reflexivity|]. split; [vm_compute; split; discriminate|].
  split; [repeat constructor|]. split; [vm_compute; discriminate|]. split; [right; reflexivity|].
  intros gs' g i _ _. destruct i; vm_compute; discriminate.
Qed.

(** C70 is false of the code without these conditions: a valid compressed form of the
    row ends with a command of one byte (four blanks), which is lost. *)
Theorem C70_last_command_refuted : exists cs r,
  Forall rle_valid cs /\ rle_expansion cs = bs "abcdefgh    "
  /\ opened sample_cfg file_source None (file_open
       (compressed_file Big Bit32 false 320 900 (bs "X") (bs "SASYZCRL") sample_fields 12 1
          [rle_encoding cs] [])) r
  /\ seen 12 (fst (trace sample_cfg file_source [OpReadAll] (Some r)))
     = [(OpReadAll, Ok CUnit, [CRow 0 (Ok (bs "abcdefgh" ++ [x00; x00; x00; x00])); CEnd])].
Proof.
  set (cs := [RCopy1 7 (bs "abcdefgh"); RBlank2 2]).
  destruct (reader_of sample_cfg
       (compressed_file Big Bit32 false 320 900 (bs "X") (bs "SASYZCRL") sample_fields 12 1
          [rle_encoding cs] [])) as [r|] eqn:E; [|vm_compute in E; discriminate].
  exists cs, r. split; [repeat constructor|]. split; [reflexivity|].
  split; [apply reader_of_opened; exact E|]. vm_compute in E. injection E as <-. vm_compute. reflexivity.
Qed.
Print Assumptions C70_last_command_refuted.
