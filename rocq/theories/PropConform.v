(** Files which hold a table, whoever wrote them (SpecConform). *)
From Verif Require Import Base Types DateTime Buffer Header Page Column Decomp Metadata Data Reader SpecValues SpecHeader
  SpecDecomp SpecReader SpecPages SpecMeta SpecFile SpecRoundtrip SpecConform ProofConform ProofConformCheck ProofCut ProofCutAny ProofKinds ProofUnsized Samples.
Local Open Scope N_scope.

(** ** C90: every file which holds a table is read as that table *)

(** The header is that of the file, the columns are the fields, and whatever the calls
    to the reader are, they go over the rows. *)
Theorem C90_conforming : forall c flt content fields rows, conforms c content fields rows ->
  let d := m_md (said content) in
  exists r cols,
    open_reader c file_source flt (file_open content) = Ok (r, [EvProps (rs_h r) (rs_md r)])
    /\ header_of_file content (rs_h r)
    /\ rs_md r = with_columns (match flt with Some p => filter p cols | None => cols end) d
    /\ Forall2 (column_for (file_endian content)) fields cols
    /\ forall ops,
         let cu := (0, map Ok rows) in
         seen (md_row_length d) (fst (trace c file_source ops (Some r))) = fst (cur_trace ops cu)
         /\ current_row_index (snd (trace c file_source ops (Some r))) = fst (snd (cur_trace ops cu)).
Proof. exact conforms_back. Qed.
Print Assumptions C90_conforming.

(** The full statement is C90_conforming with [file_with row_meant] instead of
    [conforms]; it is false (C90_refuted).  What holds: as many rows are delivered, and
    each of them is the row except for up to 18 bytes, behind which the row has only
    zeros, and which are delivered as zeros. *)
Theorem C90_loss_partial : forall c flt content fields rows, file_with row_meant c content fields rows ->
  let d := m_md (said content) in
  exists r cols got,
    open_reader c file_source flt (file_open content) = Ok (r, [EvProps (rs_h r) (rs_md r)])
    /\ header_of_file content (rs_h r)
    /\ rs_md r = with_columns (match flt with Some p => filter p cols | None => cols end) d
    /\ Forall2 (column_for (file_endian content)) fields cols
    /\ Forall2 cut rows got
    /\ forall ops,
         let cu := (0, map Ok got) in
         seen (md_row_length d) (fst (trace c file_source ops (Some r))) = fst (cur_trace ops cu)
         /\ current_row_index (snd (trace c file_source ops (Some r))) = fst (snd (cur_trace ops cu)).
Proof. exact meant_back. Qed.
Print Assumptions C90_loss_partial.

(** The files of the writer of SpecFile hold their tables. *)
Example C90_sample : conforms sample_cfg sample_file sample_fields (t_rows sample_table).
Proof. apply conforming_ok. vm_compute. reflexivity. Qed.

Example C90_sample_64 : conforms sample_cfg sample_file_64 sample_fields (t_rows sample_table).
Proof. apply conforming_ok. vm_compute. reflexivity. Qed.

(** A file which is not of that writer: the description is on three pages, with two
    text blocks, an entry which is to be ignored (1) and an unknown subheader; then two
    rows on the mix page, a page of another kind, a page of rows. *)
Definition spread_file : bytes :=
  let e := Little in let f := Bit32 in
  header_bytes e f true 400 800 5 (bs "SPREAD")
  ++ page_bytes e f 800 type_meta 0
       [plain (row_size_subheader e f 12 4 2 0 2 0 0);
        plain (text_subheader e f (text_block e [] (bs "IDBEST")));
        (bs "ignored.", 1, 0);
        plain (column_size_subheader e f 2)] []
  ++ page_bytes e f 800 type_meta 0
       [plain (text_subheader e f (text_block e [] (bs "The idNAME")));
        plain (zeros 24);
        plain (names_subheader e f [(0, 28, 2); (1, 34, 4)]);
        plain (format_label_subheader e f (0, 30, 4) (1, 28, 6))] []
  ++ page_bytes e f 800 type_mix 2
       [plain (attributes_subheader e f [(0, 8, true); (8, 4, false)]);
        plain (format_label_subheader e f (0, 0, 0) (0, 0, 0))]
       [bs "AAAAAAAAabcd"; bs "BBBBBBBBefgh"]
  ++ page_bytes e f 800 1024 0 [plain (zeros 24)] []
  ++ page_bytes e f 800 type_data 2 [] [bs "CCCCCCCCijkl"; bs "DDDDDDDDmnop"].

Example C90_spread : conforms sample_cfg spread_file sample_fields
  [bs "AAAAAAAAabcd"; bs "BBBBBBBBefgh"; bs "CCCCCCCCijkl"; bs "DDDDDDDDmnop"].
Proof. apply conforming_ok. vm_compute. reflexivity. Qed.

(** A compressed file as SAS writes them: the subheaders of the description carry the
    mark (1) of the rows too. *)
Definition marked (s : sub) : sub := (sub_bytes s, 0, 1).

Definition marked_file (name : bytes) (rows : list bytes) : bytes :=
  header_bytes Big Bit32 false 320 900 1 (bs "MARKED")
  ++ page_bytes Big Bit32 900 type_meta 0
       (map marked (description Big Bit32 name sample_fields 12 (lenN rows) 0) ++ map compressed_row rows) [].

(** The second row ends with a command of one byte, a run of zeros. *)
Example C90_marked : conforms sample_cfg
  (marked_file (bs "SASYZCRL") [x83 :: bs "abcd" ++ [xe2; x82] ++ bs "xyz"; x87 :: bs "01234567" ++ [xf2]])
  sample_fields
  [bs "abcd    xyz" ++ [x00]; bs "01234567" ++ [x00; x00; x00; x00]].
Proof. apply conforming_ok. vm_compute. reflexivity. Qed.

(** C90 is false of the code for all the files which hold a table: the last command of
    this row is in the last two bytes, and what it says ("zzzzzzz") is lost. *)
Definition lossy_file : bytes :=
  marked_file (bs "SASYZCR2") [[x04; x00] ++ bs "ABCDE" ++ [x04; x7a]].

Theorem C90_refuted : exists c content fields rows r,
  file_with row_meant c content fields rows
  /\ open_reader c file_source None (file_open content) = Ok (r, [EvProps (rs_h r) (rs_md r)])
  /\ rows = [bs "ABCDEzzzzzzz"]
  /\ seen 12 (fst (trace c file_source [OpReadAll] (Some r)))
     = [(OpReadAll, Ok CUnit, [CRow 0 (Ok (bs "ABCDE" ++ repeat x00 7)); CEnd])].
Proof.
  destruct (open_reader sample_cfg file_source None (file_open lossy_file)) as [[r ev]| | | |] eqn:E;
    try (vm_compute in E; discriminate).
  exists sample_cfg, lossy_file, sample_fields, [bs "ABCDEzzzzzzz"], r.
  split; [apply meaning_of_ok; vm_compute; reflexivity|].
  vm_compute in E. injection E as <- <-. split; [vm_compute; reflexivity|]. split; [reflexivity|].
  vm_compute. reflexivity.
Qed.
Print Assumptions C90_refuted.

(** ** C91: files which are cut off *)

(** As long as what is kept says the whole description, the columns are those of the
    file, and the rows those of the complete pages: a part of the rows of the file,
    from the first one on, unchanged. *)
Theorem C91_rows : forall c flt kept lost fields rows, conforms c (kept ++ lost) fields rows ->
  header_length_field (kept ++ lost) <= lenN kept -> said kept = said (kept ++ lost) ->
  let d := m_md (said kept) in
  exists r cols,
    open_reader c file_source flt (file_open kept) = Ok (r, [EvProps (rs_h r) (rs_md r)])
    /\ header_of_file kept (rs_h r)
    /\ rs_md r = with_columns (match flt with Some p => filter p cols | None => cols end) d
    /\ Forall2 (column_for (file_endian kept)) fields cols
    /\ forall ops,
         let cu := (0, map Ok (firstn (length (stored_in kept)) rows)) in
         seen (md_row_length d) (fst (trace c file_source ops (Some r))) = fst (cur_trace ops cu)
         /\ current_row_index (snd (trace c file_source ops (Some r))) = fst (snd (cur_trace ops cu)).
Proof. exact cut_back. Qed.
Print Assumptions C91_rows.

(** The sample, cut in the middle of its last page. *)
Definition cut_sample : bytes := firstn 2500 sample_file.

Example C91_case :
  conforms sample_cfg (cut_sample ++ skipn 2500 sample_file) sample_fields (t_rows sample_table)
  /\ header_length_field (cut_sample ++ skipn 2500 sample_file) <= lenN cut_sample
  /\ said cut_sample = said (cut_sample ++ skipn 2500 sample_file)
  /\ length (stored_in cut_sample) = 5%nat.
Proof.
  split; [|vm_compute; repeat split; discriminate].
  unfold cut_sample. rewrite firstn_skipn. exact C90_sample.
Qed.

(** C91 is false of the code where it asks for a notice: the five rows are followed by
    the end of the data, no call fails, and the sixth row has just not been there. *)
Theorem C91_reported_refuted : exists kept lost rows r,
  conforms sample_cfg (kept ++ lost) sample_fields rows /\ (length rows = 6)%nat
  /\ open_reader sample_cfg file_source None (file_open kept) = Ok (r, [EvProps (rs_h r) (rs_md r)])
  /\ md_row_count (rs_md r) = 6
  /\ seen 12 (fst (trace sample_cfg file_source [OpReadAll] (Some r)))
     = [(OpReadAll, Ok CUnit, numbered 0 (firstn 5 rows) ++ [CEnd])].
Proof.
  destruct (open_reader sample_cfg file_source None (file_open cut_sample)) as [[r ev]| | | |] eqn:E;
    try (vm_compute in E; discriminate).
  exists cut_sample, (skipn 2500 sample_file), (t_rows sample_table), r.
  split; [apply C91_case|]. split; [reflexivity|].
  vm_compute in E. injection E as <- <-. split; [vm_compute; reflexivity|]. split; [reflexivity|].
  vm_compute. reflexivity.
Qed.
Print Assumptions C91_reported_refuted.

(** A file which is cut off in its first page is, without any notice, a table without
    columns and rows. *)
Theorem C91_first_page : forall c flt kept lost fields rows, conforms c (kept ++ lost) fields rows ->
  header_length_field (kept ++ lost) <= lenN kept
  < header_length_field (kept ++ lost) + page_length_field (kept ++ lost) ->
  exists r, open_reader c file_source flt (file_open kept) = Ok (r, [EvProps (rs_h r) (rs_md r)])
    /\ md_columns (rs_md r) = [] /\ md_row_count (rs_md r) = 0
    /\ forall ops, seen 0 (fst (trace c file_source ops (Some r))) = fst (cur_trace ops (0, [])).
Proof. exact no_page_back. Qed.
Print Assumptions C91_first_page.

Example C91_first_page_case :
  conforms sample_cfg (firstn 900 sample_file ++ skipn 900 sample_file) sample_fields (t_rows sample_table)
  /\ header_length_field (firstn 900 sample_file ++ skipn 900 sample_file) <= lenN (firstn 900 sample_file)
     < header_length_field (firstn 900 sample_file ++ skipn 900 sample_file)
       + page_length_field (firstn 900 sample_file ++ skipn 900 sample_file).
Proof. rewrite firstn_skipn. split; [exact C90_sample|]. vm_compute. split; [discriminate|reflexivity]. Qed.

(** Wherever the file is cut off, nothing wrong is read: opening it throws, or the
    columns it has are those of the file at the same places and the rows are the first
    ones of the file, unchanged; and when there is a row, all the columns are there. *)
Theorem C91_any_cut : forall c flt part lost fields rows, conforms c (part ++ lost) fields rows ->
  (exists e, open_reader c file_source flt (file_open part) = Exn e)
  \/ exists r cols n,
       open_reader c file_source flt (file_open part) = Ok (r, [EvProps (rs_h r) (rs_md r)])
       /\ header_of_file part (rs_h r)
       /\ md_columns (rs_md r) = (match flt with Some p => filter p cols | None => cols end)
       /\ (forall i d col, nth_error fields i = Some d -> nth_error cols i = Some col ->
             column_for (file_endian part) d col)
       /\ (n = 0%nat \/ length cols = length fields)
       /\ forall ops, seen (md_row_length (rs_md r)) (fst (trace c file_source ops (Some r)))
                      = fst (cur_trace ops (0, map Ok (firstn n rows))).
Proof. exact any_cut. Qed.
Print Assumptions C91_any_cut.

(** The file with its description on three pages: cut in the header, behind the first
    or the second page of the description it is refused; cut behind the third one it
    has two rows. *)
Example C91_any_cut_case :
  conforms sample_cfg (firstn 2100 spread_file ++ skipn 2100 spread_file) sample_fields
    [bs "AAAAAAAAabcd"; bs "BBBBBBBBefgh"; bs "CCCCCCCCijkl"; bs "DDDDDDDDmnop"]
  /\ map (fun n => match open_reader sample_cfg file_source None (file_open (firstn n spread_file)) with
                   | Ok (r, _) => Ok (length (md_columns (rs_md r)),
                       seen 12 (fst (trace sample_cfg file_source [OpReadAll] (Some r))))
                   | Exn e => Exn e | Abort => Abort | Undef u => Undef u | Fuel => Fuel end)
       [399; 1999; 2100; 2800]%nat
     = [Exn E_header_too_short; Exn E_out_of_range; Exn E_out_of_range;
        Ok (2%nat, [(OpReadAll, Ok CUnit, numbered 0 [bs "AAAAAAAAabcd"; bs "BBBBBBBBefgh"] ++ [CEnd])])].
Proof. rewrite firstn_skipn. split; [exact C90_spread|]. vm_compute. reflexivity. Qed.

(** ** C92: the forms of the size subheaders *)

(** In the 64 bit files of SAS one half of the signature of the size subheaders is
    F7F7F7F7 or F6F6F6F6; the other one is zero, or in newer big endian files FFFFFBFE. *)
Definition zero_forms (half : bytes) : list bytes := [times 4 x00 ++ half; half ++ times 4 x00].
Definition newer_form (half : bytes) : bytes := half ++ [xff; xff; xfb; xfe].

(** The full statement is that all the forms are handled as sizes: it holds of the forms
    with zeros. *)
Theorem C92_forms_partial : forall e b m sh sig,
  get_raw AssertNo b (sh_offset sh) 8 = Ok sig ->
  (In sig (zero_forms (times 4 xf7)) ->
   process_subheader e Bit64 b m sh = (m' <- process_ROW_SIZE e Bit64 b sh m ;; Ok (m', false)))
  /\ (In sig (zero_forms (times 4 xf6)) ->
      process_subheader e Bit64 b m sh = (m' <- process_COLUMN_SIZE e Bit64 b sh m ;; Ok (m', false))).
Proof. exact zero_forms_read. Qed.
Print Assumptions C92_forms_partial.

(** The newer form is left out, or taken for a row of a compressed file. *)
Theorem C92_newer : forall e b m sh sig,
  get_raw AssertNo b (sh_offset sh) 8 = Ok sig ->
  sig = newer_form (times 4 xf7) \/ sig = newer_form (times 4 xf6) ->
  process_subheader e Bit64 b m sh
  = Ok (if data_subheader_check (md_compression (m_md m)) sh then (process_DATA sh m, true) else (m, false)).
Proof. exact newer_form_read. Qed.
Print Assumptions C92_newer.

Example C92_forms_case :
  let b := MBuf (map Some (bs "...." ++ newer_form (times 4 xf7))) 12 in
  get_raw AssertNo b (sh_offset (PageSubheader 4 808 0 0)) 8 = Ok (newer_form (times 4 xf7)).
Proof. vm_compute. reflexivity. Qed.

(** A file none of whose subheaders is recognised as a size is, without any notice, a
    table without columns and rows. *)
Theorem C92_unsized : forall c flt content, without_sizes c content ->
  exists r, open_reader c file_source flt (file_open content) = Ok (r, [EvProps (rs_h r) (rs_md r)])
    /\ md_columns (rs_md r) = [] /\ md_row_count (rs_md r) = 0
    /\ forall ops, seen 0 (fst (trace c file_source ops (Some r))) = fst (cur_trace ops (0, [])).
Proof. exact unsized_back. Qed.
Print Assumptions C92_unsized.

(** The sample as a 64 bit big endian file, and the same with the newer forms. *)
Definition zero_form_file : bytes := file_bytes Big Bit64 true 320 1300 (bs "SAMPLE") sample_table.

Fixpoint newer_forms (l : bytes) : bytes :=
  match l with
  | [] => []
  | b :: l' =>
      if bytes_eqb (firstn 8 l) (times 4 x00 ++ times 4 xf7) then newer_form (times 4 xf7) ++ skipn 8 (b :: newer_forms l')
      else if bytes_eqb (firstn 8 l) (times 4 x00 ++ times 4 xf6) then newer_form (times 4 xf6) ++ skipn 8 (b :: newer_forms l')
      else b :: newer_forms l'
  end.
Definition newer_form_file : bytes := newer_forms zero_form_file.

Example C92_unsized_case : without_sizes sample_cfg newer_form_file.
Proof.
  assert (K : conforms sample_cfg newer_form_file [] []) by (apply conforming_ok; vm_compute; reflexivity).
  destruct K as [(A & B & C & _ & D & E & _ & F & G & H & I & _) _].
  split; [exact A|]. split; [exact B|]. split; [exact C|].
  split; [apply no_sizesb_ok; vm_compute; reflexivity|].
  repeat (split; [assumption|]). exact I.
Qed.

(** C92 is false of the code: the first file has 2 columns and 6 rows, the second one,
    which says the same, has none. *)
Theorem C92_form_refuted :
  conforms sample_cfg zero_form_file sample_fields (t_rows sample_table)
  /\ exists r, open_reader sample_cfg file_source None (file_open newer_form_file) = Ok (r, [EvProps (rs_h r) (rs_md r)])
    /\ md_columns (rs_md r) = [] /\ md_row_count (rs_md r) = 0
    /\ seen 0 (fst (trace sample_cfg file_source [OpReadAll] (Some r))) = [(OpReadAll, Ok CUnit, [CEnd])].
Proof.
  split; [apply conforming_ok; vm_compute; reflexivity|].
  destruct (C92_unsized sample_cfg None newer_form_file C92_unsized_case) as (r & O & C & R & T).
  exists r. split; [exact O|]. split; [exact C|]. split; [exact R|].
  etransitivity; [apply (T [OpReadAll])|reflexivity].
Qed.
Print Assumptions C92_form_refuted.

(** ** C96: the kinds of the pages *)

(** The kind of a page is in the bits 8 to 11 of its type (0 description, 1 rows, 2 both);
    bit 7 marks a page some of whose rows have been deleted. *)
Definition page_kind (t : N) : N := (t / 256) mod 16.
Definition with_deleted_rows (t : N) : bool := N.odd (t / 128).

(** The full statement is that a page with bit 7 is handled as the same page without it.
    It holds of the pages with a description and rows. *)
Theorem C96_mix_partial : forall e f b m md blocks subs,
  process_page e f b (PageHeader 640 blocks subs) m = process_page e f b (PageHeader 512 blocks subs) m
  /\ build_page e f md b (PageHeader 640 blocks subs) = build_page e f md b (PageHeader 512 blocks subs).
Proof. intros. split; reflexivity. Qed.
Print Assumptions C96_mix_partial.

(** When the type of a page behind the start of the data is replaced by one which is not
    one of 0, 256, 512 and 640, all the rows of that page are missing, the rows behind it
    take their place, and the number of rows is announced as before. *)
Theorem C96_lost : forall c flt front pg pg' back fields rows n,
  conforms c (front ++ pg ++ back) fields rows ->
  lenN front = header_length_field front + n * page_length_field front -> 288 <= lenN front ->
  lenN pg = page_length_field front -> lenN pg' = page_length_field front ->
  Exists (fun q => begins (full_layout (front ++ pg ++ back)) q = true) (pages_in front) ->
  ~ In (page_type (base_layout front) pg') [0; 256; 512; 640] ->
  length (stored_in (front ++ pg ++ back)) = length rows ->
  exists r cols before here after, rows = before ++ here ++ after
    /\ length here = length (row_places (full_layout (front ++ pg ++ back)) pg)
    /\ length before = length (stored_in front)
    /\ open_reader c file_source flt (file_open (front ++ pg' ++ back)) = Ok (r, [EvProps (rs_h r) (rs_md r)])
    /\ md_row_count (rs_md r) = lenN rows
    /\ md_columns (rs_md r) = (match flt with Some p => filter p cols | None => cols end)
    /\ Forall2 (column_for (file_endian front)) fields cols
    /\ forall ops, seen (md_row_length (rs_md r)) (fst (trace c file_source ops (Some r)))
                   = fst (cur_trace ops (0, map Ok (before ++ after))).
Proof. exact other_kind_back. Qed.
Print Assumptions C96_lost.

(** The sample: the page behind the first one (320 + 800 bytes) with its type, at 16,
    replaced by 384. *)
Definition marked_front : bytes := firstn 1120 sample_file.
Definition marked_page (t : bytes) : bytes :=
  firstn 16 (skipn 1120 sample_file) ++ t ++ firstn 782 (skipn 1138 sample_file).
Definition marked_back : bytes := skipn 1920 sample_file.

Example C96_case :
  conforms sample_cfg (marked_front ++ marked_page [x01; x00] ++ marked_back) sample_fields (t_rows sample_table)
  /\ lenN marked_front = header_length_field marked_front + 1 * page_length_field marked_front
  /\ lenN (marked_page [x01; x00]) = page_length_field marked_front
  /\ lenN (marked_page [x01; x80]) = page_length_field marked_front
  /\ Exists (fun q => begins (full_layout (marked_front ++ marked_page [x01; x00] ++ marked_back)) q = true) (pages_in marked_front)
  /\ page_type (base_layout marked_front) (marked_page [x01; x00]) = 256
  /\ page_type (base_layout marked_front) (marked_page [x01; x80]) = 384
  /\ length (stored_in (marked_front ++ marked_page [x01; x00] ++ marked_back)) = length (t_rows sample_table).
Proof.
  replace (marked_front ++ marked_page [x01; x00] ++ marked_back) with sample_file by (vm_compute; reflexivity).
  split; [exact C90_sample|]. split; [vm_compute; reflexivity|]. split; [vm_compute; reflexivity|].
  split; [vm_compute; reflexivity|].
  split; [replace (pages_in marked_front) with [firstn 800 (skipn 320 sample_file)] by (vm_compute; reflexivity);
          constructor; vm_compute; reflexivity|].
  split; [vm_compute; reflexivity|]. split; vm_compute; reflexivity.
Qed.

(** C96 is false of the code: the three rows of the marked page of rows are lost, and
    nothing tells it; a marked page with a description and rows is read. *)
Theorem C96_marked_refuted : exists t,
  page_kind t = page_kind 256 /\ with_deleted_rows t = true
  /\ page_type (base_layout marked_front) (marked_page [x01; x80]) = t
  /\ exists r, open_reader sample_cfg file_source None (file_open (marked_front ++ marked_page [x01; x80] ++ marked_back))
                = Ok (r, [EvProps (rs_h r) (rs_md r)])
     /\ md_row_count (rs_md r) = 6
     /\ seen 12 (fst (trace sample_cfg file_source [OpReadAll] (Some r)))
        = [(OpReadAll, Ok CUnit,
            numbered 0 (firstn 2 (t_rows sample_table) ++ skipn 5 (t_rows sample_table)) ++ [CEnd])].
Proof.
  exists 384. split; [reflexivity|]. split; [reflexivity|]. split; [vm_compute; reflexivity|].
  destruct (open_reader sample_cfg file_source None (file_open (marked_front ++ marked_page [x01; x80] ++ marked_back)))
    as [[r ev]| | | |] eqn:E; try (vm_compute in E; discriminate).
  exists r. vm_compute in E. injection E as <- <-. split; [vm_compute; reflexivity|]. split; [reflexivity|].
  vm_compute. reflexivity.
Qed.
Print Assumptions C96_marked_refuted.
