(** Properties C12 - C19, C21, C23, C67: the subheaders, the columns, the filter, the
    compression. *)
From Verif Require Import Base Types Buffer Page Column Header Metadata Decomp Data Reader
  SpecValues SpecHeader SpecDecomp SpecReader SpecPages SpecMeta SpecFile Samples ProofReader
  ProofCheck ProofRows ProofColumns ProofDispatch ProofFits.
Local Open Scope N_scope.

(** C12: at any position of any page, the row size subheader gives the integers 5,
    6, 9, 10 and 15 and the two 16 bit lengths; nothing else changes. *)
Theorem C12_row_size : forall e f pg spare pos len comp ty m,
  lenN pg < W64 -> pos + lcp_pos f + 4 <= lenN pg ->
  let w := word f in
  let d := m_md m in
  process_ROW_SIZE e f (MBuf (map Some pg ++ spare) (lenN pg)) (PageSubheader pos len comp ty) m
  = Ok (MState (Metadata (md_compression d) (md_creator d) (md_creator_proc d)
                  (value_of e (field pg (pos + 5 * w) w)) (value_of e (field pg (pos + 6 * w) w))
                  (md_column_count d)
                  (value_of e (field pg (pos + 9 * w) w)) (value_of e (field pg (pos + 10 * w) w))
                  (value_of e (field pg (pos + 15 * w) w))
                  (value_of e (field pg (pos + lcs_pos f) 2))
                  (value_of e (field pg (pos + lcp_pos f) 2)) (md_columns d))
          (m_data_subheaders m) (m_texts m) (m_names m) (m_formats m) (m_labels m)
          (m_offsets m) (m_lengths m) (m_types m)).
Proof. exact row_size_fields. Qed.
Print Assumptions C12_row_size.

(** The row size subheader of a sample: 12 bytes, 6 rows, 2 of them on the mix
    page. *)
Example C12_case : forall r, reader_of sample_cfg sample_file = Some r ->
  md_row_length (rs_md r) = 12 /\ md_row_count (rs_md r) = 6 /\ md_mix_page_row_count (rs_md r) = 2.
Proof.
  intros r H. assert (E : match reader_of sample_cfg sample_file with
    | Some r => md_row_length (rs_md r) = 12 /\ md_row_count (rs_md r) = 6
                /\ md_mix_page_row_count (rs_md r) = 2
    | None => False end) by (vm_compute; repeat split; reflexivity).
  rewrite H in E. exact E.
Qed.

(** C13, disjoint: no signature is of two kinds. *)
Theorem C13_disjoint : forall f k1 k2 sig, lenN sig = word f ->
  is_kind f k1 sig = true -> is_kind f k2 sig = true -> k1 = k2.
Proof. exact kinds_disjoint. Qed.
Print Assumptions C13_disjoint.

(** C13, handlers: the kind of the first bytes of a subheader, and nothing else,
    decides who handles it; one of no kind is a row of data or is ignored. *)
Theorem C13_dispatch : forall e f b m sh sig,
  get_raw AssertNo b (sh_offset sh) (integer_size f) = Ok sig ->
  process_subheader e f b m sh =
  match kind_of f sig with
  | Some KRowSize => m' <- process_ROW_SIZE e f b sh m ;; Ok (m', false)
  | Some KColumnSize => m' <- process_COLUMN_SIZE e f b sh m ;; Ok (m', false)
  | Some KText => m' <- process_COLUMN_TEXT e f b sh m ;; Ok (m', false)
  | Some KNames => m' <- process_COLUMN_NAME e f b sh m ;; Ok (m', false)
  | Some KAttributes => m' <- process_COLUMN_ATTRIBUTES e f b sh m ;; Ok (m', false)
  | Some KFormatLabel => m' <- process_FORMAT_AND_LABEL e f b sh m ;; Ok (m', false)
  | Some KCounts | Some KList => Ok (m, false)
  | None => Ok (if data_subheader_check (md_compression (m_md m)) sh
                then (process_DATA sh m, true) else (m, false))
  end.
Proof. exact dispatched. Qed.
Print Assumptions C13_dispatch.

(** The kind is the one whose number, in either byte order, is the signature. *)
Theorem C13_kind : forall f sig k, lenN sig = word f ->
  (kind_of f sig = Some k <-> is_kind f k sig = true).
Proof. exact kind_of_spec. Qed.
Print Assumptions C13_kind.

Example C13_case :
  kind_of Bit32 [xf7; xf7; xf7; xf7] = Some KRowSize
  /\ kind_of Bit64 [x00; x00; x00; x00; xf7; xf7; xf7; xf7] = Some KRowSize
  /\ kind_of Bit32 [xff; xff; xff; xfd] = Some KText
  /\ kind_of Bit32 [xfd; xff; xff; xff] = Some KText
  /\ kind_of Bit32 (bs "abcd") = None.
Proof. vm_compute. repeat split; reflexivity. Qed.

(** C14 is false of the code: the pointer is checked, but in a noexcept function,
    so that the program is terminated; and with 64 bit pointers the check itself
    wraps around, so that a page is accepted and read outside. *)
Theorem C14_pointers_refuted : exists file1 file2,
  open_reader sample_cfg file_source None (file_open file1) = Abort
  /\ open_reader sample_cfg file_source None (file_open file2) = Undef UB_oob_read.
Proof.
  exists (pointer_file Bit32 1000 100), (pointer_file Bit64 (W64 - 8) 16).
  vm_compute. split; reflexivity.
Qed.
Print Assumptions C14_pointers_refuted.

(** C14, what holds: a page of a 32 bit file is only accepted when its table points
    inside the page. Missing: a catchable exception, and the 64 bit format. *)
Theorem C14_pointers_partial : forall ly pg spare m ph m' stop,
  ly_format ly = Bit32 -> lenN pg < W64 ->
  prefix (ly_format ly) + 6 <= lenN pg ->
  let b := MBuf (map Some pg ++ spare) (lenN pg) in
  get_page_header (ly_endian ly) (ly_format ly) b = Ok ph ->
  has_subheaders (page_type ly pg) = true ->
  process_page (ly_endian ly) (ly_format ly) b ph m = Ok (m', stop) ->
  Forall (fun s => se_pos s + se_len s <= lenN pg) (entries ly pg).
Proof. exact pointers_inside. Qed.
Print Assumptions C14_pointers_partial.

(** C15: a page whose subheaders are long enough is processed, whatever is behind
    it in the buffer; what is found is a function of the bytes of the page. *)
Theorem C15_page_safe : forall ly pg spare m, lenN pg < W64 -> page_fits ly pg m ->
  let b := MBuf (map Some pg ++ spare) (lenN pg) in
  exists ph, get_page_header (ly_endian ly) (ly_format ly) b = Ok ph
  /\ process_page (ly_endian ly) (ly_format ly) b ph m
     = Ok (page_meaning ly pg m, page_ends ly pg m).
Proof. exact page_safe. Qed.
Print Assumptions C15_page_safe.

(** C15 and C18, files: a file with such pages either has a column with a missing
    entry, or opens; the columns are those described by the pages. *)
Theorem C15_file_described : forall c flt content h s b,
  open_header c file_source (file_open content) = Ok (h, s, b) ->
  described c content h ->
  let m := pages_meaning (layout_of h empty_metadata) empty_mstate (file_pages content h) in
  (~ enough_entries m -> open_reader c file_source flt (file_open content) = Exn E_out_of_range)
  /\ (enough_entries m ->
      exists r cols, open_reader c file_source flt (file_open content)
                     = Ok (r, [EvProps (rs_h r) (rs_md r)])
        /\ rs_h r = h
        /\ rs_md r = with_columns (match flt with Some p => filter p cols | None => cols end)
                       (m_md m)
        /\ lenN cols = md_column_count (m_md m)
        /\ forall i col, nth_error cols i = Some col -> column_at (h_endianness h) m i col).
Proof. exact open_described. Qed.
Print Assumptions C15_file_described.

(** The samples are such files. *)
Example C15_case : Forall (fun content =>
    match open_header sample_cfg file_source (file_open content) with
    | Ok (h, _, _) => described sample_cfg content h
    | _ => False
    end) [sample_file; sample_file_64; sample_rle; empty_page_file].
Proof.
  assert (H : Forall (fun content =>
    match open_header sample_cfg file_source (file_open content) with
    | Ok (h, _, _) => describedb sample_cfg content h = true
    | _ => False
    end) [sample_file; sample_file_64; sample_rle; empty_page_file]).
  { repeat (apply Forall_cons; [vm_compute; reflexivity|]). apply Forall_nil. }
  revert H. apply Forall_impl. intros content H.
  destruct (open_header _ _ _) as [[[h s] b]| | | |]; try contradiction.
  apply describedb_ok. exact H.
Qed.

(** C16: the text of a reference is a part of its block, inside the range which is
    referred to, and has no white space at its ends. *)
Theorem C16_text_part : forall texts i off len,
  let r := get_column_text_substr texts i off len in
  match nth_error texts (N.to_nat i) with
  | None => r = []
  | Some t => exists a z, t = a ++ r ++ z
      /\ (r <> [] -> off <= lenN a /\ lenN a + lenN r <= off + len)
      /\ forall b r', (r = b :: r' -> ~ white b) /\ (r = r' ++ [b] -> printable b /\ ~ white b)
  end.
Proof. exact text_part. Qed.
Print Assumptions C16_text_part.

Example C16_case :
  get_column_text_substr [bs "xxxx"; bs "..  Price  .."] 1 2 8 = bs "Price"
  /\ get_column_text_substr [bs "xxxx"; bs "..  Price  .."] 1 6 100 = bs "ice  .."
  /\ get_column_text_substr [bs "xxxx"; bs "..  Price  .."] 2 2 8 = [].
Proof. vm_compute. repeat split; reflexivity. Qed.

(** C17 is false of the code: a UTF-8 name which starts with a non ASCII character
    is lost, and non ASCII characters at the end are cut off. *)
Theorem C17_text_refuted :
  (exists b l t, ~ white b /\ t = b :: l
     /\ get_column_text_substr [t] 0 0 (lenN t) = [] /\ t = [xc3; x89] ++ bs "tat")
  /\ exists l b t, ~ white b /\ t = l ++ [b]
     /\ get_column_text_substr [t] 0 0 (lenN t) = bs "Sant" /\ t = bs "Sant" ++ [xc3; xa9].
Proof.
  split.
  - exists xc3, (x89 :: bs "tat"), ([xc3; x89] ++ bs "tat").
    split; [|vm_compute; repeat split; reflexivity]. unfold white. vm_compute.
    intros [[H1 H2]|H]; [apply H2; reflexivity|discriminate].
  - exists (bs "Sant" ++ [xc3]), xa9, (bs "Sant" ++ [xc3; xa9]).
    split; [|vm_compute; repeat split; reflexivity]. unfold white. vm_compute.
    intros [[H1 H2]|H]; [apply H2; reflexivity|discriminate].
Qed.
Print Assumptions C17_text_refuted.

(** C17, what holds: when the first and the last character are printable ASCII and
    not white. Missing: the other characters. *)
Theorem C17_text_partial : forall texts i off len t, nth_error texts (N.to_nat i) = Some t ->
  off + len <= lenN t ->
  (exists b l, field t off len = b :: l /\ printable b /\ ~ white b) ->
  (exists l b, field t off len = l ++ [b] /\ printable b /\ ~ white b) ->
  get_column_text_substr texts i off len = field t off len.
Proof. exact text_in_full. Qed.
Print Assumptions C17_text_partial.

Example C17_case :
  get_column_text_substr [bs "..Caf" ++ [xc3; xa9] ++ bs " noir.."] 0 2 10
  = bs "Caf" ++ [xc3; xa9] ++ bs " noir".
Proof. vm_compute. reflexivity. Qed.

(** C18: there are as many columns as announced, and each is made of the entries
    with its number; for files see also C15_file_described. *)
Theorem C18_columns : forall c e m d, md_columns (m_md m) = [] ->
  create_columns c e None m = Ok d ->
  lenN (md_columns d) = md_column_count (m_md m)
  /\ forall i col, nth_error (md_columns d) i = Some col -> column_at e m i col.
Proof. exact columns_built. Qed.
Print Assumptions C18_columns.

(** C18, readers: the number of columns of a reader opened without a filter. *)
Theorem C18_reader : forall S c (src : source S) s r,
  opened c src None s r -> lenN (md_columns (rs_md r)) = md_column_count (rs_md r).
Proof. exact opened_columns. Qed.
Print Assumptions C18_reader.

Example C18_case : forall r, reader_of sample_cfg sample_file = Some r ->
  map (fun c => (c_name c, c_label c, c_format c, fm_offset (c_fm c), fm_length (c_fm c)))
    (md_columns (rs_md r))
  = [(bs "ID", bs "The id", bs "BEST", 0, 8); (bs "NAME", [], [], 8, 4)].
Proof.
  intros r H. assert (E : match reader_of sample_cfg sample_file with
    | Some r => map (fun c => (c_name c, c_label c, c_format c, fm_offset (c_fm c), fm_length (c_fm c)))
                  (md_columns (rs_md r))
                = [(bs "ID", bs "The id", bs "BEST", 0, 8); (bs "NAME", [], [], 8, 4)]
    | None => False end) by (vm_compute; reflexivity).
  rewrite H in E. exact E.
Qed.

(** C19: a list which is too short makes the construction of the columns fail; for
    files see C15_file_described. *)
Theorem C19_missing_entries : forall c e flt m,
  120 * md_column_count (m_md m) <= max_alloc c ->
  ~ enough_entries m -> create_columns c e flt m = Exn E_out_of_range.
Proof. exact columns_missing. Qed.
Print Assumptions C19_missing_entries.

Example C19_case :
  open_reader sample_cfg file_source None (file_open missing_label_file) = Exn E_out_of_range.
Proof. vm_compute. reflexivity. Qed.

(** C21, opening: with a filter, opening has the same outcome, and the columns are
    the accepted ones. *)
Theorem C21_open : forall S c (src : source S) p s,
  open_reader c src (Some p) s
  = match open_reader c src None s with
    | Ok (r, ev) =>
        let md := with_columns (filter p (md_columns (rs_md r))) (rs_md r) in
        Ok (RState (rs_h r) md (rs_d r), [EvProps (rs_h r) md])
    | Exn x => Exn x | Abort => Abort | Undef u => Undef u | Fuel => Fuel
    end.
Proof. exact open_filter. Qed.
Print Assumptions C21_open.

(** C21, reading: every history of calls has the same results, the same rows with
    the same indices, with and without the filter. *)
Theorem C21_history : forall S c (src : source S) p s r ev ops,
  open_reader c src None s = Ok (r, ev) ->
  exists r', open_reader c src (Some p) s = Ok (r', [EvProps (rs_h r') (rs_md r')])
  /\ rs_h r' = rs_h r
  /\ rs_md r' = with_columns (filter p (md_columns (rs_md r))) (rs_md r)
  /\ fst (trace c src ops (Some r')) = fst (trace c src ops (Some r))
  /\ current_row_index (snd (trace c src ops (Some r')))
     = current_row_index (snd (trace c src ops (Some r))).
Proof. exact filter_trace. Qed.
Print Assumptions C21_history.

Example C21_case :
  match open_reader sample_cfg file_source (Some (fun c => bytes_eqb (c_name c) (bs "NAME")))
          (file_open sample_file) with
  | Ok (r, _) => map c_name (md_columns (rs_md r)) = [bs "NAME"]
                 /\ short 12 (fst (trace sample_cfg file_source [OpReadRow; OpReadRow] (Some r)))
                    = [(Ok (OBool true), [(0, bs "AAAAAAAAabcd")], 0);
                       (Ok (OBool true), [(1, bs "BBBBBBBBefgh")], 0)]
  | _ => False
  end.
Proof. vm_compute. split; reflexivity. Qed.

(** C23: the first text block decides. *)
Theorem C23_compression : forall S c (src : source S) flt s r ev,
  open_reader c src flt s = Ok (r, ev) ->
  exists s1 b1 p m, open_header c src s = Ok (rs_h r, s1, b1)
    /\ metadata_loop c src (h_endianness (rs_h r)) (h_format (rs_h r)) (h_page_length (rs_h r))
         (page_fuel c) (PState s1 b1 reset_page_header) empty_mstate = Ok (p, m)
    /\ match m_texts m with
       | [] => md_compression (rs_md r) = CompNone
       | t :: _ =>
           (md_compression (rs_md r) = CompRLE <-> exists a z, t = a ++ bs "SASYZCRL" ++ z)
           /\ (md_compression (rs_md r) = CompRDC <->
               (~ exists a z, t = a ++ bs "SASYZCRL" ++ z)
               /\ exists a z, t = a ++ bs "SASYZCR2" ++ z)
       end.
Proof. exact compression_told. Qed.
Print Assumptions C23_compression.

(** A compressed file; and a file which is not compressed, but has a column with
    such a label: it is taken for a compressed one. *)
Example C23_case :
  option_map (fun r => md_compression (rs_md r)) (reader_of sample_cfg sample_rle) = Some CompRLE
  /\ option_map (fun r => md_compression (rs_md r)) (reader_of sample_cfg sample_file) = Some CompNone
  /\ option_map (fun r => md_compression (rs_md r)) (reader_of sample_cfg named_file) = Some CompRLE.
Proof. vm_compute. repeat split; reflexivity. Qed.

(** C67 is false of the code: a row of the first page which starts like a column
    list is dropped, so that the rows behind it come too early, and the
    announced number of rows is not reached; the same bytes on a later page are
    delivered. *)
Theorem C67_first_rows_refuted : exists content r rows,
  opened sample_cfg file_source None (file_open content) r
  /\ firstn (N.to_nat (md_row_count (rs_md r)))
       (flat_map (page_rows (layout_of (rs_h r) (rs_md r))) (file_pages content (rs_h r)))
     = map Ok rows
  /\ In ([xfe; xff; xff; xff] ++ bs "BBBBefgh") rows
  /\ exists rows', seen 12 (fst (trace sample_cfg file_source [OpReadAll] (Some r)))
     = [(OpReadAll, Ok CUnit, numbered 0 rows' ++ [CEnd])]
  /\ rows' = [bs "AAAAAAAAabcd"; bs "CCCCCCCCijkl"; [xfe; xff; xff; xff] ++ bs "DDDDmnop"].
Proof.
  destruct (reader_of sample_cfg lookalike_file) as [r|] eqn:E; [|vm_compute in E; discriminate].
  exists lookalike_file, r, [bs "AAAAAAAAabcd"; [xfe; xff; xff; xff] ++ bs "BBBBefgh";
    bs "CCCCCCCCijkl"; [xfe; xff; xff; xff] ++ bs "DDDDmnop"].
  split; [apply reader_of_opened; exact E|].
  assert (H : match reader_of sample_cfg lookalike_file with
    | Some r => firstn (N.to_nat (md_row_count (rs_md r)))
       (flat_map (page_rows (layout_of (rs_h r) (rs_md r))) (file_pages lookalike_file (rs_h r)))
        = map Ok [bs "AAAAAAAAabcd"; [xfe; xff; xff; xff] ++ bs "BBBBefgh";
                  bs "CCCCCCCCijkl"; [xfe; xff; xff; xff] ++ bs "DDDDmnop"]
      /\ seen 12 (fst (trace sample_cfg file_source [OpReadAll] (Some r)))
        = [(OpReadAll, Ok CUnit, numbered 0 [bs "AAAAAAAAabcd"; bs "CCCCCCCCijkl";
              [xfe; xff; xff; xff] ++ bs "DDDDmnop"] ++ [CEnd])]
    | None => False end) by (vm_compute; split; reflexivity).
  rewrite E in H. destruct H as [H1 H2]. split; [exact H1|].
  split; [right; left; reflexivity|]. eexists. split; [exact H2|reflexivity].
Qed.
Print Assumptions C67_first_rows_refuted.

(** C67, what holds: of the page where the data begin, the rows which do not start
    like a subheader of the description are delivered, in order, before all those
    of the later pages; and nothing else is.  Missing: the other rows. *)
Theorem C67_first_rows_partial : forall c flt content r pre pg post,
  let ly := layout_of (rs_h r) (rs_md r) in
  opened c file_source flt (file_open content) r -> readable c content r ->
  file_pages content (rs_h r) = pre ++ pg :: post ->
  Forall (fun q => begins ly q = false) pre -> page_type ly pg = 0 -> begins ly pg = true ->
  forall rows,
  firstn (N.to_nat (md_row_count (rs_md r)))
    (map (fun s => row_content ly pg (se_pos s, se_len s))
       (filter (fun s => is_data_entry (md_compression (rs_md r)) s
                         && match kind_on ly pg s with None => true | Some _ => false end)
          (entries ly pg))
     ++ flat_map (page_rows ly) post) = map Ok rows ->
  seen (md_row_length (rs_md r)) (fst (trace c file_source [OpReadAll] (Some r)))
  = [(OpReadAll, Ok CUnit, numbered 0 rows ++ [CEnd])].
Proof. exact first_rows. Qed.
Print Assumptions C67_first_rows_partial.

(** A compressed sample with such rows: two on the first page, one on the second. *)
Example C67_case : forall r, reader_of sample_cfg sample_rows_rle = Some r ->
  readable sample_cfg sample_rows_rle r
  /\ short 12 (fst (trace sample_cfg file_source [OpReadAll] (Some r)))
     = [(Ok OUnit, [(0, bs "abcdef" ++ repeat x00 6); (1, bs "CCCCCCCCijkl");
                    (2, bs "mnop" ++ repeat x00 8)], 1)].
Proof.
  intros r H. assert (E : match reader_of sample_cfg sample_rows_rle with
    | Some r => readableb sample_cfg sample_rows_rle r = true
        /\ short 12 (fst (trace sample_cfg file_source [OpReadAll] (Some r)))
           = [(Ok OUnit, [(0, bs "abcdef" ++ repeat x00 6); (1, bs "CCCCCCCCijkl");
                          (2, bs "mnop" ++ repeat x00 8)], 1)]
    | None => False end) by (vm_compute; split; reflexivity).
  rewrite H in E. destruct E as [E1 E2]. split; [apply readableb_ok; exact E1|exact E2].
Qed.
