(** Model of [src/metadata.hpp]. *)
From Verif Require Import Base Types Buffer Page Column Header.
Local Open Scope N_scope.

(** src/metadata.hpp:18-22. *)
Definition COLUMN_DATETIME_FORMAT : list bytes :=
   [bs "DATETIME"; bs "DTWKDATX"; bs "B8601DN"; bs "B8601DT"; bs "B8601DX";
    bs "B8601DZ"; bs "B8601LX"; bs "E8601DN"; bs "E8601DT"; bs "E8601DX";
    bs "E8601DZ"; bs "E8601LX"; bs "DATEAMPM"; bs "DTDATE"; bs "DTMONYY";
    bs "DTMONYY"; bs "DTWKDATX"; bs "DTYEAR"; bs "TOD"; bs "MDYAMPM"].

(** src/metadata.hpp:24-35. *)
Definition COLUMN_DATE_FORMAT : list bytes :=
   [bs "DATE"; bs "DAY"; bs "DDMMYY"; bs "DOWNAME"; bs "JULDAY"; bs "JULIAN";
    bs "MMDDYY"; bs "MMYY"; bs "MMYYC"; bs "MMYYD"; bs "MMYYP"; bs "MMYYS";
    bs "MMYYN"; bs "MONNAME"; bs "MONTH"; bs "MONYY"; bs "QTR"; bs "QTRR";
    bs "NENGO"; bs "WEEKDATE"; bs "WEEKDATX"; bs "WEEKDAY"; bs "WEEKV"; bs "WORDDATE";
    bs "WORDDATX"; bs "YEAR"; bs "YYMM"; bs "YYMMC"; bs "YYMMD"; bs "YYMMP";
    bs "YYMMS"; bs "YYMMN"; bs "YYMON"; bs "YYMMDD"; bs "YYQ"; bs "YYQC";
    bs "YYQD"; bs "YYQP"; bs "YYQS"; bs "YYQN"; bs "YYQR"; bs "YYQRC";
    bs "YYQRD"; bs "YYQRP"; bs "YYQRS"; bs "YYQRN"; bs "YYMMDDP"; bs "YYMMDDC";
    bs "E8601DA"; bs "YYMMDDN"; bs "MMDDYYC"; bs "MMDDYYS"; bs "MMDDYYD"; bs "YYMMDDS";
    bs "B8601DA"; bs "DDMMYYN"; bs "YYMMDDD"; bs "DDMMYYB"; bs "DDMMYYP"; bs "MMDDYYP";
    bs "YYMMDDB"; bs "MMDDYYN"; bs "DDMMYYC"; bs "DDMMYYD"; bs "DDMMYYS"; bs "MINGUO"].

(** src/metadata.hpp:37. *)
Definition COLUMN_TIME_FORMAT : list bytes := [bs "TIME"].

(** src/metadata.hpp:499-516 match_column_format and the three predicates. *)
Definition match_column_format (l : list bytes) (f : bytes) : bool :=
  existsb (fun g => bytes_eqb f g) l.
Definition is_datetime_format := match_column_format COLUMN_DATETIME_FORMAT.
Definition is_date_format := match_column_format COLUMN_DATE_FORMAT.
Definition is_time_format := match_column_format COLUMN_TIME_FORMAT.

(** src/metadata.hpp:41-44 and 72-75. *)
Definition lcs_offset (f : format) : N :=
  match f with Bit64 => 682 | Bit32 => 354 end.
Definition lcp_offset (f : format) : N :=
  match f with Bit64 => 706 | Bit32 => 378 end.
Definition compression_offset (f : format) : N :=
  match f with Bit64 => 20 | Bit32 => 16 end.

(** src/metadata.hpp:46-69 and 77-88. *)
Definition ROW_SIZE_SUBHEADER (f : format) : list bytes :=
  match f with
  | Bit64 => [[x00; x00; x00; x00; xf7; xf7; xf7; xf7];
              [xf7; xf7; xf7; xf7; x00; x00; x00; x00]]
  | Bit32 => [[xf7; xf7; xf7; xf7]]
  end.
Definition COLUMN_SIZE_SUBHEADER (f : format) : list bytes :=
  match f with
  | Bit64 => [[x00; x00; x00; x00; xf6; xf6; xf6; xf6];
              [xf6; xf6; xf6; xf6; x00; x00; x00; x00]]
  | Bit32 => [[xf6; xf6; xf6; xf6]]
  end.
Definition SUBHEADER_COUNTS_SUBHEADER (f : format) : list bytes :=
  match f with
  | Bit64 => [[x00; xfc; xff; xff; xff; xff; xff; xff];
              [xff; xff; xff; xff; xff; xff; xfc; x00]]
  | Bit32 => [[x00; xfc; xff; xff]; [xff; xff; xfc; x00]]
  end.
Definition COLUMN_TEXT_SUBHEADER (f : format) : list bytes :=
  match f with
  | Bit64 => [[xfd; xff; xff; xff; xff; xff; xff; xff];
              [xff; xff; xff; xff; xff; xff; xff; xfd]]
  | Bit32 => [[xfd; xff; xff; xff]; [xff; xff; xff; xfd]]
  end.
Definition COLUMN_NAME_SUBHEADER (f : format) : list bytes :=
  match f with
  | Bit64 => [[xff; xff; xff; xff; xff; xff; xff; xff]]
  | Bit32 => [[xff; xff; xff; xff]]
  end.
Definition COLUMN_ATTRIBUTES_SUBHEADER (f : format) : list bytes :=
  match f with
  | Bit64 => [[xfc; xff; xff; xff; xff; xff; xff; xff];
              [xff; xff; xff; xff; xff; xff; xff; xfc]]
  | Bit32 => [[xfc; xff; xff; xff]; [xff; xff; xff; xfc]]
  end.
Definition FORMAT_AND_LABEL_SUBHEADER (f : format) : list bytes :=
  match f with
  | Bit64 => [[xfe; xfb; xff; xff; xff; xff; xff; xff];
              [xff; xff; xff; xff; xff; xff; xfb; xfe]]
  | Bit32 => [[xfe; xfb; xff; xff]; [xff; xff; xfb; xfe]]
  end.
Definition COLUMN_LIST_SUBHEADER (f : format) : list bytes :=
  match f with
  | Bit64 => [[xfe; xff; xff; xff; xff; xff; xff; xff];
              [xff; xff; xff; xff; xff; xff; xff; xfe]]
  | Bit32 => [[xfe; xff; xff; xff]; [xff; xff; xff; xfe]]
  end.

(** src/metadata.hpp:113-114. *)
Definition RLE_COMPRESSION : bytes := bs "SASYZCRL".
Definition RDC_COMPRESSION : bytes := bs "SASYZCR2".

(** include/cppsas7bdat/properties.hpp:40-59 struct Metadata. *)
Record metadata : Type := Metadata {
  md_compression : compression;
  md_creator : bytes;
  md_creator_proc : bytes;
  md_row_length : N;
  md_row_count : N;
  md_column_count : N;
  md_col_count_p1 : N;
  md_col_count_p2 : N;
  md_mix_page_row_count : N;
  md_lcs : N;
  md_lcp : N;
  md_columns : list column
}.

Definition empty_metadata : metadata := Metadata CompNone [] [] 0 0 0 0 0 0 0 0 [].

(** src/metadata.hpp:116-123: the vectors of READ_METADATA, together with the
    Metadata they fill.  Vectors are lists in insertion order; a data subheader
    is the pair (offset, length) of src/subheaders.hpp:29-34. *)
Record mstate : Type := MState {
  m_md : metadata;
  m_data_subheaders : list (N * N);
  m_texts : list bytes;
  m_names : list bytes;
  m_formats : list bytes;
  m_labels : list bytes;
  m_offsets : list N;
  m_lengths : list N;
  m_types : list ctype
}.

Definition empty_mstate : mstate := MState empty_metadata [] [] [] [] [] [] [] [].

Definition set_md (m : mstate) (d : metadata) : mstate :=
  MState d (m_data_subheaders m) (m_texts m) (m_names m) (m_formats m)
    (m_labels m) (m_offsets m) (m_lengths m) (m_types m).

(** src/metadata.hpp:210-217 match_signature. *)
Definition match_signature (table : list bytes) (sig : bytes) : bool :=
  existsb (fun s => bytes_eqb s sig) table.

(** src/metadata.hpp:219-242 process_ROW_SIZE_SUBHEADER. *)
Definition process_ROW_SIZE (e : endian) (f : format) (b : mbuf)
    (sh : page_subheader) (m : mstate) : res mstate :=
  noexcept
    (let o := sh_offset sh in
     let is := integer_size f in
     _ <- assert_check b (o +! lcp_offset f) 4 ;;
     lcs <- get_uint16 e b (o +! lcs_offset f) ;;
     lcp <- get_uint16 e b (o +! lcp_offset f) ;;
     row_length <- get_uinteger e f b (o +! 5 * is) ;;
     row_count <- get_uinteger e f b (o +! 6 * is) ;;
     p1 <- get_uinteger e f b (o +! 9 * is) ;;
     p2 <- get_uinteger e f b (o +! 10 * is) ;;
     mix <- get_uinteger e f b (o +! 15 * is) ;;
     let d := m_md m in
     Ok (set_md m (Metadata (md_compression d) (md_creator d) (md_creator_proc d)
                     row_length row_count (md_column_count d) p1 p2 mix lcs lcp
                     (md_columns d)))).

(** src/metadata.hpp:244-255 process_COLUMN_SIZE_SUBHEADER (the mismatch with
    col_count_p1 + col_count_p2 is only logged). *)
Definition process_COLUMN_SIZE (e : endian) (f : format) (b : mbuf)
    (sh : page_subheader) (m : mstate) : res mstate :=
  noexcept
    (n <- get_uint AssertYes e (integer_size f) b
            (sh_offset sh +! integer_size f) ;;
     let d := m_md m in
     Ok (set_md m (Metadata (md_compression d) (md_creator d) (md_creator_proc d)
                     (md_row_length d) (md_row_count d) n (md_col_count_p1 d)
                     (md_col_count_p2 d) (md_mix_page_row_count d) (md_lcs d)
                     (md_lcp d) (md_columns d)))).

Fixpoint is_prefix (p l : bytes) : bool :=
  match p, l with
  | [], _ => true
  | x :: p', y :: l' => beq x y && is_prefix p' l'
  | _ :: _, [] => false
  end.

(** std::string_view::find(needle) != npos, metadata.hpp:279-281. *)
Fixpoint contains (needle l : bytes) : bool :=
  is_prefix needle l
  || match l with [] => false | _ :: r => contains needle r end.

(** src/metadata.hpp:279-282. *)
Definition text_compression (text : bytes) (current : compression) : compression :=
  if contains RLE_COMPRESSION text then CompRLE
  else if contains RDC_COMPRESSION text then CompRDC
  else current.

(** src/metadata.hpp:267-301 process_COLUMN_TEXT_SUBHEADER.  Simplification: the
    copies of the texts (at most 65535 bytes each) never fail to allocate. *)
Definition process_COLUMN_TEXT (e : endian) (f : format) (b : mbuf)
    (sh : page_subheader) (m : mstate) : res mstate :=
  noexcept
    (let o := sh_offset sh in
     let is := integer_size f in
     let co := compression_offset f in
     len <- get_uint AssertYes e 2 b (o +! is) ;;
     text <- get_string_untrim AssertYes b (o +! is) len ;;
     let d := m_md m in
     let m' := fun d' =>
       MState d' (m_data_subheaders m) (m_texts m ++ [text]) (m_names m)
         (m_formats m) (m_labels m) (m_offsets m) (m_lengths m) (m_types m) in
     match m_texts m with
     | _ :: _ => Ok (m' d)
     | [] =>
         let comp := text_compression text (md_compression d) in
         comp_text <- get_string AssertYes b (o +! co) 8 ;;
         let upd := fun creator proc lcs lcp =>
           m' (Metadata comp creator proc (md_row_length d) (md_row_count d)
                 (md_column_count d) (md_col_count_p1 d) (md_col_count_p2 d)
                 (md_mix_page_row_count d) lcs lcp (md_columns d)) in
         match comp_text with
         | [] =>
             proc <- get_string AssertYes b (o +! co +! 16) (md_lcp d) ;;
             Ok (upd (md_creator d) proc 0 (md_lcp d))
         | _ =>
             if bytes_eqb comp_text RLE_COMPRESSION then
               proc <- get_string AssertYes b (o +! co +! 24) (md_lcp d) ;;
               Ok (upd (md_creator d) proc (md_lcs d) (md_lcp d))
             else if 0 <? md_lcs d then
               creator <- get_string AssertYes b (o +! co) (md_lcs d) ;;
               Ok (upd creator (md_creator_proc d) (md_lcs d) 0)
             else
               Ok (upd (md_creator d) (md_creator_proc d) (md_lcs d) (md_lcp d))
         end
     end).

(** src/metadata.hpp:303-323 get_column_text_substr. *)
Definition get_column_text_substr (texts : list bytes) (idx off len : N) : bytes :=
  match nth_error texts (N.to_nat idx) with
  | None => []
  | Some ct =>
      let off := N.min off (lenN ct) in
      let len := N.min len (lenN ct - off) in
      match slice off len ct with
      | [] => []
      | (c0 :: _) as l =>
          if isprint c0 then
            drop_while_end (fun c => negb (isprint c) || isspace c)
              (drop_while isspace l)
          else []
      end
  end.

(** src/metadata.hpp:325-343 process_COLUMN_NAME_SUBHEADER: the loop from
    [off], with fuel. *)
Fixpoint names_loop (e : endian) (b : mbuf) (texts : list bytes) (fuel : nat)
    (off off_max : N) (acc : list bytes) : res (list bytes) :=
  if off <=? off_max then
    match fuel with
    | O => Fuel
    | S fuel' =>
        idx <- get_uint16 e b (off +! 0) ;;
        no <- get_uint16 e b (off +! 2) ;;
        nl <- get_uint16 e b (off +! 4) ;;
        names_loop e b texts fuel' (off +! 8) off_max
          (acc ++ [get_column_text_substr texts idx no nl])
    end
  else Ok acc.

Definition loop_fuel (b : mbuf) : nat := S (length (mem b)).

(** src/metadata.hpp:330-331 and 351-352: the wrapping subtraction. *)
Definition loop_offset_max (f : format) (sh : page_subheader) : N :=
  sh_offset sh +! sh_length sh -! 12 -! integer_size f.

Definition process_COLUMN_NAME (e : endian) (f : format) (b : mbuf)
    (sh : page_subheader) (m : mstate) : res mstate :=
  noexcept
    (names <- names_loop e b (m_texts m) (loop_fuel b)
                (sh_offset sh +! integer_size f +! 8) (loop_offset_max f sh)
                (m_names m) ;;
     Ok (MState (m_md m) (m_data_subheaders m) (m_texts m) names (m_formats m)
           (m_labels m) (m_offsets m) (m_lengths m) (m_types m))).

(** src/metadata.hpp:345-365 process_COLUMN_ATTRIBUTES_SUBHEADER. *)
Fixpoint attrs_loop (e : endian) (f : format) (b : mbuf) (fuel : nat)
    (off off_max : N) (acc : list (N * N * ctype))
  : res (list (N * N * ctype)) :=
  if off <=? off_max then
    match fuel with
    | O => Fuel
    | S fuel' =>
        let is := integer_size f in
        o <- get_uinteger e f b (off +! 0) ;;
        l <- get_uint32 e b (off +! is) ;;
        t <- get_byte b (off +! is +! 6) ;;
        attrs_loop e f b fuel' (off +! (is + 8)) off_max
          (acc ++ [(o, l, if b2n t =? 1 then TNumber else TString)])
    end
  else Ok acc.

Definition process_COLUMN_ATTRIBUTES (e : endian) (f : format) (b : mbuf)
    (sh : page_subheader) (m : mstate) : res mstate :=
  noexcept
    (attrs <- attrs_loop e f b (loop_fuel b)
                (sh_offset sh +! integer_size f +! 8) (loop_offset_max f sh) [] ;;
     Ok (MState (m_md m) (m_data_subheaders m) (m_texts m) (m_names m)
           (m_formats m) (m_labels m)
           (m_offsets m ++ map (fun a => fst (fst a)) attrs)
           (m_lengths m ++ map (fun a => snd (fst a)) attrs)
           (m_types m ++ map snd attrs))).

(** src/metadata.hpp:367-393 process_FORMAT_AND_LABEL_SUBHEADER. *)
Definition process_FORMAT_AND_LABEL (e : endian) (f : format) (b : mbuf)
    (sh : page_subheader) (m : mstate) : res mstate :=
  noexcept
    (let o := sh_offset sh +! 3 * integer_size f in
     _ <- assert_check b (o +! 32) 2 ;;
     fi <- get_uint16 e b (o +! 22) ;;
     fo <- get_uint16 e b (o +! 24) ;;
     fl <- get_uint16 e b (o +! 26) ;;
     li <- get_uint16 e b (o +! 28) ;;
     lo <- get_uint16 e b (o +! 30) ;;
     ll <- get_uint16 e b (o +! 32) ;;
     let fmt := get_column_text_substr (m_texts m) fi fo fl in
     let lab := get_column_text_substr (m_texts m) li lo ll in
     Ok (MState (m_md m) (m_data_subheaders m) (m_texts m) (m_names m)
           (m_formats m ++ [fmt]) (m_labels m ++ [lab]) (m_offsets m)
           (m_lengths m) (m_types m))).

(** src/metadata.hpp:404-409 process_DATA_SUBHEADER. *)
Definition process_DATA (sh : page_subheader) (m : mstate) : mstate :=
  MState (m_md m) (m_data_subheaders m ++ [(sh_offset sh, sh_length sh)])
    (m_texts m) (m_names m) (m_formats m) (m_labels m) (m_offsets m)
    (m_lengths m) (m_types m).

(** src/metadata.hpp:162-208 process_subheader: new state and "data reached".
    SUBHEADER_COUNTS (257-265) and COLUMN_LIST (395-402) do nothing. *)
Definition process_subheader (e : endian) (f : format) (b : mbuf) (m : mstate)
    (sh : page_subheader) : res (mstate * bool) :=
  sig <- get_raw AssertNo b (sh_offset sh) (integer_size f) ;;
  if match_signature (ROW_SIZE_SUBHEADER f) sig then
    m' <- process_ROW_SIZE e f b sh m ;; Ok (m', false)
  else if match_signature (COLUMN_SIZE_SUBHEADER f) sig then
    m' <- process_COLUMN_SIZE e f b sh m ;; Ok (m', false)
  else if match_signature (SUBHEADER_COUNTS_SUBHEADER f) sig then
    Ok (m, false)
  else if match_signature (COLUMN_TEXT_SUBHEADER f) sig then
    m' <- process_COLUMN_TEXT e f b sh m ;; Ok (m', false)
  else if match_signature (COLUMN_NAME_SUBHEADER f) sig then
    m' <- process_COLUMN_NAME e f b sh m ;; Ok (m', false)
  else if match_signature (COLUMN_ATTRIBUTES_SUBHEADER f) sig then
    m' <- process_COLUMN_ATTRIBUTES e f b sh m ;; Ok (m', false)
  else if match_signature (FORMAT_AND_LABEL_SUBHEADER f) sig then
    m' <- process_FORMAT_AND_LABEL e f b sh m ;; Ok (m', false)
  else if match_signature (COLUMN_LIST_SUBHEADER f) sig then
    Ok (m, false)
  else if data_subheader_check (md_compression (m_md m)) sh then
    Ok (process_DATA sh m, true)
  else Ok (m, false).

(** src/metadata.hpp:152-160 process_page_metadata. *)
Definition process_page_metadata (e : endian) (f : format) (b : mbuf)
    (h : page_header) (m : mstate) : res (mstate * bool) :=
  process_page_subheaders e f b h
    (fun acc sh =>
       '(m', d) <- process_subheader e f b (fst acc) sh ;;
       Ok (m', snd acc || d))
    (m, false).

(** src/metadata.hpp:144-150 process_page: new state and "stop". *)
Definition process_page (e : endian) (f : format) (b : mbuf) (h : page_header)
    (m : mstate) : res (mstate * bool) :=
  if is_page_meta_mix_amd (ph_type h) then
    '(m', d) <- process_page_metadata e f b h m ;;
    Ok (m', is_page_data_mix (ph_type h) || d)
  else Ok (m, is_page_data_mix (ph_type h)).

(** src/metadata.hpp:137-140: the loop over the pages. *)
Fixpoint metadata_loop {S} (c : cfg) (src : source S) (e : endian) (f : format)
    (plen : N) (fuel : nat) (p : pstate S) (m : mstate)
  : res (pstate S * mstate) :=
  match fuel with
  | O => Fuel
  | Datatypes.S fuel' =>
      match read_page c src e f plen p with
      | (Ok true, p') =>
          '(m', stop) <- process_page e f (ps_buf p') (ps_hdr p') m ;;
          if stop : bool then Ok (p', m')
          else metadata_loop c src e f plen fuel' p' m'
      | (Ok false, p') => Ok (p', m)
      | (Exn ex, _) => Exn ex
      | (Abort, _) => Abort
      | (Undef u, _) => Undef u
      | (Fuel, _) => Fuel
      end
  end.

(** src/metadata.hpp:453-494: the formatter of a column. *)
Definition column_kind (t : ctype) (len : N) (fmt : bytes) : fkind :=
  match t with
  | TString => FString
  | TNumber =>
      if len =? 1 then FSmallInt
      else if len =? 2 then FInt16
      else if is_datetime_format fmt then FDateTime
      else if is_date_format fmt then FDate
      else if is_time_format fmt then FTime
      else if len =? 8 then FDouble
      else if len =? 3 then FIncomplete 3
      else if len =? 4 then FIncomplete 4
      else if len =? 5 then FIncomplete 5
      else if len =? 6 then FIncomplete 6
      else if len =? 7 then FIncomplete 7
      else FNo
  | _ => FNo
  end.

(** std::vector::at, metadata.hpp:422. *)
Definition at_ {A} (l : list A) (i : nat) : res A :=
  match nth_error l i with
  | Some x => Ok x
  | None => Exn E_out_of_range
  end.

(** src/metadata.hpp:427-496: the loop over icol. *)
Fixpoint create_loop (e : endian) (filter : option (column -> bool)) (m : mstate)
    (ncols : N) (fuel : nat) (icol : nat) (acc : list column)
  : res (list column) :=
  if N.of_nat icol <? ncols then
    match fuel with
    | O => Fuel
    | S fuel' =>
        name <- at_ (m_names m) icol ;;
        label <- at_ (m_labels m) icol ;;
        fmt <- at_ (m_formats m) icol ;;
        off <- at_ (m_offsets m) icol ;;
        len <- at_ (m_lengths m) icol ;;
        ty <- at_ (m_types m) icol ;;
        let col := Column name label fmt
                     (Formatter (column_kind ty len fmt) off len e) in
        let keep := match filter with None => true | Some p => p col end in
        create_loop e filter m ncols fuel' (S icol)
          (if keep then acc ++ [col] else acc)
    end
  else Ok acc.

(** sizeof(Column), for metadata.hpp:414 (include/cppsas7bdat/column.hpp:64-110): three
    std::string, the Type (padded) and a shared_ptr. *)
Definition sizeof_column : N := 120.

(** src/metadata.hpp:411-497 create_columns.  [reserve] throws length_error or
    bad_alloc when the array does not fit; both are E_bad_alloc here. *)
Definition create_columns (c : cfg) (e : endian)
    (filter : option (column -> bool)) (m : mstate) : res metadata :=
  let d := m_md m in
  let ncols := md_column_count d in
  if sizeof_column * ncols <=? max_alloc c then
    cols <- create_loop e filter m ncols (S (length (m_names m))) 0
              (md_columns d) ;;
    Ok (Metadata (md_compression d) (md_creator d) (md_creator_proc d)
          (md_row_length d) (md_row_count d) ncols (md_col_count_p1 d)
          (md_col_count_p2 d) (md_mix_page_row_count d) (md_lcs d) (md_lcp d)
          cols)
  else Exn E_bad_alloc.

(** src/metadata.hpp:135-142 set_metadata: the page state, the metadata and the
    data subheaders of the last page read. *)
Definition set_metadata {S} (c : cfg) (src : source S) (e : endian) (f : format)
    (plen : N) (filter : option (column -> bool)) (s : S) (b : mbuf)
  : res (pstate S * metadata * list (N * N)) :=
  '(p, m) <- metadata_loop c src e f plen (page_fuel c)
               (PState s b reset_page_header) empty_mstate ;;
  d <- create_columns c e filter m ;;
  Ok (p, d, m_data_subheaders m).
