(** What the subheaders of the metadata pages mean, and when they are long enough.
    The subheaders, pages and layouts are those of SpecPages; nothing of the
    functions of the reader is used (only its types). *)
From Verif Require Import Base Types Buffer Header Column Decomp Metadata Data Reader SpecValues
  SpecHeader SpecDecomp SpecReader SpecPages.
Local Open Scope N_scope.

(** ** Numbers and texts of a page *)

Definition num16 (ly : layout) (pg : bytes) (pos : N) : N :=
  value_of (ly_endian ly) (field pg pos 2).
Definition num32 (ly : layout) (pg : bytes) (pos : N) : N :=
  value_of (ly_endian ly) (field pg pos 4).
Definition numw (ly : layout) (pg : bytes) (pos : N) : N :=
  value_of (ly_endian ly) (field pg pos (word (ly_format ly))).

Definition whiteb (b : byte) : bool :=
  ((9 <=? Byte.to_N b) && (Byte.to_N b <=? 13)) || (Byte.to_N b =? 32).
Definition printb (b : byte) : bool := (32 <=? Byte.to_N b) && (Byte.to_N b <=? 126).

Fixpoint skip_while (p : byte -> bool) (l : bytes) : bytes :=
  match l with
  | [] => []
  | b :: r => if p b then skip_while p r else l
  end.

(** Without the white space in front, nor the white space and the characters which
    are not printable ASCII at the end. *)
Definition stripped (l : bytes) : bytes :=
  rev (skip_while (fun b => negb (printb b) || whiteb b) (rev (skip_while whiteb l))).

(** The text (block, position, length): nothing when the block does not exist or
    the first character is not printable; the part outside the block is ignored. *)
Definition text_of (texts : list bytes) (r : N * N * N) : bytes :=
  let '(i, pos, len) := r in
  match nth_error texts (N.to_nat i) with
  | None => []
  | Some t =>
      match field t pos len with
      | [] => []
      | b :: l => if printb b then stripped (b :: l) else []
      end
  end.

Definition ref_at (ly : layout) (pg : bytes) (pos : N) : N * N * N :=
  (num16 ly pg pos, num16 ly pg (pos + 2), num16 ly pg (pos + 4)).

(** Does [needle] occur in [l]? *)
Fixpoint occurs (needle l : bytes) : bool :=
  bytes_eqb (firstn (length needle) l) needle
  || match l with [] => false | _ :: r => occurs needle r end.

Definition rle_name : bytes := bs "SASYZCRL".
Definition rdc_name : bytes := bs "SASYZCR2".

(** The compression told by the first text block. *)
Definition told (current : compression) (text : bytes) : compression :=
  if occurs rle_name text then CompRLE
  else if occurs rdc_name text then CompRDC
  else current.

(** ** What a subheader means *)

Definition lcs_pos (f : format) : N := match f with Bit64 => 682 | Bit32 => 354 end.
Definition lcp_pos (f : format) : N := match f with Bit64 => 706 | Bit32 => 378 end.
Definition mark_pos (f : format) : N := match f with Bit64 => 20 | Bit32 => 16 end.

(** Row size: integers 5, 6, 9, 10 and 15, and two 16 bit lengths. *)
Definition row_size_meaning (ly : layout) (pg : bytes) (pos : N) (m : mstate) : mstate :=
  let w := word (ly_format ly) in
  let d := m_md m in
  MState (Metadata (md_compression d) (md_creator d) (md_creator_proc d)
            (numw ly pg (pos + 5 * w)) (numw ly pg (pos + 6 * w)) (md_column_count d)
            (numw ly pg (pos + 9 * w)) (numw ly pg (pos + 10 * w)) (numw ly pg (pos + 15 * w))
            (num16 ly pg (pos + lcs_pos (ly_format ly)))
            (num16 ly pg (pos + lcp_pos (ly_format ly))) (md_columns d))
    (m_data_subheaders m) (m_texts m) (m_names m) (m_formats m) (m_labels m) (m_offsets m)
    (m_lengths m) (m_types m).

Definition column_size_meaning (ly : layout) (pg : bytes) (pos : N) (m : mstate) : mstate :=
  let d := m_md m in
  MState (Metadata (md_compression d) (md_creator d) (md_creator_proc d)
            (md_row_length d) (md_row_count d) (numw ly pg (pos + word (ly_format ly)))
            (md_col_count_p1 d) (md_col_count_p2 d) (md_mix_page_row_count d) (md_lcs d)
            (md_lcp d) (md_columns d))
    (m_data_subheaders m) (m_texts m) (m_names m) (m_formats m) (m_labels m) (m_offsets m)
    (m_lengths m) (m_types m).

(** A text block starts with its length. *)
Definition block_at (ly : layout) (pg : bytes) (pos : N) : bytes :=
  let p := pos + word (ly_format ly) in field pg p (num16 ly pg p).

(** The first text block tells the compression; depending on the 8 characters at
    12 of the block, the name of the creator or of the procedure follows. *)
Definition mark_at (ly : layout) (pg : bytes) (pos : N) : bytes :=
  stripped (field pg (pos + mark_pos (ly_format ly)) 8).

Definition first_text_meaning (ly : layout) (pg : bytes) (pos : N) (d : metadata) : metadata :=
  let mp := pos + mark_pos (ly_format ly) in
  let comp := told (md_compression d) (block_at ly pg pos) in
  let '(creator, proc, lcs, lcp) :=
    if bytes_eqb (mark_at ly pg pos) [] then
      (md_creator d, stripped (field pg (mp + 16) (md_lcp d)), 0, md_lcp d)
    else if bytes_eqb (mark_at ly pg pos) rle_name then
      (md_creator d, stripped (field pg (mp + 24) (md_lcp d)), md_lcs d, md_lcp d)
    else if md_lcs d =? 0 then (md_creator d, md_creator_proc d, md_lcs d, md_lcp d)
    else (stripped (field pg mp (md_lcs d)), md_creator_proc d, md_lcs d, 0) in
  Metadata comp creator proc (md_row_length d) (md_row_count d) (md_column_count d)
    (md_col_count_p1 d) (md_col_count_p2 d) (md_mix_page_row_count d) lcs lcp (md_columns d).

Definition text_meaning (ly : layout) (pg : bytes) (pos : N) (m : mstate) : mstate :=
  MState (match m_texts m with [] => first_text_meaning ly pg pos (m_md m) | _ => m_md m end)
    (m_data_subheaders m) (m_texts m ++ [block_at ly pg pos]) (m_names m) (m_formats m)
    (m_labels m) (m_offsets m) (m_lengths m) (m_types m).

(** The number of elements of [size] bytes of a list which starts at w + 8 and
    stops 12 + w before the end. *)
Definition list_count (w size len : N) : N :=
  if 2 * w + 20 <=? len then (len - (2 * w + 20)) / size + 1 else 0.

Definition list_pos (ly : layout) (pos size k : N) : N :=
  pos + word (ly_format ly) + 8 + k * size.

Definition names_meaning (ly : layout) (pg : bytes) (pos len : N) (m : mstate) : mstate :=
  MState (m_md m) (m_data_subheaders m) (m_texts m)
    (m_names m ++ map (fun k => text_of (m_texts m) (ref_at ly pg (list_pos ly pos 8 k)))
                    (count_to (list_count (word (ly_format ly)) 8 len)))
    (m_formats m) (m_labels m) (m_offsets m) (m_lengths m) (m_types m).

Definition attributes_meaning (ly : layout) (pg : bytes) (pos len : N) (m : mstate) : mstate :=
  let w := word (ly_format ly) in
  let ps := map (list_pos ly pos (w + 8)) (count_to (list_count w (w + 8) len)) in
  MState (m_md m) (m_data_subheaders m) (m_texts m) (m_names m) (m_formats m) (m_labels m)
    (m_offsets m ++ map (numw ly pg) ps)
    (m_lengths m ++ map (fun p => num32 ly pg (p + w)) ps)
    (m_types m ++ map (fun p => if byte_at pg (p + w + 6) =? 1 then TNumber else TString) ps).

Definition format_label_meaning (ly : layout) (pg : bytes) (pos : N) (m : mstate) : mstate :=
  let p := pos + 3 * word (ly_format ly) + 22 in
  MState (m_md m) (m_data_subheaders m) (m_texts m) (m_names m)
    (m_formats m ++ [text_of (m_texts m) (ref_at ly pg p)])
    (m_labels m ++ [text_of (m_texts m) (ref_at ly pg (p + 6))])
    (m_offsets m) (m_lengths m) (m_types m).

Definition row_meaning (s : sub_entry) (m : mstate) : mstate :=
  MState (m_md m) (m_data_subheaders m ++ [(se_pos s, se_len s)]) (m_texts m) (m_names m)
    (m_formats m) (m_labels m) (m_offsets m) (m_lengths m) (m_types m).

(** Is it a row of a compressed file? *)
Definition is_row (ly : layout) (pg : bytes) (m : mstate) (s : sub_entry) : bool :=
  match kind_on ly pg s with
  | Some _ => false
  | None => is_data_entry (md_compression (m_md m)) s
  end.

Definition meaning (ly : layout) (pg : bytes) (m : mstate) (s : sub_entry) : mstate :=
  match kind_on ly pg s with
  | Some KRowSize => row_size_meaning ly pg (se_pos s) m
  | Some KColumnSize => column_size_meaning ly pg (se_pos s) m
  | Some KText => text_meaning ly pg (se_pos s) m
  | Some KNames => names_meaning ly pg (se_pos s) (se_len s) m
  | Some KAttributes => attributes_meaning ly pg (se_pos s) (se_len s) m
  | Some KFormatLabel => format_label_meaning ly pg (se_pos s) m
  | Some KCounts | Some KList => m
  | None => if is_row ly pg m s then row_meaning s m else m
  end.

(** ** Which subheaders are long enough *)

Definition text_fits (ly : layout) (pg : bytes) (m : mstate) (s : sub_entry) : Prop :=
  let w := word (ly_format ly) in
  let mp := mark_pos (ly_format ly) in
  w + 2 <= se_len s
  /\ w + num16 ly pg (se_pos s + w) <= se_len s
  /\ (m_texts m = [] ->
      mp + 8 <= se_len s
      /\ (if bytes_eqb (mark_at ly pg (se_pos s)) [] then mp + 16 + md_lcp (m_md m) <= se_len s
          else if bytes_eqb (mark_at ly pg (se_pos s)) rle_name
               then mp + 24 + md_lcp (m_md m) <= se_len s
               else mp + md_lcs (m_md m) <= se_len s)).

Definition fits (ly : layout) (pg : bytes) (m : mstate) (s : sub_entry) : Prop :=
  let w := word (ly_format ly) in
  se_pos s + w <= lenN pg
  /\ match kind_on ly pg s with
     | Some KRowSize => lcp_pos (ly_format ly) + 4 <= se_len s
     | Some KColumnSize => 2 * w <= se_len s
     | Some KText => text_fits ly pg m s
     | Some KNames | Some KAttributes => w + 12 <= se_len s
     | Some KFormatLabel => 3 * w + 34 <= se_len s
     | Some KCounts | Some KList | None => True
     end.

(** ** Pages *)

Fixpoint subs_meaning (ly : layout) (pg : bytes) (m : mstate) (l : list sub_entry) : mstate :=
  match l with
  | [] => m
  | s :: l' => subs_meaning ly pg (meaning ly pg m s) l'
  end.

Fixpoint subs_fit (ly : layout) (pg : bytes) (m : mstate) (l : list sub_entry) : Prop :=
  match l with
  | [] => True
  | s :: l' => fits ly pg m s /\ subs_fit ly pg (meaning ly pg m s) l'
  end.

Fixpoint subs_rows (ly : layout) (pg : bytes) (m : mstate) (l : list sub_entry) : bool :=
  match l with
  | [] => false
  | s :: l' => is_row ly pg m s || subs_rows ly pg (meaning ly pg m s) l'
  end.

Definition page_meaning (ly : layout) (pg : bytes) (m : mstate) : mstate :=
  subs_meaning ly pg m (live ly pg).

(** The metadata part of the file ends with a page which has rows. *)
Definition page_ends (ly : layout) (pg : bytes) (m : mstate) : bool :=
  (page_type ly pg =? 256) || is_mix (page_type ly pg) || subs_rows ly pg m (live ly pg).

(** The header and the table of the page are inside it, and so is what the table
    points to; the subheaders are long enough. *)
Definition page_fits (ly : layout) (pg : bytes) (m : mstate) : Prop :=
  prefix (ly_format ly) + 6 <= lenN pg
  /\ (has_subheaders (page_type ly pg) = true ->
      prefix (ly_format ly) + 8 + page_subs ly pg * (3 * word (ly_format ly)) <= lenN pg
      /\ Forall (fun s => se_pos s + se_len s <= lenN pg) (entries ly pg)
      /\ subs_fit ly pg m (live ly pg)).

Fixpoint pages_meaning (ly : layout) (m : mstate) (pages : list bytes) : mstate :=
  match pages with
  | [] => m
  | pg :: l =>
      if page_ends ly pg m then page_meaning ly pg m
      else pages_meaning ly (page_meaning ly pg m) l
  end.

Fixpoint pages_fit (ly : layout) (m : mstate) (pages : list bytes) : Prop :=
  match pages with
  | [] => True
  | pg :: l =>
      page_fits ly pg m
      /\ (page_ends ly pg m = false -> pages_fit ly (page_meaning ly pg m) l)
  end.

(** ** Columns *)

(** [col] is column number [i] of the collected lists. *)
Definition column_at (e : endian) (m : mstate) (i : nat) (col : column) : Prop :=
  exists ty,
    nth_error (m_names m) i = Some (c_name col)
    /\ nth_error (m_labels m) i = Some (c_label col)
    /\ nth_error (m_formats m) i = Some (c_format col)
    /\ nth_error (m_offsets m) i = Some (fm_offset (c_fm col))
    /\ nth_error (m_lengths m) i = Some (fm_length (c_fm col))
    /\ nth_error (m_types m) i = Some ty
    /\ fm_kind (c_fm col) = column_kind ty (fm_length (c_fm col)) (c_format col)
    /\ fm_endian (c_fm col) = e.

(** The lists are long enough for the columns. *)
Definition enough_entries (m : mstate) : Prop :=
  let n := md_column_count (m_md m) in
  n <= lenN (m_names m) /\ n <= lenN (m_labels m) /\ n <= lenN (m_formats m)
  /\ n <= lenN (m_offsets m) /\ n <= lenN (m_lengths m) /\ n <= lenN (m_types m).

(** The same metadata with other columns. *)
Definition with_columns (cols : list column) (d : metadata) : metadata :=
  Metadata (md_compression d) (md_creator d) (md_creator_proc d) (md_row_length d)
    (md_row_count d) (md_column_count d) (md_col_count_p1 d) (md_col_count_p2 d)
    (md_mix_page_row_count d) (md_lcs d) (md_lcp d) cols.

(** What the constructor needs to find in a file with header [h]: pages which fit,
    enough memory for a page, the columns and a row, and enough steps. *)
Definition described (c : cfg) (content : bytes) (h : header) : Prop :=
  let ly := layout_of h empty_metadata in
  let pages := file_pages content h in
  let d := m_md (pages_meaning ly empty_mstate pages) in
  prefix (h_format h) + 6 <= h_page_length h
  /\ h_page_length h <= max_alloc c
  /\ pages_fit ly empty_mstate pages
  /\ (length pages < page_fuel c)%nat
  /\ 120 * md_column_count d <= max_alloc c
  /\ (md_compression d = CompNone \/ md_row_length d <= max_alloc c).
