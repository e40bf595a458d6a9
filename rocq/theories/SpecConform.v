(** The files which hold a table, whoever wrote them: what the bytes of the header, of
    the description and of the pages have to be.  The meaning of the subheaders is that
    of SpecMeta, the places of the rows are those of SpecPages; the compressed rows are
    said with the commands of SpecDecomp. *)
From Verif Require Import Base Types DateTime Buffer Header Column Decomp Metadata Data Reader SpecValues SpecHeader
  SpecDecomp SpecReader SpecPages SpecMeta SpecFile SpecRoundtrip.
Local Open Scope N_scope.

(** ** Header *)

Definition page_length_field (content : bytes) : N :=
  value_of (file_endian content) (field content (200 + shift1 content) 4).

(** The 64 bits are a date which can be written. *)
Definition date_shown (bits : N) : Prop :=
  exists t, date_of_bits bits t /\ exists s, datetime_to_string t = Ok s.

Definition header_good (content : bytes) : Prop :=
  has_magic content
  /\ 288 + shift2 content <= header_length_field content <= lenN content
  /\ date_shown (value_of (file_endian content) (field content (164 + shift1 content) 8))
  /\ date_shown (value_of (file_endian content) (field content (172 + shift1 content) 8)).

(** ** Description *)

(** The layout of the file as far as the header tells. *)
Definition base_layout (content : bytes) : layout :=
  Layout (file_endian content) (file_format content) (page_length_field content) 0 0 0 CompNone.

(** The pages follow the header; what is left at the end is not a page. *)
Definition pages_in (content : bytes) : list bytes :=
  complete_pages (page_length_field content)
    (skipn (N.to_nat (header_length_field content)) content).

(** What the description of the file says. *)
Definition said (content : bytes) : mstate :=
  pages_meaning (base_layout content) empty_mstate (pages_in content).

(** The columns are these: their names, labels, formats, positions, lengths and types
    have been said, in this order. *)
Definition fields_said (m : mstate) (fields : list field_desc) : Prop :=
  lenN fields = md_column_count (m_md m)
  /\ forall i d, nth_error fields i = Some d ->
     nth_error (m_names m) i = Some (fd_name d)
     /\ nth_error (m_labels m) i = Some (fd_label d)
     /\ nth_error (m_formats m) i = Some (fd_format d)
     /\ nth_error (m_offsets m) i = Some (fd_offset d)
     /\ nth_error (m_lengths m) i = Some (fd_length d)
     /\ nth_error (m_types m) i = Some (if fd_numeric d then TNumber else TString).

(** The layout with what the description says. *)
Definition full_layout (content : bytes) : layout :=
  let d := m_md (said content) in
  Layout (file_endian content) (file_format content) (page_length_field content)
    (md_row_length d) (md_row_count d) (md_mix_page_row_count d) (md_compression d).

(** ** Rows *)

(** The row made from the bytes of its place: the first ones if there are enough, else
    what is unpacked from them. *)
Definition row_by (unpack : bytes -> bytes -> Prop) (rl : N) (stored row : bytes) : Prop :=
  lenN row = rl
  /\ (rl <= lenN stored /\ row = firstn (N.to_nat rl) stored
      \/ lenN stored < rl /\ unpack stored row).

(** What the commands of the two compressions say: the bytes are commands, followed by
    others only when the row is complete; what they do not say is zero. *)
Definition rle_meant (n : N) (stored row : bytes) : Prop :=
  exists cs tail, stored = rle_encoding cs ++ tail /\ row = zero_padded n (rle_expansion cs)
    /\ Forall rle_valid cs /\ lenN (rle_expansion cs) <= n
    /\ (tail = [] \/ lenN (rle_expansion cs) = n).

Definition rdc_meant (n : N) (stored row : bytes) : Prop :=
  exists gs tail, stored = rdc_encoding gs ++ tail
    /\ row = zero_padded n (rdc_expansion [] (concat gs))
    /\ groups_ok gs /\ rdc_all_valid [] (concat gs)
    /\ lenN (rdc_expansion [] (concat gs)) <= n
    /\ (tail = [] \/ lenN (rdc_expansion [] (concat gs)) = n).

Definition row_meant (k : compression) (rl : N) : bytes -> bytes -> Prop :=
  row_by (match k with
          | CompNone => fun _ _ => False
          | CompRLE => rle_meant rl
          | CompRDC => rdc_meant rl
          end) rl.

(** The same for the rows of which nothing is lost (see C26 and C29): a last command of
    one byte in RLE is a run of zeros. *)
Definition rle_zeros_last (n : N) (stored row : bytes) : Prop :=
  exists cs l, stored = rle_encoding (cs ++ [RZero2 l])
    /\ row = zero_padded n (rle_expansion (cs ++ [RZero2 l]))
    /\ Forall rle_valid (cs ++ [RZero2 l]) /\ lenN (rle_expansion (cs ++ [RZero2 l])) <= n.

Definition row_made (k : compression) (rl : N) : bytes -> bytes -> Prop :=
  row_by (match k with
          | CompNone => fun _ _ => False
          | CompRLE => fun stored row => rle_stored rl stored row \/ rle_zeros_last rl stored row
          | CompRDC => rdc_stored rl
          end) rl.

(** The same for the rows of which nothing is lost but blanks, where there is no
    number. *)
Definition rle_blanks_last (fields : list field_desc) (n : N) (stored row : bytes) : Prop :=
  exists cs l, stored = rle_encoding (cs ++ [RBlank2 l])
    /\ row = zero_padded n (rle_expansion (cs ++ [RBlank2 l]))
    /\ Forall rle_valid (cs ++ [RBlank2 l]) /\ lenN (rle_expansion (cs ++ [RBlank2 l])) <= n
    /\ Forall (fun d => fd_numeric d = true ->
                fd_offset d + fd_length d <= lenN (rle_expansion cs)
                \/ lenN (rle_expansion (cs ++ [RBlank2 l])) <= fd_offset d) fields.

Definition row_nearly_made (fields : list field_desc) (k : compression) (rl : N) (stored row : bytes) : Prop :=
  row_made k rl stored row
  \/ lenN row = rl /\ lenN stored < rl /\ k = CompRLE /\ rle_blanks_last fields rl stored row.

(** The bytes of the places of the rows, over all the pages of data. *)
Definition stored_in (content : bytes) : list bytes :=
  let ly := full_layout content in
  flat_map (fun x => map (fun p => field (fst x) (fst p) (snd p)) (snd x))
    (data_pages ly (pages_in content)).

(** The rows are made from the first places, as many as announced if there are so many;
    what is stored behind them is not looked at. *)
Definition rows_found (made : compression -> N -> bytes -> bytes -> Prop) (content : bytes) (rows : list bytes)
  : Prop :=
  let d := m_md (said content) in
  Forall2 (made (md_compression d) (md_row_length d))
    (firstn (N.to_nat (md_row_count d)) (stored_in content)) rows.

(** ** Files *)

(** A file with the fields and the rows: its header, its description and its pages are
    as above; the pages fit and the page on which the data begin is clear (SpecPages);
    and there is room for the file.  It may announce more rows. *)
Definition file_part (made : compression -> N -> bytes -> bytes -> Prop) (c : cfg) (content : bytes)
    (fields : list field_desc) (rows : list bytes) : Prop :=
  let d := m_md (said content) in
  header_good content
  /\ prefix (file_format content) + 6 <= page_length_field content
  /\ pages_fit (base_layout content) empty_mstate (pages_in content)
  /\ fields_said (said content) fields
  /\ good_data (full_layout content) (pages_in content)
  /\ clear_start (full_layout content) (pages_in content)
  /\ rows_found made content rows
  /\ max_alloc c < row_limit /\ header_length_field content <= max_alloc c
  /\ page_length_field content <= max_alloc c
  /\ (length (pages_in content) < page_fuel c)%nat
  /\ 120 * md_column_count d <= max_alloc c
  /\ (md_compression d = CompNone \/ md_row_length d <= max_alloc c).

(** The same with as many rows as announced. *)
Definition file_with (made : compression -> N -> bytes -> bytes -> Prop) (c : cfg) (content : bytes)
    (fields : list field_desc) (rows : list bytes) : Prop :=
  file_part made c content fields rows /\ lenN rows = md_row_count (m_md (said content)).

(** Nothing of the rows is lost. *)
Definition conforms : cfg -> bytes -> list field_desc -> list bytes -> Prop := file_with row_made.

(** Nothing of the cells is lost. *)
Definition nearly_conforms (c : cfg) (content : bytes) (fields : list field_desc) (rows : list bytes) : Prop :=
  file_with (row_nearly_made fields) c content fields rows.

(** ** Files without sizes *)

Definition not_a_size (ly : layout) (pg : bytes) (s : sub_entry) : Prop :=
  kind_on ly pg s <> Some KRowSize /\ kind_on ly pg s <> Some KColumnSize.

(** None of the subheaders is a row size or column size subheader; the rest of the file
    is as above. *)
Definition without_sizes (c : cfg) (content : bytes) : Prop :=
  header_good content
  /\ prefix (file_format content) + 6 <= page_length_field content
  /\ pages_fit (base_layout content) empty_mstate (pages_in content)
  /\ Forall (fun pg => Forall (not_a_size (base_layout content) pg) (live (base_layout content) pg))
       (pages_in content)
  /\ good_data (full_layout content) (pages_in content)
  /\ clear_start (full_layout content) (pages_in content)
  /\ max_alloc c < row_limit /\ header_length_field content <= max_alloc c
  /\ page_length_field content <= max_alloc c
  /\ (length (pages_in content) < page_fuel c)%nat.

(** ** What may be lost *)

(** [got] is [row] with up to 18 of its bytes, and what is zero behind them, as zeros. *)
Definition cut (row got : bytes) : Prop :=
  exists kept lost z, row = kept ++ lost ++ times z zero_char
    /\ got = kept ++ times (lenN lost + z) zero_char /\ lenN lost <= 18.
