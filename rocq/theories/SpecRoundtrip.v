(** Which tables the writer of SpecFile can write, and when the columns of a reader
    are those of a table.  Nothing of the functions of the reader is used. *)
From Verif Require Import Base Types Column SpecValues SpecDecomp SpecFile.
Local Open Scope N_scope.

(** ** Texts *)

(** Visible ASCII characters. *)
Definition graphic (b : byte) : Prop := 33 <= Byte.to_N b <= 126.

(** A text whose first and last characters are visible; anything between. *)
Definition clean (l : bytes) : Prop :=
  l = []
  \/ (exists b r, l = b :: r /\ graphic b) /\ (exists r b, l = r ++ [b] /\ graphic b).

Definition occurs_in (needle l : bytes) : Prop := exists a z, l = a ++ needle ++ z.

(** The bounds of the integers of a file. *)
Definition limit16 : N := 65536.
Definition limit32 : N := 4294967296.
Definition word_limit (f : format) : N := 256 ^ word_size f.

(** ** Tables *)

Definition good_field (f : format) (d : field_desc) : Prop :=
  clean (fd_name d) /\ clean (fd_label d) /\ clean (fd_format d)
  /\ fd_offset d < word_limit f /\ fd_length d < limit32.

(** The columns: their texts are clean and fit in one block. *)
Definition good_fields (f : format) (fields : list field_desc) : Prop :=
  Forall (good_field f) fields /\ 28 + lenN (texts_of fields) < limit16.

(** None of the texts, even put one after the other, holds the name of a
    compression. *)
Definition no_compression_name (fields : list field_desc) : Prop :=
  ~ occurs_in (bs "SASYZCRL") (texts_of fields)
  /\ ~ occurs_in (bs "SASYZCR2") (texts_of fields).

(** The sizes of the header and of the pages. *)
Definition good_sizes (f : format) (shifted : bool) (hlen plen : N) (name : bytes) : Prop :=
  288 + (if shifted then 4 else 0) + (match f with Bit64 => 4 | Bit32 => 0 end) <= hlen
  /\ hlen < limit32 /\ plen < limit32 /\ lenN name <= 64 /\ clean name.

(** The table fits the pages: the rows have the length of a row, those of a page
    are on it, and a page of rows is not empty. *)
Definition good_table (e : endian) (f : format) (plen : N) (t : table) : Prop :=
  let subs := description e f [] (t_fields t) (t_row_length t) (lenN (t_rows t))
                (lenN (t_first t)) in
  good_fields f (t_fields t)
  /\ Forall (fun row => lenN row = t_row_length t) (t_rows t)
  /\ t_row_length t < word_limit f /\ lenN (t_rows t) < word_limit f
  /\ lenN subs < limit16
  /\ rows_start f (lenN subs) + lenN (concat (t_first t)) + lenN (subs_bytes subs) <= plen
  /\ Forall (fun rows => rows <> [] /\ lenN rows < limit16
                         /\ rows_start f 0 + lenN (concat rows) <= plen) (t_pages t).

(** Room for the file in memory, and for its pages in the count of the steps. *)
Definition room (c : cfg) (hlen plen columns pages : N) : Prop :=
  max_alloc c < row_limit /\ hlen <= max_alloc c /\ plen <= max_alloc c
  /\ 120 * columns <= max_alloc c /\ (N.to_nat pages < page_fuel c)%nat.

(** The compression which a reader believes: it looks for the names in the texts of
    the columns as well. *)
Inductive believed (fields : list field_desc) : compression -> Prop :=
| bel_rle : occurs_in (bs "SASYZCRL") (texts_of fields) -> believed fields CompRLE
| bel_rdc : ~ occurs_in (bs "SASYZCRL") (texts_of fields) ->
    occurs_in (bs "SASYZCR2") (texts_of fields) -> believed fields CompRDC
| bel_none : no_compression_name fields -> believed fields CompNone.

(** ** Compressed tables *)

(** The bytes [stored] are a compressed form of the row [row] of [n] bytes, said with
    the commands of the two compressions (SpecDecomp); what the commands do not say
    is zero, and nothing follows them unless the row is complete.  The last command of
    RLE is not one byte long or a byte follows, three bytes remain before the last
    items of RDC (see C26 and C29 for what happens otherwise). *)
Definition rle_stored (n : N) (stored row : bytes) : Prop :=
  exists cs tail, stored = rle_encoding cs ++ tail /\ row = zero_padded n (rle_expansion cs)
    /\ Forall rle_valid cs /\ lenN (rle_expansion cs) <= n
    /\ (tail = [] \/ lenN (rle_expansion cs) = n) /\ (tail <> [] \/ last_is_long cs).

Definition rdc_stored (n : N) (stored row : bytes) : Prop :=
  exists gs tail, stored = rdc_encoding gs ++ tail
    /\ row = zero_padded n (rdc_expansion [] (concat gs))
    /\ groups_ok gs /\ rdc_all_valid [] (concat gs)
    /\ lenN (rdc_expansion [] (concat gs)) <= n
    /\ (tail = [] \/ lenN (rdc_expansion [] (concat gs)) = n)
    /\ three_remain gs (lenN tail).

Definition comp_text (k : compression) : bytes :=
  match k with CompNone => [] | CompRLE => bs "SASYZCRL" | CompRDC => bs "SASYZCR2" end.

(** The stored form of a row: the row itself, or fewer bytes from which the row is
    made. *)
Definition stored_as (k : compression) (row_length : N) (stored row : bytes) : Prop :=
  lenN row = row_length /\ 0 < lenN stored
  /\ (stored = row
      \/ lenN stored < row_length
         /\ match k with
            | CompNone => False
            | CompRLE => rle_stored row_length stored row
            | CompRDC => rdc_stored row_length stored row
            end).

(** It does not start like a subheader of the description, in either byte order. *)
Definition signatures (e : endian) (f : format) : list bytes :=
  [sig_row_size e f; sig_column_size e f; signature e f true 0xFFFFFC00; sig_text e f;
   sig_names e f; sig_attributes e f; sig_format_label e f; signature e f true 0xFFFFFFFE].

Definition unlike_subheader (f : format) (stored : bytes) : Prop :=
  word_size f <= lenN stored
  /\ forall e, ~ In (firstn (N.to_nat (word_size f)) stored) (signatures e f).

(** The rows of the first page which has some. *)
Fixpoint first_filled (l : list (list bytes)) : list bytes :=
  match l with
  | [] => []
  | [] :: l' => first_filled l'
  | rows :: _ => rows
  end.

(** The stored rows [first] of the first page and [pages] of the others fit, and
    those of the first page with rows are not like subheaders. *)
Definition good_compressed (e : endian) (f : format) (plen : N) (k : compression)
    (fields : list field_desc) (row_length : N) (first : list bytes)
    (pages : list (list bytes)) (rows : list bytes) : Prop :=
  let subs := description e f (comp_text k) fields row_length (lenN rows) 0
              ++ map compressed_row first in
  k <> CompNone
  /\ good_fields f fields /\ no_compression_name fields
  /\ row_length < word_limit f /\ lenN rows < word_limit f
  /\ lenN subs < limit16 /\ rows_start f (lenN subs) + lenN (subs_bytes subs) <= plen
  /\ Forall (fun l => lenN l < limit16 /\ rows_start f (lenN l) + lenN (concat l) <= plen) pages
  /\ Forall2 (stored_as k row_length) (first ++ concat pages) rows
  /\ Forall (unlike_subheader f) (first_filled (first :: pages)).

(** ** Columns *)

(** [col] is the column described by [d]. *)
Definition column_for (e : endian) (d : field_desc) (col : column) : Prop :=
  c_name col = fd_name d /\ c_label col = fd_label d /\ c_format col = fd_format d
  /\ fm_offset (c_fm col) = fd_offset d /\ fm_length (c_fm col) = fd_length d
  /\ fm_endian (c_fm col) = e
  /\ reported_type (if fd_numeric d then TNumber else TString) (fd_length d) (fd_format d)
       (fkind_type (fm_kind (c_fm col))).
