(** How a table is written in a SAS7BDAT file.  This is a writer, made from the
    description of the format; nothing of the reader is used (only the types of
    the formats and byte orders, and the writing of integers of SpecValues). *)
From Verif Require Import Base Types SpecValues.
Local Open Scope N_scope.

Definition zeros (n : N) : bytes := repeat x00 (N.to_nat n).

(** ** Integers of a file *)

Definition word_size (f : format) : N := match f with Bit64 => 8 | Bit32 => 4 end.

Definition put16 (e : endian) (v : N) : bytes := write_int e 2 v.
Definition put32 (e : endian) (v : N) : bytes := write_int e 4 v.
Definition put_word (e : endian) (f : format) (v : N) : bytes :=
  write_int e (N.to_nat (word_size f)) v.

(** ** The table *)

Record field_desc : Type := FieldDesc {
  fd_name : bytes;
  fd_label : bytes;
  fd_format : bytes;
  fd_offset : N;
  fd_length : N;
  fd_numeric : bool
}.

(** The rows of the first page (which also holds the description of the
    columns), then those of the following pages. *)
Record table : Type := Table {
  t_fields : list field_desc;
  t_row_length : N;
  t_first : list bytes;
  t_pages : list (list bytes)
}.

Definition t_rows (t : table) : list bytes := t_first t ++ concat (t_pages t).

(** ** Subheaders *)

(** The signatures are integers of the size of the format, some of them
    negative. *)
Definition signature (e : endian) (f : format) (negative : bool) (low : N) : bytes :=
  put_word e f (match f, negative with
                | Bit64, true => 0xFFFFFFFF00000000 + low
                | _, _ => low
                end).

Definition sig_row_size e f := signature e f false 0xF7F7F7F7.
Definition sig_column_size e f := signature e f false 0xF6F6F6F6.
Definition sig_text e f := signature e f true 0xFFFFFFFD.
Definition sig_names e f := signature e f true 0xFFFFFFFF.
Definition sig_attributes e f := signature e f true 0xFFFFFFFC.
Definition sig_format_label e f := signature e f true 0xFFFFFBFE.

Definition row_size_subheader (e : endian) (f : format)
    (row_length row_count p1 p2 mix lcs lcp : N) : bytes :=
  let w := word_size f in
  sig_row_size e f ++ zeros (4 * w)
  ++ put_word e f row_length ++ put_word e f row_count ++ zeros (2 * w)
  ++ put_word e f p1 ++ put_word e f p2 ++ zeros (4 * w)
  ++ put_word e f mix
  ++ zeros ((match f with Bit64 => 682 | Bit32 => 354 end) - 16 * w)
  ++ put16 e lcs ++ zeros 22 ++ put16 e lcp ++ zeros 26.

Definition column_size_subheader (e : endian) (f : format) (columns : N) : bytes :=
  sig_column_size e f ++ put_word e f columns ++ zeros (word_size f).

(** A text block starts with its own length; the name of the compression is at
    12. *)
Definition text_block (e : endian) (compression texts : bytes) : bytes :=
  put16 e (28 + lenN texts) ++ zeros 10
  ++ compression ++ zeros (8 - lenN compression) ++ zeros 8 ++ texts.

Definition text_subheader (e : endian) (f : format) (block : bytes) : bytes :=
  sig_text e f ++ block ++ zeros 12.

(** A reference to a text: number of the block, position, length. *)
Definition text_ref (e : endian) (r : N * N * N) : bytes :=
  let '(block, pos, len) := r in put16 e block ++ put16 e pos ++ put16 e len.

Definition names_subheader (e : endian) (f : format) (refs : list (N * N * N)) : bytes :=
  sig_names e f ++ zeros 8
  ++ concat (map (fun r => text_ref e r ++ zeros 2) refs)
  ++ zeros (word_size f + 4).

Definition attribute (e : endian) (f : format) (offset length : N) (numeric : bool) : bytes :=
  put_word e f offset ++ put32 e length ++ zeros 2
  ++ [if numeric then x01 else x02] ++ zeros 1.

Definition attributes_subheader (e : endian) (f : format)
    (l : list (N * N * bool)) : bytes :=
  sig_attributes e f ++ zeros 8
  ++ concat (map (fun a => attribute e f (fst (fst a)) (snd (fst a)) (snd a)) l)
  ++ zeros (word_size f + 4).

Definition format_label_subheader (e : endian) (f : format)
    (fmt lab : N * N * N) : bytes :=
  sig_format_label e f ++ zeros (2 * word_size f) ++ zeros 22
  ++ text_ref e fmt ++ text_ref e lab ++ zeros (word_size f).

(** ** Pages *)

Definition page_prefix (f : format) : N := match f with Bit64 => 32 | Bit32 => 16 end.

(** A subheader with its compression and type marks. *)
Definition sub : Type := bytes * N * N.
Definition sub_bytes (s : sub) : bytes := fst (fst s).
Definition subs_bytes (l : list sub) : bytes := concat (map sub_bytes l).

(** The table of the subheaders, the first one being at [pos]. *)
Fixpoint sub_table (e : endian) (f : format) (pos : N) (l : list sub) : bytes :=
  match l with
  | [] => []
  | (b, comp, ty) :: l' =>
      put_word e f pos ++ put_word e f (lenN b) ++ [byte_of comp; byte_of ty]
      ++ zeros (word_size f - 2) ++ sub_table e f (pos + lenN b) l'
  end.

Definition rows_start (f : format) (subs : N) : N :=
  let p := page_prefix f + 8 + subs * (3 * word_size f) in p + p mod 8.

(** The rows follow the table at a multiple of 8; the subheaders are at the end
    of the page. *)
Definition page_bytes (e : endian) (f : format) (plen ty blocks : N)
    (subs : list sub) (rows : list bytes) : bytes :=
  let n := lenN subs in
  let start := rows_start f n in
  let first := plen - lenN (subs_bytes subs) in
  zeros (page_prefix f) ++ put16 e ty ++ put16 e blocks ++ put16 e n ++ put16 e 0
  ++ sub_table e f first subs
  ++ zeros (start - (page_prefix f + 8 + n * (3 * word_size f)))
  ++ concat rows ++ zeros (first - (start + lenN (concat rows))) ++ subs_bytes subs.

(** ** The header *)

Definition magic : bytes :=
  map byte_of
    [0; 0; 0; 0; 0; 0; 0; 0; 0; 0; 0; 0; 0xc2; 0xea; 0x81; 0x60;
     0xb3; 0x14; 0x11; 0xcf; 0xbd; 0x92; 0x08; 0x00; 0x09; 0xc7; 0x31; 0x8c;
     0x18; 0x1f; 0x10; 0x11].

Definition padded (n : N) (l : bytes) : bytes := l ++ repeat x20 (N.to_nat (n - lenN l)).

(** The two dates of the header are 0 (1960-01-01). *)
Definition header_bytes (e : endian) (f : format) (shifted : bool)
    (hlen plen pages : N) (name : bytes) : bytes :=
  let a1 := if shifted then 4 else 0 in
  let a2 := match f with Bit64 => 4 | Bit32 => 0 end in
  magic
  ++ [match f with Bit64 => x33 | Bit32 => x22 end; x00; x00;
      if shifted then x33 else x22; x00;
      match e with Little => x01 | Big => x00 end; x00; x31]
  ++ zeros 30 ++ [x14] ++ zeros 21 ++ padded 64 name ++ bs "DATA    "
  ++ zeros a1 ++ zeros 16 ++ zeros 16
  ++ put32 e hlen ++ put32 e plen ++ put32 e pages
  ++ zeros (8 + a2)
  ++ bs "9.0401M2" ++ padded 16 (bs "Linux") ++ padded 16 (bs "4.18.0")
  ++ padded 16 (bs "x86_64") ++ padded 16 (bs "Linux")
  ++ zeros (hlen - (288 + a1 + a2)).

(** ** The whole file *)

(** Where the texts of the columns are: name, format, label of each column, one
    after the other, in block 0. *)
Fixpoint text_places (pos : N) (l : list field_desc)
  : list ((N * N * N) * (N * N * N) * (N * N * N)) :=
  match l with
  | [] => []
  | d :: l' =>
      let p1 := pos + lenN (fd_name d) in
      let p2 := p1 + lenN (fd_format d) in
      let p3 := p2 + lenN (fd_label d) in
      ((0, pos, lenN (fd_name d)), (0, p1, lenN (fd_format d)),
       (0, p2, lenN (fd_label d))) :: text_places p3 l'
  end.

Definition texts_of (l : list field_desc) : bytes :=
  concat (map (fun d => fd_name d ++ fd_format d ++ fd_label d) l).

Definition plain (b : bytes) : sub := (b, 0, 0).

Definition description (e : endian) (f : format) (compression : bytes)
    (fields : list field_desc) (row_length row_count mix : N) : list sub :=
  let places := text_places 28 fields in
  plain (row_size_subheader e f row_length row_count (lenN fields) 0 mix 0 0)
  :: plain (column_size_subheader e f (lenN fields))
  :: plain (text_subheader e f (text_block e compression (texts_of fields)))
  :: plain (names_subheader e f (map (fun p => fst (fst p)) places))
  :: plain (attributes_subheader e f
              (map (fun d => (fd_offset d, fd_length d, fd_numeric d)) fields))
  :: map (fun p => plain (format_label_subheader e f (snd (fst p)) (snd p))) places.

Definition type_meta : N := 0.
Definition type_data : N := 256.
Definition type_mix : N := 512.

Definition first_page (e : endian) (f : format) (plen : N) (t : table) : bytes :=
  page_bytes e f plen
    (match t_first t with [] => type_meta | _ => type_mix end)
    (lenN (t_first t))
    (description e f [] (t_fields t) (t_row_length t) (lenN (t_rows t))
       (lenN (t_first t)))
    (t_first t).

Definition data_page (e : endian) (f : format) (plen : N) (rows : list bytes) : bytes :=
  page_bytes e f plen type_data (lenN rows) [] rows.

Definition file_bytes (e : endian) (f : format) (shifted : bool) (hlen plen : N)
    (name : bytes) (t : table) : bytes :=
  header_bytes e f shifted hlen plen (1 + lenN (t_pages t)) name
  ++ first_page e f plen t
  ++ concat (map (data_page e f plen) (t_pages t)).

(** A compressed file: the rows, compressed or not, are the data subheaders of
    meta pages. *)
Definition compressed_row (b : bytes) : sub := (b, 4, 1).

Definition compressed_file (e : endian) (f : format) (shifted : bool) (hlen plen : N)
    (name compression : bytes) (fields : list field_desc)
    (row_length row_count : N) (first : list bytes) (pages : list (list bytes)) : bytes :=
  header_bytes e f shifted hlen plen (1 + lenN pages) name
  ++ page_bytes e f plen type_meta 0
       (description e f compression fields row_length row_count 0
        ++ map compressed_row first) []
  ++ concat (map (fun rows => page_bytes e f plen type_meta 0
                                (map compressed_row rows) []) pages).
