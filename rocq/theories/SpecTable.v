(** The files which hold a table of contents. *)
From Verif Require Import Base Types Column SpecHeader SpecDecomp SpecFile SpecRoundtrip SpecConform SpecNumber SpecCells.
Local Open Scope N_scope.

(** The bytes are a file with the fields and the rows in the byte order [e]: written in
    one of the ways of SpecFile, not compressed or compressed (either way), or any file
    whose bytes mean them, nothing of the cells being lost by the decompression; and the
    reader [c] has room for it. *)
Inductive holds_rows (c : cfg) (e : endian) (fields : list field_desc) (rows : list bytes) : bytes -> Prop :=
| plain_rows : forall f sh hlen plen name t,
    t_fields t = fields -> t_rows t = rows ->
    good_sizes f sh hlen plen name -> good_table e f plen t ->
    room c hlen plen (lenN fields) (1 + lenN (t_pages t)) ->
    no_compression_name fields \/ t_row_length t <= max_alloc c ->
    holds_rows c e fields rows (file_bytes e f sh hlen plen name t)
| packed_rows : forall f sh hlen plen name k rl first pages,
    good_sizes f sh hlen plen name -> good_compressed e f plen k fields rl first pages rows ->
    room c hlen plen (lenN fields) (1 + lenN pages) -> rl <= max_alloc c ->
    holds_rows c e fields rows
      (compressed_file e f sh hlen plen name (comp_text k) fields rl (lenN rows) first pages)
| any_rows : forall file, nearly_conforms c file fields rows -> file_endian file = e ->
    holds_rows c e fields rows file.

(** A file which holds a table of contents. *)
Definition holds_table (c : cfg) (e : endian) (fields : list field_desc) (contents : list (list content))
    (file : bytes) : Prop :=
  exists rows, Forall2 (row_of e fields) contents rows /\ holds_rows c e fields rows file.

(** A missing date, datetime or time cannot be printed (C55). *)
Definition printable (d : field_desc) (v : content) : Prop :=
  match v with Missing _ => is_number d | _ => True end.
