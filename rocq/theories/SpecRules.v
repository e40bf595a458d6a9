(** The rows of a file by the rules of SpecDecode.v, without the decompression of the model. *)
From Verif Require Import Base Types Buffer Page Column Header Metadata Decomp Data Reader SpecReader SpecValues SpecHeader SpecDecomp SpecDecode SpecPages.
Local Open Scope N_scope.

(** What the bytes at a place of a page stand for: themselves when they are as many as the row
    length or when the file is not compressed, else what the rules of the compression say. *)
Inductive row_says (ly : layout) (pg : bytes) : N * N -> res bytes -> Prop :=
| says_bytes : forall pos len, ly_row_length ly <= len \/ ly_compression ly = CompNone ->
    row_says ly pg (pos, len) (Ok (field pg pos (ly_row_length ly)))
| says_rle : forall pos len x, len < ly_row_length ly -> ly_compression ly = CompRLE ->
    rle_reads (ly_row_length ly) [] (field pg pos len) x -> row_says ly pg (pos, len) x
| says_rdc : forall pos len x, len < ly_row_length ly -> ly_compression ly = CompRDC ->
    rdc_reads (ly_row_length ly) 0 0 [] (field pg pos len) x -> row_says ly pg (pos, len) x.

(** The places of the rows of a file: the first ones, as many as announced, of the pages from
    the one where the data begin. *)
Definition file_places (content : bytes) (r : rstate fstate) : list (bytes * (N * N)) :=
  firstn (N.to_nat (md_row_count (rs_md r)))
    (flat_map (fun x => map (fun p => (fst x, p)) (snd x))
       (data_pages (layout_of (rs_h r) (rs_md r)) (file_pages content (rs_h r)))).

(** The rows said by a file. *)
Definition says_rows (content : bytes) (r : rstate fstate) (rows : list (res bytes)) : Prop :=
  Forall2 (fun y x => row_says (layout_of (rs_h r) (rs_md r)) (fst y) (snd y) x)
    (file_places content r) rows.
