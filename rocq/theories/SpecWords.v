(** Which bytes of the header decide how the rest of a file is read. *)
From Verif Require Import Base Types Buffer Header Reader SpecReader SpecValues SpecHeader.
Local Open Scope N_scope.

Definition page_length_field (content : bytes) : N :=
  value_of (file_endian content) (field content (200 + shift1 content) 4).

(** Two files with headers of the same length which announce the same format, byte order
    and page length, and with the same bytes behind the header.  Everything else in the
    header may differ: the name of the dataset, the dates, the encoding, the type of the
    file, the release, the server, the operating system, the number of pages, and the bytes
    which have no meaning. *)
Record same_but_words (f1 f2 : bytes) : Prop := {
  sw_format : file_format f1 = file_format f2;
  sw_endian : file_endian f1 = file_endian f2;
  sw_shift : shift1 f1 = shift1 f2;
  sw_length : header_length_field f1 = header_length_field f2;
  sw_page : page_length_field f1 = page_length_field f2;
  sw_pages : skipn (N.to_nat (header_length_field f1)) f1
             = skipn (N.to_nat (header_length_field f2)) f2
}.

(** Nobody who uses the two Readers in the same way can tell one from the other, except
    by the header in their properties. *)
Definition same_but_header {S} (c : cfg) (src : source S) (f1 f2 : bytes)
    (x y : rstate S * list event) : Prop :=
  exists h1 h2 md,
    snd x = [EvProps h1 md] /\ snd y = [EvProps h2 md]
    /\ header_of_file f1 h1 /\ header_of_file f2 h2
    /\ forall ops,
         fst (trace c src ops (Some (fst x))) = fst (trace c src ops (Some (fst y)))
         /\ current_row_index (snd (trace c src ops (Some (fst x))))
            = current_row_index (snd (trace c src ops (Some (fst y))))
         /\ properties (snd (trace c src ops (Some (fst x)))) = (h1, md)
         /\ properties (snd (trace c src ops (Some (fst y)))) = (h2, md).
