(** Where the texts of the columns are in a file: the text blocks of all its pages, and the
    references to them.  The subheaders and pages are those of SpecPages and SpecMeta. *)
From Verif Require Import Base Types Buffer Header Column Decomp Metadata Data Reader SpecValues
  SpecHeader SpecDecomp SpecReader SpecPages SpecMeta.
Local Open Scope N_scope.

(** A subheader and the page it is on. *)
Definition placed : Type := bytes * sub_entry.

(** The subheaders of all the pages, in the order of the file. *)
Definition all_subs (ly : layout) (pages : list bytes) : list placed :=
  flat_map (fun pg => map (pair pg) (live ly pg)) pages.

(** The text block which a subheader holds. *)
Definition blocks_of (ly : layout) (x : placed) : list bytes :=
  match kind_on ly (fst x) (snd x) with
  | Some KText => [block_at ly (fst x) (se_pos (snd x))]
  | _ => []
  end.

Definition all_blocks (ly : layout) (pages : list bytes) : list bytes :=
  flat_map (blocks_of ly) (all_subs ly pages).

(** The references (block, position, length) to the names, formats and labels. *)
Definition name_refs (ly : layout) (x : placed) : list (N * N * N) :=
  match kind_on ly (fst x) (snd x) with
  | Some KNames => map (fun k => ref_at ly (fst x) (list_pos ly (se_pos (snd x)) 8 k))
                     (count_to (list_count (word (ly_format ly)) 8 (se_len (snd x))))
  | _ => []
  end.

Definition format_refs (ly : layout) (x : placed) : list (N * N * N) :=
  match kind_on ly (fst x) (snd x) with
  | Some KFormatLabel => [ref_at ly (fst x) (se_pos (snd x) + 3 * word (ly_format ly) + 22)]
  | _ => []
  end.

Definition label_refs (ly : layout) (x : placed) : list (N * N * N) :=
  match kind_on ly (fst x) (snd x) with
  | Some KFormatLabel => [ref_at ly (fst x) (se_pos (snd x) + 3 * word (ly_format ly) + 28)]
  | _ => []
  end.

(** The references, each with the number of text blocks which are before it in the file. *)
Fixpoint counted (ly : layout) (refs : placed -> list (N * N * N)) (n : N) (l : list placed) : list (N * (N * N * N)) :=
  match l with
  | [] => []
  | x :: l' => map (pair n) (refs x) ++ counted ly refs (n + lenN (blocks_of ly x)) l'
  end.

(** The number of the block of a reference. *)
Definition block_no (r : N * N * N) : N := fst (fst r).
