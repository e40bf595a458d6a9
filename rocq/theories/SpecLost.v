(** All the rows which stand on the pages of a file, in either form: places of a page of
    rows, and entries of the subheader table marked as rows (spec; no counterpart in
    /repo). *)
From Verif Require Import Base Types Metadata Column SpecFile SpecPages.
Local Open Scope N_scope.

(** The rows of a data or mix page. *)
Definition placed (ly : layout) (pg : bytes) : list (N * N) :=
  let rl := ly_row_length ly in
  if page_type ly pg =? 256 then
    map (fun k => (prefix (ly_format ly) + 8 + k * rl, rl)) (count_to (page_blocks ly pg))
  else if is_mix (page_type ly pg) then
    map (fun k => (mix_start ly pg + k * rl, rl)) (count_to (N.min (ly_row_count ly) (ly_mix_count ly)))
  else [].

(** The entries marked as rows.  As long as the description lasts ([started] is false) a
    subheader of the description may have the mark; it is no row. *)
Definition marked (ly : layout) (started : bool) (pg : bytes) : list (N * N) :=
  if has_subheaders (page_type ly pg) then
    map (fun s => (se_pos s, se_len s))
      (filter (fun s => is_data_entry (ly_compression ly) s
                        && (started || match kind_on ly pg s with None => true | Some _ => false end))
         (entries ly pg))
  else [].

Definition all_places (ly : layout) (started : bool) (pg : bytes) : list (N * N) :=
  placed ly pg ++ marked ly started pg.

Definition has_rows_on (ly : layout) (started : bool) (pg : bytes) : bool :=
  (page_type ly pg =? 256) || is_mix (page_type ly pg)
  || match marked ly started pg with [] => false | _ => true end.

(** All the rows of the pages, in order. *)
Fixpoint all_rows (ly : layout) (started : bool) (pages : list bytes) : list (res bytes) :=
  match pages with
  | [] => []
  | pg :: l =>
      map (row_content ly pg) (all_places ly started pg)
      ++ all_rows ly (started || has_rows_on ly started pg) l
  end.

(** No page has rows in both forms; behind the page where the data begin, amendment pages
    have no rows. *)
Fixpoint one_form (ly : layout) (started : bool) (pages : list bytes) : Prop :=
  match pages with
  | [] => True
  | pg :: l =>
      (is_mix (page_type ly pg) = true \/ page_type ly pg = 1024 /\ started = true ->
       marked ly started pg = [])
      /\ one_form ly (started || has_rows_on ly started pg) l
  end.
