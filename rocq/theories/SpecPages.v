(** The rows of a file: which bytes of which page they are, and a reader as a
    cursor over the list of the rows. *)
From Verif Require Import Base Types Buffer Header Column Decomp Metadata Data Reader SpecValues SpecHeader
  SpecDecomp SpecReader.
Local Open Scope N_scope.

(** ** Pages *)

(** What is needed to find the rows: byte order, format, and the row length, row
    count, mix page row count and compression of the dataset. *)
Record layout : Type := Layout {
  ly_endian : endian;
  ly_format : format;
  ly_page_length : N;
  ly_row_length : N;
  ly_row_count : N;
  ly_mix_count : N;
  ly_compression : compression
}.

(** The layout of an open reader. *)
Definition layout_of (h : header) (md : metadata) : layout :=
  Layout (h_endianness h) (h_format h) (h_page_length h) (md_row_length md)
    (md_row_count md) (md_mix_page_row_count md) (md_compression md).

Definition word (f : format) : N := match f with Bit64 => 8 | Bit32 => 4 end.
Definition prefix (f : format) : N := match f with Bit64 => 32 | Bit32 => 16 end.

(** The three 16 bit numbers of the page header. *)
Definition page_number (ly : layout) (i : N) (pg : bytes) : N :=
  value_of (ly_endian ly) (field pg (prefix (ly_format ly) + 2 * i) 2).
Definition page_type (ly : layout) (pg : bytes) : N := page_number ly 0 pg.
Definition page_blocks (ly : layout) (pg : bytes) : N := page_number ly 1 pg.
Definition page_subs (ly : layout) (pg : bytes) : N := page_number ly 2 pg.

(** [0; 1; ...; n - 1]. *)
Definition count_to (n : N) : list N := from 0 (N.to_nat n).

(** An entry of the table of the subheaders: position, length, compression mark,
    type mark. *)
Record sub_entry : Type := SubEntry {
  se_pos : N;
  se_len : N;
  se_comp : N;
  se_type : N
}.

Definition nth_entry (ly : layout) (pg : bytes) (i : N) : sub_entry :=
  let w := word (ly_format ly) in
  let p := prefix (ly_format ly) + 8 + i * (3 * w) in
  SubEntry (value_of (ly_endian ly) (field pg p w))
    (value_of (ly_endian ly) (field pg (p + w) w))
    (byte_at pg (p + 2 * w)) (byte_at pg (p + 2 * w + 1)).

Definition entries (ly : layout) (pg : bytes) : list sub_entry :=
  map (nth_entry ly pg) (count_to (page_subs ly pg)).

(** A row of a compressed file. *)
Definition is_data_entry (comp : compression) (s : sub_entry) : bool :=
  match comp with
  | CompNone => false
  | _ => negb (se_len s =? 0) && ((se_comp s =? 0) || (se_comp s =? 4)) && (se_type s =? 1)
  end.

Definition is_mix (t : N) : bool := (t =? 512) || (t =? 640).

Definition mix_start (ly : layout) (pg : bytes) : N :=
  let p := prefix (ly_format ly) + 8 + page_subs ly pg * (3 * word (ly_format ly)) in
  8 * ((p + 7) / 8).

(** Where the rows of a page are: position and length. *)
Definition row_places (ly : layout) (pg : bytes) : list (N * N) :=
  let rl := ly_row_length ly in
  if page_type ly pg =? 0 then
    map (fun s => (se_pos s, se_len s))
      (filter (is_data_entry (ly_compression ly)) (entries ly pg))
  else if page_type ly pg =? 256 then
    map (fun k => (prefix (ly_format ly) + 8 + k * rl, rl)) (count_to (page_blocks ly pg))
  else if is_mix (page_type ly pg) then
    map (fun k => (mix_start ly pg + k * rl, rl))
      (count_to (N.min (ly_row_count ly) (ly_mix_count ly)))
  else [].

(** The bytes of a row: those of the page, decompressed when they are fewer than
    the row length. *)
Definition row_content (ly : layout) (pg : bytes) (place : N * N) : res bytes :=
  let '(pos, len) := place in
  let rl := ly_row_length ly in
  if len <? rl then
    match ly_compression ly with
    | CompNone => Ok (field pg pos rl)
    | CompRLE => fst (rle (field pg pos len) (fresh rl))
    | CompRDC => fst (rdc (field pg pos len) (fresh rl))
    end
  else Ok (field pg pos rl).

Definition page_rows (ly : layout) (pg : bytes) : list (res bytes) :=
  map (row_content ly pg) (row_places ly pg).

(** The complete pages of the bytes which follow the header. *)
Fixpoint pages_of (n : nat) (plen : N) (rest : bytes) : list bytes :=
  match n with
  | O => []
  | S n' =>
      if plen <=? lenN rest
      then field rest 0 plen :: pages_of n' plen (skipn (N.to_nat plen) rest)
      else []
  end.

Definition complete_pages (plen : N) (rest : bytes) : list bytes :=
  pages_of (S (length rest)) plen rest.

(** The pages of a file with header [h]. *)
Definition file_pages (content : bytes) (h : header) : list bytes :=
  complete_pages (h_page_length h) (skipn (N.to_nat (h_header_length h)) content).

(** A page which can be used: its header is inside it, the places of its rows are
    inside it; the table of a meta page is inside it and its entries too. *)
Definition good_page (ly : layout) (pg : bytes) : Prop :=
  prefix (ly_format ly) + 6 <= lenN pg
  /\ Forall (fun p => fst p + snd p <= lenN pg) (row_places ly pg)
  /\ (page_type ly pg = 0 ->
      prefix (ly_format ly) + 8 + page_subs ly pg * (3 * word (ly_format ly)) <= lenN pg
      /\ Forall (fun s => se_pos s + se_len s <= lenN pg) (entries ly pg)).

(** A page of rows which holds at least one. *)
Definition not_empty (ly : layout) (pg : bytes) : Prop :=
  page_type ly pg = 256 \/ is_mix (page_type ly pg) = true -> row_places ly pg <> [].

(** ** The metadata part of a file *)

(** The kinds of metadata subheaders and the integers which announce them; some
    are negative numbers, hence extended in 64 bit files. *)
Inductive kind : Type :=
| KRowSize | KColumnSize | KCounts | KText | KNames | KAttributes | KFormatLabel | KList.

Definition kinds : list kind :=
  [KRowSize; KColumnSize; KCounts; KText; KNames; KAttributes; KFormatLabel; KList].

Definition kind_number (f : format) (k : kind) : N :=
  let negative v := match f with Bit64 => 0xFFFFFFFF00000000 + v | Bit32 => v end in
  match k with
  | KRowSize => 0xF7F7F7F7
  | KColumnSize => 0xF6F6F6F6
  | KCounts => negative 0xFFFFFC00
  | KText => negative 0xFFFFFFFD
  | KNames => negative 0xFFFFFFFF
  | KAttributes => negative 0xFFFFFFFC
  | KFormatLabel => negative 0xFFFFFBFE
  | KList => negative 0xFFFFFFFE
  end.

(** The signature is looked at in both byte orders. *)
Definition is_kind (f : format) (k : kind) (sig : bytes) : bool :=
  (value_of Little sig =? kind_number f k) || (value_of Big sig =? kind_number f k).

Definition kind_of (f : format) (sig : bytes) : option kind :=
  find (fun k => is_kind f k sig) kinds.

(** The first bytes of a subheader. *)
Definition signature (ly : layout) (pg : bytes) (s : sub_entry) : bytes :=
  field pg (se_pos s) (word (ly_format ly)).

Definition kind_on (ly : layout) (pg : bytes) (s : sub_entry) : option kind :=
  kind_of (ly_format ly) (signature ly pg s).

(** The page types whose subheaders are read at construction. *)
Definition has_subheaders (t : N) : bool := (t =? 0) || is_mix t || (t =? 1024).

(** Entries of length 0 or marked 1 (truncated) are not looked at. *)
Definition skipped (s : sub_entry) : bool := (se_len s =? 0) || (se_comp s =? 1).

Definition live (ly : layout) (pg : bytes) : list sub_entry :=
  if has_subheaders (page_type ly pg) then filter (fun s => negb (skipped s)) (entries ly pg)
  else [].

Definition is_text (ly : layout) (pg : bytes) (s : sub_entry) : Prop :=
  se_pos s + word (ly_format ly) <= lenN pg /\ kind_on ly pg s = Some KText.

(** ** Where the data begin *)

(** A row on the page where the data begin: marked as data, and not starting like a
    subheader of the description.  In the files SAS writes the subheaders of the
    description of a compressed dataset may have the same marks as its rows. *)
Definition is_stored_row (ly : layout) (pg : bytes) (s : sub_entry) : bool :=
  is_data_entry (ly_compression ly) s
  && match kind_on ly pg s with None => true | Some _ => false end.

(** The data begin on the first page of rows, or with stored rows. *)
Definition begins (ly : layout) (pg : bytes) : bool :=
  (page_type ly pg =? 256) || is_mix (page_type ly pg)
  || existsb (is_stored_row ly pg) (live ly pg).

(** The rows of that page: its stored rows, else those of a page of rows. *)
Definition first_places (ly : layout) (pg : bytes) : list (N * N) :=
  match filter (is_stored_row ly pg) (live ly pg) with
  | [] => row_places ly pg
  | l => map (fun s => (se_pos s, se_len s)) l
  end.

(** The pages which are read for rows, and where their rows are: all the pages from
    the one where the data begin. *)
Fixpoint data_pages (ly : layout) (pages : list bytes) : list (bytes * list (N * N)) :=
  match pages with
  | [] => []
  | pg :: l =>
      if begins ly pg
      then (pg, first_places ly pg) :: map (fun q => (q, row_places ly q)) l
      else data_pages ly l
  end.

Definition rows_on (ly : layout) (pages : list bytes) : list (res bytes) :=
  flat_map (fun x => map (row_content ly (fst x)) (snd x)) (data_pages ly pages).

(** The rows of the page where the data begin are inside it; the following pages are
    good, and the pages of rows among them are not empty. *)
Fixpoint good_data (ly : layout) (pages : list bytes) : Prop :=
  match pages with
  | [] => True
  | pg :: l =>
      if begins ly pg
      then Forall (fun p => fst p + snd p <= lenN pg) (first_places ly pg)
           /\ Forall (good_page ly) l /\ Forall (not_empty ly) l
      else good_data ly l
  end.

(** Up to the page where the data begin, the first bytes of what is marked as a row
    are on the page, and a text block (which tells the compression) comes before
    the stored rows. *)
Definition clear_page (ly : layout) (pre : list bytes) (pg : bytes) : Prop :=
  forall a s b, live ly pg = a ++ s :: b -> is_data_entry (ly_compression ly) s = true ->
    se_pos s + word (ly_format ly) <= lenN pg
    /\ (kind_on ly pg s = None ->
        Exists (fun q => Exists (is_text ly q) (live ly q)) pre \/ Exists (is_text ly pg) a).

Definition clear_start (ly : layout) (pages : list bytes) : Prop :=
  forall pre pg post, pages = pre ++ pg :: post ->
    Forall (fun q => begins ly q = false) pre -> clear_page ly pre pg.

(** ** A cursor over a list of rows *)

(** The index of the next row and the rows which are left. *)
Definition cursor : Type := N * list (res bytes).

Inductive cevent : Type := CProps | CRow (i : N) (row : res bytes) | CEnd.
Inductive cout : Type := CBool (b : bool) | CUnit | CPtr (p : option (res bytes)).

Definition cur_read_row (cu : cursor) : res bool * cursor * list cevent :=
  match cu with
  | (i, []) => (Ok false, cu, [CEnd])
  | (i, Ok row :: l) => (Ok true, (i + 1, l), [CRow i (Ok row)])
  | (i, Exn e :: l) => (Exn e, (i + 1, l), [])
  | (i, Abort :: l) => (Abort, (i + 1, l), [])
  | (i, Undef u :: l) => (Undef u, (i + 1, l), [])
  | (i, Fuel :: l) => (Fuel, (i + 1, l), [])
  end.

Fixpoint cur_read_rows (n : nat) (cu : cursor) : res bool * cursor * list cevent :=
  match n with
  | O => (Ok true, cu, [])
  | Datatypes.S n' =>
      match cur_read_row cu with
      | (Ok true, cu1, ev) =>
          let '(x, cu2, ev') := cur_read_rows n' cu1 in (x, cu2, ev ++ ev')
      | other => other
      end
  end.

Definition cur_skip (n : N) (cu : cursor) : res bool * cursor * list cevent :=
  let '(i, l) := cu in
  if n <=? lenN l then (Ok true, (i + n, skipn (N.to_nat n) l), [])
  else (Ok false, (i + lenN l, []), [CEnd]).

Definition cur_step (o : op) (cu : cursor) : res cout * cursor * list cevent :=
  match o with
  | OpReadRow => let '(x, cu', ev) := cur_read_row cu in (rmap CBool x, cu', ev)
  | OpReadRows n => let '(x, cu', ev) := cur_read_rows (N.to_nat n) cu in (rmap CBool x, cu', ev)
  | OpReadAll =>
      let '(x, cu', ev) := cur_read_rows (Datatypes.S (length (snd cu))) cu in
      (rmap (fun _ => CUnit) x, cu', ev)
  | OpSkip n => let '(x, cu', ev) := cur_skip n cu in (rmap CBool x, cu', ev)
  | OpNoSink =>
      let '(x, cu', ev) := cur_read_row cu in
      (rmap (fun _ => CPtr (match ev with [CRow _ row] => Some row | _ => None end)) x, cu', [])
  | OpEnd => (Ok CUnit, cu, [CEnd])
  end.

Fixpoint cur_trace (ops : list op) (cu : cursor) : list (op * res cout * list cevent) * cursor :=
  match ops with
  | [] => ([], cu)
  | o :: ops' =>
      let '(x, cu1, ev) := cur_step o cu in
      match x with
      | Ok _ | Exn _ => let '(t, cu2) := cur_trace ops' cu1 in ((o, x, ev) :: t, cu2)
      | _ => ([(o, x, ev)], cu1)
      end
  end.

(** What is seen of a history when rows are looked at as [rl] bytes. *)
Definition seen_row (rl : N) (p : pview) : res bytes := read_cells (pv_mem p) (pv_off p) rl.

Definition seen_event (rl : N) (e : event) : cevent :=
  match e with
  | EvProps _ _ => CProps
  | EvRow i p => CRow i (seen_row rl p)
  | EvEnd => CEnd
  end.

Definition seen_out (rl : N) (o : out) : cout :=
  match o with
  | OBool b => CBool b
  | OUnit => CUnit
  | OPtr p => CPtr (option_map (seen_row rl) p)
  end.

Definition seen (rl : N) (t : list entry) : list (op * res cout * list cevent) :=
  map (fun x => let '(o, x, ev) := x in (o, rmap (seen_out rl) x, map (seen_event rl) ev)) t.

(** ** Where the rows handed out are *)

(** The rows handed out by a history: pushed to the sink or returned. *)
Definition delivered (t : list entry) : list pview :=
  flat_map (fun x => match snd (fst x) with Ok (OPtr (Some p)) => [p] | _ => [] end
                     ++ map snd (rows_of (snd x))) t.

(** A row of [rl] bytes inside a page of [plen] bytes, or which is the whole of the
    buffer of the decompressor. *)
Definition row_inside (plen rl : N) (p : pview) : Prop :=
  (pv_off p + rl <= plen /\ plen <= lenN (pv_mem p))
  \/ (pv_off p = 0 /\ lenN (pv_mem p) = rl).

(** The files whose rows are found on their pages. *)
Definition readable (c : cfg) (content : bytes) (r : rstate fstate) : Prop :=
  let ly := layout_of (rs_h r) (rs_md r) in
  let pages := file_pages content (rs_h r) in
  max_alloc c < row_limit /\ prefix (ly_format ly) + 6 <= ly_page_length ly
  /\ good_data ly pages /\ clear_start ly pages /\ (length pages < page_fuel c)%nat.

(** The rows of a file: the first ones, as many as announced, of the rows of the
    pages from the one where the data begin. *)
Definition file_rows (content : bytes) (r : rstate fstate) : list (res bytes) :=
  firstn (N.to_nat (md_row_count (rs_md r)))
    (rows_on (layout_of (rs_h r) (rs_md r)) (file_pages content (rs_h r))).

Fixpoint numbered (i : N) (rows : list bytes) : list cevent :=
  match rows with [] => [] | row :: l => CRow i (Ok row) :: numbered (i + 1) l end.

(** Going through a page to its end, with the calls next(), read_line() and
    inc_row_on_page(). *)
Fixpoint walk (n : nat) (pg : page) : res (list (N * N)) :=
  match n with
  | O => Fuel
  | Datatypes.S n' =>
      if page_next pg then Ok []
      else place <- page_read_line pg ;; l <- walk n' (page_inc pg) ;; Ok (place :: l)
  end.
