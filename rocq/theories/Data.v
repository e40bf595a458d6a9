(** Model of [src/data.hpp]. *)
From Verif Require Import Base Types Buffer Page Header Column Metadata Decomp.
Local Open Scope N_scope.

(** src/data.hpp:19-86: the three kinds of page, with current_row_on_page. *)
Inductive page_kind : Type :=
| PMeta (data_subheaders : list (N * N))
| PRows (row_count offset row_length : N).  (* data_type and mix_type *)

Record page : Type := Page {
  pg_kind : page_kind;
  pg_row : N
}.

(** src/data.hpp:39-41, 60-62, 81 next(): is the page exhausted? *)
Definition page_next (pg : page) : bool :=
  match pg_kind pg with
  | PMeta l => pg_row pg =? lenN l
  | PRows n _ _ => pg_row pg =? n
  end.

(** src/data.hpp:42-45, 63-66, 82-85 read_line(): offset and length of the
    current row.  vector::operator[] is undefined out of range. *)
Definition page_read_line (pg : page) : res (N * N) :=
  match pg_kind pg with
  | PMeta l => match nth_error l (N.to_nat (pg_row pg)) with
               | Some p => Ok p
               | None => Undef UB_index
               end
  | PRows _ off len => Ok (off +! len *! pg_row pg, len)
  end.

(** src/data.hpp:28 inc_row_on_page. *)
Definition page_inc (pg : page) : page := Page (pg_kind pg) (pg_row pg +! 1).

(** src/data.hpp:100-104: the members of READ_DATA. *)
Record dstate (S : Type) : Type := DState {
  ds_p : pstate S;
  ds_dec : decompressor;
  ds_row : N;
  ds_page : option page
}.
Arguments DState {S} _ _ _ _.
Arguments ds_p {S} _.
Arguments ds_dec {S} _.
Arguments ds_row {S} _.
Arguments ds_page {S} _.

(** src/data.hpp:243-256 process_page_metadata / process_DATA_SUBHEADER. *)
Definition data_subheaders_of_page (e : endian) (f : format) (md : metadata)
    (b : mbuf) (h : page_header) : res (list (N * N)) :=
  process_page_subheaders e f b h
    (fun acc sh =>
       Ok (if data_subheader_check (md_compression md) sh
           then acc ++ [(sh_offset sh, sh_length sh)] else acc))
    [].

(** src/data.hpp:218-223: where the rows of a mix page start. *)
Definition mix_offset (f : format) (h : page_header) : N :=
  let off := page_bit_offset f + 8 + ph_subheaders_count h * (3 * integer_size f) in
  off + off mod 8.

(** src/data.hpp:201-229 build_page: [Some page] when a page is built (return
    true), [None] otherwise (the page is left as it was). *)
Definition build_page (e : endian) (f : format) (md : metadata) (b : mbuf)
    (h : page_header) : res (option page) :=
  if ph_type h =? PAGE_META_TYPE then
    l <- data_subheaders_of_page e f md b h ;;
    match l with
    | [] => Ok None
    | _ => Ok (Some (Page (PMeta l) 0))
    end
  else if ph_type h =? PAGE_DATA_TYPE then
    Ok (Some (Page (PRows (ph_block_count h) (page_bit_offset f + 8)
                      (md_row_length md)) 0))
  else if is_page_mix (ph_type h) then
    Ok (Some (Page (PRows (N.min (md_row_count md) (md_mix_page_row_count md))
                      (mix_offset f h) (md_row_length md)) 0))
  else Ok None.

(** src/data.hpp:231-241 read_next_page: the loop. *)
Fixpoint read_next_page {S} (c : cfg) (src : source S) (e : endian) (f : format)
    (plen : N) (md : metadata) (fuel : nat) (p : pstate S)
  : res (option page) * pstate S :=
  match fuel with
  | O => (Fuel, p)
  | Datatypes.S fuel' =>
      match read_page c src e f plen p with
      | (Ok true, p') =>
          match build_page e f md (ps_buf p') (ps_hdr p') with
          | Ok (Some pg) => (Ok (Some pg), p')
          | Ok None => read_next_page c src e f plen md fuel' p'
          | r => (r, p')
          end
      | (Ok false, p') => (Ok None, p')
      | (Exn ex, p') => (Exn ex, p')
      | (Abort, p') => (Abort, p')
      | (Undef u, p') => (Undef u, p')
      | (Fuel, p') => (Fuel, p')
      end
  end.

(** src/data.hpp:151-162 next(). *)
Definition data_next {S} (c : cfg) (src : source S) (h : header) (md : metadata)
    (d : dstate S) : res bool * dstate S :=
  if ds_row d =? md_row_count md then (Ok false, d)
  else
    match ds_page d with
    | None => (Ok false, d)
    | Some pg =>
        if page_next pg then
          let '(r, p') := read_next_page c src (h_endianness h) (h_format h)
                            (h_page_length h) md (page_fuel c) (ds_p d) in
          match r with
          | Ok (Some pg') => (Ok true, DState p' (ds_dec d) (ds_row d) (Some pg'))
          | Ok None => (Ok false, DState p' (ds_dec d) (ds_row d) None)
          | Exn ex => (Exn ex, DState p' (ds_dec d) (ds_row d) None)
          | Abort => (Abort, DState p' (ds_dec d) (ds_row d) None)
          | Undef u => (Undef u, DState p' (ds_dec d) (ds_row d) None)
          | Fuel => (Fuel, DState p' (ds_dec d) (ds_row d) None)
          end
        else (Ok true, d)
    end.

(** src/data.hpp:164-169 _read_line(). *)
Definition data_read_line {S} (d : dstate S) : res (N * N) * dstate S :=
  match ds_page d with
  | None => (Undef UB_oob_read, d)
  | Some pg =>
      (page_read_line pg,
       DState (ds_p d) (ds_dec d) (ds_row d +! 1) (Some (page_inc pg)))
  end.

(** src/data.hpp:188-199 extract_row_values: the pointer handed to the caller.
    None::operator() returns its argument.  Simplification: the bytes of the
    compressed row are read at once; they are inside the page because
    _get_page_subheader has checked it. *)
Definition extract_row_values {S} (c : cfg) (h : header) (md : metadata)
    (off len : N) (d : dstate S) : res pview * dstate S :=
  match fmt_assert c ((off +! len) <=? h_page_length h) with
  | Ok _ =>
      let m := mem (ps_buf (ds_p d)) in
      if len <? md_row_length md then
        match ds_dec d with
        | DNone => (Ok (PView m off), d)
        | DRDC dst =>
            match read_cells m off len with
            | Ok src =>
                let '(r, dst') := rdc src dst in
                (_ <- r ;; Ok (PView (d_mem dst') 0),
                 DState (ds_p d) (DRDC dst') (ds_row d) (ds_page d))
            | Exn ex => (Exn ex, d)
            | Abort => (Abort, d)
            | Undef u => (Undef u, d)
            | Fuel => (Fuel, d)
            end
        | DRLE dst =>
            match read_cells m off len with
            | Ok src =>
                let '(r, dst') := rle src dst in
                (_ <- r ;; Ok (PView (d_mem dst') 0),
                 DState (ds_p d) (DRLE dst') (ds_row d) (ds_page d))
            | Exn ex => (Exn ex, d)
            | Abort => (Abort, d)
            | Undef u => (Undef u, d)
            | Fuel => (Fuel, d)
            end
        end
      else (Ok (PView m off), d)
  | Exn ex => (Exn ex, d)
  | Abort => (Abort, d)
  | Undef u => (Undef u, d)
  | Fuel => (Fuel, d)
  end.

(** src/data.hpp:181-186 read_line(). *)
Definition read_line {S} (c : cfg) (src : source S) (h : header) (md : metadata)
    (d : dstate S) : res (option pview) * dstate S :=
  match data_next c src h md d with
  | (Ok false, d1) => (Ok None, d1)
  | (Ok true, d1) =>
      match data_read_line d1 with
      | (Ok (off, len), d2) =>
          let '(r, d3) := extract_row_values c h md off len d2 in
          (v <- r ;; Ok (Some v), d3)
      | (Exn ex, d2) => (Exn ex, d2)
      | (Abort, d2) => (Abort, d2)
      | (Undef u, d2) => (Undef u, d2)
      | (Fuel, d2) => (Fuel, d2)
      end
  | (Exn ex, d1) => (Exn ex, d1)
  | (Abort, d1) => (Abort, d1)
  | (Undef u, d1) => (Undef u, d1)
  | (Fuel, d1) => (Fuel, d1)
  end.

(** src/data.hpp:171-179 skip(). *)
Fixpoint data_skip {S} (c : cfg) (src : source S) (h : header) (md : metadata)
    (n : nat) (d : dstate S) : res bool * dstate S :=
  match n with
  | O => (Ok true, d)
  | Datatypes.S n' =>
      match data_next c src h md d with
      | (Ok false, d1) => (Ok false, d1)
      | (Ok true, d1) =>
          match data_read_line d1 with
          | (Ok _, d2) => data_skip c src h md n' d2
          | (Exn ex, d2) => (Exn ex, d2)
          | (Abort, d2) => (Abort, d2)
          | (Undef u, d2) => (Undef u, d2)
          | (Fuel, d2) => (Fuel, d2)
          end
      | (Exn ex, d1) => (Exn ex, d1)
      | (Abort, d1) => (Abort, d1)
      | (Undef u, d1) => (Undef u, d1)
      | (Fuel, d1) => (Fuel, d1)
      end
  end.

(** src/data.hpp:114-145 READ_DATA::build and the constructor, with the choice
    of the decompressor. *)
Definition read_data {S} (c : cfg) (h : header) (md : metadata) (p : pstate S)
    (data_subheaders : list (N * N)) : res (dstate S) :=
  dec <- make_decompressor c (md_compression md) (md_row_length md) ;;
  match data_subheaders with
  | _ :: _ => Ok (DState p dec 0 (Some (Page (PMeta data_subheaders) 0)))
  | [] =>
      pg <- build_page (h_endianness h) (h_format h) md (ps_buf p) (ps_hdr p) ;;
      Ok (DState p dec 0 pg)
  end.
