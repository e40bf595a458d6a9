(** Rows which a client keeps: the pointer returned by Reader::read_row_no_sink points into
    a buffer of the Reader ([src/data.hpp:188-199],
    [include/cppsas7bdat/reader.hpp], [src/decompressors.hpp:39-81]). *)
From Verif Require Import Base Types Buffer Page Column Header Metadata Decomp Data Reader.
Local Open Scope N_scope.

(** Where a row is: in the page, or in the buffer of the decompressor (src/data.hpp:188-199). *)
Inductive place : Type := InPage (off : N) | InRow.

(** src/data.hpp:188-199 extract_row_values: the pointer for the row of [len] bytes at
    [off] of the page. *)
Definition row_place {S} (md : metadata) (off len : N) (d : dstate S) : place :=
  if len <? md_row_length md
  then match ds_dec d with DNone => InPage off | _ => InRow end
  else InPage off.

(** The place of the row which read_line (src/data.hpp:181-186) extracts next. *)
Definition next_place {S} (c : cfg) (src : source S) (h : header) (md : metadata) (d : dstate S) : option place :=
  match data_next c src h md d with
  | (Ok true, d1) =>
      match fst (data_read_line d1) with
      | Ok (off, len) => Some (row_place md off len d1)
      | _ => None
      end
  | _ => None
  end.

(** What a pointer to the place shows now.  The buffers are members of the Reader; that their
    memory is the one the pointer was made for is shown by C113_no_allocation. *)
Definition look {S} (k : place) (d : dstate S) : pview :=
  match k with
  | InPage off => PView (mem (ps_buf (ds_p d))) off
  | InRow =>
      match ds_dec d with
      | DNone => PView [] 0
      | DRDC t => PView (d_mem t) 0
      | DRLE t => PView (d_mem t) 0
      end
  end.

(** The bytes of the row at a pointer (which the accessors of column.hpp:94-101 read). *)
Definition row_bytes (md : metadata) (p : pview) : res bytes :=
  read_cells (pv_mem p) (pv_off p) (md_row_length md).

(** A client which calls the Reader (src/reader.cpp:46-72), keeps rows and looks at those it has
    kept. *)
Inductive kstmt : Type :=
| KCall (o : op)   (* r.read_row() ... *)
| KKeep            (* p[n] = r.read_row_no_sink(); and a look at it unless it is null *)
| KLook (j : nat). (* a look at p[j] *)

Inductive kval : Type := KOut (x : out) | KNull | KRow (b : bytes).

Definition kexec {S} (c : cfg) (src : source S) (st : kstmt) (w : rstate S * list place)
  : res kval * (rstate S * list place) :=
  let '(r, kept) := w in
  match st with
  | KCall o => let '(x, r', _) := step c src o r in (rmap KOut x, (r', kept))
  | KKeep =>
      let k := next_place c src (rs_h r) (rs_md r) (rs_d r) in
      let '(x, r') := read_row_no_sink c src r in
      match x, k with
      | Ok None, _ => (Ok KNull, (r', kept))
      | Ok (Some p), Some k => (rmap KRow (row_bytes (rs_md r) p), (r', kept ++ [k]))
      | Ok (Some _), None => (Undef UB_lifetime, (r', kept))
      | Exn e, _ => (Exn e, (r', kept))
      | Abort, _ => (Abort, (r', kept))
      | Undef u, _ => (Undef u, (r', kept))
      | Fuel, _ => (Fuel, (r', kept))
      end
  | KLook j =>
      match nth_error kept j with
      | Some k => (rmap KRow (row_bytes (rs_md r) (look k (rs_d r))), w)
      | None => (Undef UB_lifetime, w)
      end
  end.

(** A program goes on after exceptions, and after nothing else (no counterpart in /repo). *)
Fixpoint kexec_all {S} (c : cfg) (src : source S) (p : list kstmt) (w : rstate S * list place)
  : list (res kval) * (rstate S * list place) :=
  match p with
  | [] => ([], w)
  | st :: p' =>
      let '(x, w1) := kexec c src st w in
      match x with
      | Ok _ | Exn _ => let '(xs, w2) := kexec_all c src p' w1 in (x :: xs, w2)
      | _ => ([x], w1)
      end
  end.
