(** Model of [src/reader.cpp], [src/reader-impl.hpp] and of the steps READ::header,
    READ::metadata, READ::data of [src/sas7bdat-impl.hpp]. *)
From Verif Require Import Base Types Buffer Header Page Column Metadata Decomp Data.
Local Open Scope N_scope.

(** Calls received by the sink ([include/cppsas7bdat/reader.hpp:43-49]): the rows
    come with their index and the row pointer.  Simplification: here the callbacks
    return normally; [Drive.v] models the same operations with a sink which may
    fail, and C77 relates the two. *)
Inductive event : Type :=
| EvProps (h : header) (md : metadata)
| EvRow (index : N) (p : pview)
| EvEnd.

(** src/reader-impl.hpp:56-58 and 101-102: the members of Reader::impl and
    ReaderImpl. *)
Record rstate (S : Type) : Type := RState {
  rs_h : header;
  rs_md : metadata;
  rs_d : dstate S
}.
Arguments RState {S} _ _ _.
Arguments rs_h {S} _.
Arguments rs_md {S} _.
Arguments rs_d {S} _.

(** src/reader.cpp:26-39 Reader::impl::build and src/sas7bdat-impl.hpp:174-197;
    then src/reader-impl.hpp:23-26 (set_properties is called once, last). *)
Definition open_reader {S} (c : cfg) (src : source S)
    (filter : option (column -> bool)) (s : S) : res (rstate S * list event) :=
  '(h, s1, b1) <- open_header c src s ;;
  '(p, md, dsh) <- set_metadata c src (h_endianness h) (h_format h)
                     (h_page_length h) filter s1 b1 ;;
  d <- read_data c h md p dsh ;;
  Ok (RState h md d, [EvProps h md]).

(** A Reader holds an implementation, or nothing when default constructed
    (src/reader.cpp:12) or moved from. *)
Definition reader (S : Type) : Type := option (rstate S).

(** A default initialised Header (include/cppsas7bdat/properties.hpp). *)
Definition empty_header : header :=
  Header Bit32 Little PlatformUnknown DateTime.NotADateTime DateTime.NotADateTime
    [] [] [] [] [] [] [] 0 0 0.

(** src/reader.cpp:41-44 properties(). *)
Definition properties {S} (r : reader S) : header * metadata :=
  match r with
  | Some r => (rs_h r, rs_md r)
  | None => (empty_header, empty_metadata)
  end.

(** The public operations, src/reader.cpp:46-72. *)
Inductive op : Type :=
| OpReadRow | OpReadRows (n : N) | OpReadAll | OpSkip (n : N) | OpNoSink | OpEnd.

(** What an operation returns, src/reader.cpp:46-72. *)
Inductive out : Type := OBool (b : bool) | OUnit | OPtr (p : option pview).

(** src/reader-impl.hpp:90-99 read_row. *)
Definition read_row {S} (c : cfg) (src : source S) (r : rstate S)
  : res bool * rstate S * list event :=
  let row_index := ds_row (rs_d r) in
  let '(x, d') := read_line c src (rs_h r) (rs_md r) (rs_d r) in
  let r' := RState (rs_h r) (rs_md r) d' in
  match x with
  | Ok None => (Ok false, r', [EvEnd])
  | Ok (Some p) => (Ok true, r', [EvRow row_index p])
  | Exn ex => (Exn ex, r', [])
  | Abort => (Abort, r', [])
  | Undef u => (Undef u, r', [])
  | Fuel => (Fuel, r', [])
  end.

(** src/reader-impl.hpp:45-49 read_rows. *)
Fixpoint read_rows {S} (c : cfg) (src : source S) (n : nat) (r : rstate S)
  : res bool * rstate S * list event :=
  match n with
  | O => (Ok true, r, [])
  | Datatypes.S n' =>
      let '(x, r1, ev) := read_row c src r in
      match x with
      | Ok true =>
          let '(y, r2, ev') := read_rows c src n' r1 in (y, r2, ev ++ ev')
      | _ => (x, r1, ev)
      end
  end.

(** src/reader-impl.hpp:51-54 read_all. *)
Fixpoint read_all_loop {S} (c : cfg) (src : source S) (fuel : nat) (r : rstate S)
  : res unit * rstate S * list event :=
  match fuel with
  | O => (Fuel, r, [])
  | Datatypes.S fuel' =>
      let '(x, r1, ev) := read_row c src r in
      match x with
      | Ok true =>
          let '(y, r2, ev') := read_all_loop c src fuel' r1 in (y, r2, ev ++ ev')
      | Ok false => (Ok tt, r1, ev)
      | Exn ex => (Exn ex, r1, ev)
      | Abort => (Abort, r1, ev)
      | Undef u => (Undef u, r1, ev)
      | Fuel => (Fuel, r1, ev)
      end
  end.

Definition read_all {S} (c : cfg) (src : source S) (r : rstate S)
  : res unit * rstate S * list event :=
  read_all_loop c src
    (Datatypes.S (N.to_nat (md_row_count (rs_md r) - ds_row (rs_d r)))) r.

(** src/reader-impl.hpp:78-83 skip. *)
Definition skip {S} (c : cfg) (src : source S) (n : N) (r : rstate S)
  : res bool * rstate S * list event :=
  let '(x, d') := data_skip c src (rs_h r) (rs_md r) (N.to_nat n) (rs_d r) in
  (x, RState (rs_h r) (rs_md r) d',
   match x with Ok false => [EvEnd] | _ => [] end).

(** src/reader-impl.hpp:85-88 read_row_no_sink. *)
Definition read_row_no_sink {S} (c : cfg) (src : source S) (r : rstate S)
  : res (option pview) * rstate S :=
  let '(x, d') := read_line c src (rs_h r) (rs_md r) (rs_d r) in
  (x, RState (rs_h r) (rs_md r) d').

Definition rmap {A B} (f : A -> B) (r : res A) : res B := x <- r ;; Ok (f x).

(** One public operation on a non empty Reader, src/reader.cpp:46-72. *)
Definition step {S} (c : cfg) (src : source S) (o : op) (r : rstate S)
  : res out * rstate S * list event :=
  match o with
  | OpReadRow => let '(x, r', ev) := read_row c src r in (rmap OBool x, r', ev)
  | OpReadRows n =>
      let '(x, r', ev) := read_rows c src (N.to_nat n) r in (rmap OBool x, r', ev)
  | OpReadAll =>
      let '(x, r', ev) := read_all c src r in (rmap (fun _ => OUnit) x, r', ev)
  | OpSkip n => let '(x, r', ev) := skip c src n r in (rmap OBool x, r', ev)
  | OpNoSink => let '(x, r') := read_row_no_sink c src r in (rmap OPtr x, r', [])
  | OpEnd => (Ok OUnit, r, [EvEnd])
  end.

(** src/reader.cpp:46-72: the operations of Reader, with the test of m_pimpl. *)
Definition reader_step {S} (c : cfg) (src : source S) (o : op) (r : reader S)
  : res out * reader S * list event :=
  match r with
  | Some r =>
      let '(x, r', ev) := step c src o r in (x, Some r', ev)
  | None =>
      (Ok match o with
          | OpReadRow | OpReadRows _ | OpSkip _ => OBool false
          | OpReadAll | OpEnd => OUnit
          | OpNoSink => OPtr None
          end, None, [])
  end.

(** src/reader.cpp:66-68 current_row_index. *)
Definition current_row_index {S} (r : reader S) : N :=
  match r with Some r => ds_row (rs_d r) | None => 0 end.

(** A sequence of operations (of a client; no counterpart in /repo).  A caller may catch exceptions
    and go on; nothing
    follows std::terminate, undefined behaviour or a loop that does not end. *)
Fixpoint run {S} (c : cfg) (src : source S) (ops : list op) (r : reader S)
  : list (res out) * reader S * list event :=
  match ops with
  | [] => ([], r, [])
  | o :: ops' =>
      let '(x, r1, ev) := reader_step c src o r in
      match x with
      | Ok _ | Exn _ =>
          let '(xs, r2, ev') := run c src ops' r1 in (x :: xs, r2, ev ++ ev')
      | _ => ([x], r1, ev)
      end
  end.
