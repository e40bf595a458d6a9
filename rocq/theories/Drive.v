(** The reader of [src/reader-impl.hpp] together with a sink which may throw. *)
From Verif Require Import Base Types Buffer Page Column Header Metadata Decomp Data Reader.
Local Open Scope N_scope.

(** Reader::DatasetSinkConcept (include/cppsas7bdat/reader.hpp:43-49): three calls
    which act on the state [A] of the sink.  A call may return, throw, terminate
    the process or be undefined; the state it leaves is kept in every case. *)
Definition sink (A : Type) : Type := event -> A -> res unit * A.

(** src/reader-impl.hpp:90-99 read_row.  The row is extracted, and the position
    advanced, before the sink is called.  The last component is the list of the
    calls made to the sink. *)
Definition drive_row {S A} (c : cfg) (src : source S) (k : sink A) (r : rstate S) (a : A)
  : res bool * rstate S * A * list event :=
  let row_index := ds_row (rs_d r) in
  let '(x, d') := read_line c src (rs_h r) (rs_md r) (rs_d r) in
  let r' := RState (rs_h r) (rs_md r) d' in
  match x with
  | Ok None =>
      let '(y, a') := k EvEnd a in (rmap (fun _ => false) y, r', a', [EvEnd])
  | Ok (Some p) =>
      let '(y, a') := k (EvRow row_index p) a in
      (rmap (fun _ => true) y, r', a', [EvRow row_index p])
  | Exn ex => (Exn ex, r', a, [])
  | Abort => (Abort, r', a, [])
  | Undef u => (Undef u, r', a, [])
  | Fuel => (Fuel, r', a, [])
  end.

(** src/reader-impl.hpp:45-49 read_rows. *)
Fixpoint drive_rows {S A} (c : cfg) (src : source S) (k : sink A) (n : nat) (r : rstate S)
    (a : A) : res bool * rstate S * A * list event :=
  match n with
  | O => (Ok true, r, a, [])
  | Datatypes.S n' =>
      let '(x, r1, a1, ev) := drive_row c src k r a in
      match x with
      | Ok true =>
          let '(y, r2, a2, ev') := drive_rows c src k n' r1 a1 in (y, r2, a2, ev ++ ev')
      | _ => (x, r1, a1, ev)
      end
  end.

(** src/reader-impl.hpp:51-54 read_all; the same number of turns as [read_all]. *)
Fixpoint drive_all_loop {S A} (c : cfg) (src : source S) (k : sink A) (fuel : nat)
    (r : rstate S) (a : A) : res unit * rstate S * A * list event :=
  match fuel with
  | O => (Fuel, r, a, [])
  | Datatypes.S fuel' =>
      let '(x, r1, a1, ev) := drive_row c src k r a in
      match x with
      | Ok true =>
          let '(y, r2, a2, ev') := drive_all_loop c src k fuel' r1 a1 in
          (y, r2, a2, ev ++ ev')
      | _ => (rmap (fun _ => tt) x, r1, a1, ev)
      end
  end.

Definition drive_all {S A} (c : cfg) (src : source S) (k : sink A) (r : rstate S) (a : A)
  : res unit * rstate S * A * list event :=
  drive_all_loop c src k
    (Datatypes.S (N.to_nat (md_row_count (rs_md r) - ds_row (rs_d r)))) r a.

(** src/reader-impl.hpp:78-83 skip. *)
Definition drive_skip {S A} (c : cfg) (src : source S) (k : sink A) (n : N) (r : rstate S)
    (a : A) : res bool * rstate S * A * list event :=
  let '(x, d') := data_skip c src (rs_h r) (rs_md r) (N.to_nat n) (rs_d r) in
  let r' := RState (rs_h r) (rs_md r) d' in
  match x with
  | Ok false =>
      let '(y, a') := k EvEnd a in (rmap (fun _ => false) y, r', a', [EvEnd])
  | _ => (x, r', a, [])
  end.

(** src/reader-impl.hpp:38 end_of_data. *)
Definition drive_end {S A} (k : sink A) (r : rstate S) (a : A)
  : res unit * rstate S * A * list event :=
  let '(y, a') := k EvEnd a in (y, r, a', [EvEnd]).

(** One public operation on a non empty Reader, src/reader.cpp:46-72. *)
Definition drive_step {S A} (c : cfg) (src : source S) (k : sink A) (o : op) (r : rstate S)
    (a : A) : res out * rstate S * A * list event :=
  match o with
  | OpReadRow =>
      let '(x, r', a', ev) := drive_row c src k r a in (rmap OBool x, r', a', ev)
  | OpReadRows n =>
      let '(x, r', a', ev) := drive_rows c src k (N.to_nat n) r a in
      (rmap OBool x, r', a', ev)
  | OpReadAll =>
      let '(x, r', a', ev) := drive_all c src k r a in
      (rmap (fun _ => OUnit) x, r', a', ev)
  | OpSkip n =>
      let '(x, r', a', ev) := drive_skip c src k n r a in (rmap OBool x, r', a', ev)
  | OpNoSink =>
      let '(x, r') := read_row_no_sink c src r in (rmap OPtr x, r', a, [])
  | OpEnd =>
      let '(x, r', a', ev) := drive_end k r a in (rmap (fun _ => OUnit) x, r', a', ev)
  end.

(** src/reader.cpp:26-39 build, then src/reader-impl.hpp:23-26: the constructor of
    impl calls set_properties; when it throws no Reader is made. *)
Definition drive_open {S A} (c : cfg) (src : source S) (k : sink A)
    (filter : option (column -> bool)) (s : S) (a : A)
  : res (rstate S) * A * list event :=
  let m := '(h, s1, b1) <- open_header c src s ;;
           '(p, md, dsh) <- set_metadata c src (h_endianness h) (h_format h)
                              (h_page_length h) filter s1 b1 ;;
           d <- read_data c h md p dsh ;;
           Ok (RState h md d) in
  match m with
  | Ok r =>
      let '(y, a') := k (EvProps (rs_h r) (rs_md r)) a in
      (rmap (fun _ => r) y, a', [EvProps (rs_h r) (rs_md r)])
  | other => (other, a, [])
  end.

(** A history of calls: the client may catch an exception, of the library or of the
    sink, and go on; nothing follows the other failures.  One entry per call: the
    operation, its outcome and the calls made to the sink.  (A client; no counterpart in
    /repo.) *)
Fixpoint drive {S A} (c : cfg) (src : source S) (k : sink A) (ops : list op) (r : rstate S)
    (a : A) : list (op * res out * list event) * rstate S * A :=
  match ops with
  | [] => ([], r, a)
  | o :: ops' =>
      let '(x, r1, a1, ev) := drive_step c src k o r a in
      match x with
      | Ok _ | Exn _ =>
          let '(t, r2, a2) := drive c src k ops' r1 a1 in ((o, x, ev) :: t, r2, a2)
      | _ => ([(o, x, ev)], r1, a1)
      end
  end.
