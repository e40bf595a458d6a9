(** Sources given to Readers as named objects: reader.hpp:95-98 build_source, 29-42
    DataSourceModel ([include/cppsas7bdat/reader.hpp]).  Of a named object _Source is a
    reference type, so that the Reader refers to the object of the client, which the
    client or another Reader can go on using. *)
From Verif Require Import Base Types Buffer Header Column Metadata Page Data Reader Sinks.
Local Open Scope N_scope.

(** A Reader with its source in another state (src/page.hpp, the member is, refers to the
    source). *)
Definition with_source {S1 S2} (s : S2) (r : rstate S1) : rstate S2 :=
  let d := rs_d r in
  let p := ds_p d in
  RState (rs_h r) (rs_md r) (DState (PState s (ps_buf p) (ps_hdr p)) (ds_dec d) (ds_row d) (ds_page d)).

(** The state in which a Reader has left its source, reader.hpp:40. *)
Definition source_of {S} (r : rstate S) : S := ps_is (ds_p (rs_d r)).

(** The objects: named sources and Reader variables in the order of their declaration,
    [None] when there is no object any more.  A Reader has the number of its source; the
    state of the source inside its [rstate] is that of its last use by this Reader.
    reader.hpp:29-42, 95-98, 109. *)
Record nworld (S : Type) : Type := NWorld {
  nw_sources : list (option S);
  nw_readers : list (option (nat * rstate S))
}.
Arguments NWorld {S} _ _.
Arguments nw_sources {S} _.
Arguments nw_readers {S} _.

Inductive nstmt (S : Type) : Type :=
| NSource (s : S)                                    (* Source s(...); *)
| NSourceEnd (n : nat)                               (* the end of a source *)
| NNew (n : nat) (flt : option (column -> bool))     (* Reader v(s, Sink{}, filter); *)
| NCall (v : nat) (o : op)                           (* v.read_row() ... *)
| NEnd (v : nat)                                     (* the end of a Reader *)
| NRead (n : nat) (len : N).                         (* s.read_bytes(p, len); *)
Arguments NSource {S} _.
Arguments NSourceEnd {S} _.
Arguments NNew {S} _ _.
Arguments NCall {S} _ _.
Arguments NEnd {S} _.
Arguments NRead {S} _ _.

(** What the statement gives to the client and tells the sink of the Reader
    (reader.hpp:43-49, src/reader.cpp:46-72). *)
Inductive nval : Type := NNone | NOut (x : res out) (ev : list event) | NMade (ev : list event) | NBytes (b : bytes) (ok : bool).

(** A source object which is gone, behind the reference of reader.hpp:40: the state is whether it
    was read.  (A call which only
    asks for the end of the source, because there is no memory for a page, is not counted.) *)
Definition gone : source bool := Source (fun _ => false) (fun _ _ => (true, [], false)).

(** reader.hpp:95-98, 117-124, src/reader.cpp:16, 46-72, ifstream.hpp:22-28.
    Simplification: nothing follows a constructor which fails, since the model of the
    constructor does not tell in which state it leaves the source. *)
Definition nexec {S} (c : cfg) (src : source S) (st : nstmt S) (w : nworld S) : res nval * nworld S :=
  let lost := (Undef UB_lifetime, w) in
  match st with
  | NSource s => (Ok NNone, NWorld (nw_sources w ++ [Some s]) (nw_readers w))
  | NSourceEnd n =>
      match nth n (nw_sources w) None with
      | Some _ => (Ok NNone, NWorld (upd n None (nw_sources w)) (nw_readers w))
      | None => lost
      end
  | NNew n flt =>
      match nth n (nw_sources w) None with
      | Some s =>
          match open_reader c src flt s with
          | Ok (r, ev) => (Ok (NMade ev), NWorld (upd n (Some (source_of r)) (nw_sources w))
                                            (nw_readers w ++ [Some (n, r)]))
          | x => (rmap (fun _ => NNone) x, w)
          end
      | None => lost
      end
  | NCall v o =>
      match nth v (nw_readers w) None with
      | Some (n, r) =>
          match nth n (nw_sources w) None with
          | Some s =>
              let '(x, r', ev) := step c src o (with_source s r) in
              (Ok (NOut x ev), NWorld (upd n (Some (source_of r')) (nw_sources w))
                                 (upd v (Some (n, r')) (nw_readers w)))
          | None =>
              let '(x, r', ev) := step c gone o (with_source false r) in
              if source_of r' then lost
              else (Ok (NOut x ev), NWorld (nw_sources w)
                                      (upd v (Some (n, with_source (source_of r) r')) (nw_readers w)))
          end
      | None => lost
      end
  | NEnd v =>
      match nth v (nw_readers w) None with
      | Some _ => (Ok NNone, NWorld (nw_sources w) (upd v None (nw_readers w)))
      | None => lost
      end
  | NRead n len =>
      match nth n (nw_sources w) None with
      | Some s => let '(s', b, ok) := src_read src s len in
                  (Ok (NBytes b ok), NWorld (upd n (Some s') (nw_sources w)) (nw_readers w))
      | None => lost
      end
  end.

(** A program: nothing follows a failure other than an exception of a call (no counterpart in
    /repo). *)
Fixpoint nexec_all {S} (c : cfg) (src : source S) (p : list (nstmt S)) (w : nworld S)
  : list (res nval) * nworld S :=
  match p with
  | [] => ([], w)
  | st :: p' =>
      let '(x, w1) := nexec c src st w in
      match x with
      | Ok (NOut (Ok _) _) | Ok (NOut (Exn _) _) | Ok NNone | Ok (NMade _) | Ok (NBytes _ _) =>
          let '(xs, w2) := nexec_all c src p' w1 in (x :: xs, w2)
      | _ => ([x], w1)
      end
  end.
