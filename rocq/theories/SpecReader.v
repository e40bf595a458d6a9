(** What a client of Reader can observe over a history of calls. *)
From Verif Require Import Base Types Buffer Page Column Header Metadata Decomp Data Reader.
Local Open Scope N_scope.

(** ** Histories *)

(** A reader made by the constructor, and one made by the constructor followed
    by some calls. *)
Definition opened {S} (c : cfg) (src : source S) (flt : option (column -> bool)) (s : S)
    (r : rstate S) : Prop :=
  exists ev, open_reader c src flt s = Ok (r, ev).

(** One entry per call: the call, its outcome, the calls received by the sink. *)
Definition entry : Type := op * res out * list event.

Fixpoint trace {S} (c : cfg) (src : source S) (ops : list op) (r : reader S)
  : list entry * reader S :=
  match ops with
  | [] => ([], r)
  | o :: ops' =>
      let '(x, r1, ev) := reader_step c src o r in
      match x with
      | Ok _ | Exn _ =>
          let '(t, r2) := trace c src ops' r1 in ((o, x, ev) :: t, r2)
      | _ => ([(o, x, ev)], r1)
      end
  end.

Definition reachable {S} (c : cfg) (src : source S) (flt : option (column -> bool)) (s : S)
    (r : rstate S) : Prop :=
  exists r0 ops t, opened c src flt s r0 /\ trace c src ops (Some r0) = (t, Some r).

(** ** Rows *)

Definition rows_of (ev : list event) : list (N * pview) :=
  flat_map (fun e => match e with EvRow i p => [(i, p)] | _ => [] end) ev.

Definition indices (ev : list event) : list N := map fst (rows_of ev).

(** [k] consecutive numbers from [i]. *)
Fixpoint from (i : N) (k : nat) : list N :=
  match k with
  | O => []
  | Datatypes.S k' => i :: from (i + 1) k'
  end.

(** A call which starts at row [i] and leaves the reader at row [j]: which rows
    it pushes, and how many it consumes.  A call which fails may have consumed
    one row more than it pushed (the one it could not extract); a failing skip
    has consumed some. *)
Definition consumes (i : N) (t : entry) (j : N) : Prop :=
  let '(o, x, ev) := t in
  exists pushed, indices ev = from i pushed /\
  let k := N.of_nat pushed in
  match o, x with
  | OpReadRow, Ok (OBool true) => k = 1 /\ j = i + 1
  | OpReadRow, Ok (OBool false) => k = 0 /\ j = i
  | OpReadRow, Exn _ => k = 0 /\ i <= j <= i + 1
  | OpReadRows n, Ok (OBool true) => k = n /\ j = i + n
  | OpReadRows n, Ok (OBool false) => k < n /\ j = i + k
  | OpReadRows n, Exn _ => k < n /\ i + k <= j <= i + k + 1
  | OpReadAll, Ok OUnit => j = i + k
  | OpReadAll, Exn _ => i + k <= j <= i + k + 1
  | OpSkip n, Ok (OBool true) => k = 0 /\ j = i + n
  | OpSkip n, Ok (OBool false) => k = 0 /\ i <= j < i + n
  | OpSkip n, Exn _ => k = 0 /\ i <= j < i + n
  | OpNoSink, Ok (OPtr (Some _)) => k = 0 /\ j = i + 1
  | OpNoSink, Ok (OPtr None) => k = 0 /\ j = i
  | OpNoSink, Exn _ => k = 0 /\ i <= j <= i + 1
  | OpEnd, Ok OUnit => k = 0 /\ j = i
  | _, Ok _ => False
  | OpEnd, Exn _ => False
  | _, _ => i + k <= j
  end.

(** The whole history, from row [i] to row [j]. *)
Fixpoint numbered (i : N) (t : list entry) (j : N) : Prop :=
  match t with
  | [] => i = j
  | x :: t' => exists k, consumes i x k /\ numbered k t' j
  end.

(** ** The end of the data *)

(** The call reported the end. *)
Definition reports_end (o : op) (x : res out) : bool :=
  match o, x with
  | (OpReadRow | OpReadRows _ | OpSkip _), Ok (OBool false) => true
  | OpReadAll, Ok OUnit => true
  | OpNoSink, Ok (OPtr None) => true
  | _, _ => false
  end.

(** A call which asks for a row. *)
Definition asks (o : op) : bool :=
  match o with
  | OpReadRow | OpReadAll | OpNoSink => true
  | OpReadRows n | OpSkip n => 0 <? n
  | OpEnd => false
  end.

(** The answer of a reader at its end. *)
Definition end_answer (o : op) : out :=
  match o with
  | OpReadRow => OBool false
  | OpReadRows n | OpSkip n => OBool (n =? 0)
  | OpReadAll | OpEnd => OUnit
  | OpNoSink => OPtr None
  end.

(** The calls received by the sink then. *)
Definition end_events (o : op) : list event :=
  match o with
  | OpReadRow | OpReadAll | OpEnd => [EvEnd]
  | OpReadRows n | OpSkip n => if n =? 0 then [] else [EvEnd]
  | OpNoSink => []
  end.

(** ** The sink *)

Definition is_props (e : event) : bool := match e with EvProps _ _ => true | _ => false end.
Definition is_row (e : event) : bool := match e with EvRow _ _ => true | _ => false end.
Definition is_end (e : event) : bool := match e with EvEnd => true | _ => false end.

(** read_row, read_rows and read_all: the calls which push rows. *)
Definition pushes (o : op) : bool :=
  match o with OpReadRow | OpReadRows _ | OpReadAll => true | _ => false end.

(** The calls after which the sink is told: the end reported to a call which
    has the sink (not read_row_no_sink), and end_of_data. *)
Definition tells_end (o : op) (x : res out) : bool :=
  match o with
  | OpEnd => true
  | OpNoSink => false
  | _ => reports_end o x
  end.

Definition all_events (t : list entry) : list event := flat_map snd t.

(** ** Comparing readers *)

(** Two readers a client cannot tell apart: the same properties and position,
    and the same answers, sink calls and positions over every later history. *)
Definition same_reader {S} (c : cfg) (src : source S) (r1 r2 : rstate S) : Prop :=
  rs_h r1 = rs_h r2 /\ rs_md r1 = rs_md r2
  /\ forall ops, fst (trace c src ops (Some r1)) = fst (trace c src ops (Some r2))
       /\ current_row_index (snd (trace c src ops (Some r1)))
          = current_row_index (snd (trace c src ops (Some r2))).

(** [k] calls of read_row by a client who goes on after a row which cannot be
    decompressed and stops at anything else; the rows pushed are ignored. *)
Fixpoint consume {S} (c : cfg) (src : source S) (k : nat) (r : rstate S)
  : res bool * rstate S :=
  match k with
  | O => (Ok true, r)
  | Datatypes.S k' =>
      let '(x, r1, _) := read_row c src r in
      match x with
      | Ok true | Exn E_cannot_decompress => consume c src k' r1
      | _ => (x, r1)
      end
  end.

(** [k] calls of read_row, stopping at the first which does not return true. *)
Fixpoint read_row_times {S} (c : cfg) (src : source S) (k : nat) (r : rstate S)
  : res bool * rstate S * list event :=
  match k with
  | O => (Ok true, r, [])
  | Datatypes.S k' =>
      match read_row c src r with
      | (Ok true, r1, ev) =>
          let '(x, r2, ev') := read_row_times c src k' r1 in (x, r2, ev ++ ev')
      | other => other
      end
  end.

(** The call ended in a way from which a program goes on. *)
Definition defined {A} (x : res A) : bool :=
  match x with Ok _ | Exn _ => true | _ => false end.

(** A source which also remembers whether it has answered "no" without being at
    its end. *)
Definition watched {S} (src : source S) : source (S * bool) :=
  Source (fun s => src_eof src (fst s))
    (fun s n => let '(s', data, ok) := src_read src (fst s) n in
                ((s', snd s || (negb ok && negb (src_eof src s'))), data, ok)).

(** Has the source of the reader failed? *)
Definition source_failed {S} (r : rstate (S * bool)) : bool := snd (ps_is (ds_p (rs_d r))).
