(** The conversation of a Reader with its data source. *)
From Verif Require Import Base Types Buffer Page Column Header Metadata Data Reader SpecReader.
Local Open Scope N_scope.

(** A question to the source and its answer: [eof()], and [read_bytes] of [n] bytes
    with the bytes written and the value returned. *)
Inductive ask : Type :=
| AskEof (b : bool)
| AskRead (n : N) (data : bytes) (ok : bool).

(** The source answers so, one question after the other, and ends in the last state. *)
Inductive talks {S} (src : source S) : S -> list ask -> S -> Prop :=
| T_nil : forall s, talks src s [] s
| T_eof : forall s t s', talks src s t s' -> talks src s (AskEof (src_eof src s) :: t) s'
| T_read : forall s n s1 data ok t s', src_read src s n = (s1, data, ok) ->
    talks src s1 t s' -> talks src s (AskRead n data ok :: t) s'.

(** The conversation about the pages, each of [plen] bytes: before a page is asked for,
    the source has said that it is not at its end; nothing is asked once it has said that
    it is at its end, a page could not be read or there is no memory for a page.  The
    second argument is whether the conversation has ended in one of these ways. *)
Inductive paging (plen : N) : bool -> list ask -> Prop :=
| P_none : paging plen false []
| P_page : forall d e t, lenN d = plen -> paging plen e t ->
    paging plen e (AskEof false :: AskRead plen d true :: t)
| P_end : paging plen true [AskEof true]
| P_fail : forall d b, lenN d <= plen ->
    paging plen true [AskEof false; AskRead plen d false; AskEof b]
| P_memory : paging plen true [AskEof false].

(** The bytes which the source has given, and the lengths it was asked for, in all. *)
Fixpoint pieces (t : list ask) : bytes :=
  match t with
  | [] => []
  | AskEof _ :: t' => pieces t'
  | AskRead _ d _ :: t' => d ++ pieces t'
  end.

Fixpoint lengths (t : list ask) : N :=
  match t with
  | [] => 0
  | AskEof _ :: t' => lengths t'
  | AskRead n _ _ :: t' => n + lengths t'
  end.

(** Where the source of a reader is. *)
Definition source_at {S} (r : rstate S) : S := ps_is (ds_p (rs_d r)).

(** All that a client of Reader observes: what the constructor does, and then each call,
    with the calls received by the sink. *)
Definition session {S} (c : cfg) (src : source S) (flt : option (column -> bool)) (s : S)
    (ops : list op) : res (list event * list entry) :=
  match open_reader c src flt s with
  | Ok (r, ev) => Ok (ev, fst (trace c src ops (Some r)))
  | Exn e => Exn e
  | Abort => Abort
  | Undef u => Undef u
  | Fuel => Fuel
  end.


(** The rows of the current page which were not delivered yet. *)
Definition rows_left {S} (r : rstate S) : N :=
  match ds_page (rs_d r) with
  | Some pg => match pg_kind pg with
               | PMeta l => lenN l - pg_row pg
               | PRows n _ _ => n - pg_row pg
               end
  | None => 0
  end.

(** How many rows a call asks for, all of them for [read_all]. *)
Definition wanted (o : op) : option N :=
  match o with
  | OpReadRow | OpNoSink => Some 1
  | OpReadRows n | OpSkip n => Some n
  | OpReadAll => None
  | OpEnd => Some 0
  end.
