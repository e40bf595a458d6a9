(** What a Reader shows under two configurations: builds with and without the checks of
    FMT_ASSERT, less and more memory. *)
From Verif Require Import Base Types Buffer Page Column Header Metadata Decomp Data Reader SpecReader SpecAsk.
Local Open Scope N_scope.

(** The first configuration has more checks, or less memory, or both. *)
Definition stricter (c1 c2 : cfg) : Prop :=
  (ndebug c1 = true -> ndebug c2 = true) /\ max_alloc c1 <= max_alloc c2
  /\ page_fuel c1 = page_fuel c2.

(** What only the stricter one says: the process is terminated by a check which the other
    build does not have, or there is not the memory which the other one has. *)
Definition gives_up (c1 c2 : cfg) {A} (x : res A) : Prop :=
  x = Abort /\ ndebug c1 = false /\ ndebug c2 = true
  \/ x = Exn E_bad_alloc /\ max_alloc c1 < max_alloc c2.

(** The same calls with the same answers and the same calls of the sink, up to the first
    call in which the stricter one gives up; in that call, what the sink received is the
    start of what it receives in the other one. *)
Inductive same_until (c1 c2 : cfg) : list entry -> list entry -> Prop :=
| U_nil : same_until c1 c2 [] []
| U_same : forall x l l', same_until c1 c2 l l' -> same_until c1 c2 (x :: l) (x :: l')
| U_up : forall o x ev y more l l', gives_up c1 c2 x ->
    same_until c1 c2 ((o, x, ev) :: l) ((o, y, ev ++ more) :: l').

Definition agree (c1 c2 : cfg) (x y : res (list event * list entry)) : Prop :=
  gives_up c1 c2 x
  \/ match x with
     | Ok (ev, l) => exists l', y = Ok (ev, l') /\ same_until c1 c2 l l'
     | _ => y = x
     end.

(** The largest piece of memory which a Reader asks for: the first bytes, the header, a
    page, the columns, and a row when the file is compressed. *)
Definition largest_piece (h : header) (md : metadata) : N :=
  N.max (N.max 288 (N.max (h_header_length h) (h_page_length h)))
    (N.max (sizeof_column * md_column_count md)
       (match md_compression md with CompNone => 0 | _ => md_row_length md end)).
