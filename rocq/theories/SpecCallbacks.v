(** What can be said of sinks whose client code fails: the requests an object receives,
    with their outcomes. *)
From Verif Require Import Base Types Column Header Metadata Reader Drive Sinks Callbacks
  SpecReader SpecDrive SpecSinks SpecNumber.
Local Open Scope N_scope.

(** An object which keeps a note of each request and of its outcome. *)
Definition noted {P} (o : pyobj P) : pyobj (P * list (pyreq * res unit)) := fun q st =>
  let '(y, p) := o q (fst st) in (y, (p, snd st ++ [(q, y)])).

(** The calls which returned. *)
Definition returned (log : list (pyreq * res unit)) : list pycall :=
  flat_map (fun x => match x with (PyCall k, Ok tt) => [k] | _ => [] end) log.

(** The sink just made, with the object in state [p]. *)
Definition chunk_start {P} (size : N) (p : P) : pyst (P * list (pyreq * res unit)) :=
  PySt false false (pychunk_new size) (p, []).

(** A call which ended with the exception [e]. *)
Definition threw {A} (k : sink A) (ev : event) (a : A) (e : exn) : Prop := fst (k ev a) = Exn e.

(** The start of a line of the print sink: the row number and the texts of these columns. *)
Definition line_start (i : N) (cs : list column) (p : pview) (l : bytes) : Prop :=
  exists ti ts, short_decimal ti (Z.of_N i) /\ Forall2 (fun c t => c_to_string c p = Ok t) cs ts
    /\ l = ti ++ concat (map (fun t => [x2c] ++ t) ts).
