(** Readers used one after the other. *)
From Verif Require Import Base Types Buffer Page Column Header Metadata Decomp Data Reader Drive Sinks Callbacks Shared.
Local Open Scope N_scope.

(** What is done with one Reader. *)
Record session (S : Type) : Type := Session {
  se_filter : option (column -> bool);
  se_source : S;
  se_ops : list op }.
Arguments Session {S} _ _ _.
Arguments se_filter {S} _.
Arguments se_source {S} _.
Arguments se_ops {S} _.

(** It is made as number [j], and called. *)
Definition calls_of {S} (j : nat) (x : session S) : list (call S) :=
  COpen (se_filter x) (se_source x) :: map (COp j) (se_ops x).
Fixpoint one_after_other {S} (j : nat) (l : list (session S)) : list (call S) :=
  match l with
  | [] => []
  | x :: r => calls_of j x ++ one_after_other (Datatypes.S j) r
  end.

(** The answers and the text of one such part with a new sink on an empty stream. *)
Definition alone {S} (c : cfg) (src : source S) (k : sink (list column * bytes)) (x : session S) : list answer * bytes :=
  let '(t, _, st) := shared_run c src k (calls_of 0 x) [] ([], []) in (t, snd st).

(** All parts, up to one where the process ends. *)
Fixpoint in_turn {S} (c : cfg) (src : source S) (k : sink (list column * bytes)) (l : list (session S))
  : list answer * bytes :=
  match l with
  | [] => ([], [])
  | x :: r =>
      let '(t, text) := alone c src k x in
      if existsb is_last t then (t, text)
      else let '(t', text') := in_turn c src k r in (t ++ t', text ++ text')
  end.

(** Every file which is opened has these columns. *)
Definition have_columns {S} (c : cfg) (src : source S) (cs : list column) (calls : list (call S)) : Prop :=
  Forall (fun x => match x with
    | COpen flt s => forall r ev, open_reader c src flt s = Ok (r, ev) -> md_columns (rs_md r) = cs
    | COp _ _ => True end) calls.
