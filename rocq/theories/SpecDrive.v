(** What a client and a sink observe when the sink may fail. *)
From Coq Require Import Sorted.
From Verif Require Import Base Types Buffer Page Column Header Metadata Decomp Data Reader
  Drive SpecReader.
Local Open Scope N_scope.

(** The state of a sink after some calls. *)
Fixpoint after {A} (k : sink A) (a : A) (evs : list event) : A :=
  match evs with
  | [] => a
  | e :: r => after k (snd (k e a)) r
  end.

(** All these calls return. *)
Fixpoint accepts {A} (k : sink A) (a : A) (evs : list event) : Prop :=
  match evs with
  | [] => True
  | e :: r => fst (k e a) = Ok tt /\ accepts k (snd (k e a)) r
  end.

(** The calls before [e] return, the call [e] ends with the failure [y]. *)
Definition refuses {A} (k : sink A) (a : A) (before : list event) (e : event) (y : res unit)
  : Prop :=
  accepts k a before /\ fst (k e (after k a before)) = y /\ y <> Ok tt.

(** The same failure. *)
Definition same_failure {A B} (x : res A) (y : res B) : Prop :=
  match x, y with
  | Exn e, Exn e' => e = e'
  | Abort, Abort => True
  | Undef u, Undef u' => u = u'
  | Fuel, Fuel => True
  | _, _ => False
  end.

(** A sink which never fails. *)
Definition quiet {A} (k : sink A) : Prop := forall e a, fst (k e a) = Ok tt.

(** The calls made to the sink over a history. *)
Definition calls_made (t : list entry) : list event := all_events t.
