(** What becomes of rows which are kept. *)
From Verif Require Import Base Types Buffer Page Column Header Metadata Decomp Data Reader Kept SpecReader SpecAsk.
Local Open Scope N_scope.

(** A source which counts how often it is asked for bytes. *)
Definition counted {S} (src : source S) : source (S * N) :=
  Source (fun s => src_eof src (fst s))
    (fun s n => let '(s', data, ok) := src_read src (fst s) n in ((s', snd s + 1), data, ok)).

Definition asked_for {S} (r : rstate (S * N)) : N := snd (source_at r).

(** Statements which extract no row. *)
Definition extracts_none (st : kstmt) : Prop :=
  match st with KLook _ | KCall OpEnd | KCall (OpSkip _) => True | _ => False end.

(** The same build with another limit for a piece of memory. *)
Definition with_memory (c : cfg) (m : N) : cfg := Cfg (ndebug c) m (page_fuel c).
