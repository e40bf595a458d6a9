(** Files whose pages are shorter than a page header. *)
From Verif Require Import Base Types Buffer Reader SpecReader.
Local Open Scope N_scope.

(** Where the type of a page is stored in it, in two bytes, followed by two counts of two bytes
    each. *)
Definition type_place (f : format) : N := match f with Bit32 => 16 | Bit64 => 32 end.

(** A history in which the data are at their end at once. *)
Definition nothing (ops : list op) : list entry :=
  map (fun o => (o, Ok (end_answer o), end_events o)) ops.
