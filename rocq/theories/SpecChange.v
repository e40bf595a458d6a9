(** Files which change while they are read. *)
From Verif Require Import Base Types.
Local Open Scope N_scope.

(** Each byte of [content] was at its place in the file at some moment. *)
Definition from_versions (seen : nat -> bytes) (content : bytes) : Prop :=
  forall i b, nth_error content i = Some b -> exists k, nth_error (seen k) i = Some b.

(** A file which is only appended to: its first [there k] bytes are there. *)
Definition appended (content : bytes) (there : nat -> N) : nat -> bytes :=
  fun k => firstn (N.to_nat (there k)) content.

(** Where the [k]-th read of a Reader ends, with a header of [hl] bytes and pages of [pl]. *)
Definition asked_to (hl pl : N) (k : nat) : N :=
  match k with
  | 0%nat => 288
  | S j => hl + N.of_nat j * pl
  end.
