(** Sources: the end of a file, failures, endless sources. *)
From Verif Require Import Base Types Buffer Header Data Reader SpecReader.
Local Open Scope N_scope.

(** Two runs with the same outcome, with related results. *)
Definition same_outcome {A B : Type} (rel : A -> B -> Prop) (x : res A) (y : res B) : Prop :=
  match x, y with
  | Ok a, Ok b => rel a b
  | Exn e, Exn e' => e = e'
  | Abort, Abort => True
  | Undef u, Undef u' => u = u'
  | Fuel, Fuel => True
  | _, _ => False
  end.

(** The file without its incomplete last page. *)
Definition whole_pages (content : bytes) (h : header) : bytes :=
  let hl := h_header_length h in
  let plen := h_page_length h in
  firstn (N.to_nat (hl + plen * ((lenN content - hl) / plen))) content.

(** From state [s] the source delivers at most [n] more pages of [plen] bytes
    before it says that it is at its end, or fails. *)
Fixpoint at_most {S} (src : source S) (plen : N) (n : nat) (s : S) : Prop :=
  src_eof src s = true \/
  let '(s', _, ok) := src_read src s plen in
  ok = true -> match n with
               | O => False
               | Datatypes.S n' => at_most src plen n' s'
               end.

(** The call failed because a page could not be read. *)
Definition read_failed (t : entry) : Prop := snd (fst t) = Exn E_cannot_read_page.
