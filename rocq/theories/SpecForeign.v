(** Pages of a type which the library does not know. *)
From Verif Require Import Base Types Buffer Reader SpecPages.
Local Open Scope N_scope.

(** Not the type of a page of descriptions (0 and 1024), of rows (256) or of both (512 and 640). *)
Definition foreign (ly : layout) (pg : bytes) : Prop :=
  ~ In (page_type ly pg) [0; 256; 512; 640; 1024].

(** [l'] is [l] with [n] foreign pages put in, anywhere. *)
Inductive mixed_in (ly : layout) : nat -> list bytes -> list bytes -> Prop :=
| mixed_nil : mixed_in ly 0 [] []
| mixed_page : forall n pg l l', mixed_in ly n l l' -> mixed_in ly n (pg :: l) (pg :: l')
| mixed_foreign : forall n pg l l', lenN pg = ly_page_length ly -> foreign ly pg ->
    mixed_in ly n l l' -> mixed_in ly (S n) l (pg :: l').

(** The bound on the number of pages, a parameter of the model, raised by [n]. *)
Definition more_fuel (n : nat) (c : cfg) : cfg := Cfg (ndebug c) (max_alloc c) (page_fuel c + n).
