(** What a sink object of Python holds when a second file was read with it. *)
From Verif Require Import Base Types Buffer Header Column Metadata Reader Drive Sinks
  Callbacks PyObjects Python PyAgain.
Local Open Scope N_scope.

(** The rows of [f], then those of [g], under the names of [g]. *)
Definition stacked (f g : frame) : frame :=
  combine (map fst g) (map (fun x => fst x ++ snd x) (combine (map snd f) (map snd g))).

(** What a program gets from these calls of its Reader, one after the other. *)
Fixpoint answers {S} (c : cfg) (src : source S) (cls : py_class) (ops : list op) (p : program S)
  : list (res out) * program S :=
  match ops with
  | [] => ([], p)
  | o :: ops' =>
      let '(x, p1) := py_do c src cls o p in
      let '(l, p2) := answers c src cls ops' p1 in (x :: l, p2)
  end.
