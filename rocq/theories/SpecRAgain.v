(** What a sink object of R holds when a second file was read with it. *)
From Verif Require Import Base Types Buffer Header Column Metadata Reader Drive Sinks Callbacks RPackage.
Local Open Scope N_scope.

(** [h] has the rows of [f], then those of [g], under the names of [f]. *)
Definition r_below (f g h : rframe) : Prop :=
  map fst h = map fst f
  /\ map snd h = map (fun x => fst x ++ snd x) (combine (map snd f) (map snd g)).

(** What a program gets from these calls of its Reader, one after the other. *)
Fixpoint r_answers {S} (c : cfg) (src : source S) (mk : list bytes -> list bytes) (cls : r_class) (ops : list op)
    (p : r_program S) : list (res out) * r_program S :=
  match ops with
  | [] => ([], p)
  | o :: ops' =>
      let '(x, p1) := r_do c src mk cls o p in
      let '(l, p2) := r_answers c src mk cls ops' p1 in (x :: l, p2)
  end.
