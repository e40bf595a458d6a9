(** The sink classes of the R package, when an R program calls their methods itself, with
    properties which have the shape they expect. *)
From Coq Require Import QArith.
From Verif Require Import Base Types Callbacks Sinks RPackage SpecTime.
Local Open Scope N_scope.

(** properties$metadata has the columns of these names, and these numbers of rows and
    columns. *)
Definition nested (p : rv) (names : list bytes) (n m : N) : Prop :=
  exists md l bn bm, r_dollar p (bs "metadata") = Ok md
    /\ r_dollar md (bs "columns") = Ok (RvList l) /\ map fst l = names
    /\ r_dollar md (bs "row_count") = Ok (RvNum bn) /\ double_value bn (inject_Z (Z.of_N n))
    /\ r_dollar md (bs "column_count") = Ok (RvNum bm) /\ double_value bm (inject_Z (Z.of_N m)).

(** A call of push_row: the number of the row and its list. *)
Definition given : Type := N * list (option rval).

Definition push_row (g : given) : rreq := RqRow [snd g] (fst g) 0.

(** The methods, one call after the other. *)
Fixpoint r_calls (o : robj r_object) (qs : list rreq) (a : r_object) : res unit * r_object :=
  match qs with
  | [] => (Ok tt, a)
  | q :: qs' => match o q a with (Ok tt, a') => r_calls o qs' a' | other => other end
  end.

(** The last element, other than NULL, which was given for column [j] of row [i]; NA
    without one. *)
Definition last_given (gs : list given) (i : N) (j : nat) : rval :=
  fold_left (fun y g => match nth_error (snd g) j with
                        | Some (Some x) => if fst g =? i then x else y
                        | _ => y
                        end) gs RNa.
