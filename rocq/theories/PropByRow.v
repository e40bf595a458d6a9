(** C117: the sink classes of the R package, called by an R program. *)
From Coq Require Import QArith.
From Verif Require Import Base Types Callbacks Sinks RPackage SpecTime SpecByRow ProofByRow.
Local Open Scope N_scope.

(** SinkByRow, given properties of the shape it expects (which are not those of the C++
    part: C86) and then rows in any order, each any number of times: df has the columns in
    their order, as many rows as announced, and in each cell the last element which was
    given for it, NA if there was none. *)
Theorem C117_rows : forall mk p names n gs, nested p names n (lenN names) -> n < 2 ^ 31 -> lenN names < 2 ^ 31 ->
  Forall (fun g => fst g < n) gs ->
  exists f, r_calls (r_methods mk RSinkByRow) (RqProps p :: map push_row gs) r_new
            = (Ok tt, RObject p names (DfOwn f))
  /\ map fst f = names
  /\ forall j name col, nth_error f j = Some (name, col) ->
       lenN col = n /\ forall i, i < n -> nth_error col (N.to_nat i) = Some (Some (last_given gs i j)).
Proof. exact rows_kept. Qed.
Print Assumptions C117_rows.

(** The other classes keep the properties and the names of the columns, and leave df. *)
Theorem C117_columns : forall mk cls p names n m o, cls <> RSinkByRow -> nested p names n m ->
  r_methods mk cls (RqProps p) o = (Ok tt, RObject p names (rob_df o)).
Proof. exact columns_kept. Qed.
Print Assumptions C117_columns.

(** Three rows (the number 3.0) of two columns (2.0). *)
Definition nested_example : rv :=
  RvList [(bs "metadata", RvList [(bs "row_count", RvNum (1024 * 2 ^ 52 + 2 ^ 51)); (bs "column_count", RvNum (1024 * 2 ^ 52));
    (bs "columns", RvList [(bs "A", RvNull); (bs "B", RvNull)])])].

Example C117_nested : nested nested_example [bs "A"; bs "B"] 3 (lenN [bs "A"; bs "B"]).
Proof.
  eexists _, _, _, _. split; [vm_compute; reflexivity|]. split; [vm_compute; reflexivity|]. split; [reflexivity|].
  split; [vm_compute; reflexivity|]. split; [|split; [vm_compute; reflexivity|]].
  - exists 0, 1024, (2 ^ 51). split; [reflexivity|]. split; [reflexivity|]. split; [reflexivity|]. split; [reflexivity|].
    vm_compute. reflexivity.
  - exists 0, 1024, 0. split; [reflexivity|]. split; [reflexivity|]. split; [reflexivity|]. split; [reflexivity|].
    vm_compute. reflexivity.
Qed.

Example C117_case :
  rob_df (snd (r_calls (r_methods (fun l => l) RSinkByRow)
    (RqProps nested_example :: map push_row
       [(0, [Some (RInt 7); Some (RText (bs "x"))]); (2, [None; Some (RText (bs "y"))]); (0, [Some (RInt 8); None])]) r_new))
  = DfOwn [(bs "A", [Some (RInt 8); Some RNa; Some RNa]);
           (bs "B", [Some (RText (bs "x")); Some RNa; Some (RText (bs "y"))])].
Proof. vm_compute. reflexivity. Qed.

(** A row behind the announced ones makes the columns longer. *)
Example C117_grows :
  rob_df (snd (r_calls (r_methods (fun l => l) RSinkByRow)
    (RqProps nested_example :: map push_row [(4, [Some (RInt 7); Some (RInt 9)])]) r_new))
  = DfOwn [(bs "A", [Some RNa; Some RNa; Some RNa; Some RNa; Some (RInt 7)]);
              (bs "B", [Some RNa; Some RNa; Some RNa; Some RNa; Some (RInt 9)])].
Proof. vm_compute. reflexivity. Qed.
