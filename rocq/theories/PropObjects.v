(** The Reader objects of a C++ program (C109, C110). *)
From Verif Require Import Base Types Buffer Header Column Metadata Data Reader Drive Objects
  SpecFile SpecObjects Samples ProofObjects.
Local Open Scope N_scope.

(** ** C109: Readers can be moved *)

(** In every program whose Readers own their sinks, however the Readers are made, moved to
    new variables, assigned to others, emptied and destroyed: each statement gives what the
    histories say, in which a Reader is what it was made of and the calls which reached it,
    and each sink has been told what a Reader left in its place, with the same calls, tells
    it. *)
Theorem C109_histories : forall S A c (src : source S) (k : sink A) p,
  Forall owning p ->
  let '(xs, w) := exec_all c src k p no_objects in
  let '(ys, t) := tell_all c src k p nothing_yet in
  xs = ys /\
  forall n b calls, nth_error (t_lives t) n = Some (b, calls) -> mine n (w_log w) = heard c src k b calls.
Proof. exact objects_are_histories. Qed.
Print Assumptions C109_histories.

(** A Reader handed on to any number of new variables before each call: the calls give what
    they give without the moves. *)
Theorem C109_handed_on : forall S A c (src : source S) (k : sink A) a flt s r a' ev l,
  drive_open c src k flt s a = (Ok r, a', ev) ->
  of_calls (fst (exec_all c src k (SNew (ByValue a) flt s :: relay 0 l) no_objects))
  = map (fun e => rmap VOut (snd (fst e))) (fst (fst (drive c src k (map snd l) r a'))).
Proof. exact handed_on. Qed.
Print Assumptions C109_handed_on.

(** Named sinks which live to the end are as good. *)
Theorem C109_named : forall S A c (src : source S) (k : sink A) p,
  Forall owning p ->
  let '(xs, w) := exec_all c src k p no_objects in
  let '(ys, w') := exec_all c src k (with_names 0 p) no_objects in
  ys = named_outcomes p xs /\ forall n, told_to n (w_log w') = mine n (w_log w).
Proof. exact named_sinks. Qed.
Print Assumptions C109_named.

(** A sink which counts what it is told. *)
Definition counting : sink N := fun ev n => (Ok tt, n + 1).

Definition sample_new (k : sink_arg N) : stmt fstate N := SNew k None (file_open sample_file).
Definition ran (p : list (stmt fstate N)) := exec_all sample_cfg file_source counting p no_objects.

(** A Reader keeps only a reference to a named sink: when the sink is gone, the Reader is
    still there and cannot be used. *)
Theorem C109_named_sink_refuted : exists p v,
  Forall (fun x => x = Ok VNone) (fst (ran p))
  /\ nth v (w_readers (snd (ran p))) None <> None
  /\ fst (exec sample_cfg file_source counting (SCall v OpReadRow) (snd (ran p))) = Undef UB_lifetime.
Proof.
  exists [SSink 0; sample_new (ByName 0); SSinkEnd 0], 0%nat. split; [|split].
  - vm_compute. repeat constructor.
  - vm_compute. discriminate.
  - vm_compute. reflexivity.
Qed.
Print Assumptions C109_named_sink_refuted.

(** Two Readers of the same file: the first is moved and read from, the second assigned to
    the variable it came from, and destroyed with it. *)
Definition juggled : list (stmt fstate N) :=
  [sample_new (ByValue 0); SCall 0 (OpReadRows 2); SMove 0; SCall 0 OpReadRow; sample_new (ByValue 5);
   SCall 1 OpReadRow; SIndex 1; SAssign 0 2; SCall 0 OpReadRow; SIndex 0; SIndex 2; SDestroy 0; SCall 1 OpReadRow].
Example C109_case :
  Forall owning juggled
  /\ fst (ran juggled)
     = [Ok VNone; Ok (VOut (OBool true)); Ok VNone; Ok (VOut (OBool false)); Ok VNone;
        Ok (VOut (OBool true)); Ok (VIndex 3); Ok VNone; Ok (VOut (OBool true)); Ok (VIndex 1); Ok (VIndex 0);
        Ok VNone; Ok (VOut (OBool true))]
  /\ length (mine 0 (w_log (snd (ran juggled)))) = 5%nat
  /\ length (mine 1 (w_log (snd (ran juggled)))) = 2%nat.
Proof. split; [repeat constructor|]. vm_compute. repeat split; reflexivity. Qed.

(** ** C110: a reference to the properties is good as long as its Reader *)

(** Once taken, a reference shows what the sink was told at the construction, as long as any
    variable has the Reader it came from, wherever that has been moved; and not longer. *)
Theorem C110_reference : forall S A c (src : source S) (k : sink A) p xs w r i,
  Forall owning p -> exec_all c src k p no_objects = (xs, w) ->
  nth_error (w_refs w) r = Some (RefImpl i) ->
  ((exists v, nth v (w_readers w) None = Some (Some i)) ->
     exists h md more, mine i (w_log w) = EvProps h md :: more
     /\ exec c src k (SLook r) w = (Ok (VProps h md), w))
  /\ (~ (exists v, nth v (w_readers w) None = Some (Some i)) ->
     exec c src k (SLook r) w = (Undef UB_lifetime, w)).
Proof. exact reference_shows. Qed.
Print Assumptions C110_reference.

(** It is not enough that the variable it was taken from is there and has a Reader. *)
Example C110_overwritten : exists p v r,
  Forall owning p
  /\ In (SProps v) p
  /\ Forall (fun x => x = Ok VNone) (fst (ran p))
  /\ (exists i, nth v (w_readers (snd (ran p))) None = Some (Some i))
  /\ fst (exec sample_cfg file_source counting (SLook r) (snd (ran p))) = Undef UB_lifetime.
Proof.
  exists [sample_new (ByValue 0); SProps 0; sample_new (ByValue 0); SAssign 0 1], 0%nat, 0%nat.
  split; [repeat constructor|]. split; [right; left; reflexivity|].
  split; [vm_compute; repeat constructor|].
  split; [exists 1%nat; vm_compute; reflexivity|vm_compute; reflexivity].
Qed.

(** The reference follows the Reader out of the variable. *)
Definition followed : list (stmt fstate N) :=
  [sample_new (ByValue 0); SProps 0; SMove 0; SDestroy 0; SCall 1 OpReadRow; SDefault; SAssign 2 1].
Example C110_case :
  Forall owning followed
  /\ nth_error (w_refs (snd (ran followed))) 0 = Some (RefImpl 0)
  /\ nth 2 (w_readers (snd (ran followed))) None = Some (Some 0%nat)
  /\ match fst (exec sample_cfg file_source counting (SLook 0) (snd (ran followed))) with
     | Ok (VProps h md) => md_row_count md = 6 | _ => False end.
Proof. split; [repeat constructor|]. vm_compute. repeat split; reflexivity. Qed.
