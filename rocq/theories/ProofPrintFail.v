From Verif Require Import Base Lemmas Types DateTime Column Header Metadata Reader Drive Sinks Callbacks
  SpecReader SpecDrive SpecSinks SpecNumber SpecCallbacks ProofDrive ProofTable.
Local Open Scope N_scope.

(** ** print: a row which cannot be printed *)

Lemma print_cells_spec : forall p cs out y out', print_cells cs p out = (y, out') ->
  (y = Ok tt /\ exists ts, Forall2 (fun c t => c_to_string c p = Ok t) cs ts
     /\ out' = out ++ concat (map (fun t => [x2c] ++ t) ts) ++ [x0a])
  \/ (exists cs1 c cs2 ts, cs = cs1 ++ c :: cs2 /\ Forall2 (fun c t => c_to_string c p = Ok t) cs1 ts
     /\ out' = out ++ concat (map (fun t => [x2c] ++ t) ts) /\ same_failure (c_to_string c p) y).
Proof.
  intros p. induction cs as [|c cs IH]; intros out y out' H.
  - injection H as <- <-. left. split; [reflexivity|]. exists []. split; [constructor|reflexivity].
  - cbn [print_cells] in H. destruct (c_to_string c p) as [t|e| |u|] eqn:T.
    + destruct (IH _ _ _ H) as [(Y & ts & F & O)|(cs1 & c1 & cs2 & ts & E & F & O & S)].
      * left. split; [exact Y|]. exists (t :: ts). split; [constructor; assumption|].
        rewrite O. cbn [map concat]. unfold comma. rewrite <- !app_assoc. reflexivity.
      * right. exists (c :: cs1), c1, cs2, (t :: ts). split; [rewrite E; reflexivity|].
        split; [constructor; assumption|]. split; [|exact S].
        rewrite O. cbn [map concat]. unfold comma. rewrite <- !app_assoc. reflexivity.
    + injection H as <- <-. right. exists [], c, cs, []. rewrite T, app_nil_r. repeat split. constructor.
    + injection H as <- <-. right. exists [], c, cs, []. rewrite T, app_nil_r. repeat split. constructor.
    + injection H as <- <-. right. exists [], c, cs, []. rewrite T, app_nil_r. repeat split. constructor.
    + injection H as <- <-. right. exists [], c, cs, []. rewrite T, app_nil_r. repeat split. constructor.
Qed.

Lemma print_row_written : forall props i p cs out y st, print_sink props (EvRow i p) (cs, out) = (y, st) ->
  (y = Ok tt /\ exists l, line_start i cs p l /\ st = (cs, out ++ l ++ [x0a]))
  \/ (exists cs1 c cs2 l, cs = cs1 ++ c :: cs2 /\ line_start i cs1 p l /\ st = (cs, out ++ l)
        /\ same_failure (c_to_string c p) y).
Proof.
  intros props i p cs out y st H. unfold print_sink in H.
  destruct (print_cells cs p (out ++ dec i)) as [y' out'] eqn:C. injection H as <- <-.
  destruct (print_cells_spec _ _ _ _ _ C) as [(Y & ts & F & O)|(cs1 & c1 & cs2 & ts & E & F & O & S)].
  - left. split; [exact Y|]. exists (dec i ++ concat (map (fun t => [x2c] ++ t) ts)). split.
    + exists (dec i), ts. split; [apply dec_short|]. split; [exact F|reflexivity].
    + rewrite O, <- !app_assoc. reflexivity.
  - right. exists cs1, c1, cs2, (dec i ++ concat (map (fun t => [x2c] ++ t) ts)). split; [exact E|]. split.
    + exists (dec i), ts. split; [apply dec_short|]. split; [exact F|reflexivity].
    + split; [|exact S]. rewrite O, <- !app_assoc. reflexivity.
Qed.
