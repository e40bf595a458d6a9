From Coq Require Import Sorted.
From Verif Require Import Base Lemmas Types Buffer Page Column Header Metadata Decomp Data
  Reader Drive SpecDecomp SpecReader SpecDrive ProofReader.
Local Open Scope N_scope.

Lemma after_app : forall A (k : sink A) u v a, after k a (u ++ v) = after k (after k a u) v.
Proof. induction u as [|e u IH]; intros v a; [reflexivity|]. apply IH. Qed.

Lemma accepts_app : forall A (k : sink A) u v a,
  accepts k a (u ++ v) <-> accepts k a u /\ accepts k (after k a u) v.
Proof.
  induction u as [|e u IH]; intros v a; cbn [app accepts after]; [tauto|].
  rewrite IH. tauto.
Qed.

(** read_row. *)
Lemma drive_row_spec : forall S A c (src : source S) (k : sink A) r a x r' a' ev,
  drive_row c src k r a = (x, r', a', ev) ->
  a' = after k a ev /\
  exists x0, read_row c src r = (x0, r', ev) /\
  ((accepts k a ev /\ x = x0)
   \/ exists e, ev = [e] /\ is_props e = false /\ refuses k a [] e (fst (k e a))
      /\ same_failure (fst (k e a)) x
      /\ x0 = Ok (is_row e)).
Proof.
  intros S A c src k r a x r' a' ev H. unfold drive_row, read_row in *.
  destruct (read_line c src (rs_h r) (rs_md r) (rs_d r)) as [y d'] eqn:E. cbn zeta in *.
  destruct y as [[p|]|ex| |u|].
  - destruct (k (EvRow (ds_row (rs_d r)) p) a) as [y a1] eqn:K.
    injection H as <- <- <- <-. cbn [after]. rewrite K. split; [reflexivity|].
    exists (Ok true). split; [reflexivity|].
    destruct y as [[]|ex| |u|]; [left; cbn [accepts]; rewrite K; cbn; tauto| | | |];
      right; eexists; (split; [reflexivity|]); unfold refuses; rewrite K; cbn;
      rewrite ?K; cbn; repeat split; try discriminate; auto.
  - destruct (k EvEnd a) as [y a1] eqn:K.
    injection H as <- <- <- <-. cbn [after]. rewrite K. split; [reflexivity|].
    exists (Ok false). split; [reflexivity|].
    destruct y as [[]|ex| |u|]; [left; cbn [accepts]; rewrite K; cbn; tauto| | | |];
      right; eexists; (split; [reflexivity|]); unfold refuses; rewrite K; cbn;
      rewrite ?K; cbn; repeat split; try discriminate; auto.
  - injection H as <- <- <- <-. cbn. split; [reflexivity|]. eexists. split; [reflexivity|].
    left. auto.
  - injection H as <- <- <- <-. cbn. split; [reflexivity|]. eexists. split; [reflexivity|].
    left. auto.
  - injection H as <- <- <- <-. cbn. split; [reflexivity|]. eexists. split; [reflexivity|].
    left. auto.
  - injection H as <- <- <- <-. cbn. split; [reflexivity|]. eexists. split; [reflexivity|].
    left. auto.
Qed.

(** How a call ends: as without failures, or at the call the sink refuses. *)
Definition ends {S A B} (c : cfg) (src : source S) (k : sink A) (r : rstate S) (a : A)
    (fin : B)
    (x : res B) (r' : rstate S) (ev : list event) (x0 : res B) (r0 : rstate S)
    (ev0 : list event) : Prop :=
  (accepts k a ev /\ x = x0 /\ r' = r0 /\ ev = ev0)
  \/ exists before e rest y, ev = before ++ [e] /\ ev0 = ev ++ rest
     /\ refuses k a before e y /\ same_failure y x
     /\ ((e = EvEnd /\ rest = [] /\ r' = r0 /\ x0 = Ok fin)
         \/ (is_row e = true /\ read_rows c src (length ev) r = (Ok true, r', ev))).

Lemma read_row_1 : forall S c (src : source S) r x r' ev, read_row c src r = (x, r', ev) ->
  x = Ok true -> exists i p, ev = [EvRow i p].
Proof.
  intros S c src r x r' ev H E. subst x. unfold read_row in H.
  destruct (read_line _ _ _ _ _) as [[[p|]|ex| |u|] d']; cbn zeta in H;
    try discriminate. injection H as _ <-. eauto.
Qed.

Lemma drive_rows_spec : forall S A c (src : source S) (k : sink A) n r a x r' a' ev,
  drive_rows c src k n r a = (x, r', a', ev) ->
  a' = after k a ev /\
  let '(x0, r0, ev0) := read_rows c src n r in ends c src k r a false x r' ev x0 r0 ev0.
Proof.
  intros S A c src k. induction n as [|n IH]; intros r a x r' a' ev H.
  - cbn in *. injection H as <- <- <- <-. split; [reflexivity|]. left. cbn. auto.
  - cbn [drive_rows read_rows] in *.
    destruct (drive_row c src k r a) as [[[x1 r1] a1] ev1] eqn:D.
    destruct (drive_row_spec _ _ _ _ _ _ _ _ _ _ _ D) as [-> [x0 [R C]]].
    rewrite R.
    destruct C as [[C1 ->]|[e [-> [C1 [C2 [C3 ->]]]]]].
    + destruct x0 as [[]|ex| |u|];
        try (injection H as <- <- <- <-; split; [reflexivity|]; left; auto; fail).
      destruct (drive_rows c src k n r1 (after k a ev1)) as [[[y r2] a2] ev2] eqn:D2.
      injection H as <- <- <- <-.
      destruct (IH _ _ _ _ _ _ D2) as [-> E].
      rewrite after_app. split; [reflexivity|].
      destruct (read_rows c src n r1) as [[x3 r3] ev3] eqn:RR.
      destruct E as [[E1 [-> [-> ->]]]|[before [e [rest [z [E1 [E2 [[E3 E3'] [E4 E5]]]]]]]]].
      * left. rewrite accepts_app. auto.
      * right. exists (ev1 ++ before), e, rest, z.
        split; [rewrite E1, app_assoc; reflexivity|].
        split; [rewrite E2, app_assoc; reflexivity|].
        split; [unfold refuses; rewrite accepts_app, after_app; auto|].
        split; [exact E4|].
        destruct E5 as [E5|[E5 E6]]; [left; exact E5|right]. split; [exact E5|].
        destruct (read_row_1 _ _ _ _ _ _ _ R eq_refl) as [i [p ->]].
        cbn [app length read_rows]. rewrite R, E6. reflexivity.
    + assert (X : (x, r', a', ev) = (x1, r1, after k a [e], [e])).
      { destruct x1 as [[]|ex| |u|]; try (symmetry; exact H).
        destruct (fst (k e a)); cbn in C3; tauto. }
      injection X as -> -> -> ->. split; [reflexivity|].
      destruct e as [h md|i p|]; [discriminate| |]; cbn [is_row].
      * destruct (read_rows c src n r1) as [[x3 r3] ev3] eqn:RR. right.
        exists [], (EvRow i p), ev3, (fst (k (EvRow i p) a)).
        split; [reflexivity|]. split; [reflexivity|]. split; [exact C2|].
        split; [exact C3|]. right. split; [reflexivity|].
        cbn [length read_rows]. rewrite R. reflexivity.
      * right. exists [], EvEnd, [], (fst (k EvEnd a)).
        split; [reflexivity|]. split; [reflexivity|]. split; [exact C2|].
        split; [exact C3|]. left. repeat split; eauto.
Qed.

Lemma same_rmap : forall A B C (f : B -> C) (y : res A) (x : res B),
  same_failure y x -> same_failure y (rmap f x).
Proof. intros A B C f [?|?| |?|] [?|?| |?|] H; cbn in *; auto. Qed.

Lemma ends_map : forall S A B C c (src : source S) (k : sink A) r a (f : B -> C) fin x r' ev
    x0 r0 ev0,
  ends c src k r a fin x r' ev x0 r0 ev0 ->
  ends c src k r a (f fin) (rmap f x) r' ev (rmap f x0) r0 ev0.
Proof.
  intros S A B C c src k r a f fin x r' ev x0 r0 ev0 [[H1 [-> [-> ->]]]|H]; [left; auto|right].
  destruct H as [before [e [rest [y [E1 [E2 [E3 [E4 E5]]]]]]]].
  exists before, e, rest, y. split; [exact E1|]. split; [exact E2|]. split; [exact E3|].
  split; [apply same_rmap; assumption|].
  destruct E5 as [[? [? [? ->]]]|E5]; [left|right; exact E5]. auto.
Qed.

Lemma drive_all_loop_rows : forall S A c (src : source S) (k : sink A) n r a,
  drive_all_loop c src k n r a
  = let '(x, r', a', ev) := drive_rows c src k n r a in (all_of_rows x, r', a', ev).
Proof.
  intros S A c src k. induction n as [|n IH]; intros r a; cbn; [reflexivity|].
  destruct (drive_row c src k r a) as [[[x1 r1] a1] ev1].
  destruct x1 as [[]|ex| |u|]; try reflexivity.
  rewrite IH. destruct (drive_rows c src k n r1 a1) as [[[y r2] a2] ev2]. reflexivity.
Qed.

Lemma same_ok : forall A B (y : res A) (b : B), same_failure y (Ok b) -> False.
Proof. intros A B [] b; cbn; auto. Qed.

Lemma drive_all_spec : forall S A c (src : source S) (k : sink A) r a x r' a' ev,
  drive_all c src k r a = (x, r', a', ev) ->
  a' = after k a ev /\
  let '(x0, r0, ev0) := read_all c src r in ends c src k r a tt x r' ev x0 r0 ev0.
Proof.
  intros S A c src k r a x r' a' ev H. unfold drive_all, read_all in *.
  set (n := Datatypes.S _) in *. clearbody n.
  rewrite drive_all_loop_rows in H. rewrite read_all_loop_rows.
  destruct (drive_rows c src k n r a) as [[[x1 r1] a1] ev1] eqn:D.
  injection H as <- <- <- <-.
  destruct (drive_rows_spec _ _ _ _ _ _ _ _ _ _ _ _ D) as [-> E]. split; [reflexivity|].
  destruct (read_rows c src n r) as [[x0 r0] ev0].
  destruct E as [[E1 [-> [-> ->]]]|[before [e [rest [y [E1 [E2 [E3 [E4 E5]]]]]]]]].
  - left. auto.
  - right. exists before, e, rest, y. split; [exact E1|]. split; [exact E2|].
    split; [exact E3|]. split.
    + destruct x1 as [[]|ex| |u|]; auto; apply same_ok in E4; tauto.
    + destruct E5 as [[-> [-> [-> ->]]]|E5]; [left|right; exact E5]. auto.
Qed.

Lemma drive_skip_spec : forall S A c (src : source S) (k : sink A) n r a x r' a' ev,
  drive_skip c src k n r a = (x, r', a', ev) ->
  a' = after k a ev /\
  let '(x0, r0, ev0) := skip c src n r in ends c src k r a false x r' ev x0 r0 ev0.
Proof.
  intros S A c src k n r a x r' a' ev H. unfold drive_skip, skip in *.
  destruct (data_skip c src (rs_h r) (rs_md r) (N.to_nat n) (rs_d r)) as [y d'].
  cbn zeta in *.
  destruct y as [[]|ex| |u|];
    try (injection H as <- <- <- <-; split; [reflexivity|]; left; cbn; auto; fail).
  destruct (k EvEnd a) as [z a1] eqn:K. injection H as <- <- <- <-.
  cbn [after]. rewrite K. split; [reflexivity|].
  destruct z as [[]|ex| |u|]; [left; cbn [accepts]; rewrite K; cbn; tauto| | | |];
    right; exists [], EvEnd, []; eexists; (split; [reflexivity|]); (split; [reflexivity|]);
    (split; [unfold refuses; cbn; rewrite K; split; [auto|split; [reflexivity|discriminate]]|]);
    (split; [cbn; auto|]); left; auto.
Qed.

(** What a call returns when it reports the end. *)
Definition final (o : op) : out :=
  match o with
  | OpReadRow | OpReadRows _ | OpSkip _ => OBool false
  | OpReadAll | OpEnd => OUnit
  | OpNoSink => OPtr None
  end.

Lemma drive_step_spec : forall S A c (src : source S) (k : sink A) o r a x r' a' ev,
  drive_step c src k o r a = (x, r', a', ev) ->
  a' = after k a ev /\
  let '(x0, r0, ev0) := step c src o r in ends c src k r a (final o) x r' ev x0 r0 ev0.
Proof.
  intros S A c src k o r a x r' a' ev H. destruct o; cbn [drive_step step] in *.
  - destruct (drive_row c src k r a) as [[[x1 r1] a1] ev1] eqn:D.
    injection H as <- <- <- <-.
    destruct (drive_row_spec _ _ _ _ _ _ _ _ _ _ _ D) as [-> [x0 [R C]]].
    split; [reflexivity|]. rewrite R. apply (ends_map _ _ _ _ _ _ _ _ _ OBool false).
    destruct C as [[C1 ->]|[e [-> [C1 [C2 [C3 ->]]]]]]; [left; auto|right].
    exists [], e, [], (fst (k e a)). repeat (split; [reflexivity || assumption|]).
    destruct e as [h md|i p|]; [discriminate|right|left; auto].
    split; [reflexivity|]. cbn [length read_rows]. rewrite R. reflexivity.
  - destruct (drive_rows c src k (N.to_nat n) r a) as [[[x1 r1] a1] ev1] eqn:D.
    injection H as <- <- <- <-.
    destruct (drive_rows_spec _ _ _ _ _ _ _ _ _ _ _ _ D) as [-> E].
    split; [reflexivity|]. destruct (read_rows c src (N.to_nat n) r) as [[x0 r0] ev0].
    apply (ends_map _ _ _ _ _ _ _ _ _ OBool false). exact E.
  - destruct (drive_all c src k r a) as [[[x1 r1] a1] ev1] eqn:D.
    injection H as <- <- <- <-.
    destruct (drive_all_spec _ _ _ _ _ _ _ _ _ _ _ D) as [-> E].
    split; [reflexivity|]. destruct (read_all c src r) as [[x0 r0] ev0].
    apply (ends_map _ _ _ _ _ _ _ _ _ (fun _ => OUnit) tt). exact E.
  - destruct (drive_skip c src k n r a) as [[[x1 r1] a1] ev1] eqn:D.
    injection H as <- <- <- <-.
    destruct (drive_skip_spec _ _ _ _ _ _ _ _ _ _ _ _ D) as [-> E].
    split; [reflexivity|]. destruct (skip c src n r) as [[x0 r0] ev0].
    apply (ends_map _ _ _ _ _ _ _ _ _ OBool false). exact E.
  - destruct (read_row_no_sink c src r) as [x1 r1]. injection H as <- <- <- <-.
    split; [reflexivity|]. left. cbn. auto.
  - unfold drive_end in H. destruct (k EvEnd a) as [y a1] eqn:K. injection H as <- <- <- <-.
    cbn [after]. rewrite K. split; [reflexivity|].
    destruct y as [[]|ex| |u|]; [left; cbn [accepts]; rewrite K; cbn; tauto| | | |];
      right; exists [], EvEnd, []; eexists; (split; [reflexivity|]); (split; [reflexivity|]);
      (split; [unfold refuses; cbn; rewrite K; split; [auto|split; [reflexivity|discriminate]]|]);
      (split; [cbn; auto|]); left; auto.
Qed.

(** The statement used by the properties. *)
Lemma drive_call : forall S A c (src : source S) (k : sink A) o r a x r' a' ev x0 r0 ev0,
  drive_step c src k o r a = (x, r', a', ev) -> step c src o r = (x0, r0, ev0) ->
  a' = after k a ev /\
  ((accepts k a ev /\ x = x0 /\ r' = r0 /\ ev = ev0)
   \/ exists before e rest y, ev = before ++ [e] /\ ev0 = ev ++ rest
      /\ refuses k a before e y /\ same_failure y x
      /\ ((e = EvEnd /\ rest = [] /\ r' = r0)
          \/ (is_row e = true /\ read_rows c src (length ev) r = (Ok true, r', ev)))).
Proof.
  intros S A c src k o r a x r' a' ev x0 r0 ev0 D R.
  destruct (drive_step_spec _ _ _ _ _ _ _ _ _ _ _ _ D) as [E1 E2]. split; [exact E1|].
  rewrite R in E2. destruct E2 as [E2|[before [e [rest [y [F1 [F2 [F3 [F4 F5]]]]]]]]];
    [left; exact E2|right].
  exists before, e, rest, y. repeat (split; [assumption|]). tauto.
Qed.

Lemma quiet_accepts : forall A (k : sink A) evs a, quiet k -> accepts k a evs.
Proof. induction evs as [|e evs IH]; intros a Q; cbn; auto. Qed.

Lemma quiet_step : forall S A c (src : source S) (k : sink A) o r a, quiet k ->
  drive_step c src k o r a
  = let '(x, r', ev) := step c src o r in (x, r', after k a ev, ev).
Proof.
  intros S A c src k o r a Q.
  destruct (drive_step c src k o r a) as [[[x r'] a'] ev] eqn:D.
  destruct (step c src o r) as [[x0 r0] ev0] eqn:R.
  destruct (drive_call _ _ _ _ _ _ _ _ _ _ _ _ _ _ _ D R) as [-> [[_ [-> [-> ->]]]|H]];
    [reflexivity|].
  destruct H as [before [e [rest [y [_ [_ [[_ [H1 H2]] _]]]]]]].
  exfalso. apply H2. rewrite <- H1. apply Q.
Qed.

Lemma quiet_history : forall S A c (src : source S) (k : sink A) ops r a t r', quiet k ->
  trace c src ops (Some r) = (t, Some r') ->
  drive c src k ops r a = (t, r', after k a (calls_made t)).
Proof.
  intros S A c src k. induction ops as [|o ops IH]; intros r a t r' Q H; cbn in *.
  - injection H as <- <-. reflexivity.
  - rewrite quiet_step by assumption.
    destruct (step c src o r) as [[x r1] ev] eqn:R.
    destruct x as [b|ex| |u|].
    + destruct (trace c src ops (Some r1)) as [t2 r2] eqn:T. injection H as <- ->.
      rewrite (IH r1 (after k a ev) t2 r' Q T). cbn. rewrite after_app. reflexivity.
    + destruct (trace c src ops (Some r1)) as [t2 r2] eqn:T. injection H as <- ->.
      rewrite (IH r1 (after k a ev) t2 r' Q T). cbn. rewrite after_app. reflexivity.
    + injection H as <- <-. cbn. rewrite app_nil_r. reflexivity.
    + injection H as <- <-. cbn. rewrite app_nil_r. reflexivity.
    + injection H as <- <-. cbn. rewrite app_nil_r. reflexivity.
Qed.

Lemma trace_some : forall S c (src : source S) ops r, exists t r',
  trace c src ops (Some r) = (t, Some r').
Proof.
  intros S c src. induction ops as [|o ops IH]; intros r; cbn; [eauto|].
  destruct (step c src o r) as [[x r1] ev].
  destruct (IH r1) as [t [r' E]].
  destruct x; rewrite ?E; eauto.
Qed.

Lemma drive_trace : forall S A c (src : source S) (k : sink A) ops r a t r' a',
  drive c src k ops r a = (t, r', a') ->
  a' = after k a (calls_made t) /\
  exists ops' t', trace c src ops' (Some r) = (t', Some r') /\ map snd t' = map snd t.
Proof.
  intros S A c src k. induction ops as [|o ops IH]; intros r a t r' a' H; cbn [drive] in H.
  - injection H as <- <- <-. split; [reflexivity|]. exists [], []. auto.
  - destruct (drive_step c src k o r a) as [[[x r1] a1] ev] eqn:D.
    destruct (step c src o r) as [[x0 r0] ev0] eqn:R.
    assert (Sim : exists o' y, step c src o' r = (y, r1, ev)
              /\ (defined x = true -> defined y = true)).
    { destruct (drive_step_spec _ _ _ _ _ _ _ _ _ _ _ _ D) as [_ E]. rewrite R in E.
      destruct E as [[_ [-> [-> ->]]]|[before [e [rest [y [F1 [F2 [F3 [F4 F5]]]]]]]]].
      - exists o, x0. rewrite R. auto.
      - destruct F5 as [[-> [-> [-> ->]]]|[F5 F6]].
        + exists o, (Ok (final o)). rewrite R, F2, app_nil_r. auto.
        + exists (OpReadRows (N.of_nat (length ev))), (Ok (OBool true)).
          cbn [step]. rewrite Nnat.Nat2N.id, F6. auto. }
    destruct Sim as [o' [y [S1 S2]]].
    assert (A1 : a1 = after k a ev)
      by (apply (drive_call _ _ _ _ _ _ _ _ _ _ _ _ _ _ _ D R)).
    assert (Go : forall t2 r2 a2, drive c src k ops r1 a1 = (t2, r2, a2) -> defined x = true ->
       a2 = after k a (calls_made ((o, x, ev) :: t2)) /\
       exists ops' t', trace c src ops' (Some r) = (t', Some r2)
         /\ map snd t' = map snd ((o, x, ev) :: t2)).
    { intros t2 r2 a2 D2 X. destruct (IH _ _ _ _ _ D2) as [-> [ops' [t' [T1 T2]]]].
      split; [unfold calls_made, all_events; cbn [flat_map snd]; rewrite after_app, A1; reflexivity|].
      exists (o' :: ops'), ((o', y, ev) :: t'). cbn [trace reader_step]. rewrite S1.
      specialize (S2 X). destruct y; try discriminate; rewrite T1; cbn; rewrite T2; auto. }
    assert (Stop : defined x = false -> (t, r', a') = ([(o, x, ev)], r1, a1) ->
       a' = after k a (calls_made t) /\
       exists ops' t', trace c src ops' (Some r) = (t', Some r') /\ map snd t' = map snd t).
    { intros _ E. injection E as -> -> ->. cbn. rewrite app_nil_r. split; [exact A1|].
      exists [o'], [(o', y, ev)]. cbn [trace reader_step]. rewrite S1.
      destruct y; auto. }
    destruct x as [b|ex| |u|]; try (apply Stop; [reflexivity|symmetry; exact H]);
      destruct (drive c src k ops r1 a1) as [[t2 r2] a2] eqn:D2; injection H as <- <- <-;
      apply Go; reflexivity.
Qed.

(** ** Indices *)

Lemma from_bounds : forall k i, Forall (fun j => i <= j < i + N.of_nat k) (from i k).
Proof.
  induction k as [|k IH]; intros i; cbn [from]; constructor; [lia|].
  eapply Forall_impl; [|apply IH]. cbn. intros j H. lia.
Qed.

Lemma from_sorted : forall k i, StronglySorted N.lt (from i k).
Proof.
  induction k as [|k IH]; intros i; cbn [from]; constructor; [apply IH|].
  eapply Forall_impl; [|apply from_bounds]. cbn. intros j H. lia.
Qed.

Lemma sorted_app : forall (u v : list N) m, StronglySorted N.lt u -> StronglySorted N.lt v ->
  Forall (fun j => j < m) u -> Forall (fun j => m <= j) v -> StronglySorted N.lt (u ++ v).
Proof.
  induction u as [|x u IH]; intros v m U V FU FV; [exact V|].
  inversion U; subst. inversion FU; subst. cbn. constructor.
  - eapply IH; eassumption.
  - apply Forall_app. split; [assumption|].
    eapply Forall_impl; [|exact FV]. cbn. intros j Hj. lia.
Qed.

Lemma consumes_bounds : forall i x j, consumes i x j ->
  i <= j /\ exists n, indices (snd x) = from i n /\ i + N.of_nat n <= j.
Proof.
  intros i [[o x] ev] j [n [E H]]. cbn in *.
  assert (i + N.of_nat n <= j).
  { destruct o, x as [[[]| |[]]|ex| |u|]; cbn in H; try lia; try tauto. }
  split; [lia|]. exists n. auto.
Qed.

Lemma numbered_sorted : forall t i j, numbered i t j ->
  i <= j /\ StronglySorted N.lt (indices (all_events t))
  /\ Forall (fun x => i <= x < j) (indices (all_events t)).
Proof.
  induction t as [|x t IH]; intros i j H; cbn [numbered] in H.
  - subst. split; [lia|]. split; constructor.
  - destruct H as [m [C N]]. destruct (IH _ _ N) as [L [P1 P2]].
    destruct (consumes_bounds _ _ _ C) as [L2 [n [E L3]]].
    change (all_events (x :: t)) with (snd x ++ all_events t).
    rewrite indices_app, E. split; [lia|]. split.
    + apply (sorted_app _ _ m); [apply from_sorted|exact P1| |].
      * eapply Forall_impl; [|apply from_bounds]. cbn. intros y H. lia.
      * eapply Forall_impl; [|exact P2]. cbn. intros y H. lia.
    + apply Forall_app. split.
      * eapply Forall_impl; [|apply from_bounds]. cbn. intros y H. lia.
      * eapply Forall_impl; [|exact P2]. cbn. intros y H. lia.
Qed.

Lemma events_of_map : forall (t t' : list entry), map snd t' = map snd t ->
  all_events t' = all_events t.
Proof. intros t t' H. unfold all_events. rewrite !flat_map_concat_map, H. reflexivity. Qed.

Lemma drive_increasing : forall S A c (src : source S) flt s (k : sink A) r0 a ops t r a',
  max_alloc c < row_limit -> opened c src flt s r0 ->
  drive c src k ops r0 a = (t, r, a') ->
  StronglySorted N.lt (indices (calls_made t))
  /\ Forall (fun i => i < current_row_index (Some r)) (indices (calls_made t))
  /\ current_row_index (Some r) <= md_row_count (rs_md r0).
Proof.
  intros S A c src flt s k r0 a ops t r a' M O D.
  destruct (drive_trace _ _ _ _ _ _ _ _ _ _ _ D) as [_ [ops' [t' [T1 T2]]]].
  pose proof (history_numbered _ _ _ _ _ _ _ _ _ M O T1) as N.
  destruct (history_bounded _ _ _ _ _ _ _ _ _ M O T1) as [B _].
  destruct (numbered_sorted _ _ _ N) as [_ [P1 P2]].
  rewrite (events_of_map _ _ T2) in P1, P2. split; [exact P1|]. split; [|exact B].
  eapply Forall_impl; [|exact P2]. cbn. intros i H. lia.
Qed.

(** The row which the sink refuses is consumed: the reader stands behind it. *)
Lemma refused_consumed : forall S A c (src : source S) (k : sink A) flt s o r a x r' a' before i p y,
  max_alloc c < row_limit -> reachable c src flt s r ->
  drive_step c src k o r a = (x, r', a', before ++ [EvRow i p]) ->
  refuses k a before (EvRow i p) y -> current_row_index (Some r') = i + 1 /\ same_failure y x.
Proof.
  intros S A c src k flt s o r a x r' a' before i p y M R D (RA & RB & RC).
  destruct (step c src o r) as [[x0 r0] ev0] eqn:ST.
  destruct (drive_call _ _ _ _ _ _ _ _ _ _ _ _ _ _ _ D ST) as [_ [(AC & _)|K]].
  - rewrite accepts_app in AC. cbn [accepts] in AC. destruct AC as (_ & AC & _). congruence.
  - destruct K as (bf & e & rest & y' & EV & _ & (_ & RF & _) & SF & C).
    apply app_inj_tail in EV. destruct EV as [<- <-]. rewrite RB in RF. subst y'. split; [|exact SF].
    destruct C as [(C & _)|(_ & RR)]; [discriminate|].
    pose proof (reachable_wf _ _ _ _ _ _ M R) as W.
    destruct (read_rows_props _ _ _ _ _ _ _ _ W RR) as (_ & _ & _ & n & rows & _ & IX & LR & N & AT & EV).
    subst rows. cbn [current_row_index]. unfold at_row in AT. rewrite AT.
    assert (E : indices (before ++ [EvRow i p]) = indices before ++ [i]) by (rewrite indices_app; reflexivity).
    rewrite E in IX.
    assert (L : forall l m j, l ++ [i] = from j m -> i = j + N.of_nat m - 1 /\ (0 < m)%nat).
    { induction l as [|a0 l IH]; intros [|m] j H; try discriminate.
      - cbn in H. injection H as <- H. destruct m; [split; lia|discriminate].
      - cbn in H. injection H as _ H. apply IH in H. split; lia. }
    destruct (L _ _ _ IX) as [L1 L2]. unfold at_row in L1. lia.
Qed.
