(** Proofs about the reader and its rows. *)
From Verif Require Import Base Types Buffer Page Column Header Metadata Decomp Data Reader
  Lemmas SpecValues SpecDecomp ProofDecomp ProofMetaInv SpecReader SpecFile Samples.
From Coq Require Import ZifyBool ZifyNat ZifyN.
Local Open Scope N_scope.

(** ** The state of the data *)

Definition wf_d {S} (md : metadata) (d : dstate S) : Prop :=
  ds_row d <= md_row_count md /\ md_row_count md < W64 /\ dec_ok md (ds_dec d).

Definition ended {S} (md : metadata) (d : dstate S) : Prop :=
  ds_row d = md_row_count md \/ ds_page d = None.

Lemma data_next_props : forall S c (src : source S) h md d x d',
  data_next c src h md d = (x, d') ->
  ds_row d' = ds_row d /\ ds_dec d' = ds_dec d /\
  match x with
  | Ok true => ds_row d <> md_row_count md
  | Ok false => ended md d'
  | Exn _ => ds_page d' = None
  | _ => True
  end.
Proof.
  intros S c src h md d x d' H. unfold data_next in H.
  destruct (N.eqb_spec (ds_row d) (md_row_count md)) as [E|E].
  { injection H as <- <-. split; [reflexivity|]. split; [reflexivity|]. left. exact E. }
  destruct (ds_page d) as [pg|] eqn:P.
  2:{ injection H as <- <-. split; [reflexivity|]. split; [reflexivity|]. right. exact P. }
  destruct (page_next pg).
  2:{ injection H as <- <-. auto. }
  destruct (read_next_page _ _ _ _ _ _ _ _) as [[[pg'|]| | | |] p'];
    injection H as <- <-; cbn; auto.
  repeat split; auto. right. reflexivity.
Qed.

Lemma data_read_line_props : forall S (d : dstate S) x d',
  data_read_line d = (x, d') ->
  ds_dec d' = ds_dec d /\ (x <> Undef UB_oob_read -> ds_row d' = ds_row d +! 1)
  /\ (ds_row d' = ds_row d \/ ds_row d' = ds_row d +! 1)
  /\ (forall e, x <> Exn e) /\ x <> Abort /\ x <> Fuel.
Proof.
  intros S d x d' H. unfold data_read_line in H. destruct (ds_page d) as [pg|].
  - injection H as <- <-. cbn. unfold page_read_line.
    destruct (pg_kind pg); [destruct (nth_error _ _)|];
      repeat split; try discriminate; auto.
  - injection H as <- <-. repeat split; auto; try discriminate. congruence.
Qed.

Lemma row_inc : forall S (md : metadata) (d : dstate S), wf_d md d ->
  ds_row d <> md_row_count md ->
  ds_row d +! 1 = ds_row d + 1 /\ ds_row d + 1 <= md_row_count md.
Proof.
  intros S md d [H1 [H2 _]] N. rewrite add64_small by lia. lia.
Qed.

Lemma rle_buffer : forall n src d, row_buffer n d -> n < row_limit ->
  row_buffer n (snd (rle src d)).
Proof. intros. apply rle_refines; assumption. Qed.

Lemma rdc_buffer : forall n src d, row_buffer n d -> n < row_limit ->
  row_buffer n (snd (rdc src d)).
Proof. intros. apply rdc_refines; assumption. Qed.

Lemma extract_props : forall S c h md off len (d : dstate S) x d',
  dec_ok md (ds_dec d) ->
  extract_row_values c h md off len d = (x, d') ->
  ds_row d' = ds_row d /\ ds_p d' = ds_p d /\ ds_page d' = ds_page d
  /\ dec_ok md (ds_dec d')
  /\ match x with Exn e => e = E_cannot_decompress | _ => True end.
Proof.
  intros S c h md off len d x d' O H. unfold extract_row_values in H.
  unfold fmt_assert in H.
  destruct (if ndebug c then Ok tt else if off +! len <=? h_page_length h then Ok tt else Abort)
    as [[]| | | |] eqn:FA; try (injection H as <- <-; auto 6; fail).
  2:{ destruct (ndebug c); [discriminate|]. destruct (_ <=? _) in FA; discriminate. }
  destruct (len <? md_row_length md); [|injection H as <- <-; auto 6].
  destruct (ds_dec d) as [|dst|dst] eqn:D.
  - injection H as <- <-. rewrite D. auto 6.
  - destruct (read_cells_cases (mem (ps_buf (ds_p d))) off len) as [[v E]|[u E]];
      rewrite E in H; [|injection H as <- <-; rewrite D; auto 6].
    cbn [dec_ok] in O. destruct O as [O1 O2].
    pose proof (rdc_buffer _ v dst O1 O2) as B.
    pose proof (rdc_outcome _ dst v O1 O2) as Q.
    destruct (rdc v dst) as [r dst']. injection H as <- <-. cbn in *.
    repeat split; auto; try (destruct B; assumption).
    destruct r; cbn; auto.
  - destruct (read_cells_cases (mem (ps_buf (ds_p d))) off len) as [[v E]|[u E]];
      rewrite E in H; [|injection H as <- <-; rewrite D; auto 6].
    cbn [dec_ok] in O. destruct O as [O1 O2].
    pose proof (rle_buffer _ v dst O1 O2) as B.
    pose proof (rle_outcome _ dst v O1 O2) as Q.
    destruct (rle v dst) as [r dst']. injection H as <- <-. cbn in *.
    repeat split; auto; try (destruct B; assumption).
    destruct r; cbn; auto.
Qed.

(** ** One line *)

Lemma read_line_props : forall S c (src : source S) h md d x d',
  wf_d md d -> read_line c src h md d = (x, d') ->
  wf_d md d' /\
  match x with
  | Ok (Some _) => ds_row d' = ds_row d + 1
  | Ok None => ds_row d' = ds_row d /\ ended md d'
  | Exn e => (e = E_cannot_decompress /\ ds_row d' = ds_row d + 1)
             \/ (ds_row d' = ds_row d /\ ds_page d' = None)
  | _ => ds_row d <= ds_row d' <= ds_row d + 1
  end.
Proof.
  intros S c src h md d x d' W H. unfold read_line in H.
  destruct (data_next c src h md d) as [n d1] eqn:N.
  apply data_next_props in N. destruct N as [N1 [N2 N3]].
  assert (W1 : wf_d md d1) by (unfold wf_d in *; rewrite N1, N2; exact W).
  destruct n as [[|]| | | |].
  - destruct (data_read_line d1) as [r d2] eqn:R.
    pose proof (data_read_line_props _ _ _ _ R) as (R1 & R2 & R3 & R4 & R5 & R6).
    rewrite <- N1 in N3. destruct (row_inc _ md d1 W1 N3) as [I1 I2].
    assert (W2 : wf_d md d2).
    { unfold wf_d in *. rewrite R1. repeat split; try tauto. lia. }
    destruct r as [[off len]| | | |].
    + destruct (extract_row_values c h md off len d2) as [y d3] eqn:X.
      apply extract_props in X; [|apply W2].
      destruct X as (X1 & X2 & X3 & X4 & X5). injection H as <- <-.
      assert (RR : ds_row d3 = ds_row d + 1) by (rewrite X1, R2 by discriminate; lia).
      split; [unfold wf_d in *; rewrite RR; repeat split; try tauto; lia|].
      destruct y; cbn; try lia. left. auto.
    + exfalso. eapply R4. reflexivity.
    + congruence.
    + injection H as <- <-. split; [exact W2|]. lia.
    + congruence.
  - injection H as <- <-. auto.
  - injection H as <- <-. split; [exact W1|]. right. auto.
  - injection H as <- <-. split; [exact W1|]. lia.
  - injection H as <- <-. split; [exact W1|]. lia.
  - injection H as <- <-. split; [exact W1|]. lia.
Qed.

Lemma data_skip_props : forall S c (src : source S) h md n d x d',
  wf_d md d -> data_skip c src h md n d = (x, d') ->
  wf_d md d' /\
  match x with
  | Ok true => ds_row d' = ds_row d + N.of_nat n
  | Ok false => ds_row d <= ds_row d' < ds_row d + N.of_nat n /\ ended md d'
  | Exn _ => ds_row d <= ds_row d' < ds_row d + N.of_nat n /\ ds_page d' = None
  | _ => ds_row d <= ds_row d'
  end.
Proof.
  intros S c src h md n. induction n as [|n IH]; intros d x d' W H; cbn [data_skip] in H.
  - injection H as <- <-. split; [exact W|lia].
  - destruct (data_next c src h md d) as [m d1] eqn:N.
    apply data_next_props in N. destruct N as [N1 [N2 N3]].
    assert (W1 : wf_d md d1) by (unfold wf_d in *; rewrite N1, N2; exact W).
    destruct m as [[|]| | | |].
    + destruct (data_read_line d1) as [r d2] eqn:R.
      pose proof (data_read_line_props _ _ _ _ R) as (R1 & R2 & R3 & R4 & R5 & R6).
      rewrite <- N1 in N3. destruct (row_inc _ md d1 W1 N3) as [I1 I2].
      assert (W2 : wf_d md d2).
      { unfold wf_d in *. rewrite R1. repeat split; try tauto. lia. }
      destruct r as [p| | | |].
      * apply IH in H; [|exact W2]. destruct H as [H1 H2]. split; [exact H1|].
        assert (RR : ds_row d2 = ds_row d + 1) by (rewrite R2 by discriminate; lia).
        destruct x as [[|]| | | |]; try lia; (split; [lia|tauto]).
      * exfalso. eapply R4. reflexivity.
      * congruence.
      * injection H as <- <-. split; [exact W2|]. lia.
      * congruence.
    + injection H as <- <-. split; [exact W1|]. split; [lia|exact N3].
    + injection H as <- <-. split; [exact W1|]. split; [lia|exact N3].
    + injection H as <- <-. split; [exact W1|]. lia.
    + injection H as <- <-. split; [exact W1|]. lia.
    + injection H as <- <-. split; [exact W1|]. lia.
Qed.

(** ** The reader *)

Definition wf_r {S} (r : rstate S) : Prop := wf_d (rs_md r) (rs_d r).
Definition ended_r {S} (r : rstate S) : Prop := ended (rs_md r) (rs_d r).
Definition at_row {S} (r : rstate S) : N := ds_row (rs_d r).

(** What one read does, whatever is read. *)
Lemma read_row_props : forall S c (src : source S) r x r' ev,
  wf_r r -> read_row c src r = (x, r', ev) ->
  wf_r r' /\ rs_h r' = rs_h r /\ rs_md r' = rs_md r /\
  match x with
  | Ok true => at_row r' = at_row r + 1 /\ exists p, ev = [EvRow (at_row r) p]
  | Ok false => at_row r' = at_row r /\ ended_r r' /\ ev = [EvEnd]
  | Exn e => ev = [] /\ ((e = E_cannot_decompress /\ at_row r' = at_row r + 1)
                         \/ (at_row r' = at_row r /\ ended_r r'))
  | _ => ev = [] /\ at_row r <= at_row r' <= at_row r + 1
  end.
Proof.
  intros S c src r x r' ev W H. unfold read_row in H.
  destruct (read_line c src (rs_h r) (rs_md r) (rs_d r)) as [y d'] eqn:L.
  apply read_line_props in L; [|exact W]. destruct L as [W' L].
  destruct y as [[p|]| | | |]; injection H as <- <- <-; unfold wf_r, ended_r, at_row;
    cbn [rs_h rs_md rs_d];
    (split; [exact W'|split; [reflexivity|split; [reflexivity|]]]);
    try (split; [reflexivity|exact L]).
  - split; [exact L|]. exists p. reflexivity.
  - destruct L as [L1 L2]. auto.
  - split; [reflexivity|]. destruct L as [[L1 L2]|[L1 L2]]; [left; auto|right]. split; [exact L1|].
    right. exact L2.
Qed.

Lemma from_S : forall k i, from i (S k) = i :: from (i + 1) k.
Proof. reflexivity. Qed.

Lemma indices_app : forall a b, indices (a ++ b) = indices a ++ indices b.
Proof.
  intros. unfold indices, rows_of. rewrite flat_map_app, map_app. reflexivity.
Qed.

Lemma rows_of_app : forall a b, rows_of (a ++ b) = rows_of a ++ rows_of b.
Proof. intros. unfold rows_of. apply flat_map_app. Qed.

(** The events of a read: rows, then possibly the end. *)
Definition only_rows (ev : list event) : Prop := Forall (fun e => is_row e = true) ev.

Lemma read_rows_props : forall S c (src : source S) n r x r' ev,
  wf_r r -> read_rows c src n r = (x, r', ev) ->
  wf_r r' /\ rs_h r' = rs_h r /\ rs_md r' = rs_md r /\
  exists k rows, only_rows rows /\ indices rows = from (at_row r) k /\ length rows = k /\
  match x with
  | Ok true => k = n /\ at_row r' = at_row r + N.of_nat n /\ ev = rows
  | Ok false => (k < n)%nat /\ at_row r' = at_row r + N.of_nat k /\ ended_r r'
                /\ ev = rows ++ [EvEnd]
  | Exn e => (k < n)%nat /\ ev = rows
             /\ ((e = E_cannot_decompress /\ at_row r' = at_row r + N.of_nat k + 1)
                 \/ (at_row r' = at_row r + N.of_nat k /\ ended_r r'))
  | _ => (k < n)%nat /\ ev = rows
         /\ at_row r + N.of_nat k <= at_row r' <= at_row r + N.of_nat k + 1
  end.
Proof.
  intros S c src n. induction n as [|n IH]; intros r x r' ev W H; cbn [read_rows] in H.
  - injection H as <- <- <-. split; [exact W|]. split; [reflexivity|]. split; [reflexivity|].
    exists O, []. repeat split; auto; try constructor. lia.
  - destruct (read_row c src r) as [[y r1] ev1] eqn:R.
    apply read_row_props in R; [|exact W]. destruct R as (W1 & R1 & R2 & R3).
    destruct y as [[|]| | | |].
    + destruct (read_rows c src n r1) as [[z r2] ev2] eqn:RR.
      injection H as <- <- <-. apply IH in RR; [|exact W1].
      destruct RR as (W2 & A & B & k & rows & C & D & L & Q).
      destruct R3 as [R3 [p ->]].
      split; [exact W2|]. split; [congruence|]. split; [congruence|].
      exists (Datatypes.S k), (EvRow (at_row r) p :: rows).
      split; [constructor; [reflexivity|exact C]|].
      split; [change (EvRow (at_row r) p :: rows) with ([EvRow (at_row r) p] ++ rows);
              rewrite indices_app, D, R3; reflexivity|].
      split; [cbn; lia|].
      destruct z as [[|]| | | |]; cbn [app];
        repeat match goal with H : _ /\ _ |- _ => destruct H end; subst; repeat split;
        try reflexivity; try lia; auto.
      match goal with H : _ \/ _ |- _ => destruct H as [[? ?]|[? ?]] end;
        [left|right]; split; auto; lia.
    + injection H as <- <- <-. destruct R3 as (R3 & R4 & ->).
      split; [exact W1|]. split; [exact R1|]. split; [exact R2|].
      exists O, []. repeat split; auto; try lia; try apply Forall_nil.
    + injection H as <- <- <-. destruct R3 as (-> & R3).
      split; [exact W1|]. split; [exact R1|]. split; [exact R2|].
      exists O, []. repeat split; auto; try lia; try apply Forall_nil.
      destruct R3 as [[? ?]|[? ?]]; [left|right]; split; auto; lia.
    + injection H as <- <- <-. destruct R3 as (-> & R3).
      split; [exact W1|]. split; [exact R1|]. split; [exact R2|].
      exists O, []. repeat split; auto; try lia; try apply Forall_nil.
    + injection H as <- <- <-. destruct R3 as (-> & R3).
      split; [exact W1|]. split; [exact R1|]. split; [exact R2|].
      exists O, []. repeat split; auto; try lia; try apply Forall_nil.
    + injection H as <- <- <-. destruct R3 as (-> & R3).
      split; [exact W1|]. split; [exact R1|]. split; [exact R2|].
      exists O, []. repeat split; auto; try lia; try apply Forall_nil.
Qed.

(** read_all is read_rows with a number larger than what is left. *)
Definition all_of_rows (x : res bool) : res unit :=
  match x with
  | Ok true => Fuel
  | Ok false => Ok tt
  | Exn e => Exn e
  | Abort => Abort
  | Undef u => Undef u
  | Fuel => Fuel
  end.

Lemma read_all_loop_rows : forall S c (src : source S) n r,
  read_all_loop c src n r
  = let '(x, r', ev) := read_rows c src n r in (all_of_rows x, r', ev).
Proof.
  intros S c src n. induction n as [|n IH]; intros r; [reflexivity|].
  cbn [read_all_loop read_rows]. destruct (read_row c src r) as [[x r1] ev1].
  destruct x as [[|]| | | |]; try reflexivity.
  rewrite IH. destruct (read_rows c src n r1) as [[y r2] ev2]. reflexivity.
Qed.

Definition left_rows {S} (r : rstate S) : N := md_row_count (rs_md r) - at_row r.

Lemma read_rows_bounded : forall S c (src : source S) n r x r' ev,
  wf_r r -> left_rows r < N.of_nat n -> read_rows c src n r = (x, r', ev) -> x <> Ok true.
Proof.
  intros S c src n r x r' ev W L H E. subst x.
  pose proof (read_rows_props _ _ _ _ _ _ _ _ W H) as (W' & _ & M & k & rows & _ & _ & _ & Q).
  destruct Q as (-> & Q & _). destruct W' as [W' _]. unfold left_rows, at_row in *.
  rewrite M in W'. destruct W as [W _]. lia.
Qed.

Lemma read_rows_more : forall S c (src : source S) n m r x r' ev,
  read_rows c src n r = (x, r', ev) -> x <> Ok true -> (n <= m)%nat ->
  read_rows c src m r = (x, r', ev).
Proof.
  intros S c src n. induction n as [|n IH]; intros m r x r' ev H N L.
  - injection H as <- _ _. congruence.
  - destruct m as [|m]; [lia|]. cbn [read_rows] in *.
    destruct (read_row c src r) as [[y r1] ev1].
    destruct y as [[|]| | | |]; try exact H.
    destruct (read_rows c src n r1) as [[z r2] ev2] eqn:R. injection H as <- <- <-.
    rewrite (IH m _ _ _ _ R N) by lia. reflexivity.
Qed.

Lemma read_all_rows : forall S c (src : source S) r n,
  wf_r r -> left_rows r < N.of_nat n ->
  read_all c src r = let '(x, r', ev) := read_rows c src n r in (all_of_rows x, r', ev).
Proof.
  intros S c src r n W L. unfold read_all. rewrite read_all_loop_rows.
  change (ds_row (rs_d r)) with (at_row r).
  change (md_row_count (rs_md r) - at_row r) with (left_rows r).
  destruct (read_rows c src (Datatypes.S (N.to_nat (left_rows r))) r) as [[x r'] ev] eqn:R.
  assert (N : x <> Ok true) by (eapply read_rows_bounded; [exact W| |exact R]; lia).
  rewrite (read_rows_more _ _ _ _ n _ _ _ _ R N) by lia. reflexivity.
Qed.

Lemma indices_nopush : forall ev, indices ev = from 0 0 -> forall i, indices ev = from i 0.
Proof. auto. Qed.

Ltac keep3 :=
  split; [assumption|split; [first [assumption|reflexivity]
                            |split; [first [assumption|reflexivity]|]]].

(** C32: what each call consumes. *)
Lemma step_consumes : forall S c (src : source S) o r x r' ev,
  wf_r r -> step c src o r = (x, r', ev) ->
  wf_r r' /\ rs_h r' = rs_h r /\ rs_md r' = rs_md r
  /\ consumes (at_row r) (o, x, ev) (at_row r').
Proof.
  intros S c src o r x r' ev W H. destruct o; cbn [step] in H.
  - destruct (read_row c src r) as [[y r1] ev1] eqn:R. injection H as <- <- <-.
    apply read_row_props in R; [|exact W]. destruct R as (W1 & R1 & R2 & R3).
    keep3. unfold consumes.
    destruct y as [[|]| | | |]; cbn [rmap bind].
    + destruct R3 as [R3 [p ->]]. exists 1%nat. repeat split; auto; lia.
    + destruct R3 as (R3 & _ & ->). exists 0%nat. repeat split; auto; lia.
    + destruct R3 as (-> & R3). exists 0%nat. repeat split; try lia.
    + destruct R3 as (-> & R3). exists 0%nat. split; [reflexivity|lia].
    + destruct R3 as (-> & R3). exists 0%nat. split; [reflexivity|lia].
    + destruct R3 as (-> & R3). exists 0%nat. split; [reflexivity|lia].
  - destruct (read_rows c src (N.to_nat n) r) as [[y r1] ev1] eqn:R. injection H as <- <- <-.
    apply read_rows_props in R; [|exact W].
    destruct R as (W1 & R1 & R2 & k & rows & R3 & R4 & R5 & R6).
    keep3. unfold consumes. exists k.
    assert (EE : indices (rows ++ [EvEnd]) = indices rows)
      by (rewrite indices_app; apply app_nil_r).
    destruct y as [[|]| | | |]; cbn [rmap bind];
      repeat match goal with H : _ /\ _ |- _ => destruct H end; subst;
      repeat split; try congruence; try lia.
  - rewrite (read_all_rows _ _ _ r (Datatypes.S (N.to_nat (left_rows r)))) in H
      by (auto; lia).
    destruct (read_rows c src _ r) as [[y r1] ev1] eqn:R.
    assert (N : y <> Ok true) by (eapply read_rows_bounded; [exact W| |exact R]; lia).
    injection H as <- <- <-.
    apply read_rows_props in R; [|exact W].
    destruct R as (W1 & R1 & R2 & k & rows & R3 & R4 & R5 & R6).
    keep3. unfold consumes. exists k.
    assert (EE : indices (rows ++ [EvEnd]) = indices rows)
      by (rewrite indices_app; apply app_nil_r).
    destruct y as [[|]| | | |]; cbn [rmap bind all_of_rows]; try congruence;
      repeat match goal with H : _ /\ _ |- _ => destruct H end; subst;
      repeat split; try congruence; try lia.
  - unfold skip in H.
    destruct (data_skip c src (rs_h r) (rs_md r) (N.to_nat n) (rs_d r)) as [y d'] eqn:D.
    injection H as <- <- <-. apply data_skip_props in D; [|exact W].
    destruct D as [W1 D]. keep3. unfold consumes, at_row in *. cbn [rs_d].
    exists 0%nat. destruct y as [[|]| | | |]; cbn [rmap bind]; repeat split; auto; lia.
  - unfold read_row_no_sink in H.
    destruct (read_line c src (rs_h r) (rs_md r) (rs_d r)) as [y d'] eqn:D.
    injection H as <- <- <-. apply read_line_props in D; [|exact W].
    destruct D as [W1 D]. keep3. unfold consumes, at_row in *. cbn [rs_d].
    exists 0%nat. destruct y as [[p|]| | | |]; cbn [rmap bind]; repeat split; auto; try lia.
  - injection H as <- <- <-. keep3. exists 0%nat. repeat split; auto.
Qed.

Lemma opened_wf : forall S c (src : source S) flt s r, max_alloc c < row_limit ->
  opened c src flt s r -> wf_r r /\ at_row r = 0.
Proof.
  intros S c src flt s r M [ev H].
  destruct (opened_counts _ _ _ _ _ _ _ H) as (C & _).
  destruct (opened_data _ _ _ _ _ _ _ M H) as (D1 & D2).
  unfold wf_r, wf_d, at_row. rewrite D1. repeat split; auto. lia.
Qed.

Lemma trace_numbered : forall S c (src : source S) ops r t r',
  wf_r r -> trace c src ops (Some r) = (t, r') ->
  exists r1, r' = Some r1 /\ wf_r r1 /\ rs_h r1 = rs_h r /\ rs_md r1 = rs_md r
  /\ numbered (at_row r) t (at_row r1).
Proof.
  intros S c src ops. induction ops as [|o ops IH]; intros r t r' W H; cbn [trace] in H.
  - injection H as <- <-. exists r. split; [reflexivity|]. keep3. reflexivity.
  - cbn [reader_step] in H. destruct (step c src o r) as [[x r1] ev] eqn:E.
    apply step_consumes in E; [|exact W]. destruct E as (W1 & E1 & E2 & E3).
    assert (STOP : exists r0, Some r1 = Some r0 /\ wf_r r0 /\ rs_h r0 = rs_h r
      /\ rs_md r0 = rs_md r /\ numbered (at_row r) [(o, x, ev)] (at_row r0)).
    { exists r1. split; [reflexivity|]. keep3. exists (at_row r1). split; [exact E3|reflexivity]. }
    destruct x; try (injection H as <- <-; exact STOP).
    + destruct (trace c src ops (Some r1)) as [t2 r2] eqn:T. injection H as <- <-.
      apply IH in T; [|exact W1]. destruct T as (r3 & T1 & T2 & T3 & T4 & T5).
      exists r3. split; [exact T1|]. split; [exact T2|]. split; [congruence|].
      split; [congruence|]. exists (at_row r1). auto.
    + destruct (trace c src ops (Some r1)) as [t2 r2] eqn:T. injection H as <- <-.
      apply IH in T; [|exact W1]. destruct T as (r3 & T1 & T2 & T3 & T4 & T5).
      exists r3. split; [exact T1|]. split; [exact T2|]. split; [congruence|].
      split; [congruence|]. exists (at_row r1). auto.
Qed.

Lemma history_numbered : forall S c (src : source S) flt s r0 ops t r,
  max_alloc c < row_limit -> opened c src flt s r0 ->
  trace c src ops (Some r0) = (t, r) -> numbered 0 t (current_row_index r).
Proof.
  intros S c src flt s r0 ops t r M O T. destruct (opened_wf _ _ _ _ _ _ M O) as [W Z].
  destruct (trace_numbered _ _ _ _ _ _ _ W T) as (r1 & -> & _ & _ & _ & N).
  rewrite Z in N. exact N.
Qed.

Lemma reachable_wf : forall S c (src : source S) flt s r, max_alloc c < row_limit ->
  reachable c src flt s r -> wf_r r.
Proof.
  intros S c src flt s r M (r0 & ops & t & O & T).
  destruct (opened_wf _ _ _ _ _ _ M O) as [W _].
  destruct (trace_numbered _ _ _ _ _ _ _ W T) as (r1 & E & W1 & _).
  injection E as <-. exact W1.
Qed.

(** C33. *)
Lemma history_bounded : forall S c (src : source S) flt s r0 ops t r,
  max_alloc c < row_limit -> opened c src flt s r0 ->
  trace c src ops (Some r0) = (t, r) ->
  current_row_index r <= md_row_count (rs_md r0)
  /\ lenN (rows_of (all_events t)) <= md_row_count (rs_md r0).
Proof.
  intros S c src flt s r0 ops t r M O T. destruct (opened_wf _ _ _ _ _ _ M O) as [W Z].
  destruct (trace_numbered _ _ _ _ _ _ _ W T) as (r1 & -> & W1 & _ & E & N).
  rewrite Z in N. destruct W1 as [B _]. rewrite E in B.
  split; [exact B|]. cbn [current_row_index].
  assert (G : forall t i j, numbered i t j -> i + lenN (rows_of (all_events t)) <= j).
  { clear. induction t as [|[[o x] ev] t IH]; intros i j H.
    - cbn in *. lia.
    - destruct H as (k & C & H). apply IH in H. cbn [all_events flat_map snd].
      rewrite rows_of_app, lenN_app. fold (all_events t).
      assert (LE : i + lenN (rows_of ev) <= k); [|lia].
      destruct C as (p & C1 & C2).
      assert (LR : lenN (rows_of ev) = N.of_nat p).
      { unfold indices in C1. apply (f_equal (@length N)) in C1. rewrite map_length in C1.
        unfold lenN. rewrite C1. clear. revert i.
        induction p as [|p IH]; intros i; [reflexivity|]. cbn [from length].
        rewrite !Nat2N.inj_succ. f_equal. apply IH. }
      rewrite LR.
      cbv zeta in C2.
      destruct o, x as [[[|]| |[|]]| | | |]; try contradiction; try lia. }
  specialize (G _ _ _ N). unfold at_row in *. lia.
Qed.

(** ** Which exceptions *)

Definition raises {A} (P : exn -> Prop) (m : res A) : Prop :=
  match m with Exn e => P e | _ => True end.

Lemma raises_bind : forall A B P (m : res A) (k : A -> res B),
  raises P m -> (forall a, raises P (k a)) -> raises P (bind m k).
Proof. intros A B P m k H K. destruct m; cbn; auto. Qed.

Lemma raises_noexcept : forall A P (m : res A), raises P (noexcept m).
Proof. intros A P m. destruct m; exact I. Qed.

Lemma raises_read_cells : forall P m off len, raises P (read_cells m off len).
Proof.
  intros P m off len. destruct (read_cells_cases m off len) as [[v ->]|[u ->]]; exact I.
Qed.

Lemma raises_get_uint : forall P a e n b off, raises P (get_uint a e n b off).
Proof.
  intros. unfold get_uint. apply raises_bind; [|intros; exact I].
  destruct a; apply raises_read_cells.
Qed.

Lemma raises_get_byte : forall P b off, raises P (get_byte b off).
Proof.
  intros. unfold get_byte. apply raises_bind; [apply raises_read_cells|].
  intros [|x [|]]; exact I.
Qed.

Lemma raises_get_page_subheader : forall P e f b off,
  raises P (get_page_subheader e f b off).
Proof.
  intros. unfold get_page_subheader, assert_check.
  repeat (apply raises_bind; [first [apply raises_noexcept|apply raises_get_uint
                                    |apply raises_get_byte]|intros]).
  exact I.
Qed.

Lemma raises_process_subheaders : forall P T e f b (body : T -> page_subheader -> res T),
  (forall acc sh, raises P (body acc sh)) ->
  forall n i acc, raises P (process_subheaders e f b body n i acc).
Proof.
  intros P T e f b body HB. induction n as [|n IH]; intros i acc; [exact I|].
  cbn [process_subheaders]. apply raises_bind; [apply raises_get_page_subheader|].
  intros sh. apply raises_bind; [|intros; apply IH].
  destruct (_ || _); [exact I|apply HB].
Qed.

Lemma raises_build_page : forall P e f md b h, raises P (build_page e f md b h).
Proof.
  intros. unfold build_page. destruct (_ =? _).
  - apply raises_bind.
    + unfold data_subheaders_of_page, process_page_subheaders.
      apply raises_process_subheaders. intros. exact I.
    + intros [|]; exact I.
  - destruct (_ =? _); [exact I|]. destruct (is_page_mix _); exact I.
Qed.

Definition page_exn (e : exn) : Prop := e = E_cannot_read_page \/ e = E_bad_alloc.

Lemma raises_resize : forall c b n, raises page_exn (resize c b n).
Proof.
  intros. unfold resize. destruct (_ <? _); [|exact I].
  apply raises_bind.
  - unfold alloc. destruct (_ <=? _); [exact I|]. right. reflexivity.
  - intros m. apply raises_bind; [|intros; exact I]. destruct (negb _); [|exact I].
    unfold write_cells. destruct (_ <=? _); exact I.
Qed.

Lemma raises_read_page : forall S c (src : source S) e f plen p,
  raises page_exn (fst (read_page c src e f plen p)).
Proof.
  intros. unfold read_page. destruct (src_eof src (ps_is p)); [exact I|].
  unfold read_stream. pose proof (raises_resize c (ps_buf p) (0 +! plen)) as R.
  destruct (resize c (ps_buf p) (0 +! plen)) as [b'| | | |]; cbn; auto.
  destruct (src_read src (ps_is p) plen) as [[s' data] ok].
  destruct (lenN data =? 0).
  - destruct ok; cbn; [|destruct (src_eof src s'); cbn; [exact I|left; reflexivity]].
    assert (G : raises page_exn (get_page_header e f (MBuf (mem b') (msize b')))).
    { unfold get_page_header. repeat (apply raises_bind; [apply raises_get_uint|intros]).
      exact I. }
    destruct (get_page_header _ _ _); cbn; auto.
  - unfold write_cells. destruct (_ <=? _); [|exact I].
    destruct ok; cbn; [|destruct (src_eof src s'); cbn; [exact I|left; reflexivity]].
    match goal with |- context [get_page_header e f ?b] =>
      assert (G : raises page_exn (get_page_header e f b)) end.
    { unfold get_page_header. repeat (apply raises_bind; [apply raises_get_uint|intros]).
      exact I. }
    destruct (get_page_header _ _ _); cbn; auto.
Qed.

Lemma raises_read_next_page : forall S c (src : source S) e f plen md fuel p,
  raises page_exn (fst (read_next_page c src e f plen md fuel p)).
Proof.
  intros S c src e f plen md. induction fuel as [|fuel IH]; intros p; [exact I|].
  cbn [read_next_page]. pose proof (raises_read_page S c src e f plen p) as R.
  destruct (read_page c src e f plen p) as [[[|]| | | |] p']; cbn; auto.
  pose proof (raises_build_page page_exn e f md (ps_buf p') (ps_hdr p')) as B.
  destruct (build_page _ _ _ _ _) as [[pg|]| | | |]; cbn; auto.
Qed.

Lemma raises_data_next : forall S c (src : source S) h md d,
  raises page_exn (fst (data_next c src h md d)).
Proof.
  intros. unfold data_next. destruct (_ =? _); [exact I|].
  destruct (ds_page d) as [pg|]; [|exact I]. destruct (page_next pg); [|exact I].
  pose proof (raises_read_next_page S c src (h_endianness h) (h_format h) (h_page_length h)
                md (page_fuel c) (ds_p d)) as R.
  destruct (read_next_page _ _ _ _ _ _ _ _) as [[[pg'|]| | | |] p']; cbn; auto.
Qed.

(** ** Readers which differ in the row buffer only *)

Definition same_dec (md : metadata) (a b : decompressor) : Prop :=
  dec_ok md a /\ dec_ok md b /\
  match a, b with
  | DNone, DNone | DRDC _, DRDC _ | DRLE _, DRLE _ => True
  | _, _ => False
  end.

Definition equiv {S} (md : metadata) (d1 d2 : dstate S) : Prop :=
  ds_p d1 = ds_p d2 /\ ds_row d1 = ds_row d2 /\ ds_page d1 = ds_page d2
  /\ same_dec md (ds_dec d1) (ds_dec d2).

Lemma same_dec_refl : forall md a, dec_ok md a -> same_dec md a a.
Proof. intros md a H. split; [exact H|]. split; [exact H|]. destruct a; exact I. Qed.

Lemma same_dec_sym : forall md a b, same_dec md a b -> same_dec md b a.
Proof.
  intros md a b (H1 & H2 & H3). split; [exact H2|]. split; [exact H1|].
  destruct a, b; auto.
Qed.

Lemma same_dec_trans : forall md a b c, same_dec md a b -> same_dec md b c ->
  same_dec md a c.
Proof.
  intros md a b c (H1 & H2 & H3) (H4 & H5 & H6). split; [exact H1|]. split; [exact H5|].
  destruct a, b, c; auto.
Qed.

Lemma equiv_refl : forall S md (d : dstate S), dec_ok md (ds_dec d) -> equiv md d d.
Proof. intros. repeat split; auto. destruct (ds_dec d); exact I. Qed.

Lemma equiv_sym : forall S md (a b : dstate S), equiv md a b -> equiv md b a.
Proof.
  intros S md a b (H1 & H2 & H3 & H4). repeat (split; [congruence|]).
  apply same_dec_sym. exact H4.
Qed.

Lemma equiv_trans : forall S md (a b c : dstate S),
  equiv md a b -> equiv md b c -> equiv md a c.
Proof.
  intros S md a b c (H1 & H2 & H3 & H4) (K1 & K2 & K3 & K4).
  repeat (split; [congruence|]). eapply same_dec_trans; eassumption.
Qed.

(** After a successful decompression the row buffer is the row. *)
Lemma finish_mem : forall n x r d, row_buffer n d -> finish x = (Ok r, d) ->
  d_mem d = map Some r.
Proof.
  intros n [y d0] r d [B1 B2] H. unfold finish in H. destruct y as [[]| | | |]; try discriminate.
  destruct (dst_fill d0) as [d'| | | |]; try discriminate.
  injection H as H <-. apply read_cells_Ok in H. destruct H as (_ & H & _).
  rewrite B1, <- B2, slice_all in H. exact H.
Qed.

Lemma rle_same : forall n s d1 d2, row_buffer n d1 -> row_buffer n d2 -> n < row_limit ->
  fst (rle s d1) = fst (rle s d2)
  /\ forall r, fst (rle s d1) = Ok r -> d_mem (snd (rle s d1)) = d_mem (snd (rle s d2)).
Proof.
  intros n s d1 d2 B1 B2 L. destruct (rle_refines n s d1 B1 L) as [W1 E1].
  destruct (rle_refines n s d2 B2 L) as [W2 E2]. split; [congruence|].
  intros r H. unfold rle in *.
  destruct (finish (rle_loop _ _ (dst_reset d1))) as [r1 e1] eqn:F1.
  destruct (finish (rle_loop _ _ (dst_reset d2))) as [r2 e2] eqn:F2.
  cbn [fst snd] in *. assert (Q : r2 = Ok r) by congruence. rewrite H in F1. rewrite Q in F2.
  rewrite (finish_mem _ _ _ _ W1 F1), (finish_mem _ _ _ _ W2 F2). reflexivity.
Qed.

Lemma rdc_same : forall n s d1 d2, row_buffer n d1 -> row_buffer n d2 -> n < row_limit ->
  fst (rdc s d1) = fst (rdc s d2)
  /\ forall r, fst (rdc s d1) = Ok r -> d_mem (snd (rdc s d1)) = d_mem (snd (rdc s d2)).
Proof.
  intros n s d1 d2 B1 B2 L. destruct (rdc_refines n s d1 B1 L) as [W1 E1].
  destruct (rdc_refines n s d2 B2 L) as [W2 E2]. split; [congruence|].
  intros r H. unfold rdc in *.
  destruct (finish (rdc_loop _ _ _ _ (dst_reset d1))) as [r1 e1] eqn:F1.
  destruct (finish (rdc_loop _ _ _ _ (dst_reset d2))) as [r2 e2] eqn:F2.
  cbn [fst snd] in *. assert (Q : r2 = Ok r) by congruence. rewrite H in F1. rewrite Q in F2.
  rewrite (finish_mem _ _ _ _ W1 F1), (finish_mem _ _ _ _ W2 F2). reflexivity.
Qed.

Lemma extract_equiv : forall S c h md off len (d1 d2 : dstate S), equiv md d1 d2 ->
  fst (extract_row_values c h md off len d1) = fst (extract_row_values c h md off len d2)
  /\ equiv md (snd (extract_row_values c h md off len d1))
       (snd (extract_row_values c h md off len d2)).
Proof.
  intros S c h md off len d1 d2 E. pose proof E as (E1 & E2 & E3 & E4).
  unfold extract_row_values. rewrite <- E1.
  destruct (fmt_assert c _); try (split; [reflexivity|exact E]).
  destruct (len <? md_row_length md); [|split; [reflexivity|exact E]].
  destruct E4 as (O1 & O2 & E4). destruct (ds_dec d1) as [|b1|b1] eqn:D1;
    destruct (ds_dec d2) as [|b2|b2] eqn:D2; try contradiction.
  - split; [reflexivity|exact E].
  - destruct (read_cells _ off len) as [v| | | |]; try (split; [reflexivity|exact E]).
    destruct O1 as [O1 L]. destruct O2 as [O2 _].
    pose proof (rdc_same _ v b1 b2 O1 O2 L) as [F M].
    pose proof (rdc_buffer _ v b1 O1 L) as W1. pose proof (rdc_buffer _ v b2 O2 L) as W2.
    destruct (rdc v b1) as [x1 c1]. destruct (rdc v b2) as [x2 c2]. cbn [fst snd] in *.
    subst x2. split.
    + destruct x1 as [row| | | |]; cbn [bind]; auto. rewrite (M row eq_refl). reflexivity.
    + unfold equiv. cbn [ds_p ds_row ds_page ds_dec]. repeat (split; [congruence|]).
      split; [split; assumption|]. split; [split; assumption|exact I].
  - destruct (read_cells _ off len) as [v| | | |]; try (split; [reflexivity|exact E]).
    destruct O1 as [O1 L]. destruct O2 as [O2 _].
    pose proof (rle_same _ v b1 b2 O1 O2 L) as [F M].
    pose proof (rle_buffer _ v b1 O1 L) as W1. pose proof (rle_buffer _ v b2 O2 L) as W2.
    destruct (rle v b1) as [x1 c1]. destruct (rle v b2) as [x2 c2]. cbn [fst snd] in *.
    subst x2. split.
    + destruct x1 as [row| | | |]; cbn [bind]; auto. rewrite (M row eq_refl). reflexivity.
    + unfold equiv. cbn [ds_p ds_row ds_page ds_dec]. repeat (split; [congruence|]).
      split; [split; assumption|]. split; [split; assumption|exact I].
Qed.

Lemma extract_same : forall S c h md off len (d : dstate S), dec_ok md (ds_dec d) ->
  equiv md (snd (extract_row_values c h md off len d)) d.
Proof.
  intros S c h md off len d O.
  destruct (extract_row_values c h md off len d) as [x d'] eqn:X.
  pose proof (extract_props _ _ _ _ _ _ _ _ _ O X) as (X1 & X2 & X3 & X4 & _).
  cbn [snd]. unfold equiv. do 3 (split; [assumption|]).
  split; [exact X4|]. split; [exact O|].
  unfold extract_row_values in X. destruct (fmt_assert c _);
    try (injection X as _ <-; destruct (ds_dec d); exact I).
  destruct (len <? md_row_length md); [|injection X as _ <-; destruct (ds_dec d); exact I].
  destruct (ds_dec d) as [|b|b] eqn:D.
  - injection X as _ <-. rewrite D. exact I.
  - destruct (read_cells _ off len) as [v| | | |];
      try (injection X as _ <-; rewrite D; exact I).
    destruct (rdc v b). injection X as _ <-. exact I.
  - destruct (read_cells _ off len) as [v| | | |];
      try (injection X as _ <-; rewrite D; exact I).
    destruct (rle v b). injection X as _ <-. exact I.
Qed.

Lemma data_next_equiv : forall S c (src : source S) h md d1 d2, equiv md d1 d2 ->
  fst (data_next c src h md d1) = fst (data_next c src h md d2)
  /\ equiv md (snd (data_next c src h md d1)) (snd (data_next c src h md d2)).
Proof.
  intros S c src h md d1 d2 E. pose proof E as (E1 & E2 & E3 & E4).
  unfold data_next. rewrite <- E1, <- E2, <- E3.
  destruct (_ =? _); [split; [reflexivity|exact E]|].
  destruct (ds_page d1) as [pg|]; [|split; [reflexivity|exact E]].
  destruct (page_next pg); [|split; [reflexivity|exact E]].
  destruct (read_next_page _ _ _ _ _ _ _ _) as [[[pg'|]| | | |] p'];
    (split; [reflexivity|]); repeat (split; [reflexivity|]); exact E4.
Qed.

Lemma data_read_line_equiv : forall S md (d1 d2 : dstate S), equiv md d1 d2 ->
  fst (data_read_line d1) = fst (data_read_line d2)
  /\ equiv md (snd (data_read_line d1)) (snd (data_read_line d2)).
Proof.
  intros S md d1 d2 E. pose proof E as (E1 & E2 & E3 & E4).
  unfold data_read_line. rewrite <- E1, <- E2, <- E3.
  destruct (ds_page d1) as [pg|]; (split; [reflexivity|]); [|exact E].
  repeat (split; [reflexivity|]). exact E4.
Qed.

Lemma read_line_equiv : forall S c (src : source S) h md d1 d2, equiv md d1 d2 ->
  fst (read_line c src h md d1) = fst (read_line c src h md d2)
  /\ equiv md (snd (read_line c src h md d1)) (snd (read_line c src h md d2)).
Proof.
  intros S c src h md d1 d2 E. unfold read_line.
  destruct (data_next_equiv _ c src h md d1 d2 E) as [F E'].
  destruct (data_next c src h md d1) as [x a1]. destruct (data_next c src h md d2) as [y a2].
  cbn [fst snd] in *. subst y. destruct x as [[|]| | | |]; try (split; [reflexivity|exact E']).
  destruct (data_read_line_equiv _ md a1 a2 E') as [F E''].
  destruct (data_read_line a1) as [x b1]. destruct (data_read_line a2) as [y b2].
  cbn [fst snd] in *. subst y.
  destruct x as [[off len]| | | |]; try (split; [reflexivity|exact E'']).
  destruct (extract_equiv _ c h md off len b1 b2 E'') as [F E3].
  destruct (extract_row_values c h md off len b1) as [x e1].
  destruct (extract_row_values c h md off len b2) as [y e2].
  cbn [fst snd] in *. subst y. split; [reflexivity|exact E3].
Qed.

Lemma data_skip_equiv : forall S c (src : source S) h md n d1 d2, equiv md d1 d2 ->
  fst (data_skip c src h md n d1) = fst (data_skip c src h md n d2)
  /\ equiv md (snd (data_skip c src h md n d1)) (snd (data_skip c src h md n d2)).
Proof.
  intros S c src h md. induction n as [|n IH]; intros d1 d2 E; cbn [data_skip].
  - split; [reflexivity|exact E].
  - destruct (data_next_equiv _ c src h md d1 d2 E) as [F E'].
    destruct (data_next c src h md d1) as [x a1].
    destruct (data_next c src h md d2) as [y a2].
    cbn [fst snd] in *. subst y.
    destruct x as [[|]| | | |]; try (split; [reflexivity|exact E']).
    destruct (data_read_line_equiv _ md a1 a2 E') as [F E''].
    destruct (data_read_line a1) as [x b1]. destruct (data_read_line a2) as [y b2].
    cbn [fst snd] in *. subst y.
    destruct x as [p| | | |]; try (split; [reflexivity|exact E'']).
    apply IH. exact E''.
Qed.

Definition equiv_r {S} (r1 r2 : rstate S) : Prop :=
  rs_h r1 = rs_h r2 /\ rs_md r1 = rs_md r2 /\ equiv (rs_md r1) (rs_d r1) (rs_d r2).

Lemma equiv_r_refl : forall S (r : rstate S), wf_r r -> equiv_r r r.
Proof.
  intros S r (_ & _ & W). split; [reflexivity|]. split; [reflexivity|]. apply equiv_refl.
  exact W.
Qed.

Lemma equiv_r_trans : forall S (a b c : rstate S),
  equiv_r a b -> equiv_r b c -> equiv_r a c.
Proof.
  intros S a b c (H1 & H2 & H3) (K1 & K2 & K3). split; [congruence|]. split; [congruence|].
  eapply equiv_trans; [exact H3|]. rewrite H2. exact K3.
Qed.

Lemma equiv_r_sym : forall S (a b : rstate S), equiv_r a b -> equiv_r b a.
Proof.
  intros S a b (H1 & H2 & H3). split; [congruence|]. split; [congruence|].
  rewrite <- H2. apply equiv_sym. exact H3.
Qed.

(** Two results with the same observations and equivalent states. *)
Definition sim {A S} (x y : res A * rstate S * list event) : Prop :=
  fst (fst x) = fst (fst y) /\ snd x = snd y /\ equiv_r (snd (fst x)) (snd (fst y)).

Lemma read_row_sim : forall S c (src : source S) r1 r2, equiv_r r1 r2 ->
  sim (read_row c src r1) (read_row c src r2).
Proof.
  intros S c src r1 r2 (E1 & E2 & E3). unfold read_row.
  pose proof (proj1 (proj2 E3)) as EQ. rewrite <- E1, <- E2, <- EQ.
  destruct (read_line_equiv _ c src (rs_h r1) (rs_md r1) _ _ E3) as [F E4].
  destruct (read_line c src (rs_h r1) (rs_md r1) (rs_d r1)) as [x a1].
  destruct (read_line c src (rs_h r1) (rs_md r1) (rs_d r2)) as [y a2].
  cbn [fst snd] in *. subst y.
  destruct x as [[p|]| | | |]; repeat (split; [reflexivity|]); exact E4.
Qed.

Lemma read_rows_sim : forall S c (src : source S) n r1 r2, equiv_r r1 r2 ->
  sim (read_rows c src n r1) (read_rows c src n r2).
Proof.
  intros S c src. induction n as [|n IH]; intros r1 r2 E; cbn [read_rows].
  - split; [reflexivity|]. split; [reflexivity|exact E].
  - pose proof (read_row_sim _ c src r1 r2 E) as (F & G & E').
    destruct (read_row c src r1) as [[x a1] ev1]. destruct (read_row c src r2) as [[y a2] ev2].
    cbn [fst snd] in *. subst y ev2.
    destruct x as [[|]| | | |];
      try (split; [reflexivity|]; split; [reflexivity|exact E']).
    pose proof (IH a1 a2 E') as (F & G & E'').
    destruct (read_rows c src n a1) as [[x b1] ev3].
    destruct (read_rows c src n a2) as [[y b2] ev4].
    cbn [fst snd] in *. subst y ev4. split; [reflexivity|]. split; [reflexivity|exact E''].
Qed.

Lemma step_sim : forall S c (src : source S) o r1 r2, equiv_r r1 r2 ->
  sim (step c src o r1) (step c src o r2).
Proof.
  intros S c src o r1 r2 E. destruct o; cbn [step].
  - pose proof (read_row_sim _ c src r1 r2 E) as (F & G & E').
    destruct (read_row c src r1) as [[x a1] ev1]. destruct (read_row c src r2) as [[y a2] ev2].
    cbn [fst snd] in *. subst y ev2. split; [reflexivity|]. split; [reflexivity|exact E'].
  - pose proof (read_rows_sim _ c src (N.to_nat n) r1 r2 E) as (F & G & E').
    destruct (read_rows c src _ r1) as [[x a1] ev1].
    destruct (read_rows c src _ r2) as [[y a2] ev2].
    cbn [fst snd] in *. subst y ev2. split; [reflexivity|]. split; [reflexivity|exact E'].
  - pose proof E as (E1 & E2 & E3 & E4 & E5).
    unfold read_all. rewrite <- E2, <- E4, !read_all_loop_rows.
    set (k := Datatypes.S _).
    pose proof (read_rows_sim _ c src k r1 r2 E) as (F & G & E').
    destruct (read_rows c src k r1) as [[x a1] ev1].
    destruct (read_rows c src k r2) as [[y a2] ev2].
    cbn [fst snd] in *. subst y ev2. split; [reflexivity|]. split; [reflexivity|exact E'].
  - pose proof E as (E1 & E2 & E3). unfold skip. rewrite <- E1, <- E2.
    destruct (data_skip_equiv _ c src (rs_h r1) (rs_md r1) (N.to_nat n) _ _ E3) as [F E4].
    destruct (data_skip _ _ _ _ _ (rs_d r1)) as [x a1].
    destruct (data_skip _ _ _ _ _ (rs_d r2)) as [y a2].
    cbn [fst snd] in *. subst y. split; [reflexivity|]. split; [reflexivity|].
    split; [reflexivity|]. split; [reflexivity|]. exact E4.
  - pose proof E as (E1 & E2 & E3). unfold read_row_no_sink. rewrite <- E1, <- E2.
    destruct (read_line_equiv _ c src (rs_h r1) (rs_md r1) _ _ E3) as [F E4].
    destruct (read_line _ _ _ _ (rs_d r1)) as [x a1].
    destruct (read_line _ _ _ _ (rs_d r2)) as [y a2].
    cbn [fst snd] in *. subst y. split; [reflexivity|]. split; [reflexivity|].
    split; [reflexivity|]. split; [reflexivity|]. exact E4.
  - split; [reflexivity|]. split; [reflexivity|exact E].
Qed.

Lemma equiv_same_reader : forall S c (src : source S) r1 r2, equiv_r r1 r2 ->
  same_reader c src r1 r2.
Proof.
  intros S c src r1 r2 E. pose proof E as (E1 & E2 & _).
  split; [exact E1|]. split; [exact E2|]. clear E1 E2.
  intros ops. revert r1 r2 E. induction ops as [|o ops IH]; intros r1 r2 E; cbn [trace].
  - split; [reflexivity|]. apply E.
  - cbn [reader_step]. pose proof (step_sim _ c src o r1 r2 E) as (F & G & E').
    destruct (step c src o r1) as [[x a1] ev1]. destruct (step c src o r2) as [[y a2] ev2].
    cbn [fst snd] in *. subst y ev2.
    assert (STOP : current_row_index (Some a1) = current_row_index (Some a2)) by apply E'.
    destruct x; try (split; [reflexivity|exact STOP]).
    + destruct (IH a1 a2 E') as [H1 H2].
      destruct (trace c src ops (Some a1)) as [t1 b1].
      destruct (trace c src ops (Some a2)) as [t2 b2].
      cbn [fst snd] in *. split; [congruence|exact H2].
    + destruct (IH a1 a2 E') as [H1 H2].
      destruct (trace c src ops (Some a1)) as [t1 b1].
      destruct (trace c src ops (Some a2)) as [t2 b2].
      cbn [fst snd] in *. split; [congruence|exact H2].
Qed.

(** ** Skipping *)

Lemma data_skip_1 : forall S c (src : source S) h md d,
  data_skip c src h md 1 d
  = match data_next c src h md d with
    | (Ok false, d1) => (Ok false, d1)
    | (Ok true, d1) =>
        match data_read_line d1 with
        | (Ok _, d2) => (Ok true, d2)
        | (Exn ex, d2) => (Exn ex, d2)
        | (Abort, d2) => (Abort, d2)
        | (Undef u, d2) => (Undef u, d2)
        | (Fuel, d2) => (Fuel, d2)
        end
    | (Exn ex, d1) => (Exn ex, d1)
    | (Abort, d1) => (Abort, d1)
    | (Undef u, d1) => (Undef u, d1)
    | (Fuel, d1) => (Fuel, d1)
    end.
Proof. reflexivity. Qed.

Lemma data_skip_S : forall S c (src : source S) h md n d,
  data_skip c src h md (Datatypes.S n) d
  = match data_skip c src h md 1 d with
    | (Ok true, d1) => data_skip c src h md n d1
    | other => other
    end.
Proof.
  intros. rewrite data_skip_1. cbn [data_skip].
  destruct (data_next c src h md d) as [[[|]| | | |] d1]; try reflexivity.
  destruct (data_read_line d1) as [[p| | | |] d2]; reflexivity.
Qed.

(** One line read against one line skipped. *)
Lemma read_line_skip : forall S c (src : source S) h md d, wf_d md d ->
  let '(x, d1) := read_line c src h md d in
  let '(y, d2) := data_skip c src h md 1 d in
  match x with
  | Ok (Some _) | Exn E_cannot_decompress => y = Ok true /\ equiv md d1 d2
  | Ok None => y = Ok false /\ d1 = d2
  | Exn e => y = Exn e /\ d1 = d2
  | _ => y <> Ok false /\ (forall e, y <> Exn e) /\ (y = Ok true -> equiv md d1 d2)
  end.
Proof.
  intros S c src h md d W. rewrite data_skip_1. unfold read_line.
  pose proof (raises_data_next S c src h md d) as R.
  destruct (data_next c src h md d) as [x d1] eqn:N.
  apply data_next_props in N. destruct N as [N1 [N2 N3]].
  cbn [fst] in R. destruct x as [[|]|e| | |].
  - destruct (data_read_line d1) as [y d2] eqn:L.
    apply data_read_line_props in L. destruct L as (L1 & L2 & L3 & L4 & L5 & L6).
    destruct y as [[off len]| | | |]; try congruence;
      try (exfalso; eapply L4; reflexivity).
    + assert (O : dec_ok md (ds_dec d2)) by (rewrite L1, N2; apply W).
      pose proof (extract_same S c h md off len d2 O) as E.
      pose proof (extract_props S c h md off len d2 _ _ O
                    (surjective_pairing _)) as (_ & _ & _ & _ & X).
      destruct (extract_row_values c h md off len d2) as [z d3]. cbn [fst snd] in *.
      destruct z as [p|e| | |]; cbn [bind]; auto; try subst e; auto;
        repeat split; intros; try discriminate; apply E.
    + repeat split; try discriminate; intros; try discriminate; auto.
  - auto.
  - destruct R as [-> | ->]; auto.
  - repeat split; try discriminate; intros; discriminate.
  - repeat split; try discriminate; intros; discriminate.
  - repeat split; try discriminate; intros; discriminate.
Qed.

Lemma skip_1_row : forall S c (src : source S) r, wf_r r ->
  let '(x, r1, ev) := read_row c src r in
  let '(y, r2, _) := skip c src 1 r in
  match x with
  | Ok true | Exn E_cannot_decompress => y = Ok true /\ equiv_r r1 r2
  | Ok false => y = Ok false /\ r1 = r2
  | Exn e => y = Exn e /\ r1 = r2
  | _ => y <> Ok false /\ (forall e, y <> Exn e) /\ (y = Ok true -> equiv_r r1 r2)
  end.
Proof.
  intros S c src r W. unfold read_row, skip.
  pose proof (read_line_skip S c src (rs_h r) (rs_md r) (rs_d r) W) as H.
  change (N.to_nat 1) with 1%nat.
  destruct (read_line c src _ _ _) as [x d1]. destruct (data_skip _ _ _ _ _ _) as [y d2].
  assert (K : equiv (rs_md r) d1 d2 ->
    equiv_r (RState (rs_h r) (rs_md r) d1) (RState (rs_h r) (rs_md r) d2)).
  { intros E. split; [reflexivity|]. split; [reflexivity|exact E]. }
  destruct x as [[p|]|e| | |].
  - destruct H. auto.
  - destruct H. subst. auto.
  - destruct e; destruct H; subst; auto.
  - destruct H as (H1 & H2 & H3). auto.
  - destruct H as (H1 & H2 & H3). auto.
  - destruct H as (H1 & H2 & H3). auto.
Qed.

Lemma skip_events : forall S c (src : source S) n r,
  snd (skip c src n r) = match fst (fst (skip c src n r)) with Ok false => [EvEnd] | _ => [] end.
Proof. intros. unfold skip. destruct (data_skip _ _ _ _ _ _). reflexivity. Qed.

Lemma skip_S : forall S c (src : source S) n r,
  skip c src (N.of_nat (Datatypes.S n)) r
  = match skip c src 1 r with
    | (Ok true, r1, _) => skip c src (N.of_nat n) r1
    | other => other
    end.
Proof.
  intros. unfold skip. rewrite !Nat2N.id. change (N.to_nat 1) with 1%nat.
  rewrite data_skip_S. destruct (data_skip c src (rs_h r) (rs_md r) 1 (rs_d r)) as [x d1].
  destruct x as [[|]| | | |]; try reflexivity.
Qed.

Lemma skip_sim : forall S c (src : source S) n r1 r2, equiv_r r1 r2 ->
  sim (skip c src n r1) (skip c src n r2).
Proof.
  intros S c src n r1 r2 E. pose proof E as (E1 & E2 & E3). unfold skip. rewrite <- E1, <- E2.
  destruct (data_skip_equiv _ c src (rs_h r1) (rs_md r1) (N.to_nat n) _ _ E3) as [F E4].
  destruct (data_skip _ _ _ _ _ (rs_d r1)) as [x a1].
  destruct (data_skip _ _ _ _ _ (rs_d r2)) as [y a2].
  cbn [fst snd] in *. subst y. split; [reflexivity|]. split; [reflexivity|].
  split; [reflexivity|]. split; [reflexivity|]. exact E4.
Qed.

Ltac undefined_row :=
  match goal with
  | |- context [skip ?c ?src ?n ?r] =>
      pose proof (skip_events _ c src n r) as SE;
      destruct (skip c src n r) as [[? ?] ?]; cbn [fst snd] in SE
  end;
  match goal with y : res bool |- context [match ?y with _ => _ end] =>
    destruct y as [[|]| | | |] end;
  (split; [discriminate|]); (split; [discriminate|]); (split; [auto|]);
  (split; [auto|assumption]).

(** C35: skipping is reading and discarding. *)
Lemma skip_consume : forall S c (src : source S) k r, wf_r r ->
  let '(x, r1) := consume c src k r in
  let '(y, r2, ev) := skip c src (N.of_nat k) r in
  (defined x = true -> y = x /\ equiv_r r1 r2)
  /\ (defined y = true -> defined x = true -> y = x)
  /\ (y = Ok true -> x = Ok true \/ defined x = false)
  /\ (y = Ok false -> x = Ok false \/ defined x = false)
  /\ ev = match y with Ok false => [EvEnd] | _ => [] end.
Proof.
  intros S c src k. induction k as [|k IH]; intros r W.
  - cbn [consume]. unfold skip. cbn [N.to_nat N.of_nat data_skip].
    assert (E : equiv_r r (RState (rs_h r) (rs_md r) (rs_d r)))
      by (destruct r; apply (equiv_r_refl _ _ W)).
    split; [auto|]. split; [auto|]. split; [auto|]. split; [discriminate|reflexivity].
  - cbn [consume]. rewrite skip_S.
    pose proof (skip_1_row S c src r W) as H. pose proof (skip_events S c src 1 r) as EV.
    destruct (read_row c src r) as [[x a1] ev1] eqn:RR.
    destruct (skip c src 1 r) as [[y a2] ev2]. cbn [fst snd] in EV.
    apply read_row_props in RR; [|exact W]. destruct RR as (W1 & _).
    assert (GO : y = Ok true -> equiv_r a1 a2 ->
      let '(x, r1) := consume c src k a1 in
      let '(y, r2, ev) := match y with
        | Ok true => skip c src (N.of_nat k) a2 | _ => (y, a2, ev2) end in
      (defined x = true -> y = x /\ equiv_r r1 r2)
      /\ (defined y = true -> defined x = true -> y = x)
      /\ (y = Ok true -> x = Ok true \/ defined x = false)
      /\ (y = Ok false -> x = Ok false \/ defined x = false)
      /\ ev = match y with Ok false => [EvEnd] | _ => [] end).
    { intros -> E. specialize (IH a1 W1).
      pose proof (skip_sim S c src (N.of_nat k) a1 a2 E) as (F & G & E').
      destruct (consume c src k a1) as [x' b1].
      destruct (skip c src (N.of_nat k) a1) as [[y1 c1] ev3].
      destruct (skip c src (N.of_nat k) a2) as [[y2 c2] ev4].
      cbn [fst snd] in *. subst y2 ev4. destruct IH as (I1 & I2 & I3 & I4 & I5).
      split; [|auto]. intros D. destruct (I1 D) as [J1 J2]. split; [exact J1|].
      eapply equiv_r_trans; [exact J2|exact E']. }
    assert (SAME : equiv_r a1 a1) by (apply equiv_r_refl, W1).
    destruct x as [[|]|e| | |].
    + destruct H as [-> E]. exact (GO eq_refl E).
    + destruct H as [-> <-]. split; [auto|]. auto.
    + destruct e; destruct H as [-> E]; try exact (GO eq_refl E); subst a2;
        (split; [auto|]); (split; [auto|]); (split; [discriminate|]);
        (split; [discriminate|exact EV]).
    + undefined_row.
    + undefined_row.
    + undefined_row.
Qed.

(** C41. *)
Lemma skip_row_index : forall S c (src : source S) n r r' ev, wf_r r ->
  skip c src n r = (Ok true, r', ev) -> at_row r' = at_row r + n.
Proof.
  intros S c src n r r' ev W H. unfold skip in H.
  destruct (data_skip _ _ _ _ _ _) as [x d'] eqn:D. injection H as -> <- _.
  apply data_skip_props in D; [|exact W]. destruct D as [_ D]. unfold at_row. cbn [rs_d].
  rewrite D, N2Nat.id. reflexivity.
Qed.

Lemma failed_row_is_skipped : forall S c (src : source S) r r1 ev, wf_r r ->
  read_row c src r = (Exn E_cannot_decompress, r1, ev) ->
  ev = [] /\ current_row_index (Some r1) = current_row_index (Some r) + 1
  /\ exists r2, skip c src 1 r = (Ok true, r2, []) /\ same_reader c src r1 r2.
Proof.
  intros S c src r r1 ev W H. pose proof (skip_1_row S c src r W) as K.
  pose proof (skip_events S c src 1 r) as EV.
  rewrite H in K. destruct (skip c src 1 r) as [[y r2] ev2] eqn:SK. destruct K as [-> E].
  cbn [fst snd] in EV. subst ev2. apply skip_row_index in SK; [|exact W].
  apply read_row_props in H; [|exact W]. destruct H as (_ & _ & _ & -> & _).
  split; [reflexivity|]. split.
  - unfold at_row in SK. cbn [current_row_index]. rewrite <- SK. apply E.
  - exists r2. split; [reflexivity|]. apply equiv_same_reader. exact E.
Qed.

(** C34. *)
Lemma read_rows_times : forall S c (src : source S) k r,
  read_rows c src k r = read_row_times c src k r.
Proof.
  intros S c src. induction k as [|k IH]; intros r; [reflexivity|].
  cbn [read_rows read_row_times]. destruct (read_row c src r) as [[x r1] ev].
  destruct x as [[|]| | | |]; try reflexivity. rewrite IH. reflexivity.
Qed.

Lemma read_rows_plus : forall S c (src : source S) a b r,
  read_rows c src (a + b) r
  = match read_rows c src a r with
    | (Ok true, r1, ev) => let '(x, r2, ev') := read_rows c src b r1 in (x, r2, ev ++ ev')
    | other => other
    end.
Proof.
  intros S c src. induction a as [|a IH]; intros b r; cbn [read_rows Nat.add].
  - destruct (read_rows c src b r) as [[x r2] ev]. reflexivity.
  - destruct (read_row c src r) as [[x r1] ev]. destruct x as [[|]| | | |]; try reflexivity.
    rewrite IH. destruct (read_rows c src a r1) as [[y r2] ev2].
    destruct y as [[|]| | | |]; try reflexivity.
    destruct (read_rows c src b r2) as [[z r3] ev3]. rewrite app_assoc. reflexivity.
Qed.

Lemma read_rows_true : forall S c (src : source S) k r x r' ev, wf_r r ->
  read_rows c src k r = (x, r', ev) -> defined x = true ->
  (x = Ok true <-> length (rows_of ev) = k).
Proof.
  intros S c src k r x r' ev W H D.
  apply read_rows_props in H; [|exact W].
  destruct H as (_ & _ & _ & n & rows & O & _ & L & Q).
  assert (LR : length (rows_of rows) = n).
  { rewrite <- L. clear - O. induction O as [|e l H O IH]; [reflexivity|].
    destruct e; try discriminate. cbn. f_equal. exact IH. }
  destruct x as [[|]| | | |]; try discriminate.
  - destruct Q as (-> & _ & ->). split; auto.
  - destruct Q as (Q & _ & _ & ->). rewrite rows_of_app, app_length. cbn.
    split; [discriminate|lia].
  - destruct Q as (Q & -> & _). split; [discriminate|lia].
Qed.

Lemma read_all_is_read_rows : forall S c (src : source S) r k, wf_r r ->
  md_row_count (rs_md r) - current_row_index (Some r) < N.of_nat k ->
  exists x r' ev, read_rows c src k r = (x, r', ev) /\ x <> Ok true
  /\ read_all c src r
     = (match x with Ok _ => Ok tt | Exn e => Exn e | Abort => Abort | Undef u => Undef u
                | Fuel => Fuel end, r', ev).
Proof.
  intros S c src r k W L. rewrite (read_all_rows S c src r k W L).
  destruct (read_rows c src k r) as [[x r'] ev] eqn:R.
  exists x, r', ev. split; [reflexivity|].
  assert (N : x <> Ok true) by (eapply read_rows_bounded; [exact W| |exact R]; exact L).
  split; [exact N|]. destruct x as [[|]| | | |]; cbn [all_of_rows]; congruence.
Qed.

(** C36. *)
Lemma no_sink_same : forall S c (src : source S) r,
  let '(x, r1, ev) := read_row c src r in
  let '(y, r2) := read_row_no_sink c src r in
  r1 = r2 /\
  match y with
  | Ok (Some p) => x = Ok true /\ ev = [EvRow (current_row_index (Some r)) p]
  | Ok None => x = Ok false /\ ev = [EvEnd]
  | Exn e => x = Exn e /\ ev = []
  | Abort => x = Abort /\ ev = []
  | Undef u => x = Undef u /\ ev = []
  | Fuel => x = Fuel /\ ev = []
  end.
Proof.
  intros S c src r. unfold read_row, read_row_no_sink.
  destruct (read_line c src (rs_h r) (rs_md r) (rs_d r)) as [x d'].
  destruct x as [[p|]| | | |]; auto.
Qed.

(** C37. *)
Lemma ended_next : forall S c (src : source S) h md d, ended md d ->
  data_next c src h md d = (Ok false, d).
Proof.
  intros S c src h md d [E|E]; unfold data_next.
  - rewrite E, N.eqb_refl. reflexivity.
  - destruct (_ =? _); [reflexivity|]. rewrite E. reflexivity.
Qed.

Lemma ended_read_line : forall S c (src : source S) h md d, ended md d ->
  read_line c src h md d = (Ok None, d).
Proof. intros. unfold read_line. rewrite ended_next by assumption. reflexivity. Qed.

Lemma ended_step : forall S c (src : source S) o r, ended_r r ->
  step c src o r = (Ok (end_answer o), r, end_events o).
Proof.
  intros S c src o r E.
  assert (RR : read_row c src r = (Ok false, r, [EvEnd])).
  { unfold read_row. rewrite ended_read_line by exact E. destruct r. reflexivity. }
  destruct o; cbn [step end_answer end_events].
  - rewrite RR. reflexivity.
  - destruct (N.eqb_spec n 0) as [->|N]; [reflexivity|].
    destruct (N.to_nat n) as [|k] eqn:K; [lia|]. cbn [read_rows]. rewrite RR. reflexivity.
  - unfold read_all. cbn [read_all_loop]. rewrite RR. reflexivity.
  - unfold skip. destruct (N.eqb_spec n 0) as [->|N].
    + cbn [N.to_nat data_skip]. destruct r. reflexivity.
    + destruct (N.to_nat n) as [|k] eqn:K; [lia|]. cbn [data_skip].
      rewrite ended_next by exact E. destruct r. reflexivity.
  - unfold read_row_no_sink. rewrite ended_read_line by exact E. destruct r. reflexivity.
  - reflexivity.
Qed.

Lemma ended_trace : forall S c (src : source S) ops r, ended_r r ->
  trace c src ops (Some r)
  = (map (fun o => (o, Ok (end_answer o), end_events o)) ops, Some r).
Proof.
  intros S c src ops r E. induction ops as [|o ops IH]; [reflexivity|].
  cbn [trace reader_step map]. rewrite ended_step by exact E. rewrite IH. reflexivity.
Qed.

Lemma end_reported : forall S c (src : source S) o r x r' ev, wf_r r ->
  step c src o r = (x, r', ev) -> reports_end o x = true -> ended_r r'.
Proof.
  intros S c src o r x r' ev W H R. destruct o; cbn [step] in H; try discriminate.
  - destruct (read_row c src r) as [[y r1] ev1] eqn:E. injection H as <- <- <-.
    apply read_row_props in E; [|exact W]. destruct E as (_ & _ & _ & E).
    destruct y as [[|]| | | |]; try discriminate. apply E.
  - destruct (read_rows c src _ r) as [[y r1] ev1] eqn:E. injection H as <- <- <-.
    apply read_rows_props in E; [|exact W]. destruct E as (_ & _ & _ & k & rows & _ & _ & _ & E).
    destruct y as [[|]| | | |]; try discriminate. apply E.
  - rewrite (read_all_rows _ _ _ r (Datatypes.S (N.to_nat (left_rows r)))) in H
      by (auto; lia).
    destruct (read_rows c src _ r) as [[y r1] ev1] eqn:E. injection H as <- <- <-.
    apply read_rows_props in E; [|exact W]. destruct E as (_ & _ & _ & k & rows & _ & _ & _ & E).
    destruct y as [[|]| | | |]; try discriminate. apply E.
  - unfold skip in H.
    destruct (data_skip c src (rs_h r) (rs_md r) (N.to_nat n) (rs_d r)) as [y d'] eqn:D.
    injection H as <- <- <-. apply data_skip_props in D; [|exact W]. destruct D as [_ D].
    destruct y as [[|]| | | |]; try discriminate. apply D.
  - unfold read_row_no_sink in H.
    destruct (read_line c src (rs_h r) (rs_md r) (rs_d r)) as [y d'] eqn:D.
    injection H as <- <- <-. apply read_line_props in D; [|exact W]. destruct D as [_ D].
    destruct y as [[p|]| | | |]; try discriminate. apply D.
Qed.

Lemma end_is_final : forall S c (src : source S) o r x r' ev ops, wf_r r ->
  step c src o r = (x, r', ev) -> reports_end o x = true ->
  trace c src ops (Some r')
  = (map (fun o => (o, Ok (end_answer o), end_events o)) ops, Some r').
Proof.
  intros. apply ended_trace. eapply end_reported; eassumption.
Qed.

(** An exception other than cannot_decompress ends the data. *)
Lemma exception_ends : forall S c (src : source S) o r e r' ev, wf_r r ->
  step c src o r = (Exn e, r', ev) -> e <> E_cannot_decompress -> ended_r r'.
Proof.
  intros S c src o r e r' ev W H N. destruct o; cbn [step] in H; try discriminate.
  - destruct (read_row c src r) as [[y r1] ev1] eqn:E. injection H as H <- <-.
    apply read_row_props in E; [|exact W]. destruct E as (_ & _ & _ & E).
    destruct y as [[|]| | | |]; try discriminate. injection H as ->.
    destruct E as (_ & [[E _]|[_ E]]); [congruence|exact E].
  - destruct (read_rows c src _ r) as [[y r1] ev1] eqn:E. injection H as H <- <-.
    apply read_rows_props in E; [|exact W]. destruct E as (_ & _ & _ & k & rows & _ & _ & _ & E).
    destruct y as [[|]| | | |]; try discriminate. injection H as ->.
    destruct E as (_ & _ & [[E _]|[_ E]]); [congruence|exact E].
  - rewrite (read_all_rows _ _ _ r (Datatypes.S (N.to_nat (left_rows r)))) in H
      by (auto; lia).
    destruct (read_rows c src _ r) as [[y r1] ev1] eqn:E. injection H as H <- <-.
    apply read_rows_props in E; [|exact W]. destruct E as (_ & _ & _ & k & rows & _ & _ & _ & E).
    destruct y as [[|]| | | |]; try discriminate. injection H as ->.
    destruct E as (_ & _ & [[E _]|[_ E]]); [congruence|exact E].
  - unfold skip in H.
    destruct (data_skip c src (rs_h r) (rs_md r) (N.to_nat n) (rs_d r)) as [y d'] eqn:D.
    injection H as H <- <-. apply data_skip_props in D; [|exact W]. destruct D as [_ D].
    destruct y as [[|]| | | |]; try discriminate. right. apply D.
  - unfold read_row_no_sink in H.
    destruct (read_line c src (rs_h r) (rs_md r) (rs_d r)) as [y d'] eqn:D.
    injection H as H <- <-. apply read_line_props in D; [|exact W]. destruct D as [_ D].
    destruct y as [[p|]| | | |]; try discriminate. injection H as ->.
    destruct D as [[D _]|[_ D]]; [congruence|right; exact D].
Qed.

(** C38. *)
Definition ends (b : bool) : list event := if b then [EvEnd] else [].

Lemma step_protocol : forall S c (src : source S) o r x r' ev, wf_r r ->
  step c src o r = (x, r', ev) ->
  exists rows, ev = rows ++ ends (tells_end o x)
    /\ Forall (fun e => is_row e = true) rows /\ (pushes o = false -> rows = []).
Proof.
  intros S c src o r x r' ev W H. destruct o; cbn [step] in H.
  - destruct (read_row c src r) as [[y r1] ev1] eqn:E. injection H as <- <- <-.
    apply read_row_props in E; [|exact W]. destruct E as (_ & _ & _ & E).
    destruct y as [[|]| | | |]; cbn.
    + destruct E as [_ [p ->]]. exists [EvRow (at_row r) p]. repeat split; auto. discriminate.
    + destruct E as (_ & _ & ->). exists []. repeat split; auto.
    + destruct E as (-> & _). exists []. repeat split; auto.
    + destruct E as (-> & _). exists []. repeat split; auto.
    + destruct E as (-> & _). exists []. repeat split; auto.
    + destruct E as (-> & _). exists []. repeat split; auto.
  - destruct (read_rows c src _ r) as [[y r1] ev1] eqn:E. injection H as <- <- <-.
    apply read_rows_props in E; [|exact W]. destruct E as (_ & _ & _ & k & rows & O & _ & _ & E).
    exists rows. split; [|split; [exact O|discriminate]].
    destruct y as [[|]| | | |]; cbn; repeat match goal with H : _ /\ _ |- _ => destruct H end;
      subst; try (symmetry; apply app_nil_r); reflexivity.
  - rewrite (read_all_rows _ _ _ r (Datatypes.S (N.to_nat (left_rows r)))) in H
      by (auto; lia).
    destruct (read_rows c src _ r) as [[y r1] ev1] eqn:E.
    assert (N : y <> Ok true) by (eapply read_rows_bounded; [exact W| |exact E]; lia).
    injection H as <- <- <-.
    apply read_rows_props in E; [|exact W]. destruct E as (_ & _ & _ & k & rows & O & _ & _ & E).
    exists rows. split; [|split; [exact O|discriminate]].
    destruct y as [[|]| | | |]; try congruence; cbn;
      repeat match goal with H : _ /\ _ |- _ => destruct H end;
      subst; try (symmetry; apply app_nil_r); reflexivity.
  - pose proof (skip_events S c src n r) as EV.
    destruct (skip c src n r) as [[y r1] ev1]. injection H as <- <- <-.
    cbn [fst snd] in EV. subst ev1. exists [].
    destruct y as [[|]| | | |]; cbn; auto.
  - destruct (read_row_no_sink c src r) as [y r1]. injection H as <- <- <-.
    exists []. cbn. auto.
  - injection H as <- <- <-. exists []. cbn. auto.
Qed.

(** C40. *)
Lemma empty_inert : forall S c (src : source S) ops,
  trace c src ops None
  = (map (fun o => (o, Ok (match o with
                           | OpReadRow | OpReadRows _ | OpSkip _ => OBool false
                           | OpReadAll | OpEnd => OUnit
                           | OpNoSink => OPtr None
                           end), [])) ops, None).
Proof.
  intros. induction ops as [|o ops IH]; [reflexivity|].
  cbn [trace reader_step map]. rewrite IH. reflexivity.
Qed.

Lemma skip_reading : forall S c (src : source S) flt s r k,
  max_alloc c < row_limit -> reachable c src flt s r ->
  let '(x, r1) := consume c src k r in
  let '(y, r2, ev) := skip c src (N.of_nat k) r in
  (defined x = true -> y = x /\ same_reader c src r1 r2)
  /\ (y = Ok true -> x = Ok true \/ defined x = false)
  /\ (y = Ok false -> x = Ok false \/ defined x = false)
  /\ ev = match y with Ok false => [EvEnd] | _ => [] end.
Proof.
  intros S c src flt s r k M R.
  pose proof (skip_consume S c src k r (reachable_wf _ _ _ _ _ _ M R)) as H.
  destruct (consume c src k r) as [x r1]. destruct (skip c src (N.of_nat k) r) as [[y r2] ev].
  destruct H as (H1 & _ & H3 & H4 & H5). split; [|auto].
  intros D. destruct (H1 D) as [E1 E2]. split; [exact E1|]. apply equiv_same_reader. exact E2.
Qed.

Lemma open_events : forall S c (src : source S) flt s r ev,
  open_reader c src flt s = Ok (r, ev) -> ev = [EvProps (rs_h r) (rs_md r)].
Proof.
  intros S c src flt s r ev H. apply open_reader_inv in H.
  destruct H as (s1 & b1 & p & m & _ & _ & _ & _ & H). exact H.
Qed.

Lemma filter_end_rows : forall rows, Forall (fun e => is_row e = true) rows ->
  filter is_end rows = [].
Proof.
  intros rows H. induction H as [|e l H F IH]; [reflexivity|].
  destruct e; try discriminate. exact IH.
Qed.

Lemma end_told_once : forall S c (src : source S) flt s r0 ops t r,
  max_alloc c < row_limit -> opened c src flt s r0 ->
  trace c src ops (Some r0) = (t, r) ->
  Forall (fun x => fst (fst x) <> OpEnd) t ->
  Forall (fun x => reports_end (fst (fst x)) (snd (fst x)) = false) (removelast t) ->
  (length (filter is_end (all_events t)) <= 1)%nat.
Proof.
  intros S c src flt s r0 ops t r M O. destruct (opened_wf _ _ _ _ _ _ M O) as [W _].
  clear O. revert r0 t r W. induction ops as [|o ops IH]; intros r0 t r W H F1 F2;
    cbn [trace] in H; [injection H as <- <-; cbn; lia|].
  cbn [reader_step] in H. destruct (step c src o r0) as [[x r1] ev] eqn:E.
  pose proof (step_consumes _ _ _ _ _ _ _ _ W E) as (W1 & _).
  apply step_protocol in E; [|exact W]. destruct E as (rows & -> & R & _).
  assert (LEN : length (filter is_end (rows ++ ends (tells_end o x)))
                = if tells_end o x then 1%nat else 0%nat).
  { rewrite filter_app, (filter_end_rows rows R). destruct (tells_end o x); reflexivity. }
  assert (GO : forall t2 r2, trace c src ops (Some r1) = (t2, r2) ->
    t = (o, x, rows ++ ends (tells_end o x)) :: t2 ->
    (length (filter is_end (all_events t)) <= 1)%nat).
  { intros t2 r2 T ->. inversion F1 as [|? ? F1a F1b]; subst.
    cbn [all_events flat_map snd]. rewrite filter_app, app_length, LEN. fold (all_events t2).
    destruct t2 as [|e2 t2]; [cbn; destruct (tells_end o x); lia|].
    cbn [removelast] in F2. inversion F2 as [|? ? F2a F2b]; subst.
    assert (NE : tells_end o x = false) by (destruct o; cbn in *; congruence).
    rewrite NE. eapply IH; [exact W1|exact T|exact F1b|exact F2b]. }
  destruct x; try (injection H as <- <-; cbn [all_events flat_map snd]; rewrite app_nil_r, LEN;
                   destruct (tells_end _ _); lia).
  - destruct (trace c src ops (Some r1)) as [t2 r2] eqn:T. injection H as <- <-.
    eapply GO; [reflexivity|]. reflexivity.
  - destruct (trace c src ops (Some r1)) as [t2 r2] eqn:T. injection H as <- <-.
    eapply GO; [reflexivity|]. reflexivity.
Qed.

Lemma end_told_twice : exists content r0 t r,
  opened sample_cfg file_source None (file_open content) r0
  /\ trace sample_cfg file_source [OpReadAll; OpReadRow] (Some r0) = (t, r)
  /\ filter is_end (all_events t) = [EvEnd; EvEnd].
Proof.
  exists sample_file.
  destruct (reader_of sample_cfg sample_file) as [r0|] eqn:R; [|vm_compute in R; discriminate].
  exists r0. destruct (trace sample_cfg file_source [OpReadAll; OpReadRow] (Some r0)) as [t r] eqn:T.
  exists t, r. split; [apply reader_of_opened; exact R|]. split; [reflexivity|].
  assert (E : filter is_end (all_events (fst (trace sample_cfg file_source [OpReadAll; OpReadRow]
                (reader_of sample_cfg sample_file)))) = [EvEnd; EvEnd])
    by (vm_compute; reflexivity).
  rewrite R, T in E. exact E.
Qed.

Lemma properties_constant : forall S c (src : source S) flt s r0 ops t r,
  max_alloc c < row_limit -> opened c src flt s r0 ->
  trace c src ops (Some r0) = (t, r) -> properties r = properties (Some r0).
Proof.
  intros S c src flt s r0 ops t r M O T. destruct (opened_wf _ _ _ _ _ _ M O) as [W _].
  destruct (trace_numbered _ _ _ _ _ _ _ W T) as (r1 & -> & _ & H1 & H2 & _).
  cbn [properties]. congruence.
Qed.
