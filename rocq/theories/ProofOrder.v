(** Proofs about the pages behind the one where the data begin. *)
From Coq Require Import Lia ZArith Permutation.
From Verif Require Import Base Types Buffer Page Column Header Metadata Decomp Data Reader
  Lemmas SpecBuffer ProofBuffer SpecHeader ProofHeader SpecReader ProofMetaInv ProofReader SpecPages ProofPages ProofOpen
  SpecAsk ProofAsk ProofRows ProofFile SpecNamed ProofNamed.
Local Open Scope N_scope.

Lemma begins_in : forall ly pre x pg y, ~ no_data ly pre ->
  Forall (fun q => begins ly q = false) x -> forall l, pre ++ l = x ++ pg :: y ->
  exists y', pre = x ++ pg :: y'.
Proof.
  intros ly pre x. revert pre. induction x as [|q x IH]; intros [|p pre] pg y N F l E.
  - exfalso. apply N. constructor.
  - cbn [app] in E. injection E as <- E. exists pre. reflexivity.
  - exfalso. apply N. constructor.
  - cbn [app] in E. injection E as <- E. inversion F as [|? ? F1 F2]; subst.
    destruct (IH pre pg y) with (l := l) as [y' ->]; [|exact F2|exact E|exists y'; reflexivity].
    intros K. apply N. constructor; assumption.
Qed.

Lemma good_data_tail : forall ly pre ps qs, ~ no_data ly pre -> good_data ly (pre ++ ps) ->
  Forall (good_page ly) qs -> Forall (not_empty ly) qs -> good_data ly (pre ++ qs).
Proof.
  intros ly pre ps qs. induction pre as [|p pre IH]; intros N G A B.
  - exfalso. apply N. constructor.
  - cbn [app good_data] in *. destruct (begins ly p) eqn:E.
    + destruct G as (G1 & G2 & G3). split; [exact G1|].
      apply Forall_app in G2. apply Forall_app in G3. split; apply Forall_app; split; tauto.
    + apply IH; try assumption. intros K. apply N. constructor; assumption.
Qed.

Lemma clear_tail : forall ly pre ps qs, ~ no_data ly pre -> clear_start ly (pre ++ ps) -> clear_start ly (pre ++ qs).
Proof.
  intros ly pre ps qs N C x pg y E F. destruct (begins_in ly pre x pg y N F qs E) as [y' ->].
  apply (C x pg (y' ++ ps)); [|exact F]. rewrite <- app_assoc. reflexivity.
Qed.

Lemma good_data_pages : forall ly pre ps, ~ no_data ly pre -> good_data ly (pre ++ ps) ->
  Forall (good_page ly) ps /\ Forall (not_empty ly) ps.
Proof.
  intros ly pre ps. induction pre as [|p pre IH]; intros N G.
  - exfalso. apply N. constructor.
  - cbn [app good_data] in *. destruct (begins ly p) eqn:E.
    + destruct G as (G1 & G2 & G3). apply Forall_app in G2. apply Forall_app in G3. tauto.
    + apply IH; [|exact G]. intros K. apply N. constructor; assumption.
Qed.

Lemma concat_len : forall pl (l : list bytes), Forall (fun pg => lenN pg = pl) l -> lenN (concat l) = lenN l * pl.
Proof.
  intros pl l F. induction F as [|p l E F IH]; [reflexivity|].
  cbn [concat]. unfold lenN in *. rewrite app_length. cbn [length]. lia.
Qed.

Lemma file_pages_front : forall front l h, lenN front = h_header_length h -> 0 < h_page_length h ->
  Forall (fun pg => lenN pg = h_page_length h) l -> file_pages (front ++ concat l) h = l.
Proof.
  intros front l h L P F. unfold file_pages. rewrite <- L. unfold lenN. rewrite Nat2N.id.
  rewrite skipn_app, skipn_all, Nat.sub_diag. cbn [skipn app]. apply complete_pages_concat; assumption.
Qed.

Lemma open_event : forall S c (src : source S) flt s r ev, open_reader c src flt s = Ok (r, ev) ->
  ev = [EvProps (rs_h r) (rs_md r)].
Proof.
  intros S c src flt s r ev H. unfold open_reader in H.
  apply bind_Ok in H. destruct H as [[[h s1] b] [E H]].
  apply bind_Ok in H. destruct H as [[[p md] dsh] [E2 H]].
  apply bind_Ok in H. destruct H as [d [E3 H]]. injection H as <- <-. reflexivity.
Qed.

Section Order.
Variables (c : cfg) (flt : option (column -> bool)) (front : bytes) (pre ps qs : list bytes) (r : rstate fstate).
Let file l := front ++ concat (pre ++ l).
Hypothesis O : opened c file_source flt (file_open (file ps)) r.
Hypothesis R : readable c (file ps) r.
Let ly := layout_of (rs_h r) (rs_md r).
Hypothesis LF : lenN front = h_header_length (rs_h r).
Hypothesis LP : Forall (fun pg => lenN pg = h_page_length (rs_h r)) (pre ++ ps ++ qs).
Hypothesis ND : ~ no_data ly pre.
Hypothesis NE : rows_on ly (pre ++ ps) <> [].

Lemma plen_pos : 0 < h_page_length (rs_h r).
Proof. destruct R as (_ & A & _). fold ly in A. unfold ly, layout_of in A. cbn in A. lia. Qed.

Lemma pages_first : file_pages (file ps) (rs_h r) = pre ++ ps.
Proof.
  apply file_pages_front; [exact LF|exact plen_pos|]. rewrite app_assoc in LP. apply Forall_app in LP. tauto.
Qed.

Lemma pages_second : file_pages (file qs) (rs_h r) = pre ++ qs.
Proof.
  apply file_pages_front; [exact LF|exact plen_pos|]. apply Forall_app in LP. destruct LP as [A B].
  apply Forall_app in B. apply Forall_app. tauto.
Qed.

Lemma row_0 : forall ev, open_reader c file_source flt (file_open (file ps)) = Ok (r, ev) ->
  current_row_index (Some r) = 0.
Proof. intros ev E. destruct R as (M & _). exact (proj1 (opened_data _ c file_source flt _ r ev M E)). Qed.

Lemma tail_opened : exists r', opened c file_source flt (file_open (file qs)) r'
  /\ rs_h r' = rs_h r /\ rs_md r' = rs_md r.
Proof.
  destruct O as [ev OE].
  destruct (source_stands c flt (file ps) r ev [] [] r OE R eq_refl) as [(k & PF & SA)|[X|[X _]]].
  - rewrite pages_first in PF. fold ly in PF. destruct PF as (K1 & K2 & _ & K4).
    assert (K : (k <= length pre)%nat).
    { destruct K4 as [K4|K4].
      - exfalso. rewrite (row_0 ev OE) in K4. lia.
      - destruct (Nat.le_gt_cases k (length pre)) as [Q|Q]; [exact Q|]. exfalso. apply ND.
        rewrite firstn_app in K4. apply Forall_app in K4. destruct K4 as [K4 _].
        rewrite firstn_all2 in K4 by lia. exact K4. }
    assert (SB : session c file_source flt (file_open (front ++ concat pre ++ concat qs)) [] = Ok (ev, [])).
    { rewrite app_assoc. apply (same_beginning c flt (front ++ concat pre) (concat ps) (concat qs) [] r ev [] r).
      - rewrite <- app_assoc, <- concat_app. exact OE.
      - reflexivity.
      - rewrite SA. reflexivity.
      - rewrite SA. cbn [file_open fs_rest]. unfold file. unfold lenN. rewrite skipn_length.
        rewrite app_length, concat_app, app_length.
        assert (L2 : lenN (concat pre) = lenN pre * h_page_length (rs_h r)).
        { apply concat_len. apply Forall_app in LP. tauto. }
        unfold lenN in L2, LF. nia. }
    unfold session in SB. rewrite <- concat_app in SB.
    destruct (open_reader c file_source flt (file_open (front ++ concat (pre ++ qs)))) as [[r' ev']| | | |] eqn:E;
      try discriminate. injection SB as ->. exists r'. split; [exists ev; exact E|].
    pose proof (open_event _ _ _ _ _ _ _ E) as E1. pose proof (open_event _ _ _ _ _ _ _ OE) as E2.
    rewrite E1 in E2. injection E2 as E2 E3. auto.
  - exfalso. apply ND. rewrite pages_first in X. apply Forall_app in X. apply X.
  - exfalso. rewrite pages_first in X. fold ly in X. rewrite (row_0 ev OE) in X.
    apply NE. destruct (rows_on ly (pre ++ ps)); [reflexivity|]. unfold lenN in X. cbn [length] in X. lia.
Qed.

Hypothesis GQ : Forall (good_page ly) qs.
Hypothesis EQ : Forall (not_empty ly) qs.
Hypothesis FQ : (length (pre ++ qs) < page_fuel c)%nat.

Lemma tail_read : exists r', opened c file_source flt (file_open (file qs)) r'
  /\ rs_h r' = rs_h r /\ rs_md r' = rs_md r
  /\ forall ops, seen (md_row_length (rs_md r)) (fst (trace c file_source ops (Some r')))
     = fst (cur_trace ops (0, firstn (N.to_nat (md_row_count (rs_md r)))
                                (rows_on ly pre ++ flat_map (page_rows ly) qs))).
Proof.
  destruct tail_opened as (r' & O' & H1 & H2). exists r'. split; [exact O'|]. split; [exact H1|]. split; [exact H2|].
  intros ops.
  assert (R' : readable c (file qs) r').
  { destruct R as (A1 & A2 & A3 & A4 & A5). unfold readable. rewrite H1, H2, pages_second.
    rewrite pages_first in A3, A4. fold ly in A2, A3, A4 |- *. split; [exact A1|]. split; [exact A2|].
    split; [apply (good_data_tail ly pre ps); assumption|]. split; [apply (clear_tail ly pre ps); assumption|exact FQ]. }
  destruct (readable_cursor c flt (file qs) r' ops O' R') as [K _]. rewrite H2 in K. rewrite K.
  unfold file_rows. rewrite H1, H2, pages_second. fold ly. rewrite rows_on_app by exact ND. reflexivity.
Qed.

End Order.

Lemma flat_map_perm : forall A B (f : A -> list B) l l', Permutation l l' -> Permutation (flat_map f l) (flat_map f l').
Proof.
  intros A B f l l' P. induction P; cbn [flat_map].
  - constructor.
  - apply Permutation_app_head. exact IHP.
  - rewrite !app_assoc. apply Permutation_app_tail, Permutation_app_comm.
  - eapply perm_trans; eassumption.
Qed.

Lemma order_read : forall c flt front pre ps qs r,
  let file l := front ++ concat (pre ++ l) in
  opened c file_source flt (file_open (file ps)) r -> readable c (file ps) r ->
  let ly := layout_of (rs_h r) (rs_md r) in
  lenN front = h_header_length (rs_h r) ->
  Forall (fun pg => lenN pg = h_page_length (rs_h r)) (pre ++ ps) ->
  ~ no_data ly pre -> rows_on ly (pre ++ ps) <> [] -> Permutation ps qs ->
  lenN (rows_on ly (pre ++ ps)) <= md_row_count (rs_md r) ->
  exists r' rows', opened c file_source flt (file_open (file qs)) r'
  /\ rs_h r' = rs_h r /\ rs_md r' = rs_md r
  /\ Permutation (file_rows (file ps) r) rows'
  /\ forall ops, seen (md_row_length (rs_md r)) (fst (trace c file_source ops (Some r')))
     = fst (cur_trace ops (0, rows')).
Proof.
  intros c flt front pre ps qs r file O R ly LF LP ND NE P RC.
  assert (LQ : Forall (fun pg => lenN pg = h_page_length (rs_h r)) (pre ++ ps ++ qs)).
  { apply Forall_app in LP. destruct LP as [A B]. apply Forall_app. split; [exact A|]. apply Forall_app. split; [exact B|].
    eapply Permutation_Forall; eassumption. }
  pose proof (pages_first c front pre ps qs r R LF LQ) as PF.
  pose proof R as (A1 & A2 & A3 & A4 & A5). fold file in PF. fold (file ps) in PF. rewrite PF in A3, A5. fold ly in A3.
  destruct (good_data_pages ly pre ps ND A3) as [G1 G2].
  destruct (tail_read c flt front pre ps qs r O R LF LQ ND NE) as (r' & O' & H1 & H2 & H3).
  - eapply Permutation_Forall; eassumption.
  - eapply Permutation_Forall; eassumption.
  - rewrite app_length in *. rewrite <- (Permutation_length P). exact A5.
  - exists r', (rows_on ly pre ++ flat_map (page_rows ly) qs). split; [exact O'|]. split; [exact H1|]. split; [exact H2|].
    assert (Q : Permutation (rows_on ly (pre ++ ps)) (rows_on ly pre ++ flat_map (page_rows ly) qs)).
    { rewrite rows_on_app by exact ND. apply Permutation_app_head. apply flat_map_perm. exact P. }
    split.
    + unfold file_rows. rewrite PF. fold ly. rewrite firstn_all2; [exact Q|]. unfold lenN in RC. lia.
    + intros ops. rewrite H3. fold ly. rewrite firstn_all2; [reflexivity|].
      rewrite <- (Permutation_length Q). unfold lenN in RC. lia.
Qed.
