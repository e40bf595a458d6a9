(** Proofs about the chunk sinks of the Python binding. *)
From Coq Require Import Permutation.
From Verif Require Import Base Lemmas Types Float DateTime Column Header Metadata Reader SpecReader Sinks
  SpecValues ProofValues SpecSinks ProofCsv.
Local Open Scope N_scope.

(** ** Column groups *)

Lemma grouped_perm : forall cs, Permutation (grouped cs) (filter known cs).
Proof.
  intros cs. unfold grouped. cbn. induction cs as [|c cs IH]; [constructor|].
  cbn [get_columns filter known]. unfold known at 1.
  destruct (c_type c) eqn:T; cbn; rewrite ?T; cbn;
    repeat first [ exact IH | apply perm_skip; exact IH
                 | apply Permutation_sym, Permutation_cons_app; apply Permutation_sym;
                   rewrite <- ?app_assoc; exact IH
                 | rewrite app_assoc ].
Qed.

Lemma grouped_known : forall cs c, In c (grouped cs) <-> In c cs /\ known c = true.
Proof.
  intros cs c. rewrite <- filter_In. split; apply Permutation_in;
    [|apply Permutation_sym]; apply grouped_perm.
Qed.

Lemma group_value_cell : forall c p v, known c = true -> (group_value c p = Ok v <-> cell_value c p v).
Proof.
  intros c p v K. unfold group_value. split.
  - intros H. destruct (column_value c p) as [x| | | |] eqn:E; try discriminate. cbn [bind] in H.
    apply value_cell in E. rewrite K in E. destruct E as (y & -> & C). injection H as <-. exact C.
  - intros H. assert (E : column_value c p = Ok (Some v)).
    { apply value_cell. rewrite K. exists v. split; [reflexivity|exact H]. }
    rewrite E. reflexivity.
Qed.

Definition all_known (cols : list column) : Prop := Forall (fun c => known c = true) cols.

Lemma grouped_all_known : forall cs, all_known (grouped cs).
Proof. intros cs. apply Forall_forall. intros c I. apply grouped_known in I. apply I. Qed.

Lemma readable_grouped : forall cs rows, readable cs rows -> readable (grouped cs) rows.
Proof.
  intros cs rows H. eapply Forall_impl; [|exact H]. intros r F. apply Forall_forall. intros c I.
  apply grouped_known in I. destruct I as [I _]. rewrite Forall_forall in F. apply F, I.
Qed.

Lemma group_values : forall cols p, all_known cols ->
  Forall (fun c => known c = true -> exists v, cell_value c p v) cols ->
  exists vs, mapM (fun c => group_value c p) cols = Ok vs /\ Forall2 (fun c v => cell_value c p v) cols vs.
Proof.
  intros cols p K H. induction H as [|c cols H1 H2 IH]; [exists []; split; [reflexivity|constructor]|].
  inversion K as [|? ? K1 K2]; subst. destruct (IH K2) as (vs & E & F). destruct (H1 K1) as [v V].
  exists (v :: vs). split; [|constructor; assumption]. cbn [mapM].
  rewrite (proj2 (group_value_cell c p v K1) V). cbn [bind]. rewrite E. reflexivity.
Qed.

(** ** Vectors of values *)

Definition filled (cols : list column) (rows : list (N * pview)) (vals : list (list value)) : Prop :=
  Forall2 (fun c vs => Forall2 (fun r v => cell_value c (snd r) v) rows vs) cols vals.

Lemma filled_nil : forall cols, filled cols [] (map (fun _ => []) cols).
Proof. induction cols; constructor; [constructor|exact IHcols]. Qed.

Lemma filled_clear : forall cols rows vals, filled cols rows vals -> filled cols [] (map (fun _ => []) vals).
Proof. intros cols rows vals H. induction H; constructor; [constructor|exact IHForall2]. Qed.

Lemma filled_append : forall cols rows vals i p vs, filled cols rows vals ->
  Forall2 (fun c v => cell_value c p v) cols vs ->
  filled cols (rows ++ [(i, p)]) (append_values vals vs).
Proof.
  intros cols rows vals i p vs H. revert vs. induction H as [|c v cols vals H1 H2 IH]; intros vs F;
    inversion F; subst; cbn [append_values]; constructor; [|apply IH; assumption].
  apply Forall2_app; [exact H1|]. constructor; [assumption|constructor].
Qed.

Lemma Forall2_len : forall A B (R : A -> B -> Prop) a b, Forall2 R a b -> length a = length b.
Proof. intros A B R a b H. induction H; cbn; [reflexivity|]. rewrite IHForall2. reflexivity. Qed.

(** ** The dict *)

Lemma dict_set_new : forall V (d : list (bytes * V)) k v, ~ In k (map fst d) -> dict_set d k v = d ++ [(k, v)].
Proof.
  induction d as [|[k' v'] d IH]; intros k v H; cbn [dict_set app]; [reflexivity|].
  destruct (bytes_eqb k' k) eqn:E.
  - apply bytes_eqb_true in E. subst k'. exfalso. apply H. left. reflexivity.
  - rewrite IH; [reflexivity|]. intros I. apply H. right. exact I.
Qed.

Lemma py_dict_combine : forall cs vals d, length cs = length vals -> NoDup (map c_name cs) ->
  (forall c, In c cs -> ~ In (c_name c) (map fst d)) ->
  py_dict cs vals d = d ++ combine (map c_name cs) vals.
Proof.
  induction cs as [|c cs IH]; intros [|v vals] d L ND H; cbn [py_dict map combine]; try discriminate.
  - rewrite app_nil_r. reflexivity.
  - cbn [map] in ND. inversion ND as [|? ? N1 N2]; subst.
    rewrite dict_set_new by (apply H; left; reflexivity).
    rewrite IH; [rewrite <- app_assoc; reflexivity|cbn in L; lia|exact N2|].
    intros c' I J. rewrite map_app in J. apply in_app_or in J. destruct J as [J|[J|[]]].
    + apply (H c'); [right; exact I|exact J].
    + cbn in J. apply N1. rewrite J. apply in_map, I.
Qed.

Lemma combine_fst : forall A B (a : list A) (b : list B), length a = length b -> map fst (combine a b) = a.
Proof.
  induction a as [|x a IH]; intros [|y b] L; cbn in *; try discriminate; [reflexivity|].
  rewrite IH by lia. reflexivity.
Qed.

Lemma py_dict_data : forall cs rows vals, NoDup (map c_name (filter known cs)) ->
  filled (grouped cs) rows vals -> py_data cs rows (py_dict (grouped cs) vals []).
Proof.
  intros cs rows vals ND F. pose proof (grouped_perm cs) as P.
  assert (ND' : NoDup (map c_name (grouped cs))).
  { eapply Permutation_NoDup; [|exact ND]. apply Permutation_map, Permutation_sym, P. }
  assert (L : length (grouped cs) = length vals) by (eapply Forall2_len; exact F).
  rewrite py_dict_combine by (auto; intros ? ? []). cbn [app].
  split.
  - rewrite combine_fst by (rewrite map_length; exact L). apply Permutation_map, P.
  - intros c I K. assert (G : In c (grouped cs)) by (apply grouped_known; auto).
    clear -F G. induction F as [|c' v cols vals F1 F2 IH]; [contradiction|].
    cbn [map combine]. destruct G as [->|G].
    + exists v. split; [left; reflexivity|exact F1].
    + destruct (IH G) as (vs & I & V). exists vs. split; [right; exact I|exact V].
Qed.

(** ** The chunks *)

Record py_ok (cs : list column) (size : N) (pend : list (N * pview)) (s : pychunk) : Prop := {
  po_size : py_size s = size;
  po_cols : py_cols s = grouped cs;
  po_idata : py_idata s = lenN pend;
  po_vals : filled (grouped cs) pend (py_vals s);
  po_end : forall l i, map fst pend = l ++ [i] -> py_iend s = i
}.

Definition small (size : N) (pend : list (N * pview)) : Prop := size <> 0 -> lenN pend < size.

Lemma consecutive_app : forall a b i,
  consecutive i (a ++ b) -> consecutive i a /\ consecutive (i + lenN a) b.
Proof.
  unfold consecutive. induction a as [|x a IH]; intros b i H.
  - change (lenN (@nil (N * pview))) with 0. rewrite N.add_0_r. split; [reflexivity|exact H].
  - cbn [app map length from] in H. injection H as H1 H2. apply IH in H2. destruct H2 as [A B].
    cbn [map length from]. split; [f_equal; assumption|].
    rewrite B. f_equal. unfold lenN. cbn [length]. lia.
Qed.

Lemma lenN_app1 : forall A (l : list A) x, lenN (l ++ [x]) = lenN l + 1.
Proof. intros. unfold lenN. rewrite app_length. cbn [length]. lia. Qed.

(** Pushing a row: the new state, and the chunk delivered if it is complete. *)
Lemma py_push : forall cs size pend s i p, py_ok cs size pend s -> small size pend ->
  readable cs [(i, p)] -> lenN pend + 1 < W64 ->
  exists s', py_push_row (fun x => (x, [])) s i p = Ok (s', [])
    /\ py_ok cs size (pend ++ [(i, p)]) s' /\ py_istart s' = py_istart s
    /\ py_push_row py_flush s i p
       = Ok (if lenN pend + 1 =? size then py_flush s' else (s', [])).
Proof.
  intros cs size pend s i p [Z C D V E] SM RD B.
  apply readable_grouped in RD. inversion RD as [|? ? R _]; subst. cbn [snd] in R.
  destruct (group_values (grouped cs) p (grouped_all_known cs) R) as (vs & M & F).
  unfold py_push_row. rewrite C, M. cbn [bind]. cbn [py_idata py_size].
  rewrite D, add64_small by exact B. eexists. split; [|split; [|split]].
  - destruct (_ =? _); reflexivity.
  - constructor; cbn [py_size py_cols py_idata py_vals py_iend]; auto.
    + rewrite lenN_app1. reflexivity.
    + apply filled_append; assumption.
    + intros l j H. rewrite map_app in H. cbn [map fst] in H. apply app_inj_tail in H. apply H.
  - reflexivity.
  - destruct (_ =? _); reflexivity.
Qed.

Lemma lenN_app' : forall A (a b : list A), lenN (a ++ b) = lenN a + lenN b.
Proof. intros. unfold lenN. rewrite app_length. lia. Qed.

Lemma py_flush_ok : forall cs size pend s, NoDup (map c_name (filter known cs)) -> py_ok cs size pend s -> pend <> [] ->
  exists s' k, py_flush s = (s', [k]) /\ py_ok cs size [] s' /\ py_chunk cs pend k
    /\ (consecutive (py_istart s) pend -> py_istart s + lenN pend < W64 ->
        py_ranges pend k /\ py_istart s' = py_istart s + lenN pend).
Proof.
  intros cs size pend s ND [Z C D V E] NE. unfold py_flush. rewrite D.
  assert (LP : lenN pend <> 0) by (destruct pend; [congruence|unfold lenN; cbn; lia]).
  destruct (N.eqb_spec (lenN pend) 0) as [L|L]; [contradiction|].
  destruct (exists_last NE) as (pre & [i p] & PE).
  assert (PE' : map fst pend = map fst pre ++ [i]) by (rewrite PE, map_app; reflexivity).
  eexists _, _. split; [reflexivity|]. split; [|split].
  - constructor; cbn [py_clear py_size py_cols py_idata py_vals py_iend]; auto.
    + eapply filled_clear. exact V.
    + intros l j H. destruct l; discriminate.
  - cbn [py_chunk]. split; [rewrite C; apply py_dict_data; assumption|].
    rewrite (E _ _ PE'). exists (map fst pre). exact PE'.
  - intros H B. cbn [py_ranges py_clear py_istart]. rewrite (E _ _ PE').
    pose proof H as H0. rewrite PE in H0. apply consecutive_app in H0. destruct H0 as [H1 H2].
    unfold consecutive in H2. cbn [map fst length from] in H2. injection H2 as H2.
    assert (LN : lenN pend = lenN pre + 1) by (rewrite PE, lenN_app1; reflexivity).
    split.
    + exists (map fst pre). split; [exact PE'|]. rewrite <- PE', H.
      destruct pend; [congruence|reflexivity].
    + rewrite add64_small by lia. lia.
Qed.

Lemma py_feed : forall cs size, NoDup (map c_name (filter known cs)) ->
  forall evs pend s calls, no_props evs -> py_ok cs size pend s -> small size pend ->
  readable cs (rows_of evs) -> lenN (pend ++ rows_of evs) < W64 ->
  exists s' new cks pend',
    feed pychunk_step (s, calls) evs = Ok (s', calls ++ new)
    /\ py_ok cs size pend' s' /\ small size pend'
    /\ pend ++ rows_of evs = concat cks ++ pend'
    /\ Forall2 (py_chunk cs) cks new
    /\ Forall (fun ch => ch <> []) cks
    /\ (size <> 0 -> Forall (fun ch => lenN ch <= size) cks)
    /\ (Forall (fun e => ~ is_end e) evs -> Forall (fun ch => lenN ch = size) cks)
    /\ (consecutive (py_istart s) (pend ++ rows_of evs) ->
        py_istart s + lenN (pend ++ rows_of evs) < W64 -> Forall2 py_ranges cks new
        /\ consecutive (py_istart s') pend'
        /\ py_istart s' + lenN pend' = py_istart s + lenN (pend ++ rows_of evs)).
Proof.
  intros cs size ND evs. induction evs as [|ev evs IH]; intros pend s calls NP OKs SM RD B.
  - exists s, [], [], pend. cbn [feed rows_of flat_map concat app]. rewrite !app_nil_r.
    split; [reflexivity|]. split; [exact OKs|]. split; [exact SM|]. split; [reflexivity|].
    split; [constructor|]. split; [constructor|]. split; [constructor|]. split; [constructor|].
    intros H _. split; [constructor|]. split; [exact H|reflexivity].
  - inversion NP as [|? ? NP1 NP2]; subst. destruct ev as [h md|i p|]; [contradiction| |].
    + change (rows_of (EvRow i p :: evs)) with ([(i, p)] ++ rows_of evs) in *.
      apply Forall_app in RD. destruct RD as [RD1 RD2].
      rewrite app_assoc in *.
      assert (BP : lenN pend + 1 < W64).
      { rewrite lenN_app', lenN_app1 in B. lia. }
      destruct (py_push cs size pend s i p OKs SM RD1 BP) as (s1 & _ & OK1 & IS1 & P1).
      cbn [feed pychunk_step]. rewrite P1. cbn [bind].
      destruct (N.eqb_spec (lenN pend + 1) size) as [EZ|NZ].
      * destruct (py_flush_ok cs size _ s1 ND OK1) as (s2 & k & FL & OK2 & CK & RG).
        { destruct pend; discriminate. }
        rewrite FL. cbn [bind].
        destruct (IH [] s2 (calls ++ [k]) NP2 OK2) as (s' & new & cks & pend' & F & G1 & G2 & G3 & G4 & G5 & G6 & G7 & G8); auto.
        { intros HZ. change (lenN []) with 0. lia. }
        { cbn [app]. rewrite lenN_app' in B. lia. }
        cbn [app] in G3, G8.
        exists s', (k :: new), ((pend ++ [(i, p)]) :: cks), pend'.
        split; [rewrite F, <- app_assoc; reflexivity|]. split; [exact G1|]. split; [exact G2|].
        split; [cbn [concat]; rewrite <- (app_assoc _ (concat cks)), <- G3; reflexivity|].
        split; [constructor; assumption|]. split; [constructor; [destruct pend; discriminate|exact G5]|].
        assert (LS : lenN (pend ++ [(i, p)]) = size) by (rewrite lenN_app1; exact EZ).
        split; [intros HZ; constructor; [lia|exact (G6 HZ)]|].
        split; [intros NE; inversion NE; subst; constructor; [exact LS|apply G7; assumption]|].
        intros CO BO. apply consecutive_app in CO. destruct CO as [CO1 CO2].
        rewrite lenN_app' in BO |- *. rewrite <- IS1 in CO1, CO2, BO |- *.
        destruct (RG CO1) as [RG1 RG2]; [lia|]. rewrite <- RG2 in CO2.
        destruct (G8 CO2) as (G81 & G82 & G83); [lia|].
        split; [constructor; assumption|]. split; [exact G82|lia].
      * destruct (IH (pend ++ [(i, p)]) s1 calls NP2 OK1) as (s' & new & cks & pend' & F & G1 & G2 & G3 & G4 & G5 & G6 & G7 & G8); auto.
        { intros HZ. rewrite lenN_app1. specialize (SM HZ). lia. }
        exists s', new, cks, pend'. rewrite app_nil_r.
        split; [exact F|]. split; [exact G1|]. split; [exact G2|]. split; [exact G3|].
        split; [exact G4|]. split; [exact G5|]. split; [exact G6|].
        split; [intros NE; inversion NE; subst; apply G7; assumption|].
        rewrite <- IS1. exact G8.
    + change (rows_of (EvEnd :: evs)) with (rows_of evs) in *. cbn [feed pychunk_step].
      destruct pend as [|r0 pend0].
      * assert (FL : py_flush s = (s, [])) by (unfold py_flush; rewrite (po_idata _ _ _ _ OKs); reflexivity).
        rewrite FL. cbn [bind]. rewrite app_nil_r.
        destruct (IH [] s calls NP2 OKs SM RD B) as (s' & new & cks & pend' & F & G1 & G2 & G3 & G4 & G5 & G6 & G7 & G8).
        exists s', new, cks, pend'.
        split; [exact F|]. split; [exact G1|]. split; [exact G2|]. split; [exact G3|].
        split; [exact G4|]. split; [exact G5|]. split; [exact G6|].
        split; [intros NE; inversion NE as [|? ? N1 N2]; subst; exfalso; apply N1; exact I|]. exact G8.
      * destruct (py_flush_ok cs size (r0 :: pend0) s ND OKs) as (s2 & k & FL & OK2 & CK & RG); [discriminate|].
        rewrite FL. cbn [bind].
        destruct (IH [] s2 (calls ++ [k]) NP2 OK2) as (s' & new & cks & pend' & F & G1 & G2 & G3 & G4 & G5 & G6 & G7 & G8); auto.
        { intros HZ. change (lenN []) with 0. lia. }
        { cbn [app]. rewrite lenN_app' in B. lia. }
        change (@nil (N * pview) ++ rows_of evs) with (rows_of evs) in G3, G8.
        exists s', (k :: new), ((r0 :: pend0) :: cks), pend'.
        split; [rewrite F, <- app_assoc; reflexivity|]. split; [exact G1|]. split; [exact G2|].
        split; [cbn [concat]; rewrite <- (app_assoc _ (concat cks)), <- G3; reflexivity|].
        split; [constructor; assumption|]. split; [constructor; [discriminate|exact G5]|].
        split; [intros HZ; constructor; [specialize (SM HZ); lia|exact (G6 HZ)]|].
        split; [intros NE; inversion NE as [|? ? N1 N2]; subst; exfalso; apply N1; exact I|].
        intros CO BO. apply consecutive_app in CO. destruct CO as [CO1 CO2].
        rewrite lenN_app' in BO |- *.
        destruct (RG CO1) as [RG1 RG2]; [lia|]. rewrite <- RG2 in CO2.
        destruct (G8 CO2) as (G81 & G82 & G83); [lia|].
        split; [constructor; assumption|]. split; [exact G82|lia].
Qed.

Lemma feed_app : forall S (step : S -> event -> res S) a b s,
  feed step s (a ++ b) = bind (feed step s a) (fun s' => feed step s' b).
Proof.
  induction a as [|e a IH]; intros b s; cbn [app feed]; [reflexivity|].
  destruct (step s e); cbn [bind]; auto.
Qed.

Lemma py_start : forall cs size md, cs = md_columns md ->
  py_ok cs size [] (pychunk_props (pychunk_new size) (md_columns md)).
Proof.
  intros cs size md ->. constructor; cbn; try reflexivity.
  - apply filled_nil.
  - intros [|? ?] i H; discriminate.
Qed.

(** Any history which ends with end_of_data. *)
Lemma py_history : forall size h md evs, NoDup (map c_name (filter known (md_columns md))) ->
  no_props evs -> readable (md_columns md) (rows_of evs) -> lenN (rows_of evs) < W64 ->
  exists s calls cks,
    feed pychunk_step (pychunk_new size, []) (EvProps h md :: evs ++ [EvEnd]) = Ok (s, calls)
    /\ rows_of evs = concat cks
    /\ Forall2 (py_chunk (md_columns md)) cks calls
    /\ Forall (fun ch => ch <> []) cks
    /\ (size <> 0 -> Forall (fun ch => lenN ch <= size) cks)
    /\ (Forall (fun e => ~ is_end e) evs -> Forall (fun ch => lenN ch = size) (removelast cks))
    /\ (consecutive 0 (rows_of evs) -> Forall2 py_ranges cks calls).
Proof.
  intros size h md evs ND NP RD B. set (cs := md_columns md) in *.
  cbn [feed pychunk_step bind]. change (md_columns md) with cs.
  pose proof (py_start cs size md eq_refl) as OK0. change (md_columns md) with cs in OK0.
  assert (SM0 : small size []) by (intros HZ; change (lenN (@nil (N * pview))) with 0; lia).
  destruct (py_feed cs size ND evs [] _ [] NP OK0 SM0 RD B)
    as (s1 & new & cks & pend & F & G1 & G2 & G3 & G4 & G5 & G6 & G7 & G8).
  cbn [app] in F, G3, G8.
  rewrite feed_app, F. cbn [bind feed pychunk_step].
  change (py_istart (pychunk_props (pychunk_new size) cs)) with 0 in G8.
  destruct pend as [|r0 pend0].
  - assert (FL : py_flush s1 = (s1, [])) by (unfold py_flush; rewrite (po_idata _ _ _ _ G1); reflexivity).
    rewrite FL. cbn [bind]. rewrite app_nil_r in G3.
    exists s1, new, cks. rewrite app_nil_r. split; [reflexivity|]. split; [exact G3|].
    split; [exact G4|]. split; [exact G5|]. split; [exact G6|]. split.
    + intros NE. specialize (G7 NE). clear -G7. induction G7 as [|ch cks H1 H2 IH]; [constructor|].
      cbn [removelast]. destruct cks; constructor; assumption.
    + intros CO. apply (G8 CO). cbn. exact B.
  - destruct (py_flush_ok cs size (r0 :: pend0) s1 ND G1) as (s2 & k & FL & OK2 & CK & RG); [discriminate|].
    rewrite FL. cbn [bind].
    exists s2, (new ++ [k]), (cks ++ [r0 :: pend0]). split; [reflexivity|].
    split; [rewrite concat_app; cbn [concat]; rewrite app_nil_r; exact G3|].
    split; [apply Forall2_app; [exact G4|constructor; [exact CK|constructor]]|].
    split; [apply Forall_app; split; [exact G5|constructor; [discriminate|constructor]]|].
    split; [intros HZ; apply Forall_app; split; [exact (G6 HZ)|constructor; [specialize (G2 HZ); lia|constructor]]|].
    split; [intros NE; rewrite removelast_last; exact (G7 NE)|].
    intros CO. destruct (G8 CO) as (A1 & A2 & A3); [cbn; exact B|].
    apply Forall2_app; [exact A1|]. constructor; [|constructor]. apply RG; [exact A2|].
    change (0 + lenN (rows_of evs)) with (lenN (rows_of evs)) in A3. rewrite A3. exact B.
Qed.

Lemma no_ends : forall rows, Forall (fun e => ~ is_end e) (pushes rows).
Proof. intros rows. apply Forall_map, Forall_forall. intros r _. exact (fun x => x). Qed.

Lemma pushes_no_props : forall rows, no_props (pushes rows).
Proof. intros rows. apply Forall_map, Forall_forall. intros r _. exact I. Qed.

Lemma rows_of_pushes : forall rows, rows_of (pushes rows) = rows.
Proof. induction rows as [|[i p] rows IH]; [reflexivity|]. cbn. f_equal. exact IH. Qed.

(** The rows, then end_of_data. *)
Lemma py_read_all : forall size h md rows, NoDup (map c_name (filter known (md_columns md))) ->
  readable (md_columns md) rows -> lenN rows < W64 ->
  exists s calls cks,
    feed pychunk_step (pychunk_new size, []) (EvProps h md :: pushes rows ++ [EvEnd]) = Ok (s, calls)
    /\ chunked size rows cks
    /\ Forall2 (py_chunk (md_columns md)) cks calls
    /\ (consecutive 0 rows -> Forall2 py_ranges cks calls).
Proof.
  intros size h md rows ND RD B.
  destruct (py_history size h md (pushes rows) ND (pushes_no_props rows))
    as (s & calls & cks & F & G1 & G2 & G3 & G4 & G5 & G6); try (rewrite rows_of_pushes; assumption).
  rewrite rows_of_pushes in *. exists s, calls, cks. split; [exact F|].
  split; [|split; [exact G2|exact G6]].
  split; [exact G1|]. split; [exact G3|]. split; [apply G5, no_ends|exact G4].
Qed.

(** ** SinkData *)

Lemma py_data_feed : forall cs size evs pend s calls, no_props evs -> Forall (fun e => ~ is_end e) evs ->
  py_ok cs size pend s -> readable cs (rows_of evs) -> lenN (pend ++ rows_of evs) < W64 ->
  exists s', feed pydata_step (s, calls) evs = Ok (s', calls)
    /\ py_ok cs size (pend ++ rows_of evs) s'.
Proof.
  intros cs size evs. induction evs as [|ev evs IH]; intros pend s calls NP NE OKs RD B.
  - exists s. cbn [rows_of flat_map]. rewrite app_nil_r. split; [reflexivity|exact OKs].
  - inversion NP as [|? ? NP1 NP2]; subst. inversion NE as [|? ? NE1 NE2]; subst.
    destruct ev as [h md|i p|]; [contradiction| |exfalso; apply NE1; exact I].
    change (rows_of (EvRow i p :: evs)) with ([(i, p)] ++ rows_of evs) in *.
    apply Forall_app in RD. destruct RD as [RD1 RD2]. rewrite app_assoc in *.
    assert (BP : lenN pend + 1 < W64) by (rewrite lenN_app', lenN_app1 in B; lia).
    cbn [feed pydata_step].
    assert (P : exists s1, py_push_row (fun x => (x, [])) s i p = Ok (s1, []) /\ py_ok cs size (pend ++ [(i, p)]) s1).
    { destruct OKs as [Z C D V E]. apply readable_grouped in RD1. inversion RD1 as [|? ? R _]; subst. cbn [snd] in R.
      destruct (group_values (grouped cs) p (grouped_all_known cs) R) as (vs & M & F).
      unfold py_push_row. rewrite C, M. cbn [bind]. eexists. split; [destruct (_ =? _); reflexivity|].
      constructor; cbn [py_size py_cols py_idata py_vals py_iend]; auto.
      - rewrite D, add64_small by exact BP. rewrite lenN_app1. reflexivity.
      - apply filled_append; assumption.
      - intros l j H. rewrite map_app in H. cbn [map fst] in H. apply app_inj_tail in H. apply H. }
    destruct P as (s1 & P1 & OK1). rewrite P1. cbn [bind]. rewrite app_nil_r. apply IH; assumption.
Qed.

Lemma pydata_all : forall h md rows size, NoDup (map c_name (filter known (md_columns md))) ->
  readable (md_columns md) rows -> lenN rows < W64 ->
  exists s calls,
    feed pydata_step (pychunk_new size, []) (EvProps h md :: pushes rows ++ [EvEnd]) = Ok (s, calls)
    /\ py_delivered (md_columns md) rows calls.
Proof.
  intros h md rows size ND RD B. set (cs := md_columns md) in *.
  cbn [feed pydata_step bind]. change (md_columns md) with cs.
  set (s0 := pychunk_props _ cs).
  assert (OK0 : py_ok cs (md_row_count md) [] s0).
  { constructor; cbn; try reflexivity; [apply filled_nil|]. intros [|? ?] i H; discriminate. }
  destruct (py_data_feed cs (md_row_count md) (pushes rows) [] s0 [] (pushes_no_props rows) (no_ends rows) OK0)
    as (s1 & F & OK1); try (cbn [app]; rewrite rows_of_pushes; assumption).
  cbn [app] in F, OK1. rewrite rows_of_pushes in OK1.
  rewrite feed_app, F. cbn [bind feed pydata_step]. rewrite (po_idata _ _ _ _ OK1).
  destruct rows as [|r rows].
  - exists s1, []. split; [reflexivity|]. reflexivity.
  - destruct (N.eqb_spec (lenN (r :: rows)) 0) as [L|L]; [unfold lenN in L; cbn in L; lia|].
    eexists _, _. cbn [bind app]. split; [reflexivity|]. eexists. split; [reflexivity|].
    rewrite (po_cols _ _ _ _ OK1). apply py_dict_data; [exact ND|]. apply (po_vals _ _ _ _ OK1).
Qed.

(** SinkData over any history which ends with end_of_data. *)
Lemma pydata_segments : forall cs size evs, NoDup (map c_name (filter known cs)) ->
  forall pend s calls, no_props evs ->
  py_ok cs size pend s -> readable cs (rows_of evs) -> lenN (pend ++ rows_of evs) < W64 ->
  exists s' new cks,
    feed pydata_step (s, calls) (evs ++ [EvEnd]) = Ok (s', calls ++ new)
    /\ pend ++ rows_of evs = concat cks
    /\ Forall2 (fun ch k => exists d, k = PySetData d /\ py_data cs ch d) cks new
    /\ Forall (fun ch => ch <> []) cks.
Proof.
  intros cs size evs ND.
  assert (ENDS : forall pend s calls, py_ok cs size pend s ->
    exists s' new cks, pydata_step (s, calls) EvEnd = Ok (s', calls ++ new) /\ py_ok cs size [] s'
      /\ pend = concat cks
      /\ Forall2 (fun ch k => exists d, k = PySetData d /\ py_data cs ch d) cks new
      /\ Forall (fun ch => ch <> []) cks).
  { intros pend s calls OKs. cbn [pydata_step]. rewrite (po_idata _ _ _ _ OKs).
    destruct pend as [|r pend].
    - exists s, [], []. rewrite app_nil_r. split; [reflexivity|]. split; [exact OKs|].
      split; [reflexivity|]. split; constructor.
    - destruct (N.eqb_spec (lenN (r :: pend)) 0) as [L|L]; [unfold lenN in L; cbn in L; lia|].
      destruct (py_flush_ok cs size (r :: pend) s ND OKs) as (s2 & k & FL & OK2 & _); [discriminate|].
      unfold py_flush in FL. rewrite (po_idata _ _ _ _ OKs) in FL.
      destruct (N.eqb_spec (lenN (r :: pend)) 0) as [L'|_]; [contradiction|]. injection FL as F1 _.
      exists (py_clear s), [PySetData (py_dict (py_cols s) (py_vals s) [])], [r :: pend].
      split; [reflexivity|]. split; [rewrite F1; exact OK2|].
      split; [cbn; rewrite app_nil_r; reflexivity|].
      split; [|repeat constructor; discriminate]. constructor; [|constructor].
      eexists. split; [reflexivity|]. rewrite (po_cols _ _ _ _ OKs). apply py_dict_data; [exact ND|].
      apply (po_vals _ _ _ _ OKs). }
  induction evs as [|ev evs IH]; intros pend s calls NP OKs RD B.
  - destruct (ENDS pend s calls OKs) as (s' & new & cks & P & _ & G1 & G2 & G3).
    exists s', new, cks. cbn [app feed rows_of flat_map]. rewrite P, app_nil_r. cbn [bind]. auto.
  - inversion NP as [|? ? NP1 NP2]; subst. destruct ev as [h md|i p|]; [contradiction| |].
    + change (rows_of (EvRow i p :: evs)) with ([(i, p)] ++ rows_of evs) in *.
      apply Forall_app in RD. destruct RD as [RD1 RD2].
      destruct (py_data_feed cs size [EvRow i p] pend s calls) as (s1 & F & OK1); auto.
      * repeat constructor.
      * rewrite app_assoc, lenN_app' in B. change (rows_of [EvRow i p]) with [(i, p)]. lia.
      * change (rows_of [EvRow i p]) with [(i, p)] in OK1. rewrite app_assoc in *.
        destruct (IH _ s1 calls NP2 OK1 RD2 B) as (s' & new & cks & F2 & G1 & G2 & G3).
        exists s', new, cks. change ((EvRow i p :: evs) ++ [EvEnd]) with ([EvRow i p] ++ (evs ++ [EvEnd])).
        rewrite feed_app, F. cbn [bind]. auto.
    + change (rows_of (EvEnd :: evs)) with (rows_of evs) in *.
      destruct (ENDS pend s calls OKs) as (s1 & new1 & cks1 & P & OK1 & G1 & G2 & G3).
      destruct (IH [] s1 (calls ++ new1) NP2 OK1 RD) as (s' & new & cks & F2 & K1 & K2 & K3).
      { cbn [app]. rewrite lenN_app' in B. lia. }
      exists s', (new1 ++ new), (cks1 ++ cks). cbn [app feed]. rewrite P. cbn [bind]. rewrite F2, app_assoc.
      split; [reflexivity|]. rewrite concat_app, <- G1. cbn [app] in K1. rewrite <- K1.
      split; [reflexivity|]. split; [apply Forall2_app; assumption|apply Forall_app; auto].
Qed.

Lemma pydata_history : forall size h md evs, NoDup (map c_name (filter known (md_columns md))) ->
  no_props evs -> readable (md_columns md) (rows_of evs) -> lenN (rows_of evs) < W64 ->
  exists s calls cks,
    feed pydata_step (pychunk_new size, []) (EvProps h md :: evs ++ [EvEnd]) = Ok (s, calls)
    /\ rows_of evs = concat cks
    /\ Forall2 (fun ch k => exists d, k = PySetData d /\ py_data (md_columns md) ch d) cks calls
    /\ Forall (fun ch => ch <> []) cks.
Proof.
  intros size h md evs ND NP RD B. set (cs := md_columns md) in *.
  cbn [feed pydata_step bind]. change (md_columns md) with cs.
  set (s0 := pychunk_props _ cs).
  assert (OK0 : py_ok cs (md_row_count md) [] s0).
  { constructor; cbn; try reflexivity; [apply filled_nil|]. intros [|? ?] i H; discriminate. }
  destruct (pydata_segments cs _ evs ND [] s0 [] NP OK0 RD B) as (s & new & cks & G).
  exists s, new, cks. exact G.
Qed.
