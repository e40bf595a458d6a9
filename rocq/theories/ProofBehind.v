(** Proofs about what stands behind the last row of a file. *)
From Verif Require Import Base Types Buffer Page Column Header Metadata Decomp Data Reader
  Lemmas SpecBuffer SpecReader ProofReader ProofMetaInv SpecPages SpecConform ProofConform SpecAsk ProofAsk ProofBisim ProofNamed.
Local Open Scope N_scope.

(** The end of the file was met only if rows are missing. *)
Definition unended (md : metadata) (d : dstate fstate) : Prop :=
  fs_eof (ps_is (ds_p d)) = true -> ds_page d = None /\ ds_row d <> md_row_count md.

Lemma read_page_eof : forall c e f plen p p', read_page c file_source e f plen p = (Ok true, p') ->
  fs_eof (ps_is p') = false.
Proof.
  intros c e f plen p p' H. unfold read_page in H. cbn [src_eof file_source] in H. unfold file_eof in H.
  destruct (fs_eof (ps_is p)) eqn:E; [discriminate|]. unfold read_stream in H.
  destruct (resize c (ps_buf p) (0 +! plen)) as [b1| | | |]; try discriminate.
  cbn [src_read file_source] in H. unfold Buffer.file_read in H. rewrite E in H. cbn [orb] in H.
  destruct (fs_fail (ps_is p)).
  { cbn [lenN length] in H. change (lenN [] =? 0) with true in H. cbn iota in H.
    cbn [fs_eof] in H. discriminate. }
  destruct (2 ^ 63 <=? plen).
  { change (lenN [] =? 0) with true in H. cbn iota in H. cbn [fs_eof] in H. discriminate. }
  destruct (plen <=? lenN (fs_rest (ps_is p))).
  - match type of H with context [if ?b then Ok (mem b1) else ?w] =>
      destruct (if b then Ok (mem b1) else w) as [m| | | |] end; try discriminate.
    destruct (get_page_header e f (MBuf m (msize b1))); try discriminate.
    injection H as <-. reflexivity.
  - match type of H with context [if ?b then Ok (mem b1) else ?w] =>
      destruct (if b then Ok (mem b1) else w) as [m| | | |] end; discriminate.
Qed.

Lemma next_page_eof : forall c e f plen md fuel p pg p',
  read_next_page c file_source e f plen md fuel p = (Ok (Some pg), p') -> fs_eof (ps_is p') = false.
Proof.
  induction fuel as [|fuel IH]; intros p pg p' H; cbn [read_next_page] in H; [discriminate|].
  destruct (read_page c file_source e f plen p) as [[[|]| | | |] p1] eqn:R; try discriminate.
  destruct (build_page e f md (ps_buf p1) (ps_hdr p1)) as [[q|]| | | |]; try discriminate.
  - injection H as <- <-. eapply read_page_eof. exact R.
  - eapply IH. exact H.
Qed.

Section Steps.
Variables (c : cfg) (h : header) (md : metadata).

Lemma data_next_unended : forall d x d', unended md d -> data_next c file_source h md d = (x, d') ->
  unended md d'.
Proof.
  intros d x d' U H. unfold data_next in H.
  destruct (N.eqb_spec (ds_row d) (md_row_count md)) as [E|E]; [injection H as <- <-; exact U|].
  destruct (ds_page d) as [pg|] eqn:P; [|injection H as <- <-; exact U].
  destruct (page_next pg); [|injection H as <- <-; exact U].
  destruct (read_next_page c file_source (h_endianness h) (h_format h) (h_page_length h) md
              (page_fuel c) (ds_p d)) as [y p'] eqn:R.
  destruct y as [[pg'|]| | | |]; injection H as <- <-; unfold unended; cbn [ds_p ds_page ds_row]; intros Z;
    try (split; [reflexivity|exact E]).
  apply next_page_eof in R. rewrite R in Z. discriminate.
Qed.

Lemma read_line_unended0 : forall (d : dstate fstate) x d', unended md d -> data_read_line d = (x, d') ->
  unended md d'.
Proof.
  intros d x d' U H. unfold data_read_line in H.
  destruct (ds_page d) as [pg|] eqn:P; injection H as <- <-; [|exact U].
  unfold unended in *. cbn [ds_p]. intros Z. destruct (U Z) as [A _]. congruence.
Qed.

Lemma extract_unended : forall off len (d : dstate fstate) x d', unended md d ->
  extract_row_values c h md off len d = (x, d') -> unended md d'.
Proof.
  intros off len d x d' U H. unfold extract_row_values in H.
  destruct (fmt_assert c _); try (injection H as <- <-; exact U).
  destruct (len <? md_row_length md); [|injection H as <- <-; exact U].
  destruct (ds_dec d) as [|dst|dst]; [injection H as <- <-; exact U| |];
    (destruct (read_cells _ _ _) as [w| | | |]; try (injection H as <- <-; exact U)).
  - destruct (rdc w dst) as [y dst']. injection H as <- <-. exact U.
  - destruct (rle w dst) as [y dst']. injection H as <- <-. exact U.
Qed.

Lemma read_line_unended : forall d x d', unended md d -> read_line c file_source h md d = (x, d') ->
  unended md d'.
Proof.
  intros d x d' U H. unfold read_line in H.
  destruct (data_next c file_source h md d) as [y d1] eqn:N. apply data_next_unended in N; [|exact U].
  destruct y as [[|]| | | |]; try (injection H as <- <-; exact N).
  destruct (data_read_line d1) as [z d2] eqn:L. apply read_line_unended0 in L; [|exact N].
  destruct z as [[off len]| | | |]; try (injection H as <- <-; exact L).
  destruct (extract_row_values c h md off len d2) as [w d3] eqn:X. apply extract_unended in X; [|exact L].
  destruct w; injection H as <- <-; exact X.
Qed.

Lemma data_skip_unended : forall n d x d', unended md d -> data_skip c file_source h md n d = (x, d') ->
  unended md d'.
Proof.
  induction n as [|n IH]; intros d x d' U H; cbn [data_skip] in H; [injection H as <- <-; exact U|].
  destruct (data_next c file_source h md d) as [y d1] eqn:N. apply data_next_unended in N; [|exact U].
  destruct y as [[|]| | | |]; try (injection H as <- <-; exact N).
  destruct (data_read_line d1) as [z d2] eqn:L. apply read_line_unended0 in L; [|exact N].
  destruct z as [w| | | |]; try (injection H as <- <-; exact L). eapply IH; eauto.
Qed.

Lemma read_row_unended : forall d x r' ev, unended md d ->
  read_row c file_source (RState h md d) = (x, r', ev) -> unended md (rs_d r').
Proof.
  intros d x r' ev U H. unfold read_row in H. cbn [rs_h rs_md rs_d] in H.
  destruct (read_line c file_source h md d) as [y d1] eqn:L. apply read_line_unended in L; [|exact U].
  destruct y as [[p|]| | | |]; injection H as <- <- <-; exact L.
Qed.

Lemma read_rows_unended : forall n d x r' ev, unended md d ->
  read_rows c file_source n (RState h md d) = (x, r', ev) -> unended md (rs_d r').
Proof.
  induction n as [|n IH]; intros d x r' ev U H; cbn [read_rows] in H; [injection H as <- <- <-; exact U|].
  destruct (read_row c file_source (RState h md d)) as [[y r1] ev1] eqn:R.
  pose proof (read_row_keeps _ _ _ _ _ _ _ _ _ R) as K. apply read_row_unended in R; [|exact U].
  destruct y as [[|]| | | |]; try (injection H as <- <- <-; exact R).
  rewrite K in H. destruct (read_rows c file_source n (RState h md (rs_d r1))) as [[z r2] ev2] eqn:Q.
  apply IH in Q; [|exact R]. injection H as <- <- <-. exact Q.
Qed.

Lemma read_all_unended : forall n d x r' ev, unended md d ->
  read_all_loop c file_source n (RState h md d) = (x, r', ev) -> unended md (rs_d r').
Proof.
  induction n as [|n IH]; intros d x r' ev U H; cbn [read_all_loop] in H; [injection H as <- <- <-; exact U|].
  destruct (read_row c file_source (RState h md d)) as [[y r1] ev1] eqn:R.
  pose proof (read_row_keeps _ _ _ _ _ _ _ _ _ R) as K. apply read_row_unended in R; [|exact U].
  destruct y as [[|]| | | |]; try (injection H as <- <- <-; exact R).
  rewrite K in H. destruct (read_all_loop c file_source n (RState h md (rs_d r1))) as [[z r2] ev2] eqn:Q.
  apply IH in Q; [|exact R]. injection H as <- <- <-. exact Q.
Qed.

Lemma step_unended : forall o d x r' ev, unended md d ->
  step c file_source o (RState h md d) = (x, r', ev) -> unended md (rs_d r').
Proof.
  intros o d x r' ev U H. destruct o; cbn [step] in H.
  - destruct (read_row c file_source (RState h md d)) as [[y r1] ev1] eqn:E. injection H as <- <- <-.
    eapply read_row_unended; eauto.
  - destruct (read_rows c file_source (N.to_nat n) (RState h md d)) as [[y r1] ev1] eqn:E.
    injection H as <- <- <-. eapply read_rows_unended; eauto.
  - unfold read_all in H. match type of H with context [read_all_loop c file_source ?k ?r] =>
      destruct (read_all_loop c file_source k r) as [[y r1] ev1] eqn:E end. injection H as <- <- <-.
    eapply read_all_unended; eauto.
  - unfold skip in H. cbn [rs_h rs_md rs_d] in H.
    destruct (data_skip c file_source h md (N.to_nat n) d) as [y d1] eqn:E.
    injection H as <- <- <-. eapply data_skip_unended; eauto.
  - unfold read_row_no_sink in H. cbn [rs_h rs_md rs_d] in H.
    destruct (read_line c file_source h md d) as [y d1] eqn:E.
    injection H as <- <- <-. eapply read_line_unended; eauto.
  - injection H as <- <- <-. exact U.
Qed.

Lemma trace_unended : forall ops d l r, unended md d ->
  trace c file_source ops (Some (RState h md d)) = (l, Some r) -> unended md (rs_d r).
Proof.
  induction ops as [|o ops IH]; intros d l r U H; cbn [trace reader_step] in H.
  - injection H as <- <-. exact U.
  - destruct (step c file_source o (RState h md d)) as [[x r1] ev] eqn:E.
    pose proof (step_keeps _ _ _ _ _ _ _ _ _ _ E) as K. apply step_unended in E; [|exact U]. rewrite K in H.
    destruct x; try (injection H as <- <-; exact E);
      (match type of H with context [trace c file_source ops ?q] =>
         destruct (trace c file_source ops q) as [l2 r2] eqn:E2 end); injection H as <- ->; eapply IH; eauto.
Qed.
End Steps.

Lemma metadata_loop_eof : forall c e f plen fuel p m p' m', m_data_subheaders m = [] ->
  metadata_loop c file_source e f plen fuel p m = Ok (p', m') ->
  fs_eof (ps_is p') = false \/ ps_hdr p' = reset_page_header /\ m_data_subheaders m' = [].
Proof.
  induction fuel as [|fuel IH]; intros p m p' m' D H; cbn [metadata_loop] in H; [discriminate|].
  destruct (read_page c file_source e f plen p) as [[[|]| | | |] p1] eqn:R; try discriminate.
  - binv H. destruct x as [m1 stop]. destruct stop.
    + injection H as <- <-. left. eapply read_page_eof. exact R.
    + apply process_page_found in E; [|exact D]. destruct E as [E|E]; [discriminate|].
      eapply IH; [exact E|exact H].
  - injection H as <- <-. right. split; [|exact D]. unfold read_page in R.
    destruct (src_eof file_source (ps_is p)); [injection R as <-; reflexivity|].
    destruct (read_stream c file_source (ps_buf p) (ps_is p) plen 0) as [[y s'] b'].
    destruct y as [[|]| | | |]; try discriminate.
    + destruct (get_page_header e f b'); discriminate.
    + destruct (src_eof file_source s'); [injection R as <-; reflexivity|discriminate].
Qed.

Lemma opened_unended : forall c flt content r ev,
  open_reader c file_source flt (file_open content) = Ok (r, ev) -> md_row_count (rs_md r) <> 0 ->
  unended (rs_md r) (rs_d r).
Proof.
  intros c flt content r ev O NZ. apply open_reader_inv in O.
  destruct O as (s1 & b1 & p & m & _ & L & _ & RD & _).
  apply metadata_loop_eof in L; [|reflexivity]. unfold read_data in RD. binv RD.
  destruct L as [L|[L1 L2]].
  - assert (P : ds_p (rs_d r) = p).
    { destruct (m_data_subheaders m); [binv RD|]; injection RD as <-; reflexivity. }
    unfold unended. rewrite P, L. discriminate.
  - rewrite L2, L1 in RD. cbn [build_page reset_page_header ph_type] in RD.
    unfold build_page in RD. cbn [reset_page_header ph_type] in RD.
    change (PAGE_INVALID_TYPE =? PAGE_META_TYPE) with false in RD.
    change (PAGE_INVALID_TYPE =? PAGE_DATA_TYPE) with false in RD.
    change (is_page_mix PAGE_INVALID_TYPE) with false in RD. cbn [bind] in RD. injection RD as <-.
    intros _. cbn [ds_page ds_row]. split; [reflexivity|]. auto.
Qed.

(** Once all the rows were delivered. *)
Lemma behind_all : forall c flt content extra ops r0 ev l r,
  open_reader c file_source flt (file_open content) = Ok (r0, ev) ->
  trace c file_source ops (Some r0) = (l, Some r) ->
  md_row_count (rs_md r0) <> 0 -> current_row_index (Some r) = md_row_count (rs_md r0) ->
  session c file_source flt (file_open (content ++ extra)) ops = Ok (ev, l).
Proof.
  intros c flt content extra ops r0 ev l r O T NZ CI. pose proof (opened_unended _ _ _ _ _ O NZ) as U.
  destruct r0 as [h md d]. cbn [rs_md rs_d] in *. pose proof (trace_unended _ _ _ _ _ _ _ U T) as U'.
  assert (E : fs_eof (source_at r) = false).
  { destruct (fs_eof (source_at r)) eqn:E; [|reflexivity]. destruct (U' E) as [_ X]. destruct (X CI). }
  apply (same_beginning c flt content [] extra ops (RState h md d) ev l r); try assumption.
  - rewrite app_nil_r. exact O.
  - unfold lenN. cbn. lia.
Qed.

Lemma trace_app : forall S c (src : source S) a b r l r', trace c src a r = (l, r') ->
  Forall (fun x => exists y, snd (fst x) = Ok y) l ->
  trace c src (a ++ b) r = let '(l2, r2) := trace c src b r' in (l ++ l2, r2).
Proof.
  induction a as [|o a IH]; intros b r l r' H F; cbn [trace app] in *.
  - injection H as <- <-. destruct (trace c src b r). reflexivity.
  - destruct (reader_step c src o r) as [[x r1] ev].
    destruct x as [y| e| |u|].
    2: { destruct (trace c src a r1). injection H as <- _. inversion F as [|? ? [y E] _]. discriminate E. }
    2-4: injection H as <- _; inversion F as [|? ? [y E] _]; discriminate E.
    destruct (trace c src a r1) as [l1 r2] eqn:T. injection H as <- <-. inversion F; subst.
    rewrite (IH b r1 l1 r2 T) by assumption. destruct (trace c src b r2). reflexivity.
Qed.

Lemma cur_trace_all : forall ops i rows,
  fst (snd (cur_trace (ops ++ [OpReadAll]) (i, map Ok rows))) = i + lenN rows.
Proof.
  assert (RR : forall n i rows x cu ev, cur_read_rows n (i, map Ok rows) = (x, cu, ev) ->
    exists k, cu = (i + lenN (firstn k rows), map Ok (skipn k rows))
              /\ ((length rows < n)%nat -> skipn k rows = [])).
  { induction n as [|n IH]; intros i rows x cu ev H; cbn [cur_read_rows] in H.
    - injection H as <- <- <-. exists 0%nat. unfold lenN. cbn. rewrite N.add_0_r. split; [reflexivity|lia].
    - destruct rows as [|row rows]; cbn [map cur_read_row] in H.
      + injection H as <- <- <-. exists 0%nat. unfold lenN. cbn. rewrite N.add_0_r. auto.
      + destruct (cur_read_rows n (i + 1, map Ok rows)) as [[y cu1] ev1] eqn:E. injection H as <- <- <-.
        destruct (IH _ _ _ _ _ E) as (k & -> & K). exists (Datatypes.S k). cbn [firstn skipn]. split.
        * f_equal. unfold lenN. cbn [length]. lia.
        * cbn [length]. intros L. apply K. lia. }
  assert (R1 : forall i rows x cu ev, cur_read_row (i, map Ok rows) = (x, cu, ev) ->
    exists k, cu = (i + lenN (firstn k rows), map Ok (skipn k rows))).
  { intros i [|row rows] x cu ev H; cbn in H; injection H as <- <- <-.
    - exists 0%nat. unfold lenN. cbn. rewrite N.add_0_r. reflexivity.
    - exists 1%nat. reflexivity. }
  assert (ST : forall o i rows x cu ev, cur_step o (i, map Ok rows) = (x, cu, ev) ->
    exists k, cu = (i + lenN (firstn k rows), map Ok (skipn k rows))).
  { intros o i rows x cu ev H. destruct o; cbn [cur_step] in H.
    - destruct (cur_read_row _) as [[y cu1] ev1] eqn:E. injection H as <- <- <-. eauto.
    - destruct (cur_read_rows _ _) as [[y cu1] ev1] eqn:E. injection H as <- <- <-.
      destruct (RR _ _ _ _ _ _ E) as (k & K & _). eauto.
    - destruct (cur_read_rows _ _) as [[y cu1] ev1] eqn:E. injection H as <- <- <-.
      destruct (RR _ _ _ _ _ _ E) as (k & K & _). eauto.
    - cbn [cur_skip] in H. unfold lenN in H at 1. rewrite map_length in H.
      destruct (N.leb_spec n (N.of_nat (length rows))) as [L|L]; injection H as <- <- <-.
      + exists (N.to_nat n). rewrite skipn_map. f_equal. unfold lenN. rewrite firstn_length. lia.
      + exists (length rows). rewrite firstn_all, skipn_all. unfold lenN. rewrite map_length. reflexivity.
    - destruct (cur_read_row _) as [[y cu1] ev1] eqn:E. injection H as <- <- <-. eauto.
    - injection H as <- <- <-. exists 0%nat. unfold lenN. cbn. rewrite N.add_0_r. reflexivity. }
  induction ops as [|o ops IH]; intros i rows.
  - cbn [app cur_trace]. destruct (cur_step OpReadAll (i, map Ok rows)) as [[x cu] ev] eqn:E.
    pose proof (cur_step_fine _ _ _ _ _ _ E) as [[b ->] _]. cbn [snd]. cbn [cur_step] in E.
    destruct (cur_read_rows _ _) as [[y cu1] ev1] eqn:Q. injection E as _ <- _.
    destruct (RR _ _ _ _ _ _ Q) as (k & -> & K). cbn [snd fst] in *. rewrite map_length in K.
    specialize (K ltac:(lia)). f_equal. unfold lenN. f_equal.
    rewrite <- (firstn_skipn k rows) at 2. rewrite K, app_nil_r. reflexivity.
  - cbn [app cur_trace]. destruct (cur_step o (i, map Ok rows)) as [[x cu] ev] eqn:E.
    pose proof (cur_step_fine _ _ _ _ _ _ E) as [[b ->] _]. destruct (ST _ _ _ _ _ _ E) as (k & ->).
    specialize (IH (i + lenN (firstn k rows)) (skipn k rows)).
    destruct (cur_trace (ops ++ [OpReadAll]) _) as [t cu2]. cbn [snd] in *. rewrite IH.
    unfold lenN. rewrite firstn_length, skipn_length. lia.
Qed.

Lemma ended_stays : forall c h md d, ds_page d = None ->
  current_row_index (snd (trace c file_source [OpReadAll] (Some (RState h md d)))) = ds_row d.
Proof.
  intros c h md d P. cbn [trace reader_step step]. unfold read_all. cbn [read_all_loop rs_md rs_d].
  unfold read_row. cbn [rs_h rs_md rs_d]. unfold read_line, data_next. rewrite P.
  destruct (ds_row d =? md_row_count md); reflexivity.
Qed.

(** For files which hold a table. *)
Lemma behind_table : forall c flt content fields rows extra ops,
  conforms c content fields rows -> rows <> [] ->
  session c file_source flt (file_open (content ++ extra)) ops
  = session c file_source flt (file_open content) ops.
Proof.
  intros c flt content fields rows extra ops CF NE.
  destruct (conforms_back c flt content fields rows CF) as (r0 & cols & OR & _ & RM & _ & T).
  assert (RC : md_row_count (rs_md r0) = lenN rows) by (rewrite RM; destruct CF as [_ ->]; reflexivity).
  assert (NZ : md_row_count (rs_md r0) <> 0) by (rewrite RC; destruct rows; [congruence|unfold lenN; cbn; lia]).
  pose proof (opened_unended _ _ _ _ _ OR NZ) as U.
  pose proof (T ops) as [T1 _]. pose proof (T (ops ++ [OpReadAll])) as [_ T2]. rewrite cur_trace_all in T2.
  unfold session at 2. rewrite OR. clear T RM.
  destruct r0 as [h md d]. cbn [rs_md rs_d rs_h] in *.
  destruct (trace c file_source ops (Some (RState h md d))) as [l r1] eqn:TR. cbn [fst] in *.
  destruct (trace_keeps _ _ _ _ _ _ _ _ _ TR) as [d' ->].
  pose proof (trace_unended _ _ _ _ _ _ _ U TR) as U'. cbn [rs_d] in U'.
  assert (FN : Forall (fun x => exists y, snd (fst x) = Ok y) l).
  { pose proof (cur_trace_fine ops 0 rows) as FN. cbv zeta in FN. rewrite <- T1 in FN. destruct FN as [_ F2].
    unfold seen in F2. apply Forall_forall. intros [[o x] ev] I. cbn [fst snd]. rewrite Forall_forall in F2.
    specialize (F2 _ (in_map _ _ _ I)). cbn [fst snd] in F2. destruct F2 as [b E].
    destruct x; try discriminate E. eauto. }
  assert (E : fs_eof (ps_is (ds_p d')) = false).
  { destruct (fs_eof (ps_is (ds_p d'))) eqn:E; [|reflexivity]. destruct (U' E) as [P X]. exfalso. apply X.
    rewrite (trace_app _ _ _ _ _ _ _ _ TR FN) in T2.
    pose proof (ended_stays c h md d' P) as ES.
    destruct (trace c file_source [OpReadAll] (Some (RState h md d'))) as [l2 r2]. cbn [snd] in *.
    rewrite RC. lia. }
  apply (same_beginning c flt content [] extra ops (RState h md d) _ l (RState h md d')); try assumption.
  - rewrite app_nil_r. exact OR.
  - unfold lenN. cbn. lia.
Qed.
