(** Proofs about named sources. *)
From Verif Require Import Base Types Buffer Page Column Header Metadata Decomp Data Reader Sinks
  Lemmas SpecValues ProofValues SpecBuffer ProofBuffer SpecHeader ProofHeader SpecDecomp ProofDecomp
  SpecReader ProofMetaInv ProofReader SpecPages ProofPages ProofOpen SpecAsk ProofAsk SpecConform ProofConform
  ProofRows ProofObjects Named SpecNamed.
From Coq Require Import ZifyBool ZifyNat ZifyN.
Local Open Scope N_scope.

(** ** Rows of the first pages *)

Lemma rows_on_app : forall ly a b, ~ no_data ly a ->
  rows_on ly (a ++ b) = rows_on ly a ++ flat_map (page_rows ly) b.
Proof.
  intros ly a b. induction a as [|q a IH]; intros H.
  - destruct H. constructor.
  - unfold rows_on in *. cbn [app data_pages]. destruct (begins ly q) eqn:B.
    + cbn [flat_map fst snd]. rewrite map_app, flat_map_app, !page_rows_on, <- app_assoc. reflexivity.
    + apply IH. intros F. apply H. constructor; assumption.
Qed.

Lemma no_data_rows : forall ly a b, no_data ly a -> rows_on ly (a ++ b) = rows_on ly b.
Proof. intros ly a b H. unfold rows_on. rewrite data_pages_skip by exact H. reflexivity. Qed.

Lemma no_data_nil : forall ly a, no_data ly a -> rows_on ly a = [].
Proof. intros ly a H. rewrite <- (app_nil_r a), no_data_rows by exact H. reflexivity. Qed.

Lemma no_data_app : forall ly a b, no_data ly (a ++ b) <-> no_data ly a /\ no_data ly b.
Proof. intros ly a b. apply Forall_app. Qed.

(** ** Where the Reader stands *)
Section Stands.
Variables (c : cfg) (h : header) (md : metadata) (pages : list bytes).
Local Notation ly := (layout_of h md).
Local Notation plen := (ly_page_length (layout_of h md)).

Record stands (d : dstate fstate) (pre : list bytes) (P rest : bytes) (pg : page) : Prop := {
  st_split : pages = pre ++ P :: complete_pages plen rest;
  st_page : ds_page d = Some pg;
  st_reading : reading plen (ds_p d) rest;
  st_holds : holds (ps_buf (ds_p d)) P;
  st_row : pg_row pg <= page_count pg;
  st_count : page_count pg < W64;
  st_usable : Forall (usable ly P) (lines pg);
  st_good : good_pages c ly rest;
  st_begun : ~ no_data ly (pre ++ [P]);
  st_rows : ds_row d + lenN (lines pg) = lenN (rows_on ly (pre ++ [P]));
  st_least : lenN (rows_on ly pre) < ds_row d \/ no_data ly pre
}.

Definition over (d : dstate fstate) : Prop :=
  ds_page d = None
  /\ (no_data ly pages \/ ds_row d = lenN (rows_on ly pages) /\ ds_row d <> md_row_count md).

Definition placed (d : dstate fstate) : Prop := (exists pre P rest pg, stands d pre P rest pg) \/ over d.

Lemma data_next_placed : forall d x d', page_bounds ly -> placed d ->
  data_next c file_source h md d = (x, d') ->
  (x = Ok false /\ placed d')
  \/ (x = Ok true /\ ds_row d' = ds_row d /\ ds_row d <> md_row_count md /\ exists pg place,
        ds_page d' = Some pg /\ page_read_line pg = Ok place
        /\ forall dec, placed (DState (ds_p d') dec (ds_row d + 1) (Some (page_inc pg)))).
Proof.
  intros d x d' (B1 & B2 & B3) S H. unfold data_next in H.
  destruct (N.eqb_spec (ds_row d) (md_row_count md)) as [E|E].
  { injection H as <- <-. left. auto. }
  destruct S as [(pre & P & rest & pg & [S1 S2 S3 S4 S5 S6 S7 S8 S9 S10 S11])|(O1 & O2)].
  2:{ rewrite O1 in H. injection H as <- <-. left. split; [reflexivity|]. right. split; assumption. }
  rewrite S2 in H. assert (LP : lenN P = plen).
  { destruct S3 as (_ & _ & S3). destruct S4 as (_ & S4 & _). congruence. }
  assert (UB : forall Q pg1, Forall (usable ly Q) (lines pg1) -> lenN Q = plen ->
             Forall (fun p => fst p + snd p <= plen) (lines pg1)).
  { intros Q pg1 U L. revert U. apply Forall_impl. intros a A. destruct A as [A _]. lia. }
  destruct (lines pg) as [|place ls] eqn:LN.
  - rewrite lines_nil in H by assumption. pose proof S8 as (T7 & T8 & T9).
    destruct (read_next_page_file c h md B1 B2 (page_fuel c) (ds_p d) rest S3 T7 T9)
      as (pre2 & y & p' & R & EP & Y).
    change (h_endianness h) with (ly_endian ly) in H.
    change (h_format h) with (ly_format ly) in H.
    change (h_page_length h) with plen in H. rewrite R in H.
    assert (EPR : rows_on ly (pre ++ P :: pre2) = rows_on ly (pre ++ [P])).
    { change (pre ++ P :: pre2) with (pre ++ [P] ++ pre2). rewrite app_assoc, rows_on_app by exact S9.
      rewrite empty_pages_rows by exact EP. apply app_nil_r. }
    rewrite lenN_nil, N.add_0_r in S10.
    destruct y as [pg'|].
    + destruct Y as (P' & rest' & Y1 & Y2 & Y3 & Y4). injection H as <- <-. right.
      split; [reflexivity|]. split; [reflexivity|]. split; [exact E|].
      rewrite Y1 in T7, T8, T9. apply Forall_app in T7, T8. destruct T7 as [_ T7]. destruct T8 as [_ T8].
      inversion T7 as [|? ? G7 T7']; subst. inversion T8 as [|? ? G8 T8']; subst.
      destruct (page_for_lines _ _ _ Y4) as [L1 L2].
      pose proof (good_usable _ _ G7) as U. pose proof (page_for_not_empty _ _ _ G8 Y4) as NE.
      pose proof (page_for_count _ _ _ B3 Y4) as CT. rewrite <- L1 in U, NE.
      rewrite app_length in T9. cbn [length] in T9.
      assert (LP' : lenN P' = plen).
      { destruct Y2 as (_ & _ & Y2). destruct Y3 as (_ & Y3 & _). congruence. }
      assert (R0 : pg_row pg' <= page_count pg') by lia.
      destruct (lines pg') as [|place ls] eqn:LN'; [congruence|].
      pose proof (lines_cons pg' place ls plen R0 CT ltac:(unfold W64; lia)) as LC.
      rewrite LN' in LC. specialize (LC ltac:(rewrite <- LN' in U |- *; exact (UB _ _ U LP')) eq_refl).
      destruct LC as (C1 & C2 & C3 & C4 & C5). inversion U as [|? ? U1 U2]; subst.
      exists pg', place. cbn [ds_page ds_p]. split; [reflexivity|]. split; [exact C2|].
      intros dec. left. exists (pre ++ P :: pre2), P', rest', (page_inc pg'). split; cbn [ds_page ds_p ds_row];
        try assumption; try reflexivity.
      * rewrite S1, Y1, <- app_assoc. reflexivity.
      * split; [exact T7'|]. split; [exact T8'|]. lia.
      * intros F. apply S9. apply no_data_app in F. destruct F as [F _].
        change (pre ++ P :: pre2) with (pre ++ [P] ++ pre2) in F. rewrite app_assoc in F.
        apply no_data_app in F. apply F.
      * rewrite rows_on_app.
        2:{ intros F. apply S9. change (pre ++ P :: pre2) with (pre ++ [P] ++ pre2) in F. rewrite app_assoc in F.
            apply no_data_app in F. apply F. }
        rewrite lenN_app, EPR, <- S10. cbn [flat_map]. rewrite app_nil_r. unfold page_rows.
        rewrite <- L1, lenN_map, lenN_cons. lia.
      * left. rewrite EPR. lia.
    + injection H as <- <-. left. split; [reflexivity|]. right. split; [reflexivity|]. right. cbn [ds_row].
      split; [|exact E]. rewrite S1, Y, EPR. exact S10.
  - pose proof (lines_cons pg place ls plen S5 S6 ltac:(unfold W64; lia)) as LC.
    rewrite LN in LC. specialize (LC ltac:(rewrite <- LN in S7 |- *; exact (UB _ _ S7 LP)) eq_refl).
    destruct LC as (C1 & C2 & C3 & C4 & C5). rewrite C1 in H. injection H as <- <-. right.
    split; [reflexivity|]. split; [reflexivity|]. split; [exact E|].
    exists pg, place. split; [exact S2|]. split; [exact C2|]. inversion S7 as [|? ? U1 U2]; subst.
    intros dec. left. exists pre, P, rest, (page_inc pg). split; cbn [ds_page ds_p ds_row]; try assumption; try reflexivity.
    + rewrite lenN_cons in S10. lia.
    + destruct S11 as [S11|S11]; [left; lia|right; exact S11].
Qed.

Definition kept (d : dstate fstate) : Prop := placed d /\ exists cu, sim c h md d cu.

Lemma read_line_kept : forall d x d', kept d -> read_line c file_source h md d = (x, d') -> kept d'.
Proof.
  intros d x d' [S [[i l] M]] H. split.
  2:{ pose proof (read_line_sim _ _ _ _ _ _ _ _ M H) as [_ X]. destruct l; [exists (i, [])|exists (i + 1, l)]; apply X. }
  unfold read_line in H. destruct (data_next c file_source h md d) as [n d1] eqn:N.
  pose proof (data_next_sim _ _ _ _ _ _ _ _ M N) as [_ X].
  destruct (data_next_placed _ _ _ (sim_bounds _ _ _ _ _ M) S N) as [[-> P]|(-> & R & NR & pg & place & P1 & P2 & P3)].
  { injection H as <- <-. exact P. }
  destruct l as [|a l]; [destruct X as [X _]; discriminate X|]. destruct X as (_ & W & _).
  rewrite <- R in NR. rewrite (data_read_line_sim _ md d1 pg place W NR P1 P2) in H. destruct place as [off len].
  rewrite R in H. set (d2 := DState (ds_p d1) (ds_dec d1) (ds_row d + 1) (Some (page_inc pg))) in *.
  destruct (extract_row_values c h md off len d2) as [y d3] eqn:EX.
  assert (O : dec_ok md (ds_dec d2)) by apply W.
  pose proof (extract_props _ _ _ _ _ _ _ _ _ O EX) as (Y1 & Y2 & Y3 & _). injection H as <- <-.
  replace d3 with (DState (ds_p d3) (ds_dec d3) (ds_row d3) (ds_page d3)) by (destruct d3; reflexivity).
  rewrite Y1, Y2, Y3. apply P3.
Qed.

Lemma data_skip_kept : forall n d x d', kept d -> data_skip c file_source h md n d = (x, d') -> kept d'.
Proof.
  induction n as [|n IH]; intros d x d' K H; cbn [data_skip] in H.
  - injection H as <- <-. exact K.
  - destruct K as [S [[i l] M]]. destruct (data_next c file_source h md d) as [y d1] eqn:N.
    pose proof (data_next_sim _ _ _ _ _ _ _ _ M N) as [_ X].
    destruct (data_next_placed _ _ _ (sim_bounds _ _ _ _ _ M) S N) as [[-> P]|(-> & R & NR & pg & place & P1 & P2 & P3)].
    + destruct l as [|a l]; [|destruct X as [X _]; discriminate X]. destruct X as [_ X].
      injection H as <- <-. split; [exact P|eauto].
    + destruct l as [|a l]; [destruct X as [X _]; discriminate X|].
      destruct X as (_ & W & _ & _ & KD & pg1 & P & place1 & X1 & X2 & X3 & X4 & X5 & X6 & X7).
      rewrite P1 in X1. injection X1 as <-. rewrite <- R in NR.
      rewrite (data_read_line_sim _ md d1 pg place W NR P1 P2), R in H.
      apply (IH _ _ _ (conj (P3 _) (ex_intro _ _ (X7 _ (proj2 (proj2 W)) KD))) H).
Qed.

Definition r_kept (r : rstate fstate) : Prop := rs_h r = h /\ rs_md r = md /\ kept (rs_d r).

Lemma read_row_kept : forall r x r' ev, r_kept r -> read_row c file_source r = (x, r', ev) -> r_kept r'.
Proof.
  intros r x r' ev (H1 & H2 & K) H. unfold read_row in H. rewrite H1, H2 in H.
  destruct (read_line c file_source h md (rs_d r)) as [y d'] eqn:L.
  apply (read_line_kept _ _ _ K) in L. assert (Q : r' = RState h md d').
  { destruct y as [[|]| | | |]; injection H as _ <- _; reflexivity. }
  rewrite Q. repeat split; apply L.
Qed.

Lemma read_rows_kept : forall n r x r' ev, r_kept r -> read_rows c file_source n r = (x, r', ev) -> r_kept r'.
Proof.
  induction n as [|n IH]; intros r x r' ev K H; cbn [read_rows] in H.
  - injection H as _ <- _. exact K.
  - destruct (read_row c file_source r) as [[y r1] ev1] eqn:E. apply (read_row_kept _ _ _ _ K) in E.
    destruct y as [[|]| | | |]; try (injection H as _ <- _; exact E).
    destruct (read_rows c file_source n r1) as [[z r2] ev2] eqn:E2. injection H as _ <- _. exact (IH _ _ _ _ E E2).
Qed.

Lemma read_all_kept : forall n r x r' ev, r_kept r -> read_all_loop c file_source n r = (x, r', ev) -> r_kept r'.
Proof.
  induction n as [|n IH]; intros r x r' ev K H; cbn [read_all_loop] in H.
  - injection H as _ <- _. exact K.
  - destruct (read_row c file_source r) as [[y r1] ev1] eqn:E. apply (read_row_kept _ _ _ _ K) in E.
    destruct y as [[|]| | | |]; try (injection H as _ <- _; exact E).
    destruct (read_all_loop c file_source n r1) as [[z r2] ev2] eqn:E2. injection H as _ <- _. exact (IH _ _ _ _ E E2).
Qed.

Lemma step_kept : forall o r x r' ev, r_kept r -> step c file_source o r = (x, r', ev) -> r_kept r'.
Proof.
  intros o r x r' ev K H. pose proof K as (H1 & H2 & K1). destruct o; cbn [step] in H.
  - destruct (read_row c file_source r) as [[y r1] ev1] eqn:E. injection H as _ <- _. exact (read_row_kept _ _ _ _ K E).
  - destruct (read_rows c file_source (N.to_nat n) r) as [[y r1] ev1] eqn:E. injection H as _ <- _.
    exact (read_rows_kept _ _ _ _ _ K E).
  - destruct (read_all c file_source r) as [[y r1] ev1] eqn:E. injection H as _ <- _.
    exact (read_all_kept _ _ _ _ _ K E).
  - unfold skip in H. rewrite H1, H2 in H. destruct (data_skip c file_source h md (N.to_nat n) (rs_d r)) as [y d'] eqn:E.
    apply (data_skip_kept _ _ _ _ K1) in E. injection H as _ <- _. repeat split; apply E.
  - unfold read_row_no_sink in H. rewrite H1, H2 in H. destruct (read_line c file_source h md (rs_d r)) as [y d'] eqn:E.
    apply (read_line_kept _ _ _ K1) in E. injection H as _ <- _. repeat split; apply E.
  - injection H as _ <- _. exact K.
Qed.

Lemma trace_kept : forall ops r l r', r_kept r -> trace c file_source ops (Some r) = (l, Some r') -> r_kept r'.
Proof.
  induction ops as [|o ops IH]; intros r l r' K H; cbn [trace reader_step] in H.
  - injection H as _ <-. exact K.
  - destruct (step c file_source o r) as [[x r1] ev] eqn:E. apply (step_kept _ _ _ _ _ K) in E.
    destruct x; try (injection H as _ <-; exact E);
      (destruct (trace c file_source ops (Some r1)) as [l2 r2] eqn:E2; injection H as _ ->; exact (IH _ _ _ E E2)).
Qed.

End Stands.

Lemma open_kept : forall c flt content r ev,
  open_reader c file_source flt (file_open content) = Ok (r, ev) -> max_alloc c < row_limit ->
  let ly := layout_of (rs_h r) (rs_md r) in
  let pages := file_pages content (rs_h r) in
  prefix (ly_format ly) + 6 <= ly_page_length ly ->
  good_data ly pages -> clear_start ly pages ->
  (length pages < page_fuel c)%nat ->
  r_kept c (rs_h r) (rs_md r) pages r.
Proof.
  intros c flt content r ev H MA ly pages X G CS PF.
  pose proof (open_sim c flt content r ev H MA X G CS PF) as SIM. cbv zeta in SIM. fold ly pages in SIM.
  split; [reflexivity|]. split; [reflexivity|]. split; [|eexists; exact SIM].
  pose proof (page_length_lt _ _ _ _ _ H) as PL.
  pose proof (opened_counts _ _ _ _ _ _ _ H) as (RC & _).
  pose proof (opened_data _ _ _ _ _ _ _ MA H) as (R0 & DO).
  destruct (opened_pages _ _ _ _ _ H X) as (p & m & HC & HD & HP). fold ly pages in HP.
  change (h_page_length (rs_h r)) with (ly_page_length ly) in PL.
  assert (P0 : 0 < ly_page_length ly) by (destruct (ly_format ly); cbn [prefix] in X; lia).
  assert (B : page_bounds ly) by (split; [exact P0|]; split; [lia|exact RC]).
  assert (CM : md_compression (m_md m) = ly_compression ly).
  { apply create_columns_md in HC. destruct HC as [cols [HC _]]. unfold ly, layout_of.
    cbn [ly_compression]. rewrite HC. reflexivity. }
  unfold read_data in HD. binv HD.
  assert (K : dec_kind (md_compression (rs_md r)) x).
  { unfold make_decompressor in E. destruct (md_compression (rs_md r)).
    - injection E as <-. exact I.
    - binv E. injection E as <-. exact I.
    - binv E. injection E as <-. exact I. }
  assert (KD : ds_dec (rs_d r) = x).
  { destruct (m_data_subheaders m); [binv HD|]; injection HD as <-; reflexivity. }
  assert (CSS : forall pre pg post, pages = pre ++ pg :: post ->
     Forall (fun q => begins ly q = false) ([] ++ pre) -> clear_page ly ([] ++ pre) pg) by exact CS.
  destruct HP as [[SC HR]|(pre & P & rest' & m0 & d & HE & SC & RD & HO & HR & SP & ST)].
  - destruct (scanned_rows _ _ _ _ SC []) as (J1 & J2); auto.
    { intros _. reflexivity. }
    { intros Y. inversion Y. }
    rewrite J2 in HD. binv HD. injection HD as HD.
    assert (x0 = None).
    { unfold build_page in E0. rewrite HR in E0. cbn in E0. congruence. }
    subst x0. right. split; [rewrite <- HD; reflexivity|]. left. exact J1.
  - pose proof (scan_mono _ _ _ _ _ _ _ (live_not_skipped ly P) SP) as [M3 M4].
    assert (BE : base empty_mstate) by (intros _; reflexivity).
    pose proof (scanned_mono _ _ _ _ SC) as [_ M5].
    destruct (scanned_rows _ _ _ _ SC []) as (J1 & J2); auto.
    { intros T. destruct (M3 T) as [_ Q]. congruence. }
    { intros Y. inversion Y. }
    { intros q1 q q2 QE QF. apply (CSS q1 q (q2 ++ P :: complete_pages (ly_page_length ly) rest')).
      - rewrite HE, QE, <- app_assoc. reflexivity.
      - exact QF. }
    assert (CP : clear_page ly pre P) by (apply (CSS pre P _ HE); exact J1).
    destruct (scan_collect ly (ps_buf p) P (live ly P) m0 false m d HO (live_not_skipped ly P) SP
                (M5 BE)) as [I1 I2].
    { intros _. exact CM. }
    { intros a s z QE QD. destruct (CP a s z QE QD) as (A1 & A2). split; [exact A1|].
      intros KN. destruct (A2 KN) as [A3|A3]; [left|right; exact A3].
      eapply scanned_text; [exact SC|exact A3]. }
    rewrite J2 in I1. rewrite <- stored_exists in I2. cbn [app orb] in I1, I2.
    assert (BG : begins ly P = true) by (unfold begins; rewrite <- I2; exact ST).
    rewrite HE, good_data_skip in G by exact J1. cbn [good_data] in G. rewrite BG in G.
    destruct G as (GF & GR & NE). rewrite HE in PF.
    assert (GPS : good_pages c ly rest').
    { split; [exact GR|]. split; [exact NE|]. rewrite app_length in PF. cbn [length] in PF. lia. }
    assert (LP : lenN P = ly_page_length ly).
    { destruct HO as (_ & HO & _). destruct RD as (_ & _ & RD). congruence. }
    assert (PGE : exists pg, ds_page (rs_d r) = Some pg /\ ds_p (rs_d r) = p
              /\ pg_row pg <= page_count pg /\ page_count pg < W64
              /\ lines pg = first_places ly P /\ Forall (usable ly P) (lines pg)).
    { unfold first_places in GF |- *.
      destruct (m_data_subheaders m) as [|a l] eqn:MD.
      - assert (FN : filter (is_stored_row ly P) (live ly P) = []).
        { destruct (filter _ (live ly P)); [reflexivity|discriminate I1]. }
        rewrite FN in GF |- *. rewrite stored_exists, FN in I2. cbn in I2. subst d.
        rewrite orb_false_r in ST.
        assert (GP' : good_page ly P).
        { split; [lia|]. split; [exact GF|]. intros T. rewrite T in ST. discriminate ST. }
        binv HD. injection HD as HD. rewrite <- HD. cbn [ds_page ds_p].
        pose proof (build_page_holds (rs_h r) (rs_md r) (ps_buf p) P (ps_hdr p) HO) as BP.
        specialize (BP ltac:(unfold W64; lia) GP' HR). rewrite E0 in BP. injection BP as ->. fold ly.
        assert (NN : page_for ly P <> None).
        { unfold page_for. destruct (page_type ly P =? 0) eqn:T0.
          - exfalso. apply N.eqb_eq in T0. rewrite T0 in ST. discriminate.
          - destruct (page_type ly P =? 256); [discriminate|].
            destruct (is_mix (page_type ly P)); [discriminate|]. discriminate ST. }
        destruct (page_for ly P) as [pg|] eqn:PG; [|congruence]. exists pg.
        destruct (page_for_lines _ _ _ PG) as [L1 L2].
        split; [reflexivity|]. split; [reflexivity|]. split; [lia|].
        split; [exact (page_for_count ly P pg RC PG)|]. split; [exact L1|].
        rewrite L1. exact (good_usable _ _ GP').
      - injection HD as HD. rewrite <- HD. cbn [ds_page ds_p].
        destruct (filter (is_stored_row ly P) (live ly P)) as [|q qs] eqn:FQ; [discriminate I1|].
        eexists. split; [reflexivity|]. split; [reflexivity|].
        rewrite I1. cbn [pg_row]. split; [lia|]. split.
        { unfold page_count. cbn [pg_kind]. rewrite lenN_map, <- FQ.
          eapply N.le_lt_trans; [apply stored_count|].
          pose proof (page_number_lt ly 2 P). unfold page_subs, W64. lia. }
        split; [reflexivity|]. change (lines (Page (PMeta ?l) 0)) with l.
        rewrite Forall_forall in GF |- *. intros pl IP. split; [apply GF; exact IP|].
        intros CN. exfalso.
        apply in_map_iff in IP. destruct IP as (s0 & _ & IP). rewrite <- FQ in IP.
        apply filter_In in IP. destruct IP as [_ IP]. unfold is_stored_row in IP.
        rewrite CN in IP. discriminate IP. }
    destruct PGE as (pg & PG1 & PG2 & L1 & L2 & L3 & U).
    left. exists pre, P, rest', pg. rewrite <- PG2 in RD, HO.
    assert (RO : rows_on ly (pre ++ [P]) = map (row_content ly P) (first_places ly P)).
    { rewrite no_data_rows by exact J1. unfold rows_on. cbn [data_pages]. rewrite BG. cbn [flat_map map fst snd].
      apply app_nil_r. }
    split; try assumption.
    + intros F. apply no_data_app in F. destruct F as [_ F]. apply Forall_inv in F. change (begins ly P = false) in F. congruence.
    + fold ly. rewrite RO, R0, L3, lenN_map. reflexivity.
    + right. exact J1.
Qed.

(** ** What was read of the file *)

Lemma file_fail_stays : forall t s s', talks file_source s t s' ->
  fs_eof s = true \/ fs_fail s = true -> fs_eof s' = true \/ fs_fail s' = true.
Proof.
  intros t s s' H. induction H as [s|s t s' H IH|s n s1 data ok t s' R H IH]; intros F; auto.
  apply IH. cbn [file_source src_read] in R. unfold Buffer.file_read in R.
  destruct F as [F|F]; rewrite F in R; rewrite ?orb_true_r in R; cbn [orb] in R; injection R as <- _ _; auto.
Qed.

Lemma paging_whole : forall plen g t, paging plen g t -> forall s s', talks file_source s t s' ->
  fs_eof s' = false -> fs_fail s' = false -> exists j, lenN (pieces t) = N.of_nat j * plen.
Proof.
  intros plen g t H. induction H; intros s s' T E F.
  - exists O. reflexivity.
  - apply t_eof_inv in T. destruct T as [_ T]. apply t_read_inv in T. destruct T as [s1 [_ T]].
    destruct (IHpaging _ _ T E F) as [j J]. exists (Datatypes.S j). cbn [pieces]. rewrite lenN_app. lia.
  - exists O. reflexivity.
  - apply t_eof_inv in T. destruct T as [_ T]. apply t_read_inv in T. destruct T as [s1 [R T]].
    assert (Q : fs_eof s1 = true \/ fs_fail s1 = true).
    { cbn [file_source src_read] in R. unfold Buffer.file_read in R. destruct (fs_eof s || fs_fail s); [injection R as <- _; auto|].
      destruct (2 ^ 63 <=? plen); [injection R as <- _; auto|].
      destruct (plen <=? lenN (fs_rest s)); [discriminate|injection R as <- _; auto]. }
    apply (file_fail_stays _ _ _ T) in Q. destruct Q; congruence.
  - exists O. reflexivity.
Qed.

Lemma pages_skipped : forall plen j rest, 0 < plen -> N.of_nat j * plen <= lenN rest ->
  complete_pages plen (skipn (N.to_nat (N.of_nat j * plen)) rest) = skipn j (complete_pages plen rest).
Proof.
  intros plen j. induction j as [|j IH]; intros rest P L; [reflexivity|].
  rewrite (complete_pages_eq plen rest P).
  destruct (N.leb_spec plen (lenN rest)) as [K|K]; [|lia]. cbn [skipn].
  rewrite <- IH; [|exact P|unfold lenN in *; rewrite skipn_length; lia].
  rewrite skipn_skipn'. f_equal. f_equal. lia.
Qed.

Lemma pages_many : forall plen j rest, 0 < plen -> N.of_nat j * plen <= lenN rest ->
  (j <= length (complete_pages plen rest))%nat.
Proof.
  intros plen j. induction j as [|j IH]; intros rest P L; [lia|].
  rewrite (complete_pages_eq plen rest P).
  destruct (N.leb_spec plen (lenN rest)) as [K|K]; [|lia]. cbn [length]. apply le_n_S, IH; [exact P|].
  unfold lenN in *. rewrite skipn_length. lia.
Qed.

Lemma source_stands : forall c flt content r0 ev ops l r,
  open_reader c file_source flt (file_open content) = Ok (r0, ev) -> readable c content r0 ->
  trace c file_source ops (Some r0) = (l, Some r) ->
  let h := rs_h r0 in
  let ly := layout_of h (rs_md r0) in
  let pages := file_pages content h in
  let i := current_row_index (Some r) in
  (exists k, pages_for ly pages i k
     /\ source_at r = file_open (skipn (N.to_nat (h_header_length h + N.of_nat k * h_page_length h)) content))
  \/ no_data ly pages
  \/ i = lenN (rows_on ly pages) /\ i < md_row_count (rs_md r0).
Proof.
  intros c flt content r0 ev ops l r O (A1 & A2 & A3 & A4 & A5) T h ly pages i.
  pose proof (open_kept c flt content r0 ev O A1 A2 A3 A4 A5) as K. cbv zeta in K.
  apply (trace_kept _ _ _ _ _ _ _ _ K) in T as K'. destruct K' as (E1 & E2 & PL & [cu SM]).
  destruct PL as [(pre & P & rest & pg & [S1 S2 S3 S4 S5 S6 S7 S8 S9 S10 S11])|(O1 & O2)].
  2:{ right. destruct O2 as [O2|[O2 O3]]; [left; exact O2|]. right. split; [exact O2|].
      pose proof (sim_wf _ _ _ _ _ SM) as (W & _). unfold i. cbn [current_row_index]. lia. }
  left. fold h in S1, S3, S8, S9, S10, S11. fold ly in S1, S3, S8, S9, S10, S11. fold pages in S1.
  assert (RI : source_at r = FState rest false false) by apply S3.
  destruct (source_asked _ _ _ _ _ _ _ _ _ _ file_source_good O T) as (d1 & d2 & g & t & TK & L1 & L2 & PG & _).
  fold h in TK, L2, PG.
  destruct (reader_header _ _ _ _ _ O) as (_ & HF & HL). fold h in HF, HL.
  assert (HW : h_header_length h < 2 ^ 32).
  { rewrite (hof_header_length _ _ HF). unfold header_length_field. rewrite <- get_val_value.
    eapply N.lt_le_trans; [apply get_val_lt|]. change (2 ^ 32) with (256 ^ 4).
    apply N.pow_le_mono_r; [lia|]. rewrite field_slice, lenN_slice. lia. }
  rewrite sub64_small in L2 by (unfold W64; lia).
  assert (P0 : 0 < h_page_length h).
  { change (h_page_length h) with (ly_page_length ly). change (prefix (ly_format ly) + 6 <= ly_page_length ly) in A2.
    destruct (ly_format ly); cbn [prefix] in A2; lia. }
  pose proof TK as TT. apply t_read_inv in TT. destruct TT as [s1 [_ TT]]. apply t_read_inv in TT.
  destruct TT as [s2 [_ TT]]. rewrite RI in TT.
  destruct (paging_whole _ _ _ PG _ _ TT eq_refl eq_refl) as [j J].
  pose proof (file_pieces _ _ _ TK) as FP. cbn [pieces file_open fs_rest] in FP. rewrite RI in FP. cbn [fs_rest] in FP.
  assert (LT : lenN (d1 ++ d2 ++ pieces t) = h_header_length h + N.of_nat j * h_page_length h).
  { rewrite !lenN_app, L1, L2, J. lia. }
  assert (RE : rest = skipn (N.to_nat (h_header_length h + N.of_nat j * h_page_length h)) content).
  { rewrite <- FP, <- LT. unfold lenN. rewrite Nat2N.id, skipn_app, skipn_all, Nat.sub_diag. reflexivity. }
  assert (LC : h_header_length h + N.of_nat j * h_page_length h <= lenN content).
  { rewrite <- FP, lenN_app, LT. lia. }
  assert (CP : complete_pages (h_page_length h) rest = skipn j pages).
  { rewrite RE, N2Nat.inj_add, <- skipn_skipn'. apply pages_skipped; [exact P0|]. unfold lenN in *.
    rewrite skipn_length. lia. }
  change (ly_page_length ly) with (h_page_length h) in S1. rewrite CP in S1.
  assert (JL : (j <= length pages)%nat).
  { apply pages_many; [exact P0|]. unfold lenN in *. rewrite skipn_length. lia. }
  assert (JP : j = Datatypes.S (length pre)).
  { apply (f_equal (@length _)) in S1. rewrite app_length in S1. cbn [length] in S1. rewrite skipn_length in S1. lia. }
  assert (FN : firstn j pages = pre ++ [P]).
  { rewrite S1, JP. rewrite firstn_app, firstn_all2 by lia.
    replace (Datatypes.S (length pre) - length pre)%nat with 1%nat by lia. reflexivity. }
  exists j. split.
  - split; [exact JL|]. rewrite FN. split; [exact S9|]. split.
    + unfold i. cbn [current_row_index]. rewrite <- S10. lia.
    + replace (j - 1)%nat with (length pre) by lia.
      replace (firstn (length pre) pages) with pre; [exact S11|].
      rewrite S1, firstn_app, Nat.sub_diag, firstn_all. cbn [firstn]. rewrite app_nil_r. reflexivity.
  - rewrite RI, RE. reflexivity.
Qed.

(** ** The file behind the table *)

Lemma file_talks_behind : forall z t s s', talks file_source s t s' ->
  fs_eof s' = false -> fs_fail s' = false ->
  talks file_source (FState (fs_rest s ++ z) (fs_eof s) (fs_fail s)) t
    (FState (fs_rest s' ++ z) (fs_eof s') (fs_fail s')).
Proof.
  intros z t s s' H. induction H as [s|s t s' H IH|s n s1 data ok t s' R H IH]; intros E F.
  - constructor.
  - apply (T_eof file_source (FState (fs_rest s ++ z) (fs_eof s) (fs_fail s))). apply IH; assumption.
  - specialize (IH E F). eapply T_read; [|exact IH]. cbn [file_source src_read] in R |- *.
    unfold Buffer.file_read in *. cbn [fs_eof fs_fail fs_rest].
    assert (NF : fs_eof s1 = false /\ fs_fail s1 = false).
    { split; [destruct (fs_eof s1) eqn:Q|destruct (fs_fail s1) eqn:Q]; try reflexivity;
        destruct (file_fail_stays _ _ _ H) as [K|K]; auto; congruence. }
    destruct NF as [N1 N2]. destruct (fs_eof s || fs_fail s); [injection R as <- _ _; discriminate|].
    destruct (2 ^ 63 <=? n); [injection R as <- _ _; discriminate|].
    destruct (N.leb_spec n (lenN (fs_rest s))) as [L|L]; [|injection R as <- _ _; discriminate].
    injection R as <- <- <-. cbn [fs_rest fs_eof fs_fail]. rewrite lenN_app.
    destruct (N.leb_spec n (lenN (fs_rest s) + lenN z)); [|lia]. unfold lenN in L.
    rewrite skipn_app, firstn_app. replace (N.to_nat n - length (fs_rest s))%nat with 0%nat by lia.
    cbn [skipn firstn]. rewrite app_nil_r. reflexivity.
Qed.

Lemma read_behind : forall c flt a z ops r0 ev l r,
  open_reader c file_source flt (file_open a) = Ok (r0, ev) ->
  trace c file_source ops (Some r0) = (l, Some r) -> source_at r = file_open [] ->
  exists r0' r', open_reader c file_source flt (file_open (a ++ z)) = Ok (r0', ev)
  /\ trace c file_source ops (Some r0') = (l, Some r') /\ source_at r' = file_open z.
Proof.
  intros c flt a z ops r0 ev l r O T SA.
  destruct (open_talks _ c file_source flt (file_open a)) as (t & s' & A & RE & B).
  destruct (B _ _ O) as [I _]. clear B. subst s'. rewrite O in RE. cbn [at_source bind] in RE.
  destruct r0 as [h md d]. unfold source_at in *. cbn [rs_d] in *.
  destruct (trace_keeps _ _ _ _ _ _ _ _ _ T) as [d' K]. injection K as ->. cbn [rs_d] in SA.
  assert (H : history c h md ops _ file_source d = (l, d')) by (unfold history; rewrite T; reflexivity).
  destruct (history_talky c h md ops _ file_source d l d' H) as (t2 & g2 & T2 & RE2 & _).
  assert (NF : fs_eof (ps_is (ds_p d)) = false /\ fs_fail (ps_is (ds_p d)) = false).
  { rewrite SA in T2. split; [destruct (fs_eof (ps_is (ds_p d))) eqn:Q|destruct (fs_fail (ps_is (ds_p d))) eqn:Q]; try reflexivity;
      destruct (file_fail_stays _ _ _ T2) as [K|K]; auto; discriminate. }
  destruct NF as [N1 N2].
  apply (file_talks_behind z) in A; [|exact N1|exact N2].
  rewrite SA in T2. apply (file_talks_behind z) in T2; [|reflexivity|reflexivity].
  cbn [file_open fs_rest fs_eof fs_fail app] in A, T2.
  specialize (RE _ _ _ _ A). specialize (RE2 _ _ _ _ T2).
  set (s3 := FState (fs_rest (ps_is (ds_p d)) ++ z) (fs_eof (ps_is (ds_p d))) (fs_fail (ps_is (ds_p d)))) in *.
  exists (r_moved (RState h md d) s3). change (r_moved (RState h md d) s3) with (RState h md (d_moved d s3)) in *.
  unfold history in RE2. destruct (trace c file_source ops (Some (RState h md (d_moved d s3)))) as [l' r'] eqn:T3.
  destruct (trace_keeps _ _ _ _ _ _ _ _ _ T3) as [d3 ->]. cbn [rs_d] in RE2. injection RE2 as -> ->.
  eexists. split; [exact RE|]. split; [reflexivity|]. reflexivity.
Qed.

Lemma rows_on_more : forall ly a b, lenN (rows_on ly a) <= lenN (rows_on ly (a ++ b)).
Proof.
  intros ly a b.
  assert (D : forall q, {begins ly q = false} + {~ begins ly q = false})
    by (intros q; destruct (begins ly q); [right; discriminate|left; reflexivity]).
  destruct (Forall_dec (fun q => begins ly q = false) D a) as [F|F].
  - rewrite (no_data_nil ly a F). unfold lenN. cbn. lia.
  - rewrite rows_on_app by exact F. rewrite lenN_app. lia.
Qed.

Lemma table_behind : forall (made : compression -> N -> bytes -> bytes -> Prop) (like : bytes -> bytes -> Prop) c flt a fields rows z ops,
  (forall k rl stored row, k = CompNone \/ rl < row_limit -> made k rl stored row ->
     exists got, reads k rl stored got /\ like row got) ->
  file_with made c a fields rows -> full_to_the_end a ->
  forall r0 ev l r, open_reader c file_source flt (file_open a) = Ok (r0, ev) ->
  trace c file_source ops (Some r0) = (l, Some r) -> current_row_index (Some r) = lenN rows ->
  exists r0' r', open_reader c file_source flt (file_open (a ++ z)) = Ok (r0', ev)
  /\ trace c file_source ops (Some r0') = (l, Some r') /\ source_at r' = file_open z.
Proof.
  intros made like c flt a fields rows z ops MR [FP RC] [FE1 FE2] r0 ev l r O T CI.
  apply (read_behind _ _ _ _ _ _ _ _ _ O T).
  destruct (file_read made like c flt a fields rows MR FP) as (r1 & cols & got & OR & HF & RM & _ & LK & RD & FR).
  rewrite O in OR. injection OR as -> ->.
  pose proof (source_stands c flt a r1 _ ops l r O RD T) as S. cbv zeta in S. rewrite CI in S.
  assert (LY : layout_of (rs_h r1) (rs_md r1) = full_layout a).
  { rewrite RM. unfold layout_of, full_layout.
    rewrite (hof_format _ _ HF), (hof_endian _ _ HF), (hof_page_length _ _ HF). reflexivity. }
  assert (PI : file_pages a (rs_h r1) = pages_in a).
  { unfold file_pages, pages_in. rewrite (hof_page_length _ _ HF), (hof_header_length _ _ HF). reflexivity. }
  assert (MC : md_row_count (rs_md r1) = lenN rows) by (rewrite RM, RC; reflexivity).
  rewrite LY, PI, MC in S. rewrite <- RC in FE2.
  assert (LG : lenN rows <= lenN (rows_on (full_layout a) (pages_in a))).
  { unfold file_rows in FR. rewrite LY, PI, MC in FR. apply (f_equal (@length _)) in FR.
    rewrite firstn_length, map_length in FR. assert (LL : length rows = length got) by (clear -LK; induction LK; cbn; congruence).
    unfold lenN. lia. }
  destruct S as [(k & (K1 & K2 & K3 & K4) & SA)|[ND|[S1 S2]]].
  - rewrite SA. destruct (Nat.eq_dec k (length (pages_in a))) as [->|NE].
    + unfold file_open. rewrite (hof_page_length _ _ HF), (hof_header_length _ _ HF).
      fold (page_length_field a). fold (lenN (pages_in a)). rewrite <- FE1. unfold lenN. rewrite Nat2N.id, skipn_all.
      reflexivity.
    + exfalso. assert (E : removelast (pages_in a) = firstn k (pages_in a) ++ skipn k (removelast (pages_in a))).
      { rewrite <- (firstn_skipn k (removelast (pages_in a))) at 1. f_equal.
        rewrite removelast_firstn_len, firstn_firstn. f_equal. lia. }
      rewrite E in FE2. pose proof (rows_on_more (full_layout a) (firstn k (pages_in a)) (skipn k (removelast (pages_in a)))).
      lia.
  - exfalso. rewrite (no_data_nil _ _ ND) in LG. unfold lenN at 2 in LG. cbn in LG. lia.
  - lia.
Qed.

(** ** Programs *)

Lemma with_source_same : forall S (r : rstate S), with_source (source_of r) r = r.
Proof. intros S [h md [[s b hd] dec row pg]]. reflexivity. Qed.

(** Source [n] is as Reader [v] left it. *)
Definition mine {S} (n v : nat) (r : rstate S) (w : nworld S) : Prop :=
  nth v (nw_readers w) None = Some (n, r) /\ nth n (nw_sources w) None = Some (source_of r).

(** And no other Reader has it. *)
Definition only {S} (n v : nat) (r : rstate S) (w : nworld S) : Prop :=
  nth v (nw_readers w) None = Some (n, r) /\ nth n (nw_sources w) None = Some (source_of r)
  /\ (n < length (nw_sources w))%nat
  /\ forall u q, nth u (nw_readers w) None = Some (n, q) -> u = v.

Lemma nth_some_lt : forall A n (l : list (option A)) a, nth n l None = Some a -> (n < length l)%nat.
Proof.
  intros A n l a H. destruct (Nat.ltb_spec n (length l)) as [L|L]; [exact L|].
  rewrite nth_overflow in H by exact L. discriminate.
Qed.

(** A call of the Reader. *)
Lemma my_call : forall S c (src : source S) n v r w o x r' ev, mine n v r w ->
  step c src o r = (x, r', ev) ->
  exists w', nexec c src (NCall v o) w = (Ok (NOut x ev), w') /\ mine n v r' w'
  /\ nw_readers w' = upd v (Some (n, r')) (nw_readers w)
  /\ nw_sources w' = upd n (Some (source_of r')) (nw_sources w).
Proof.
  intros S c src n v r w o x r' ev (A & B) E. cbn [nexec]. rewrite A, B, with_source_same, E.
  eexists. split; [reflexivity|]. unfold mine. cbn [nw_readers nw_sources].
  pose proof (nth_some_lt _ _ _ _ A) as L. pose proof (nth_some_lt _ _ _ _ B) as L2.
  rewrite !nth_upd, !Nat.eqb_refl by assumption. auto.
Qed.

Lemma own_call : forall S c (src : source S) n v r w o x r' ev, only n v r w ->
  step c src o r = (x, r', ev) ->
  exists w', nexec c src (NCall v o) w = (Ok (NOut x ev), w') /\ only n v r' w'.
Proof.
  intros S c src n v r w o x r' ev (A & B & C & D) E.
  destruct (my_call S c src n v r w o x r' ev (conj A B) E) as (w' & N1 & (M1 & M2) & RD & SR).
  exists w'. split; [exact N1|]. unfold only. rewrite SR, upd_len, <- SR. split; [exact M1|]. split; [exact M2|].
  split; [exact C|]. intros u q. rewrite RD, nth_upd by exact (nth_some_lt _ _ _ _ A).
  destruct (Nat.eqb_spec u v); [auto|]. apply D.
Qed.

(** Another statement. *)
Lemma other_statement : forall S c (src : source S) n v r w st y w', only n v r w ->
  leaves_alone n v st -> call_of v st = [] -> nexec c src st w = (y, w') -> only n v r w'.
Proof.
  intros S c src n v r w st y w' K LA NC H. pose proof K as (A & B & C & D).
  destruct st as [s|m|m flt|u o|u|m len]; cbn [nexec leaves_alone call_of] in *.
  - injection H as _ <-. unfold only. cbn [nw_readers nw_sources]. split; [exact A|].
    rewrite app_length, nth_snoc. destruct (Nat.eqb_spec n (length (nw_sources w))); [lia|].
    split; [exact B|]. split; [lia|exact D].
  - destruct (nth m (nw_sources w) None); injection H as _ <-; [|exact K].
    unfold only. cbn [nw_readers nw_sources]. split; [exact A|]. rewrite nth_None_upd, upd_len.
    destruct (Nat.eqb_spec n m); [congruence|]. auto.
  - destruct (nth m (nw_sources w) None) as [s|] eqn:M; [|injection H as _ <-; exact K].
    destruct (open_reader c src flt s) as [[r1 ev]| | | |]; injection H as _ <-; try exact K.
    unfold only. cbn [nw_readers nw_sources]. pose proof (nth_some_lt _ _ _ _ M) as L.
    pose proof (nth_some_lt _ _ _ _ A) as L2. rewrite nth_upd, upd_len, nth_snoc by exact L.
    destruct (Nat.eqb_spec v (length (nw_readers w))); [lia|]. destruct (Nat.eqb_spec n m); [congruence|].
    split; [exact A|]. split; [exact B|]. split; [exact C|]. intros u q. rewrite nth_snoc.
    destruct (Nat.eqb_spec u (length (nw_readers w))); [congruence|]. apply D.
  - destruct (Nat.eqb_spec u v) as [|UV]; [discriminate|].
    destruct (nth u (nw_readers w) None) as [[m q]|] eqn:U; [|injection H as _ <-; exact K].
    assert (MN : m <> n) by (intros ->; apply UV, (D _ _ U)).
    pose proof (nth_some_lt _ _ _ _ U) as LU.
    destruct (nth m (nw_sources w) None) as [s|] eqn:M.
    + destruct (step c src o (with_source s q)) as [[x q'] ev]. injection H as _ <-.
      pose proof (nth_some_lt _ _ _ _ M) as L. unfold only. cbn [nw_readers nw_sources].
      rewrite !nth_upd, upd_len by assumption. destruct (Nat.eqb_spec v u); [congruence|].
      destruct (Nat.eqb_spec n m); [congruence|]. split; [exact A|]. split; [exact B|]. split; [exact C|].
      intros u2 q2. rewrite nth_upd by assumption. destruct (Nat.eqb_spec u2 u); [congruence|]. apply D.
    + destruct (step c gone o (with_source false q)) as [[x q'] ev].
      destruct (source_of q'); injection H as _ <-; [exact K|]. unfold only. cbn [nw_readers nw_sources].
      rewrite !nth_upd by assumption. destruct (Nat.eqb_spec v u); [congruence|].
      split; [exact A|]. split; [exact B|]. split; [exact C|].
      intros u2 q2. rewrite nth_upd by assumption. destruct (Nat.eqb_spec u2 u); [congruence|]. apply D.
  - destruct (nth u (nw_readers w) None) as [q|] eqn:U; injection H as _ <-; [|exact K].
    unfold only. cbn [nw_readers nw_sources]. rewrite nth_None_upd. destruct (Nat.eqb_spec v u); [congruence|].
    split; [exact A|]. split; [exact B|]. split; [exact C|]. intros u2 q2. rewrite nth_None_upd.
    destruct (Nat.eqb u2 u); [discriminate|apply D].
  - destruct (nth m (nw_sources w) None) as [s|] eqn:M; [|injection H as _ <-; exact K].
    destruct (src_read src s len) as [[s' b] ok]. injection H as _ <-. pose proof (nth_some_lt _ _ _ _ M) as L.
    unfold only. cbn [nw_readers nw_sources]. rewrite nth_upd, upd_len by exact L.
    destruct (Nat.eqb_spec n m); [congruence|]. auto.
Qed.

Definition goes_on (x : res nval) : bool :=
  match x with
  | Ok (NOut (Ok _) _) | Ok (NOut (Exn _) _) | Ok NNone | Ok (NMade _) | Ok (NBytes _ _) => true
  | _ => false
  end.

Lemma nexec_cons : forall S c (src : source S) st p w,
  nexec_all c src (st :: p) w
  = let '(x, w1) := nexec c src st w in
    if goes_on x then let '(xs, w2) := nexec_all c src p w1 in (x :: xs, w2) else ([x], w1).
Proof.
  intros S c src st p w. cbn [nexec_all]. destruct (nexec c src st w) as [x w1].
  destruct x as [[|[]| |]| | | |]; reflexivity.
Qed.

Lemma private_source : forall S c (src : source S) n v p r w xs w', only n v r w ->
  Forall (leaves_alone n v) p -> nexec_all c src p w = (xs, w') ->
  exists ops later r', calls_of v p = ops ++ later
  /\ (length xs = length p -> answers_of v p xs = fst (trace c src (calls_of v p) (Some r)))
  /\ trace c src ops (Some r) = (answers_of v p xs, Some r')
  /\ only n v r' w'.
Proof.
  intros S c src n v p. induction p as [|st p IH]; intros r w xs w' K F H.
  - injection H as <- <-. exists [], [], r. auto.
  - rewrite nexec_cons in H. inversion F as [|? ? F1 F2]; subst.
    destruct (nexec c src st w) as [x w1] eqn:E.
    destruct (call_of v st) as [|o os] eqn:CO.
    + assert (K1 : only n v r w1) by exact (other_statement _ _ _ _ _ _ _ _ _ _ K F1 CO E).
      assert (AN : forall y, answer_of v (st, y) = []).
      { intros y. destruct st; try reflexivity. cbn in CO |- *. destruct (Nat.eqb v0 v); [discriminate|].
        destruct y as [[]| | | |]; reflexivity. }
      change (calls_of v (st :: p)) with (call_of v st ++ calls_of v p). rewrite CO. cbn [app].
      destruct (goes_on x).
      * destruct (nexec_all c src p w1) as [ys w2] eqn:Q. injection H as <- <-.
        destruct (IH _ _ _ _ K1 F2 Q) as (ops & later & r' & I1 & I2 & I3 & I4).
        assert (AA : answers_of v (st :: p) (x :: ys) = answers_of v p ys)
          by (unfold answers_of; cbn [combine flat_map]; rewrite AN; reflexivity).
        exists ops, later, r'. rewrite AA. split; [exact I1|]. split; [|auto].
        intros L. apply I2. cbn in L. lia.
      * injection H as <- <-.
        assert (AA : answers_of v (st :: p) [x] = [])
          by (unfold answers_of; cbn [combine flat_map]; rewrite AN; destruct p; reflexivity).
        exists [], (calls_of v p), r. rewrite AA. split; [reflexivity|]. split; [|auto].
        intros L. destruct p; [reflexivity|discriminate L].
    + assert (ST : st = NCall v o /\ os = []).
      { destruct st; try discriminate CO. cbn in CO. destruct (Nat.eqb_spec v0 v) as [->|]; [|discriminate].
        injection CO as <- <-. auto. }
      destruct ST as [-> ->].
      destruct (step c src o r) as [[y r1] ev] eqn:SP.
      destruct (own_call _ _ _ _ _ _ _ _ _ _ _ K SP) as (w3 & E3 & K3). rewrite E3 in E. injection E as <- <-.
      change (calls_of v (NCall v o :: p)) with (call_of v (@NCall S v o) ++ calls_of v p).
      rewrite CO. cbn [app].
      assert (AN : answer_of v (@NCall S v o, Ok (NOut y ev)) = [(o, y, ev)])
        by (cbn; rewrite Nat.eqb_refl; reflexivity).
      destruct (goes_on (Ok (NOut y ev))) eqn:GO.
      * destruct (nexec_all c src p w3) as [ys w2] eqn:Q. injection H as <- <-.
        destruct (IH _ _ _ _ K3 F2 Q) as (ops & later & r' & I1 & I2 & I3 & I4).
        assert (AA : answers_of v (NCall v o :: p) (Ok (NOut y ev) :: ys) = (o, y, ev) :: answers_of v p ys)
          by (unfold answers_of; cbn [combine flat_map]; rewrite AN; reflexivity).
        exists (o :: ops), later, r'. rewrite AA, I1. split; [reflexivity|].
        assert (TR : forall l, trace c src (o :: l) (Some r)
                     = let '(t, r2) := trace c src l (Some r1) in ((o, y, ev) :: t, r2)).
        { intros l. cbn [trace reader_step]. rewrite SP. destruct y; try discriminate GO; reflexivity. }
        split; [|split; [|exact I4]].
        -- intros L. rewrite TR, <- I1. rewrite I2 by (cbn in L; lia).
           destruct (trace c src (calls_of v p) (Some r1)). reflexivity.
        -- rewrite TR, I3. reflexivity.
      * injection H as <- <-.
        assert (AA : answers_of v (NCall v o :: p) [Ok (NOut y ev)] = [(o, y, ev)])
          by (unfold answers_of; cbn [combine flat_map]; rewrite AN; destruct p; reflexivity).
        assert (TR : forall l, trace c src (o :: l) (Some r) = ([(o, y, ev)], Some r1)).
        { intros l. cbn [trace reader_step]. rewrite SP. destruct y; try discriminate GO; reflexivity. }
        exists [o], (calls_of v p), r1. rewrite AA, !TR. split; [reflexivity|]. auto.
Qed.

(** The calls of one Reader after the other. *)
Lemma calls_run : forall S c (src : source S) n v ops r w l r', mine n v r w ->
  trace c src ops (Some r) = (l, Some r') -> length l = length ops ->
  Forall (fun x => match snd (fst x) with Ok _ | Exn _ => True | _ => False end) l ->
  forall p, exists w', mine n v r' w' /\ length (nw_readers w') = length (nw_readers w)
  /\ nexec_all c src (calls v ops ++ p) w
     = (map (fun x => Ok (NOut (snd (fst x)) (snd x))) l ++ fst (nexec_all c src p w'),
        snd (nexec_all c src p w')).
Proof.
  intros S c src n v ops. induction ops as [|o ops IH]; intros r w l r' K T L F p.
  - injection T as <- <-. exists w. split; [exact K|]. split; [reflexivity|].
    cbn [calls map app]. destruct (nexec_all c src p w). reflexivity.
  - cbn [trace reader_step] in T. destruct (step c src o r) as [[y r1] ev] eqn:SP.
    destruct (my_call _ _ _ _ _ _ _ _ _ _ _ K SP) as (w1 & E & K1 & NR & _).
    assert (GO : goes_on (Ok (NOut y ev)) = true
             /\ trace c src (o :: ops) (Some r) = let '(t, r2) := trace c src ops (Some r1) in ((o, y, ev) :: t, r2)).
    { cbn [trace reader_step]. rewrite SP. destruct y; try (split; reflexivity);
        injection T as <- _; inversion F as [|? ? F1 _]; destruct F1. }
    destruct GO as [GO TR]. assert (T' : (let '(t, r2) := trace c src ops (Some r1) in ((o, y, ev) :: t, r2)) = (l, Some r')).
    { etransitivity; [symmetry; exact TR|]. cbn [trace reader_step]. rewrite SP. exact T. }
    destruct (trace c src ops (Some r1)) as [t r2] eqn:T1. injection T' as <- ->.
    inversion F as [|? ? _ F2]; subst.
    destruct (IH r1 w1 t r' K1 T1 ltac:(cbn in L; lia) F2 p) as (w' & W1 & W2 & W3).
    exists w'. split; [exact W1|]. split; [rewrite W2, NR, upd_len; reflexivity|].
    change (calls v (o :: ops) ++ p) with (@NCall S v o :: (calls v ops ++ p)). rewrite nexec_cons, E, GO, W3.
    reflexivity.
Qed.

(** A cursor over good rows goes on. *)
Lemma cur_rows_fine : forall n i rows x cu ev, cur_read_rows n (i, map Ok rows) = (x, cu, ev) ->
  (exists b, x = Ok b) /\ exists j rows', cu = (j, map Ok rows').
Proof.
  induction n as [|n IH]; intros i rows x cu ev H; cbn [cur_read_rows] in H.
  - injection H as <- <- <-. eauto.
  - destruct rows as [|row rows]; cbn [map cur_read_row] in H.
    + injection H as <- <- <-. split; [eauto|]. exists i, []. reflexivity.
    + destruct (cur_read_rows n (i + 1, map Ok rows)) as [[y cu1] ev1] eqn:E. injection H as <- <- <-. eauto.
Qed.

Lemma cur_step_fine : forall o i rows x cu ev, cur_step o (i, map Ok rows) = (x, cu, ev) ->
  (exists b, x = Ok b) /\ exists j rows', cu = (j, map Ok rows').
Proof.
  assert (R1 : forall i rows x cu ev, cur_read_row (i, map Ok rows) = (x, cu, ev) ->
    (exists b, x = Ok b) /\ exists j rows', cu = (j, map Ok rows')).
  { intros i [|row rows] x cu ev H; cbn in H; injection H as <- <- <-; split; eauto. exists i, []. reflexivity. }
  intros o i rows x cu ev H. destruct o; cbn [cur_step] in H.
  - destruct (cur_read_row _) as [[y cu1] ev1] eqn:E. injection H as <- <- <-. apply R1 in E as [[b ->] Q].
    split; [cbn; eauto|exact Q].
  - destruct (cur_read_rows _ _) as [[y cu1] ev1] eqn:E. injection H as <- <- <-. apply cur_rows_fine in E as [[b ->] Q].
    split; [cbn; eauto|exact Q].
  - destruct (cur_read_rows _ _) as [[y cu1] ev1] eqn:E. injection H as <- <- <-. apply cur_rows_fine in E as [[b ->] Q].
    split; [cbn; eauto|exact Q].
  - cbn [cur_skip] in H. destruct (_ <=? _) in H; injection H as <- <- <-; (split; [cbn; eauto|]).
    + exists (i + n), (skipn (N.to_nat n) rows). rewrite skipn_map. reflexivity.
    + exists (i + lenN (map (@Ok bytes) rows)), []. reflexivity.
  - destruct (cur_read_row _) as [[y cu1] ev1] eqn:E. injection H as <- <- <-. apply R1 in E as [[b ->] Q].
    split; [cbn; eauto|exact Q].
  - injection H as <- <- <-. split; eauto.
Qed.

Lemma cur_trace_fine : forall ops i rows, let l := fst (cur_trace ops (i, map Ok rows)) in
  length l = length ops /\ Forall (fun x => exists b, snd (fst x) = Ok b) l.
Proof.
  induction ops as [|o ops IH]; intros i rows; cbn [cur_trace]; [split; [reflexivity|constructor]|].
  destruct (cur_step o (i, map Ok rows)) as [[x cu] ev] eqn:E.
  apply cur_step_fine in E as [[b ->] (j & rows' & ->)]. specialize (IH j rows'). cbv zeta in IH.
  destruct (cur_trace ops (j, map Ok rows')) as [t cu2]. cbn [fst] in *. destruct IH as [I1 I2].
  split; [cbn; congruence|]. constructor; [cbn; eauto|exact I2].
Qed.

(** One table, and what follows it in the source. *)
Lemma table_then : forall c a flt ops z, whole_table c (a, flt, ops) ->
  exists r0 r ev l,
    open_reader c file_source flt (file_open (a ++ z)) = Ok (r0, ev)
    /\ trace c file_source ops (Some r0) = (l, Some r) /\ source_at r = file_open z
    /\ alone c (a, flt, ops) = Ok (NMade ev) :: map (fun x => Ok (NOut (snd (fst x)) (snd x))) l
    /\ length l = length ops
    /\ Forall (fun x => match snd (fst x) with Ok _ | Exn _ => True | _ => False end) l.
Proof.
  intros c a flt ops z (fields & rows & CF & FE & PS).
  destruct (conforms_back c flt a fields rows CF) as (r0 & cols & OR & _ & _ & _ & T).
  specialize (T ops). cbv zeta in T. rewrite PS in T. destruct T as [T1 T2].
  destruct (trace c file_source ops (Some r0)) as [l r1] eqn:TR. cbn [fst snd] in T1, T2.
  assert (SM : exists r, r1 = Some r).
  { destruct r0 as [h md d]. destruct (trace_keeps _ _ _ _ _ _ _ _ _ TR) as [d' ->]. eauto. }
  destruct SM as [r ->].
  assert (MR : forall k rl stored row, k = CompNone \/ rl < row_limit -> row_made k rl stored row ->
     exists got, reads k rl stored got /\ row = got)
    by (intros k rl stored row LM MD; exists row; split; [apply made_reads; assumption|reflexivity]).
  destruct (table_behind row_made eq c flt a fields rows z ops MR CF FE r0 _ l r OR TR T2) as (r0' & r' & O' & TR' & SA').
  exists r0', r', [EvProps (rs_h r0) (rs_md r0)], l. split; [exact O'|]. split; [exact TR'|]. split; [exact SA'|].
  split; [cbn [alone]; unfold session; rewrite OR, TR; reflexivity|].
  pose proof (cur_trace_fine ops 0 rows) as FN. cbv zeta in FN. rewrite <- T1 in FN. destruct FN as [F1 F2].
  unfold seen in F1, F2. rewrite map_length in F1. split; [exact F1|].
  apply Forall_forall. intros [[o x] ev] I. cbn [fst snd]. rewrite Forall_forall in F2.
  specialize (F2 _ (in_map _ _ _ I)). cbn [fst snd] in F2. destruct F2 as [b E]. destruct x; try exact Logic.I; discriminate E.
Qed.

Lemma tables : forall c n z files v w, Forall (whole_table c) files ->
  length (nw_readers w) = v ->
  nth n (nw_sources w) None = Some (file_open (flat_map (fun f => fst (fst f)) files ++ z)) ->
  exists w', nexec_all c file_source (one_by_one n v files) w = (flat_map (alone c) files, w')
  /\ nth n (nw_sources w') None = Some (file_open z).
Proof.
  intros c n z files. induction files as [|[[a flt] ops] files IH]; intros v w F LV SW.
  - exists w. split; [reflexivity|exact SW].
  - inversion F as [|? ? F1 F2]; subst. cbn [flat_map fst] in SW. rewrite <- app_assoc in SW.
    destruct (table_then c a flt ops (flat_map (fun f => fst (fst f)) files ++ z) F1) as (r0 & r & ev & l & O & T & SA & AL & LL & FL).
    cbn [one_by_one flat_map]. rewrite AL. rewrite nexec_cons. cbn [nexec]. rewrite SW, O. cbn [goes_on].
    set (w1 := NWorld (upd n (Some (source_of r0)) (nw_sources w)) (nw_readers w ++ [Some (n, r0)])).
    assert (K : mine n (length (nw_readers w)) r0 w1).
    { unfold mine, w1. cbn [nw_readers nw_sources].
      rewrite nth_snoc, Nat.eqb_refl, nth_upd, Nat.eqb_refl by exact (nth_some_lt _ _ _ _ SW). auto. }
    destruct (calls_run _ c file_source n _ ops r0 w1 l r K T LL FL (one_by_one n (Datatypes.S (length (nw_readers w))) files))
      as (w2 & (_ & K2) & L2 & E2).
    assert (L2' : length (nw_readers w2) = Datatypes.S (length (nw_readers w)))
      by (rewrite L2; unfold w1; cbn [nw_readers]; rewrite app_length; cbn; lia).
    destruct (IH _ w2 F2 L2') as (w3 & E3 & K3).
    { rewrite K2. change (source_of r) with (source_at r). rewrite SA. reflexivity. }
    rewrite E2, E3. cbn [fst snd]. exists w3. split; [|exact K3]. reflexivity.
Qed.

Lemma source_alone : forall S c (src : source S) n v p r w xs w',
  nth v (nw_readers w) None = Some (n, r) -> nth n (nw_sources w) None = Some (source_at r) ->
  (forall u q, nth u (nw_readers w) None = Some (n, q) -> u = v) ->
  Forall (leaves_alone n v) p -> nexec_all c src p w = (xs, w') ->
  exists ops later r', calls_of v p = ops ++ later
  /\ (length xs = length p -> answers_of v p xs = fst (trace c src (calls_of v p) (Some r)))
  /\ trace c src ops (Some r) = (answers_of v p xs, Some r')
  /\ nth v (nw_readers w') None = Some (n, r') /\ nth n (nw_sources w') None = Some (source_at r').
Proof.
  intros S c src n v p r w xs w' A B D F H.
  assert (K : only n v r w) by (split; [exact A|]; split; [exact B|]; split; [exact (nth_some_lt _ _ _ _ B)|exact D]).
  destruct (private_source S c src n v p r w xs w' K F H) as (ops & later & r' & I1 & I2 & I3 & (I4 & I5 & _)).
  exists ops, later, r'. auto.
Qed.
