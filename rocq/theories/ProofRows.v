(** The rows of one page; read_all; pages without rows. *)
From Verif Require Import Base Types Buffer Page Column Header Metadata Decomp Data Reader
  Lemmas SpecValues ProofValues SpecBuffer ProofBuffer SpecHeader ProofHeader SpecDecomp ProofDecomp
  SpecReader ProofMetaInv ProofReader SpecPages ProofPages ProofOpen ProofCheck SpecFile Samples.
From Coq Require Import ZifyBool ZifyNat ZifyN.
Local Open Scope N_scope.

(** ** One page *)

Definition page_buffer (pg : bytes) (spare : list cell) : mbuf :=
  MBuf (map Some pg ++ spare) (lenN pg).

Lemma page_buffer_holds : forall pg spare, holds (page_buffer pg spare) pg.
Proof.
  intros pg spare. unfold holds, page_buffer, wf_mbuf, visible. cbn [mem msize].
  rewrite lenN_app, lenN_map. split; [lia|]. split; [reflexivity|].
  rewrite firstn_app. replace (N.to_nat (lenN pg) - length (map Some pg))%nat with 0%nat
    by (rewrite map_length; unfold lenN; lia).
  rewrite firstn_all2 by (rewrite map_length; unfold lenN; lia). apply app_nil_r.
Qed.

Lemma walk_lines : forall n pg B, pg_row pg <= page_count pg -> page_count pg < W64 -> B < W64 ->
  Forall (fun p => fst p + snd p <= B) (lines pg) -> (length (lines pg) < n)%nat ->
  walk n pg = Ok (lines pg).
Proof.
  induction n as [|n IH]; intros pg B L C BB F N; [lia|]. cbn [walk].
  destruct (lines pg) as [|p l] eqn:E.
  - rewrite lines_nil by assumption. reflexivity.
  - rewrite <- E in F. destruct (lines_cons pg p l B L C BB F E) as (A1 & A2 & A3 & A4 & A5).
    rewrite A1, A2. cbn [bind]. rewrite (IH (page_inc pg) B A4 A5 BB).
    + rewrite A3. reflexivity.
    + rewrite A3. rewrite E in F. exact (Forall_inv_tail F).
    + rewrite A3. cbn [length] in N. lia.
Qed.

Lemma page_walk : forall h md pg spare, let ly := layout_of h md in
  lenN pg < W64 -> md_row_count md < W64 -> good_page ly pg ->
  exists ph, get_page_header (h_endianness h) (h_format h) (page_buffer pg spare) = Ok ph
  /\ match build_page (h_endianness h) (h_format h) md (page_buffer pg spare) ph with
     | Ok (Some p) => walk (Datatypes.S (length (row_places ly pg))) p = Ok (row_places ly pg)
     | Ok None => row_places ly pg = []
     | _ => False
     end.
Proof.
  intros h md pg spare ly B C G. pose proof (page_buffer_holds pg spare) as H.
  exists (PageHeader (page_type ly pg) (page_blocks ly pg) (page_subs ly pg)). split.
  { exact (holds_page_header ly _ pg H (proj1 G)). }
  pose proof (build_page_holds h md _ pg _ H B G eq_refl) as BP. cbv zeta in BP. fold ly in BP.
  rewrite BP.
  destruct (page_for ly pg) as [p|] eqn:E; [|apply page_for_none; exact E].
  destruct (page_for_lines _ _ _ E) as [L1 L2].
  rewrite <- L1. apply (walk_lines _ p (lenN pg)); try lia.
  - exact (page_for_count ly pg p C E).
  - rewrite L1. exact (proj1 (proj2 G)).
Qed.

Lemma page_row_bytes : forall S c h md pg spare (s : S) ph dec row cur place,
  let ly := layout_of h md in
  let d := DState (PState s (page_buffer pg spare) ph) dec row cur in
  max_alloc c < row_limit ->
  lenN pg = h_page_length h -> lenN pg < W64 -> good_page ly pg ->
  make_decompressor c (md_compression md) (md_row_length md) = Ok dec ->
  In place (row_places ly pg) ->
  (p <- fst (extract_row_values c h md (fst place) (snd place) d) ;; seen_row (md_row_length md) p)
  = row_content ly pg place.
Proof.
  intros S c h md pg spare s ph dec row cur place ly d M LP B G D I.
  assert (K : dec_ok md dec /\ dec_kind (md_compression md) dec).
  { split; [eapply make_decompressor_ok; eassumption|].
    unfold make_decompressor in D. destruct (md_compression md).
    - injection D as <-. exact Logic.I.
    - binv D. injection D as <-. exact Logic.I.
    - binv D. injection D as <-. exact Logic.I. }
  destruct K as [K1 K2]. pose proof (good_usable ly pg G) as U. rewrite Forall_forall in U.
  specialize (U place I). destruct place as [off len]. cbn [fst snd] in *.
  destruct (extract_row_values c h md off len d) as [x d'] eqn:E.
  destruct (extract_row S c h md off len d pg x d' (page_buffer_holds pg spare) LP B K1 K2 U E) as [R _].
  cbn [fst]. fold ly in R. destruct (row_content ly pg (off, len)); cbn [row_matches] in R.
  - destruct R as (p & -> & R). exact R.
  - subst x. reflexivity.
  - subst x. reflexivity.
  - subst x. reflexivity.
  - subst x. reflexivity.
Qed.

(** ** read_all *)

Lemma numbered_from : forall rows i,
  cur_read_rows (Datatypes.S (length rows)) (i, map Ok rows)
  = (Ok false, (i + lenN rows, []), numbered i rows ++ [CEnd]).
Proof.
  induction rows as [|row rows IH]; intros i.
  - cbn. rewrite N.add_0_r. reflexivity.
  - change (length (row :: rows)) with (Datatypes.S (length rows)).
    remember (Datatypes.S (length rows)) as n. cbn [cur_read_rows map cur_read_row].
    rewrite IH. cbn [numbered app]. unfold lenN. cbn [length].
    replace (i + N.of_nat (Datatypes.S (length rows))) with (i + 1 + N.of_nat (length rows)) by lia.
    reflexivity.
Qed.

Lemma readable_cursor : forall c flt content r ops,
  opened c file_source flt (file_open content) r -> readable c content r ->
  let cu := (0, file_rows content r) in
  seen (md_row_length (rs_md r)) (fst (trace c file_source ops (Some r))) = fst (cur_trace ops cu)
  /\ current_row_index (snd (trace c file_source ops (Some r))) = fst (snd (cur_trace ops cu)).
Proof.
  intros c flt content r ops [ev O] (H1 & H2 & H3 & H4 & H5).
  exact (reader_is_cursor c flt content r ev O H1 H2 H3 H4 H5 ops).
Qed.

Lemma read_all_rows_of : forall c flt content r rows,
  opened c file_source flt (file_open content) r -> readable c content r ->
  file_rows content r = map Ok rows ->
  seen (md_row_length (rs_md r)) (fst (trace c file_source [OpReadAll] (Some r)))
  = [(OpReadAll, Ok CUnit, numbered 0 rows ++ [CEnd])].
Proof.
  intros c flt content r rows O R E.
  destruct (readable_cursor c flt content r [OpReadAll] O R) as [T _]. cbv zeta in T.
  rewrite E in T. rewrite T. cbn [cur_trace cur_step snd]. rewrite map_length, numbered_from.
  reflexivity.
Qed.

(** Without compression the rows are those of all the pages. *)
Lemma plain_pages : forall ly pages, ly_compression ly = CompNone ->
  rows_on ly pages = flat_map (page_rows ly) pages.
Proof.
  intros ly pages C. unfold rows_on.
  assert (Z : forall pg l, filter (is_stored_row ly pg) l = []).
  { intros pg l. induction l as [|s l IH]; [reflexivity|]. cbn [filter].
    unfold is_stored_row at 1. rewrite C. exact IH. }
  induction pages as [|pg l IH]; [reflexivity|]. cbn [data_pages].
  destruct (begins ly pg) eqn:B.
  - cbn [flat_map fst snd]. rewrite page_rows_on. unfold first_places. rewrite Z. reflexivity.
  - rewrite IH. cbn [flat_map].
    assert (R : row_places ly pg = []).
    { unfold begins in B. apply orb_false_iff in B. destruct B as [B _].
      apply orb_false_iff in B. destruct B as [B1 B2]. unfold row_places. rewrite B1, B2.
      destruct (page_type ly pg =? 0); [|reflexivity]. rewrite C.
      induction (entries ly pg) as [|s l0 IH0]; [reflexivity|exact IH0]. }
    unfold page_rows at 2. rewrite R. reflexivity.
Qed.

(** And every row has its bytes. *)
Lemma plain_rows : forall content r, md_compression (rs_md r) = CompNone ->
  file_rows content r
  = map Ok (firstn (N.to_nat (md_row_count (rs_md r)))
      (flat_map (fun pg => map (fun p => field pg (fst p) (md_row_length (rs_md r)))
                             (row_places (layout_of (rs_h r) (rs_md r)) pg))
         (file_pages content (rs_h r)))).
Proof.
  intros content r C. unfold file_rows. rewrite plain_pages by exact C. rewrite <- firstn_map. f_equal.
  induction (file_pages content (rs_h r)) as [|pg l IH]; [reflexivity|].
  cbn [flat_map]. rewrite map_app, <- IH. f_equal. unfold page_rows. rewrite map_map.
  apply map_ext. intros [pos len]. unfold row_content. cbn [ly_row_length layout_of ly_compression fst].
  rewrite C. destruct (len <? md_row_length (rs_md r)); reflexivity.
Qed.

Lemma read_all_plain : forall c flt content r,
  opened c file_source flt (file_open content) r -> readable c content r ->
  md_compression (rs_md r) = CompNone ->
  seen (md_row_length (rs_md r)) (fst (trace c file_source [OpReadAll] (Some r)))
  = [(OpReadAll, Ok CUnit,
      numbered 0 (firstn (N.to_nat (md_row_count (rs_md r)))
        (flat_map (fun pg => map (fun p => field pg (fst p) (md_row_length (rs_md r)))
                               (row_places (layout_of (rs_h r) (rs_md r)) pg))
           (file_pages content (rs_h r)))) ++ [CEnd])].
Proof.
  intros c flt content r O R C. eapply read_all_rows_of; [exact O|exact R|].
  apply plain_rows. exact C.
Qed.

(** ** Pages without rows *)

Lemma rows_on_skip : forall ly pre l, Forall (fun q => begins ly q = false) pre ->
  rows_on ly (pre ++ l) = rows_on ly l.
Proof. intros ly pre l F. unfold rows_on. rewrite data_pages_skip by exact F. reflexivity. Qed.

Lemma rows_on_begin : forall ly pg l, begins ly pg = true ->
  rows_on ly (pg :: l)
  = map (row_content ly pg) (first_places ly pg) ++ flat_map (page_rows ly) l.
Proof.
  intros ly pg l B. unfold rows_on. cbn [data_pages]. rewrite B. cbn [flat_map fst snd].
  rewrite page_rows_on. reflexivity.
Qed.

(** The pages up to the first one which satisfies [f]. *)
Lemma first_such : forall A (f : A -> bool) l, Exists (fun x => f x = true) l ->
  exists a x b, l = a ++ x :: b /\ Forall (fun y => f y = false) a /\ f x = true.
Proof.
  intros A f l. induction l as [|x l IH]; intros E; [inversion E|].
  destruct (f x) eqn:F.
  - exists [], x, l. auto.
  - inversion E as [? ? X|? ? X]; subst; [congruence|]. destruct (IH X) as (a & y & b & -> & A1 & A2).
    exists (x :: a), y, b. split; [reflexivity|]. auto.
Qed.

Lemma none_or_first : forall A (f : A -> bool) l,
  Forall (fun y => f y = false) l
  \/ exists a x b, l = a ++ x :: b /\ Forall (fun y => f y = false) a /\ f x = true.
Proof.
  intros A f l. induction l as [|x l IH]; [left; constructor|]. destruct (f x) eqn:F.
  - right. exists [], x, l. auto.
  - destruct IH as [IH|(a & y & b & -> & A1 & A2)]; [left; auto|]. right.
    exists (x :: a), y, b. split; [reflexivity|]. auto.
Qed.

(** ** Files all of whose entries are clear *)

(** Up to the first page with rows, what is marked as a row is one. *)
Definition all_clear (ly : layout) (pages : list bytes) : Prop :=
  forall pre pg post, pages = pre ++ pg :: post -> Forall (fun q => row_places ly q = []) pre ->
  forall a s b, live ly pg = a ++ s :: b -> is_data_entry (ly_compression ly) s = true ->
    page_type ly pg = 0
    /\ se_pos s + word (ly_format ly) <= lenN pg /\ kind_on ly pg s = None
    /\ (Exists (fun q => Exists (is_text ly q) (live ly q)) pre \/ Exists (is_text ly pg) a).

Lemma clear_stored : forall ly pg,
  (forall s, In s (live ly pg) -> is_data_entry (ly_compression ly) s = true ->
     page_type ly pg = 0 /\ kind_on ly pg s = None) ->
  (begins ly pg = false -> row_places ly pg = []) /\ first_places ly pg = row_places ly pg.
Proof.
  intros ly pg C.
  assert (E : filter (is_stored_row ly pg) (live ly pg) = filter (is_data_entry (ly_compression ly)) (live ly pg)).
  { revert C. generalize (live ly pg) as l. induction l as [|s l IH]; intros C; [reflexivity|].
    cbn [filter]. rewrite IH by (intros x X; apply C; right; exact X). unfold is_stored_row.
    destruct (is_data_entry (ly_compression ly) s) eqn:D; [|reflexivity].
    rewrite (proj2 (C s (or_introl eq_refl) D)). reflexivity. }
  assert (Z : page_type ly pg = 0 ->
     row_places ly pg = map (fun s => (se_pos s, se_len s)) (filter (is_stored_row ly pg) (live ly pg))).
  { intros T. unfold row_places. rewrite (proj2 (N.eqb_eq _ _) T), E, data_entries_live; [reflexivity|].
    unfold has_subheaders. rewrite T. reflexivity. }
  split.
  - unfold begins. intros B. apply orb_false_iff in B. destruct B as [B B3].
    apply orb_false_iff in B. destruct B as [B1 B2].
    destruct (N.eqb_spec (page_type ly pg) 0) as [T|T].
    + rewrite Z by exact T. rewrite stored_exists in B3. destruct (map _ _); [reflexivity|discriminate B3].
    + unfold row_places. rewrite B1, B2. apply N.eqb_neq in T. rewrite T. reflexivity.
  - unfold first_places. destruct (filter (is_stored_row ly pg) (live ly pg)) as [|s l] eqn:F; [reflexivity|].
    symmetry. apply Z. apply (C s).
    + assert (I : In s (s :: l)) by (left; reflexivity). rewrite <- F in I. apply filter_In in I. tauto.
    + assert (I : In s (s :: l)) by (left; reflexivity). rewrite E in I. apply filter_In in I. tauto.
Qed.

Lemma all_clear_start : forall ly pages, all_clear ly pages ->
  clear_start ly pages /\ rows_on ly pages = flat_map (page_rows ly) pages
  /\ (Forall (good_page ly) pages ->
      (forall pre pg post, pages = pre ++ pg :: post ->
         Exists (fun q => begins ly q = true) pre -> not_empty ly pg) -> good_data ly pages).
Proof.
  intros ly pages C.
  assert (CS : forall pre pg post, pages = pre ++ pg :: post -> Forall (fun q => row_places ly q = []) pre ->
     (begins ly pg = false -> row_places ly pg = []) /\ first_places ly pg = row_places ly pg).
  { intros pre pg post E F. apply clear_stored. intros s I D. apply in_split in I. destruct I as (a & b & L).
    destruct (C pre pg post E F a s b L D) as (X1 & _ & X2 & _). auto. }
  assert (NR : forall l pre post, pages = pre ++ l ++ post -> Forall (fun q => row_places ly q = []) pre ->
     Forall (fun q => begins ly q = false) l -> Forall (fun q => row_places ly q = []) l).
  { induction l as [|q l IH]; intros pre post E F B; [constructor|]. apply Forall_cons_iff in B. destruct B as [B1 B].
    assert (Q : row_places ly q = []) by (apply (CS pre q (l ++ post)); assumption).
    constructor; [exact Q|]. apply (IH (pre ++ [q]) post); [|apply Forall_app; auto|exact B].
    rewrite E, <- !app_assoc. reflexivity. }
  assert (NS : forall l, Forall (fun q => row_places ly q = []) l -> flat_map (page_rows ly) l = []).
  { induction l as [|q l IH]; intros F; [reflexivity|]. apply Forall_cons_iff in F. destruct F as [F1 F].
    cbn [flat_map]. rewrite (IH F). unfold page_rows. rewrite F1. reflexivity. }
  split; [|split].
  - intros pre pg post E F a s b L D.
    assert (F' : Forall (fun q => row_places ly q = []) pre) by (apply (NR pre [] (pg :: post) E); auto).
    destruct (C pre pg post E F' a s b L D) as (_ & X1 & _ & X2). auto.
  - destruct (none_or_first _ (begins ly) pages) as [F|(a & q & b & E & F & Q)].
    + rewrite <- (app_nil_r pages) at 1. rewrite rows_on_skip by exact F. symmetry. apply NS.
      apply (NR pages [] []); auto. rewrite app_nil_r. reflexivity.
    + assert (F' : Forall (fun q => row_places ly q = []) a) by (apply (NR a [] (q :: b) E); auto).
      rewrite E. rewrite rows_on_skip, rows_on_begin, flat_map_app, (NS a) by assumption.
      cbn [app flat_map]. rewrite (proj2 (CS a q b E F')). reflexivity.
  - intros G NE. destruct (none_or_first _ (begins ly) pages) as [F|(a & q & b & E & F & Q)].
    + rewrite <- (app_nil_r pages), good_data_skip by exact F. exact I.
    + assert (F' : Forall (fun q => row_places ly q = []) a) by (apply (NR a [] (q :: b) E); auto).
      rewrite E in G. apply Forall_app in G. destruct G as [_ G]. apply Forall_cons_iff in G. destruct G as [G1 G2].
      rewrite E, good_data_skip by exact F. cbn [good_data]. rewrite Q. rewrite (proj2 (CS a q b E F')).
      split; [exact (proj1 (proj2 G1))|]. split; [exact G2|]. apply Forall_forall. intros x I.
      apply in_split in I. destruct I as (b1 & b2 & ->). apply (NE (a ++ q :: b1) x b2).
      * rewrite E, <- app_assoc. reflexivity.
      * apply Exists_app. right. apply Exists_cons_hd. exact Q.
Qed.

Lemma empty_page_skipped : forall c flt content r ops pre pg post,
  opened c file_source flt (file_open content) r -> readable c content r ->
  let ly := layout_of (rs_h r) (rs_md r) in
  file_pages content (rs_h r) = pre ++ pg :: post ->
  begins ly pg = false \/ Exists (fun q => begins ly q = true) pre ->
  row_places ly pg = [] ->
  seen (md_row_length (rs_md r)) (fst (trace c file_source ops (Some r)))
  = fst (cur_trace ops (0, firstn (N.to_nat (md_row_count (rs_md r))) (rows_on ly (pre ++ post)))).
Proof.
  intros c flt content r ops pre pg post O R ly E W P.
  destruct (readable_cursor c flt content r ops O R) as [T _]. cbv zeta in T. rewrite T.
  unfold file_rows. rewrite E. fold ly.
  assert (X : page_rows ly pg = []) by (unfold page_rows; rewrite P; reflexivity).
  replace (rows_on ly (pre ++ pg :: post)) with (rows_on ly (pre ++ post)); [reflexivity|].
  destruct (none_or_first _ (begins ly) pre) as [F|(a & q & b & -> & F & Q)].
  - rewrite !rows_on_skip by exact F. destruct W as [W|W].
    + symmetry. apply (rows_on_skip ly [pg]). auto.
    + apply Exists_exists in W. destruct W as (q & I & Q). rewrite Forall_forall in F.
      rewrite (F q I) in Q. discriminate.
  - rewrite <- !app_assoc. rewrite (rows_on_skip ly a (_ ++ post)) by exact F.
    rewrite (rows_on_skip ly a (_ ++ pg :: post)) by exact F. cbn [app].
    rewrite !rows_on_begin by exact Q. rewrite !flat_map_app. cbn [flat_map]. rewrite X. reflexivity.
Qed.

(** The data begin on a page of rows which is empty. *)
Lemma empty_first_skipped : forall c flt content r ops pre pg post,
  opened c file_source flt (file_open content) r -> readable c content r ->
  let ly := layout_of (rs_h r) (rs_md r) in
  file_pages content (rs_h r) = pre ++ pg :: post ->
  Forall (fun q => begins ly q = false) pre ->
  begins ly pg = true -> first_places ly pg = [] ->
  seen (md_row_length (rs_md r)) (fst (trace c file_source ops (Some r)))
  = fst (cur_trace ops (0, firstn (N.to_nat (md_row_count (rs_md r))) (flat_map (page_rows ly) post))).
Proof.
  intros c flt content r ops pre pg post O R ly E F B P.
  destruct (readable_cursor c flt content r ops O R) as [T _]. cbv zeta in T. rewrite T.
  unfold file_rows. rewrite E. fold ly. rewrite rows_on_skip by exact F.
  rewrite rows_on_begin by exact B. rewrite P. reflexivity.
Qed.

(** ** The rows handed out *)

Definition ok_in (l : list (res bytes)) (e : cevent) : Prop :=
  match e with CRow _ row => exists v, row = Ok v /\ In (Ok v) l | _ => True end.

Definition out_in (l : list (res bytes)) (x : res cout) : Prop :=
  match x with Ok (CPtr (Some row)) => exists v, row = Ok v /\ In (Ok v) l | _ => True end.

Lemma cur_read_row_in : forall l cu x cu' ev, incl (snd cu) l ->
  cur_read_row cu = (x, cu', ev) -> incl (snd cu') l /\ Forall (ok_in l) ev.
Proof.
  intros l [i [|[row| | | |] q]] x cu' ev H E; cbn in E; injection E as <- <- <-; cbn [snd] in *.
  - split; [exact H|]. repeat constructor.
  - split; [intros a A; apply H; right; exact A|]. repeat constructor. exists row.
    split; [reflexivity|]. apply H. left. reflexivity.
  - split; [intros a A; apply H; right; exact A|constructor].
  - split; [intros a A; apply H; right; exact A|constructor].
  - split; [intros a A; apply H; right; exact A|constructor].
  - split; [intros a A; apply H; right; exact A|constructor].
Qed.

Lemma cur_read_rows_in : forall l n cu x cu' ev, incl (snd cu) l ->
  cur_read_rows n cu = (x, cu', ev) -> incl (snd cu') l /\ Forall (ok_in l) ev.
Proof.
  intros l. induction n as [|n IH]; intros cu x cu' ev H E; cbn [cur_read_rows] in E.
  - injection E as <- <- <-. split; [exact H|constructor].
  - destruct (cur_read_row cu) as [[y cu1] ev1] eqn:R.
    destruct (cur_read_row_in l _ _ _ _ H R) as [H1 F1].
    destruct y as [[|]| | | |]; try (injection E as <- <- <-; auto; fail).
    destruct (cur_read_rows n cu1) as [[z cu2] ev2] eqn:R2. injection E as <- <- <-.
    destruct (IH _ _ _ _ H1 R2) as [H2 F2]. split; [exact H2|]. apply Forall_app. auto.
Qed.

Lemma skipn_incl : forall A n (l : list A), incl (skipn n l) l.
Proof. intros A n l x I. rewrite <- (firstn_skipn n l). apply in_or_app. auto. Qed.

Lemma cur_step_in : forall l o cu x cu' ev, incl (snd cu) l ->
  cur_step o cu = (x, cu', ev) -> incl (snd cu') l /\ Forall (ok_in l) ev /\ out_in l x.
Proof.
  intros l o cu x cu' ev H E. destruct o; cbn [cur_step] in E.
  - destruct (cur_read_row cu) as [[y c1] e1] eqn:R. injection E as <- <- <-.
    destruct (cur_read_row_in l _ _ _ _ H R). split; [assumption|]. split; [assumption|].
    destruct y; exact I.
  - destruct (cur_read_rows _ cu) as [[y c1] e1] eqn:R. injection E as <- <- <-.
    destruct (cur_read_rows_in l _ _ _ _ _ H R). split; [assumption|]. split; [assumption|].
    destruct y; exact I.
  - destruct (cur_read_rows _ cu) as [[y c1] e1] eqn:R. injection E as <- <- <-.
    destruct (cur_read_rows_in l _ _ _ _ _ H R). split; [assumption|]. split; [assumption|].
    destruct y; exact I.
  - unfold cur_skip in E. destruct cu as [i q]. cbn [snd] in H. destruct (_ <=? _).
    + injection E as <- <- <-. split; [|split; [constructor|exact I]]. cbn [snd].
      intros a A. apply H. eapply skipn_incl. exact A.
    + injection E as <- <- <-. split; [intros a []|]. split; [repeat constructor|exact I].
  - destruct (cur_read_row cu) as [[y c1] e1] eqn:R. injection E as <- <- <-.
    destruct (cur_read_row_in l _ _ _ _ H R) as [H1 F1]. split; [assumption|]. split; [constructor|].
    destruct y; try exact I. cbn [rmap out_in]. destruct e1 as [|[|i row|] [|]]; try exact I.
    exact (Forall_inv F1).
  - injection E as <- <- <-. split; [exact H|]. split; [repeat constructor|exact I].
Qed.

Lemma cur_trace_in : forall l ops cu, incl (snd cu) l ->
  Forall (fun t => Forall (ok_in l) (snd t) /\ out_in l (snd (fst t))) (fst (cur_trace ops cu)).
Proof.
  intros l. induction ops as [|o ops IH]; intros cu H; [constructor|]. cbn [cur_trace].
  destruct (cur_step o cu) as [[x c1] ev] eqn:E. destruct (cur_step_in l _ _ _ _ _ H E) as (A1 & A2 & A3).
  specialize (IH c1 A1).
  destruct x; try (constructor; [|constructor]; cbn [fst snd]; auto; fail);
    destruct (cur_trace ops c1) as [t c2]; cbn [fst] in *; constructor; auto.
Qed.

Lemma delivered_rows : forall c flt content r ops,
  opened c file_source flt (file_open content) r -> readable c content r ->
  Forall (fun p => exists v, seen_row (md_row_length (rs_md r)) p = Ok v
                             /\ In (Ok v) (file_rows content r))
    (delivered (fst (trace c file_source ops (Some r)))).
Proof.
  intros c flt content r ops O R.
  destruct (readable_cursor c flt content r ops O R) as [T _]. cbv zeta in T.
  pose proof (cur_trace_in (file_rows content r) ops (0, file_rows content r) (incl_refl _)) as F.
  rewrite <- T in F. clear T O R. revert F. generalize (file_rows content r). intros l F.
  set (rl := md_row_length (rs_md r)) in *.
  induction (fst (trace c file_source ops (Some r))) as [|[[o x] ev] t IH]; [apply Forall_nil|].
  cbn [seen map] in F. pose proof (Forall_inv F) as [F1 F2]. apply Forall_inv_tail in F.
  cbn [fst snd] in F1, F2. cbn [delivered flat_map fst snd].
  apply Forall_app. split; [|exact (IH F)]. apply Forall_app. split.
  - destruct x as [[| |[p|]]| | | |]; try apply Forall_nil.
    apply Forall_cons; [exact F2|apply Forall_nil].
  - clear -F1. induction ev as [|v ev IH]; [apply Forall_nil|]. cbn [map] in F1.
    pose proof (Forall_inv F1) as F2. apply Forall_inv_tail in F1. specialize (IH F1).
    destruct v; cbn; try exact IH. apply Forall_cons; [exact F2|exact IH].
Qed.
