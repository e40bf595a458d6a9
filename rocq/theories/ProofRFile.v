(** Proofs about the R package: reading. *)
From Coq Require Import Permutation.
From Verif Require Import SpecHeader SpecMeta SpecConform ProofConform.
From Verif Require Import Base Lemmas Types Float DateTime Buffer Page Column Header Metadata Decomp Data Reader Drive
  Sinks Print Callbacks Python RPackage SpecDecomp SpecReader SpecDrive SpecValues SpecHeader SpecSinks SpecFile
  SpecRoundtrip SpecCells SpecTable SpecPython SpecRPackage
  ProofValues ProofHeader ProofReader ProofDrive ProofCsv ProofPyChunks ProofRChunks ProofWrite ProofFile ProofRoundtrip ProofRoundtripC
  ProofCells ProofPython ProofPyFile ProofCli ProofRPackage.
Local Open Scope N_scope.

(** ** The whole data sink *)

Lemma rdata_sim : forall P (o : robj P) rows s calls s' calls' a,
  feed rdata_step (s, calls) (SpecSinks.pushes rows) = Ok (s', calls') ->
  accepts (rdata_sink o) (s, a) (SpecSinks.pushes rows)
  /\ after (rdata_sink o) (s, a) (SpecSinks.pushes rows) = (s', a).
Proof.
  intros P o. induction rows as [|[i p] rows IH]; intros s calls s' calls' a H.
  - cbn in H. injection H as <- <-. cbn. auto.
  - change (SpecSinks.pushes ((i, p) :: rows)) with (EvRow i p :: SpecSinks.pushes rows) in *.
    cbn [feed rdata_step] in H.
    destruct (r_base_push s i p) as [s1| | | |] eqn:B; try discriminate. cbn [bind] in H.
    cbn [accepts after rdata_sink]. rewrite B. cbn [fst snd].
    destruct (IH _ _ _ _ a H) as [A1 A2]. auto.
Qed.

Lemma data_rows : forall mk md rows ob, md_row_count md <= r_rows_limit ->
  r_readable (md_columns md) rows -> increasing 0 (md_row_count md) rows -> rob_df ob = DfNull ->
  let k := rdata_sink (r_methods mk RSinkWholeData) in
  let st0 := (r_props (rsink_new 0) md, ob) in
  let order := grouped (md_columns md) in
  accepts k st0 (SpecSinks.pushes rows ++ [EvEnd])
  /\ let st := after k st0 (SpecSinks.pushes rows ++ [EvEnd]) in
     r_df_is (map r_name order) order rows (r_contents (r_heap (fst st)) (rob_df (snd st))).
Proof.
  intros mk md rows ob BL RD INC DF. cbv zeta.
  destruct (r_start 0 md) as (L & OK0 & SZ & IS0 & LE). rewrite (LE eq_refl) in OK0.
  destruct (rdata_feed (md_columns md) (md_row_count md) BL rows 0 [] _ [] OK0) as (s1 & F & OK1); auto.
  { reflexivity. }
  cbn [app] in OK1.
  destruct (rdata_sim _ (r_methods mk RSinkWholeData) _ _ _ _ _ ob F) as [A1 A2].
  rewrite accepts_app, after_app, A2. cbn [accepts after rdata_sink].
  rewrite (ro_idata _ _ _ _ _ _ OK1). destruct rows as [|r rows].
  - cbn. rewrite DF. auto.
  - destruct (N.eqb_spec (lenN (r :: rows)) 0) as [K|_]; [rewrite lenN_cons in K; lia|].
    destruct (deliver_ok _ _ _ _ _ _ OK1) as (s3 & c & D1 & _ & _ & _ & D5 & _).
    destruct (deliver_more _ _ _ _ _ _ _ _ OK1 D1) as (M1 & _). rewrite D1, D5.
    cbn [r_methods fst snd rob_df r_contents]. split; [auto|].
    eexists. split; [reflexivity|]. apply frame_of_refs; [exact M1|apply map_length].
Qed.

(** ** Opening *)

Lemma columns_of_flat : forall h md p, wrap_properties h md = Ok p -> r_columns_of p = Ok [].
Proof.
  intros h md p H. unfold wrap_properties in H.
  destruct (datetime_to_string (h_date_created h)) as [t1| | | |]; try discriminate. cbn [bind] in H.
  destruct (datetime_to_string (h_date_modified h)) as [t2| | | |]; try discriminate. cbn [bind] in H.
  injection H as <-. reflexivity.
Qed.

Lemma by_row_frame_flat : forall h md p names, wrap_properties h md = Ok p -> r_by_row_frame p names = Exn E_r_extent.
Proof.
  intros h md p names H. unfold wrap_properties in H.
  destruct (datetime_to_string (h_date_created h)) as [t1| | | |]; try discriminate. cbn [bind] in H.
  destruct (datetime_to_string (h_date_modified h)) as [t2| | | |]; try discriminate. cbn [bind] in H.
  injection H as <-. reflexivity.
Qed.

Lemma by_row_never : forall S c (src : source S) mk size flt s, fst (r_open c src mk RSinkByRow size flt s) <> Ok tt.
Proof.
  intros S c src mk size flt s. unfold r_open. rewrite drive_open_spec.
  destruct (open_reader c src (Some flt) s) as [[r ev]| | | |]; cbn zeta; try (cbn; discriminate).
  unfold r_class_sink. replace (r_select (r_has RSinkByRow)) with (Ok RRowSink) by (vm_compute; reflexivity).
  cbn [r_kind_sink rrow_sink]. unfold r_alloc, rcb_props.
  destruct (wrap_properties (rs_h r) (rs_md r)) as [p| | | |] eqn:W; cbn [fst snd rmap bind]; try discriminate.
  cbn [r_methods]. rewrite (columns_of_flat _ _ _ W). cbn [r_outcome].
  rewrite (by_row_frame_flat _ _ _ _ W). cbn. discriminate.
Qed.

Definition r_sink_of (mk : list bytes -> list bytes) (cls : r_class) : sink (rstate_sink * r_object) :=
  match cls with
  | RSinkByRow => rrow_sink (r_methods mk RSinkByRow)
  | RSinkByChunk => rchunk_sink (r_methods mk RSinkByChunk)
  | RSinkWholeData => rdata_sink (r_methods mk RSinkWholeData)
  end.

Lemma r_class_kind : forall mk cls ev st, r_class_sink mk cls ev st = r_sink_of mk cls ev st.
Proof.
  intros mk cls ev st. unfold r_class_sink. destruct cls.
  - replace (r_select (r_has RSinkByRow)) with (Ok RRowSink) by (vm_compute; reflexivity). reflexivity.
  - replace (r_select (r_has RSinkByChunk)) with (Ok RChunkSink) by (vm_compute; reflexivity). reflexivity.
  - replace (r_select (r_has RSinkWholeData)) with (Ok RDataSink) by (vm_compute; reflexivity). reflexivity.
Qed.

Lemma wrapped : forall h md, dated h -> exists q, wrap_properties h md = Ok q.
Proof.
  intros h md ((t1 & D1) & (t2 & D2)). unfold wrap_properties. rewrite D1. cbn [bind]. rewrite D2. eexists. reflexivity.
Qed.

Lemma r_opened : forall mk cls h md size q, cls <> RSinkByRow -> wrap_properties h md = Ok q ->
  r_class_sink mk cls (EvProps h md) (rsink_new size, r_new)
  = (Ok tt, (r_props (rsink_new size) md, RObject q [] DfNull)).
Proof.
  intros mk cls h md size q NR W. rewrite r_class_kind.
  destruct cls; [contradiction| |]; cbn [r_sink_of rchunk_sink rdata_sink];
    unfold rcb_props; rewrite W; cbn [r_methods]; rewrite (columns_of_flat _ _ _ W); reflexivity.
Qed.

Lemma r_read_gen : forall S c (src : source S) mk cls size inc exc s r0 ev r1 rows q, cls <> RSinkByRow ->
  open_reader c src (Some (r_filter inc exc)) s = Ok (r0, ev) ->
  read_all c src r0 = (Ok tt, r1, SpecSinks.pushes rows ++ [EvEnd]) -> wrap_properties (rs_h r0) (rs_md r0) = Ok q ->
  let n := match cls with RSinkByChunk => size | _ => 0 end in
  let st1 := (r_props (rsink_new n) (rs_md r0), RObject q [] DfNull) in
  accepts (r_sink_of mk cls) st1 (SpecSinks.pushes rows ++ [EvEnd]) ->
  r_read c src mk cls size inc exc s
  = (Ok tt, RProgram (Some r1) (after (r_sink_of mk cls) st1 (SpecSinks.pushes rows ++ [EvEnd]))).
Proof.
  intros S c src mk cls size inc exc s r0 ev r1 rows q NR O R D n st1 A. unfold r_read, r_open. fold n.
  rewrite drive_open_spec, O. cbn zeta. rewrite (r_opened mk cls _ _ n q NR D). cbn [fst snd rmap bind].
  unfold r_do. cbn [rp_reader rp_st].
  assert (ST : step c src OpReadAll r0 = (Ok OUnit, r1, SpecSinks.pushes rows ++ [EvEnd]))
    by (cbn [step]; rewrite R; reflexivity).
  assert (A' : accepts (r_class_sink mk cls) st1 (SpecSinks.pushes rows ++ [EvEnd]))
    by (apply (accepts_ext _ _ _ (r_class_kind mk cls)); exact A).
  fold st1. rewrite (drive_accepted _ _ _ _ _ _ _ _ _ _ _ ST A'). cbn [rmap bind].
  rewrite (after_ext _ _ _ (r_class_kind mk cls)). reflexivity.
Qed.

Lemma read_increasing : forall S c (src : source S) flt s r0 ev r1 rows, max_alloc c < row_limit ->
  open_reader c src flt s = Ok (r0, ev) -> read_all c src r0 = (Ok tt, r1, SpecSinks.pushes rows ++ [EvEnd]) ->
  increasing 0 (md_row_count (rs_md r0)) rows.
Proof.
  intros S c src flt s r0 ev r1 rows M O R.
  assert (OP : opened c src flt s r0) by (exists ev; exact O).
  destruct (trace c src [OpReadAll] (Some r0)) as [t r] eqn:T.
  pose proof (history_increasing S c src flt s r0 [OpReadAll] t r M OP T) as H.
  cbn [trace reader_step step] in T. unfold reader_step, step in T. rewrite R in T. cbn in T.
  injection T as <- <-. cbn [all_events flat_map snd] in H. rewrite ?app_nil_r in H.
  replace (rows_of (SpecSinks.pushes rows ++ [EvEnd])) with rows in H; [exact H|].
  clear. induction rows as [|[i p] rows IH]; [reflexivity|]. cbn. f_equal. exact IH.
Qed.

Lemma r_read_increasing : forall S c (src : source S) mk size inc exc s r0 ev r1 rows,
  open_reader c src (Some (r_filter inc exc)) s = Ok (r0, ev) ->
  read_all c src r0 = (Ok tt, r1, SpecSinks.pushes rows ++ [EvEnd]) ->
  increasing 0 (md_row_count (rs_md r0)) rows ->
  dated (rs_h r0) -> md_row_count (rs_md r0) <= r_rows_limit -> r_readable (md_columns (rs_md r0)) rows ->
  exists p order, r_read c src mk RSinkWholeData size inc exc s = (Ok tt, p)
    /\ Permutation order (filter known (md_columns (rs_md r0)))
    /\ r_df_is (map r_name order) order rows (r_df p).
Proof.
  intros S c src mk size inc exc s r0 ev r1 rows O R INC D BL RD.
  destruct (wrapped _ (rs_md r0) D) as [q W].
  destruct (data_rows mk (rs_md r0) rows (RObject q [] DfNull) BL RD INC eq_refl) as [A1 A2].
  eexists _, (grouped (md_columns (rs_md r0))).
  split; [apply (r_read_gen _ _ _ _ RSinkWholeData size _ _ _ _ _ _ _ _ ltac:(discriminate) O R W A1)|].
  split; [apply grouped_perm|exact A2].
Qed.

Lemma r_read_whole : forall S c (src : source S) mk size inc exc s r0 ev r1 rows, max_alloc c < row_limit ->
  open_reader c src (Some (r_filter inc exc)) s = Ok (r0, ev) ->
  read_all c src r0 = (Ok tt, r1, SpecSinks.pushes rows ++ [EvEnd]) ->
  dated (rs_h r0) -> md_row_count (rs_md r0) <= r_rows_limit -> r_readable (md_columns (rs_md r0)) rows ->
  exists p order, r_read c src mk RSinkWholeData size inc exc s = (Ok tt, p)
    /\ Permutation order (filter known (md_columns (rs_md r0)))
    /\ r_df_is (map r_name order) order rows (r_df p).
Proof.
  intros S c src mk size inc exc s r0 ev r1 rows M O R D BL RD.
  pose proof (read_increasing _ _ _ _ _ _ _ _ _ M O R) as INC.
  exact (r_read_increasing _ _ _ mk size _ _ _ _ _ _ _ O R INC D BL RD).
Qed.

Lemma r_chunks_increasing : forall S c (src : source S) mk size inc exc s r0 ev r1 rows,
  (forall l, length (mk l) = length l) ->
  open_reader c src (Some (r_filter inc exc)) s = Ok (r0, ev) ->
  read_all c src r0 = (Ok tt, r1, SpecSinks.pushes rows ++ [EvEnd]) ->
  increasing 0 (md_row_count (rs_md r0)) rows ->
  dated (rs_h r0) -> md_row_count (rs_md r0) <= r_rows_limit -> r_readable (md_columns (rs_md r0)) rows ->
  lenN rows = md_row_count (rs_md r0) ->
  exists p order, r_read c src mk RSinkByChunk size inc exc s = (Ok tt, p)
    /\ Permutation order (filter known (md_columns (rs_md r0)))
    /\ r_df_is (mk (map r_name order)) order (r_kept_rows size rows) (r_df p).
Proof.
  intros S c src mk size inc exc s r0 ev r1 rows LM O R INC D BL RD LR.
  destruct (wrapped _ (rs_md r0) D) as [q W].
  destruct (r_start size (rs_md r0)) as (L & OK0 & SZ & IS0 & LE).
  destruct (whole_rows mk (md_columns (rs_md r0)) size (md_row_count (rs_md r0)) BL
              ltac:(rewrite LM; apply map_length) rows L _ (RObject q [] DfNull) OK0 IS0 SZ LE LR INC RD eq_refl) as [A1 A2].
  eexists _, (grouped (md_columns (rs_md r0))).
  split; [apply (r_read_gen _ _ _ _ RSinkByChunk size _ _ _ _ _ _ _ _ ltac:(discriminate) O R W A1)|].
  split; [apply grouped_perm|exact A2].
Qed.

Lemma r_read_chunks : forall S c (src : source S) mk size inc exc s r0 ev r1 rows, max_alloc c < row_limit ->
  (forall l, length (mk l) = length l) ->
  open_reader c src (Some (r_filter inc exc)) s = Ok (r0, ev) ->
  read_all c src r0 = (Ok tt, r1, SpecSinks.pushes rows ++ [EvEnd]) ->
  dated (rs_h r0) -> md_row_count (rs_md r0) <= r_rows_limit -> r_readable (md_columns (rs_md r0)) rows ->
  lenN rows = md_row_count (rs_md r0) ->
  exists p order, r_read c src mk RSinkByChunk size inc exc s = (Ok tt, p)
    /\ Permutation order (filter known (md_columns (rs_md r0)))
    /\ r_df_is (mk (map r_name order)) order (r_kept_rows size rows) (r_df p).
Proof.
  intros S c src mk size inc exc s r0 ev r1 rows M LM O R D BL RD LR.
  pose proof (read_increasing _ _ _ _ _ _ _ _ _ M O R) as INC.
  exact (r_chunks_increasing _ _ _ mk size _ _ _ _ _ _ _ LM O R INC D BL RD LR).
Qed.

(** ** Files *)

Lemma written_dates : forall e f sh hlen plen pages name rest h, good_sizes f sh hlen plen name ->
  header_of_file (header_bytes e f sh hlen plen pages name ++ rest) h -> dated h.
Proof.
  intros e f sh hlen plen pages name rest h G HO. set (content := header_bytes e f sh hlen plen pages name ++ rest) in *.
  destruct G as (H1 & H2 & H3 & H4 & CN). fold (shift_a sh) (shift_b f) in H1.
  assert (A : at_pos content 0 (header_bytes e f sh hlen plen pages name)).
  { exists [], rest. split; reflexivity. }
  unfold header_bytes in A. cbv zeta in A. fold (shift_a sh) (shift_b f) in A.
  apply at_pos_r with (q := 32) in A; [|reflexivity].
  pose proof (at_pos_l _ _ _ _ A) as A32.
  apply at_pos_r with (q := 40) in A; [|reflexivity].
  apply at_pos_r with (q := 70) in A; [|rewrite lenN_zeros; reflexivity].
  apply at_pos_r with (q := 71) in A; [|reflexivity].
  apply at_pos_r with (q := 92) in A; [|rewrite lenN_zeros; reflexivity].
  apply at_pos_r with (q := 156) in A; [|rewrite (lenN_padded 64 name H4); reflexivity].
  apply at_pos_r with (q := 164) in A; [|reflexivity].
  apply at_pos_r with (q := 164 + shift_a sh) in A; [|rewrite lenN_zeros; reflexivity].
  change (zeros 16) with (zeros 8 ++ zeros 8) in A at 1. rewrite <- app_assoc in A.
  pose proof (at_pos_l _ _ _ _ A) as A164.
  apply at_pos_r with (q := 172 + shift_a sh) in A; [|rewrite lenN_zeros; lia].
  pose proof (at_pos_l _ _ _ _ A) as A172. clear A.
  assert (S1 : shift1 content = shift_a sh).
  { unfold shift1. replace (byte_at content 35) with (b2n (if sh then x33 else x22)); [destruct sh; reflexivity|].
    symmetry. apply at_pos_byte.
    change [match f with Bit64 => x33 | Bit32 => x22 end; x00; x00; if sh then x33 else x22; x00;
            match e with Little => x01 | Big => x00 end; x00; x31]
      with ([match f with Bit64 => x33 | Bit32 => x22 end; x00; x00] ++ [if sh then x33 else x22] ++
            [x00; match e with Little => x01 | Big => x00 end; x00; x31]) in A32.
    apply at_pos_r with (q := 35) in A32; [|reflexivity]. exact (at_pos_l _ _ _ _ A32). }
  assert (Z : forall t, date_of_bits (value_of (file_endian content) (zeros 8)) t -> exists x, datetime_to_string t = Ok x).
  { intros t. replace (value_of (file_endian content) (zeros 8)) with 0 by (destruct (file_endian content); reflexivity).
    unfold date_of_bits. intros T. vm_compute in T. injection T as <-. eexists. vm_compute. reflexivity. }
  split; apply Z.
  - pose proof (hof_created _ _ HO) as C. rewrite S1, (at_pos_field _ _ _ 8 A164) in C by reflexivity. exact C.
  - pose proof (hof_modified _ _ HO) as C. rewrite S1, (at_pos_field _ _ _ 8 A172) in C by reflexivity. exact C.
Qed.

Lemma file_counts : forall c flt e fields contents file r ev, holds_table c e fields contents file ->
  open_reader c file_source flt (file_open file) = Ok (r, ev) ->
  dated (rs_h r) /\ md_row_count (rs_md r) = lenN contents.
Proof.
  intros c flt e fields contents file r ev (rows & RO & H) O.
  assert (LE : lenN contents = lenN rows) by (unfold lenN; rewrite (Forall2_len _ _ _ _ _ RO); reflexivity).
  pose proof (reader_header _ _ _ _ _ O) as (_ & HO & _).
  destruct H as [f sh hlen plen name t <- <- H1 H2 H3 H4|f sh hlen plen name k rl first pages H1 H2 H3 H4|file H1 _].
  - destruct (round_trip c flt e f sh hlen plen name t H1 H2 H3 H4) as (r' & cols & O' & _ & _ & _ & _ & _ & RC & _).
    rewrite O in O'. injection O' as E1 _. subst r'. split; [|rewrite RC, LE; reflexivity].
    apply (written_dates _ _ _ _ _ _ _ _ _ H1 HO).
  - destruct (round_trip_compressed c flt e f sh hlen plen name k fields rl first pages rows H1 H2 H3 H4)
      as (r' & cols & O' & _ & _ & _ & _ & _ & RC & _).
    rewrite O in O'. injection O' as E1 _. subst r'. split; [|rewrite RC, LE; reflexivity].
    apply (written_dates _ _ _ _ _ _ _ _ _ H1 HO).
  - destruct (nearly_back c flt file fields rows H1) as (r' & cols & got & O' & _ & MD & _).
    rewrite O in O'. injection O' as E1 _. subst r'. split; [exact (file_dates _ _ _ _ _ _ H1 HO)|].
    rewrite MD, LE. symmetry. exact (proj2 H1).
Qed.

Lemma from_increasing : forall rows n limit, map fst rows = from n (length rows) ->
  n + lenN rows <= limit -> increasing n limit rows.
Proof.
  induction rows as [|[i p] rows IH]; intros n limit H L; [exact Logic.I|].
  cbn in H. injection H as -> H. rewrite lenN_cons in L. cbn. split; [lia|]. apply IH; [exact H|lia].
Qed.

Lemma r_cell_unique : forall c p y z, r_cell c p y -> r_cell c p z -> y = z.
Proof.
  intros c p y z (v & V & Y) (w & W & Z). pose proof (cell_unique _ _ _ _ V W) as E. subst w.
  destruct v as [s|b|b|[|t]|[|d]|[|t]]; cbn in Y, Z; try congruence;
    destruct Y as (a & A & ->), Z as (b & B & ->); [rewrite (until_zero_unique _ _ _ A B); reflexivity|..]; congruence.
Qed.

Lemma cell_content : forall e d col p x v, column_for e d col -> cell_value col p x -> value_is v x ->
  (has_text col v -> exists t, c_to_string col p = Ok t /\ text_is v t) ->
  exists y, r_cell col p y /\ r_content_is d v y.
Proof.
  intros e d col p x v CF CV VI HT.
  destruct v as [t|z|bits|t|t us|us|bits]; cbn [value_is] in VI;
    destruct x as [s|y|b|u|g|u]; try contradiction.
  - subst s. exists (RText (r_text t)). pose proof (r_text_until t) as U.
    split; [exists (VString t); split; [exact CV|]|]; exists (r_text t); auto.
  - exists (RInt y). split; [exists (VInteger y); split; [exact CV|reflexivity]|cbn; congruence].
  - exists (RReal b). split; [exists (VNumber b); split; [exact CV|reflexivity]|cbn; congruence].
  - destruct (HT Logic.I) as (t' & T1 & T2). exists (RText t'). split; [|cbn; eauto].
    exists (VDate g). split; [exact CV|]. destruct g as [|g]; [vm_compute in VI; discriminate VI|cbn; eauto].
  - destruct (HT Logic.I) as (t' & T1 & T2). exists (RText t'). split; [|cbn; eauto].
    exists (VDateTime u). split; [exact CV|]. destruct u; [contradiction|cbn; eauto].
  - destruct (HT Logic.I) as (t' & T1 & T2). exists (RText t'). split; [|cbn; eauto].
    exists (VTime u). split; [exact CV|]. subst u. cbn; eauto.
  - exists (RReal b). split; [exists (VNumber b); split; [exact CV|reflexivity]|]. subst b. left. split; [|reflexivity].
    destruct CV as [T _]. destruct CF as (_ & _ & _ & _ & _ & _ & RT). unfold c_type in T. rewrite T in RT.
    inversion RT; subst. unfold is_number, is_date, is_datetime, is_time. auto.
  - subst u. exists RNa. split; [exists (VDateTime NotADateTime); split; [exact CV|reflexivity]|]. right. split; [|reflexivity].
    destruct CV as [T _]. destruct CF as (_ & _ & _ & _ & _ & _ & RT). unfold c_type in T. rewrite T in RT.
    inversion RT; subst. unfold is_number, is_date, is_datetime, is_time. tauto.
  - subst g. exists RNa. split; [exists (VDate NotADate); split; [exact CV|reflexivity]|]. right. split; [|reflexivity].
    destruct CV as [T _]. destruct CF as (_ & _ & _ & _ & _ & _ & RT). unfold c_type in T. rewrite T in RT.
    inversion RT; subst. unfold is_number, is_date, is_datetime, is_time. tauto.
  - subst u. exists RNa. split; [exists (VTime NotATime); split; [exact CV|reflexivity]|]. right. split; [|reflexivity].
    destruct CV as [T _]. destruct CF as (_ & _ & _ & _ & _ & _ & RT). unfold c_type in T. rewrite T in RT.
    inversion RT; subst. unfold is_number, is_date, is_datetime, is_time. tauto.
Qed.

Lemma filter_indices : forall A (g : A -> bool) l, exists js, NoDup js
  /\ Forall2 (fun c j => nth_error l j = Some c) (filter g l) js
  /\ forall j, In j js <-> exists c, nth_error l j = Some c /\ g c = true.
Proof.
  intros A g. induction l as [|a l (js & ND & F & I)].
  - exists []. split; [constructor|]. split; [constructor|]. intros [|j]; cbn; split; try contradiction;
      intros (c & E & _); discriminate.
  - assert (ND' : NoDup (map S js)) by (apply FinFun.Injective_map_NoDup; [intros x y E; congruence|exact ND]).
    assert (F' : Forall2 (fun c j => nth_error (a :: l) j = Some c) (filter g l) (map S js)).
    { clear - F. induction F; cbn; constructor; auto. }
    assert (I' : forall j, In j (map S js) <-> exists k, j = S k /\ exists c, nth_error l k = Some c /\ g c = true).
    { intros j. rewrite in_map_iff. split; [intros (k & <- & H)|intros (k & -> & H)]; exists k; rewrite I in *; auto. }
    cbn [filter]. destruct (g a) eqn:G.
    + exists (0%nat :: map S js). split.
      { constructor; [|exact ND']. rewrite I'. intros (k & K & _). discriminate. }
      split; [constructor; [reflexivity|exact F']|]. intros [|j]; cbn [In nth_error].
      * split; [intros _; eauto|auto].
      * rewrite I'. split; [intros [E|(k & E & H)]; [discriminate|injection E as <-; exact H]|eauto].
    + exists (map S js). split; [exact ND'|]. split; [exact F'|]. intros [|j]; rewrite I'; cbn [nth_error].
      * split; [intros (k & E & _); discriminate|]. intros (c & E & H). congruence.
      * split; [intros (k & E & H); injection E as <-; exact H|eauto].
Qed.

Lemma Forall2_nth_intro : forall A B (R : A -> B -> Prop) l m, length l = length m ->
  (forall i a b, nth_error l i = Some a -> nth_error m i = Some b -> R a b) -> Forall2 R l m.
Proof.
  intros A B R. induction l as [|a l IH]; intros [|b m] L H; try discriminate; constructor.
  - apply (H 0%nat); reflexivity.
  - apply IH; [injection L as L; exact L|]. intros i. apply (H (S i)).
Qed.

(** What is known of the rows of a file which holds a table, and what a frame made of some
    of its rows contains. *)
Lemma file_frames : forall c inc exc e fields contents file, holds_table c e fields contents file ->
  contents <> [] ->
  exists r ev cols rows r1,
    open_reader c file_source (Some (r_filter inc exc)) (file_open file) = Ok (r, ev)
    /\ read_all c file_source r = (Ok tt, r1, SpecSinks.pushes rows ++ [EvEnd])
    /\ increasing 0 (md_row_count (rs_md r)) rows
    /\ dated (rs_h r) /\ md_row_count (rs_md r) = lenN contents /\ length contents = length rows
    /\ r_readable (md_columns (rs_md r)) rows
    /\ Forall2 (fun vs p => shown (Some (r_filter inc exc)) cols vs (snd p)) contents rows
    /\ forall order (rows' : list (N * pview)) contents' (f : rframe), Permutation order (filter known (md_columns (rs_md r))) ->
         Forall2 (fun vs p => shown (Some (r_filter inc exc)) cols vs (snd p)) contents' rows' ->
         map fst f = map r_name order ->
         Forall2 (fun c (col : bytes * list (option rval)) =>
            Forall2 (fun r x => exists y, r_cell c (snd r) y /\ x = Some y) rows' (snd col)) order f ->
         exists js, NoDup js
           /\ (forall j, In j js <-> exists d, nth_error fields j = Some d /\ wanted inc exc (fd_name d))
           /\ Forall2 (r_column_is fields contents') js f.
Proof.
  intros c inc exc e fields contents file H NE.
  destruct (file_back c (Some (r_filter inc exc)) e fields contents file H) as (r & cols & evs & O & MC & CF & TR & EV).
  destruct (file_counts _ _ _ _ _ _ _ _ H O) as [DT RC].
  destruct EV as (rows & -> & IX & SH).
  pose proof (Forall2_len _ _ _ _ _ SH) as LR.
  assert (RA : exists r1, read_all c file_source r = (Ok tt, r1, SpecSinks.pushes rows ++ [EvEnd])).
  { cbn [trace reader_step step] in TR. unfold reader_step, step in TR.
    destruct (read_all c file_source r) as [[x r1] ev] eqn:RA. destruct x; cbn in TR; try discriminate TR.
    injection TR as TR. subst ev. exists r1. destruct a. reflexivity. }
  destruct RA as (r1 & RA).
  (* the cells of a kept column *)
  assert (CELL : forall contents' (rows' : list (N * pview)),
    Forall2 (fun vs p => shown (Some (r_filter inc exc)) cols vs (snd p)) contents' rows' ->
    forall i vs p j d col, nth_error contents' i = Some vs -> nth_error rows' i = Some p ->
    nth_error fields j = Some d -> nth_error cols j = Some col -> r_filter inc exc col = true ->
    exists v y, nth_error vs j = Some v /\ r_cell col (snd p) y /\ r_content_is d v y).
  { intros contents' rows' SH' i vs p j d col E1 E2 E3 E4 K.
    destruct (nth_Forall2 _ _ _ _ _ SH' _ _ E1) as (p' & E2' & S1). rewrite E2 in E2'. injection E2' as <-.
    destruct (nth_Forall2_r _ _ _ _ _ S1 _ _ E4) as (v & E5 & S2). destruct (S2 K) as ((x & CV & VI) & HT).
    destruct (nth_Forall2 _ _ _ _ _ CF _ _ E3) as (col' & E4' & C1). rewrite E4 in E4'. injection E4' as <-.
    destruct (cell_content e d col (snd p) x v C1 CV VI HT) as (y & Y1 & Y2). eauto. }
  assert (FLD : forall j col, nth_error cols j = Some col -> exists d, nth_error fields j = Some d /\ column_for e d col).
  { intros j col E. destruct (nth_Forall2_r _ _ _ _ _ CF _ _ E) as (d & D & C). eauto. }
  assert (ROW : forall p, In p rows -> exists i vs, nth_error rows i = Some p /\ nth_error contents i = Some vs).
  { intros p I. destruct (In_nth_error _ _ I) as (i & E). destruct (nth_Forall2_r _ _ _ _ _ SH _ _ E) as (vs & V & _). eauto. }
  assert (RD : r_readable (md_columns (rs_md r)) rows).
  { rewrite MC. apply Forall_forall. intros p I. apply Forall_forall. intros col IC _.
    apply filter_In in IC. destruct IC as [IC K]. destruct (In_nth_error _ _ IC) as (j & E4).
    destruct (FLD j col E4) as (d & E3 & _). destruct (ROW p I) as (i & vs & E2 & E1).
    destruct (CELL _ _ SH i vs p j d col E1 E2 E3 E4 K) as (v & y & _ & Y & _). eauto. }
  assert (RN : rows <> []) by (intros E; subst rows; inversion SH; subst; contradiction).
  assert (KN : Forall (fun col => known col = true) (filter (r_filter inc exc) cols)).
  { apply Forall_forall. intros col IC. apply filter_In in IC. destruct IC as [IC K].
    destruct (In_nth_error _ _ IC) as (j & E4). destruct (FLD j col E4) as (d & E3 & _).
    destruct rows as [|p0 rows0]; [contradiction|].
    destruct (ROW p0 (or_introl eq_refl)) as (i & vs & E2 & E1).
    destruct (CELL _ _ SH i vs p0 j d col E1 E2 E3 E4 K) as (v & y & _ & (x & CV & _) & _). eapply cell_known. exact CV. }
  assert (INC : increasing 0 (md_row_count (rs_md r)) rows).
  { apply from_increasing; [rewrite <- LR; exact IX|]. rewrite RC. unfold lenN. rewrite LR. lia. }
  eexists r, _, cols, rows, r1. split; [exact O|]. split; [exact RA|]. split; [exact INC|]. split; [exact DT|].
  split; [exact RC|]. split; [exact LR|]. split; [exact RD|]. split; [exact SH|].
  intros order rows' contents' f PM SH' NF FF.
  rewrite MC, (filter_all _ _ _ KN) in PM.
  destruct (filter_indices _ (r_filter inc exc) cols) as (js0 & ND0 & F0 & I0).
  edestruct Permutation_Forall2 as (js & PJ & FJ); [apply (Permutation_sym PM)|exact F0|].
  exists js.
  split; [apply (Permutation_NoDup PJ ND0)|]. split.
  - intros j. split.
    + intros I. apply (Permutation_in _ (Permutation_sym PJ)) in I. apply I0 in I. destruct I as (col & E4 & K).
      destruct (FLD j col E4) as (d & E3 & (N1 & _)). exists d. split; [exact E3|].
      rewrite <- N1. apply wanted_filter. exact K.
    + intros (d & E3 & W). apply (Permutation_in _ PJ). apply I0.
      destruct (nth_Forall2 _ _ _ _ _ CF _ _ E3) as (col & E4 & (N1 & _)). exists col. split; [exact E4|].
      apply wanted_filter. rewrite N1. exact W.
  - assert (IN : Forall (fun col => In col (filter (r_filter inc exc) cols)) order).
    { apply Forall_forall. intros col I. apply (Permutation_in _ PM). exact I. }
    pose proof (Forall2_len _ _ _ _ _ SH') as LR'. specialize (CELL _ _ SH').
    clear - CELL FLD LR' NF FF FJ IN. revert js FJ NF IN.
    induction FF as [|col [n cells] order f F1 FF IH]; intros js FJ NF IN.
    + inversion FJ; subst. constructor.
    + inversion FJ as [|? j ? js' E4 FJ']; subst. inversion IN as [|? ? I1 IN']; subst.
      cbn [map fst] in NF. injection NF as N1 NF. constructor; [|apply IH; assumption].
      destruct (FLD j col E4) as (d & E3 & (N2 & _)). exists d. split; [exact E3|].
      split; [cbn [fst]; rewrite N1, <- N2; apply r_text_until|]. cbn [snd] in *.
      apply filter_In in I1. destruct I1 as [_ K].
      apply Forall2_nth_intro; [rewrite LR'; apply (Forall2_len _ _ _ _ _ F1)|].
      intros i vs x E1 E5. destruct (nth_Forall2_r _ _ _ _ _ F1 _ _ E5) as (p & E2 & y & Y & ->).
      destruct (CELL i vs p j d col E1 E2 E3 E4 K) as (v & z & V & Z1 & Z2). exists v, y.
      rewrite (r_cell_unique _ _ _ _ Y Z1). auto.
Qed.

Lemma r_read_file : forall c mk size inc exc e fields contents file, holds_table c e fields contents file ->
  contents <> [] -> lenN contents <= r_rows_limit ->
  exists p f js, r_read c file_source mk RSinkWholeData size inc exc (file_open file) = (Ok tt, p)
    /\ r_df p = Some f
    /\ NoDup js
    /\ (forall j, In j js <-> exists d, nth_error fields j = Some d /\ wanted inc exc (fd_name d))
    /\ Forall2 (r_column_is fields contents) js f.
Proof.
  intros c mk size inc exc e fields contents file H NE BL.
  destruct (file_frames c inc exc e fields contents file H NE)
    as (r & ev & cols & rows & r1 & O & RA & INC & DT & RC & LR & RD & SH & G).
  destruct (r_read_increasing _ _ _ mk size inc exc _ _ _ _ _ O RA INC DT ltac:(rewrite RC; exact BL) RD)
    as (p & order & RR & PM & DF).
  unfold r_df_is in DF. destruct rows as [|p0 rows0] eqn:ER; [destruct contents; [contradiction|discriminate]|].
  rewrite <- ER in *. destruct DF as (f & DF & NF & FF).
  destruct (G order rows contents f PM SH NF FF) as (js & J).
  exists p, f, js. auto.
Qed.

Lemma Forall2_firstn : forall A B (R : A -> B -> Prop) n l m, Forall2 R l m -> Forall2 R (firstn n l) (firstn n m).
Proof. induction n as [|n IH]; intros l m F; [constructor|]. destruct F; cbn; constructor; auto. Qed.
Lemma Forall2_skipn : forall A B (R : A -> B -> Prop) n l m, Forall2 R l m -> Forall2 R (skipn n l) (skipn n m).
Proof. induction n as [|n IH]; intros l m F; [exact F|]. destruct F; cbn; [constructor|auto]. Qed.

Lemma kept_Forall2 : forall A B (R : A -> B -> Prop) size l m, Forall2 R l m ->
  Forall2 R (r_kept_rows size l) (r_kept_rows size m).
Proof.
  intros A B R size l m F. unfold r_kept_rows. replace (lenN m) with (lenN l) by (unfold lenN; rewrite (Forall2_len _ _ _ _ _ F); reflexivity).
  destruct (_ && _); [|exact F]. apply Forall2_app; [apply Forall2_firstn|]; apply Forall2_skipn; exact F.
Qed.

(** The same with SinkByChunk: the rows which are kept. *)
Lemma r_chunks_file : forall c mk size inc exc e fields contents file, holds_table c e fields contents file ->
  (forall l, length (mk l) = length l) ->
  contents <> [] -> lenN contents <= r_rows_limit ->
  exists p f names js, r_read c file_source mk RSinkByChunk size inc exc (file_open file) = (Ok tt, p)
    /\ r_df p = Some f
    /\ NoDup js
    /\ (forall j, In j js <-> exists d, nth_error fields j = Some d /\ wanted inc exc (fd_name d))
    /\ map fst f = mk names
    /\ Forall2 (r_column_is fields (r_kept_rows size contents)) js (combine names (map snd f)).
Proof.
  intros c mk size inc exc e fields contents file H LM NE BL.
  destruct (file_frames c inc exc e fields contents file H NE)
    as (r & ev & cols & rows & r1 & O & RA & INC & DT & RC & LR & RD & SH & G).
  assert (LN : lenN rows = md_row_count (rs_md r)) by (rewrite RC; unfold lenN; rewrite LR; reflexivity).
  destruct (r_chunks_increasing _ _ _ mk size inc exc _ _ _ _ _ LM O RA INC DT ltac:(rewrite RC; exact BL) RD LN)
    as (p & order & RR & PM & DF).
  assert (KNE : r_kept_rows size rows <> []).
  { unfold r_kept_rows. destruct (_ && _) eqn:E; [|destruct rows, contents; try discriminate; contradiction].
    apply andb_true_iff in E. destruct E as [E1 E2]. apply N.ltb_lt in E1. apply N.leb_le in E2.
    intros K. apply app_eq_nil in K. destruct K as [_ K]. apply (f_equal (@length _)) in K. rewrite skipn_length in K.
    cbn in K. unfold lenN in E2. lia. }
  unfold r_df_is in DF. destruct (r_kept_rows size rows) as [|p0 rows0] eqn:ER; [contradiction|].
  rewrite <- ER in *. destruct DF as (f & DF & NF & FF).
  set (names := map r_name order) in *.
  assert (LF : length names = length (map snd f)).
  { unfold names. rewrite !map_length. apply (Forall2_len _ _ _ _ _ FF). }
  assert (E1 : map fst (combine names (map snd f)) = names).
  { clear - LF. revert LF. generalize (map snd f). induction names as [|n names IH]; intros [|x l] L; try discriminate; [reflexivity|].
    cbn. f_equal. apply IH. injection L as L. exact L. }
  assert (E2 : map snd (combine names (map snd f)) = map snd f).
  { clear - LF. revert LF. generalize (map snd f). induction names as [|n names IH]; intros [|x l] L; try discriminate; [reflexivity|].
    cbn. f_equal. apply IH. injection L as L. exact L. }
  assert (FF' : Forall2 (fun c col => Forall2 (fun r x => exists y, r_cell c (snd r) y /\ x = Some y) (r_kept_rows size rows) (snd col))
                  order (combine names (map snd f))).
  { clear - FF E2. revert E2. generalize (combine names (map snd f)) as g. induction FF as [|col a order f F1 FF IH]; intros [|b g] E; try discriminate; constructor.
    - cbn in E. injection E as -> _. exact F1.
    - cbn in E. injection E as _ E. apply IH. exact E. }
  destruct (G order _ _ _ PM (kept_Forall2 _ _ _ size _ _ SH) E1 FF') as (js & J1 & J2 & J3).
  exists p, f, names, js. auto 10.
Qed.

(** The names of the columns, up to a zero byte. *)
Lemma names_until : forall order, Forall2 (fun c n => until_zero (c_name c) n) order (map r_name order).
Proof. induction order; constructor; [apply r_text_until|assumption]. Qed.

Lemma r_read_whole_names : forall S c (src : source S) mk size inc exc s r0 ev r1 rows, max_alloc c < row_limit ->
  open_reader c src (Some (r_filter inc exc)) s = Ok (r0, ev) ->
  read_all c src r0 = (Ok tt, r1, SpecSinks.pushes rows ++ [EvEnd]) ->
  dated (rs_h r0) -> md_row_count (rs_md r0) <= r_rows_limit -> r_readable (md_columns (rs_md r0)) rows ->
  exists p order names, r_read c src mk RSinkWholeData size inc exc s = (Ok tt, p)
    /\ Permutation order (filter known (md_columns (rs_md r0)))
    /\ Forall2 (fun c n => until_zero (c_name c) n) order names
    /\ r_df_is names order rows (r_df p).
Proof.
  intros S c src mk size inc exc s r0 ev r1 rows M O R D BL RD.
  destruct (r_read_whole S c src mk size inc exc s r0 ev r1 rows M O R D BL RD) as (p & order & A & B & C).
  exists p, order, (map r_name order). auto using names_until.
Qed.

Lemma r_read_chunks_names : forall S c (src : source S) mk size inc exc s r0 ev r1 rows, max_alloc c < row_limit ->
  (forall l, length (mk l) = length l) ->
  open_reader c src (Some (r_filter inc exc)) s = Ok (r0, ev) ->
  read_all c src r0 = (Ok tt, r1, SpecSinks.pushes rows ++ [EvEnd]) ->
  dated (rs_h r0) -> md_row_count (rs_md r0) <= r_rows_limit -> r_readable (md_columns (rs_md r0)) rows ->
  lenN rows = md_row_count (rs_md r0) ->
  exists p order names, r_read c src mk RSinkByChunk size inc exc s = (Ok tt, p)
    /\ Permutation order (filter known (md_columns (rs_md r0)))
    /\ Forall2 (fun c n => until_zero (c_name c) n) order names
    /\ r_df_is (mk names) order (r_kept_rows size rows) (r_df p).
Proof.
  intros S c src mk size inc exc s r0 ev r1 rows M LM O R D BL RD LR.
  destruct (r_read_chunks S c src mk size inc exc s r0 ev r1 rows M LM O R D BL RD LR) as (p & order & A & B & C).
  exists p, order, (map r_name order). auto using names_until.
Qed.
