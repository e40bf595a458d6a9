(** Proofs about the columns and about the metadata of a file. *)
From Verif Require Import Base Types Lemmas Buffer Page Header Column Metadata Decomp Data
  Reader SpecValues SpecBuffer SpecHeader SpecDecomp SpecReader SpecPages SpecMeta ProofValues
  ProofBuffer ProofHeader ProofDecomp ProofMetaInv ProofReader ProofPages ProofOpen ProofMeta.
Local Open Scope N_scope.

(** ** The columns *)

Definition nth_col (e : endian) (m : mstate) (i : nat) : option column :=
  match nth_error (m_names m) i, nth_error (m_labels m) i, nth_error (m_formats m) i,
        nth_error (m_offsets m) i, nth_error (m_lengths m) i, nth_error (m_types m) i with
  | Some name, Some label, Some fmt, Some off, Some len, Some ty =>
      Some (Column name label fmt (Formatter (column_kind ty len fmt) off len e))
  | _, _, _, _, _, _ => None
  end.

Fixpoint cols_from (e : endian) (m : mstate) (i n : nat) : option (list column) :=
  match n with
  | O => Some []
  | S n' =>
      match nth_col e m i, cols_from e m (S i) n' with
      | Some c, Some l => Some (c :: l)
      | _, _ => None
      end
  end.

Definition kept (flt : option (column -> bool)) (l : list column) : list column :=
  match flt with None => l | Some p => filter p l end.

Lemma create_loop_spec : forall e flt m n fuel i acc,
  (i <= length (m_names m))%nat -> (S (length (m_names m)) - i <= fuel)%nat ->
  create_loop e flt m (N.of_nat (i + n)) fuel i acc
  = match cols_from e m i n with
    | Some l => Ok (acc ++ kept flt l)
    | None => Exn E_out_of_range
    end.
Proof.
  intros e flt m n. induction n as [|n IH]; intros fuel i acc L F.
  - rewrite Nat.add_0_r. destruct fuel; cbn [create_loop]; rewrite N.ltb_irrefl;
      cbn [cols_from]; destruct flt; cbn; rewrite app_nil_r; reflexivity.
  - destruct fuel as [|fuel]; [lia|]. cbn [create_loop].
    destruct (N.ltb_spec (N.of_nat i) (N.of_nat (i + S n))); [|lia].
    cbn [cols_from]. unfold nth_col at 1, at_.
    destruct (nth_error (m_names m) i) as [name|] eqn:E1; [cbn [bind]|reflexivity].
    destruct (nth_error (m_labels m) i) as [label|]; [cbn [bind]|reflexivity].
    destruct (nth_error (m_formats m) i) as [fmt|]; [cbn [bind]|reflexivity].
    destruct (nth_error (m_offsets m) i) as [off|]; [cbn [bind]|reflexivity].
    destruct (nth_error (m_lengths m) i) as [len|]; [cbn [bind]|reflexivity].
    destruct (nth_error (m_types m) i) as [ty|]; [cbn [bind]|reflexivity].
    assert (i < length (m_names m))%nat by (apply nth_error_Some; congruence).
    replace (i + S n)%nat with (S i + n)%nat by lia.
    rewrite IH by lia. destruct (cols_from e m (S i) n) as [l|]; [|reflexivity].
    f_equal. destruct flt as [p|]; cbn [kept filter].
    + destruct (p _); [rewrite <- app_assoc|]; reflexivity.
    + rewrite <- app_assoc. reflexivity.
Qed.

Lemma create_columns_spec : forall c e flt m,
  create_columns c e flt m
  = if 120 * md_column_count (m_md m) <=? max_alloc c then
      match cols_from e m 0 (N.to_nat (md_column_count (m_md m))) with
      | Some l => Ok (with_columns (md_columns (m_md m) ++ kept flt l) (m_md m))
      | None => Exn E_out_of_range
      end
    else Exn E_bad_alloc.
Proof.
  intros c e flt m. unfold create_columns, sizeof_column. destruct (_ <=? _); [|reflexivity].
  rewrite <- (N2Nat.id (md_column_count (m_md m))) at 1.
  rewrite <- (Nat.add_0_l (N.to_nat (md_column_count (m_md m)))) at 1.
  rewrite create_loop_spec by lia. destruct (cols_from _ _ _ _); reflexivity.
Qed.

Lemma nth_col_at : forall e m i col, nth_col e m i = Some col -> column_at e m i col.
Proof.
  intros e m i col H. unfold nth_col in H. unfold column_at.
  destruct (nth_error (m_names m) i) as [name|]; [|discriminate].
  destruct (nth_error (m_labels m) i) as [label|]; [|discriminate].
  destruct (nth_error (m_formats m) i) as [fmt|]; [|discriminate].
  destruct (nth_error (m_offsets m) i) as [off|]; [|discriminate].
  destruct (nth_error (m_lengths m) i) as [len|]; [|discriminate].
  destruct (nth_error (m_types m) i) as [ty|]; [|discriminate].
  injection H as <-. exists ty. cbn. repeat split; reflexivity.
Qed.

Lemma cols_from_nth : forall e m n i l, cols_from e m i n = Some l ->
  length l = n /\ forall k col, nth_error l k = Some col -> column_at e m (i + k) col.
Proof.
  intros e m n. induction n as [|n IH]; intros i l H.
  - injection H as <-. split; [reflexivity|]. intros [|k] col K; discriminate.
  - cbn [cols_from] in H. destruct (nth_col e m i) as [c|] eqn:E; [|discriminate].
    destruct (cols_from e m (S i) n) as [l'|] eqn:E'; [|discriminate]. injection H as <-.
    destruct (IH _ _ E') as [L K]. split; [cbn; congruence|].
    intros [|k] col C.
    + injection C as <-. rewrite Nat.add_0_r. apply nth_col_at. exact E.
    + rewrite Nat.add_succ_r. apply K. exact C.
Qed.

Lemma nth_col_some : forall e m i, 
  nth_col e m i <> None <->
  (i < length (m_names m) /\ i < length (m_labels m) /\ i < length (m_formats m)
   /\ i < length (m_offsets m) /\ i < length (m_lengths m) /\ i < length (m_types m))%nat.
Proof.
  intros e m i. unfold nth_col. rewrite <- !nth_error_Some.
  destruct (nth_error (m_names m) i); [|split; [congruence|intros (X & _); congruence]].
  destruct (nth_error (m_labels m) i); [|split; [congruence|intros (_ & X & _); congruence]].
  destruct (nth_error (m_formats m) i); [|split; [congruence|intros (_ & _ & X & _); congruence]].
  destruct (nth_error (m_offsets m) i); [|split; [congruence|intros (_ & _ & _ & X & _); congruence]].
  destruct (nth_error (m_lengths m) i); [|split; [congruence|intros (_ & _ & _ & _ & X & _); congruence]].
  destruct (nth_error (m_types m) i); [|split; [congruence|intros (_ & _ & _ & _ & _ & X); congruence]].
  split; [intros _|intros _]; repeat split; discriminate.
Qed.

Lemma cols_from_some : forall e m n i,
  (cols_from e m i n <> None <-> forall k, (k < n)%nat -> nth_col e m (i + k) <> None).
Proof.
  intros e m n. induction n as [|n IH]; intros i; cbn [cols_from].
  - split; [intros _ k K; lia|discriminate].
  - specialize (IH (S i)). split.
    + intros H [|k] K.
      * rewrite Nat.add_0_r. destruct (nth_col e m i); congruence.
      * replace (i + S k)%nat with (S i + k)%nat by lia. apply IH; [|lia].
        destruct (nth_col e m i); [|congruence]. destruct (cols_from e m (S i) n); congruence.
    + intros H. pose proof (H O ltac:(lia)) as H0. rewrite Nat.add_0_r in H0.
      destruct (nth_col e m i); [|congruence].
      assert (X : cols_from e m (S i) n <> None).
      { apply IH. intros k K. replace (S i + k)%nat with (i + S k)%nat by lia. apply H. lia. }
      destruct (cols_from e m (S i) n); [discriminate|congruence].
Qed.

Lemma enough_cols : forall e m,
  cols_from e m 0 (N.to_nat (md_column_count (m_md m))) <> None <-> enough_entries m.
Proof.
  intros e m. rewrite cols_from_some. unfold enough_entries, lenN. cbn [Nat.add].
  destruct (N.to_nat (md_column_count (m_md m))) as [|n] eqn:E.
  - split; [intros _; cbv zeta; repeat split; lia|intros _ k K; lia].
  - split.
    + intros H. specialize (H n ltac:(lia)). apply nth_col_some in H. cbv zeta. lia.
    + intros H k K. apply nth_col_some. cbv zeta in H. lia.
Qed.

Lemma columns_built : forall c e m d, md_columns (m_md m) = [] ->
  create_columns c e None m = Ok d ->
  lenN (md_columns d) = md_column_count (m_md m)
  /\ forall i col, nth_error (md_columns d) i = Some col -> column_at e m i col.
Proof.
  intros c e m d N H. rewrite create_columns_spec in H. destruct (_ <=? _); [|discriminate].
  destruct (cols_from _ _ _ _) as [l|] eqn:E; [|discriminate]. injection H as <-.
  cbn [with_columns md_columns]. rewrite N. cbn [app kept].
  apply cols_from_nth in E. destruct E as [L K]. split; [|exact K]. unfold lenN. lia.
Qed.

Lemma columns_missing : forall c e flt m, 120 * md_column_count (m_md m) <= max_alloc c ->
  ~ enough_entries m -> create_columns c e flt m = Exn E_out_of_range.
Proof.
  intros c e flt m A H. rewrite create_columns_spec.
  destruct (N.leb_spec (120 * md_column_count (m_md m)) (max_alloc c)); [|lia].
  destruct (cols_from e m 0 _) eqn:E; [|reflexivity]. exfalso. apply H.
  apply (enough_cols e). congruence.
Qed.

Lemma columns_ok : forall c e flt m, 120 * md_column_count (m_md m) <= max_alloc c ->
  enough_entries m -> exists l, cols_from e m 0 (N.to_nat (md_column_count (m_md m))) = Some l
    /\ create_columns c e flt m = Ok (with_columns (md_columns (m_md m) ++ kept flt l) (m_md m)).
Proof.
  intros c e flt m A H. rewrite create_columns_spec.
  destruct (N.leb_spec (120 * md_column_count (m_md m)) (max_alloc c)); [|lia].
  apply (enough_cols e) in H. destruct (cols_from e m 0 _) as [l|]; [|congruence]. eauto.
Qed.

(** ** A filter *)

Definition recol {S} (cols : list column) (r : rstate S) : rstate S :=
  RState (rs_h r) (with_columns cols (rs_md r)) (rs_d r).

Lemma read_data_columns : forall S c h cols md (p : pstate S) dsh,
  read_data c h (with_columns cols md) p dsh = read_data c h md p dsh.
Proof. reflexivity. Qed.

Lemma read_next_page_columns : forall S c (src : source S) e f plen cols md fuel p,
  read_next_page c src e f plen (with_columns cols md) fuel p
  = read_next_page c src e f plen md fuel p.
Proof.
  intros S c src e f plen cols md. induction fuel as [|fuel IH]; intros p; [reflexivity|].
  cbn [read_next_page]. destruct (read_page c src e f plen p) as [[[|]| | | |] p']; try reflexivity.
  change (build_page e f (with_columns cols md) (ps_buf p') (ps_hdr p'))
    with (build_page e f md (ps_buf p') (ps_hdr p')).
  destruct (build_page e f md (ps_buf p') (ps_hdr p')) as [[pg|]| | | |]; try reflexivity. apply IH.
Qed.

Lemma data_next_columns : forall S c (src : source S) h cols md d,
  data_next c src h (with_columns cols md) d = data_next c src h md d.
Proof.
  intros. unfold data_next. cbn [with_columns md_row_count].
  destruct (_ =? _); [reflexivity|]. destruct (ds_page d); [|reflexivity].
  destruct (page_next _); [|reflexivity].
  change (Metadata _ _ _ _ _ _ _ _ _ _ _ cols) with (with_columns cols md).
  rewrite read_next_page_columns. reflexivity.
Qed.

Lemma read_line_columns : forall S c (src : source S) h cols md d,
  read_line c src h (with_columns cols md) d = read_line c src h md d.
Proof.
  intros. unfold read_line. rewrite data_next_columns.
  destruct (data_next c src h md d) as [[[|]| | | |] d1]; reflexivity.
Qed.

Lemma data_skip_columns : forall S c (src : source S) h cols md n d,
  data_skip c src h (with_columns cols md) n d = data_skip c src h md n d.
Proof.
  intros S c src h cols md. induction n as [|n IH]; intros d; [reflexivity|].
  cbn [data_skip]. rewrite data_next_columns.
  destruct (data_next c src h md d) as [[[|]| | | |] d1]; try reflexivity.
  destruct (data_read_line d1) as [[|  | | |] d2]; try reflexivity. apply IH.
Qed.

Lemma read_row_columns : forall S c (src : source S) cols r,
  read_row c src (recol cols r)
  = let '(x, r', ev) := read_row c src r in (x, recol cols r', ev).
Proof.
  intros. unfold read_row, recol. cbn [rs_h rs_md rs_d]. rewrite read_line_columns.
  destruct (read_line c src (rs_h r) (rs_md r) (rs_d r)) as [[[p|]| | | |] d']; reflexivity.
Qed.

Lemma read_rows_columns : forall S c (src : source S) cols n r,
  read_rows c src n (recol cols r)
  = let '(x, r', ev) := read_rows c src n r in (x, recol cols r', ev).
Proof.
  intros S c src cols. induction n as [|n IH]; intros r; [reflexivity|].
  cbn [read_rows]. rewrite read_row_columns.
  destruct (read_row c src r) as [[[[|]| | | |] r1] ev]; try reflexivity.
  rewrite IH. destruct (read_rows c src n r1) as [[y r2] ev']. reflexivity.
Qed.

Lemma read_all_loop_columns : forall S c (src : source S) cols n r,
  read_all_loop c src n (recol cols r)
  = let '(x, r', ev) := read_all_loop c src n r in (x, recol cols r', ev).
Proof.
  intros S c src cols. induction n as [|n IH]; intros r; [reflexivity|].
  cbn [read_all_loop]. rewrite read_row_columns.
  destruct (read_row c src r) as [[[[|]| | | |] r1] ev]; try reflexivity.
  rewrite IH. destruct (read_all_loop c src n r1) as [[y r2] ev']. reflexivity.
Qed.

Lemma step_columns : forall S c (src : source S) cols o r,
  step c src o (recol cols r)
  = let '(x, r', ev) := step c src o r in (x, recol cols r', ev).
Proof.
  intros S c src cols o r. destruct o; cbn [step].
  - rewrite read_row_columns. destruct (read_row c src r) as [[x r1] ev]. reflexivity.
  - rewrite read_rows_columns. destruct (read_rows c src _ r) as [[x r1] ev]. reflexivity.
  - unfold read_all. rewrite read_all_loop_columns.
    change (md_row_count (rs_md (recol cols r))) with (md_row_count (rs_md r)).
    change (rs_d (recol cols r)) with (rs_d r).
    destruct (read_all_loop c src _ r) as [[x r1] ev]. reflexivity.
  - unfold skip. cbn [recol rs_h rs_md rs_d]. rewrite data_skip_columns.
    destruct (data_skip c src _ _ _ _) as [x d']. reflexivity.
  - unfold read_row_no_sink. cbn [recol rs_h rs_md rs_d]. rewrite read_line_columns.
    destruct (read_line c src _ _ _) as [x d']. reflexivity.
  - reflexivity.
Qed.

Lemma trace_columns : forall S c (src : source S) cols ops r,
  trace c src ops (Some (recol cols r))
  = let '(t, r') := trace c src ops (Some r) in (t, option_map (recol cols) r').
Proof.
  intros S c src cols. induction ops as [|o ops IH]; intros r; [reflexivity|].
  cbn [trace reader_step]. rewrite step_columns.
  destruct (step c src o r) as [[x r1] ev].
  destruct x; try reflexivity; rewrite IH; destruct (trace c src ops (Some r1)); reflexivity.
Qed.

Lemma open_filter : forall S c (src : source S) p s,
  open_reader c src (Some p) s
  = match open_reader c src None s with
    | Ok (r, ev) =>
        let md := with_columns (filter p (md_columns (rs_md r))) (rs_md r) in
        Ok (RState (rs_h r) md (rs_d r), [EvProps (rs_h r) md])
    | Exn x => Exn x | Abort => Abort | Undef u => Undef u | Fuel => Fuel
    end.
Proof.
  intros S c src p s. unfold open_reader.
  destruct (open_header c src s) as [[[h s1] b1]| | | |]; try reflexivity. cbn [bind].
  unfold set_metadata.
  destruct (metadata_loop c src _ _ _ _ _ empty_mstate) as [[q m]| | | |] eqn:L; try reflexivity.
  cbn [bind].
  assert (N : md_columns (m_md m) = []).
  { apply (metadata_loop_inv _ counts_ok) in L; [|apply counts_ok_step|apply counts_ok_empty].
    apply L. }
  rewrite !create_columns_spec. destruct (_ <=? _); [|reflexivity].
  destruct (cols_from _ m 0 _) as [l|]; [|reflexivity]. rewrite N. cbn [bind app kept].
  rewrite !read_data_columns.
  destruct (read_data c h (m_md m) q _) as [d| | | |]; reflexivity.
Qed.

Lemma filter_trace : forall S c (src : source S) p s r ev ops,
  open_reader c src None s = Ok (r, ev) ->
  exists r', open_reader c src (Some p) s = Ok (r', [EvProps (rs_h r') (rs_md r')])
  /\ rs_h r' = rs_h r
  /\ rs_md r' = with_columns (filter p (md_columns (rs_md r))) (rs_md r)
  /\ fst (trace c src ops (Some r')) = fst (trace c src ops (Some r))
  /\ current_row_index (snd (trace c src ops (Some r')))
     = current_row_index (snd (trace c src ops (Some r))).
Proof.
  intros S c src p s r ev ops H.
  exists (recol (filter p (md_columns (rs_md r))) r). rewrite open_filter, H.
  split; [reflexivity|]. split; [reflexivity|]. split; [reflexivity|].
  rewrite trace_columns. destruct (trace c src ops (Some r)) as [t [r'|]]; split; reflexivity.
Qed.

(** ** The metadata of a file *)

Lemma read_page_start : forall c ly p rest,
  0 < ly_page_length ly -> ly_page_length ly < 2 ^ 63 -> ly_page_length ly <= max_alloc c ->
  starting p rest -> prefix (ly_format ly) + 6 <= ly_page_length ly ->
  exists p', read_page c file_source (ly_endian ly) (ly_format ly) (ly_page_length ly) p
             = (Ok (ly_page_length ly <=? lenN rest), p').
Proof.
  intros c ly p rest P0 P1 A (RI & RW) X. set (plen := ly_page_length ly) in *.
  unfold read_page. rewrite RI. cbn [src_eof file_source file_eof fs_eof].
  destruct (N.leb_spec plen (lenN rest)) as [L|L].
  - assert (E : src_read file_source (FState rest false false) plen
                = (FState (skipn (N.to_nat plen) rest) false false, field rest 0 plen, true)).
    { cbn [src_read file_source]. unfold file_read. cbn [fs_eof fs_fail fs_rest orb].
      destruct (N.leb_spec (2 ^ 63) plen); [lia|].
      destruct (N.leb_spec plen (lenN rest)); [|lia]. reflexivity. }
    assert (LP : lenN (field rest 0 plen) = plen) by (apply field_front; exact L).
    destruct (read_stream_spec _ c file_source (ps_buf p) _ plen 0 _ _ _ RW
                ltac:(unfold W64; lia) ltac:(left; lia) E ltac:(lia))
      as (b' & R & W' & M' & V').
    rewrite R.
    assert (HH : holds b' (field rest 0 plen)).
    { split; [exact W'|]. split; [rewrite M', LP; lia|]. rewrite V'. apply overwritten_all.
      rewrite resized_len. lia. }
    rewrite (holds_page_header ly b' _ HH) by lia. eexists. reflexivity.
  - assert (E : src_read file_source (FState rest false false) plen
                = (FState [] true true, rest, false)).
    { cbn [src_read file_source]. unfold file_read. cbn [fs_eof fs_fail fs_rest orb].
      destruct (N.leb_spec (2 ^ 63) plen); [lia|].
      destruct (N.leb_spec plen (lenN rest)); [lia|]. reflexivity. }
    destruct (read_stream_spec _ c file_source (ps_buf p) _ plen 0 _ _ _ RW
                ltac:(unfold W64; lia) ltac:(left; lia) E ltac:(lia)) as (b' & R & _).
    rewrite R. eexists. reflexivity.
Qed.

(** A page can be built from the last page read, whatever it is. *)
Definition page_left (ly : layout) (p : pstate fstate) (m : mstate) : Prop :=
  ps_hdr p = reset_page_header \/ m_data_subheaders m <> []
  \/ ph_type (ps_hdr p) = 256 \/ is_mix (ph_type (ps_hdr p)) = true.

Lemma meaning_data : forall ly pg m s, 
  (m_data_subheaders m <> [] \/ is_row ly pg m s = true) ->
  m_data_subheaders (meaning ly pg m s) <> [].
Proof.
  intros ly pg m s H. unfold meaning, is_row in *.
  destruct (kind_on ly pg s) as [[]|]; destruct H as [H|H]; try discriminate; try exact H.
  - destruct (is_data_entry _ _); [|exact H]. cbn. destruct (m_data_subheaders m); discriminate.
  - rewrite H. cbn. destruct (m_data_subheaders m); discriminate.
Qed.

Lemma subs_meaning_data : forall ly pg l m,
  (m_data_subheaders m <> [] \/ subs_rows ly pg m l = true) ->
  m_data_subheaders (subs_meaning ly pg m l) <> [].
Proof.
  intros ly pg l. induction l as [|s l IH]; intros m H.
  - destruct H as [H|H]; [exact H|discriminate].
  - cbn [subs_meaning subs_rows] in *. apply IH. destruct H as [H|H].
    + left. apply meaning_data. left. exact H.
    + apply orb_true_iff in H. destruct H as [H|H]; [|right; exact H].
      left. apply meaning_data. right. exact H.
Qed.

Lemma metadata_meaning : forall c ly,
  0 < ly_page_length ly -> ly_page_length ly < 2 ^ 63 -> ly_page_length ly <= max_alloc c ->
  prefix (ly_format ly) + 6 <= ly_page_length ly ->
  forall fuel p rest m, starting p rest ->
  let pages := complete_pages (ly_page_length ly) rest in
  (length pages < fuel)%nat -> pages_fit ly m pages ->
  exists p', metadata_loop c file_source (ly_endian ly) (ly_format ly) (ly_page_length ly) fuel p m
             = Ok (p', pages_meaning ly m pages)
    /\ page_left ly p' (pages_meaning ly m pages).
Proof.
  intros c ly P0 P1 A X. induction fuel as [|fuel IH]; intros p rest m R pages F FT; [lia|].
  subst pages. cbn [metadata_loop].
  destruct (read_page_start c ly p rest P0 P1 A R X) as (p1 & RP). rewrite RP.
  pose proof (read_page_file c ly p rest _ _ P0 P1 R X RP) as RF. cbv zeta in RF.
  rewrite complete_pages_eq in F, FT |- * by exact P0.
  destruct (N.leb_spec (ly_page_length ly) (lenN rest)) as [L|L].
  - destruct RF as (_ & R1 & H1 & K1). cbn [pages_fit pages_meaning length] in *.
    set (pg := field rest 0 (ly_page_length ly)) in *.
    destruct FT as [FT1 FT2]. rewrite K1.
    assert (LP : lenN pg < W64).
    { unfold pg. rewrite field_front by exact L. unfold W64. lia. }
    rewrite (page_processed ly (ps_buf p1) pg H1 LP m FT1). cbn [bind].
    destruct (page_ends ly pg m) eqn:PE.
    + exists p1. split; [reflexivity|]. unfold page_left. rewrite K1. cbn [header_of ph_type].
      unfold page_ends in PE. destruct (N.eqb_spec (page_type ly pg) 256) as [T|T]; [auto|].
      destruct (is_mix (page_type ly pg)); [auto|]. cbn [orb] in PE.
      right. left. apply subs_meaning_data. right. exact PE.
    + apply (IH p1 _ _ (reading_starting _ _ _ R1)); [lia|apply FT2; reflexivity].
  - destruct RF as [_ K]. exists p1. split; [reflexivity|]. left. exact K.
Qed.

Lemma build_page_left : forall e f md (p : pstate fstate) ly m, page_left ly p m ->
  m_data_subheaders m = [] -> exists x, build_page e f md (ps_buf p) (ps_hdr p) = Ok x.
Proof.
  intros e f md p ly m [H|[H|[H|H]]] D; unfold build_page.
  - rewrite H. cbn. eauto.
  - contradiction.
  - rewrite H. cbn. eauto.
  - unfold PAGE_META_TYPE, PAGE_DATA_TYPE.
    destruct (ph_type (ps_hdr p) =? 0) eqn:Z.
    { apply N.eqb_eq in Z. rewrite Z in H. discriminate. }
    destruct (ph_type (ps_hdr p) =? 256); [eauto|].
    change (is_page_mix (ph_type (ps_hdr p))) with (is_mix (ph_type (ps_hdr p))).
    rewrite H. eauto.
Qed.

Lemma pages_meaning_columns : forall ly pages m, md_columns (m_md m) = [] ->
  md_columns (m_md (pages_meaning ly m pages)) = [].
Proof.
  assert (S1 : forall ly pg m s, md_columns (m_md m) = [] -> md_columns (m_md (meaning ly pg m s)) = []).
  { intros ly pg m s H. unfold meaning. destruct (kind_on ly pg s) as [[]|]; try exact H.
    - cbn [text_meaning m_md]. destruct (m_texts m); [|exact H]. unfold first_text_meaning.
      destruct (bytes_eqb _ _); [exact H|]. destruct (bytes_eqb _ _); [exact H|].
      destruct (_ =? _); exact H.
    - destruct (is_row ly pg m s); exact H. }
  assert (S2 : forall ly pg l m, md_columns (m_md m) = [] -> md_columns (m_md (subs_meaning ly pg m l)) = []).
  { intros ly pg l. induction l as [|s l IH]; intros m H; [exact H|]. apply IH. apply S1. exact H. }
  intros ly pages. induction pages as [|pg pages IH]; intros m H; [exact H|].
  cbn [pages_meaning]. destruct (page_ends ly pg m); [|apply IH]; apply S2; exact H.
Qed.

Lemma described_loop : forall c content h s b,
  open_header c file_source (file_open content) = Ok (h, s, b) ->
  described c content h ->
  exists p, metadata_loop c file_source (h_endianness h) (h_format h) (h_page_length h)
      (page_fuel c) (PState s b reset_page_header) empty_mstate
    = Ok (p, pages_meaning (layout_of h empty_metadata) empty_mstate (file_pages content h))
    /\ page_left (layout_of h empty_metadata) p
         (pages_meaning (layout_of h empty_metadata) empty_mstate (file_pages content h)).
Proof.
  intros c content h s b HH (X & A & FT & PF & _).
  set (ly := layout_of h empty_metadata) in *.
  pose proof (header_consumed _ _ _ _ _ HH) as ->.
  assert (WB : wf_mbuf b).
  { apply header_opened in HH. destruct HH as (_ & _ & _ & _ & _ & ->). unfold wf_mbuf, full.
    cbn [mem msize]. rewrite lenN_map. lia. }
  assert (PL : h_page_length h < 2 ^ 32).
  { apply header_opened in HH. destruct HH as (_ & _ & HL & HF & _).
    apply the_header_spec in HF; [|lia]. rewrite (hof_page_length _ _ HF). rewrite <- get_val_value.
    eapply N.lt_le_trans; [apply get_val_lt|]. change (2 ^ 32) with (256 ^ 4).
    apply N.pow_le_mono_r; [lia|]. rewrite field_slice, lenN_slice. lia. }
  change (h_page_length h) with (ly_page_length ly) in *.
  change (h_format h) with (ly_format ly) in *.
  change (h_endianness h) with (ly_endian ly).
  apply (metadata_meaning c ly); try assumption.
  - destruct (ly_format ly); cbn [prefix] in X; lia.
  - lia.
  - split; [reflexivity|exact WB].
Qed.

Lemma open_described : forall c flt content h s b,
  open_header c file_source (file_open content) = Ok (h, s, b) ->
  described c content h ->
  let m := pages_meaning (layout_of h empty_metadata) empty_mstate (file_pages content h) in
  (~ enough_entries m -> open_reader c file_source flt (file_open content) = Exn E_out_of_range)
  /\ (enough_entries m ->
      exists r cols, open_reader c file_source flt (file_open content)
                     = Ok (r, [EvProps (rs_h r) (rs_md r)])
        /\ rs_h r = h /\ rs_md r = with_columns (kept flt cols) (m_md m)
        /\ lenN cols = md_column_count (m_md m)
        /\ forall i col, nth_error cols i = Some col -> column_at (h_endianness h) m i col).
Proof.
  intros c flt content h s b HH D m.
  destruct (described_loop c content h s b HH D) as (p & L & PL). fold m in L, PL.
  destruct D as (_ & _ & _ & _ & NC & RL). fold m in NC, RL.
  unfold open_reader. rewrite HH. cbn [bind]. unfold set_metadata. rewrite L. cbn [bind].
  assert (N : md_columns (m_md m) = []) by (apply pages_meaning_columns; reflexivity).
  split; intros EN.
  - rewrite columns_missing by assumption. reflexivity.
  - destruct (columns_ok c (h_endianness h) flt m NC EN) as (l & E & ->). cbn [bind].
    rewrite N. cbn [app]. rewrite read_data_columns. unfold read_data.
    assert (MD : exists dec, make_decompressor c (md_compression (m_md m)) (md_row_length (m_md m)) = Ok dec).
    { unfold make_decompressor, dst_new, mbuf_new, alloc.
      destruct RL as [-> | RL]; [eauto|].
      destruct (N.leb_spec (md_row_length (m_md m)) (max_alloc c)); [|lia].
      destruct (md_compression (m_md m)); cbn [bind]; eauto. }
    destruct MD as [dec ->]. cbn [bind].
    apply cols_from_nth in E. destruct E as [LE CE].
    assert (BD : exists d, match m_data_subheaders m with
        | [] => pg <- build_page (h_endianness h) (h_format h) (m_md m) (ps_buf p) (ps_hdr p) ;;
                Ok (DState p dec 0 pg)
        | _ :: _ => Ok (DState p dec 0 (Some (Page (PMeta (m_data_subheaders m)) 0)))
        end = Ok d).
    { destruct (m_data_subheaders m) eqn:DS; [|eauto].
      destruct (build_page_left (h_endianness h) (h_format h) (m_md m) p _ _ PL DS) as [x ->].
      cbn [bind]. eauto. }
    destruct BD as [d BD]. rewrite BD. cbn [bind].
    exists (RState h (with_columns (kept flt l) (m_md m)) d), l.
    split; [reflexivity|]. split; [reflexivity|]. split; [reflexivity|].
    split; [unfold lenN; lia|exact CE].
Qed.
