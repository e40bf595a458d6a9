(** An uncompressed table, written and read back. *)
From Verif Require Import Base Types Float DateTime Buffer Header Column Decomp Metadata Data Reader Lemmas
  SpecValues ProofValues SpecHeader ProofHeader SpecDecomp SpecReader SpecPages ProofPages SpecMeta ProofMeta
  ProofOpen ProofColumns ProofRows SpecFile SpecRoundtrip ProofWrite ProofWriteSubs ProofWriteDesc ProofFile.
From Coq Require Import ZifyBool ZifyNat ZifyN.
Local Open Scope N_scope.

(** ** Columns *)

Lemma full_columns : forall e block k fields rl rc mix cols m,
  m_names m = m_names (full_state block k fields rl rc mix) ->
  m_labels m = m_labels (full_state block k fields rl rc mix) ->
  m_formats m = m_formats (full_state block k fields rl rc mix) ->
  m_offsets m = m_offsets (full_state block k fields rl rc mix) ->
  m_lengths m = m_lengths (full_state block k fields rl rc mix) ->
  m_types m = m_types (full_state block k fields rl rc mix) ->
  lenN cols = lenN fields ->
  (forall i col, nth_error cols i = Some col -> column_at e m i col) ->
  Forall2 (column_for e) fields cols.
Proof.
  intros e block k fields rl rc mix cols m E1 E2 E3 E4 E5 E6. cbn [full_state m_names m_labels m_formats m_offsets m_lengths m_types] in *.
  assert (H : forall fields cols n, length cols = length fields ->
    (forall i col d, nth_error cols i = Some col -> nth_error fields i = Some d ->
       n + i = n + i -> column_for e d col)%nat -> Forall2 (column_for e) fields cols).
  { clear. induction fields as [|d fields IH]; intros [|c cols] n L H; try discriminate; constructor.
    - apply (H 0%nat); reflexivity.
    - apply (IH cols n); [cbn in L; lia|]. intros i col d' I J _. apply (H (Datatypes.S i)); auto. }
  intros L C. apply (H fields cols 0%nat); [unfold lenN in L; lia|].
  intros i col d I J _. destruct (C i col I) as (ty & X1 & X2 & X3 & X4 & X5 & X6 & X7 & X8).
  rewrite E1, nth_error_map, J in X1. rewrite E2, nth_error_map, J in X2. rewrite E3, nth_error_map, J in X3.
  rewrite E4, nth_error_map, J in X4. rewrite E5, nth_error_map, J in X5. rewrite E6, nth_error_map, J in X6.
  cbn [option_map] in *. injection X1 as X1. injection X2 as X2. injection X3 as X3. injection X4 as X4.
  injection X5 as X5. injection X6 as X6. unfold column_for. repeat split; try congruence.
  rewrite X7, <- X6, <- X5, <- X3. unfold stored_type. apply column_kind_table; [|reflexivity].
  destruct (fd_numeric d); auto.
Qed.

Lemma full_enough : forall block k fields rl rc mix, enough_entries (full_state block k fields rl rc mix).
Proof.
  intros block k fields rl rc mix. unfold enough_entries. cbn [full_state m_names m_labels m_formats m_offsets m_lengths m_types m_md md_column_count].
  rewrite !lenN_map. lia.
Qed.

(** ** Subheaders which are looked at *)

Lemma placed_live : forall l pos, Forall (fun s => 0 < lenN (sub_bytes s) /\ snd (fst s) <> 1) l ->
  filter (fun s => negb (skipped s)) (placed pos l) = placed pos l.
Proof.
  induction l as [|[[b c] t] l IH]; intros pos F; [reflexivity|].
  apply Forall_cons_iff in F. destruct F as [[F1 F2] F]. cbn [placed filter].
  unfold skipped at 1. cbn [se_len se_comp]. unfold sub_bytes in F1. cbn [fst snd] in F1, F2.
  destruct (N.eqb_spec (lenN b) 0); [lia|]. destruct (N.eqb_spec c 1); [contradiction|].
  cbn [orb negb]. rewrite (IH _ F). reflexivity.
Qed.

Lemma placed_inside : forall l pos n, pos + lenN (subs_bytes l) <= n ->
  Forall (fun s => se_pos s + se_len s <= n) (placed pos l).
Proof.
  induction l as [|[[b c] t] l IH]; intros pos n H; [constructor|].
  unfold subs_bytes in H. cbn [map concat] in H. rewrite lenN_app in H.
  change (sub_bytes (b, c, t)) with b in H. fold (subs_bytes l) in H.
  cbn [placed]. constructor; [cbn [se_pos se_len]; lia|]. apply IH. lia.
Qed.

Lemma description_small : forall e f comp fields rl rc mix,
  Forall sub_small (description e f comp fields rl rc mix).
Proof.
  intros. unfold description. cbv zeta.
  assert (P : forall b, sub_small (plain b)) by (intros b; split; reflexivity).
  repeat (apply Forall_cons; [apply P|]). rewrite Forall_map. apply Forall_forall. intros p _. apply P.
Qed.

Lemma description_shown : forall e f comp fields rl rc mix,
  Forall (fun s => 0 < lenN (sub_bytes s) /\ snd (fst s) <> 1) (description e f comp fields rl rc mix).
Proof.
  intros. unfold description. cbv zeta.
  assert (W : 0 < word_size f) by (destruct f; reflexivity).
  assert (P : forall b, 0 < lenN b -> 0 < lenN (sub_bytes (plain b)) /\ snd (fst (plain b)) <> 1)
    by (intros b H; split; [exact H|discriminate]).
  repeat apply Forall_cons.
  - apply P. rewrite lenN_row_size. lia.
  - apply P. rewrite lenN_column_size. lia.
  - apply P. rewrite lenN_text_subheader. lia.
  - apply P. rewrite lenN_names. lia.
  - apply P. rewrite lenN_attributes. lia.
  - rewrite Forall_map. apply Forall_forall. intros p _. apply P. rewrite lenN_format_label. lia.
Qed.

Lemma description_not_data : forall e f comp fields rl rc mix pos k,
  filter (is_data_entry k) (placed pos (description e f comp fields rl rc mix)) = [].
Proof.
  intros. unfold description. cbv zeta.
  assert (P : forall l pos, filter (is_data_entry k) (placed pos (map plain l)) = []).
  { induction l as [|b l IH]; intros q; [reflexivity|]. unfold plain at 1. cbn [map placed filter].
    unfold is_data_entry at 1. cbn [se_type]. rewrite (andb_false_r _). destruct k; apply IH. }
  set (l := _ :: _). assert (E : exists l', l = map plain l').
  { unfold l. rewrite <- (map_map (fun p => format_label_subheader e f (snd (fst p)) (snd p)) plain).
    eexists (_ :: _ :: _ :: _ :: _ :: _). reflexivity. }
  destruct E as [l' ->]. apply P.
Qed.

Lemma description_length : forall e f comp fields rl rc mix,
  lenN (description e f comp fields rl rc mix) = 5 + lenN fields.
Proof.
  intros. unfold description. cbv zeta. rewrite !lenN_cons, lenN_map. unfold lenN at 1. rewrite places_length.
  unfold lenN. lia.
Qed.

(** ** A page of rows *)

Lemma data_page_fits : forall ly plen rows m,
  let e := ly_endian ly in let f := ly_format ly in
  rows <> [] -> lenN rows < limit16 -> plen < limit32 -> rows_start f 0 + lenN (concat rows) <= plen ->
  let pg := data_page e f plen rows in
  written ly plen 256 (lenN rows) [] rows pg
  /\ page_fits ly pg m /\ page_ends ly pg m = true /\ page_meaning ly pg m = m.
Proof.
  intros ly plen rows m e f NE L P F pg.
  assert (W : written ly plen 256 (lenN rows) [] rows pg).
  { apply page_written; try assumption; try reflexivity; [constructor|].
    change (lenN (subs_bytes [])) with 0. change (lenN (@nil sub)) with 0. fold f. lia. }
  split; [exact W|]. destruct W as [wr_len0 wr_type0 wr_blocks0 wr_subs0 wr_entries0 wr_rows0 wr_bytes0].
  assert (R0 : prefix f + 8 <= rows_start f 0) by (destruct f; discriminate).
  split; [|split].
  - split.
    + fold f. lia.
    + rewrite wr_type0. discriminate.
  - unfold page_ends. rewrite wr_type0. reflexivity.
  - unfold page_meaning, live. rewrite wr_type0. reflexivity.
Qed.

Lemma data_page_rows : forall ly pg rows, lenN rows < limit16 ->
  written ly (lenN pg) 256 (lenN rows) [] rows pg ->
  Forall (fun row => lenN row = ly_row_length ly) rows ->
  page_rows ly pg = map Ok rows /\ good_page ly pg /\ (rows <> [] -> not_empty ly pg).
Proof.
  intros ly pg rows B W F. destruct W as [wr_len0 wr_type0 wr_blocks0 wr_subs0 wr_entries0 wr_rows0 wr_bytes0]. specialize (wr_blocks0 B).
  set (f := ly_format ly) in *.
  assert (RS : rows_start f (lenN (@nil sub)) = prefix f + 8)
    by (destruct f; reflexivity).
  rewrite RS in wr_rows0.
  assert (RP : row_places ly pg = map (fun k => (prefix f + 8 + k * ly_row_length ly, ly_row_length ly)) (count_to (lenN rows))).
  { unfold row_places. cbv zeta. rewrite wr_type0, wr_blocks0. reflexivity. }
  assert (CR := lenN_concat_rows _ _ F).
  pose proof (at_pos_inside _ _ _ wr_rows0) as I.
  split; [|split].
  - unfold page_rows. rewrite RP, map_map. unfold row_content. cbv zeta. rewrite N.ltb_irrefl.
    rewrite <- (rows_at pg _ _ _ wr_rows0 F) at 2. rewrite map_map. reflexivity.
  - unfold good_page. split; [|split].
    + fold f. lia.
    + rewrite RP, Forall_map. apply Forall_forall. intros k K. apply in_count_to in K. cbn [fst snd]. nia.
    + rewrite wr_type0. discriminate.
  - intros NE _. rewrite RP. destruct rows as [|r rows]; [contradiction|].
    unfold count_to. rewrite lenN_cons. replace (N.to_nat (1 + lenN rows)) with (Datatypes.S (length rows)) by (unfold lenN; lia).
    discriminate.
Qed.

(** ** The first page *)

Lemma word_limit_32 : forall f, limit32 <= word_limit f.
Proof. destruct f; vm_compute; discriminate. Qed.

Lemma first_written : forall ly plen t, plen < limit32 -> good_table (ly_endian ly) (ly_format ly) plen t ->
  written ly plen (match t_first t with [] => 0 | _ => 512 end) (lenN (t_first t))
    (description (ly_endian ly) (ly_format ly) [] (t_fields t) (t_row_length t) (lenN (t_rows t)) (lenN (t_first t)))
    (t_first t) (first_page (ly_endian ly) (ly_format ly) plen t).
Proof.
  intros ly plen t P (GF & F & B1 & B2 & B3 & B4 & B5). apply page_written; try assumption.
  - destruct (t_first t); reflexivity.
  - apply description_small.
Qed.

Lemma first_live : forall ly plen t pg (k : compression) stored,
  written ly plen (match t_first t with [] => 0 | _ => 512 end) (lenN (t_first t)) stored (t_first t) pg ->
  Forall (fun s => 0 < lenN (sub_bytes s) /\ snd (fst s) <> 1) stored ->
  live ly pg = placed (plen - lenN (subs_bytes stored)) stored.
Proof.
  intros ly plen t pg k stored W S. destruct W as [wr_len0 wr_type0 wr_blocks0 wr_subs0 wr_entries0 wr_rows0 wr_bytes0]. unfold live. rewrite wr_type0, wr_entries0.
  rewrite placed_live by exact S. destruct (t_first t); reflexivity.
Qed.

Lemma first_fits : forall ly plen t, plen < limit32 -> good_table (ly_endian ly) (ly_format ly) plen t ->
  let e := ly_endian ly in let f := ly_format ly in
  let pg := first_page e f plen t in
  page_fits ly pg empty_mstate
  /\ page_ends ly pg empty_mstate = (match t_first t with [] => false | _ => true end)
  /\ page_meaning ly pg empty_mstate
     = full_state (text_block e [] (texts_of (t_fields t))) (told_texts (texts_of (t_fields t))) (t_fields t) (t_row_length t)
         (lenN (t_rows t)) (lenN (t_first t)).
Proof.
  intros ly plen t P G e f pg. pose proof (first_written ly plen t P G) as W. fold e f pg in W, G.
  pose proof (description_shown e f [] (t_fields t) (t_row_length t) (lenN (t_rows t)) (lenN (t_first t))) as SH.
  pose proof (first_live ly plen t pg CompNone _ W SH) as LV.
  destruct W as [wr_len0 wr_type0 wr_blocks0 wr_subs0 wr_entries0 wr_rows0 wr_bytes0]. destruct G as (GF & F & B1 & B2 & B3 & B4 & B5).
  set (subs := description e f [] (t_fields t) (t_row_length t) (lenN (t_rows t)) (lenN (t_first t))) in *.
  set (first := plen - lenN (subs_bytes subs)) in *.
  assert (RS : prefix f + 8 + lenN subs * (3 * word f) <= rows_start f (lenN subs)).
  { unfold rows_start. change (word_size f) with (word f). change (page_prefix f) with (prefix f). lia. }
  pose proof (word_limit_32 f) as WL.
  destruct (description_written ly pg first CompNone (t_fields t) (t_row_length t) (lenN (t_rows t)) (lenN (t_first t)))
    as (D1 & D2 & D3 & _); try assumption.
  { fold f. unfold t_rows in B2. rewrite lenN_app in B2. unfold lenN in *. lia. }
  { fold f. unfold subs in B3. rewrite description_length in B3. unfold limit16, limit32 in *. lia. }
  fold e f in D1, D2, D3. change (comp_name CompNone) with (@nil byte) in *. fold subs in D1, D2, D3.
  cbv zeta in D1. rewrite told_block_plain in D1.
  split; [|split].
  - split; [fold f; lia|]. intros _. rewrite wr_entries0, LV, wr_subs0, wr_len0. fold f.
    split; [lia|]. split; [|exact D2]. apply placed_inside. unfold first. lia.
  - unfold page_ends. rewrite LV, D3, wr_type0. destruct (t_first t); reflexivity.
  - unfold page_meaning. rewrite LV. exact D1.
Qed.

Lemma first_rows : forall ly plen t, plen < limit32 -> good_table (ly_endian ly) (ly_format ly) plen t ->
  let pg := first_page (ly_endian ly) (ly_format ly) plen t in
  ly_row_length ly = t_row_length t -> ly_row_count ly = lenN (t_rows t) ->
  ly_mix_count ly = lenN (t_first t) ->
  page_rows ly pg = map Ok (t_first t) /\ good_page ly pg.
Proof.
  intros ly plen t P G pg E1 E2 E3. pose proof (first_written ly plen t P G) as W. fold pg in W.
  destruct W as [wr_len0 wr_type0 wr_blocks0 wr_subs0 wr_entries0 wr_rows0 wr_bytes0]. destruct G as (GF & F & B1 & B2 & B3 & B4 & B5).
  set (e := ly_endian ly) in *. set (f := ly_format ly) in *.
  set (subs := description e f [] (t_fields t) (t_row_length t) (lenN (t_rows t)) (lenN (t_first t))) in *.
  assert (RS : prefix f + 8 + lenN subs * (3 * word f) <= rows_start f (lenN subs)).
  { unfold rows_start. change (word_size f) with (word f). change (page_prefix f) with (prefix f). lia. }
  assert (FF : Forall (fun row => lenN row = ly_row_length ly) (t_first t)).
  { unfold t_rows in F. apply Forall_app in F. rewrite E1. tauto. }
  assert (MC : N.min (ly_row_count ly) (ly_mix_count ly) = lenN (t_first t)).
  { rewrite E2, E3. unfold t_rows. rewrite lenN_app. lia. }
  assert (RP : row_places ly pg = map (fun k => (rows_start f (lenN subs) + k * ly_row_length ly, ly_row_length ly))
                                    (count_to (lenN (t_first t)))).
  { unfold row_places. cbv zeta. rewrite wr_type0, MC, (rows_start_eq ly pg _ wr_subs0).
    destruct (t_first t) as [|r l] eqn:TF.
    - cbn [N.eqb]. rewrite wr_entries0. unfold subs. rewrite description_not_data. reflexivity.
    - reflexivity. }
  pose proof (lenN_concat_rows _ _ FF) as CR.
  split.
  - unfold page_rows. rewrite RP, map_map. unfold row_content. cbv zeta. rewrite N.ltb_irrefl.
    rewrite <- (rows_at pg _ _ _ wr_rows0 FF) at 2. rewrite map_map. reflexivity.
  - unfold good_page. fold f. split; [lia|]. split.
    + rewrite RP, Forall_map. apply Forall_forall. intros k K. apply in_count_to in K. cbn [fst snd]. nia.
    + intros _. rewrite wr_subs0, wr_entries0, wr_len0. split; [lia|]. apply placed_inside. lia.
Qed.

(** ** The whole file *)

Lemma data_pages_meaning : forall ly plen pages m, plen < limit32 ->
  Forall (fun rows => rows <> [] /\ lenN rows < limit16
            /\ rows_start (ly_format ly) 0 + lenN (concat rows) <= plen) pages ->
  let pgs := map (data_page (ly_endian ly) (ly_format ly) plen) pages in
  pages_fit ly m pgs /\ pages_meaning ly m pgs = m.
Proof.
  intros ly plen pages m P F. destruct pages as [|rows pages]; [split; reflexivity|].
  apply Forall_cons_iff in F. destruct F as [(F1 & F2 & F3) F]. cbn [map].
  destruct (data_page_fits ly plen rows m F1 F2 P F3) as (_ & D1 & D2 & D3).
  cbn [pages_fit pages_meaning]. rewrite D2. split; [split; [exact D1|discriminate]|exact D3].
Qed.

Lemma clear_plain : forall ly pages,
  Forall (fun pg => filter (is_data_entry (ly_compression ly)) (live ly pg) = []) pages -> all_clear ly pages.
Proof.
  intros ly pages F pre pg post E _ a s b L D. exfalso. rewrite E in F. apply Forall_app in F. destruct F as [_ F].
  apply Forall_inv in F. rewrite L in F. rewrite filter_app in F. cbn [filter] in F. rewrite D in F.
  destruct (filter _ a); discriminate.
Qed.

Lemma told_believed : forall fields, believed fields (told_texts (texts_of fields)).
Proof.
  intros fields. unfold told_texts.
  destruct (occurs rle_name (texts_of fields)) eqn:E1.
  { apply bel_rle. apply occurs_spec. exact E1. }
  assert (N1 : ~ occurs_in rle_name (texts_of fields)) by (intros H; apply occurs_spec in H; congruence).
  destruct (occurs rdc_name (texts_of fields)) eqn:E2.
  { apply bel_rdc; [exact N1|]. apply occurs_spec. exact E2. }
  apply bel_none. split; [exact N1|]. intros H.
  assert (occurs rdc_name (texts_of fields) = true) by (apply occurs_spec; exact H). congruence.
Qed.

Lemma round_trip : forall c flt e f sh hlen plen name t,
  good_sizes f sh hlen plen name -> good_table e f plen t ->
  room c hlen plen (lenN (t_fields t)) (1 + lenN (t_pages t)) ->
  no_compression_name (t_fields t) \/ t_row_length t <= max_alloc c ->
  exists r cols,
    open_reader c file_source flt (file_open (file_bytes e f sh hlen plen name t))
    = Ok (r, [EvProps (rs_h r) (rs_md r)])
    /\ h_format (rs_h r) = f /\ h_endianness (rs_h r) = e /\ h_dataset_name (rs_h r) = name
    /\ believed (t_fields t) (md_compression (rs_md r))
    /\ md_row_length (rs_md r) = t_row_length t /\ md_row_count (rs_md r) = lenN (t_rows t)
    /\ md_column_count (rs_md r) = lenN (t_fields t)
    /\ md_columns (rs_md r) = (match flt with Some p => filter p cols | None => cols end)
    /\ Forall2 (column_for e) (t_fields t) cols
    /\ forall ops,
         let cu := (0, map Ok (t_rows t)) in
         seen (t_row_length t) (fst (trace c file_source ops (Some r))) = fst (cur_trace ops cu)
         /\ current_row_index (snd (trace c file_source ops (Some r))) = fst (snd (cur_trace ops cu)).
Proof.
  intros c flt e f sh hlen plen name t GS GT (R1 & R2 & R3 & R4 & R5) RA.
  set (kt := told_texts (texts_of (t_fields t))) in *.
  set (pages := first_page e f plen t :: map (data_page e f plen) (t_pages t)).
  set (content := file_bytes e f sh hlen plen name t).
  assert (CE : content = header_bytes e f sh hlen plen (1 + lenN (t_pages t)) name ++ concat pages) by reflexivity.
  assert (P : plen < limit32) by (destruct GS; tauto).
  destruct (header_written c e f sh hlen plen (1 + lenN (t_pages t)) name (concat pages) GS R2)
    as (h & s & b & OH & HF & HE & HH & HP & HN). rewrite <- CE in OH.
  set (ly := layout_of h empty_metadata).
  assert (LE : ly_endian ly = e) by exact HE. assert (LF : ly_format ly = f) by exact HF.
  assert (GT' : good_table (ly_endian ly) (ly_format ly) plen t) by (rewrite LE, LF; exact GT).
  pose proof (first_written ly plen t P GT') as W1.
  destruct (first_fits ly plen t P GT') as (F1 & F2 & F3).
  pose proof GT' as (GF & F & B1 & B2 & B3 & B4 & B5).
  rewrite LE, LF in W1, F1, F2, F3. rewrite LF in B5.
  assert (PL : Forall (fun pg => lenN pg = plen) pages).
  { constructor; [exact (wr_len _ _ _ _ _ _ _ W1)|]. rewrite Forall_map.
    apply (Forall_impl _ (P := fun rows => rows <> [] /\ lenN rows < limit16
            /\ rows_start f 0 + lenN (concat rows) <= plen)); [|exact B5].
    intros rows (X1 & X2 & X3). rewrite <- LE, <- LF in *.
    destruct (data_page_fits ly plen rows empty_mstate X1 X2 P X3) as (W & _).
    exact (wr_len _ _ _ _ _ _ _ W). }
  assert (PP : prefix f + 6 <= plen).
  { destruct F1 as [F1 _]. rewrite LF in F1. rewrite <- (Forall_inv PL). exact F1. }
  assert (FP : file_pages content h = pages).
  { rewrite CE. apply file_pages_written; try assumption. lia. }
  set (st := full_state (text_block e [] (texts_of (t_fields t))) kt (t_fields t) (t_row_length t)
         (lenN (t_rows t)) (lenN (t_first t))) in *.
  assert (PM : pages_fit ly empty_mstate pages /\ pages_meaning ly empty_mstate pages = st).
  { destruct (data_pages_meaning ly plen (t_pages t) st P) as [X1 X2]; [rewrite LF; exact B5|].
    rewrite LE, LF in X1, X2. unfold pages. cbn [pages_fit pages_meaning]. rewrite F3.
    destruct (page_ends ly (first_page e f plen t) empty_mstate); auto. }
  destruct PM as [PF PM].
  assert (D : described c content h).
  { unfold described. cbv zeta. fold ly. rewrite FP, PM, HP, HF. split; [exact PP|]. split; [exact R3|].
    split; [exact PF|]. split.
    - unfold pages. cbn [length]. rewrite map_length. unfold lenN in R5. lia.
    - split; [exact R4|]. destruct RA as [RA|RA]; [left|right; exact RA].
      change (md_compression (m_md st)) with kt. destruct RA as [RA1 RA2].
      pose proof (told_believed (t_fields t)) as TB. fold kt in TB. destruct TB; [contradiction|contradiction|reflexivity]. }
  destruct (open_described c flt content h s b OH D) as [_ OK]. cbv zeta in OK. fold ly in OK. rewrite FP, PM in OK.
  destruct (OK (full_enough _ _ _ _ _ _)) as (r & cols & OR & RH & RM & NC & CC). clear OK.
  exists r, cols. fold content. split; [exact OR|]. rewrite RH, RM.
  split; [exact HF|]. split; [exact HE|]. split; [exact HN|].
  split; [exact (told_believed (t_fields t))|]. split; [reflexivity|]. split; [reflexivity|]. split; [reflexivity|].
  split; [reflexivity|]. split.
  { rewrite HE in CC. eapply (full_columns e); try reflexivity; [exact NC|exact CC]. }
  assert (LY : layout_of (rs_h r) (rs_md r)
               = Layout e f plen (t_row_length t) (lenN (t_rows t)) (lenN (t_first t)) kt).
  { rewrite RH, RM. unfold layout_of. rewrite HE, HF, HP. reflexivity. }
  set (ly2 := Layout e f plen (t_row_length t) (lenN (t_rows t)) (lenN (t_first t)) kt) in *.
  destruct (first_rows ly2 plen t P GT eq_refl eq_refl eq_refl) as [Q1 Q2].
  cbn [ly_endian ly_format ly2] in Q1, Q2.
  assert (QD : Forall (fun rows => page_rows ly2 (data_page e f plen rows) = map Ok rows
                /\ good_page ly2 (data_page e f plen rows) /\ not_empty ly2 (data_page e f plen rows)) (t_pages t)).
  { apply Forall_forall. intros rows I. rewrite Forall_forall in B5. destruct (B5 rows I) as (X1 & X2 & X3).
    destruct (data_page_fits ly2 plen rows empty_mstate X1 X2 P X3) as (W & _).
    cbn [ly_endian ly_format ly2] in W. rewrite <- (wr_len _ _ _ _ _ _ _ W) in W at 1.
    destruct (data_page_rows ly2 _ rows X2 W) as (Y1 & Y2 & Y3).
    - cbn [ly_row_length ly2]. unfold t_rows in F. apply Forall_app in F. destruct F as [_ F].
      rewrite Forall_concat in F. rewrite Forall_forall in F. exact (F rows I).
    - auto. }
  assert (GP : Forall (good_page ly2) pages).
  { constructor; [exact Q2|]. rewrite Forall_map. apply (Forall_impl _ (fun a H => proj1 (proj2 H)) QD). }
  assert (NE : forall pre pg post, pages = pre ++ pg :: post ->
         Exists (fun q => begins ly2 q = true) pre -> not_empty ly2 pg).
  { intros pre pg post E X. destruct pre as [|p0 pre]; [inversion X|]. cbn [app] in E. injection E as _ E.
    assert (I : In pg (map (data_page e f plen) (t_pages t))) by (rewrite E; apply in_elt).
    apply in_map_iff in I. destruct I as (rows & <- & I). rewrite Forall_forall in QD.
    exact (proj2 (proj2 (QD rows I))). }
  assert (NL : Forall (fun pg => filter (is_data_entry kt) (live ly2 pg) = []) pages).
  { constructor.
    - pose proof (first_written ly2 plen t P GT) as W2. cbn [ly_endian ly_format ly2] in W2.
      rewrite (first_live ly2 plen t _ CompNone _ W2) by apply description_shown. apply description_not_data.
    - rewrite Forall_map. apply Forall_forall. intros rows I. rewrite Forall_forall in B5.
      destruct (B5 rows I) as (X1 & X2 & X3).
      destruct (data_page_fits ly2 plen rows empty_mstate X1 X2 P X3) as (W & _).
      cbn [ly_endian ly_format ly2] in W. unfold live. rewrite (wr_type _ _ _ _ _ _ _ W). reflexivity. }
  destruct (all_clear_start ly2 pages (clear_plain ly2 pages NL)) as (CS & RO & GD). specialize (GD GP NE).
  assert (RD : readable c content r).
  { unfold readable. cbv zeta. rewrite LY, RH, FP. cbn [ly_format ly_page_length ly2].
    split; [exact R1|]. split; [exact PP|]. split; [exact GD|].
    split; [exact CS|]. unfold pages. cbn [length]. rewrite map_length. unfold lenN in R5. lia. }
  assert (FR : file_rows content r = map Ok (t_rows t)).
  { unfold file_rows. rewrite LY, RH, FP, RO. unfold pages. cbn [flat_map]. rewrite Q1.
    assert (FM : forall l, Forall (fun rows => page_rows ly2 (data_page e f plen rows) = map Ok rows
                /\ good_page ly2 (data_page e f plen rows) /\ not_empty ly2 (data_page e f plen rows)) l ->
              flat_map (page_rows ly2) (map (data_page e f plen) l) = map Ok (concat l)).
    { induction l as [|x l IH]; intros FL; [reflexivity|]. apply Forall_cons_iff in FL. destruct FL as [[X _] FL].
      cbn [map flat_map concat]. rewrite X, (IH FL), map_app. reflexivity. }
    rewrite (FM _ QD), <- map_app. fold (t_rows t). rewrite RM. cbn [with_columns md_row_count st full_state m_md].
    apply firstn_all2. rewrite map_length. unfold lenN. lia. }
  intros ops cu.
  destruct (readable_cursor c flt content r ops (ex_intro _ _ OR) RD) as [T1 T2]. cbv zeta in T1, T2.
  rewrite FR in T1, T2. rewrite RM in T1. split; [exact T1|exact T2].
Qed.

Lemma round_trip_read_all : forall c flt e f sh hlen plen name t,
  good_sizes f sh hlen plen name -> good_table e f plen t ->
  room c hlen plen (lenN (t_fields t)) (1 + lenN (t_pages t)) ->
  no_compression_name (t_fields t) \/ t_row_length t <= max_alloc c ->
  exists r ev, open_reader c file_source flt (file_open (file_bytes e f sh hlen plen name t)) = Ok (r, ev)
    /\ seen (t_row_length t) (fst (trace c file_source [OpReadAll] (Some r)))
       = [(OpReadAll, Ok CUnit, numbered 0 (t_rows t) ++ [CEnd])].
Proof.
  intros c flt e f sh hlen plen name t H1 H2 H3 H4.
  destruct (round_trip c flt e f sh hlen plen name t H1 H2 H3 H4)
    as (r & cols & O & _ & _ & _ & _ & _ & _ & _ & _ & _ & T).
  exists r. eexists. split; [exact O|]. destruct (T [OpReadAll]) as [T1 _]. cbv zeta in T1. rewrite T1.
  cbn [cur_trace cur_step snd]. rewrite map_length, numbered_from. reflexivity.
Qed.
