(** Computable forms of the hypotheses on the subheaders, for the examples; and the
    properties of a row size subheader and of the first rows of a compressed file. *)
From Verif Require Import Base Types Lemmas Buffer Page Header Column Metadata Decomp Data
  Reader SpecValues SpecBuffer SpecHeader SpecDecomp SpecReader SpecFile Samples SpecPages
  SpecMeta ProofValues ProofBuffer ProofHeader ProofDecomp ProofMetaInv ProofReader ProofPages
  ProofOpen ProofCheck ProofRows ProofMeta ProofColumns ProofDispatch.
From Coq Require Import ZifyBool ZifyNat ZifyN.
Local Open Scope N_scope.

Definition text_fitsb (ly : layout) (pg : bytes) (m : mstate) (s : sub_entry) : bool :=
  let w := word (ly_format ly) in
  let mp := mark_pos (ly_format ly) in
  (w + 2 <=? se_len s)
  && (w + num16 ly pg (se_pos s + w) <=? se_len s)
  && match m_texts m with
     | [] =>
        (mp + 8 <=? se_len s)
        && (if bytes_eqb (mark_at ly pg (se_pos s)) [] then mp + 16 + md_lcp (m_md m) <=? se_len s
            else if bytes_eqb (mark_at ly pg (se_pos s)) rle_name
                 then mp + 24 + md_lcp (m_md m) <=? se_len s
                 else mp + md_lcs (m_md m) <=? se_len s)
     | _ => true
     end.

Lemma text_fitsb_ok : forall ly pg m s, text_fitsb ly pg m s = true -> text_fits ly pg m s.
Proof.
  intros ly pg m s H. unfold text_fitsb in H. cbv zeta in H. unfold text_fits. cbv zeta.
  apply andb_true_iff in H. destruct H as [H H3]. apply andb_true_iff in H. destruct H as [H1 H2].
  split; [lia|]. split; [lia|]. intros T. rewrite T in H3.
  apply andb_true_iff in H3. destruct H3 as [H3 H4]. split; [lia|].
  destruct (bytes_eqb _ _); [lia|]. destruct (bytes_eqb _ _); lia.
Qed.

Definition fitsb (ly : layout) (pg : bytes) (m : mstate) (s : sub_entry) : bool :=
  let w := word (ly_format ly) in
  (se_pos s + w <=? lenN pg)
  && match kind_on ly pg s with
     | Some KRowSize => lcp_pos (ly_format ly) + 4 <=? se_len s
     | Some KColumnSize => 2 * w <=? se_len s
     | Some KText => text_fitsb ly pg m s
     | Some KNames | Some KAttributes => w + 12 <=? se_len s
     | Some KFormatLabel => 3 * w + 34 <=? se_len s
     | Some KCounts | Some KList | None => true
     end.

Lemma fitsb_ok : forall ly pg m s, fitsb ly pg m s = true -> fits ly pg m s.
Proof.
  intros ly pg m s H. unfold fitsb in H. cbv zeta in H. apply andb_true_iff in H.
  destruct H as [H1 H2]. unfold fits. cbv zeta. split; [lia|].
  destruct (kind_on ly pg s) as [[]|]; try lia; try exact I. apply text_fitsb_ok. exact H2.
Qed.

Fixpoint subs_fitb (ly : layout) (pg : bytes) (m : mstate) (l : list sub_entry) : bool :=
  match l with
  | [] => true
  | s :: l' => fitsb ly pg m s && subs_fitb ly pg (meaning ly pg m s) l'
  end.

Lemma subs_fitb_ok : forall ly pg l m, subs_fitb ly pg m l = true -> subs_fit ly pg m l.
Proof.
  intros ly pg l. induction l as [|s l IH]; intros m H; [exact I|].
  cbn [subs_fitb] in H. apply andb_true_iff in H. destruct H as [H1 H2].
  split; [apply fitsb_ok; exact H1|apply IH; exact H2].
Qed.

Definition page_fitsb (ly : layout) (pg : bytes) (m : mstate) : bool :=
  (prefix (ly_format ly) + 6 <=? lenN pg)
  && (negb (has_subheaders (page_type ly pg))
      || ((prefix (ly_format ly) + 8 + page_subs ly pg * (3 * word (ly_format ly)) <=? lenN pg)
          && forallb (fun s => se_pos s + se_len s <=? lenN pg) (entries ly pg)
          && subs_fitb ly pg m (live ly pg))).

Lemma page_fitsb_ok : forall ly pg m, page_fitsb ly pg m = true -> page_fits ly pg m.
Proof.
  intros ly pg m H. unfold page_fitsb in H. apply andb_true_iff in H. destruct H as [H1 H2].
  split; [lia|]. intros T. rewrite T in H2. cbn [negb orb] in H2.
  apply andb_true_iff in H2. destruct H2 as [H2 H3]. apply andb_true_iff in H2.
  destruct H2 as [H2 H4]. split; [lia|].
  split; [apply (forallb_le _ (fun s => se_pos s + se_len s)); exact H4|].
  apply subs_fitb_ok. exact H3.
Qed.

Fixpoint pages_fitb (ly : layout) (m : mstate) (pages : list bytes) : bool :=
  match pages with
  | [] => true
  | pg :: l =>
      page_fitsb ly pg m && (page_ends ly pg m || pages_fitb ly (page_meaning ly pg m) l)
  end.

Lemma pages_fitb_ok : forall ly pages m, pages_fitb ly m pages = true -> pages_fit ly m pages.
Proof.
  intros ly pages. induction pages as [|pg l IH]; intros m H; [exact I|].
  cbn [pages_fitb] in H. apply andb_true_iff in H. destruct H as [H1 H2].
  split; [apply page_fitsb_ok; exact H1|]. intros E. rewrite E in H2. apply IH. exact H2.
Qed.

Definition describedb (c : cfg) (content : bytes) (h : header) : bool :=
  let ly := layout_of h empty_metadata in
  let pages := file_pages content h in
  let d := m_md (pages_meaning ly empty_mstate pages) in
  (prefix (h_format h) + 6 <=? h_page_length h)
  && (h_page_length h <=? max_alloc c)
  && pages_fitb ly empty_mstate pages
  && (length pages <? page_fuel c)%nat
  && (120 * md_column_count d <=? max_alloc c)
  && (md_row_length d <=? max_alloc c).

Lemma describedb_ok : forall c content h, describedb c content h = true -> described c content h.
Proof.
  intros c content h H. unfold describedb in H. cbv zeta in H.
  apply andb_true_iff in H. destruct H as [H H6].
  apply andb_true_iff in H. destruct H as [H H5].
  apply andb_true_iff in H. destruct H as [H H4].
  apply andb_true_iff in H. destruct H as [H H3].
  apply andb_true_iff in H. destruct H as [H1 H2].
  unfold described. cbv zeta. split; [lia|]. split; [lia|].
  split; [apply pages_fitb_ok; exact H3|]. split; [lia|]. split; [lia|]. right. lia.
Qed.

(** ** Statements about one subheader, one page *)

Lemma row_size_fields : forall e f pg spare pos len comp ty m,
  lenN pg < W64 -> pos + lcp_pos f + 4 <= lenN pg ->
  let w := word f in
  let d := m_md m in
  process_ROW_SIZE e f (MBuf (map Some pg ++ spare) (lenN pg)) (PageSubheader pos len comp ty) m
  = Ok (MState (Metadata (md_compression d) (md_creator d) (md_creator_proc d)
                  (value_of e (field pg (pos + 5 * w) w)) (value_of e (field pg (pos + 6 * w) w))
                  (md_column_count d)
                  (value_of e (field pg (pos + 9 * w) w)) (value_of e (field pg (pos + 10 * w) w))
                  (value_of e (field pg (pos + 15 * w) w))
                  (value_of e (field pg (pos + lcs_pos f) 2))
                  (value_of e (field pg (pos + lcp_pos f) 2)) (md_columns d))
          (m_data_subheaders m) (m_texts m) (m_names m) (m_formats m) (m_labels m)
          (m_offsets m) (m_lengths m) (m_types m)).
Proof.
  intros e f pg spare pos len comp ty m B L w d.
  exact (row_size_fits (Layout e f 0 0 0 0 CompNone) (MBuf (map Some pg ++ spare) (lenN pg)) pg
           (page_buffer_holds pg spare) B m (SubEntry pos (lcp_pos f + 4) comp ty)
           ltac:(cbn [se_pos se_len]; lia) ltac:(cbn [se_len ly_format]; lia)).
Qed.

Lemma page_safe : forall ly pg spare m, lenN pg < W64 -> page_fits ly pg m ->
  let b := MBuf (map Some pg ++ spare) (lenN pg) in
  exists ph, get_page_header (ly_endian ly) (ly_format ly) b = Ok ph
  /\ process_page (ly_endian ly) (ly_format ly) b ph m
     = Ok (page_meaning ly pg m, page_ends ly pg m).
Proof.
  intros ly pg spare m B F b. pose proof (page_buffer_holds pg spare) as H.
  exists (header_of ly pg). split; [apply (holds_page_header ly); [exact H|exact (proj1 F)]|].
  apply page_processed; assumption.
Qed.

Lemma pointers_inside : forall ly pg spare m ph m' stop, ly_format ly = Bit32 -> lenN pg < W64 ->
  prefix (ly_format ly) + 6 <= lenN pg ->
  let b := MBuf (map Some pg ++ spare) (lenN pg) in
  get_page_header (ly_endian ly) (ly_format ly) b = Ok ph ->
  has_subheaders (page_type ly pg) = true ->
  process_page (ly_endian ly) (ly_format ly) b ph m = Ok (m', stop) ->
  Forall (fun s => se_pos s + se_len s <= lenN pg) (entries ly pg).
Proof.
  intros ly pg spare m ph m' stop F B L b G HS P.
  pose proof (page_buffer_holds pg spare) as H. fold b in H.
  rewrite (holds_page_header ly b pg H L) in G. injection G as <-.
  eapply page_pointers; eassumption.
Qed.

(** ** The first rows of a compressed file *)

Lemma first_rows : forall c flt content r pre pg post,
  let ly := layout_of (rs_h r) (rs_md r) in
  opened c file_source flt (file_open content) r -> readable c content r ->
  file_pages content (rs_h r) = pre ++ pg :: post ->
  Forall (fun q => begins ly q = false) pre -> page_type ly pg = 0 -> begins ly pg = true ->
  forall rows,
  firstn (N.to_nat (md_row_count (rs_md r)))
    (map (fun s => row_content ly pg (se_pos s, se_len s))
       (filter (fun s => is_data_entry (md_compression (rs_md r)) s
                         && match kind_on ly pg s with None => true | Some _ => false end)
          (entries ly pg))
     ++ flat_map (page_rows ly) post) = map Ok rows ->
  seen (md_row_length (rs_md r)) (fst (trace c file_source [OpReadAll] (Some r)))
  = [(OpReadAll, Ok CUnit, numbered 0 rows ++ [CEnd])].
Proof.
  intros c flt content r pre pg post ly O R E F T B rows H.
  eapply read_all_rows_of; [exact O|exact R|]. unfold file_rows. rewrite E. fold ly.
  rewrite rows_on_skip by exact F. rewrite rows_on_begin by exact B. rewrite <- H. f_equal. f_equal.
  assert (Q : filter (is_stored_row ly pg) (live ly pg)
    = filter (fun s => is_data_entry (md_compression (rs_md r)) s
                       && match kind_on ly pg s with None => true | Some _ => false end)
        (entries ly pg)).
  { unfold live, has_subheaders. rewrite T. cbn [N.eqb orb]. rewrite filter_filter.
    apply filter_ext. intros s. unfold is_stored_row. change (ly_compression ly) with (md_compression (rs_md r)).
    destruct (skipped s) eqn:K; cbn [negb andb]; [|reflexivity].
    rewrite (skipped_not_data _ s K). reflexivity. }
  unfold first_places. rewrite Q.
  unfold begins in B. rewrite T in B. cbn [N.eqb is_mix orb] in B. rewrite stored_exists, Q in B.
  destruct (filter _ (entries ly pg)); [discriminate B|]. rewrite map_map. reflexivity.
Qed.

(** The first row of the second page is not touched by the constructor; the second
    row of the first page starts like a column list subheader. *)
Definition lookalike_file : bytes :=
  compressed_file Big Bit32 false 320 900 (bs "SAMPLE") (bs "SASYZCRL") sample_fields 12 4
    [bs "AAAAAAAAabcd"; [xfe; xff; xff; xff] ++ bs "BBBBefgh"; bs "CCCCCCCCijkl"]
    [[[xfe; xff; xff; xff] ++ bs "DDDDmnop"]].

(** Rows on two pages, all of which can be decompressed. *)
Definition sample_rows_rle : bytes :=
  compressed_file Big Bit32 false 320 900 (bs "SAMPLE") (bs "SASYZCRL") sample_fields 12 3
    [x85 :: bs "abcdef" ++ [xe4]; bs "CCCCCCCCijkl"] [[x83 :: bs "mnop" ++ [xe6]]].

(** A label which is the name of a compression. *)
Definition named_file : bytes :=
  file_bytes Big Bit32 false 320 800 (bs "SAMPLE")
    (Table [FieldDesc (bs "ID") (bs "SASYZCRL") (bs "BEST") 0 8 true;
            FieldDesc (bs "NAME") [] [] 8 4 false] 12 [bs "AAAAAAAAabcd"] []).

(** A file with two columns, where the format and the label of the second are not
    given. *)
Definition missing_label_file : bytes :=
  header_bytes Big Bit32 false 320 800 1 (bs "SAMPLE")
  ++ page_bytes Big Bit32 800 type_meta 0
       (removelast (description Big Bit32 [] sample_fields 12 0 0)) [].

Lemma opened_columns : forall S c (src : source S) s r,
  opened c src None s r -> lenN (md_columns (rs_md r)) = md_column_count (rs_md r).
Proof.
  intros S c src s r [ev H]. unfold open_reader in H.
  destruct (open_header c src s) as [[[h s1] b1]| | | |]; try discriminate. cbn [bind] in H.
  unfold set_metadata in H.
  destruct (metadata_loop c src _ _ _ _ _ empty_mstate) as [[q m]| | | |] eqn:L; try discriminate.
  cbn [bind] in H.
  destruct (create_columns c (h_endianness h) None m) as [d| | | |] eqn:C; try discriminate.
  cbn [bind] in H.
  assert (N : md_columns (m_md m) = []).
  { apply (metadata_loop_inv _ counts_ok) in L; [|apply counts_ok_step|apply counts_ok_empty].
    apply L. }
  assert (K : lenN (md_columns d) = md_column_count d).
  { pose proof (columns_built c (h_endianness h) m d N C) as [K _]. rewrite K.
    rewrite create_columns_spec in C. destruct (_ <=? _); [|discriminate].
    destruct (cols_from _ m 0 _); [|discriminate]. injection C as <-. reflexivity. }
  destruct (read_data c h d q _) as [x| | | |]; try discriminate. cbn [bind] in H.
  injection H as <- _. exact K.
Qed.
