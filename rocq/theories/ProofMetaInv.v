(** Invariants of the metadata loop. *)
From Verif Require Import Base Types Buffer Page Column Header Metadata Data Reader Decomp
  Lemmas SpecValues ProofValues SpecDecomp ProofDecomp.
From Coq Require Import ZifyBool ZifyNat ZifyN.
Local Open Scope N_scope.

Ltac binv H :=
  let x := fresh "x" in let E := fresh "E" in
  apply bind_Ok in H; destruct H as [x [E H]].

Lemma process_subheaders_inv : forall T (P : T -> Prop) e f b body,
  (forall acc sh acc', P acc -> body acc sh = Ok acc' -> P acc') ->
  forall n i acc acc', P acc -> process_subheaders e f b body n i acc = Ok acc' -> P acc'.
Proof.
  intros T P e f b body HB. induction n as [|n IH]; intros i acc acc' HP H.
  - injection H as <-. exact HP.
  - cbn [process_subheaders] in H. binv H. binv H.
    apply (IH (i + 1) x0 acc'); [|exact H].
    destruct (_ || _) in E0; [injection E0 as <-; exact HP|]. eapply HB; eauto.
Qed.

Lemma metadata_loop_inv : forall S (P : mstate -> Prop) c (src : source S) e f plen,
  (forall b m sh m' d, P m -> process_subheader e f b m sh = Ok (m', d) -> P m') ->
  forall fuel p m p' m', P m ->
  metadata_loop c src e f plen fuel p m = Ok (p', m') -> P m'.
Proof.
  intros S P c src e f plen HP. induction fuel as [|fuel IH]; intros p m p' m' H L;
    [discriminate|]. cbn [metadata_loop] in L.
  destruct (read_page c src e f plen p) as [[[|]| | | |] p1]; try discriminate.
  - binv L. destruct x as [m1 stop].
    assert (P m1).
    { unfold process_page in E. destruct (is_page_meta_mix_amd _).
      - binv E. destruct x as [m2 d2]. injection E as <- _.
        unfold process_page_metadata, process_page_subheaders in E0.
        apply (process_subheaders_inv _ (fun a => P (fst a))) in E0; auto.
        intros acc sh acc' HA HB. binv HB. destruct x as [m3 d3]. injection HB as <-.
        cbn. eapply HP; eauto.
      - injection E as <- _. exact H. }
    destruct stop; [injection L as _ <-; assumption|]. eapply IH; eauto.
  - injection L as _ <-. exact H.
Qed.

Lemma get_uint_lt : forall a e n b off v, get_uint a e n b off = Ok v -> v < 256 ^ n.
Proof.
  intros a e n b off v H. unfold get_uint in H. binv H. injection H as <-.
  assert (L : lenN x = n).
  { destruct a; cbn in E; apply read_cells_Ok in E; tauto. }
  rewrite <- L. apply get_val_lt.
Qed.

Lemma get_uinteger_lt : forall e f b off v, get_uinteger e f b off = Ok v -> v < W64.
Proof.
  intros e f b off v H. apply get_uint_lt in H. destruct f; cbn in H; unfold W64; lia.
Qed.

(** The counts are 64 bit numbers; no column is made by the loop. *)
Definition counts_ok (m : mstate) : Prop :=
  md_row_count (m_md m) < W64 /\ md_row_length (m_md m) < W64
  /\ md_column_count (m_md m) < W64 /\ md_mix_page_row_count (m_md m) < W64
  /\ md_columns (m_md m) = [].

Lemma counts_ok_step : forall e f b m sh m' d, counts_ok m ->
  process_subheader e f b m sh = Ok (m', d) -> counts_ok m'.
Proof.
  intros e f b m sh m' d H P. unfold process_subheader in P. binv P.
  assert (SAME : forall a b c d e g h,
    counts_ok (MState (m_md m) a b c d e g h (m_types m)))
    by (intros; exact H).
  destruct (match_signature (ROW_SIZE_SUBHEADER f) x).
  { binv P. injection P as <- _. unfold process_ROW_SIZE in E0. apply (proj1 (noexcept_Ok _ _ _)) in E0.
    do 8 binv E0. injection E0 as <-. destruct H as (H1 & H2 & H3 & H4 & H5). unfold counts_ok.
    cbn [set_md m_md md_row_count md_row_length md_column_count md_mix_page_row_count md_columns].
    repeat match goal with
    | H : get_uinteger _ _ _ _ = Ok _ |- _ => apply get_uinteger_lt in H
    end. repeat split; assumption. }
  destruct (match_signature (COLUMN_SIZE_SUBHEADER f) x).
  { binv P. injection P as <- _. unfold process_COLUMN_SIZE in E0. apply (proj1 (noexcept_Ok _ _ _)) in E0.
    binv E0. injection E0 as <-. destruct H as (H1 & H2 & H3 & H4 & H5). unfold counts_ok.
    cbn [set_md m_md md_row_count md_row_length md_column_count md_mix_page_row_count md_columns].
    apply get_uint_lt in E1. assert (x1 < W64) by (destruct f; cbn in E1; unfold W64; lia).
    repeat split; assumption. }
  destruct (match_signature (SUBHEADER_COUNTS_SUBHEADER f) x).
  { injection P as <- _. exact H. }
  destruct (match_signature (COLUMN_TEXT_SUBHEADER f) x).
  { binv P. injection P as <- _. unfold process_COLUMN_TEXT in E0. apply (proj1 (noexcept_Ok _ _ _)) in E0.
    do 2 binv E0. destruct (m_texts m).
    - binv E0. destruct x3.
      + binv E0. injection E0 as <-. exact H.
      + destruct (bytes_eqb _ _).
        * binv E0. injection E0 as <-. exact H.
        * destruct (0 <? md_lcs (m_md m)); [binv E0|]; injection E0 as <-; exact H.
    - injection E0 as <-. exact H. }
  destruct (match_signature (COLUMN_NAME_SUBHEADER f) x).
  { binv P. injection P as <- _. unfold process_COLUMN_NAME in E0. apply (proj1 (noexcept_Ok _ _ _)) in E0.
    binv E0. injection E0 as <-. exact H. }
  destruct (match_signature (COLUMN_ATTRIBUTES_SUBHEADER f) x).
  { binv P. injection P as <- _. unfold process_COLUMN_ATTRIBUTES in E0.
    apply (proj1 (noexcept_Ok _ _ _)) in E0. binv E0. injection E0 as <-. exact H. }
  destruct (match_signature (FORMAT_AND_LABEL_SUBHEADER f) x).
  { binv P. injection P as <- _. unfold process_FORMAT_AND_LABEL in E0.
    apply (proj1 (noexcept_Ok _ _ _)) in E0. do 7 binv E0. injection E0 as <-. exact H. }
  destruct (match_signature (COLUMN_LIST_SUBHEADER f) x).
  { injection P as <- _. exact H. }
  destruct (data_subheader_check _ _); injection P as <- _; exact H.
Qed.

Lemma counts_ok_empty : counts_ok empty_mstate.
Proof. repeat split; reflexivity. Qed.

Lemma create_columns_md : forall c e flt m d, create_columns c e flt m = Ok d ->
  exists cols, d = Metadata (md_compression (m_md m)) (md_creator (m_md m))
    (md_creator_proc (m_md m)) (md_row_length (m_md m)) (md_row_count (m_md m))
    (md_column_count (m_md m)) (md_col_count_p1 (m_md m)) (md_col_count_p2 (m_md m))
    (md_mix_page_row_count (m_md m)) (md_lcs (m_md m)) (md_lcp (m_md m)) cols
  /\ create_loop e flt m (md_column_count (m_md m)) (S (length (m_names m))) 0
       (md_columns (m_md m)) = Ok cols.
Proof.
  intros c e flt m d H. unfold create_columns in H.
  destruct (_ <=? _); [|discriminate]. binv H. injection H as <-. eauto.
Qed.

(** What construction gives. *)
Definition dec_ok (md : metadata) (d : decompressor) : Prop :=
  match d with
  | DNone => True
  | DRDC x | DRLE x => row_buffer (md_row_length md) x /\ md_row_length md < row_limit
  end.

Lemma make_decompressor_ok : forall c md d, max_alloc c < row_limit ->
  make_decompressor c (md_compression md) (md_row_length md) = Ok d -> dec_ok md d.
Proof.
  intros c md d M H. unfold make_decompressor in H.
  assert (A : forall x, dst_new c (md_row_length md) = Ok x -> dec_ok md (DRDC x)).
  { intros x E. split; [eapply dst_new_row_buffer; exact E|].
    unfold dst_new, mbuf_new, alloc in E.
    destruct (N.leb_spec (md_row_length md) (max_alloc c)); [|discriminate]. lia. }
  destruct (md_compression md).
  - injection H as <-. exact I.
  - binv H. injection H as <-. apply A in E. exact E.
  - binv H. injection H as <-. apply A in E. exact E.
Qed.

Lemma open_reader_inv : forall S c (src : source S) flt s r ev,
  open_reader c src flt s = Ok (r, ev) ->
  exists s1 b1 p m, 
    open_header c src s = Ok (rs_h r, s1, b1)
    /\ metadata_loop c src (h_endianness (rs_h r)) (h_format (rs_h r))
         (h_page_length (rs_h r)) (page_fuel c) (PState s1 b1 reset_page_header)
         empty_mstate = Ok (p, m)
    /\ create_columns c (h_endianness (rs_h r)) flt m = Ok (rs_md r)
    /\ read_data c (rs_h r) (rs_md r) p (m_data_subheaders m) = Ok (rs_d r)
    /\ ev = [EvProps (rs_h r) (rs_md r)].
Proof.
  intros S c src flt s r ev H. unfold open_reader in H.
  binv H. destruct x as [[h s1] b1]. binv H. destruct x as [[p md] dsh].
  binv H. injection H as <- <-. unfold set_metadata in E0. binv E0.
  destruct x0 as [p' m]. binv E0. injection E0 as -> -> <-.
  exists s1, b1, p, m. cbn. auto.
Qed.

Lemma opened_counts : forall S c (src : source S) flt s r ev,
  open_reader c src flt s = Ok (r, ev) ->
  md_row_count (rs_md r) < W64 /\ md_row_length (rs_md r) < W64
  /\ md_column_count (rs_md r) < W64 /\ md_mix_page_row_count (rs_md r) < W64.
Proof.
  intros S c src flt s r ev H. apply open_reader_inv in H.
  destruct H as [s1 [b1 [p [m [_ [H [C _]]]]]]].
  apply (metadata_loop_inv _ counts_ok) in H; [|apply counts_ok_step|apply counts_ok_empty].
  apply create_columns_md in C. destruct C as [cols [-> _]].
  destruct H as (H1 & H2 & H3 & H4 & H5).
  cbn [md_row_count md_row_length md_column_count md_mix_page_row_count].
  repeat split; assumption.
Qed.

Lemma opened_data : forall S c (src : source S) flt s r ev,
  max_alloc c < row_limit ->
  open_reader c src flt s = Ok (r, ev) ->
  ds_row (rs_d r) = 0 /\ dec_ok (rs_md r) (ds_dec (rs_d r)).
Proof.
  intros S c src flt s r ev M H. apply open_reader_inv in H.
  destruct H as [s1 [b1 [p [m [_ [_ [_ [D _]]]]]]]].
  unfold read_data in D. binv D. apply make_decompressor_ok in E; [|exact M].
  destruct (m_data_subheaders m).
  - binv D. injection D as <-. auto.
  - injection D as <-. auto.
Qed.
