(** Proofs about files whose pages are shorter than a page header. *)
From Coq Require Import Lia ZArith.
From Verif Require Import Base Types Buffer Page Column Header Metadata Decomp Data Reader
  Lemmas SpecValues ProofValues SpecBuffer ProofBuffer SpecHeader ProofHeader SpecReader ProofMetaInv ProofReader
  SpecPages ProofPages ProofOpen ProofPacked SpecTinyPage.
Local Open Scope N_scope.

Lemma slice_splice : forall A (new l : list A) off len, lenN new <= off ->
  slice off len (splice 0 new l) = slice off len l.
Proof.
  intros A new l off len L. unfold slice, splice. cbn [N.to_nat firstn app]. f_equal.
  unfold lenN in L. rewrite skipn_app, (skipn_all2 new) by lia. cbn [app]. rewrite Nat.add_0_l, skipn_skipn'.
  f_equal. lia.
Qed.

Lemma read_splice : forall new m off len, lenN new <= off -> lenN new <= lenN m ->
  read_cells (splice 0 new m) off len = read_cells m off len.
Proof.
  intros new m off len L M. unfold read_cells. rewrite slice_splice by exact L.
  rewrite lenN_splice by (unfold lenN in *; lia). reflexivity.
Qed.

Section Short.
Variables (e : endian) (f : format) (plen : N) (w : bytes).
Hypothesis SH : plen <= page_bit_offset f.
Hypothesis NM : is_page_meta_mix_amd (get_val e w) = false.
Hypothesis NDM : is_page_data_mix (get_val e w) = false.

Definition kept_word (b : mbuf) : Prop :=
  plen <= msize b /\ read_cells (mem b) (page_bit_offset f) 2 = Ok w.

Lemma page_kept : forall c p x p', kept_word (ps_buf p) ->
  read_page c file_source e f plen p = (Ok x, p') ->
  kept_word (ps_buf p') /\ (x = true -> ph_type (ps_hdr p') = get_val e w)
  /\ (x = false -> ps_hdr p' = reset_page_header).
Proof.
  intros c p x p' [K1 K2] H. unfold read_page in H.
  destruct (src_eof file_source (ps_is p)).
  { injection H as <- <-. cbn [ps_buf ps_hdr]. split; [split; assumption|]. split; [discriminate|reflexivity]. }
  unfold read_stream in H.
  assert (PL : plen < W64). { unfold W64. destruct f; cbn [page_bit_offset] in SH; lia. }
  rewrite add64_small in H by (rewrite N.add_0_l; exact PL). rewrite N.add_0_l in H.
  unfold resize in H. rewrite (proj2 (N.ltb_ge _ _)) in H by exact K1. cbn [mem msize] in H.
  destruct (src_read file_source (ps_is p) plen) as [[s1 data] ok] eqn:RD.
  assert (LD : lenN data <= plen).
  { destruct (file_source_good _ _ _ _ _ RD) as [A B]. exact A. }
  set (m := if lenN data =? 0 then Ok (mem (ps_buf p)) else write_cells (mem (ps_buf p)) 0 (map Some data)) in H.
  assert (KM : forall m', m = Ok m' -> read_cells m' (page_bit_offset f) 2 = Ok w).
  { intros m' Z. unfold m in Z. destruct (lenN data =? 0); [injection Z as <-; exact K2|].
    unfold write_cells in Z. destruct (N.leb_spec (0 + lenN (map Some data)) (lenN (mem (ps_buf p)))); [|discriminate].
    injection Z as <-. rewrite read_splice; [exact K2| |lia]. rewrite lenN_map. lia. }
  destruct m as [m'| | | |]; try discriminate. specialize (KM m' eq_refl).
  assert (KW : kept_word (MBuf m' plen)) by (split; [cbn; lia|exact KM]).
  destruct ok.
  - destruct (get_page_header e f (MBuf m' plen)) as [h| | | |] eqn:G; try discriminate.
    injection H as <- <-. cbn [ps_buf ps_hdr]. split; [exact KW|]. split; [|discriminate]. intros _.
    unfold get_page_header in G. binv G. binv G. binv G. injection G as <-. cbn [ph_type].
    unfold get_uint16, get_uint, get_raw in E. cbn [mem] in E. rewrite N.add_0_r, KM in E. cbn [bind] in E. injection E as <-. reflexivity.
  - destruct (src_eof file_source s1); [|discriminate]. injection H as <- <-. cbn [ps_buf ps_hdr].
    split; [exact KW|]. split; [discriminate|reflexivity].
Qed.

Lemma loop_nothing : forall c fuel p m p' m', kept_word (ps_buf p) ->
  metadata_loop c file_source e f plen fuel p m = Ok (p', m') -> m' = m /\ ps_hdr p' = reset_page_header.
Proof.
  intros c. induction fuel as [|fuel IH]; intros p m p' m' K H; [discriminate|]. cbn [metadata_loop] in H.
  destruct (read_page c file_source e f plen p) as [x p1] eqn:R.
  destruct x as [[|]| | | |]; try discriminate.
  - destruct (page_kept c p true p1 K R) as (K1 & T & _). specialize (T eq_refl).
    unfold process_page in H. rewrite T, NM, NDM in H. cbn [bind] in H. apply (IH _ _ _ _ K1 H).
  - injection H as <- <-. destruct (page_kept c p false p1 K R) as (_ & _ & T). auto.
Qed.
End Short.

Lemma word_32 : forall e, is_page_meta_mix_amd (get_val e [xb3; x14]) = false
  /\ is_page_data_mix (get_val e [xb3; x14]) = false.
Proof. intros []; split; reflexivity. Qed.

Lemma word_64 : forall e y, is_page_meta_mix_amd (get_val e [x33; y]) = false
  /\ is_page_data_mix (get_val e [x33; y]) = false.
Proof. intros [] y; destruct y; split; reflexivity. Qed.

Lemma magic_word : forall content, has_magic content -> field content 16 2 = [xb3; x14].
Proof.
  intros content H. unfold has_magic, field in *. cbn [N.to_nat skipn] in *.
  change (Pos.to_nat 32) with 32%nat in H. change (Pos.to_nat 2) with 2%nat. change (Pos.to_nat 16) with 16%nat.
  do 18 (destruct content as [|? content]; [discriminate H|]). cbn [firstn map skipn] in *.
  pose proof (f_equal (fun l => nth 16 l 0) H) as H1. pose proof (f_equal (fun l => nth 17 l 0) H) as H2. clear H.
  cbn [nth] in H1, H2.
  apply (f_equal Byte.of_N) in H1. apply (f_equal Byte.of_N) in H2. rewrite Byte.of_to_N in H1, H2.
  cbn in H1, H2. injection H1 as ->. injection H2 as ->. reflexivity.
Qed.

Lemma word_of_64 : forall content, is_64 content = true -> 34 <= lenN content ->
  exists y, field content 32 2 = [x33; y].
Proof.
  intros content H L. unfold is_64, byte_at in H. unfold field.
  change (N.to_nat 32) with 32%nat in *. change (N.to_nat 2) with 2%nat.
  assert (S : exists a y l, skipn 32 content = a :: y :: l).
  { destruct (skipn 32 content) as [|a [|y l]] eqn:E; [| |eauto];
      apply (f_equal (@length byte)) in E; rewrite skipn_length in E; cbn in E; unfold lenN in L; lia. }
  destruct S as (a & y & l & E). rewrite E. cbn [firstn]. exists y. f_equal.
  rewrite <- (firstn_skipn 32 content), E in H. rewrite nth_error_app2 in H by (rewrite firstn_length; lia).
  rewrite firstn_length in H. replace (32 - Nat.min 32 (length content))%nat with 0%nat in H by (unfold lenN in L; lia).
  cbn [nth_error] in H. apply N.eqb_eq in H. apply (f_equal Byte.of_N) in H. rewrite Byte.of_to_N in H.
  cbn in H. injection H as ->. reflexivity.
Qed.

Lemma short_pages : forall c flt content r ev, open_reader c file_source flt (file_open content) = Ok (r, ev) ->
  h_page_length (rs_h r) <= type_place (h_format (rs_h r)) ->
  md_columns (rs_md r) = [] /\ md_row_count (rs_md r) = 0
  /\ forall ops, trace c file_source ops (Some r) = (nothing ops, Some r).
Proof.
  intros c flt content r ev H PL.
  destruct (reader_header _ _ _ _ _ H) as (_ & HF & _).
  apply open_reader_inv in H. destruct H as (s1 & b1 & p & m & OH & ML & CC & RD & _).
  destruct (header_opened _ _ _ _ _ OH) as (L & MG & HL & _ & _ & ->).
  assert (K : exists w, kept_word (h_format (rs_h r)) (h_page_length (rs_h r)) w
                          (ProofHeader.full (field content 0 (header_length_field content)))
              /\ is_page_meta_mix_amd (get_val (h_endianness (rs_h r)) w) = false
              /\ is_page_data_mix (get_val (h_endianness (rs_h r)) w) = false).
  { assert (RC : forall off, off + 2 <= 288 ->
      read_cells (map Some (field content 0 (header_length_field content))) off 2 = Ok (field content off 2)).
    { intros off LO. rewrite read_cells_map by (rewrite field_slice, lenN_slice; lia).
      rewrite !field_slice. unfold slice. cbn [N.to_nat skipn]. rewrite skipn_firstn_comm, firstn_firstn.
      rewrite Nat.min_l by lia. reflexivity. }
    assert (LL : lenN (field content 0 (header_length_field content)) = header_length_field content).
    { rewrite field_slice, lenN_slice. lia. }
    destruct (h_format (rs_h r)) eqn:F; cbn [type_place] in PL.
    - exists [xb3; x14]. destruct (word_32 (h_endianness (rs_h r))) as [W1 W2]. split; [|split; assumption].
      split; cbn [ProofHeader.full msize mem page_bit_offset]; [rewrite LL; lia|].
      rewrite RC by lia. rewrite magic_word by exact MG. reflexivity.
    - rewrite (hof_format _ _ HF) in F. unfold file_format in F. destruct (is_64 content) eqn:I64; [|discriminate].
      destruct (word_of_64 content I64) as [y Y]; [lia|].
      exists [x33; y]. destruct (word_64 (h_endianness (rs_h r)) y) as [W1 W2]. split; [|split; assumption].
      split; cbn [ProofHeader.full msize mem page_bit_offset]; [rewrite LL; lia|].
      rewrite RC by lia. rewrite Y. reflexivity. }
  destruct K as (w & K & N1 & N2).
  assert (PL2 : h_page_length (rs_h r) <= page_bit_offset (h_format (rs_h r))) by (destruct (h_format (rs_h r)); exact PL).
  eapply (loop_nothing _ _ _ w PL2 N1 N2) in ML; [|exact K]. destruct ML as [-> HR].
  assert (C2 : md_columns (rs_md r) = [] /\ md_row_count (rs_md r) = 0).
  { unfold create_columns in CC. cbn [empty_mstate] in CC.
    destruct (_ <=? max_alloc c) in CC; [|discriminate]. binv CC. injection CC as <-.
    split; [|reflexivity]. cbn in E. injection E as <-. reflexivity. }
  destruct C2 as [C2 C3]. split; [exact C2|]. split; [exact C3|].
  assert (ED : ended_r r).
  { left. rewrite C3. unfold read_data in RD. binv RD. cbn [empty_mstate m_data_subheaders] in RD. binv RD.
    injection RD as <-. reflexivity. }
  induction ops as [|o ops IH]; [reflexivity|]. cbn [trace reader_step nothing map].
  rewrite ended_step by exact ED. fold (nothing ops). rewrite IH. reflexivity.
Qed.

(** Pages which are long enough. *)
Lemma own_header : forall S c (src : source S) e f plen p p', good_source src ->
  type_place f + 6 <= plen -> read_page c src e f plen p = (Ok true, p') ->
  exists d, src_read src (ps_is p) plen = (ps_is p', d, true) /\ lenN d = plen
  /\ ph_type (ps_hdr p') = value_of e (field d (type_place f) 2)
  /\ ph_block_count (ps_hdr p') = value_of e (field d (type_place f + 2) 2)
  /\ ph_subheaders_count (ps_hdr p') = value_of e (field d (type_place f + 4) 2).
Proof.
  intros S c src e f plen p p' G L H. unfold read_page in H.
  destruct (src_eof src (ps_is p)); [discriminate|].
  unfold read_stream in H. destruct (resize c (ps_buf p) (0 +! plen)) as [b1| | | |]; try discriminate.
  destruct (src_read src (ps_is p) plen) as [[s1 data] ok] eqn:RD.
  destruct (G _ _ _ _ _ RD) as [_ LD].
  destruct ok; [specialize (LD eq_refl)|].
  2:{ destruct (if lenN data =? 0 then _ else _); try discriminate. destruct (src_eof src s1); discriminate. }
  assert (NZ : lenN data =? 0 = false) by (apply N.eqb_neq; lia). rewrite NZ in H.
  unfold write_cells in H. destruct (_ <=? _) in H; [|discriminate].
  unfold splice in H. cbn [N.to_nat firstn app] in H.
  set (rest := skipn _ (mem b1)) in H.
  destruct (get_page_header e f _) as [h| | | |] eqn:GH; try discriminate. injection H as <-.
  exists data. split; [reflexivity|]. split; [exact LD|]. cbn [ps_hdr].
  assert (TP : page_bit_offset f = type_place f) by (destruct f; reflexivity).
  unfold get_page_header in GH. rewrite TP in GH. binv GH. binv GH. binv GH. injection GH as <-.
  cbn [ph_type ph_block_count ph_subheaders_count].
  assert (U : forall off x, off + 2 <= plen ->
    get_uint16 e (MBuf (map Some data ++ rest) (msize b1)) off = Ok x -> x = value_of e (field data off 2)).
  { clear - LD. intros off v LO Z. unfold get_uint16, get_uint, get_raw in Z. cbn [mem] in Z. binv Z. injection Z as <-.
    apply read_cells_page in E; [|rewrite LD; exact LO]. subst x. rewrite get_val_value, field_slice. reflexivity. }
  rewrite N.add_0_r in E. split; [apply U; [lia|exact E]|]. split; apply U; try lia; assumption.
Qed.
