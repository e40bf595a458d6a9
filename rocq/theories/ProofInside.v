(** 32 bit files in debug builds: every row handed out lies inside its page. *)
From Verif Require Import Base Types Buffer Page Column Header Metadata Decomp Data Reader
  Lemmas SpecValues ProofValues SpecBuffer ProofBuffer SpecDecomp ProofDecomp
  SpecReader ProofMetaInv ProofReader SpecPages ProofPages ProofFinite.
From Coq Require Import ZifyBool ZifyNat ZifyN.
Local Open Scope N_scope.

Definition B32 : N := 4294967296.

Lemma get_uinteger_32 : forall e b off v, get_uinteger e Bit32 b off = Ok v -> v < B32.
Proof. intros e b off v H. apply get_uint_lt in H. exact H. Qed.

Lemma get_page_subheader_32 : forall e b off sh, get_page_subheader e Bit32 b off = Ok sh ->
  sh_offset sh < B32 /\ sh_length sh < B32.
Proof.
  intros e b off sh H. unfold get_page_subheader in H. do 6 binv H. injection H as <-.
  cbn [sh_offset sh_length]. apply get_uinteger_32 in E0, E1. auto.
Qed.

(** Invariants of a fold over the table, knowing where the entries come from. *)
Lemma process_subheaders_from : forall T (P : T -> Prop) e f b body,
  (forall acc sh acc' off, P acc -> get_page_subheader e f b off = Ok sh ->
     body acc sh = Ok acc' -> P acc') ->
  forall n i acc acc', P acc -> process_subheaders e f b body n i acc = Ok acc' -> P acc'.
Proof.
  intros T P e f b body HB. induction n as [|n IH]; intros i acc acc' HP H.
  - injection H as <-. exact HP.
  - cbn [process_subheaders] in H. binv H. binv H.
    apply (IH (i + 1) x0 acc'); [|exact H].
    destruct (_ || _) in E0; [injection E0 as <-; exact HP|]. eapply HB; eauto.
Qed.

Definition small_places (l : list (N * N)) : Prop :=
  Forall (fun x => fst x < B32 /\ snd x < B32) l.

Record m32 (m : mstate) : Prop := {
  m32_count : md_row_count (m_md m) < B32;
  m32_length : md_row_length (m_md m) < B32;
  m32_places : small_places (m_data_subheaders m);
  m32_data : m_data_subheaders m <> [] -> md_compression (m_md m) <> CompNone;
  m32_text : md_compression (m_md m) <> CompNone -> m_texts m <> []
}.

Lemma m32_step : forall e b m sh m' d off, m32 m ->
  get_page_subheader e Bit32 b off = Ok sh ->
  process_subheader e Bit32 b m sh = Ok (m', d) -> m32 m'.
Proof.
  intros e b m sh m' d off H G P. apply get_page_subheader_32 in G.
  pose proof H as [H1 H2 H3 H4 H5].
  unfold process_subheader in P. binv P.
  destruct (match_signature (ROW_SIZE_SUBHEADER Bit32) x).
  { binv P. injection P as <- _. unfold process_ROW_SIZE in E0.
    apply (proj1 (noexcept_Ok _ _ _)) in E0.
    do 8 binv E0. injection E0 as <-. apply get_uinteger_32 in E4, E5.
    split; assumption. }
  destruct (match_signature (COLUMN_SIZE_SUBHEADER Bit32) x).
  { binv P. injection P as <- _. unfold process_COLUMN_SIZE in E0.
    apply (proj1 (noexcept_Ok _ _ _)) in E0. binv E0. injection E0 as <-. split; assumption. }
  destruct (match_signature (SUBHEADER_COUNTS_SUBHEADER Bit32) x).
  { injection P as <- _. exact H. }
  destruct (match_signature (COLUMN_TEXT_SUBHEADER Bit32) x).
  { binv P. injection P as <- _. unfold process_COLUMN_TEXT in E0.
    apply (proj1 (noexcept_Ok _ _ _)) in E0. cbv zeta in E0.
    do 2 binv E0. destruct (m_texts m) as [|t0 ts] eqn:TX.
    - assert (NO : m_data_subheaders m = []).
      { destruct (m_data_subheaders m); [reflexivity|]. exfalso.
        apply H5; [apply H4; discriminate|reflexivity]. }
      assert (FIN : forall d', md_row_count d' < B32 -> md_row_length d' < B32 ->
        m32 (MState d' (m_data_subheaders m) ([] ++ [x2]) (m_names m) (m_formats m)
           (m_labels m) (m_offsets m) (m_lengths m) (m_types m))).
      { intros d' D1 D2. split; cbn [m_md m_data_subheaders m_texts app]; try assumption.
        - rewrite NO. congruence.
        - discriminate. }
      binv E0. destruct x3.
      + binv E0. injection E0 as <-. apply FIN; assumption.
      + destruct (bytes_eqb _ _).
        * binv E0. injection E0 as <-. apply FIN; assumption.
        * destruct (0 <? md_lcs (m_md m)); [binv E0|]; injection E0 as <-; apply FIN; assumption.
    - injection E0 as <-. split; cbn [m_md m_data_subheaders m_texts app]; try assumption.
      discriminate. }
  destruct (match_signature (COLUMN_NAME_SUBHEADER Bit32) x).
  { binv P. injection P as <- _. unfold process_COLUMN_NAME in E0.
    apply (proj1 (noexcept_Ok _ _ _)) in E0. binv E0. injection E0 as <-. split; assumption. }
  destruct (match_signature (COLUMN_ATTRIBUTES_SUBHEADER Bit32) x).
  { binv P. injection P as <- _. unfold process_COLUMN_ATTRIBUTES in E0.
    apply (proj1 (noexcept_Ok _ _ _)) in E0. binv E0. injection E0 as <-. split; assumption. }
  destruct (match_signature (FORMAT_AND_LABEL_SUBHEADER Bit32) x).
  { binv P. injection P as <- _. unfold process_FORMAT_AND_LABEL in E0.
    apply (proj1 (noexcept_Ok _ _ _)) in E0. do 7 binv E0. injection E0 as <-. split; assumption. }
  destruct (match_signature (COLUMN_LIST_SUBHEADER Bit32) x).
  { injection P as <- _. exact H. }
  destruct (data_subheader_check _ _) eqn:C; injection P as <- _; [|exact H].
  split; cbn [process_DATA m_md m_data_subheaders m_texts]; try assumption.
  - apply Forall_app. split; [exact H3|]. constructor; [exact G|constructor].
  - intros _ Z. rewrite Z in C. discriminate.
Qed.

Lemma m32_page : forall e b h m m' stop, m32 m ->
  process_page e Bit32 b h m = Ok (m', stop) -> m32 m'.
Proof.
  intros e b h m m' stop H E. unfold process_page in E. destruct (is_page_meta_mix_amd _).
  - binv E. destruct x as [m2 d2]. injection E as <- _.
    unfold process_page_metadata, process_page_subheaders in E0.
    apply (process_subheaders_from _ (fun a => m32 (fst a))) in E0; auto.
    intros acc sh acc' off HA HG HB. binv HB. destruct x as [m3 d3]. injection HB as <-.
    cbn. eapply m32_step; eauto.
  - injection E as <- _. exact H.
Qed.

(** The page header. *)
Definition hdr_ok (h : page_header) : Prop := ph_subheaders_count h < 65536.

Lemma read_page_hdr : forall S c (src : source S) e f plen p x p',
  read_page c src e f plen p = (x, p') -> hdr_ok (ps_hdr p').
Proof.
  intros S c src e f plen p x p' H. unfold read_page in H.
  destruct (src_eof src (ps_is p)); [injection H as _ <-; reflexivity|].
  destruct (read_stream c src (ps_buf p) (ps_is p) plen 0) as [[y s'] b'].
  destruct y as [[|]| | | |]; try (injection H as _ <-; reflexivity).
  - destruct (get_page_header e f b') as [h| | | |] eqn:G; injection H as _ <-; try reflexivity.
    unfold get_page_header in G. do 3 binv G. injection G as <-.
    apply get_uint_lt in E1. exact E1.
  - destruct (src_eof src s'); injection H as _ <-; reflexivity.
Qed.

(** The buffer holds a page once one was read. *)
Lemma resize_wf : forall c b n b', wf_mbuf b -> resize c b n = Ok b' ->
  wf_mbuf b' /\ msize b' = n.
Proof.
  intros c b n b' W R. unfold wf_mbuf in *. unfold resize in R.
  destruct (N.ltb_spec (msize b) n); [|injection R as <-; cbn [mem msize]; lia].
  binv R. binv R. injection R as <-. cbn [mem msize]. unfold alloc in E.
  destruct (n <=? max_alloc c); [|discriminate]. injection E as <-.
  assert (L : lenN x0 = n); [|lia]. destruct (negb _).
  - unfold write_cells in E0. destruct (_ <=? _) eqn:LE; [|discriminate]. injection E0 as <-.
    apply N.leb_le in LE. rewrite lenN_splice by exact LE. unfold lenN. rewrite repeat_length. lia.
  - injection E0 as <-. unfold lenN. rewrite repeat_length. lia.
Qed.

Lemma read_stream_wf : forall S c (src : source S) b s n off x s' b', wf_mbuf b ->
  read_stream c src b s n off = (x, s', b') ->
  wf_mbuf b' /\ (msize b' = off +! n \/ (b' = b /\ forall y, x <> Ok y)).
Proof.
  intros S c src b s n off x s' b' W H. unfold read_stream in H.
  destruct (resize c b (off +! n)) as [b1| | | |] eqn:R;
    try (injection H as <- _ <-; split; [exact W|right; split; [reflexivity|discriminate]]).
  apply resize_wf in R; [|exact W]. destruct R as [R1 R2]. unfold wf_mbuf in *.
  destruct (src_read src s n) as [[s1 data] ok].
  destruct (lenN data =? 0); [injection H as <- _ <-; auto|].
  unfold write_cells in H. destruct (_ <=? _) eqn:LE; injection H as <- _ <-; [|auto].
  apply N.leb_le in LE. cbn [mem msize]. rewrite lenN_splice by exact LE. auto.
Qed.

Definition room {S} (plen : N) (p : pstate S) : Prop := plen <= lenN (mem (ps_buf p)).
Definition wf_p {S} (p : pstate S) : Prop := wf_mbuf (ps_buf p).

Lemma read_page_room : forall S c (src : source S) e f plen p x p', plen < W64 -> wf_p p ->
  read_page c src e f plen p = (x, p') ->
  wf_p p' /\ (room plen p -> room plen p') /\ (x = Ok true -> room plen p')
  /\ (x = Ok true \/ ps_hdr p' = reset_page_header).
Proof.
  intros S c src e f plen p x p' N W H. unfold read_page in H. unfold room, wf_p in *.
  destruct (src_eof src (ps_is p)).
  { injection H as <- <-. cbn [ps_buf ps_hdr]. split; [exact W|]. split; [auto|].
    split; [discriminate|auto]. }
  destruct (read_stream c src (ps_buf p) (ps_is p) plen 0) as [[y s'] b'] eqn:R.
  apply read_stream_wf in R; [|exact W]. destruct R as [R1 R2].
  rewrite add64_small, N.add_0_l in R2 by lia.
  assert (K1 : plen <= lenN (mem (ps_buf p)) -> plen <= lenN (mem b')).
  { unfold wf_mbuf in *. destruct R2 as [R2|[-> _]]; lia. }
  assert (K2 : y = Ok true -> plen <= lenN (mem b')).
  { intros ->. unfold wf_mbuf in *. destruct R2 as [R2|[_ R2]]; [lia|]. destruct (R2 true eq_refl). }
  destruct y as [[|]| | | |];
    try (injection H as <- <-; cbn [ps_buf ps_hdr]; split; [exact R1|]; split; [exact K1|];
         split; [discriminate|auto]; fail).
  - specialize (K2 eq_refl).
    destruct (get_page_header e f b'); injection H as <- <-; cbn [ps_buf ps_hdr]; auto.
  - destruct (src_eof src s'); injection H as <- <-; cbn [ps_buf ps_hdr]; (split; [exact R1|]);
      (split; [exact K1|]); (split; [discriminate|auto]).
Qed.

Lemma metadata_room : forall S c (src : source S) e plen fuel p m p' m', plen < W64 -> wf_p p ->
  (m_data_subheaders m <> [] -> room plen p) ->
  metadata_loop c src e Bit32 plen fuel p m = Ok (p', m') ->
  wf_p p' /\ (m_data_subheaders m' <> [] -> room plen p')
  /\ (room plen p' \/ ps_hdr p' = reset_page_header).
Proof.
  intros S c src e plen. induction fuel as [|fuel IH]; intros p m p' m' N W H L;
    [discriminate|]. cbn [metadata_loop] in L.
  destruct (read_page c src e Bit32 plen p) as [y p1] eqn:R.
  apply read_page_room in R; [|exact N|exact W].
  destruct R as (R0 & R1 & R2 & R3).
  destruct y as [[|]| | | |]; try discriminate.
  - specialize (R2 eq_refl). binv L. destruct x as [m1 stop].
    destruct stop; [injection L as <- <-; auto|]. eapply (IH p1 m1); eauto.
  - injection L as <- <-. destruct R3 as [R3|R3]; [discriminate|]. auto.
Qed.

Lemma header_room : forall S c (src : source S) s h s2 b,
  open_header c src s = Ok (h, s2, b) -> wf_mbuf b /\ h_page_length h < W64.
Proof.
  intros S c src s h s2 b H. apply open_header_inv in H.
  destruct H as (s1 & b1 & hl & R1 & HL & R2 & HP).
  apply read_stream_wf in R1; [|apply wf_empty]. apply read_stream_wf in R2; [|apply R1].
  split; [apply R2|]. unfold W64. change (2 ^ 32) with 4294967296 in HP. lia.
Qed.

Lemma metadata_32 : forall S c (src : source S) e plen fuel p m p' m', m32 m ->
  hdr_ok (ps_hdr p) ->
  metadata_loop c src e Bit32 plen fuel p m = Ok (p', m') -> m32 m' /\ hdr_ok (ps_hdr p').
Proof.
  intros S c src e plen. induction fuel as [|fuel IH]; intros p m p' m' H HP L;
    [discriminate|]. cbn [metadata_loop] in L.
  destruct (read_page c src e Bit32 plen p) as [y p1] eqn:R. apply read_page_hdr in R.
  destruct y as [[|]| | | |]; try discriminate.
  - binv L. destruct x as [m1 stop]. apply m32_page in E; [|exact H].
    destruct stop; [injection L as <- <-; auto|]. eapply IH; eauto.
  - injection L as <- <-. auto.
Qed.

(** The current page. *)
Definition page_32 (md : metadata) (row : N) (pg : page) : Prop :=
  match pg_kind pg with
  | PRows n off len => len = md_row_length md /\ off < 2097152 /\ pg_row pg <= row
  | PMeta l => md_compression md <> CompNone /\ small_places l
  end.

Lemma build_page_32 : forall e md b h pg row, hdr_ok h ->
  build_page e Bit32 md b h = Ok (Some pg) -> page_32 md row pg.
Proof.
  intros e md b h pg row HO H. unfold build_page in H. destruct (_ =? _).
  - binv H. unfold data_subheaders_of_page, process_page_subheaders in E.
    assert (Q : small_places x /\ (x <> [] -> md_compression md <> CompNone)).
    { apply (process_subheaders_from _ (fun l => small_places l /\ (l <> [] -> md_compression md <> CompNone)))
        in E; [exact E| |split; [constructor|congruence]].
      intros acc sh acc' off [A1 A2] G HB. apply get_page_subheader_32 in G. injection HB as <-.
      destruct (data_subheader_check (md_compression md) sh) eqn:C; [|auto]. split.
      - apply Forall_app. split; [exact A1|]. constructor; [exact G|constructor].
      - intros _ Z. rewrite Z in C. discriminate. }
    destruct x; [discriminate|]. injection H as <-. destruct Q as [Q1 Q2].
    split; [apply Q2; discriminate|exact Q1].
  - destruct (_ =? _).
    + injection H as <-. unfold page_32. cbn. split; [reflexivity|]. split; [reflexivity|]. apply N.le_0_l.
    + destruct (is_page_mix _); [|discriminate]. injection H as <-. unfold page_32.
      cbn [pg_kind pg_row]. split; [reflexivity|]. split; [|apply N.le_0_l].
      unfold mix_offset. cbv zeta. unfold hdr_ok in HO. cbn [page_bit_offset integer_size].
      set (o := 16 + 8 + ph_subheaders_count h * (3 * 4)).
      pose proof (N.mod_lt o 8 ltac:(discriminate)). unfold o in *. lia.
Qed.

Lemma next_page_32 : forall S c (src : source S) e plen md row fuel p x p', plen < W64 ->
  wf_p p -> read_next_page c src e Bit32 plen md fuel p = (x, p') ->
  wf_p p' /\ forall pg, x = Ok (Some pg) -> page_32 md row pg /\ room plen p'.
Proof.
  intros S c src e plen md row. induction fuel as [|fuel IH]; intros p x p' N W H;
    [injection H as <- <-; split; [exact W|discriminate]|].
  cbn [read_next_page] in H. destruct (read_page c src e Bit32 plen p) as [y p1] eqn:R.
  pose proof (read_page_room _ _ _ _ _ _ _ _ _ N W R) as (R0 & _ & R2 & _).
  apply read_page_hdr in R. 
  destruct y as [[|]| | | |]; try (injection H as <- <-; split; [exact R0|discriminate]).
  destruct (build_page e Bit32 md (ps_buf p1) (ps_hdr p1)) as [[pg'|]| | | |] eqn:B;
    try (injection H as <- <-; split; [exact R0|discriminate]).
  - injection H as <- <-. split; [exact R0|]. intros pg Z. injection Z as <-.
    split; [eapply build_page_32; eauto|apply R2; reflexivity].
  - eapply IH; eauto.
Qed.

Record d32 {S} (plen : N) (md : metadata) (d : dstate S) : Prop := {
  d32_wf : wf_d md d;
  d32_buf : wf_p (ds_p d);
  d32_count : md_row_count md < B32;
  d32_length : md_row_length md < B32;
  d32_dec : dec_kind (md_compression md) (ds_dec d);
  d32_page : forall pg, ds_page d = Some pg -> page_32 md (ds_row d) pg /\ room plen (ds_p d)
}.

Section Inside.
Variables (S : Type) (ma : N) (k : nat) (src : source S) (h : header).
Let c := Cfg false ma k.
Hypothesis F : h_format h = Bit32.
Hypothesis PL : h_page_length h < W64.
Let plen := h_page_length h.

Definition inside (rl : N) (p : pview) : Prop := row_inside (h_page_length h) rl p.

Lemma data_next_32 : forall md (d : dstate S) x d', d32 plen md d ->
  data_next c src h md d = (x, d') -> d32 plen md d'.
Proof.
  intros md d x d' [H1 HB H2 H3 H4 H5] E. pose proof E as E'. apply data_next_props in E'.
  destruct E' as (R & D & _).
  assert (K : wf_p (ds_p d') /\ forall pg, ds_page d' = Some pg ->
              page_32 md (ds_row d') pg /\ room plen (ds_p d')).
  { unfold data_next in E. destruct (_ =? _); [injection E as <- <-; auto|].
    destruct (ds_page d) as [pg|] eqn:G; [|injection E as <- <-; rewrite G; auto].
    destruct (page_next pg); [|injection E as <- <-; rewrite G; auto].
    destruct (read_next_page c src _ _ _ md _ (ds_p d)) as [y p'] eqn:RN. rewrite F in RN.
    destruct (next_page_32 _ _ _ _ _ _ (ds_row d) _ _ _ _ PL HB RN) as [A1 A2].
    destruct y as [[pg'|]| | | |]; injection E as <- <-; cbn [ds_page ds_row ds_p];
      (split; [exact A1|]); try discriminate.
    intros pg0 Z. injection Z as <-. apply A2. reflexivity. }
  destruct K as [K1 K2]. split; try assumption.
  - unfold wf_d in *. rewrite R, D. exact H1.
  - rewrite D. exact H4.
Qed.

Lemma data_read_line_32 : forall md (d : dstate S) x d', d32 plen md d ->
  ds_row d <> md_row_count md -> data_read_line d = (x, d') ->
  d32 plen md d' /\ forall off len, x = Ok (off, len) ->
  off +! len = off + len /\ room plen (ds_p d') /\
  ((len = md_row_length md) \/ md_compression md <> CompNone).
Proof.
  intros md d x d' [H1 HB H2 H3 H4 H5] N E. destruct (row_inc _ _ _ H1 N) as [I1 I2].
  unfold data_read_line in E. destruct (ds_page d) as [pg|] eqn:G.
  - injection E as <- <-. destruct (H5 pg eq_refl) as [H6 HR]. clear H5. rename H6 into H5. split.
    + split; try assumption.
      * destruct H1 as (W1 & W2 & W3). split; [cbn [ds_row]; lia|]. split; assumption.
      * intros pg0 Z. injection Z as <-. unfold page_32 in *. cbn [page_inc pg_kind pg_row ds_row].
        split; [|exact HR]. destruct (pg_kind pg); [exact H5|]. destruct H5 as (A1 & A2 & A3).
        split; [exact A1|]. split; [exact A2|]. rewrite I1.
        rewrite add64_small by (unfold B32, W64 in *; lia). lia.
    + intros off len Z. unfold page_read_line, page_32 in *. destruct (pg_kind pg).
      * destruct H5 as [A1 A2]. destruct (nth_error data_subheaders (N.to_nat (pg_row pg))) as [pl|] eqn:NE;
          [|discriminate]. injection Z as ->. apply nth_error_In in NE.
        unfold small_places in A2. rewrite Forall_forall in A2. destruct (A2 _ NE) as [B1 B2].
        cbn [fst snd] in *. rewrite add64_small by (unfold B32, W64 in *; lia).
        split; [reflexivity|]. split; [exact HR|]. right. exact A1.
      * destruct H5 as (A1 & A2 & A3). injection Z as <- <-. subst row_length.
        assert (L1 : md_row_length md * pg_row pg <= (B32 - 1) * (B32 - 1)).
        { apply N.mul_le_mono; unfold B32 in *; lia. }
        assert (M1 : md_row_length md *! pg_row pg = md_row_length md * pg_row pg).
        { unfold mul64, u64. apply N.mod_small. unfold B32, W64 in *. lia. }
        rewrite M1. rewrite (add64_small offset) by (unfold B32, W64 in *; lia).
        rewrite add64_small by (unfold B32, W64 in *; lia).
        split; [reflexivity|]. split; [exact HR|]. left. reflexivity.
  - injection E as <- <-. split; [split; try assumption|discriminate].
    rewrite G. discriminate.
Qed.

Lemma extract_32 : forall md off len (d : dstate S) x d', d32 plen md d ->
  off +! len = off + len -> room plen (ds_p d) -> len = md_row_length md \/ md_compression md <> CompNone ->
  extract_row_values c h md off len d = (x, d') ->
  d32 plen md d' /\ forall p, x = Ok p -> inside (md_row_length md) p.
Proof.
  intros md off len d x d' [H1 HB H2 H3 H4 H5] A HR L E. pose proof E as E'.
  apply extract_props in E'; [|apply H1]. destruct E' as (R & DP & DG & O & X).
  assert (KD : dec_kind (md_compression md) (ds_dec d') /\ forall p, x = Ok p -> inside (md_row_length md) p).
  { unfold extract_row_values in E. rewrite A in E. unfold fmt_assert in E. cbn [c ndebug] in E.
    destruct (N.leb_spec (off + len) (h_page_length h)) as [LE|LE];
      [|injection E as <- <-; split; [exact H4|discriminate]].
    destruct (N.ltb_spec len (md_row_length md)) as [LT|LT].
    2:{ injection E as <- <-. split; [exact H4|]. intros p Z. injection Z as <-. left.
        cbn [pv_off pv_mem]. unfold room, plen in HR. lia. }
    destruct (ds_dec d) as [|z|z] eqn:DD.
    - exfalso. destruct L as [L|L]; [lia|]. destruct (md_compression md); contradiction.
    - destruct (read_cells _ off len) as [v| | | |];
        try (injection E as <- <-; rewrite DD; split; [exact H4|discriminate]).
      destruct H1 as (_ & _ & DO). rewrite DD in DO. cbn [dec_ok] in DO. destruct DO as [O1 O2].
      pose proof (rdc_buffer _ v z O1 O2) as RB.
      destruct (rdc v z) as [r z']. injection E as <- <-. cbn [ds_dec].
      split; [destruct (md_compression md); exact H4|]. intros p Z.
      destruct r as [v'| | | |]; try discriminate. injection Z as <-. right.
      cbn [pv_off pv_mem snd] in *. split; [reflexivity|]. apply RB.
    - destruct (read_cells _ off len) as [v| | | |];
        try (injection E as <- <-; rewrite DD; split; [exact H4|discriminate]).
      destruct H1 as (_ & _ & DO). rewrite DD in DO. cbn [dec_ok] in DO. destruct DO as [O1 O2].
      pose proof (rle_buffer _ v z O1 O2) as RB.
      destruct (rle v z) as [r z']. injection E as <- <-. cbn [ds_dec].
      split; [destruct (md_compression md); exact H4|]. intros p Z.
      destruct r as [v'| | | |]; try discriminate. injection Z as <-. right.
      cbn [pv_off pv_mem snd] in *. split; [reflexivity|]. apply RB. }
  destruct KD as [KD IN]. split; [|exact IN]. split; try assumption.
  - destruct H1 as (W1 & W2 & _). split; [rewrite R; exact W1|]. split; [exact W2|exact O].
  - rewrite DP. exact HB.
  - rewrite DG, R, DP. exact H5.
Qed.

Lemma read_line_32 : forall md (d : dstate S) x d', d32 plen md d ->
  read_line c src h md d = (x, d') ->
  d32 plen md d' /\ forall p, x = Ok (Some p) -> inside (md_row_length md) p.
Proof.
  intros md d x d' H E. unfold read_line in E.
  destruct (data_next c src h md d) as [y d1] eqn:N.
  pose proof (data_next_32 md d y d1 H N) as H1.
  apply data_next_props in N. destruct N as (N1 & _ & N3).
  destruct y as [[|]| | | |]; try (injection E as <- <-; split; [exact H1|discriminate]).
  rewrite <- N1 in N3. destruct (data_read_line d1) as [z d2] eqn:R.
  destruct (data_read_line_32 md d1 z d2 H1 N3 R) as [H2 Q].
  destruct z as [[off len]| | | |]; try (injection E as <- <-; split; [exact H2|discriminate]).
  destruct (Q off len eq_refl) as (Q1 & Q2 & Q3).
  destruct (extract_row_values c h md off len d2) as [w d3] eqn:X.
  destruct (extract_32 md off len d2 w d3 H2 Q1 Q2 Q3 X) as [H3 IN].
  injection E as <- <-. split; [exact H3|]. intros p Z.
  destruct w; try discriminate. injection Z as ->. apply IN. reflexivity.
Qed.

Lemma skip_32 : forall md n (d : dstate S) x d', d32 plen md d ->
  data_skip c src h md n d = (x, d') -> d32 plen md d'.
Proof.
  intros md. induction n as [|n IH]; intros d x d' H E; cbn [data_skip] in E.
  - injection E as <- <-. exact H.
  - destruct (data_next c src h md d) as [y d1] eqn:N.
    pose proof (data_next_32 md d y d1 H N) as H1.
    apply data_next_props in N. destruct N as (N1 & _ & N3).
    destruct y as [[|]| | | |]; try (injection E as <- <-; exact H1).
    rewrite <- N1 in N3. destruct (data_read_line d1) as [z d2] eqn:R.
    destruct (data_read_line_32 md d1 z d2 H1 N3 R) as [H2 _].
    destruct z as [pl| | | |]; try (injection E as <- <-; exact H2).
    apply (IH d2 x d' H2 E).
Qed.

Definition r32 (r : rstate S) : Prop := rs_h r = h /\ d32 plen (rs_md r) (rs_d r).

Definition event_inside (rl : N) (e : event) : Prop :=
  match e with EvRow _ p => inside rl p | _ => True end.

Definition out_inside (rl : N) (x : res out) : Prop :=
  match x with Ok (OPtr (Some p)) => inside rl p | _ => True end.

Lemma read_row_32 : forall r x r' ev, r32 r -> read_row c src r = (x, r', ev) ->
  r32 r' /\ rs_md r' = rs_md r /\ Forall (event_inside (md_row_length (rs_md r))) ev.
Proof.
  intros r x r' ev [HH H] E. unfold read_row in E. rewrite HH in E.
  destruct (read_line c src h (rs_md r) (rs_d r)) as [y d1] eqn:L.
  destruct (read_line_32 _ _ _ _ H L) as [H1 IN].
  assert (K : r32 (RState h (rs_md r) d1)) by (split; [reflexivity|exact H1]).
  destruct y as [[p|]| | | |]; injection E as <- <- <-; (split; [exact K|]); (split; [reflexivity|]);
    try apply Forall_nil; try exact (Forall_cons EvEnd I (Forall_nil _)).
  apply Forall_cons; [|apply Forall_nil]. cbn [event_inside]. apply IN. reflexivity.
Qed.

Lemma read_rows_32 : forall n r x r' ev, r32 r -> read_rows c src n r = (x, r', ev) ->
  r32 r' /\ rs_md r' = rs_md r /\ Forall (event_inside (md_row_length (rs_md r))) ev.
Proof.
  induction n as [|n IH]; intros r x r' ev H E; cbn [read_rows] in E.
  - injection E as <- <- <-. split; [exact H|]. split; [reflexivity|constructor].
  - destruct (read_row c src r) as [[y r1] ev1] eqn:R.
    destruct (read_row_32 _ _ _ _ H R) as (A1 & A2 & A3).
    destruct y as [[|]| | | |]; try (injection E as <- <- <-; auto; fail).
    destruct (read_rows c src n r1) as [[z r2] ev2] eqn:RR. injection E as <- <- <-.
    destruct (IH r1 z r2 ev2 A1 RR) as (B1 & B2 & B3). split; [exact B1|].
    split; [congruence|]. apply Forall_app. split; [exact A3|]. rewrite <- A2. exact B3.
Qed.

Lemma step_32 : forall o r x r' ev, r32 r -> step c src o r = (x, r', ev) ->
  r32 r' /\ rs_md r' = rs_md r /\ Forall (event_inside (md_row_length (rs_md r))) ev
  /\ out_inside (md_row_length (rs_md r)) x.
Proof.
  intros o r x r' ev H E. destruct o; cbn [step] in E.
  - destruct (read_row c src r) as [[y r1] ev1] eqn:R. injection E as <- <- <-.
    destruct (read_row_32 _ _ _ _ H R) as (A1 & A2 & A3). repeat (split; [assumption|]).
    destruct y; exact I.
  - destruct (read_rows c src _ r) as [[y r1] ev1] eqn:R. injection E as <- <- <-.
    destruct (read_rows_32 _ _ _ _ _ H R) as (A1 & A2 & A3). repeat (split; [assumption|]).
    destruct y; exact I.
  - rewrite (read_all_rows _ _ _ r (Datatypes.S (N.to_nat (left_rows r)))) in E
      by (first [apply H|lia]).
    destruct (read_rows c src _ r) as [[y r1] ev1] eqn:R. injection E as <- <- <-.
    destruct (read_rows_32 _ _ _ _ _ H R) as (A1 & A2 & A3). repeat (split; [assumption|]).
    destruct y as [[|]| | | |]; exact I.
  - unfold skip in E. destruct H as [HH H]. rewrite HH in E.
    destruct (data_skip c src h (rs_md r) _ (rs_d r)) as [y d1] eqn:R. injection E as <- <- <-.
    split; [split; [reflexivity|]; eapply skip_32; eassumption|]. split; [reflexivity|].
    split; [|destruct y; exact I].
    destruct y as [[|]| | | |]; repeat constructor.
  - unfold read_row_no_sink in E. destruct H as [HH H]. rewrite HH in E.
    destruct (read_line c src h (rs_md r) (rs_d r)) as [y d1] eqn:R. injection E as <- <- <-.
    destruct (read_line_32 _ _ _ _ H R) as [H1 IN].
    split; [split; [reflexivity|exact H1]|]. split; [reflexivity|]. split; [constructor|].
    destruct y as [[p|]| | | |]; try exact I. cbn. apply IN. reflexivity.
  - injection E as <- <- <-. split; [exact H|]. split; [reflexivity|]. split; [|exact I].
    repeat constructor.
Qed.

Lemma trace_32 : forall ops r, r32 r ->
  Forall (fun t => Forall (event_inside (md_row_length (rs_md r))) (snd t)
                   /\ out_inside (md_row_length (rs_md r)) (snd (fst t)))
    (fst (trace c src ops (Some r))).
Proof.
  induction ops as [|o ops IH]; intros r H; cbn [trace]; [apply Forall_nil|].
  cbn [reader_step]. destruct (step c src o r) as [[x r1] ev] eqn:E.
  destruct (step_32 _ _ _ _ _ H E) as (A1 & A2 & A3 & A4). specialize (IH r1 A1). rewrite A2 in IH.
  destruct (trace c src ops (Some r1)) as [t r2]. cbn [fst] in IH.
  destruct x; cbn [fst]; apply Forall_cons; cbn [fst snd]; auto.
Qed.

End Inside.

Lemma opened_32 : forall S c (src : source S) flt s r, max_alloc c < row_limit ->
  opened c src flt s r -> h_format (rs_h r) = Bit32 ->
  r32 S (rs_h r) r /\ h_page_length (rs_h r) < W64.
Proof.
  intros S c src flt s r M O F.
  destruct (opened_wf _ _ _ _ _ _ M O) as [W Z]. destruct O as [ev O]. apply open_reader_inv in O.
  destruct O as (s1 & b1 & p & m & H1 & H2 & H3 & H4 & _). rewrite F in H2.
  apply header_room in H1. destruct H1 as [WB PL]. split; [|exact PL]. split; [reflexivity|].
  pose proof H2 as H5. apply metadata_room in H5; [|exact PL|exact WB|cbn; congruence].
  destruct H5 as (P1 & P2 & P3).
  apply metadata_32 in H2; [|split; [reflexivity|reflexivity|apply Forall_nil|cbn; congruence|cbn; congruence]|reflexivity].
  destruct H2 as [[A1 A2 A3 A4 A5] HO].
  apply create_columns_md in H3. destruct H3 as (cols & MD & _).
  assert (E1 : md_row_count (rs_md r) = md_row_count (m_md m)) by (rewrite MD; reflexivity).
  assert (E2 : md_row_length (rs_md r) = md_row_length (m_md m)) by (rewrite MD; reflexivity).
  assert (E3 : md_compression (rs_md r) = md_compression (m_md m)) by (rewrite MD; reflexivity).
  clear MD. unfold read_data in H4. rewrite F in H4. binv H4.
  assert (K : dec_kind (md_compression (rs_md r)) x).
  { unfold make_decompressor in E. destruct (md_compression (rs_md r)).
    - injection E as <-. exact I.
    - binv E. injection E as <-. exact I.
    - binv E. injection E as <-. exact I. }
  split; try congruence.
  - exact W.
  - destruct (m_data_subheaders m); [binv H4|]; injection H4 as <-; exact P1.
  - destruct (m_data_subheaders m); [binv H4|]; injection H4 as <-; exact K.
  - destruct (m_data_subheaders m) as [|q l] eqn:DS.
    + binv H4. injection H4 as <-. cbn [ds_page ds_row ds_p]. intros pg ->.
      split; [eapply build_page_32; eassumption|]. destruct P3 as [P3|P3]; [exact P3|].
      rewrite P3 in E0. discriminate E0.
    + injection H4 as <-. cbn [ds_page ds_row ds_p]. intros pg Y. injection Y as <-.
      split; [|apply P2; discriminate]. unfold page_32.
      cbn [pg_kind]. rewrite E3. split; [apply A4; discriminate|exact A3].
Qed.

Lemma debug_rows_inside : forall S ma k (src : source S) flt s r ops, ma < row_limit ->
  opened (Cfg false ma k) src flt s r -> h_format (rs_h r) = Bit32 ->
  Forall (row_inside (h_page_length (rs_h r)) (md_row_length (rs_md r)))
    (delivered (fst (trace (Cfg false ma k) src ops (Some r)))).
Proof.
  intros S ma k src flt s r ops M O F.
  destruct (opened_32 S (Cfg false ma k) _ _ _ _ M O F) as [R PL].
  pose proof (trace_32 S ma k src (rs_h r) F PL ops r R) as T. clear -T.
  induction (fst (trace (Cfg false ma k) src ops (Some r))) as [|[[o x] ev] t IH];
    [apply Forall_nil|].
  pose proof (Forall_inv T) as [T1 T2]. apply Forall_inv_tail in T. cbn [fst snd] in T1, T2.
  cbn [delivered flat_map fst snd]. apply Forall_app. split; [|exact (IH T)].
  apply Forall_app. split.
  - destruct x as [[| |[p|]]| | | |]; try apply Forall_nil. apply Forall_cons; [exact T2|apply Forall_nil].
  - clear -T1. induction ev as [|v ev IH]; [apply Forall_nil|].
    pose proof (Forall_inv T1) as T2. apply Forall_inv_tail in T1. specialize (IH T1).
    destruct v; cbn; try exact IH. apply Forall_cons; [exact T2|exact IH].
Qed.
