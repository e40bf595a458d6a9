(** Proofs about signatures, subheader pointers, text references and the choice of
    the compression; the files used as counterexamples. *)
From Verif Require Import Base Types Lemmas Buffer Page Header Column Metadata Decomp Data
  Reader SpecValues SpecBuffer SpecHeader SpecDecomp SpecReader SpecFile Samples SpecPages
  SpecMeta ProofValues ProofBuffer ProofHeader ProofDecomp ProofMetaInv ProofReader ProofPages
  ProofOpen ProofRows ProofMeta.
Local Open Scope N_scope.

(** ** C13 *)

Lemma kinds_disjoint : forall f k1 k2 sig, lenN sig = word f ->
  is_kind f k1 sig = true -> is_kind f k2 sig = true -> k1 = k2.
Proof.
  intros f k1 k2 sig L H1 H2. rewrite <- match_kind in H1, H2 by exact L.
  unfold match_signature in *. apply existsb_exists in H1, H2.
  destruct H1 as (s1 & I1 & E1). destruct H2 as (s2 & I2 & E2).
  apply bytes_eqb_true in E1, E2. subst s2. subst s1.
  destruct f, k1, k2; try reflexivity; exfalso; cbn in I1, I2;
    repeat match goal with
    | H : _ \/ _ |- _ => destruct H
    | H : False |- _ => destruct H
    | H : ?a = sig |- _ => rewrite <- H in *; clear H
    | H : _ = _ |- _ => discriminate H
    end.
Qed.

Lemma dispatched : forall e f b m sh sig,
  get_raw AssertNo b (sh_offset sh) (integer_size f) = Ok sig ->
  process_subheader e f b m sh =
  match kind_of f sig with
  | Some KRowSize => m' <- process_ROW_SIZE e f b sh m ;; Ok (m', false)
  | Some KColumnSize => m' <- process_COLUMN_SIZE e f b sh m ;; Ok (m', false)
  | Some KText => m' <- process_COLUMN_TEXT e f b sh m ;; Ok (m', false)
  | Some KNames => m' <- process_COLUMN_NAME e f b sh m ;; Ok (m', false)
  | Some KAttributes => m' <- process_COLUMN_ATTRIBUTES e f b sh m ;; Ok (m', false)
  | Some KFormatLabel => m' <- process_FORMAT_AND_LABEL e f b sh m ;; Ok (m', false)
  | Some KCounts | Some KList => Ok (m, false)
  | None => Ok (if data_subheader_check (md_compression (m_md m)) sh
                then (process_DATA sh m, true) else (m, false))
  end.
Proof.
  intros e f b m sh sig H. rewrite (process_subheader_kind e f b m sh sig H).
  destruct (kind_of f sig) as [[]|]; reflexivity.
Qed.

Lemma kind_of_spec : forall f sig k, lenN sig = word f ->
  (kind_of f sig = Some k <-> is_kind f k sig = true).
Proof.
  intros f sig k L. unfold kind_of. split; intros H.
  - apply find_some in H. apply H.
  - destruct (find (fun k => is_kind f k sig) kinds) as [k'|] eqn:E.
    + apply find_some in E. destruct E as [_ E]. f_equal. eapply kinds_disjoint; eassumption.
    + exfalso. assert (I : In k kinds) by (destruct k; cbn; tauto).
      pose proof (find_none _ _ E k I) as X. cbv beta in X. congruence.
Qed.

(** ** C14 *)

Lemma entry_inside : forall ly b pg i sh, holds b pg -> ly_format ly = Bit32 -> lenN pg < W64 ->
  i < 2 ^ 32 ->
  get_page_subheader (ly_endian ly) (ly_format ly) b (subheader_pos (ly_format ly) i) = Ok sh ->
  se_pos (nth_entry ly pg i) + se_len (nth_entry ly pg i) <= lenN pg.
Proof.
  intros ly b pg i sh H F B LI G. pose proof H as (W & M & V).
  assert (G' := G). apply (entry_read ly b pg i sh H) in G'.
  2:{ rewrite F. unfold W64. cbn [prefix word]. lia. }
  destruct G' as [S _]. unfold get_page_subheader in G. binv G. binv G. binv G. binv G. binv G.
  binv G. injection G as G. rewrite S in G.
  pose proof (f_equal sh_offset G) as G1. pose proof (f_equal sh_length G) as G2.
  cbn [sh_offset sh_length to_sub] in G1, G2. destruct x4.
  rewrite <- G1, <- G2. clear E S. apply (proj1 (noexcept_Ok _ _ _)) in E4.
  destruct (check b x0 x1) eqn:C in E4; [|discriminate].
  rewrite F in E0, E1.
  unfold get_uinteger in E0, E1. apply get_uint_lt in E0, E1. cbn in E0, E1.
  apply check_exact in C; [lia|unfold W64; lia].
Qed.

Lemma entries_inside : forall ly b pg T (body : T -> page_subheader -> res T) n i acc r,
  holds b pg -> ly_format ly = Bit32 -> lenN pg < W64 -> i + N.of_nat n < 2 ^ 32 ->
  process_subheaders (ly_endian ly) (ly_format ly) b body n i acc = Ok r ->
  Forall (fun s => se_pos s + se_len s <= lenN pg) (map (nth_entry ly pg) (from i n)).
Proof.
  intros ly b pg T body n. induction n as [|n IH]; intros i acc r H F B L P; [constructor|].
  cbn [process_subheaders] in P. binv P. binv P. cbn [from map]. constructor.
  - eapply entry_inside; try eassumption. lia.
  - eapply IH; try eassumption. lia.
Qed.

Lemma page_pointers : forall ly b pg m m' stop, holds b pg -> ly_format ly = Bit32 ->
  lenN pg < W64 -> has_subheaders (page_type ly pg) = true ->
  process_page (ly_endian ly) (ly_format ly) b (header_of ly pg) m = Ok (m', stop) ->
  Forall (fun s => se_pos s + se_len s <= lenN pg) (entries ly pg).
Proof.
  intros ly b pg m m' stop H F B HS P. unfold process_page, header_of in P. cbn [ph_type] in P.
  assert (E : is_page_meta_mix_amd (page_type ly pg) = has_subheaders (page_type ly pg)).
  { unfold is_page_meta_mix_amd, has_subheaders, PAGE_META_TYPE, PAGE_AMD_TYPE.
    change (is_page_mix (page_type ly pg)) with (is_mix (page_type ly pg)).
    destruct (_ =? 0), (_ =? 1024), (is_mix _); reflexivity. }
  rewrite E, HS in P. binv P. unfold process_page_metadata, process_page_subheaders in E0.
  cbn [ph_subheaders_count] in E0. unfold entries, count_to.
  eapply entries_inside; try eassumption.
  pose proof (page_number_lt ly 2 pg). unfold page_subs. lia.
Qed.

(** A page with one subheader, at [pos] and of length [len]. *)
Definition pointer_page (e : endian) (f : format) (plen pos len : N) : bytes :=
  let p := zeros (page_prefix f) ++ put16 e type_meta ++ put16 e 0 ++ put16 e 1 ++ put16 e 0
           ++ put_word e f pos ++ put_word e f len ++ zeros (word_size f) in
  p ++ zeros (plen - lenN p).

Definition pointer_file (f : format) (pos len : N) : bytes :=
  header_bytes Big f false 320 800 1 (bs "POINTER") ++ pointer_page Big f 800 pos len.

(** ** C16, C17 *)

Lemma trimmed_part : forall l r, trimmed_text l r ->
  exists a t, l = a ++ r ++ t
    /\ forall b r', (r = b :: r' -> ~ white b) /\ (r = r' ++ [b] -> printable b /\ ~ white b).
Proof.
  intros l r (a & t & E & _ & _ & S). exists a, t. split; [exact E|].
  intros b r'. destruct S as [-> | [(b1 & r1 & E1 & N1) (r2 & b2 & E2 & P2 & N2)]].
  - split; [discriminate|]. intros X. symmetry in X. apply app_eq_nil in X. destruct X; discriminate.
  - split; intros X.
    + rewrite X in E1. injection E1 as -> _. exact N1.
    + rewrite X in E2. apply app_inj_tail in E2. destruct E2 as [_ ->]. auto.
Qed.

Lemma text_part : forall texts i off len,
  let r := get_column_text_substr texts i off len in
  match nth_error texts (N.to_nat i) with
  | None => r = []
  | Some t => exists a z, t = a ++ r ++ z
      /\ (r <> [] -> off <= lenN a /\ lenN a + lenN r <= off + len)
      /\ forall b r', (r = b :: r' -> ~ white b) /\ (r = r' ++ [b] -> printable b /\ ~ white b)
  end.
Proof.
  intros texts i off len r. unfold r. rewrite text_of_eq. unfold text_of.
  destruct (nth_error texts (N.to_nat i)) as [t|]; [|reflexivity].
  assert (NIL : exists a z, t = a ++ [] ++ z
      /\ (@nil byte <> [] -> off <= lenN a /\ lenN a + lenN (@nil byte) <= off + len)
      /\ forall (b : byte) r', ([] = b :: r' -> ~ white b) /\ ([] = r' ++ [b] -> printable b /\ ~ white b)).
  { exists t, []. split; [rewrite app_nil_r; reflexivity|]. split; [congruence|].
    intros b r'. split; [discriminate|]. destruct r'; discriminate. }
  destruct (field t off len) as [|b l] eqn:F; [exact NIL|].
  destruct (printb b); [|exact NIL].
  destruct (trimmed_part _ _ (stripped_trimmed (b :: l))) as (a & z & E & P).
  set (q := stripped (b :: l)) in *.
  assert (LF : lenN (b :: l) <= len /\ off <= lenN t).
  { rewrite <- F. unfold field. rewrite lenN_firstn, lenN_skipn. split; [lia|].
    destruct (N.le_gt_cases off (lenN t)); [assumption|]. exfalso.
    unfold field in F. rewrite skipn_all2 in F by (unfold lenN in *; lia).
    rewrite firstn_nil in F. discriminate. }
  assert (T : t = firstn (N.to_nat off) t ++ (b :: l) ++ skipn (N.to_nat len) (skipn (N.to_nat off) t)).
  { rewrite <- F. unfold field. rewrite firstn_skipn, firstn_skipn. reflexivity. }
  exists (firstn (N.to_nat off) t ++ a), (z ++ skipn (N.to_nat len) (skipn (N.to_nat off) t)).
  split; [rewrite T at 1; rewrite E, <- !app_assoc; reflexivity|].
  split; [|exact P]. intros _. rewrite E in LF. rewrite !lenN_app in *. rewrite lenN_firstn. lia.
Qed.

Lemma text_in_full : forall texts i off len t, nth_error texts (N.to_nat i) = Some t ->
  off + len <= lenN t ->
  (exists b l, field t off len = b :: l /\ printable b /\ ~ white b) ->
  (exists l b, field t off len = l ++ [b] /\ printable b /\ ~ white b) ->
  get_column_text_substr texts i off len = field t off len.
Proof.
  intros texts i off len t E L (b & l & F & P & W) (l2 & b2 & F2 & P2 & W2).
  rewrite text_of_eq. unfold text_of. rewrite E, F.
  assert (PB : printb b = true).
  { rewrite <- printb_eq. apply isprint_printable. exact P. }
  rewrite PB. apply (trimmed_text_unique (b :: l)); [apply stripped_trimmed|].
  exists [], []. split; [rewrite app_nil_r; reflexivity|]. split; [constructor|].
  split; [constructor|]. right. split; [eauto|]. exists l2, b2.
  split; [congruence|auto].
Qed.

(** ** C23 *)

Definition comp_of (texts : list bytes) : compression :=
  match texts with [] => CompNone | t :: _ => told CompNone t end.

Lemma comp_step : forall e f b m sh m' d, md_compression (m_md m) = comp_of (m_texts m) ->
  process_subheader e f b m sh = Ok (m', d) -> md_compression (m_md m') = comp_of (m_texts m').
Proof.
  intros e f b m sh m' d H P.
  assert (G : exists sig, get_raw AssertNo b (sh_offset sh) (integer_size f) = Ok sig).
  { unfold process_subheader in P. binv P. eauto. }
  destruct G as [sig G]. rewrite (process_subheader_kind _ _ _ _ _ _ G) in P.
  destruct (kind_of f sig) as [k|].
  - binv P. injection P as -> _. destruct k; cbn [handler] in E.
    + apply handler_effect with (k := KRowSize) in E. destruct E as (_ & _ & E1 & _ & E2).
      rewrite E1, E2 by (try right; discriminate). exact H.
    + apply handler_effect with (k := KColumnSize) in E. destruct E as (_ & _ & E1 & _ & E2).
      rewrite E1, E2 by (try right; discriminate). exact H.
    + injection E as <-. exact H.
    + unfold process_COLUMN_TEXT in E. apply (proj1 (noexcept_Ok _ _ _)) in E. cbv zeta in E.
      binv E. binv E. destruct (m_texts m) as [|t ts] eqn:T.
      * binv E. cbn [comp_of] in H.
        destruct x1 as [|y1 y].
        -- binv E. injection E as <-. cbn. unfold told, text_compression.
           rewrite !contains_occurs, H. reflexivity.
        -- destruct (bytes_eqb (y1 :: y) RLE_COMPRESSION).
           ++ binv E. injection E as <-. cbn. unfold told, text_compression.
              rewrite !contains_occurs, H. reflexivity.
           ++ destruct (0 <? md_lcs (m_md m)).
              ** binv E. injection E as <-. cbn. unfold told, text_compression.
                 rewrite !contains_occurs, H. reflexivity.
              ** injection E as <-. cbn. unfold told, text_compression.
                 rewrite !contains_occurs, H. reflexivity.
      * injection E as <-. exact H.
    + apply handler_effect with (k := KNames) in E. destruct E as (_ & _ & E1 & _ & E2).
      rewrite E1, E2 by (try right; discriminate). exact H.
    + apply handler_effect with (k := KAttributes) in E. destruct E as (_ & _ & E1 & _ & E2).
      rewrite E1, E2 by (try right; discriminate). exact H.
    + apply handler_effect with (k := KFormatLabel) in E. destruct E as (_ & _ & E1 & _ & E2).
      rewrite E1, E2 by (try right; discriminate). exact H.
    + injection E as <-. exact H.
  - destruct (data_subheader_check _ _); injection P as <- _; exact H.
Qed.

Lemma compression_told : forall S c (src : source S) flt s r ev,
  open_reader c src flt s = Ok (r, ev) ->
  exists s1 b1 p m, open_header c src s = Ok (rs_h r, s1, b1)
    /\ metadata_loop c src (h_endianness (rs_h r)) (h_format (rs_h r)) (h_page_length (rs_h r))
         (page_fuel c) (PState s1 b1 reset_page_header) empty_mstate = Ok (p, m)
    /\ match m_texts m with
       | [] => md_compression (rs_md r) = CompNone
       | t :: _ =>
           (md_compression (rs_md r) = CompRLE <-> exists a z, t = a ++ bs "SASYZCRL" ++ z)
           /\ (md_compression (rs_md r) = CompRDC <->
               ~ (exists a z, t = a ++ bs "SASYZCRL" ++ z) /\ exists a z, t = a ++ bs "SASYZCR2" ++ z)
       end.
Proof.
  intros S c src flt s r ev H. apply open_reader_inv in H.
  destruct H as (s1 & b1 & p & m & HH & HM & HC & _ & _).
  exists s1, b1, p, m. split; [exact HH|]. split; [exact HM|].
  apply create_columns_md in HC. destruct HC as [cols [HC _]].
  assert (E : md_compression (rs_md r) = comp_of (m_texts m)).
  { rewrite HC. cbn [md_compression].
    apply (metadata_loop_inv _ (fun m => md_compression (m_md m) = comp_of (m_texts m))) in HM;
      [exact HM| |reflexivity]. intros b m0 sh m' d P1 P2. eapply comp_step; eassumption. }
  rewrite E. destruct (m_texts m) as [|t ts]; [reflexivity|]. cbn [comp_of]. unfold told.
  rewrite <- !occurs_spec. change (bs "SASYZCRL") with rle_name. change (bs "SASYZCR2") with rdc_name.
  destruct (occurs rle_name t), (occurs rdc_name t); split; split; intuition congruence.
Qed.
