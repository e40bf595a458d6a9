(** Proofs about the subheaders of the metadata pages. *)
From Verif Require Import Base Types Lemmas Buffer Page Header Column Metadata Decomp Data
  Reader SpecValues SpecBuffer SpecHeader SpecDecomp SpecReader SpecPages SpecMeta ProofValues
  ProofBuffer ProofHeader ProofDecomp ProofMetaInv ProofReader ProofPages ProofOpen.
Local Open Scope N_scope.

(** ** Texts *)

Lemma whiteb_eq : forall b, isspace b = whiteb b.
Proof. intros b. unfold isspace, whiteb, b2n. reflexivity. Qed.
Lemma printb_eq : forall b, isprint b = printb b.
Proof. intros b. unfold isprint, printb, b2n. reflexivity. Qed.

Lemma skip_while_eq : forall p q l, (forall b, p b = q b) -> drop_while p l = skip_while q l.
Proof.
  intros p q l H. induction l as [|b l IH]; [reflexivity|]. cbn. rewrite H.
  destruct (q b); [exact IH|reflexivity].
Qed.

Lemma stripped_eq : forall l,
  drop_while_end (fun c => negb (isprint c) || isspace c) (drop_while isspace l) = stripped l.
Proof.
  intros l. unfold stripped, drop_while_end.
  rewrite (skip_while_eq isspace whiteb) by apply whiteb_eq.
  rewrite (skip_while_eq _ (fun b => negb (printb b) || whiteb b)); [reflexivity|].
  intros b. rewrite whiteb_eq, printb_eq. reflexivity.
Qed.

Lemma trim_stripped : forall l, get_string_trim l = stripped l.
Proof.
  intros l. rewrite <- stripped_eq. unfold get_string_trim. reflexivity.
Qed.

Lemma field_clip : forall (l : bytes) off len,
  slice (N.min off (lenN l)) (N.min len (lenN l - N.min off (lenN l))) l = field l off len.
Proof.
  intros l off len. rewrite field_slice. unfold slice.
  destruct (N.le_gt_cases off (lenN l)) as [L|L].
  - rewrite (N.min_l off) by exact L.
    destruct (N.le_gt_cases len (lenN l - off)) as [K|K].
    + rewrite (N.min_l len) by exact K. reflexivity.
    + rewrite (N.min_r len) by lia. rewrite !firstn_all2; [reflexivity| |];
        rewrite skipn_length; unfold lenN in *; lia.
  - rewrite (N.min_r off) by lia. rewrite !skipn_all2 by (unfold lenN in *; lia).
    rewrite !firstn_nil. reflexivity.
Qed.

Lemma text_of_eq : forall texts i off len,
  get_column_text_substr texts i off len = text_of texts (i, off, len).
Proof.
  intros texts i off len. unfold get_column_text_substr, text_of.
  destruct (nth_error texts (N.to_nat i)) as [t|]; [|reflexivity]. cbv zeta.
  rewrite field_clip. destruct (field t off len) as [|b l]; [reflexivity|].
  rewrite printb_eq. destruct (printb b); [apply stripped_eq|reflexivity].
Qed.

Lemma stripped_trimmed : forall l, trimmed_text l (stripped l).
Proof. intros l. rewrite <- trim_stripped. apply get_string_trim_spec. Qed.

Lemma contains_occurs : forall needle l, contains needle l = occurs needle l.
Proof.
  assert (P : forall n l, is_prefix n l = bytes_eqb (firstn (length n) l) n).
  { induction n as [|x n IH]; intros l; [reflexivity|]. destruct l as [|y l]; [reflexivity|].
    cbn. rewrite IH. destruct (beq x y) eqn:E.
    - apply beq_true in E. subst. rewrite beq_refl. reflexivity.
    - apply beq_false in E. destruct (beq y x) eqn:E'; [|reflexivity].
      apply beq_true in E'. congruence. }
  intros needle l. induction l as [|y l IH]; cbn [contains occurs]; rewrite P;
    [|rewrite IH]; reflexivity.
Qed.

Lemma occurs_spec : forall needle l,
  occurs needle l = true <-> exists a b, l = a ++ needle ++ b.
Proof.
  intros needle l. induction l as [|y l IH]; cbn [occurs].
  - rewrite orb_false_r, firstn_nil. rewrite bytes_eqb_true. split.
    + intros <-. exists [], []. reflexivity.
    + intros (a & b & E). symmetry in E. apply app_eq_nil in E. destruct E as [_ E].
      apply app_eq_nil in E. destruct E as [-> _]. reflexivity.
  - rewrite orb_true_iff, IH, bytes_eqb_true. split.
    + intros [E|(a & b & ->)].
      * exists [], (skipn (length needle) (y :: l)). cbn [app].
        rewrite <- E at 1. symmetry. apply firstn_skipn.
      * exists (y :: a), b. reflexivity.
    + intros (a & b & E). destruct a as [|z a].
      * left. cbn [app] in E. rewrite E. rewrite firstn_app, Nat.sub_diag, firstn_all, app_nil_r.
        reflexivity.
      * right. injection E as -> E. eauto.
Qed.

(** ** Lists of references and attributes *)

Lemma from_map : forall n i, from (i + 1) n = map N.succ (from i n).
Proof.
  induction n as [|n IH]; intros i; [reflexivity|]. cbn [from map]. rewrite IH, N.add_1_r.
  reflexivity.
Qed.

Lemma names_loop_list : forall ly b pg texts n fuel off off_max acc,
  holds b pg -> lenN pg < W64 -> off_max + 8 <= lenN pg ->
  (n <= fuel)%nat ->
  (forall k, k < N.of_nat n -> off + k * 8 <= off_max) -> off_max < off + N.of_nat n * 8 ->
  names_loop (ly_endian ly) b texts fuel off off_max acc
  = Ok (acc ++ map (fun k => text_of texts (ref_at ly pg (off + k * 8))) (count_to (N.of_nat n))).
Proof.
  intros ly b pg texts n. induction n as [|n IH]; intros fuel off off_max acc H B M F K1 K2.
  - destruct fuel; cbn [names_loop]; destruct (N.leb_spec off off_max);
      try (exfalso; lia); cbn; rewrite app_nil_r; reflexivity.
  - destruct fuel as [|fuel]; [lia|]. cbn [names_loop].
    pose proof (K1 0 ltac:(lia)) as K0.
    destruct (N.leb_spec off off_max); [|exfalso; lia].
    unfold W64 in B. rewrite !add64_small by (unfold W64; lia). unfold get_uint16.
    rewrite !(holds_uint _ b pg) by (try exact H; lia). cbn [bind].
    rewrite (IH fuel (off + 8)); try assumption; try lia.
    2:{ intros k Hk. specialize (K1 (k + 1) ltac:(lia)). lia. }
    unfold count_to. rewrite !Nat2N.id. cbn [from map]. rewrite <- app_assoc. cbn [app].
    rewrite text_of_eq, from_map, map_map. unfold ref_at at 2, num16.
    f_equal. f_equal. f_equal.
    + f_equal. f_equal; [f_equal|]; f_equal; f_equal; lia.
    + apply map_ext. intros k. f_equal. f_equal. lia.
Qed.

Lemma attrs_loop_list : forall ly b pg n fuel off off_max acc,
  let w := word (ly_format ly) in
  holds b pg -> lenN pg < W64 -> off_max + (w + 12) <= lenN pg ->
  (n <= fuel)%nat ->
  (forall k, k < N.of_nat n -> off + k * (w + 8) <= off_max) ->
  off_max < off + N.of_nat n * (w + 8) ->
  attrs_loop (ly_endian ly) (ly_format ly) b fuel off off_max acc
  = Ok (acc ++ map (fun k => let p := off + k * (w + 8) in
                       (numw ly pg p, num32 ly pg (p + w),
                        if byte_at pg (p + w + 6) =? 1 then TNumber else TString))
                 (count_to (N.of_nat n))).
Proof.
  intros ly b pg n. induction n as [|n IH]; intros fuel off off_max acc w H B M F K1 K2.
  - destruct fuel; cbn [attrs_loop]; destruct (N.leb_spec off off_max);
      try (exfalso; lia); cbn; rewrite app_nil_r; reflexivity.
  - destruct fuel as [|fuel]; [lia|]. cbn [attrs_loop]. cbv zeta. rewrite word_eq. fold w.
    pose proof (K1 0 ltac:(lia)) as K0.
    destruct (N.leb_spec off off_max); [|exfalso; lia].
    assert (w <= 8) by (subst w; destruct (ly_format ly); cbn; lia).
    unfold W64 in B. rewrite !add64_small by (unfold W64; lia).
    unfold get_uinteger, get_uint32. rewrite word_eq. fold w.
    rewrite !(holds_uint _ b pg) by (try exact H; lia). cbn [bind].
    destruct (holds_byte b pg (off + w + 6) H) as (x & -> & X); [lia|]. cbn [bind]. rewrite X.
    rewrite (IH fuel (off + (w + 8))); try assumption; fold w; try lia.
    2:{ intros k Hk. specialize (K1 (k + 1) ltac:(lia)). lia. }
    unfold count_to. rewrite !Nat2N.id. cbn [from map]. rewrite <- app_assoc. cbn [app].
    rewrite from_map, map_map. unfold numw, num32. fold w.
    f_equal. f_equal. f_equal.
    + rewrite !N.mul_0_l, !N.add_0_r. reflexivity.
    + apply map_ext. intros k.
      replace (off + (w + 8) + k * (w + 8)) with (off + N.succ k * (w + 8)) by lia. reflexivity.
Qed.

Lemma list_count_bounds : forall w size len pos, 0 < size -> w + 12 <= len ->
  let n := list_count w size len in
  (forall k, k < n -> pos + w + 8 + k * size <= pos + len - 12 - w)
  /\ pos + len - 12 - w < pos + w + 8 + n * size
  /\ n <= len.
Proof.
  intros w size len pos S L n. unfold n, list_count.
  destruct (N.leb_spec (2 * w + 20) len) as [G|G].
  - pose proof (N.div_mod (len - (2 * w + 20)) size ltac:(lia)) as D.
    pose proof (N.mod_lt (len - (2 * w + 20)) size ltac:(lia)) as R.
    set (q := (len - (2 * w + 20)) / size) in *. split; [|split].
    + intros k K. assert (k * size <= q * size) by (apply N.mul_le_mono_r; lia). nia.
    + nia.
    + assert (q * 1 <= q * size) by (apply N.mul_le_mono_l; lia). nia.
  - split; [|split]; try lia.
Qed.

(** ** One subheader *)

Section Subheader.
  Variables (ly : layout) (b : mbuf) (pg : bytes).
  Hypothesis H : holds b pg.
  Hypothesis B : lenN pg < W64.

  Let f := ly_format ly.
  Let e := ly_endian ly.
  Let w := word f.

  Lemma w_bounds : 4 <= w <= 8.
  Proof. unfold w. destruct f; cbn; lia. Qed.

  Lemma check_in : forall x y, x + y <= lenN pg -> assert_check b x y = Ok tt.
  Proof. intros x y L. pose proof H as (_ & M & _). apply assert_check_partial; lia. Qed.

  Lemma row_size_fits : forall m s, se_pos s + se_len s <= lenN pg ->
    lcp_pos f + 4 <= se_len s ->
    process_ROW_SIZE e f b (to_sub s) m = Ok (row_size_meaning ly pg (se_pos s) m).
  Proof.
    intros m s L F. unfold process_ROW_SIZE. cbn [to_sub sh_offset]. cbv zeta.
    assert (X : lcs_pos f + 28 = lcp_pos f + 4 /\ 16 * w <= lcp_pos f)
      by (subst w; destruct f; cbn; lia). destruct X as [X1 X2].
    change (lcp_offset f) with (lcp_pos f). change (lcs_offset f) with (lcs_pos f).
    rewrite word_eq. fold w.
    rewrite !add64_small by lia.
    rewrite check_in by lia. cbn [bind]. unfold get_uint16, get_uinteger. rewrite word_eq. fold w.
    rewrite !(holds_uint _ b pg) by (try exact H; lia). cbn [bind noexcept].
    reflexivity.
  Qed.

  Lemma column_size_fits : forall m s, se_pos s + se_len s <= lenN pg -> 2 * w <= se_len s ->
    process_COLUMN_SIZE e f b (to_sub s) m = Ok (column_size_meaning ly pg (se_pos s) m).
  Proof.
    intros m s L F. unfold process_COLUMN_SIZE. cbn [to_sub sh_offset]. cbv zeta.
    rewrite word_eq. fold w. rewrite !add64_small by lia.
    rewrite !(holds_uint _ b pg) by (try exact H; lia). reflexivity.
  Qed.

  Lemma text_fits_ok : forall m s, se_pos s + se_len s <= lenN pg -> text_fits ly pg m s ->
    process_COLUMN_TEXT e f b (to_sub s) m = Ok (text_meaning ly pg (se_pos s) m).
  Proof.
    intros m s L (F1 & F2 & F3). unfold process_COLUMN_TEXT. cbn [to_sub sh_offset]. cbv zeta.
    change (compression_offset f) with (mark_pos f).
    fold f in F1, F2, F3. fold w in F1, F2, F3.
    rewrite word_eq. fold w. pose proof w_bounds as W.
    rewrite (add64_small (se_pos s) w) by lia.
    rewrite (holds_uint _ b pg e 2) by (try exact H; lia). cbn [bind].
    fold (num16 ly pg (se_pos s + w)). unfold get_string_untrim.
    change (value_of e (field pg (se_pos s + w) 2)) with (num16 ly pg (se_pos s + w)).
    rewrite (holds_string _ b pg) by (try exact H; lia). cbn [bind].
    unfold text_meaning, block_at. fold f. fold w.
    destruct (m_texts m) as [|t ts] eqn:T; [|reflexivity].
    destruct (F3 eq_refl) as [F4 F5]. clear F3.
    rewrite (add64_small (se_pos s) (mark_pos f)) by lia. unfold get_string.
    rewrite (holds_string _ b pg _ 8) by (try exact H; lia). cbn [bind].
    rewrite trim_stripped. fold (mark_at ly pg (se_pos s)).
    change (stripped (field pg (se_pos s + mark_pos f) 8)) with (mark_at ly pg (se_pos s)).
    unfold first_text_meaning, block_at, told, text_compression. cbv zeta. fold f. fold w.
    rewrite !contains_occurs.
    change RLE_COMPRESSION with rle_name in *. change RDC_COMPRESSION with rdc_name in *.
    change (num16 ly pg (se_pos s + w)) with (value_of (ly_endian ly) (field pg (se_pos s + w) 2)) in *.
    destruct (mark_at ly pg (se_pos s)) as [|c l] eqn:MK.
    - cbn [bytes_eqb] in F5 |- *. rewrite add64_small by lia.
      rewrite (holds_string _ b pg) by (try exact H; lia). cbn [bind noexcept].
      rewrite trim_stripped. reflexivity.
    - change (bytes_eqb (c :: l) []) with false in *.
      destruct (bytes_eqb (c :: l) rle_name).
      + rewrite add64_small by lia.
        rewrite (holds_string _ b pg) by (try exact H; lia). cbn [bind noexcept].
        rewrite trim_stripped. reflexivity.
      + destruct (N.ltb_spec 0 (md_lcs (m_md m))) as [Z|Z].
        * destruct (N.eqb_spec (md_lcs (m_md m)) 0); [lia|].
          rewrite (holds_string _ b pg) by (try exact H; lia). cbn [bind noexcept].
          rewrite trim_stripped. reflexivity.
        * destruct (N.eqb_spec (md_lcs (m_md m)) 0); [|lia]. reflexivity.
  Qed.

  Lemma loop_max : forall s, se_pos s + se_len s <= lenN pg -> w + 12 <= se_len s ->
    loop_offset_max f (to_sub s) = se_pos s + se_len s - 12 - w.
  Proof.
    intros s L F. unfold loop_offset_max. cbn [to_sub sh_offset sh_length]. rewrite word_eq. fold w.
    rewrite add64_small by lia. rewrite (sub64_small _ 12) by lia. apply sub64_small; lia.
  Qed.

  Lemma fuel_enough : forall n, n <= lenN pg -> (N.to_nat n <= loop_fuel b)%nat.
  Proof.
    intros n L. unfold loop_fuel. pose proof H as (WF & M & _). unfold wf_mbuf in WF.
    unfold lenN in *. lia.
  Qed.

  Lemma names_fits : forall m s, se_pos s + se_len s <= lenN pg -> w + 12 <= se_len s ->
    process_COLUMN_NAME e f b (to_sub s) m
    = Ok (names_meaning ly pg (se_pos s) (se_len s) m).
  Proof.
    intros m s L F. unfold process_COLUMN_NAME. pose proof w_bounds as W.
    rewrite loop_max by assumption. cbn [to_sub sh_offset]. rewrite word_eq. fold w.
    rewrite (add64_small (se_pos s) w) by lia. rewrite add64_small by lia.
    destruct (list_count_bounds w 8 (se_len s) (se_pos s) ltac:(lia) F) as (K1 & K2 & K3).
    cbv zeta in K1, K2, K3. set (n := list_count w 8 (se_len s)) in *.
    rewrite (names_loop_list ly b pg (m_texts m) (N.to_nat n)); try assumption.
    - cbn [bind noexcept]. rewrite N2Nat.id. unfold names_meaning, list_pos. fold f w n.
      reflexivity.
    - lia.
    - apply fuel_enough. lia.
    - rewrite N2Nat.id. exact K1.
    - rewrite N2Nat.id. exact K2.
  Qed.

  Lemma attributes_fits : forall m s, se_pos s + se_len s <= lenN pg -> w + 12 <= se_len s ->
    process_COLUMN_ATTRIBUTES e f b (to_sub s) m
    = Ok (attributes_meaning ly pg (se_pos s) (se_len s) m).
  Proof.
    intros m s L F. unfold process_COLUMN_ATTRIBUTES. pose proof w_bounds as W.
    rewrite loop_max by assumption. cbn [to_sub sh_offset]. rewrite word_eq. fold w.
    rewrite (add64_small (se_pos s) w) by lia. rewrite add64_small by lia.
    destruct (list_count_bounds w (w + 8) (se_len s) (se_pos s) ltac:(lia) F) as (K1 & K2 & K3).
    cbv zeta in K1, K2, K3. set (n := list_count w (w + 8) (se_len s)) in *.
    rewrite (attrs_loop_list ly b pg (N.to_nat n)); try assumption; fold f; fold w.
    - cbn [bind noexcept app]. rewrite N2Nat.id. unfold attributes_meaning, list_pos. fold f.
      fold w. fold n. cbv zeta. rewrite !map_map. reflexivity.
    - lia.
    - apply fuel_enough. lia.
    - rewrite N2Nat.id. exact K1.
    - rewrite N2Nat.id. exact K2.
  Qed.

  Lemma format_label_fits : forall m s, se_pos s + se_len s <= lenN pg ->
    3 * w + 34 <= se_len s ->
    process_FORMAT_AND_LABEL e f b (to_sub s) m
    = Ok (format_label_meaning ly pg (se_pos s) m).
  Proof.
    intros m s L F. unfold process_FORMAT_AND_LABEL. cbn [to_sub sh_offset]. cbv zeta.
    rewrite word_eq. fold w. rewrite (add64_small (se_pos s) (3 * w)) by lia.
    rewrite !add64_small by lia. rewrite check_in by lia.
    cbn [bind]. unfold get_uint16.
    rewrite !(holds_uint _ b pg) by (try exact H; lia). cbn [bind noexcept].
    rewrite !text_of_eq. unfold format_label_meaning, ref_at, num16. fold f e. fold w.
    cbv zeta. rewrite <- !N.add_assoc. cbn [N.add Pos.add Pos.succ]. reflexivity.
  Qed.

  Lemma subheader_meaning : forall m s, skipped s = false ->
    se_pos s + se_len s <= lenN pg -> fits ly pg m s ->
    process_subheader e f b m (to_sub s) = Ok (meaning ly pg m s, is_row ly pg m s).
  Proof.
    intros m s K L (F1 & F2). fold f in F1. fold w in F1.
    rewrite (process_subheader_kind e f b m (to_sub s) (signature ly pg s)).
    2:{ rewrite word_eq. cbn [to_sub sh_offset]. fold w. rewrite (holds_string _ b pg) by assumption.
        reflexivity. }
    change (kind_of f (signature ly pg s)) with (kind_on ly pg s).
    unfold meaning, is_row. destruct (kind_on ly pg s) as [[]|]; cbn [handler].
    - rewrite row_size_fits by assumption. reflexivity.
    - rewrite column_size_fits by assumption. reflexivity.
    - reflexivity.
    - rewrite text_fits_ok by assumption. reflexivity.
    - rewrite names_fits by assumption. reflexivity.
    - rewrite attributes_fits by assumption. reflexivity.
    - rewrite format_label_fits by assumption. reflexivity.
    - reflexivity.
    - rewrite data_check_entry by exact K. destruct (is_data_entry _ _); reflexivity.
  Qed.

  Lemma scan_meaning : forall l m fl, Forall (fun s => skipped s = false) l ->
    Forall (fun s => se_pos s + se_len s <= lenN pg) l -> subs_fit ly pg m l ->
    scan ly b l m fl = Ok (subs_meaning ly pg m l, fl || subs_rows ly pg m l).
  Proof.
    induction l as [|s l IH]; intros m fl K L F; [cbn; rewrite orb_false_r; reflexivity|].
    destruct F as [F1 F2]. unfold scan. cbn [fold_subs]. rewrite (Forall_inv K).
    unfold scan_body at 1. cbn [fst snd]. fold e f.
    rewrite (subheader_meaning m s (Forall_inv K) (Forall_inv L) F1). cbn [bind].
    fold (scan ly b l (meaning ly pg m s) (fl || is_row ly pg m s)).
    change (fold_subs (scan_body e f b) l (meaning ly pg m s, fl || is_row ly pg m s))
      with (scan ly b l (meaning ly pg m s) (fl || is_row ly pg m s)).
    rewrite IH by (try assumption; eapply Forall_inv_tail; eassumption).
    cbn [subs_meaning subs_rows]. rewrite orb_assoc. reflexivity.
  Qed.

  Lemma page_processed : forall m, page_fits ly pg m ->
    process_page e f b (header_of ly pg) m = Ok (page_meaning ly pg m, page_ends ly pg m).
  Proof.
    intros m (_ & F). unfold process_page, header_of. cbn [ph_type].
    assert (HS : is_page_meta_mix_amd (page_type ly pg) = has_subheaders (page_type ly pg)).
    { unfold is_page_meta_mix_amd, has_subheaders, PAGE_META_TYPE, PAGE_AMD_TYPE.
      change (is_page_mix (page_type ly pg)) with (is_mix (page_type ly pg)).
      destruct (_ =? 0), (_ =? 1024), (is_mix _); reflexivity. }
    rewrite HS. unfold page_ends, page_meaning.
    change (is_page_data_mix (page_type ly pg))
      with ((page_type ly pg =? 256) || is_mix (page_type ly pg)).
    destruct (has_subheaders (page_type ly pg)) eqn:E.
    - destruct (F eq_refl) as (F1 & F2 & F3). unfold process_page_metadata.
      rewrite (process_page_fold _ ly b pg) by (try assumption; reflexivity).
      rewrite fold_live. pose proof (live_not_skipped ly pg) as K.
      assert (LV : live ly pg = filter (fun s => negb (skipped s)) (entries ly pg))
        by (unfold live; rewrite E; reflexivity).
      rewrite <- LV.
      change (fold_subs _ (live ly pg) (m, false)) with (scan ly b (live ly pg) m false).
      rewrite scan_meaning; try assumption.
      + cbn [bind orb]. reflexivity.
      + rewrite LV. apply Forall_forall. intros s I. apply filter_In in I.
        rewrite Forall_forall in F2. apply F2. apply I.
    - unfold live. rewrite E. cbn [subs_meaning subs_rows]. rewrite orb_false_r. reflexivity.
  Qed.
End Subheader.
