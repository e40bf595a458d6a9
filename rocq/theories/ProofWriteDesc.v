(** The text block, and the whole description of a table. *)
From Verif Require Import Base Types Buffer Header Column Decomp Metadata Data Reader Lemmas
  SpecValues ProofValues SpecHeader ProofHeader SpecReader SpecPages ProofPages SpecMeta ProofMeta
  SpecFile SpecRoundtrip ProofWrite ProofWriteSubs.
From Coq Require Import ZifyBool ZifyNat ZifyN.
Local Open Scope N_scope.

(** ** Looking for the name of a compression *)

Definition comp_name (k : compression) : bytes :=
  match k with CompNone => [] | CompRLE => rle_name | CompRDC => rdc_name end.

Lemma occurs_cut : forall needle a b, needle <> [] -> ~ In x00 needle ->
  occurs_in needle (a ++ x00 :: b) -> occurs_in needle a \/ occurs_in needle b.
Proof.
  assert (P : forall needle a b z, ~ In x00 needle -> a ++ x00 :: b = needle ++ z ->
                exists y, a = needle ++ y).
  { induction needle as [|n needle IH]; intros a b z I E; [exists a; reflexivity|].
    destruct a as [|x a].
    - cbn in E. injection E as E _. exfalso. apply I. left. symmetry. exact E.
    - cbn in E. injection E as -> E. destruct (IH a b z) as [y ->]; [intros J; apply I; right; exact J|exact E|].
      exists y. reflexivity. }
  intros needle a b NE I (u & z & E). revert a E. induction u as [|x u IH]; intros a E.
  - left. destruct (P needle a b z I E) as [y ->]. exists [], y. reflexivity.
  - destruct a as [|y a].
    + right. cbn in E. injection E as _ E. exists u, z. exact E.
    + cbn in E. injection E as -> E. destruct (IH a E) as [(u' & z' & ->)|R]; [|right; exact R].
      left. exists (x :: u'), z'. reflexivity.
Qed.

Lemma occurs_zeros : forall needle n b, needle <> [] -> ~ In x00 needle ->
  occurs_in needle (zeros n ++ b) -> occurs_in needle b.
Proof.
  intros needle n b NE I. unfold zeros. induction (N.to_nat n) as [|k IH]; [auto|].
  cbn [repeat app]. intros H. apply (occurs_cut needle [] _ NE I) in H.
  destruct H as [(u & z & E)|H]; [|apply IH; exact H].
  destruct u; [|discriminate]. destruct needle; [contradiction|discriminate].
Qed.

Lemma occurs_short : forall needle a, (length a < length needle)%nat -> ~ occurs_in needle a.
Proof. intros needle a L (u & z & ->). rewrite !app_length in L. lia. Qed.

Lemma occurs_same_length : forall needle a, length a = length needle -> occurs_in needle a -> a = needle.
Proof.
  intros needle a L (u & z & ->). rewrite !app_length in L.
  destruct u; [|cbn in L; lia]. destruct z; [|cbn in L; lia]. rewrite app_nil_r. reflexivity.
Qed.

Lemma zeros_cons : forall n, 0 < n -> zeros n = x00 :: zeros (n - 1).
Proof.
  intros n H. unfold zeros. replace (N.to_nat n) with (Datatypes.S (N.to_nat (n - 1))) by lia. reflexivity.
Qed.

Lemma block_occurs : forall e needle compression texts, length needle = 8%nat -> ~ In x00 needle ->
  lenN compression <= 8 ->
  occurs_in needle (text_block e compression texts) -> occurs_in needle compression \/ occurs_in needle texts.
Proof.
  intros e needle compression texts L I C H.
  assert (NE : needle <> []) by (destruct needle; [discriminate|intros X; discriminate X]).
  unfold text_block in H. rewrite (zeros_cons 10) in H by lia. cbn [app] in H.
  apply (occurs_cut needle _ _ NE I) in H. destruct H as [H|H].
  { exfalso. revert H. apply occurs_short. unfold put16. rewrite write_int_length. lia. }
  apply (occurs_zeros _ _ _ NE I) in H.
  replace (zeros (8 - lenN compression) ++ zeros 8 ++ texts)
    with (x00 :: zeros (15 - lenN compression) ++ texts) in H.
  - apply (occurs_cut needle _ _ NE I) in H. destruct H as [H|H]; [left; exact H|].
    right. exact (occurs_zeros _ _ _ NE I H).
  - rewrite app_assoc. change (x00 :: zeros (15 - lenN compression) ++ texts)
      with ((x00 :: zeros (15 - lenN compression)) ++ texts). f_equal.
    unfold zeros. rewrite <- repeat_app. change (x00 :: repeat x00 (N.to_nat (15 - lenN compression)))
      with (repeat x00 (Datatypes.S (N.to_nat (15 - lenN compression)))). f_equal. lia.
Qed.

Definition told_texts (texts : bytes) : compression :=
  if occurs rle_name texts then CompRLE else if occurs rdc_name texts then CompRDC else CompNone.

Lemma told_block_plain : forall e texts, told CompNone (text_block e [] texts) = told_texts texts.
Proof.
  intros e texts. unfold told, told_texts.
  assert (O : forall needle, length needle = 8%nat -> ~ In x00 needle ->
    occurs needle (text_block e [] texts) = occurs needle texts).
  { intros needle L I. destruct (occurs needle texts) eqn:E.
    - apply occurs_spec in E. destruct E as (a & z & E). apply occurs_spec. unfold text_block. rewrite E.
      exists (put16 e (28 + lenN (a ++ needle ++ z)) ++ zeros 10 ++ [] ++ zeros (8 - lenN (@nil byte)) ++ zeros 8 ++ a), z.
      rewrite <- !app_assoc. reflexivity.
    - destruct (occurs needle (text_block e [] texts)) eqn:E2; [|reflexivity]. exfalso.
      apply occurs_spec in E2. destruct (block_occurs e needle [] texts L I) as [H|H]; [discriminate|exact E2| |].
      + revert H. apply occurs_short. cbn. lia.
      + apply occurs_spec in H. congruence. }
  rewrite !O; try reflexivity; intros H; cbn in H; intuition discriminate.
Qed.

Lemma told_block : forall e k texts,
  ~ occurs_in rle_name texts -> ~ occurs_in rdc_name texts ->
  told CompNone (text_block e (comp_name k) texts) = k.
Proof.
  intros e k texts N1 N2. unfold told.
  assert (I1 : ~ In x00 rle_name) by (intros H; cbn in H; intuition discriminate).
  assert (I2 : ~ In x00 rdc_name) by (intros H; cbn in H; intuition discriminate).
  assert (O : forall needle, length needle = 8%nat -> ~ In x00 needle -> ~ occurs_in needle texts ->
    needle <> comp_name k -> occurs needle (text_block e (comp_name k) texts) = false).
  { intros needle L I NT NC. destruct (occurs needle _) eqn:E; [|reflexivity]. exfalso.
    apply occurs_spec in E. destruct (block_occurs e needle (comp_name k) texts L I) as [H|H].
    - destruct k; discriminate.
    - exact E.
    - destruct k; cbn [comp_name] in *.
      + revert H. apply occurs_short. cbn. lia.
      + apply NC. symmetry. apply occurs_same_length; [rewrite L; reflexivity|exact H].
      + apply NC. symmetry. apply occurs_same_length; [rewrite L; reflexivity|exact H].
    - exact (NT H). }
  assert (Y : k <> CompNone -> occurs (comp_name k) (text_block e (comp_name k) texts) = true).
  { intros _. apply occurs_spec. unfold text_block.
    exists (put16 e (28 + lenN texts) ++ zeros 10), (zeros (8 - lenN (comp_name k)) ++ zeros 8 ++ texts).
    rewrite <- app_assoc. reflexivity. }
  destruct k; cbn [comp_name] in *.
  - rewrite !O; try reflexivity; try assumption; discriminate.
  - rewrite Y by discriminate. reflexivity.
  - rewrite (O rle_name); try reflexivity; try assumption; [|discriminate].
    rewrite Y by discriminate. reflexivity.
Qed.

(** ** The text block *)

Lemma lenN_text_block : forall e k texts, lenN (text_block e (comp_name k) texts) = 28 + lenN texts.
Proof.
  intros e k texts. unfold text_block. rewrite !lenN_app, lenN_put16, !lenN_zeros.
  assert (lenN (comp_name k) <= 8) by (destruct k; discriminate). lia.
Qed.

Lemma block_texts : forall e k texts, at_pos (text_block e (comp_name k) texts) 28 texts.
Proof.
  intros e k texts. pose proof (at_pos_whole (text_block e (comp_name k) texts)) as A.
  set (b := text_block e (comp_name k) texts) in A at 1. unfold text_block in A.
  apply at_pos_r with (q := 2) in A; [|rewrite lenN_put16; reflexivity].
  apply at_pos_r with (q := 12) in A; [|rewrite lenN_zeros; reflexivity].
  apply at_pos_r with (q := 12 + lenN (comp_name k)) in A; [|reflexivity].
  apply at_pos_r with (q := 20) in A;
    [|rewrite lenN_zeros; destruct k; reflexivity].
  apply at_pos_r with (q := 28) in A; [|rewrite lenN_zeros; reflexivity]. exact A.
Qed.

Lemma lenN_text_subheader : forall e f b, lenN (text_subheader e f b) = word_size f + lenN b + 12.
Proof. intros e f b. unfold text_subheader, sig_text. rewrite !lenN_app, lenN_signature, lenN_zeros. lia. Qed.

Section Text.
Variables (ly : layout) (pg : bytes) (pos : N) (k : compression) (texts : bytes).
Let e := ly_endian ly.
Let f := ly_format ly.
Let block := text_block e (comp_name k) texts.
Hypothesis A : at_pos pg pos (text_subheader e f block).
Hypothesis SH : 28 + lenN texts < limit16.

Lemma text_at : at_pos pg (pos + word f) block.
Proof.
  pose proof A as H. unfold text_subheader in H.
  apply at_pos_r with (q := pos + word f) in H; [|unfold sig_text; rewrite lenN_signature; reflexivity].
  exact (at_pos_l _ _ _ _ H).
Qed.

Lemma text_length : num16 ly pg (pos + word f) = lenN block.
Proof.
  pose proof text_at as H. unfold block in *. rewrite lenN_text_block. apply (at_num16 ly); [|exact SH].
  unfold text_block in H. exact (at_pos_l _ _ _ _ H).
Qed.

Lemma text_block_at : block_at ly pg pos = block.
Proof.
  unfold block_at. fold f. rewrite text_length. apply at_pos_field; [exact text_at|reflexivity].
Qed.

Lemma text_mark : mark_at ly pg pos = comp_name k.
Proof.
  unfold mark_at. fold f. pose proof text_at as H. unfold block, text_block in H.
  apply at_pos_r with (q := pos + word f + 2) in H; [|rewrite lenN_put16; reflexivity].
  apply at_pos_r with (q := pos + mark_pos f) in H;
    [|rewrite lenN_zeros; destruct f; cbn [mark_pos word]; lia].
  rewrite app_assoc in H. apply at_pos_l in H. rewrite (at_pos_field _ _ _ 8 H) by (destruct k; reflexivity).
  destruct k; reflexivity.
Qed.

Lemma text_written : forall m, m_texts m = [] -> md_lcs (m_md m) = 0 -> md_lcp (m_md m) = 0 ->
  md_compression (m_md m) = CompNone -> md_creator_proc (m_md m) = [] ->
  text_meaning ly pg pos m
  = let d := m_md m in
    MState (Metadata (told CompNone block) (md_creator d) [] (md_row_length d) (md_row_count d) (md_column_count d)
              (md_col_count_p1 d) (md_col_count_p2 d) (md_mix_page_row_count d) 0 0
              (md_columns d))
      (m_data_subheaders m) [block] (m_names m) (m_formats m) (m_labels m) (m_offsets m)
      (m_lengths m) (m_types m).
Proof.
  intros m T L1 L2 C P. unfold text_meaning. rewrite T. cbn [app]. unfold first_text_meaning. cbv zeta.
  rewrite text_mark, text_block_at, L1, L2, C, P. generalize (told CompNone block).
  destruct k; reflexivity.
Qed.

Lemma text_fits_written : forall m, md_lcs (m_md m) = 0 -> md_lcp (m_md m) = 0 ->
  text_fits ly pg m (SubEntry pos (lenN (text_subheader e f block)) 0 0).
Proof.
  intros m L1 L2. unfold text_fits. cbv zeta. cbn [se_pos se_len]. fold f. rewrite text_length, text_mark, L1, L2.
  unfold block. rewrite lenN_text_subheader, lenN_text_block. change (word_size f) with (word f).
  split; [lia|]. split; [lia|]. intros _.
  assert (mark_pos f = word f + 12) by (destruct f; reflexivity).
  split; [lia|]. destruct (bytes_eqb _ []); [lia|]. destruct (bytes_eqb _ _); lia.
Qed.
End Text.

(** ** The places of the texts *)

Lemma places_small : forall fields pos, pos + lenN (texts_of fields) < limit16 ->
  Forall (fun p => small_ref (fst (fst p)) /\ small_ref (snd (fst p)) /\ small_ref (snd p))
    (text_places pos fields).
Proof.
  induction fields as [|d l IH]; intros pos H; [constructor|].
  cbn [text_places]. unfold texts_of in H. cbn [map concat] in H. rewrite !lenN_app in H.
  fold (texts_of l) in H. constructor.
  - cbn [fst snd]. unfold small_ref. cbn [fst snd]. unfold limit16 in *. lia.
  - apply IH. lia.
Qed.

Lemma places_texts : forall fields texts block pos, nth_error texts 0 = Some block ->
  at_pos block pos (texts_of fields) ->
  Forall (fun d => clean (fd_name d) /\ clean (fd_label d) /\ clean (fd_format d)) fields ->
  map (fun p => text_of texts (fst (fst p))) (text_places pos fields) = map fd_name fields
  /\ map (fun p => text_of texts (snd (fst p))) (text_places pos fields) = map fd_format fields
  /\ map (fun p => text_of texts (snd p)) (text_places pos fields) = map fd_label fields.
Proof.
  induction fields as [|d l IH]; intros texts block pos B A C; [auto|].
  apply Forall_cons_iff in C. destruct C as [(C1 & C2 & C3) C].
  unfold texts_of in A. cbn [map concat] in A. fold (texts_of l) in A. rewrite <- !app_assoc in A.
  cbn [text_places map fst snd].
  pose proof (at_pos_l _ _ _ _ A) as A1. apply at_pos_r with (q := pos + lenN (fd_name d)) in A; [|reflexivity].
  pose proof (at_pos_l _ _ _ _ A) as A2.
  apply at_pos_r with (q := pos + lenN (fd_name d) + lenN (fd_format d)) in A; [|reflexivity].
  pose proof (at_pos_l _ _ _ _ A) as A3.
  apply at_pos_r with (q := pos + lenN (fd_name d) + lenN (fd_format d) + lenN (fd_label d)) in A; [|reflexivity].
  destruct (IH texts block _ B A C) as (E1 & E2 & E3). rewrite E1, E2, E3.
  rewrite (text_of_clean texts 0 block) by assumption.
  rewrite (text_of_clean texts 0 block) by assumption.
  rewrite (text_of_clean texts 0 block) by assumption. auto.
Qed.

Lemma places_length : forall fields pos, length (text_places pos fields) = length fields.
Proof. induction fields as [|d l IH]; intros pos; cbn; [reflexivity|]. rewrite IH. reflexivity. Qed.

(** ** The description *)

(** What is known when the description has been read. *)
Definition full_state (block : bytes) (k : compression) (fields : list field_desc)
    (rl rc mix : N) : mstate :=
  MState (Metadata k [] [] rl rc (lenN fields) (lenN fields) 0 mix 0 0 []) [] [block]
    (map fd_name fields) (map fd_format fields) (map fd_label fields)
    (map fd_offset fields) (map fd_length fields)
    (map (fun d => stored_type (fd_numeric d)) fields).

Lemma subs_fit_app : forall ly pg a b m,
  subs_fit ly pg m (a ++ b) <-> subs_fit ly pg m a /\ subs_fit ly pg (subs_meaning ly pg m a) b.
Proof.
  intros ly pg a b. induction a as [|s a IH]; intros m; cbn [app subs_fit subs_meaning]; [tauto|].
  rewrite IH. tauto.
Qed.

Lemma subs_meaning_app : forall ly pg a b m,
  subs_meaning ly pg m (a ++ b) = subs_meaning ly pg (subs_meaning ly pg m a) b.
Proof.
  intros ly pg a b. induction a as [|s a IH]; intros m; cbn [app subs_meaning]; [reflexivity|]. apply IH.
Qed.

Lemma subs_rows_app : forall ly pg a b m,
  subs_rows ly pg m (a ++ b) = subs_rows ly pg m a || subs_rows ly pg (subs_meaning ly pg m a) b.
Proof.
  intros ly pg a b. induction a as [|s a IH]; intros m; cbn [app subs_rows subs_meaning]; [reflexivity|].
  rewrite IH. apply orb_assoc.
Qed.

Lemma placed_app : forall a b pos, placed pos (a ++ b) = placed pos a ++ placed (pos + lenN (subs_bytes a)) b.
Proof.
  induction a as [|[[x c] t] a IH]; intros b pos.
  - unfold subs_bytes. cbn [app placed map concat]. rewrite lenN_nil, N.add_0_r. reflexivity.
  - cbn [app placed]. rewrite IH. unfold subs_bytes. cbn [map concat sub_bytes fst].
    change (sub_bytes (x, c, t)) with x.
    rewrite lenN_app, N.add_assoc. reflexivity.
Qed.

Lemma subs_bytes_app : forall a b, subs_bytes (a ++ b) = subs_bytes a ++ subs_bytes b.
Proof. intros a b. unfold subs_bytes. rewrite map_app, concat_app. reflexivity. Qed.

(** One subheader of a known kind. *)
Lemma one_sub : forall ly pg m s l k, kind_on ly pg s = Some k ->
  (fits ly pg m s) -> subs_fit ly pg (meaning ly pg m s) l ->
  subs_rows ly pg (meaning ly pg m s) l = false ->
  subs_fit ly pg m (s :: l) /\ subs_rows ly pg m (s :: l) = false.
Proof.
  intros ly pg m s l k K F SF SR. cbn [subs_fit subs_rows]. split; [auto|].
  unfold is_row. rewrite K. exact SR.
Qed.

Lemma format_labels_written : forall ly pg refs pos m,
  let e := ly_endian ly in let f := ly_format ly in
  let subs := map (fun p => plain (format_label_subheader e f (fst p) (snd p))) refs in
  at_pos pg pos (subs_bytes subs) ->
  Forall (fun p => small_ref (fst p) /\ small_ref (snd p)) refs ->
  subs_meaning ly pg m (placed pos subs)
  = MState (m_md m) (m_data_subheaders m) (m_texts m) (m_names m)
      (m_formats m ++ map (fun p => text_of (m_texts m) (fst p)) refs)
      (m_labels m ++ map (fun p => text_of (m_texts m) (snd p)) refs)
      (m_offsets m) (m_lengths m) (m_types m)
  /\ subs_fit ly pg m (placed pos subs) /\ subs_rows ly pg m (placed pos subs) = false.
Proof.
  intros ly pg refs. induction refs as [|[a b] refs IH]; intros pos m e f subs A S.
  { cbn. rewrite !app_nil_r. destruct m; auto. }
  apply Forall_cons_iff in S. destruct S as [[S1 S2] S]. cbn [fst snd] in S1, S2.
  unfold subs, subs_bytes in A. cbn [map concat plain sub_bytes fst snd] in A.
  change (sub_bytes (plain (format_label_subheader e f a b))) with (format_label_subheader e f a b) in A.
  pose proof (at_pos_l _ _ _ _ A) as A1.
  apply at_pos_r with (q := pos + lenN (format_label_subheader e f a b)) in A; [|reflexivity].
  unfold subs. cbn [map fst snd]. unfold plain at 1 2 3. cbn [placed].
  set (s := SubEntry pos (lenN (format_label_subheader e f a b)) 0 0).
  assert (K : kind_on ly pg s = Some KFormatLabel).
  { unfold format_label_subheader in A1. exact (kind_written ly pg pos _ _ _ 0xFFFFFBFE true _ _ A1 (kind_format_label e f)). }
  assert (M : meaning ly pg m s = MState (m_md m) (m_data_subheaders m) (m_texts m) (m_names m)
      (m_formats m ++ [text_of (m_texts m) a]) (m_labels m ++ [text_of (m_texts m) b])
      (m_offsets m) (m_lengths m) (m_types m)).
  { unfold meaning. rewrite K. apply format_label_written; assumption. }
  assert (F : fits ly pg m s).
  { unfold fits. cbv zeta. rewrite K. unfold s. cbn [se_pos se_len]. rewrite lenN_format_label.
    apply at_pos_inside in A1. rewrite lenN_format_label in A1.
    unfold f in *. change (word_size (ly_format ly)) with (word (ly_format ly)) in *. lia. }
  destruct (IH _ (meaning ly pg m s) A S) as (E1 & E2 & E3). split; [|apply (one_sub _ _ _ _ _ _ K F E2 E3)].
  cbn [subs_meaning]. refine (eq_trans E1 _). rewrite M. cbn [m_md m_data_subheaders m_texts m_names m_formats m_labels
    m_offsets m_lengths m_types]. rewrite <- !app_assoc. reflexivity.
Qed.

Lemma description_written : forall ly pg pos k fields rl rc mix,
  let e := ly_endian ly in let f := ly_format ly in
  let subs := description e f (comp_name k) fields rl rc mix in
  at_pos pg pos (subs_bytes subs) ->
  good_fields f fields -> rl < word_limit f -> rc < word_limit f -> mix < word_limit f ->
  lenN fields < word_limit f ->
  subs_meaning ly pg empty_mstate (placed pos subs)
  = (let block := text_block e (comp_name k) (texts_of fields) in
     full_state block (told CompNone block) fields rl rc mix)
  /\ subs_fit ly pg empty_mstate (placed pos subs)
  /\ subs_rows ly pg empty_mstate (placed pos subs) = false
  /\ exists s, In s (placed pos subs) /\ is_text ly pg s.
Proof.
  intros ly pg pos k fields rl rc mix e f subs A (GF & TS) B1 B2 B3 B4.
  set (places := text_places 28 fields) in *.
  set (block := text_block e (comp_name k) (texts_of fields)) in *.
  assert (PS := places_small fields 28 TS). fold places in PS.
  unfold subs, description, subs_bytes in A. cbv zeta in A. fold places block in A.
  cbn [map concat] in A. change (forall b, sub_bytes (plain b) = b) with (forall b : bytes, b = b) in *.
  unfold subs, description. cbv zeta. fold places block.
  set (s1 := row_size_subheader e f rl rc (lenN fields) 0 mix 0 0) in *.
  set (s2 := column_size_subheader e f (lenN fields)) in *.
  set (s3 := text_subheader e f block) in *.
  set (s4 := names_subheader e f (map (fun p => fst (fst p)) places)) in *.
  set (s5 := attributes_subheader e f (map (fun d => (fd_offset d, fd_length d, fd_numeric d)) fields)) in *.
  set (tl := map (fun p => plain (format_label_subheader e f (snd (fst p)) (snd p))) places) in *.
  change (sub_bytes (plain s1)) with s1 in A. change (sub_bytes (plain s2)) with s2 in A.
  change (sub_bytes (plain s3)) with s3 in A. change (sub_bytes (plain s4)) with s4 in A.
  change (sub_bytes (plain s5)) with s5 in A.
  unfold plain at 1 2 3 4 5 6 7 8 9 10 11 12 13 14 15 16 17 18 19 20. cbn [placed].
  set (p2 := pos + lenN s1) in *. set (p3 := p2 + lenN s2). set (p4 := p3 + lenN s3).
  set (p5 := p4 + lenN s4). set (p6 := p5 + lenN s5).
  pose proof (at_pos_l _ _ _ _ A) as A1. apply at_pos_r with (q := p2) in A; [|reflexivity].
  pose proof (at_pos_l _ _ _ _ A) as A2. apply at_pos_r with (q := p3) in A; [|reflexivity].
  pose proof (at_pos_l _ _ _ _ A) as A3. apply at_pos_r with (q := p4) in A; [|reflexivity].
  pose proof (at_pos_l _ _ _ _ A) as A4. apply at_pos_r with (q := p5) in A; [|reflexivity].
  pose proof (at_pos_l _ _ _ _ A) as A5. apply at_pos_r with (q := p6) in A; [|reflexivity].
  fold (subs_bytes tl) in A.
  set (e1 := SubEntry pos (lenN s1) 0 0). set (e2 := SubEntry p2 (lenN s2) 0 0).
  set (e3 := SubEntry p3 (lenN s3) 0 0). set (e4 := SubEntry p4 (lenN s4) 0 0).
  set (e5 := SubEntry p5 (lenN s5) 0 0).
  assert (K1 : kind_on ly pg e1 = Some KRowSize)
    by (unfold s1, row_size_subheader in A1; exact (kind_written ly pg pos _ _ _ 0xF7F7F7F7 false _ _ A1 (kind_row_size e f))).
  assert (K2 : kind_on ly pg e2 = Some KColumnSize)
    by (unfold s2, column_size_subheader in A2; exact (kind_written ly pg p2 _ _ _ 0xF6F6F6F6 false _ _ A2 (kind_column_size e f))).
  assert (K3 : kind_on ly pg e3 = Some KText)
    by (unfold s3, text_subheader in A3; exact (kind_written ly pg p3 _ _ _ 0xFFFFFFFD true _ _ A3 (kind_text e f))).
  assert (K4 : kind_on ly pg e4 = Some KNames)
    by (unfold s4, names_subheader in A4; exact (kind_written ly pg p4 _ _ _ 0xFFFFFFFF true _ _ A4 (kind_names e f))).
  assert (K5 : kind_on ly pg e5 = Some KAttributes)
    by (unfold s5, attributes_subheader in A5; exact (kind_written ly pg p5 _ _ _ 0xFFFFFFFC true _ _ A5 (kind_attributes e f))).
  assert (W : word f = 4 \/ word f = 8) by (destruct f; auto).
  assert (W' : word_size f = word f) by reflexivity.
  pose proof (at_pos_inside _ _ _ A1) as I1. pose proof (at_pos_inside _ _ _ A2) as I2.
  pose proof (at_pos_inside _ _ _ A3) as I3. pose proof (at_pos_inside _ _ _ A4) as I4.
  pose proof (at_pos_inside _ _ _ A5) as I5.
  assert (L1 : lenN s1 = lcp_pos f + 28) by apply lenN_row_size.
  assert (L2 : lenN s2 = 3 * word f) by (unfold s2; rewrite lenN_column_size; reflexivity).
  assert (L3 : word f <= lenN s3) by (unfold s3; rewrite lenN_text_subheader; lia).
  assert (L4 : word f + 12 <= lenN s4) by (unfold s4; rewrite lenN_names; lia).
  assert (L5 : word f + 12 <= lenN s5) by (unfold s5; rewrite lenN_attributes; lia).
  assert (LP : word f <= lcp_pos f) by (destruct f; discriminate).
  (* the first four *)
  set (m1 := meaning ly pg empty_mstate e1).
  assert (M1 : m1 = MState (Metadata CompNone [] [] rl rc 0 (lenN fields) 0 mix 0 0 []) [] [] [] [] [] [] [] []).
  { unfold m1, meaning. rewrite K1. cbn [se_pos e1].
    refine (eq_trans (row_size_written ly pg pos rl rc (lenN fields) 0 mix 0 0 _ A1 B1 B2 B4 _ B3 _ _) eq_refl).
    - destruct (ly_format ly); reflexivity.
    - reflexivity.
    - reflexivity. }
  set (m2 := meaning ly pg m1 e2).
  assert (M2 : m2 = MState (Metadata CompNone [] [] rl rc (lenN fields) (lenN fields) 0 mix 0 0 []) [] [] [] [] [] [] [] []).
  { unfold m2, meaning. rewrite K2. cbn [se_pos e2].
    refine (eq_trans (column_size_written ly pg p2 (lenN fields) m1 A2 B4) _). rewrite M1. reflexivity. }
  set (m3 := meaning ly pg m2 e3).
  assert (M3 : m3 = MState (Metadata (told CompNone block) [] [] rl rc (lenN fields) (lenN fields) 0 mix 0 0 []) [] [block] [] [] [] [] [] []).
  { unfold m3, meaning. rewrite K3. cbn [se_pos e3].
    rewrite (text_written ly pg p3 k (texts_of fields) A3 TS) by (rewrite M2; reflexivity).
    rewrite M2. reflexivity. }
  set (m4 := meaning ly pg m3 e4).
  assert (PT := places_texts fields [block] block 28 eq_refl (block_texts e k (texts_of fields))).
  fold places in PT.
  destruct PT as (T1 & T2 & T3).
  { apply (Forall_impl _ (P := good_field f)); [|exact GF]. intros d G. unfold good_field in G. tauto. }
  assert (M4 : m4 = MState (m_md m3) [] [block] (map fd_name fields) [] [] [] [] []).
  { unfold m4, meaning. rewrite K4. cbn [se_pos se_len e4].
    refine (eq_trans (names_written ly pg p4 (map (fun p => fst (fst p)) places) m3 A4 _) _).
    - rewrite Forall_map. apply (Forall_impl _ (P := fun p => small_ref (fst (fst p)) /\ small_ref (snd (fst p)) /\ small_ref (snd p)));
        [|exact PS]. tauto.
    - rewrite map_map. rewrite M3. cbn [m_md m_data_subheaders m_texts m_names m_formats m_labels
        m_offsets m_lengths m_types app]. rewrite T1. reflexivity. }
  set (m5 := meaning ly pg m4 e5).
  assert (M5 : m5 = MState (m_md m3) [] [block] (map fd_name fields) [] [] (map fd_offset fields)
      (map fd_length fields) (map (fun d => stored_type (fd_numeric d)) fields)).
  { unfold m5, meaning. rewrite K5. cbn [se_pos se_len e5].
    refine (eq_trans (attributes_written ly pg p5 _ m4 A5 _) _).
    - rewrite Forall_map. apply (Forall_impl _ (P := good_field f)); [|exact GF].
      intros d G. unfold good_field in G. unfold small_attr. cbn [fst snd]. fold f. tauto.
    - rewrite !map_map. rewrite M4. reflexivity. }
  assert (TLE : tl = map (fun p => plain (format_label_subheader e f (fst p) (snd p)))
                       (map (fun p => (snd (fst p), snd p)) places)).
  { unfold tl. rewrite map_map. reflexivity. }
  destruct (format_labels_written ly pg (map (fun p => (snd (fst p), snd p)) places) p6 m5) as (E1 & E2 & E3).
  { fold e f. rewrite <- TLE. exact A. }
  { rewrite Forall_map. apply (Forall_impl _ (P := fun p => small_ref (fst (fst p)) /\ small_ref (snd (fst p)) /\ small_ref (snd p)));
      [|exact PS]. cbn [fst snd]. tauto. }
  fold e f in E1, E2, E3. rewrite <- TLE in E1, E2, E3.
  split; [|split; [|split]].
  - cbn [subs_meaning]. fold m1 m2 m3 m4 m5. rewrite E1, !map_map. cbn [fst snd].
    rewrite M5. cbn [m_md m_data_subheaders m_texts m_names m_formats m_labels
        m_offsets m_lengths m_types app]. rewrite T2, T3, M3. reflexivity.
  - cbn [subs_fit]. fold m1 m2 m3 m4 m5. refine (conj _ (conj _ (conj _ (conj _ (conj _ E2)))));
      unfold fits; cbv zeta; rewrite ?K1, ?K2, ?K3, ?K4, ?K5; fold f; cbn [se_pos se_len e1 e2 e3 e4 e5];
      (split; [lia|]); try lia.
    exact (text_fits_written ly pg p3 k (texts_of fields) A3 TS m2 (f_equal (fun m => md_lcs (m_md m)) M2)
             (f_equal (fun m => md_lcp (m_md m)) M2)).
  - cbn [subs_rows]. fold m1 m2 m3 m4 m5. unfold is_row. rewrite K1, K2, K3, K4, K5. exact E3.
  - exists e3. split; [right; right; left; reflexivity|]. split; [|exact K3].
    cbn [se_pos e3]. fold f. lia.
Qed.
