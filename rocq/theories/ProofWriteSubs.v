(** The subheaders of the description of a table, as they are written, mean the
    description. *)
From Verif Require Import Base Types Buffer Header Column Decomp Metadata Data Reader Lemmas
  SpecValues ProofValues SpecHeader ProofHeader SpecReader SpecPages ProofPages SpecMeta ProofMeta
  SpecFile SpecRoundtrip ProofWrite.
From Coq Require Import ZifyBool ZifyNat ZifyN.
Local Open Scope N_scope.

(** ** Row size and column size *)

Lemma lenN_row_size : forall e f rl rc p1 p2 mix lcs lcp,
  lenN (row_size_subheader e f rl rc p1 p2 mix lcs lcp) = lcp_pos f + 28.
Proof.
  intros e f rl rc p1 p2 mix lcs lcp. unfold row_size_subheader. cbv zeta.
  rewrite !lenN_app, !lenN_zeros, !lenN_put_word, !lenN_put16. unfold sig_row_size.
  rewrite lenN_signature. destruct f; reflexivity.
Qed.

Lemma row_size_written : forall ly pg pos rl rc p1 p2 mix lcs lcp m,
  let e := ly_endian ly in let f := ly_format ly in
  at_pos pg pos (row_size_subheader e f rl rc p1 p2 mix lcs lcp) ->
  rl < word_limit f -> rc < word_limit f -> p1 < word_limit f -> p2 < word_limit f ->
  mix < word_limit f -> lcs < limit16 -> lcp < limit16 ->
  row_size_meaning ly pg pos m
  = let d := m_md m in
    MState (Metadata (md_compression d) (md_creator d) (md_creator_proc d) rl rc
              (md_column_count d) p1 p2 mix lcs lcp (md_columns d))
      (m_data_subheaders m) (m_texts m) (m_names m) (m_formats m) (m_labels m) (m_offsets m)
      (m_lengths m) (m_types m).
Proof.
  intros ly pg pos rl rc p1 p2 mix lcs lcp m e f A B1 B2 B3 B4 B5 B6 B7.
  unfold row_size_subheader in A. cbv zeta in A. set (w := word_size f) in *.
  apply at_pos_r with (q := pos + w) in A; [|unfold sig_row_size; rewrite lenN_signature; reflexivity].
  apply at_pos_r with (q := pos + 5 * w) in A; [|rewrite lenN_zeros; lia].
  pose proof (at_pos_l _ _ _ _ A) as A1.
  apply at_pos_r with (q := pos + 6 * w) in A; [|rewrite lenN_put_word; fold w; lia].
  pose proof (at_pos_l _ _ _ _ A) as A2.
  apply at_pos_r with (q := pos + 7 * w) in A; [|rewrite lenN_put_word; fold w; lia].
  apply at_pos_r with (q := pos + 9 * w) in A; [|rewrite lenN_zeros; lia].
  pose proof (at_pos_l _ _ _ _ A) as A3.
  apply at_pos_r with (q := pos + 10 * w) in A; [|rewrite lenN_put_word; fold w; lia].
  pose proof (at_pos_l _ _ _ _ A) as A4.
  apply at_pos_r with (q := pos + 11 * w) in A; [|rewrite lenN_put_word; fold w; lia].
  apply at_pos_r with (q := pos + 15 * w) in A; [|rewrite lenN_zeros; lia].
  pose proof (at_pos_l _ _ _ _ A) as A5.
  apply at_pos_r with (q := pos + 16 * w) in A; [|rewrite lenN_put_word; fold w; lia].
  apply at_pos_r with (q := pos + lcs_pos f) in A;
    [|rewrite lenN_zeros; unfold w; destruct f; cbn [word_size lcs_pos]; lia].
  pose proof (at_pos_l _ _ _ _ A) as A6.
  apply at_pos_r with (q := pos + lcs_pos f + 2) in A; [|rewrite lenN_put16; lia].
  apply at_pos_r with (q := pos + lcp_pos f) in A;
    [|rewrite lenN_zeros; destruct f; cbn [lcp_pos lcs_pos]; lia].
  apply at_pos_l in A.
  unfold row_size_meaning. cbv zeta. fold f. replace (word f) with w by (destruct f; reflexivity).
  rewrite (at_numw ly _ _ _ A1 B1), (at_numw ly _ _ _ A2 B2), (at_numw ly _ _ _ A3 B3),
    (at_numw ly _ _ _ A4 B4), (at_numw ly _ _ _ A5 B5), (at_num16 ly _ _ _ A6 B6),
    (at_num16 ly _ _ _ A B7). reflexivity.
Qed.

Lemma lenN_column_size : forall e f n, lenN (column_size_subheader e f n) = 3 * word_size f.
Proof.
  intros e f n. unfold column_size_subheader, sig_column_size.
  rewrite !lenN_app, lenN_signature, lenN_put_word, lenN_zeros. lia.
Qed.

Lemma column_size_written : forall ly pg pos n m,
  let e := ly_endian ly in let f := ly_format ly in
  at_pos pg pos (column_size_subheader e f n) -> n < word_limit f ->
  column_size_meaning ly pg pos m
  = let d := m_md m in
    MState (Metadata (md_compression d) (md_creator d) (md_creator_proc d) (md_row_length d)
              (md_row_count d) n (md_col_count_p1 d) (md_col_count_p2 d)
              (md_mix_page_row_count d) (md_lcs d) (md_lcp d) (md_columns d))
      (m_data_subheaders m) (m_texts m) (m_names m) (m_formats m) (m_labels m) (m_offsets m)
      (m_lengths m) (m_types m).
Proof.
  intros ly pg pos n m e f A B. unfold column_size_subheader in A.
  apply at_pos_r with (q := pos + word f) in A;
    [|unfold sig_column_size; rewrite lenN_signature; reflexivity].
  apply at_pos_l in A. unfold column_size_meaning. fold f.
  rewrite (at_numw ly _ _ _ A B). reflexivity.
Qed.

(** ** Clean texts *)

Lemma graphic_print : forall b, graphic b -> printb b = true /\ whiteb b = false.
Proof.
  intros b H. unfold graphic in H. unfold printb, whiteb. split; lia.
Qed.

Lemma clean_stripped : forall l, clean l -> stripped l = l.
Proof.
  intros l [-> | [(b & r & E & G) (r' & b' & E' & G')]]; [reflexivity|].
  unfold stripped. rewrite E. cbn [skip_while]. rewrite (proj2 (graphic_print b G)), <- E, E'.
  rewrite rev_unit. cbn [skip_while]. destruct (graphic_print b' G') as [-> ->]. cbn [negb orb].
  cbn [rev]. rewrite rev_involutive. reflexivity.
Qed.

Lemma text_of_clean : forall texts i block pos t, nth_error texts (N.to_nat i) = Some block ->
  at_pos block pos t -> clean t -> text_of texts (i, pos, lenN t) = t.
Proof.
  intros texts i block pos t N A C. unfold text_of. rewrite N, (at_pos_field _ _ _ _ A eq_refl).
  destruct t as [|b l]; [reflexivity|]. rewrite (clean_stripped _ C).
  destruct C as [? | [(b' & r & E & G) _]]; [discriminate|]. injection E as <- <-.
  rewrite (proj1 (graphic_print b G)). reflexivity.
Qed.

(** ** Lists of entries *)

Lemma map_at : forall A B (enc : A -> bytes) (g : A -> B) (G : N -> B) pg size l i p0,
  at_pos pg (p0 + i * size) (concat (map enc l)) ->
  Forall (fun x => lenN (enc x) = size /\ forall q, at_pos pg q (enc x) -> G q = g x) l ->
  map (fun k => G (p0 + k * size)) (from i (length l)) = map g l.
Proof.
  intros A B enc g G pg size l. induction l as [|x l IH]; intros i p0 H F; [reflexivity|].
  apply Forall_cons_iff in F. destruct F as [[F1 F2] F]. cbn [length from map concat] in *. f_equal.
  - apply F2. exact (at_pos_l _ _ _ _ H).
  - apply IH; [|exact F]. apply (at_pos_r _ _ _ _ _ H). lia.
Qed.

Lemma lenN_concat : forall A (enc : A -> bytes) size l, Forall (fun x => lenN (enc x) = size) l ->
  lenN (concat (map enc l)) = lenN l * size.
Proof.
  intros A enc size l F. induction F as [|x l E F IH]; [reflexivity|].
  cbn [map concat]. rewrite lenN_app, E, IH, lenN_cons. lia.
Qed.

Lemma lenN_text_ref : forall e r, lenN (text_ref e r) = 6.
Proof. intros e [[a b] c]. unfold text_ref. rewrite !lenN_app, !lenN_put16. reflexivity. Qed.

Definition small_ref (r : N * N * N) : Prop :=
  fst (fst r) < limit16 /\ snd (fst r) < limit16 /\ snd r < limit16.

Lemma ref_written : forall ly pg pos r, at_pos pg pos (text_ref (ly_endian ly) r) -> small_ref r ->
  ref_at ly pg pos = r.
Proof.
  intros ly pg pos [[a b] c] A (B1 & B2 & B3). cbn [fst snd] in *. unfold text_ref in A. unfold ref_at.
  rewrite (at_num16 ly _ _ _ (at_pos_l _ _ _ _ A) B1).
  apply at_pos_r with (q := pos + 2) in A; [|rewrite lenN_put16; reflexivity].
  rewrite (at_num16 ly _ _ _ (at_pos_l _ _ _ _ A) B2).
  apply at_pos_r with (q := pos + 4) in A; [|rewrite lenN_put16; lia].
  rewrite (at_num16 ly _ _ _ A B3). reflexivity.
Qed.

Lemma lenN_names : forall e f refs,
  lenN (names_subheader e f refs) = 2 * word_size f + 12 + 8 * lenN refs.
Proof.
  intros e f refs. unfold names_subheader, sig_names. rewrite !lenN_app, lenN_signature, !lenN_zeros.
  rewrite (lenN_concat _ _ 8); [lia|]. apply Forall_forall. intros r _.
  rewrite lenN_app, lenN_text_ref, lenN_zeros. reflexivity.
Qed.

Lemma names_written : forall ly pg pos refs m,
  let e := ly_endian ly in let f := ly_format ly in
  at_pos pg pos (names_subheader e f refs) -> Forall small_ref refs ->
  names_meaning ly pg pos (lenN (names_subheader e f refs)) m
  = MState (m_md m) (m_data_subheaders m) (m_texts m)
      (m_names m ++ map (text_of (m_texts m)) refs)
      (m_formats m) (m_labels m) (m_offsets m) (m_lengths m) (m_types m).
Proof.
  intros ly pg pos refs m e f A B. unfold names_meaning. f_equal. f_equal.
  assert (C : list_count (word (ly_format ly)) 8 (lenN (names_subheader e f refs)) = lenN refs).
  { rewrite lenN_names. fold f. rewrite word_word. unfold list_count.
    destruct refs as [|r refs]; [rewrite lenN_nil; destruct f; reflexivity|].
    rewrite lenN_cons. destruct (N.leb_spec (2 * word_size f + 20) (2 * word_size f + 12 + 8 * (1 + lenN refs))); [|lia].
    replace (2 * word_size f + 12 + 8 * (1 + lenN refs) - (2 * word_size f + 20))
      with (lenN refs * 8) by lia. rewrite N.div_mul by lia. lia. }
  rewrite C. unfold count_to. replace (N.to_nat (lenN refs)) with (length refs) by (unfold lenN; lia).
  unfold list_pos.
  apply (map_at _ _ (fun r => text_ref e r ++ zeros 2) (text_of (m_texts m))
           (fun q => text_of (m_texts m) (ref_at ly pg q)) pg 8 refs 0).
  - unfold names_subheader in A.
    apply at_pos_r with (q := pos + word (ly_format ly)) in A;
      [|unfold sig_names; rewrite lenN_signature; reflexivity].
    apply at_pos_r with (q := pos + word (ly_format ly) + 8 + 0 * 8) in A;
      [|rewrite lenN_zeros; lia].
    exact (at_pos_l _ _ _ _ A).
  - apply (Forall_impl _ (P := small_ref)); [|exact B]. intros r S. split.
    + rewrite lenN_app, lenN_text_ref, lenN_zeros. reflexivity.
    + intros q Q. f_equal. apply ref_written; [exact (at_pos_l _ _ _ _ Q)|exact S].
Qed.

(** ** Attributes *)

Lemma lenN_attribute : forall e f o l n, lenN (attribute e f o l n) = word_size f + 8.
Proof.
  intros e f o l n. unfold attribute. rewrite !lenN_app, lenN_put_word, lenN_put32, !lenN_zeros.
  change (lenN [if n then x01 else x02]) with 1. lia.
Qed.

Definition attr_enc (e : endian) (f : format) (a : N * N * bool) : bytes :=
  attribute e f (fst (fst a)) (snd (fst a)) (snd a).

Lemma lenN_attributes : forall e f l,
  lenN (attributes_subheader e f l) = 2 * word_size f + 12 + (word_size f + 8) * lenN l.
Proof.
  intros e f l. unfold attributes_subheader, sig_attributes. rewrite !lenN_app, lenN_signature, !lenN_zeros.
  rewrite (lenN_concat _ _ (word_size f + 8)); [lia|]. apply Forall_forall. intros r _.
  apply lenN_attribute.
Qed.

Definition small_attr (f : format) (a : N * N * bool) : Prop :=
  fst (fst a) < word_limit f /\ snd (fst a) < limit32.

Definition stored_type (numeric : bool) : ctype := if numeric then TNumber else TString.

Lemma attributes_written : forall ly pg pos l m,
  let e := ly_endian ly in let f := ly_format ly in
  at_pos pg pos (attributes_subheader e f l) -> Forall (small_attr f) l ->
  attributes_meaning ly pg pos (lenN (attributes_subheader e f l)) m
  = MState (m_md m) (m_data_subheaders m) (m_texts m) (m_names m) (m_formats m) (m_labels m)
      (m_offsets m ++ map (fun a => fst (fst a)) l)
      (m_lengths m ++ map (fun a => snd (fst a)) l)
      (m_types m ++ map (fun a => stored_type (snd a)) l).
Proof.
  intros ly pg pos l m e f A B. unfold attributes_meaning. cbv zeta.
  assert (C : list_count (word (ly_format ly)) (word (ly_format ly) + 8) (lenN (attributes_subheader e f l))
              = lenN l).
  { rewrite lenN_attributes. fold f. rewrite word_word. unfold list_count. set (w := word_size f).
    destruct l as [|r l]; [rewrite lenN_nil, N.mul_0_r; destruct (N.leb_spec (2 * w + 20) (2 * w + 12 + 0)); [lia|reflexivity]|].
    rewrite lenN_cons. destruct (N.leb_spec (2 * w + 20) (2 * w + 12 + (w + 8) * (1 + lenN l))); [|lia].
    replace (2 * w + 12 + (w + 8) * (1 + lenN l) - (2 * w + 20))
      with (lenN l * (w + 8) + w) by lia. rewrite N.div_add_l by lia.
    rewrite N.div_small by lia. lia. }
  rewrite C. unfold count_to. replace (N.to_nat (lenN l)) with (length l) by (unfold lenN; lia).
  unfold attributes_subheader in A.
  apply at_pos_r with (q := pos + word (ly_format ly)) in A;
    [|unfold sig_attributes; rewrite lenN_signature; reflexivity].
  apply at_pos_r with (q := pos + word (ly_format ly) + 8 + 0 * (word (ly_format ly) + 8)) in A;
    [|rewrite lenN_zeros; lia].
  apply at_pos_l in A. change (concat (map (attr_enc e f) l)) with
    (concat (map (fun a => attribute e f (fst (fst a)) (snd (fst a)) (snd a)) l)) in A.
  fold (attr_enc e f) in A.
  assert (LE : forall a, lenN (attr_enc e f a) = word (ly_format ly) + 8).
  { intros a. unfold attr_enc. rewrite lenN_attribute. reflexivity. }
  rewrite !map_map. unfold list_pos. f_equal; f_equal.
  - apply (map_at _ _ (attr_enc e f) (fun a => fst (fst a)) (numw ly pg) pg
             (word (ly_format ly) + 8) l 0 _ A).
    apply (Forall_impl _ (P := small_attr f)); [|exact B]. intros a [S1 S2]. split; [apply LE|].
    intros q Q. unfold attr_enc, attribute in Q. apply (at_numw ly); [exact (at_pos_l _ _ _ _ Q)|exact S1].
  - apply (map_at _ _ (attr_enc e f) (fun a => snd (fst a)) (fun p => num32 ly pg (p + word (ly_format ly))) pg
             (word (ly_format ly) + 8) l 0 _ A).
    apply (Forall_impl _ (P := small_attr f)); [|exact B]. intros a [S1 S2]. split; [apply LE|].
    intros q Q. unfold attr_enc, attribute in Q. apply (at_num32 ly); [|exact S2].
    apply at_pos_r with (q := q + word (ly_format ly)) in Q;
      [|rewrite lenN_put_word; reflexivity].
    exact (at_pos_l _ _ _ _ Q).
  - apply (map_at _ _ (attr_enc e f) (fun a => stored_type (snd a))
             (fun p => if byte_at pg (p + word (ly_format ly) + 6) =? 1 then TNumber else TString) pg
             (word (ly_format ly) + 8) l 0 _ A).
    apply (Forall_impl _ (P := small_attr f)); [|exact B]. intros a [S1 S2]. split; [apply LE|].
    intros q Q. unfold attr_enc, attribute in Q.
    apply at_pos_r with (q := q + word (ly_format ly)) in Q;
      [|rewrite lenN_put_word; reflexivity].
    apply at_pos_r with (q := q + word (ly_format ly) + 4) in Q; [|rewrite lenN_put32; reflexivity].
    apply at_pos_r with (q := q + word (ly_format ly) + 6) in Q; [|rewrite lenN_zeros; lia].
    apply at_pos_l in Q. rewrite (at_pos_byte _ _ _ Q). destruct (snd a); reflexivity.
Qed.

(** ** Formats and labels *)

Lemma lenN_format_label : forall e f a b,
  lenN (format_label_subheader e f a b) = 4 * word_size f + 34.
Proof.
  intros e f a b. unfold format_label_subheader, sig_format_label.
  rewrite !lenN_app, lenN_signature, !lenN_zeros, !lenN_text_ref. lia.
Qed.

Lemma format_label_written : forall ly pg pos fmt lab m,
  let e := ly_endian ly in let f := ly_format ly in
  at_pos pg pos (format_label_subheader e f fmt lab) -> small_ref fmt -> small_ref lab ->
  format_label_meaning ly pg pos m
  = MState (m_md m) (m_data_subheaders m) (m_texts m) (m_names m)
      (m_formats m ++ [text_of (m_texts m) fmt]) (m_labels m ++ [text_of (m_texts m) lab])
      (m_offsets m) (m_lengths m) (m_types m).
Proof.
  intros ly pg pos fmt lab m e f A B1 B2. unfold format_label_meaning. cbv zeta.
  unfold format_label_subheader in A.
  apply at_pos_r with (q := pos + word (ly_format ly)) in A;
    [|unfold sig_format_label; rewrite lenN_signature; reflexivity].
  apply at_pos_r with (q := pos + 3 * word (ly_format ly)) in A;
    [|rewrite lenN_zeros; change (word_size f) with (word (ly_format ly)); lia].
  apply at_pos_r with (q := pos + 3 * word (ly_format ly) + 22) in A; [|rewrite lenN_zeros; lia].
  rewrite (ref_written ly _ _ _ (at_pos_l _ _ _ _ A) B1).
  apply at_pos_r with (q := pos + 3 * word (ly_format ly) + 22 + 6) in A; [|rewrite lenN_text_ref; lia].
  rewrite (ref_written ly _ _ _ (at_pos_l _ _ _ _ A) B2). reflexivity.
Qed.
