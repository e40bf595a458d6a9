(** What is written by the writer of SpecFile, read back: integers, the table of the
    subheaders, the subheaders of the description. *)
From Verif Require Import Base Types Buffer Header Column Decomp Metadata Data Reader Lemmas
  SpecValues ProofValues SpecHeader ProofHeader SpecReader SpecPages ProofPages SpecMeta ProofMeta
  SpecFile SpecRoundtrip.
From Coq Require Import ZifyBool ZifyNat ZifyN.
Local Open Scope N_scope.

(** ** Pieces of a string *)

Definition at_pos (pg : bytes) (pos : N) (b : bytes) : Prop :=
  exists u v, pg = u ++ b ++ v /\ lenN u = pos.

Lemma at_pos_whole : forall pg, at_pos pg 0 pg.
Proof. intros pg. exists [], []. rewrite app_nil_r. split; reflexivity. Qed.

Lemma at_pos_app : forall pg pos a b, at_pos pg pos (a ++ b) ->
  at_pos pg pos a /\ at_pos pg (pos + lenN a) b.
Proof.
  intros pg pos a b (u & v & E & L). split.
  - exists u, (b ++ v). rewrite E, <- app_assoc. auto.
  - exists (u ++ a), v. rewrite E, lenN_app, !app_assoc. split; [reflexivity|lia].
Qed.

Lemma at_pos_l : forall pg pos a b, at_pos pg pos (a ++ b) -> at_pos pg pos a.
Proof. intros pg pos a b H. exact (proj1 (at_pos_app _ _ _ _ H)). Qed.

Lemma at_pos_r : forall pg pos a b q, at_pos pg pos (a ++ b) -> q = pos + lenN a -> at_pos pg q b.
Proof. intros pg pos a b q H ->. exact (proj2 (at_pos_app _ _ _ _ H)). Qed.

Lemma at_pos_inside : forall pg pos b, at_pos pg pos b -> pos + lenN b <= lenN pg.
Proof. intros pg pos b (u & v & -> & L). rewrite !lenN_app. lia. Qed.

Lemma at_pos_field : forall pg pos b n, at_pos pg pos b -> n = lenN b -> field pg pos n = b.
Proof.
  intros pg pos b n (u & v & -> & L) ->. unfold field, lenN in *.
  rewrite skipn_app, skipn_all2 by lia. replace (N.to_nat pos - length u)%nat with 0%nat by lia.
  cbn [app skipn]. rewrite firstn_app. replace (N.to_nat (N.of_nat (length b)) - length b)%nat with 0%nat by lia.
  rewrite firstn_O, app_nil_r. apply firstn_all2. lia.
Qed.

Lemma at_pos_sub : forall pg pos b q c, at_pos pg pos b -> at_pos b q c -> at_pos pg (pos + q) c.
Proof.
  intros pg pos b q c (u & v & -> & L) (u' & v' & -> & L'). exists (u ++ u'), (v' ++ v).
  rewrite lenN_app, <- !app_assoc. split; [reflexivity|lia].
Qed.

Lemma at_pos_sub_field : forall pg pos b q n, at_pos pg pos b -> q + n <= lenN b ->
  field pg (pos + q) n = field b q n.
Proof.
  intros pg pos b q n A L.
  assert (F : at_pos b q (field b q n)).
  { exists (firstn (N.to_nat q) b), (skipn (N.to_nat (q + n)) b). split.
    - unfold field. replace (skipn (N.to_nat (q + n)) b)
        with (skipn (N.to_nat n) (skipn (N.to_nat q) b)).
      + rewrite firstn_skipn, firstn_skipn. reflexivity.
      + rewrite skipn_skipn'. f_equal. lia.
    - rewrite lenN_firstn. lia. }
  apply at_pos_field; [eapply at_pos_sub; eassumption|]. symmetry. apply lenN_field. exact L.
Qed.

Lemma at_pos_byte : forall pg pos x, at_pos pg pos [x] -> byte_at pg pos = b2n x.
Proof.
  intros pg pos x (u & v & -> & L). unfold byte_at, lenN in *.
  rewrite nth_error_app2 by lia. replace (N.to_nat pos - length u)%nat with 0%nat by lia.
  reflexivity.
Qed.

(** ** Integers *)

Lemma lenN_zeros : forall n, lenN (zeros n) = n.
Proof. intros n. unfold zeros. rewrite lenN_repeat. lia. Qed.

Lemma lenN_write : forall e w v, lenN (write_int e w v) = N.of_nat w.
Proof. intros e w v. unfold lenN. rewrite write_int_length. reflexivity. Qed.

Lemma lenN_put16 : forall e v, lenN (put16 e v) = 2.
Proof. intros e v. apply lenN_write. Qed.
Lemma lenN_put32 : forall e v, lenN (put32 e v) = 4.
Proof. intros e v. apply lenN_write. Qed.
Lemma lenN_put_word : forall e f v, lenN (put_word e f v) = word_size f.
Proof. intros e f v. unfold put_word. rewrite lenN_write. lia. Qed.

Lemma lenN_signature : forall e f n v, lenN (SpecFile.signature e f n v) = word_size f.
Proof. intros e f n v. apply lenN_put_word. Qed.

Lemma lenN_app3 : forall (a b c : bytes), lenN (a ++ b ++ c) = lenN a + lenN b + lenN c.
Proof. intros a b c. rewrite !lenN_app. lia. Qed.

Lemma value_of_write : forall e w v, v < 256 ^ N.of_nat w -> value_of e (write_int e w v) = v.
Proof. intros e w v H. rewrite <- get_val_value. apply get_val_write. exact H. Qed.

Lemma word_word : forall f, word f = word_size f.
Proof. destruct f; reflexivity. Qed.
Lemma prefix_prefix : forall f, prefix f = page_prefix f.
Proof. destruct f; reflexivity. Qed.

Lemma at_num16 : forall ly pg pos v, at_pos pg pos (put16 (ly_endian ly) v) -> v < limit16 ->
  num16 ly pg pos = v.
Proof.
  intros ly pg pos v A L. unfold num16. rewrite (at_pos_field pg pos _ 2 A) by (rewrite lenN_put16; reflexivity).
  apply value_of_write. exact L.
Qed.

Lemma at_num32 : forall ly pg pos v, at_pos pg pos (put32 (ly_endian ly) v) -> v < limit32 ->
  num32 ly pg pos = v.
Proof.
  intros ly pg pos v A L. unfold num32. rewrite (at_pos_field pg pos _ 4 A) by (rewrite lenN_put32; reflexivity).
  apply value_of_write. exact L.
Qed.

Lemma at_numw : forall ly pg pos v, at_pos pg pos (put_word (ly_endian ly) (ly_format ly) v) ->
  v < word_limit (ly_format ly) -> numw ly pg pos = v.
Proof.
  intros ly pg pos v A L. unfold numw.
  rewrite (at_pos_field pg pos _ (word (ly_format ly)) A) by (rewrite lenN_put_word, word_word; reflexivity).
  apply value_of_write. rewrite N2Nat.id. exact L.
Qed.

(** ** The table of the subheaders *)

Fixpoint placed (pos : N) (l : list sub) : list sub_entry :=
  match l with
  | [] => []
  | (b, comp, ty) :: l' => SubEntry pos (lenN b) comp ty :: placed (pos + lenN b) l'
  end.

Lemma lenN_sub_table : forall e f l pos,
  lenN (sub_table e f pos l) = lenN l * (3 * word_size f).
Proof.
  intros e f l. induction l as [|[[b comp] ty] l IH]; intros pos; cbn [sub_table]; [reflexivity|].
  rewrite !lenN_app, !lenN_put_word, lenN_zeros, IH, !lenN_cons, lenN_nil.
  destruct f; cbn [word_size]; lia.
Qed.

Lemma from_map_S : forall A (g : N -> A) n i, map g (from (i + 1) n) = map (fun k => g (k + 1)) (from i n).
Proof. intros A g n. induction n as [|n IH]; intros i; cbn [from map]; [reflexivity|]. rewrite IH. reflexivity. Qed.

Definition sub_small (s : sub) : Prop := snd (fst s) < 256 /\ snd s < 256.

Lemma b2n_byte_of : forall n, n < 256 -> b2n (byte_of n) = n.
Proof. intros n H. rewrite byte_of_n2b, b2n_n2b. apply N.mod_small. exact H. Qed.

Lemma entries_from : forall ly pg l pos i p,
  let e := ly_endian ly in let f := ly_format ly in
  at_pos pg p (sub_table e f pos l) -> p = prefix f + 8 + i * (3 * word f) ->
  pos + lenN (subs_bytes l) < word_limit f -> Forall sub_small l ->
  map (nth_entry ly pg) (from i (length l)) = placed pos l.
Proof.
  intros ly pg l. induction l as [|[[b comp] ty] l IH]; intros pos i p e f A P L S; [reflexivity|].
  cbn [sub_table] in A. unfold subs_bytes in L. cbn [map concat] in L. unfold sub_bytes at 1 in L.
  cbn [fst] in L. rewrite lenN_app in L. apply Forall_cons_iff in S. destruct S as [[S1 S2] S].
  cbn [fst snd] in S1, S2.
  cbn [length from map placed]. f_equal.
  - unfold nth_entry. cbv zeta. fold e f. rewrite <- P. f_equal.
    + change (value_of e (field pg p (word f))) with (numw ly pg p).
      apply at_numw; [exact (at_pos_l _ _ _ _ A)|]. unfold f in *. lia.
    + change (value_of e (field pg (p + word f) (word f))) with (numw ly pg (p + word f)).
      apply at_numw; [|unfold f in *; lia].
      apply at_pos_r with (q := p + word f) in A; [|rewrite lenN_put_word, ?word_word; lia].
      exact (at_pos_l _ _ _ _ A).
    + apply at_pos_r with (q := p + word f) in A; [|rewrite lenN_put_word, ?word_word; lia].
      apply at_pos_r with (q := p + 2 * word f) in A; [|rewrite lenN_put_word, ?word_word; lia].
      change ([byte_of comp; byte_of ty] ++ zeros (word_size f - 2) ++ sub_table e f (pos + lenN b) l)
        with ([byte_of comp] ++ [byte_of ty] ++ zeros (word_size f - 2) ++ sub_table e f (pos + lenN b) l) in A.
      apply at_pos_l in A. rewrite (at_pos_byte _ _ _ A). apply b2n_byte_of. exact S1.
    + apply at_pos_r with (q := p + word f) in A; [|rewrite lenN_put_word, ?word_word; lia].
      apply at_pos_r with (q := p + 2 * word f) in A; [|rewrite lenN_put_word, ?word_word; lia].
      change ([byte_of comp; byte_of ty] ++ zeros (word_size f - 2) ++ sub_table e f (pos + lenN b) l)
        with ([byte_of comp] ++ [byte_of ty] ++ zeros (word_size f - 2) ++ sub_table e f (pos + lenN b) l) in A.
      apply at_pos_r with (q := p + 2 * word f + 1) in A; [|reflexivity].
      apply at_pos_l in A. rewrite (at_pos_byte _ _ _ A). apply b2n_byte_of. exact S2.
  - apply (IH (pos + lenN b) (i + 1) (p + 3 * word f)).
    + fold e f. apply at_pos_r with (q := p + word f) in A; [|rewrite lenN_put_word, ?word_word; lia].
      apply at_pos_r with (q := p + 2 * word f) in A; [|rewrite lenN_put_word, ?word_word; lia].
      apply at_pos_r with (q := p + 2 * word f + 2) in A; [|reflexivity].
      apply at_pos_r with (q := p + 3 * word f) in A; [exact A|].
      rewrite lenN_zeros. destruct f; cbn [word word_size]; lia.
    + fold e f. lia.
    + fold f. unfold subs_bytes. lia.
    + exact S.
Qed.

(** ** A page *)

Record written (ly : layout) (plen ty blocks : N) (subs : list sub) (rows : list bytes)
    (pg : bytes) : Prop := {
  wr_len : lenN pg = plen;
  wr_type : page_type ly pg = ty;
  wr_blocks : blocks < limit16 -> page_blocks ly pg = blocks;
  wr_subs : page_subs ly pg = lenN subs;
  wr_entries : entries ly pg = placed (plen - lenN (subs_bytes subs)) subs;
  wr_rows : at_pos pg (rows_start (ly_format ly) (lenN subs)) (concat rows);
  wr_bytes : at_pos pg (plen - lenN (subs_bytes subs)) (subs_bytes subs)
}.

Lemma page_written : forall ly plen ty blocks subs rows,
  let e := ly_endian ly in let f := ly_format ly in
  ty < limit16 -> lenN subs < limit16 -> plen < limit32 ->
  Forall sub_small subs ->
  rows_start f (lenN subs) + lenN (concat rows) + lenN (subs_bytes subs) <= plen ->
  written ly plen ty blocks subs rows (page_bytes e f plen ty blocks subs rows).
Proof.
  intros ly plen ty blocks subs rows e f T N P S L.
  set (first := plen - lenN (subs_bytes subs)).
  set (start := rows_start f (lenN subs)) in *.
  assert (RS : page_prefix f + 8 + lenN subs * (3 * word_size f) <= start)
    by (unfold start, rows_start; lia).
  set (pg := page_bytes e f plen ty blocks subs rows).
  assert (A : at_pos pg 0 pg) by apply at_pos_whole.
  unfold pg at 2 in A. unfold page_bytes in A. cbv zeta in A. fold start first in A.
  apply at_pos_r with (q := page_prefix f) in A; [|rewrite lenN_zeros; lia].
  pose proof (at_pos_l _ _ _ _ A) as A1.
  apply at_pos_r with (q := page_prefix f + 2) in A; [|rewrite lenN_put16; lia].
  pose proof (at_pos_l _ _ _ _ A) as A2.
  apply at_pos_r with (q := page_prefix f + 4) in A; [|rewrite lenN_put16; lia].
  pose proof (at_pos_l _ _ _ _ A) as A3.
  apply at_pos_r with (q := page_prefix f + 6) in A; [|rewrite lenN_put16; lia].
  apply at_pos_r with (q := page_prefix f + 8) in A; [|rewrite lenN_put16; lia].
  pose proof (at_pos_l _ _ _ _ A) as A4.
  apply at_pos_r with (q := page_prefix f + 8 + lenN subs * (3 * word_size f)) in A;
    [|rewrite lenN_sub_table; lia].
  apply at_pos_r with (q := start) in A; [|rewrite lenN_zeros; lia].
  pose proof (at_pos_l _ _ _ _ A) as A5.
  apply at_pos_r with (q := start + lenN (concat rows)) in A; [|lia].
  apply at_pos_r with (q := first) in A; [|rewrite lenN_zeros; unfold first; lia].
  assert (NS : page_subs ly pg = lenN subs).
  { apply (at_num16 ly); [|exact N]. rewrite prefix_prefix. exact A3. }
  split.
  - unfold pg, page_bytes. cbv zeta. fold start first.
    rewrite !lenN_app, !lenN_zeros, !lenN_put16, lenN_sub_table. unfold first. lia.
  - apply (at_num16 ly); [|exact T]. rewrite prefix_prefix, N.mul_0_r, N.add_0_r. exact A1.
  - intros B. apply (at_num16 ly); [|exact B]. rewrite prefix_prefix. exact A2.
  - exact NS.
  - unfold entries. rewrite NS. unfold count_to.
    replace (N.to_nat (lenN subs)) with (length subs) by (unfold lenN; lia).
    apply (entries_from ly pg subs first 0 (prefix f + 8)).
    + rewrite prefix_prefix. exact A4.
    + fold f. lia.
    + fold f. assert (limit32 <= word_limit f) by (destruct f; vm_compute; discriminate).
      unfold first. lia.
    + exact S.
  - fold f. fold start. exact A5.
  - fold first. exact A.
Qed.

(** The subheaders of a page, one by one. *)
Inductive subs_at (pg : bytes) : N -> list sub -> list sub_entry -> Prop :=
| subs_at_nil : forall pos, subs_at pg pos [] []
| subs_at_cons : forall pos b comp ty l es,
    at_pos pg pos b -> subs_at pg (pos + lenN b) l es ->
    subs_at pg pos ((b, comp, ty) :: l) (SubEntry pos (lenN b) comp ty :: es).

Lemma subs_at_placed : forall pg l pos, at_pos pg pos (subs_bytes l) -> subs_at pg pos l (placed pos l).
Proof.
  intros pg l. induction l as [|[[b comp] ty] l IH]; intros pos A; cbn [placed]; constructor.
  - exact (at_pos_l _ _ _ _ A).
  - apply IH. exact (at_pos_r _ _ _ _ _ A eq_refl).
Qed.

(** ** Signatures *)

Lemma kind_written : forall ly pg pos len comp ty low neg k rest,
  at_pos pg pos (SpecFile.signature (ly_endian ly) (ly_format ly) neg low ++ rest) ->
  kind_of (ly_format ly) (SpecFile.signature (ly_endian ly) (ly_format ly) neg low) = Some k ->
  kind_on ly pg (SubEntry pos len comp ty) = Some k.
Proof.
  intros ly pg pos len comp ty low neg k rest A K. unfold kind_on, SpecPages.signature. cbn [se_pos].
  rewrite (at_pos_field pg pos _ (word (ly_format ly)) (at_pos_l _ _ _ _ A)); [exact K|].
  rewrite lenN_signature, word_word. reflexivity.
Qed.

Lemma kind_row_size : forall e f, kind_of f (sig_row_size e f) = Some KRowSize.
Proof. intros [] []; vm_compute; reflexivity. Qed.
Lemma kind_column_size : forall e f, kind_of f (sig_column_size e f) = Some KColumnSize.
Proof. intros [] []; vm_compute; reflexivity. Qed.
Lemma kind_text : forall e f, kind_of f (sig_text e f) = Some KText.
Proof. intros [] []; vm_compute; reflexivity. Qed.
Lemma kind_names : forall e f, kind_of f (sig_names e f) = Some KNames.
Proof. intros [] []; vm_compute; reflexivity. Qed.
Lemma kind_attributes : forall e f, kind_of f (sig_attributes e f) = Some KAttributes.
Proof. intros [] []; vm_compute; reflexivity. Qed.
Lemma kind_format_label : forall e f, kind_of f (sig_format_label e f) = Some KFormatLabel.
Proof. intros [] []; vm_compute; reflexivity. Qed.
