(** Deciding the hypotheses of the round trips, for the examples. *)
From Verif Require Import Base Types Lemmas SpecValues SpecDecomp SpecMeta ProofMeta SpecFile SpecRoundtrip.
From Coq Require Import ZifyBool ZifyNat ZifyN.
Local Open Scope N_scope.

Definition graphicb (b : byte) : bool := (33 <=? Byte.to_N b) && (Byte.to_N b <=? 126).

Definition cleanb (l : bytes) : bool :=
  match l with
  | [] => true
  | b :: _ => graphicb b && match rev l with x :: _ => graphicb x | [] => false end
  end.

Lemma cleanb_ok : forall l, cleanb l = true -> clean l.
Proof.
  intros [|b l] H; [left; reflexivity|right]. cbn [cleanb] in H. apply andb_true_iff in H. destruct H as [H1 H2].
  destruct (rev (b :: l)) as [|x r] eqn:E; [discriminate|]. split.
  - exists b, l. split; [reflexivity|]. unfold graphic, graphicb in *. lia.
  - exists (rev r), x. split; [|unfold graphic, graphicb in *; lia].
    rewrite <- (rev_involutive (b :: l)), E. reflexivity.
Qed.

Definition good_fieldsb (f : format) (fields : list field_desc) : bool :=
  forallb (fun d => cleanb (fd_name d) && cleanb (fd_label d) && cleanb (fd_format d)
                    && (fd_offset d <? word_limit f) && (fd_length d <? limit32)) fields
  && (28 + lenN (texts_of fields) <? limit16).

Lemma good_fieldsb_ok : forall f fields, good_fieldsb f fields = true -> good_fields f fields.
Proof.
  intros f fields H. unfold good_fieldsb in H. apply andb_true_iff in H. destruct H as [H1 H2].
  split; [|apply N.ltb_lt; exact H2]. apply Forall_forall. intros d I. rewrite forallb_forall in H1.
  specialize (H1 d I). rewrite !andb_true_iff in H1. destruct H1 as ((((A & B) & C) & D) & E).
  split; [apply cleanb_ok; exact A|]. split; [apply cleanb_ok; exact B|]. split; [apply cleanb_ok; exact C|].
  split; apply N.ltb_lt; assumption.
Qed.

Definition no_compression_nameb (fields : list field_desc) : bool :=
  negb (occurs rle_name (texts_of fields)) && negb (occurs rdc_name (texts_of fields)).

Lemma no_compression_nameb_ok : forall fields, no_compression_nameb fields = true -> no_compression_name fields.
Proof.
  intros fields H. unfold no_compression_nameb in H. apply andb_true_iff in H. destruct H as [H1 H2].
  apply negb_true_iff in H1, H2.
  split; intros X.
  - assert (occurs rle_name (texts_of fields) = true) by (apply occurs_spec; exact X). congruence.
  - assert (occurs rdc_name (texts_of fields) = true) by (apply occurs_spec; exact X). congruence.
Qed.

Definition good_sizesb (f : format) (shifted : bool) (hlen plen : N) (name : bytes) : bool :=
  (288 + (if shifted then 4 else 0) + (match f with Bit64 => 4 | Bit32 => 0 end) <=? hlen)
  && (hlen <? limit32) && (plen <? limit32) && (lenN name <=? 64) && cleanb name.

Lemma good_sizesb_ok : forall f sh hlen plen name, good_sizesb f sh hlen plen name = true ->
  good_sizes f sh hlen plen name.
Proof.
  intros f sh hlen plen name H. unfold good_sizesb in H. rewrite !andb_true_iff in H.
  destruct H as ((((A & B) & C) & D) & E). apply N.leb_le in A, D. apply N.ltb_lt in B, C.
  split; [exact A|]. split; [exact B|]. split; [exact C|]. split; [exact D|]. apply cleanb_ok. exact E.
Qed.

Definition good_tableb (e : endian) (f : format) (plen : N) (t : table) : bool :=
  let subs := description e f [] (t_fields t) (t_row_length t) (lenN (t_rows t)) (lenN (t_first t)) in
  good_fieldsb f (t_fields t)
  && forallb (fun row => lenN row =? t_row_length t) (t_rows t)
  && (t_row_length t <? word_limit f) && (lenN (t_rows t) <? word_limit f)
  && (lenN subs <? limit16)
  && (rows_start f (lenN subs) + lenN (concat (t_first t)) + lenN (subs_bytes subs) <=? plen)
  && forallb (fun rows => negb (lenN rows =? 0) && (lenN rows <? limit16)
                          && (rows_start f 0 + lenN (concat rows) <=? plen)) (t_pages t).

Lemma good_tableb_ok : forall e f plen t, good_tableb e f plen t = true -> good_table e f plen t.
Proof.
  intros e f plen t H. unfold good_tableb in H. cbv zeta in H. rewrite !andb_true_iff in H.
  destruct H as ((((((A & B) & C) & D) & E) & F) & G).
  split; [apply good_fieldsb_ok; exact A|]. split.
  { apply Forall_forall. intros row I. rewrite forallb_forall in B. apply N.eqb_eq. exact (B row I). }
  apply N.ltb_lt in C, D, E. apply N.leb_le in F.
  split; [exact C|]. split; [exact D|]. split; [exact E|]. split; [exact F|].
  apply Forall_forall. intros rows I. rewrite forallb_forall in G. specialize (G rows I).
  rewrite !andb_true_iff in G. destruct G as ((X & Y) & Z). apply N.ltb_lt in Y. apply N.leb_le in Z.
  split; [|split; assumption]. intros ->. discriminate.
Qed.

Definition unlikeb (f : format) (stored : bytes) : bool :=
  let b := firstn (N.to_nat (word_size f)) stored in
  (word_size f <=? lenN stored)
  && forallb (fun s => negb (bytes_eqb b s)) (signatures Little f ++ signatures Big f).

Lemma unlikeb_ok : forall f stored, unlikeb f stored = true -> unlike_subheader f stored.
Proof.
  intros f stored H. unfold unlikeb in H. cbv zeta in H. apply andb_true_iff in H. destruct H as [H1 H2].
  split; [apply N.leb_le; exact H1|]. intros e I. rewrite forallb_forall in H2.
  assert (J : In (firstn (N.to_nat (word_size f)) stored) (signatures Little f ++ signatures Big f)).
  { apply in_or_app. destruct e; auto. }
  specialize (H2 _ J). rewrite bytes_eqb_refl in H2. discriminate.
Qed.

Definition good_compressedb (e : endian) (f : format) (plen : N) (k : compression)
    (fields : list field_desc) (row_length : N) (first : list bytes)
    (pages : list (list bytes)) (rows : list bytes) : bool :=
  let subs := description e f (comp_text k) fields row_length (lenN rows) 0 ++ map compressed_row first in
  match k with CompNone => false | _ => true end
  && good_fieldsb f fields && no_compression_nameb fields
  && (row_length <? word_limit f) && (lenN rows <? word_limit f)
  && (lenN subs <? limit16) && (rows_start f (lenN subs) + lenN (subs_bytes subs) <=? plen)
  && forallb (fun l => (lenN l <? limit16) && (rows_start f (lenN l) + lenN (concat l) <=? plen)) pages
  && forallb (unlikeb f) (first_filled (first :: pages)).

Lemma good_compressedb_ok : forall e f plen k fields rl first pages rows,
  good_compressedb e f plen k fields rl first pages rows = true ->
  Forall2 (stored_as k rl) (first ++ concat pages) rows ->
  good_compressed e f plen k fields rl first pages rows.
Proof.
  intros e f plen k fields rl first pages rows H S. unfold good_compressedb in H. cbv zeta in H. rewrite !andb_true_iff in H.
  destruct H as ((((((((A & B) & C) & D) & E) & F) & G) & I) & J).
  apply N.ltb_lt in D, E, F. apply N.leb_le in G.
  split; [intros ->; discriminate|]. split; [apply good_fieldsb_ok; exact B|].
  split; [apply no_compression_nameb_ok; exact C|].
  split; [exact D|]. split; [exact E|]. split; [exact F|]. split; [exact G|].
  split; [|split; [exact S|]].
  - apply Forall_forall. intros l X. rewrite forallb_forall in I. specialize (I l X).
    apply andb_true_iff in I. destruct I as [I1 I2]. apply N.ltb_lt in I1. apply N.leb_le in I2. auto.
  - apply Forall_forall. intros l X. rewrite forallb_forall in J. apply unlikeb_ok. exact (J l X).
Qed.
