(** The header and the pages of a file made by the writer of SpecFile. *)
From Verif Require Import Base Types Float DateTime Buffer Header Column Decomp Metadata Data Reader Lemmas
  SpecValues ProofValues SpecHeader ProofHeader SpecReader SpecPages ProofPages SpecMeta ProofMeta
  SpecFile SpecRoundtrip ProofWrite ProofWriteSubs ProofWriteDesc.
From Coq Require Import ZifyBool ZifyNat ZifyN.
Local Open Scope N_scope.

(** ** The header *)

Definition shift_a (shifted : bool) : N := if shifted then 4 else 0.
Definition shift_b (f : format) : N := match f with Bit64 => 4 | Bit32 => 0 end.

Lemma lenN_padded : forall n l, lenN l <= n -> lenN (padded n l) = n.
Proof. intros n l H. unfold padded. rewrite lenN_app, lenN_repeat. lia. Qed.

Lemma lenN_header : forall e f sh hlen plen pages name, good_sizes f sh hlen plen name ->
  lenN (header_bytes e f sh hlen plen pages name) = hlen.
Proof.
  intros e f sh hlen plen pages name (H1 & H2 & H3 & H4 & _). unfold header_bytes. cbv zeta.
  rewrite !lenN_app, !lenN_zeros, !lenN_put32, (lenN_padded 64 name H4).
  rewrite !lenN_padded by (vm_compute; discriminate).
  change (lenN magic) with 32. change (lenN (bs "DATA    ")) with 8. change (lenN (bs "9.0401M2")) with 8.
  rewrite !lenN_cons, !lenN_nil. fold (shift_a sh) in *. fold (shift_b f) in *.
  assert (shift_a sh <= 4) by (destruct sh; discriminate).
  assert (shift_b f <= 4) by (destruct f; discriminate). lia.
Qed.

Lemma zero_dates : forall e, exists t, date_of_bits (value_of e (zeros 8)) t.
Proof.
  intros e. replace (value_of e (zeros 8)) with 0 by (destruct e; reflexivity).
  unfold date_of_bits. eexists. vm_compute. reflexivity.
Qed.

Lemma clean_trimmed : forall n name, clean name -> trimmed_text (padded n name) name.
Proof.
  intros n name C. unfold padded. exists [], (repeat x20 (N.to_nat (n - lenN name))).
  split; [reflexivity|]. split; [constructor|]. split.
  - apply Forall_forall. intros b I. apply repeat_spec in I. subst b. left. right. reflexivity.
  - destruct C as [-> | [(b & r & E & G) (r' & b' & E' & G')]]; [left; reflexivity|right]. split.
    + exists b, r. split; [exact E|]. unfold white, graphic in *. lia.
    + exists r', b'. split; [exact E'|]. unfold white, graphic, printable in *. lia.
Qed.

Lemma header_written : forall c e f sh hlen plen pages name rest,
  good_sizes f sh hlen plen name -> hlen <= max_alloc c ->
  let content := header_bytes e f sh hlen plen pages name ++ rest in
  exists h s b, open_header c file_source (file_open content) = Ok (h, s, b)
    /\ h_format h = f /\ h_endianness h = e /\ h_header_length h = hlen /\ h_page_length h = plen
    /\ h_dataset_name h = name.
Proof.
  intros c e f sh hlen plen pages name rest G M content.
  pose proof (lenN_header e f sh hlen plen pages name G) as LH.
  destruct G as (H1 & H2 & H3 & H4 & CN). fold (shift_a sh) (shift_b f) in H1.
  assert (A : at_pos content 0 (header_bytes e f sh hlen plen pages name)).
  { exists [], rest. split; reflexivity. }
  unfold header_bytes in A. cbv zeta in A. fold (shift_a sh) (shift_b f) in A.
  pose proof (at_pos_l _ _ _ _ A) as AM.
  apply at_pos_r with (q := 32) in A; [|reflexivity].
  pose proof (at_pos_l _ _ _ _ A) as A32.
  apply at_pos_r with (q := 40) in A; [|reflexivity].
  apply at_pos_r with (q := 70) in A; [|rewrite lenN_zeros; reflexivity].
  apply at_pos_r with (q := 71) in A; [|reflexivity].
  apply at_pos_r with (q := 92) in A; [|rewrite lenN_zeros; reflexivity].
  pose proof (at_pos_l _ _ _ _ A) as A92.
  apply at_pos_r with (q := 156) in A; [|rewrite (lenN_padded 64 name H4); reflexivity].
  apply at_pos_r with (q := 164) in A; [|reflexivity].
  apply at_pos_r with (q := 164 + shift_a sh) in A; [|rewrite lenN_zeros; reflexivity].
  change (zeros 16) with (zeros 8 ++ zeros 8) in A at 1. rewrite <- app_assoc in A.
  pose proof (at_pos_l _ _ _ _ A) as A164.
  apply at_pos_r with (q := 172 + shift_a sh) in A; [|rewrite lenN_zeros; lia].
  pose proof (at_pos_l _ _ _ _ A) as A172.
  apply at_pos_r with (q := 180 + shift_a sh) in A; [|rewrite lenN_zeros; lia].
  apply at_pos_r with (q := 196 + shift_a sh) in A; [|rewrite lenN_zeros; lia].
  pose proof (at_pos_l _ _ _ _ A) as A196.
  apply at_pos_r with (q := 200 + shift_a sh) in A; [|rewrite lenN_put32; lia].
  pose proof (at_pos_l _ _ _ _ A) as A200. clear A.
  assert (BY : forall i x, nth_error [match f with Bit64 => x33 | Bit32 => x22 end; x00; x00;
      if sh then x33 else x22; x00; match e with Little => x01 | Big => x00 end; x00; x31] i = Some x ->
      byte_at content (32 + N.of_nat i) = b2n x).
  { intros i x E. apply at_pos_byte. apply nth_error_split in E. destruct E as (u & v & E & L).
    rewrite E in A32. change (u ++ x :: v) with (u ++ [x] ++ v) in A32.
    apply at_pos_r with (q := 32 + N.of_nat i) in A32; [|unfold lenN; lia].
    exact (at_pos_l _ _ _ _ A32). }
  assert (F64 : file_format content = f).
  { unfold file_format, is_64. change 32 with (32 + N.of_nat 0); rewrite (BY 0%nat _ eq_refl). destruct f; reflexivity. }
  assert (FE : file_endian content = e).
  { unfold file_endian. change 37 with (32 + N.of_nat 5); rewrite (BY 5%nat _ eq_refl). destruct e; reflexivity. }
  assert (S1 : shift1 content = shift_a sh).
  { unfold shift1. change 35 with (32 + N.of_nat 3); rewrite (BY 3%nat _ eq_refl). destruct sh; reflexivity. }
  assert (S2 : shift2 content = shift_a sh + shift_b f).
  { unfold shift2, is_64. rewrite S1; change 32 with (32 + N.of_nat 0); rewrite (BY 0%nat _ eq_refl). destruct f; reflexivity. }
  assert (HL : header_length_field content = hlen).
  { unfold header_length_field. rewrite FE, S1, (at_pos_field _ _ _ 4 A196) by (rewrite lenN_put32; reflexivity).
    apply value_of_write. exact H2. }
  assert (DT : header_dates_ok content).
  { destruct (zero_dates e) as [t T]. exists t, t. unfold header_dates_ok. rewrite FE, S1.
    rewrite (at_pos_field _ _ _ 8 A164), (at_pos_field _ _ _ 8 A172) by reflexivity. auto. }
  destruct (header_total c content) as (h & O & HO).
  - unfold has_magic. rewrite (at_pos_field _ _ _ 32 AM) by reflexivity. reflexivity.
  - rewrite HL, S2. lia.
  - rewrite HL. unfold content. rewrite lenN_app. lia.
  - rewrite HL. exact M.
  - exact DT.
  - exists h. eexists _, _. split; [exact O|].
    split; [rewrite (hof_format _ _ HO); exact F64|].
    split; [rewrite (hof_endian _ _ HO); exact FE|].
    split; [rewrite (hof_header_length _ _ HO); exact HL|].
    split.
    + rewrite (hof_page_length _ _ HO), FE, S1, (at_pos_field _ _ _ 4 A200) by (rewrite lenN_put32; reflexivity).
      apply value_of_write. exact H3.
    + apply (trimmed_text_unique (field content 92 64)).
      * exact (hof_name _ _ HO).
      * rewrite (at_pos_field _ _ _ 64 A92) by (rewrite (lenN_padded 64 name H4); reflexivity).
        apply clean_trimmed. exact CN.
Qed.

(** ** The pages *)

Lemma complete_pages_concat : forall plen l, 0 < plen -> Forall (fun pg => lenN pg = plen) l ->
  complete_pages plen (concat l) = l.
Proof.
  intros plen l P F. induction F as [|pg l E F IH]; rewrite complete_pages_eq by exact P.
  - cbn [concat]. rewrite lenN_nil. destruct (N.leb_spec plen 0); [lia|reflexivity].
  - cbn [concat]. rewrite lenN_app. destruct (N.leb_spec plen (lenN pg + lenN (concat l))); [|lia].
    f_equal.
    + apply at_pos_field; [|symmetry; exact E]. exists [], (concat l). auto.
    + rewrite <- IH at 2. f_equal. unfold lenN in E. rewrite skipn_app, skipn_all2 by lia.
      replace (N.to_nat plen - length pg)%nat with 0%nat by lia. reflexivity.
Qed.

Lemma file_pages_written : forall e f sh hlen plen n name pages h,
  good_sizes f sh hlen plen name -> h_header_length h = hlen -> h_page_length h = plen ->
  0 < plen -> Forall (fun pg => lenN pg = plen) pages ->
  file_pages (header_bytes e f sh hlen plen n name ++ concat pages) h = pages.
Proof.
  intros e f sh hlen plen n name pages h G HL PL P F. unfold file_pages. rewrite HL, PL.
  pose proof (lenN_header e f sh hlen plen n name G) as LH. unfold lenN in LH.
  rewrite skipn_app, skipn_all2 by lia.
  replace (N.to_nat hlen - _)%nat with 0%nat by lia. cbn [app skipn].
  apply complete_pages_concat; assumption.
Qed.

Lemma rows_start_eq : forall ly pg n, page_subs ly pg = n ->
  mix_start ly pg = rows_start (ly_format ly) n.
Proof.
  intros ly pg n E. unfold mix_start, rows_start. cbv zeta. rewrite E.
  destruct (ly_format ly); cbn [prefix page_prefix word word_size].
  - replace (16 + 8 + n * (3 * 4)) with (4 * (6 + 3 * n)) by lia. generalize (6 + 3 * n). clear.
    intros k. lia.
  - replace (32 + 8 + n * (3 * 8)) with (8 * (5 + 3 * n)) by lia. generalize (5 + 3 * n). clear.
    intros k. lia.
Qed.

(** The rows written one after the other. *)
Lemma rows_at : forall pg p0 rl rows, at_pos pg p0 (concat rows) ->
  Forall (fun row => lenN row = rl) rows ->
  map (fun k => field pg (p0 + k * rl) rl) (count_to (lenN rows)) = rows.
Proof.
  intros pg p0 rl rows A F. unfold count_to. replace (N.to_nat (lenN rows)) with (length rows) by (unfold lenN; lia).
  rewrite <- (map_id rows) at 2.
  apply (map_at _ _ (fun x : bytes => x) (fun x => x) (fun p => field pg p rl) pg rl rows 0 p0).
  - rewrite map_id, N.mul_0_l, N.add_0_r. exact A.
  - apply (Forall_impl _ (P := fun row => lenN row = rl)); [|exact F]. intros row E. split; [exact E|].
    intros q Q. apply at_pos_field; [exact Q|symmetry; exact E].
Qed.

Lemma lenN_concat_rows : forall rl (rows : list bytes), Forall (fun row => lenN row = rl) rows ->
  lenN (concat rows) = lenN rows * rl.
Proof.
  intros rl rows F. rewrite <- (map_id rows) at 1. apply lenN_concat. exact F.
Qed.

Lemma in_count_to : forall k n, In k (count_to n) -> k < n.
Proof.
  assert (H : forall n i k, In k (from i n) -> k < i + N.of_nat n).
  { induction n as [|n IH]; intros i k I; cbn [from] in I; [contradiction|].
    destruct I as [<-|I]; [lia|]. apply IH in I. lia. }
  intros k n I. apply H in I. lia.
Qed.
