(** Proofs about the header. *)
From Verif Require Import Base Types Float DateTime Buffer Encodings Header Page Column
  Metadata Data Reader Lemmas SpecValues SpecBuffer SpecHeader ProofValues ProofBuffer.
From Coq Require Import ZifyBool ZifyNat ZifyN.
Local Open Scope N_scope.

(** ** Trimmed text *)

Lemma isspace_white : forall b, isspace b = true <-> white b.
Proof. intros b. unfold isspace, white, b2n. lia. Qed.

Lemma isprint_printable : forall b, isprint b = true <-> printable b.
Proof. intros b. unfold isprint, printable, b2n. lia. Qed.

Lemma drop_while_head : forall p l b r, drop_while p l = b :: r -> p b = false.
Proof.
  induction l as [|x l IH]; cbn; intros b r H; [discriminate|].
  destruct (p x) eqn:P; [eauto|]. injection H as <- <-. exact P.
Qed.

Lemma drop_while_prefix : forall p l,
  exists a, l = a ++ drop_while p l /\ Forall (fun b => p b = true) a.
Proof.
  induction l as [|x l IH]; cbn; [exists []; auto|].
  destruct (p x) eqn:P.
  - destruct IH as [a [E F]]. exists (x :: a). cbn. split; [congruence|constructor; auto].
  - exists []. auto.
Qed.

Lemma drop_while_end_suffix : forall p l,
  exists t, l = drop_while_end p l ++ t /\ Forall (fun b => p b = true) t
    /\ (drop_while_end p l = [] \/
        exists r b, drop_while_end p l = r ++ [b] /\ p b = false).
Proof.
  intros p l. unfold drop_while_end.
  destruct (drop_while_prefix p (rev l)) as [a [E F]].
  exists (rev a). split.
  - rewrite <- rev_app_distr, <- E, rev_involutive. reflexivity.
  - split; [apply Forall_rev; exact F|].
    destruct (drop_while p (rev l)) as [|b r] eqn:D; [left; reflexivity|right].
    exists (rev r), b. split; [reflexivity|eapply drop_while_head; exact D].
Qed.

Lemma get_string_trim_spec : forall l, trimmed_text l (get_string_trim l).
Proof.
  intros l. unfold get_string_trim.
  set (q := fun b => negb (isprint b) || isspace b).
  destruct (drop_while_prefix isspace l) as [a [E F]].
  destruct (drop_while_end_suffix q (drop_while isspace l)) as [t [E2 [F2 L]]].
  set (r := drop_while_end q (drop_while isspace l)) in *.
  exists a, t. split; [rewrite <- E2; exact E|]. split.
  { eapply Forall_impl; [|exact F]. intros b Hb. apply isspace_white. exact Hb. }
  split.
  { eapply Forall_impl; [|exact F2]. intros b Hb. unfold q in Hb.
    rewrite <- isprint_printable, <- isspace_white.
    destruct (isprint b), (isspace b); cbn in Hb; try discriminate; auto. }
  destruct L as [L|L]; [left; exact L|right]. split.
  - destruct r as [|b r'] eqn:R; [destruct L as [r' [b [L _]]]; destruct r'; discriminate|].
    exists b, r'. split; [reflexivity|]. rewrite <- isspace_white.
    cbn in E2. apply drop_while_head in E2. rewrite E2. discriminate.
  - destruct L as [r' [b [L Q]]]. exists r', b. split; [exact L|].
    rewrite <- isprint_printable, <- isspace_white. unfold q in Q.
    destruct (isprint b), (isspace b); cbn in Q; try discriminate; auto.
Qed.

Lemma app_eq_suffix : forall A (a b c d : list A), a ++ b = c ++ d ->
  exists k, (a = c ++ k /\ d = k ++ b) \/ (c = a ++ k /\ b = k ++ d).
Proof.
  induction a as [|x a IH]; intros b c d H.
  - exists c. right. auto.
  - destruct c as [|y c]; cbn in H.
    + exists (x :: a). left. auto.
    + injection H as -> H. destruct (IH _ _ _ H) as [k [[-> ->]|[-> ->]]]; exists k; auto.
Qed.

Lemma trimmed_text_unique : forall l r1 r2,
  trimmed_text l r1 -> trimmed_text l r2 -> r1 = r2.
Proof.
  assert (NW : forall b, ~ white b -> forall a : bytes, Forall white a -> ~ In b a).
  { intros b Hb a F I. rewrite Forall_forall in F. exact (Hb (F b I)). }
  assert (NP : forall b, printable b -> ~ white b ->
    forall t, Forall (fun b => white b \/ ~ printable b) t -> ~ In b t).
  { intros b P W t F I. rewrite Forall_forall in F. destruct (F b I); contradiction. }
  assert (E0 : forall a1 t1 a2 r2 t2, a1 ++ [] ++ t1 = a2 ++ r2 ++ t2 ->
    Forall white a1 -> Forall (fun b => white b \/ ~ printable b) t1 ->
    (exists r' b, r2 = r' ++ [b] /\ printable b /\ ~ white b) -> False).
  { intros a1 t1 a2 r2 t2 E F1 T1 [r' [b [-> [P W]]]].
    assert (I : In b (a1 ++ [] ++ t1)).
    { rewrite E. rewrite !in_app_iff. right. left. right. left. reflexivity. }
    rewrite !in_app_iff in I. destruct I as [I|[[]|I]].
    - exact (NW b W a1 F1 I).
    - exact (NP b P W t1 T1 I). }
  intros l r1 r2 [a1 [t1 [E1 [A1 [T1 D1]]]]] [a2 [t2 [E2 [A2 [T2 D2]]]]].
  rewrite E1 in E2.
  destruct D1 as [->|[H1 L1]]; destruct D2 as [->|[H2 L2]].
  - reflexivity.
  - exfalso. eauto.
  - exfalso. symmetry in E2. eauto.
  - assert (a1 = a2) as <-.
    { destruct (app_eq_suffix _ _ _ _ _ E2) as [k [[-> K]|[-> K]]].
      - destruct k as [|x k]; [apply app_nil_r|].
        destruct H2 as [b [r' [-> W]]]. injection K as <- K.
        exfalso. apply Forall_app in A1. destruct A1 as [_ A1]. inversion A1. auto.
      - destruct k as [|x k]; [symmetry; apply app_nil_r|].
        destruct H1 as [b [r' [-> W]]]. injection K as <- K.
        exfalso. apply Forall_app in A2. destruct A2 as [_ A2]. inversion A2. auto. }
    apply app_inv_head in E2.
    destruct (app_eq_suffix _ _ _ _ _ E2) as [k [[-> K]|[-> K]]].
    + destruct k as [|x k] using rev_ind; [apply app_nil_r|]. clear IHk.
      destruct L1 as [r' [b [L [P W]]]]. exfalso. rewrite app_assoc in L.
      apply app_inj_tail in L. destruct L as [_ ->].
      refine (NP b P W t2 T2 _). rewrite K, !in_app_iff. left. right. left. reflexivity.
    + destruct k as [|x k] using rev_ind; [symmetry; apply app_nil_r|]. clear IHk.
      destruct L2 as [r' [b [L [P W]]]]. exfalso. rewrite app_assoc in L.
      apply app_inj_tail in L. destruct L as [_ ->].
      refine (NP b P W t1 T1 _). rewrite K, !in_app_iff. left. right. left. reflexivity.
Qed.

(** ** Full buffers: every byte is known *)

Definition full (l : bytes) : mbuf := MBuf (map Some l) (lenN l).

Lemma field_slice : forall l off len, field l off len = slice off len l.
Proof. reflexivity. Qed.

Lemma byte_at_nth : forall l off b, nth_error l (N.to_nat off) = Some b ->
  byte_at l off = b2n b.
Proof. intros l off b H. unfold byte_at. rewrite H. reflexivity. Qed.

Lemma slice1 : forall (l : bytes) off, off + 1 <= lenN l ->
  exists b, slice off 1 l = [b] /\ nth_error l (N.to_nat off) = Some b.
Proof.
  intros l off H. unfold slice, lenN in *.
  destruct (nth_error l (N.to_nat off)) as [b|] eqn:E.
  - exists b. split; [|reflexivity]. apply nth_error_split in E.
    destruct E as [l1 [l2 [-> L]]]. rewrite skipn_app, <- L, Nat.sub_diag, skipn_all.
    reflexivity.
  - apply nth_error_None in E. lia.
Qed.

Lemma get_byte_full : forall l off, off + 1 <= lenN l ->
  exists b, get_byte (full l) off = Ok b /\ b2n b = byte_at l off
            /\ nth_error l (N.to_nat off) = Some b.
Proof.
  intros l off H. unfold get_byte, get_raw, full. cbn [mem].
  rewrite read_cells_map by exact H. destruct (slice1 l off H) as [b [E Nb]].
  exists b. rewrite E. split; [reflexivity|]. split; [|exact Nb].
  symmetry. apply byte_at_nth. exact Nb.
Qed.

Lemma get_byte_full_inv : forall l off b, get_byte (full l) off = Ok b ->
  off + 1 <= lenN l /\ b2n b = byte_at l off.
Proof.
  intros l off b H. assert (R : off + 1 <= lenN l).
  { unfold get_byte, get_raw, full in H. cbn [mem] in H. apply bind_Ok in H. destruct H as [x [H _]].
    apply read_cells_Ok in H. destruct H as [H _]. rewrite lenN_map in H. exact H. }
  split; [exact R|]. destruct (get_byte_full l off R) as [b' [E [V _]]]. congruence.
Qed.

Lemma get_uint_full : forall a e n l off, off + n <= lenN l ->
  get_uint a e n (full l) off = Ok (value_of e (field l off n)).
Proof.
  intros a e n l off H. unfold get_uint, get_raw, full. cbn [mem].
  rewrite read_cells_map by exact H. rewrite <- get_val_value. destruct a; reflexivity.
Qed.

Lemma get_uint_full_inv : forall a e n l off v, get_uint a e n (full l) off = Ok v ->
  off + n <= lenN l /\ v = value_of e (field l off n).
Proof.
  intros a e n l off v H. assert (R : off + n <= lenN l).
  { unfold get_uint, get_raw, full in H. cbn [mem] in H. apply bind_Ok in H. destruct H as [x [H _]].
    assert (H' : read_cells (map Some l) off n = Ok x) by (destruct a; exact H).
    apply read_cells_Ok in H'. destruct H' as [H' _]. rewrite lenN_map in H'. exact H'. }
  split; [exact R|]. rewrite get_uint_full in H by exact R. congruence.
Qed.

Lemma get_string_full : forall a l off n, off + n <= lenN l ->
  get_string a (full l) off n = Ok (get_string_trim (field l off n)).
Proof.
  intros a l off n H. unfold get_string, get_raw, full. cbn [mem].
  rewrite read_cells_map by exact H. destruct a; reflexivity.
Qed.

Lemma get_string_full_inv : forall a l off n r, get_string a (full l) off n = Ok r ->
  off + n <= lenN l /\ trimmed_text (field l off n) r.
Proof.
  intros a l off n r H. assert (R : off + n <= lenN l).
  { unfold get_string, get_raw, full in H. cbn [mem] in H. apply bind_Ok in H. destruct H as [x [H _]].
    assert (H' : read_cells (map Some l) off n = Ok x) by (destruct a; exact H).
    apply read_cells_Ok in H'. destruct H' as [H' _]. rewrite lenN_map in H'. exact H'. }
  split; [exact R|]. rewrite get_string_full in H by exact R. injection H as <-.
  apply get_string_trim_spec.
Qed.

(** Fields of a prefix of the file are fields of the file. *)
Lemma field_prefix : forall l n off len, off + len <= n ->
  field (field l 0 n) off len = field l off len.
Proof. intros. rewrite !field_slice, slice_slice by lia. f_equal. Qed.

Lemma byte_at_prefix : forall l n off, off < n ->
  byte_at (field l 0 n) off = byte_at l off.
Proof.
  intros l n off H. unfold byte_at. rewrite field_slice.
  rewrite nth_error_slice by lia. reflexivity.
Qed.

Lemma lenN_field : forall l off n, off + n <= lenN l -> lenN (field l off n) = n.
Proof. intros. rewrite field_slice. apply lenN_slice_le. assumption. Qed.

Lemma value_of_lt : forall e l, value_of e l < 256 ^ lenN l.
Proof. intros. rewrite <- get_val_value. apply get_val_lt. Qed.

Lemma header_length_lt : forall l, header_length_field l < 2 ^ 32.
Proof.
  intros l. unfold header_length_field.
  eapply N.lt_le_trans; [apply value_of_lt|].
  change (2 ^ 32) with (256 ^ 4). apply N.pow_le_mono_r; [discriminate|].
  rewrite field_slice, lenN_slice. lia.
Qed.

(** ** The first 288 bytes *)

Lemma read_full : forall S c (src : source S) b s len s' data,
  mem b = map Some (field data 0 (msize b)) -> msize b <= lenN data ->
  lenN data = msize b + len -> lenN data < W64 -> lenN data <= max_alloc c ->
  src_read src s len = (s', field data (msize b) len, true) ->
  read_stream c src b s len (msize b) = (Ok true, s', full data).
Proof.
  intros S c src b s len s' data E M L B A R. unfold read_stream.
  rewrite add64_small by lia. rewrite <- L.
  assert (P : data = field data 0 (msize b) ++ field data (msize b) len).
  { rewrite !field_slice. rewrite <- (slice_all _ data) at 1.
    rewrite L, slice_split. reflexivity. }
  assert (LM : lenN (mem b) = msize b).
  { rewrite E, lenN_map. apply lenN_field. lia. }
  assert (LF : lenN (field data (msize b) len) = len) by (apply lenN_field; lia).
  unfold resize. destruct (N.ltb_spec (msize b) (lenN data)) as [G|G].
  - unfold alloc. destruct (N.leb_spec (lenN data) (max_alloc c)); [|lia]. cbn [bind].
    assert (F : (if negb (msize b =? 0)
        then write_cells (repeat None (N.to_nat (lenN data))) 0
               (firstn (N.to_nat (msize b)) (mem b))
        else Ok (repeat None (N.to_nat (lenN data))))
      = Ok (mem b ++ repeat None (N.to_nat len))).
    { rewrite (firstn_all2 (mem b)) by (unfold lenN in LM; lia).
      destruct (N.eqb_spec (msize b) 0) as [Z|Z]; cbn [negb].
      - rewrite Z in LM. destruct (mem b); [|rewrite lenN_cons in LM; lia].
        cbn. f_equal. f_equal. lia.
      - rewrite write_cells_Ok by (rewrite lenN_repeat; lia).
        f_equal. unfold splice. cbn [N.to_nat firstn app Nat.add]. f_equal.
        replace (N.to_nat (lenN data)) with (length (mem b) + N.to_nat len)%nat
          by (unfold lenN in *; lia).
        rewrite repeat_app, skipn_app, repeat_length, Nat.sub_diag.
        rewrite skipn_all2 by (rewrite repeat_length; lia). reflexivity. }
    rewrite F. cbn [bind]. rewrite R. cbn [mem msize].
    rewrite LF. destruct (N.eqb_spec len 0); [lia|].
    rewrite write_cells_Ok by (rewrite lenN_map, lenN_app, lenN_repeat; lia).
    unfold full. do 2 f_equal. f_equal. unfold splice.
    rewrite firstn_app, firstn_all2 by (unfold lenN in LM; lia).
    replace (N.to_nat (msize b) - length (mem b))%nat with 0%nat by (unfold lenN in LM; lia).
    cbn [firstn]. rewrite app_nil_r, skipn_all2.
    + rewrite app_nil_r, E, <- map_app, <- P. reflexivity.
    + rewrite app_length, repeat_length, map_length. unfold lenN in *. lia.
  - rewrite R. cbn [mem msize]. assert (len = 0) as -> by lia.
    rewrite (field_slice _ _ 0), slice_0. cbn [lenN length N.of_nat N.eqb].
    unfold full. rewrite E. do 2 f_equal. f_equal. f_equal.
    rewrite field_slice. replace (msize b) with (lenN data) by lia. apply slice_all.
Qed.

Lemma file_read_all : forall rest n, n < 2 ^ 63 -> n <= lenN rest ->
  file_read (FState rest false false) n
  = (FState (skipn (N.to_nat n) rest) false false, firstn (N.to_nat n) rest, true).
Proof.
  intros rest n H1 H2. unfold file_read. cbn [fs_eof fs_fail fs_rest orb].
  destruct (N.leb_spec (2 ^ 63) n); [lia|].
  destruct (N.leb_spec n (lenN rest)); [reflexivity|lia].
Qed.

Lemma file_read_short : forall rest n, n < 2 ^ 63 -> lenN rest < n ->
  file_read (FState rest false false) n = (FState [] true true, rest, false).
Proof.
  intros rest n H1 H2. unfold file_read. cbn [fs_eof fs_fail fs_rest orb].
  destruct (N.leb_spec (2 ^ 63) n); [lia|].
  destruct (N.leb_spec n (lenN rest)); [lia|reflexivity].
Qed.

Lemma read_stream_false : forall S c (src : source S) b s len off s' data,
  wf_mbuf b -> off + len < W64 ->
  (off + len <= max_alloc c \/ off + len <= msize b) ->
  src_read src s len = (s', data, false) -> lenN data <= len ->
  exists b', read_stream c src b s len off = (Ok false, s', b').
Proof.
  intros S c src b s len off s' data W B A R D.
  destruct (read_stream_spec S c src b s len off s' data false W B A R D)
    as [b' [E _]]. eauto.
Qed.

(** C01 for any source. *)
Lemma ctor_short : forall S c (src : source S) s s' data,
  good_source src -> HEADER_SIZE <= max_alloc c ->
  src_read src s 288 = (s', data, false) ->
  check_header_ctor c src s = Exn E_header_too_short.
Proof.
  intros S c src s s' data G A R. unfold check_header_ctor.
  destruct (G _ _ _ _ _ R) as [D _].
  destruct (read_stream_false S c src empty_mbuf s 288 0 s' data wf_empty) as [b' E];
    [reflexivity|left; exact A|exact R|exact D|].
  unfold HEADER_SIZE. rewrite E. reflexivity.
Qed.

Lemma short_source : forall S c (src : source S) flt s s' data,
  good_source src -> 288 <= max_alloc c ->
  src_read src s 288 = (s', data, false) ->
  open_reader c src flt s = Exn E_header_too_short.
Proof.
  intros S c src flt s s' data G A R. unfold open_reader, open_header, check_header.
  rewrite (ctor_short S c src s s' data G A R). reflexivity.
Qed.

Lemma short_file : forall c flt content,
  lenN content < 288 -> 288 <= max_alloc c ->
  open_reader c file_source flt (file_open content) = Exn E_header_too_short.
Proof.
  intros c flt content L A.
  eapply short_source; [apply file_source_good|exact A|].
  cbn [src_read file_source]. apply file_read_short; [reflexivity|exact L].
Qed.

Lemma ctor_file : forall c content, 288 <= lenN content -> 288 <= max_alloc c ->
  check_header_ctor c file_source (file_open content)
  = Ok (FState (skipn 288 content) false false, full (field content 0 288)).
Proof.
  intros c content L A. unfold check_header_ctor, HEADER_SIZE.
  assert (LF : lenN (field content 0 288) = 288) by (apply lenN_field; lia).
  pose proof (read_full fstate c file_source empty_mbuf (file_open content) 288
    (FState (skipn 288 content) false false) (field content 0 288)) as H.
  cbn [mem msize empty_mbuf] in H.
  rewrite H; [reflexivity|reflexivity|lia|lia|rewrite LF; reflexivity|lia|].
  cbn [src_read file_source]. unfold file_open.
  rewrite file_read_all by (reflexivity || exact L). do 2 f_equal.
  rewrite field_prefix by lia. reflexivity.
Qed.

Lemma magic_check : forall content, 288 <= lenN content ->
  (has_magic content -> check_magic_number (full (field content 0 288)) = Ok tt)
  /\ (~ has_magic content ->
      check_magic_number (full (field content 0 288)) = Exn E_invalid_magic_number).
Proof.
  intros content L.
  assert (E : check_magic_number (full (field content 0 288))
    = if bytes_eqb (field content 0 32) MAGIC_NUMBER then Ok tt
      else Exn E_invalid_magic_number).
  { unfold check_magic_number, get_raw. change (lenN MAGIC_NUMBER) with 32.
    unfold full. cbn [mem]. rewrite read_cells_map by (rewrite lenN_field; lia).
    cbn [bind]. rewrite <- field_slice, field_prefix by lia. reflexivity. }
  assert (M : has_magic content <-> field content 0 32 = MAGIC_NUMBER).
  { unfold has_magic. change (map Byte.to_N (field content 0 32)
      = map Byte.to_N MAGIC_NUMBER <-> field content 0 32 = MAGIC_NUMBER).
    split; [|congruence]. generalize (field content 0 32), MAGIC_NUMBER.
    intros l. induction l as [|x b IH]; intros [|y b']; cbn; intros H; try discriminate; auto.
    injection H as H1 H2. apply b2n_inj in H1. f_equal; auto. }
  rewrite E. split; intros H.
  - apply M in H. rewrite H, bytes_eqb_refl. reflexivity.
  - destruct (bytes_eqb (field content 0 32) MAGIC_NUMBER) eqn:Q; [|reflexivity].
    apply bytes_eqb_true in Q. tauto.
Qed.

(** C02. *)
Lemma wrong_magic : forall c flt content,
  288 <= lenN content -> 288 <= max_alloc c -> ~ has_magic content ->
  open_reader c file_source flt (file_open content) = Exn E_invalid_magic_number.
Proof.
  intros c flt content L A M. unfold open_reader, open_header, check_header.
  rewrite ctor_file by assumption. cbn [bind].
  rewrite (proj2 (magic_check content L) M). reflexivity.
Qed.

Lemma beq_b2n : forall b x, beq b x = (b2n b =? b2n x).
Proof.
  intros b x. destruct (N.eqb_spec (b2n b) (b2n x)) as [E|E].
  - apply b2n_inj in E. subst. apply beq_refl.
  - apply beq_false. congruence.
Qed.

(** ** The whole header of a file *)

Definition the_header (c : cfg) (content : bytes) : res header :=
  set_header c (file_endian content) (file_format content)
    (full (field content 0 (header_length_field content))) (shift1 content)
    (shift2 content) (header_length_field content).

Lemma open_header_file : forall c content,
  288 <= lenN content -> has_magic content -> 288 <= max_alloc c ->
  open_header c file_source (file_open content) =
  if header_length_field content <? 288
  then (if ndebug c then Exn E_header_too_short else Abort)
  else if negb (header_length_field content <=? max_alloc c)
  then Exn E_bad_alloc
  else if lenN content <? header_length_field content
  then Exn E_header_too_short
  else
    h <- the_header c content ;;
    Ok (h, FState (skipn (N.to_nat (header_length_field content)) content) false false,
        full (field content 0 (header_length_field content))).
Proof.
  intros c content L M A. unfold open_header, check_header.
  rewrite ctor_file by assumption. cbn [bind].
  rewrite (proj1 (magic_check content L) M). cbn [bind].
  assert (LF : lenN (field content 0 288) = 288) by (apply lenN_field; lia).
  unfold set_aligns_endianness.
  destruct (get_byte_full (field content 0 288) 32) as [b32 [E32 [V32 _]]]; [lia|].
  destruct (get_byte_full (field content 0 288) 35) as [b35 [E35 [V35 _]]]; [lia|].
  destruct (get_byte_full (field content 0 288) 37) as [b37 [E37 [V37 _]]]; [lia|].
  rewrite E32, E35, E37. cbn [bind]. rewrite !beq_b2n, V32, V35, V37.
  rewrite !byte_at_prefix by lia.
  change (b2n x33) with 0x33. change (b2n x01) with 1.
  set (hl := header_length_field content).
  unfold read_header. cbn [ch_big ch_64 ch_align1 ch_align2 ch_is ch_buf].
  replace (if negb (byte_at content 37 =? 1) then Big else Little)
    with (file_endian content)
    by (unfold file_endian; destruct (byte_at content 37 =? 1); reflexivity).
  replace (if byte_at content 32 =? 51 then Bit64 else Bit32) with (file_format content)
    by reflexivity.
  replace (if byte_at content 35 =? 51 then 4 else 0) with (shift1 content) by reflexivity.
  replace (shift1 content + (if byte_at content 32 =? 51 then 4 else 0))
    with (shift2 content) by reflexivity.
  assert (S1 : shift1 content <= 4) by (unfold shift1; destruct (_ =? _); lia).
  unfold set_header_length_and_read. unfold get_uint32.
  rewrite get_uint_full by lia. rewrite field_prefix by lia.
  fold (header_length_field content). fold hl. cbn [bind]. unfold HEADER_SIZE.
  assert (HB : hl < 2 ^ 32) by apply header_length_lt.
  unfold fmt_assert. destruct (N.ltb_spec hl 288) as [S|S].
  { destruct (N.leb_spec 288 hl); [lia|]. destruct (ndebug c) eqn:Nd; [|reflexivity].
    cbn [bind].
    assert (W : hl -! 288 = W64 + hl - 288).
    { unfold sub64, u64. rewrite (N.mod_small 288) by reflexivity.
      rewrite N.mod_small by (unfold W64; lia). lia. }
    rewrite W. unfold read_stream. unfold add64.
    assert (Wr : u64 (288 + (W64 + hl - 288)) = hl).
    { unfold u64. replace (288 + (W64 + hl - 288)) with (hl + 1 * W64)
        by (unfold W64; lia).
      rewrite N.mod_add by discriminate. apply N.mod_small. unfold W64. lia. }
    rewrite Wr.
    unfold resize. cbn [msize full mem]. rewrite LF.
    destruct (N.ltb_spec 288 hl); [lia|].
    cbn [src_read file_source]. unfold file_read. cbn [fs_eof fs_fail fs_rest orb].
    destruct (N.leb_spec (2 ^ 63) (W64 + hl - 288)); [|unfold W64 in *; lia].
    reflexivity. }
  destruct (N.leb_spec 288 hl); [|lia].
  assert (F : (if ndebug c then Ok tt else Ok tt) = @Ok unit tt) by (destruct (ndebug c); reflexivity).
  rewrite F. cbn [bind].
  rewrite sub64_small by (unfold W64; lia).
  destruct (N.leb_spec hl (max_alloc c)) as [Al|Al]; cbn [negb].
  2:{ rewrite read_stream_bad_alloc; [reflexivity|unfold W64; lia|lia|].
      unfold full. cbn [msize]. lia. }
  destruct (N.ltb_spec (lenN content) hl) as [Sh|Sh].
  - destruct (read_stream_false fstate c file_source (full (field content 0 288))
      (FState (skipn 288 content) false false) (hl - 288) 288
      (FState [] true true) (skipn 288 content)) as [b' E].
    + unfold wf_mbuf, full. cbn. rewrite lenN_map. lia.
    + unfold W64. lia.
    + left. lia.
    + cbn [src_read file_source]. apply file_read_short; [lia|].
      rewrite lenN_skipn. lia.
    + rewrite lenN_skipn. lia.
    + rewrite E. reflexivity.
  - assert (LH : lenN (field content 0 hl) = hl) by (apply lenN_field; lia).
    pose proof (read_full fstate c file_source (full (field content 0 288))
      (FState (skipn 288 content) false false) (hl - 288)
      (FState (skipn (N.to_nat hl) content) false false) (field content 0 hl)) as H1.
    cbn [full mem msize] in H1. rewrite LF in H1. fold (full (field content 0 288)) in H1.
    unfold full at 1 in H1. rewrite LF in H1.
    replace (MBuf (map Some (field content 0 288)) 288) with (full (field content 0 288)) in H1
      by (unfold full; rewrite LF; reflexivity).
    rewrite H1; clear H1.
    + cbn [bind]. unfold the_header. fold hl. reflexivity.
    + rewrite field_prefix by lia. reflexivity.
    + lia.
    + lia.
    + rewrite LH. unfold W64. lia.
    + lia.
    + cbn [src_read file_source]. rewrite file_read_all by (rewrite ?lenN_skipn; lia).
      do 2 f_equal.
      * f_equal. rewrite skipn_skipn'. f_equal. lia.
      * rewrite field_prefix by lia. unfold field. reflexivity.
Qed.

Lemma shift2_le : forall content, shift1 content <= shift2 content <= 8 /\ shift1 content <= 4.
Proof.
  intros content. unfold shift2, shift1.
  destruct (byte_at content 35 =? 51), (is_64 content); lia.
Qed.

Ltac bind_inv H :=
  let x := fresh "x" in let E := fresh "E" in
  apply bind_Ok in H; destruct H as [x [E H]].

(** C03. *)
Lemma the_header_spec : forall c content h,
  header_length_field content <= lenN content ->
  the_header c content = Ok h -> header_of_file content h.
Proof.
  intros c content h L H. unfold the_header, set_header in H.
  set (hl := header_length_field content) in *.
  set (l := field content 0 hl) in *.
  assert (LL : lenN l = hl) by (apply lenN_field; lia).
  do 15 bind_inv H.
  assert (B : forall off b, get_byte (full l) off = Ok b -> b2n b = byte_at content off).
  { intros off b G. apply get_byte_full_inv in G. destruct G as [R V].
    unfold l in V. rewrite byte_at_prefix in V by lia. exact V. }
  assert (U : forall a e n off v, get_uint a e n (full l) off = Ok v ->
    v = value_of e (field content off n)).
  { intros a e n off v G. apply get_uint_full_inv in G. destruct G as [R V].
    unfold l in V. rewrite field_prefix in V by lia. exact V. }
  assert (T : forall a n off r, get_string a (full l) off n = Ok r ->
    trimmed_text (field content off n) r).
  { intros a n off r G. apply get_string_full_inv in G. destruct G as [R V].
    unfold l in V. rewrite field_prefix in V by lia. exact V. }
  bind_inv H. injection H as <-.
  constructor; cbn [h_format h_endianness h_platform h_date_created h_date_modified
    h_dataset_name h_encoding h_file_type h_sas_release h_sas_server_type h_os_type
    h_os_name h_header_length h_page_length h_page_count].
  - reflexivity.
  - reflexivity.
  - rewrite !beq_b2n. rewrite (B _ _ E0). reflexivity.
  - eexists. split; [|reflexivity]. apply B. exact E1.
  - eapply T. exact E2.
  - eapply T. exact E3.
  - unfold date_of_bits. rewrite <- (U _ _ _ _ _ E4). exact E5.
  - unfold date_of_bits. rewrite <- (U _ _ _ _ _ E6). exact E7.
  - reflexivity.
  - eapply U. exact E8.
  - eapply U. exact E9.
  - eapply T. exact E10.
  - eapply T. exact E11.
  - eapply T. exact E12.
  - rewrite beq_b2n in E14. rewrite (B _ _ E13) in E14. change (b2n x00) with 0 in E14.
    destruct (byte_at content (272 + shift2 content) =? 0); cbn [negb] in E14;
      eapply T; exact E14.
Qed.

Lemma header_opened : forall c content h s b,
  open_header c file_source (file_open content) = Ok (h, s, b) ->
  288 <= lenN content /\ has_magic content
  /\ 288 <= header_length_field content <= lenN content
  /\ the_header c content = Ok h
  /\ s = FState (skipn (N.to_nat (header_length_field content)) content) false false
  /\ b = full (field content 0 (header_length_field content)).
Proof.
  intros c content h s b H.
  destruct (N.le_gt_cases 288 (max_alloc c)) as [A|A].
  2:{ exfalso. unfold open_header, check_header, check_header_ctor in H.
      rewrite read_stream_bad_alloc in H; [discriminate|reflexivity|exact A|reflexivity]. }
  destruct (N.le_gt_cases 288 (lenN content)) as [L|L].
  2:{ exfalso. unfold open_header, check_header in H.
      rewrite (ctor_short _ c file_source (file_open content) (FState [] true true) content) in H;
        [discriminate|apply file_source_good|exact A|].
      cbn [src_read file_source]. apply file_read_short; [reflexivity|exact L]. }
  assert (M : has_magic content).
  { assert (D : {has_magic content} + {~ has_magic content})
      by (unfold has_magic; apply list_eq_dec, N.eq_dec).
    destruct D as [M|M]; [exact M|]. exfalso. unfold open_header, check_header in H.
    rewrite ctor_file in H by assumption. cbn [bind] in H.
    rewrite (proj2 (magic_check content L) M) in H. discriminate. }
  rewrite open_header_file in H by assumption.
  destruct (N.ltb_spec (header_length_field content) 288) as [S|S];
    [destruct (ndebug c); discriminate|].
  destruct (N.leb_spec (header_length_field content) (max_alloc c)); cbn [negb] in H;
    [|discriminate].
  destruct (N.ltb_spec (lenN content) (header_length_field content)); [discriminate|].
  apply bind_Ok in H. destruct H as [h' [E H]]. injection H as <- <- <-.
  repeat split; auto; lia.
Qed.

Lemma open_reader_header : forall c flt content r ev,
  open_reader c file_source flt (file_open content) = Ok (r, ev) ->
  exists s b, open_header c file_source (file_open content) = Ok (rs_h r, s, b).
Proof.
  intros c flt content r ev H. unfold open_reader in H.
  apply bind_Ok in H. destruct H as [[[h s] b] [E H]].
  apply bind_Ok in H. destruct H as [[[p md] dsh] [E2 H]].
  apply bind_Ok in H. destruct H as [d [E3 H]]. injection H as <- <-.
  exists s, b. exact E.
Qed.

Lemma reader_header : forall c flt content r ev,
  open_reader c file_source flt (file_open content) = Ok (r, ev) ->
  has_magic content /\ header_of_file content (rs_h r)
  /\ 288 <= h_header_length (rs_h r) <= lenN content.
Proof.
  intros c flt content r ev H.
  destruct (open_reader_header _ _ _ _ _ H) as [s [b E]].
  apply header_opened in E. destruct E as [_ [M [R [T _]]]].
  assert (O : header_of_file content (rs_h r))
    by (eapply the_header_spec; [|exact T]; lia).
  split; [exact M|]. split; [exact O|]. rewrite (hof_header_length _ _ O). exact R.
Qed.

(** The dates of the header are convertible. *)
Definition header_dates_ok (content : bytes) : Prop :=
  exists t1 t2,
    date_of_bits (value_of (file_endian content)
                    (field content (164 + shift1 content) 8)) t1
    /\ date_of_bits (value_of (file_endian content)
                    (field content (172 + shift1 content) 8)) t2.

Lemma the_header_steps : forall c content,
  288 + shift2 content <= header_length_field content <= lenN content ->
  exists pf enc name ftype plen pcount rel srv ost osn,
  the_header c content =
  (t1 <- get_datetime_from_epoch (sf_of_bits (value_of (file_endian content)
                    (field content (164 + shift1 content) 8))) ;;
   t2 <- get_datetime_from_epoch (sf_of_bits (value_of (file_endian content)
                    (field content (172 + shift1 content) 8))) ;;
   Ok (Header (file_format content) (file_endian content) pf t1 t2 name enc ftype
         rel srv ost osn (header_length_field content) plen pcount)).
Proof.
  intros c content R. destruct (shift2_le content) as [S1 S2].
  unfold the_header, set_header.
  set (hl := header_length_field content) in *.
  set (l := field content 0 hl).
  assert (LL : lenN l = hl) by (apply lenN_field; lia).
  assert (F : fmt_assert c (288 + shift2 content <=? msize (full l)) = Ok tt).
  { unfold fmt_assert, full. cbn [msize]. rewrite LL.
    destruct (N.leb_spec (288 + shift2 content) hl); [|lia]. destruct (ndebug c); reflexivity. }
  rewrite F. cbn [bind].
  destruct (get_byte_full l 39) as [b39 [-> _]]; [lia|]. cbn [bind].
  destruct (get_byte_full l 70) as [b70 [-> _]]; [lia|]. cbn [bind].
  rewrite !get_string_full by lia. cbn [bind]. unfold get_double_bits, get_uint32.
  rewrite !get_uint_full by lia. cbn [bind]. unfold l.
  rewrite !field_prefix by lia. fold l.
  destruct (get_byte_full l (272 + shift2 content)) as [b272 [-> _]]; [lia|]. cbn [bind].
  destruct (negb (beq b272 x00)); cbn [bind]; do 10 eexists; reflexivity.
Qed.

Lemma datetime_no_exn : forall x,
  (exists t, get_datetime_from_epoch x = Ok t)
  \/ get_datetime_from_epoch x = Undef UB_lround
  \/ get_datetime_from_epoch x = Undef UB_overflow.
Proof.
  intros x. unfold get_datetime_from_epoch.
  destruct (sf_isnan x); [left; eexists; reflexivity|].
  assert (LR : forall y, (exists z, lround y = Ok z) \/ lround y = Undef UB_lround).
  { intros y. unfold lround. destruct y; auto; [left; eauto|].
    destruct (int64_ok _); eauto. }
  assert (AI : forall a b, (exists z, add_i64 a b = Ok z) \/ add_i64 a b = Undef UB_overflow).
  { intros a b. unfold add_i64. destruct (int64_ok _); eauto. }
  assert (MI : forall a b, (exists z, mul_i64 a b = Ok z) \/ mul_i64 a b = Undef UB_overflow).
  { intros a b. unfold mul_i64. destruct (int64_ok _); eauto. }
  unfold add_days.
  repeat match goal with
  | |- context [bind (lround ?y) _] =>
      destruct (LR y) as [[? ->]| ->]; cbn [bind noexcept]; [|auto]
  | |- context [bind (add_i64 ?y ?z) _] =>
      destruct (AI y z) as [[? ->]| ->]; cbn [bind noexcept]; [|auto]
  | |- context [bind (mul_i64 ?y ?z) _] =>
      destruct (MI y z) as [[? ->]| ->]; cbn [bind noexcept]; [|auto]
  end. left. eexists. reflexivity.
Qed.

Lemma header_total : forall c content,
  has_magic content -> 288 + shift2 content <= header_length_field content ->
  header_length_field content <= lenN content -> header_length_field content <= max_alloc c ->
  header_dates_ok content ->
  exists h, open_header c file_source (file_open content) =
    Ok (h, FState (skipn (N.to_nat (header_length_field content)) content) false false,
        full (field content 0 (header_length_field content)))
    /\ header_of_file content h.
Proof.
  intros c content M R L A [t1 [t2 [D1 D2]]].
  assert (T : exists h, the_header c content = Ok h).
  { destruct (the_header_steps c content (conj R L))
      as [pf [enc [name [ftype [plen [pcount [rel [srv [ost [osn ->]]]]]]]]]].
    unfold date_of_bits in D1, D2. rewrite D1, D2. eexists. reflexivity. }
  destruct T as [h T]. exists h. split; [|eapply the_header_spec; [exact L|exact T]].
  rewrite open_header_file by (lia || assumption).
  destruct (N.ltb_spec (header_length_field content) 288); [lia|].
  destruct (N.leb_spec (header_length_field content) (max_alloc c)); cbn [negb]; [|lia].
  destruct (N.ltb_spec (lenN content) (header_length_field content)); [lia|].
  rewrite T. reflexivity.
Qed.

(** C04. *)
Lemma header_consumed : forall c content h s b,
  open_header c file_source (file_open content) = Ok (h, s, b) ->
  s = FState (skipn (N.to_nat (h_header_length h)) content) false false.
Proof.
  intros c content h s b H. apply header_opened in H.
  destruct H as [_ [_ [R [T [-> _]]]]].
  assert (O : header_of_file content h) by (eapply the_header_spec; [|exact T]; lia).
  rewrite (hof_header_length _ _ O). reflexivity.
Qed.

Lemma header_cut : forall c flt content,
  288 <= lenN content -> has_magic content ->
  288 <= header_length_field content -> header_length_field content <= max_alloc c ->
  lenN content < header_length_field content ->
  open_reader c file_source flt (file_open content) = Exn E_header_too_short.
Proof.
  intros c flt content L M R A S. unfold open_reader.
  rewrite open_header_file by (lia || assumption).
  destruct (N.ltb_spec (header_length_field content) 288); [lia|].
  destruct (N.leb_spec (header_length_field content) (max_alloc c)); cbn [negb]; [|lia].
  destruct (N.ltb_spec (lenN content) (header_length_field content)); [|lia].
  reflexivity.
Qed.

Lemma header_length_small : forall c flt content,
  288 <= lenN content -> has_magic content -> 288 <= max_alloc c ->
  header_length_field content < 288 ->
  open_reader c file_source flt (file_open content)
  = if ndebug c then Exn E_header_too_short else Abort.
Proof.
  intros c flt content L M A R. unfold open_reader.
  rewrite open_header_file by (lia || assumption).
  destruct (N.ltb_spec (header_length_field content) 288); [|lia].
  destruct (ndebug c); reflexivity.
Qed.

(** C05. *)
Lemma header_safe : forall c content,
  288 <= max_alloc c ->
  (ndebug c = false \/ 288 + shift2 content <= header_length_field content
   \/ header_length_field content < 288) ->
  ~ memory_error (open_header c file_source (file_open content)).
Proof.
  intros c content A R.
  destruct (N.le_gt_cases 288 (lenN content)) as [L|L].
  2:{ unfold open_header, check_header.
      rewrite (ctor_short _ c file_source (file_open content) (FState [] true true) content);
        [intros []|apply file_source_good|exact A|].
      cbn [src_read file_source]. apply file_read_short; [reflexivity|exact L]. }
  assert (D : {has_magic content} + {~ has_magic content})
    by (unfold has_magic; apply list_eq_dec, N.eq_dec).
  destruct D as [M|M].
  2:{ unfold open_header, check_header. rewrite ctor_file by assumption. cbn [bind].
      rewrite (proj2 (magic_check content L) M). intros []. }
  rewrite open_header_file by assumption.
  destruct (N.ltb_spec (header_length_field content) 288); [destruct (ndebug c); intros []|].
  destruct (N.leb_spec (header_length_field content) (max_alloc c)); cbn [negb]; [|intros []].
  destruct (N.ltb_spec (lenN content) (header_length_field content)); [intros []|].
  destruct (N.le_gt_cases (288 + shift2 content) (header_length_field content)) as [B|B].
  - destruct (the_header_steps c content) as
      [pf [enc [name [ftype [plen [pcount [rel [srv [ost [osn ->]]]]]]]]]]; [lia|].
    destruct (datetime_no_exn (sf_of_bits (value_of (file_endian content)
      (field content (164 + shift1 content) 8)))) as [[t1 ->]|[->| ->]];
      cbn [bind memory_error]; [|intros []|intros []].
    destruct (datetime_no_exn (sf_of_bits (value_of (file_endian content)
      (field content (172 + shift1 content) 8)))) as [[t2 ->]|[->| ->]];
      cbn [bind memory_error]; intros [].
  - destruct R as [R|[R|R]]; [|lia|lia].
    unfold the_header, set_header, fmt_assert. rewrite R. unfold full at 1. cbn [msize].
    rewrite lenN_field by lia.
    destruct (N.leb_spec (288 + shift2 content) (header_length_field content)); [lia|].
    intros [].
Qed.

(** ** Witnesses *)

(** A header of 288 bytes: magic number, then the bytes of [l] at their place. *)
Definition set_at (off : N) (new l : bytes) : bytes :=
  firstn (N.to_nat off) l ++ new ++ skipn (N.to_nat off + length new) l.

Definition sample_header (b32 b35 b37 : byte) (hl : N) (total : nat) : bytes :=
  set_at 196 (write_int Little 4 hl)
    (set_at 200 (write_int Little 4 hl)
      (set_at 32 [b32; x00; x00; b35; x00; b37; x00; x31]
        (set_at 70 [x14] (set_at 92 (bs "SAMPLE") (set_at 156 (bs "DATA    ")
          (set_at 0 MAGIC_NUMBER (repeat x00 total))))))).

(** A file of 288 bytes, header length 288, 64 bit, last byte not zero. *)
Definition oob_header : bytes := set_at 280 [x4c] (sample_header x33 x33 x01 288 288).
(** With the length field at 200 because of the shift; it is 288 as well. *)

Lemma oob_header_read : exists content,
  header_length_field content = 288 /\ lenN content = 288 /\ has_magic content
  /\ forall flt, open_reader (Cfg true 1000 10) file_source flt (file_open content)
     = Undef UB_oob_read.
Proof.
  exists oob_header. split; [vm_compute; reflexivity|]. split; [vm_compute; reflexivity|].
  split; [vm_compute; reflexivity|]. intros flt.
  unfold open_reader.
  replace (open_header (Cfg true 1000 10) file_source (file_open oob_header))
    with (@Undef (header * fstate * mbuf) UB_oob_read) by (vm_compute; reflexivity).
  reflexivity.
Qed.

(** A source in memory which hands out as many bytes as it has. *)
Definition mem_source : source bytes :=
  Source (fun l => match l with [] => true | _ => false end)
    (fun l n => (skipn (N.to_nat (N.min n (lenN l))) l,
                 firstn (N.to_nat (N.min n (lenN l))) l, n <=? lenN l)).

Lemma mem_source_good : good_source mem_source.
Proof.
  intros l n s' data ok H. cbn in H. injection H as <- <- <-.
  rewrite lenN_firstn. destruct (N.leb_spec n (lenN l)); split; try lia; discriminate.
Qed.

Lemma short_header_write : exists content,
  header_length_field content = 200 /\ has_magic content /\ good_source mem_source
  /\ forall flt, open_reader (Cfg true 1000 10) mem_source flt content
     = Undef UB_oob_write.
Proof.
  exists (sample_header x00 x00 x01 200 300).
  split; [vm_compute; reflexivity|]. split; [vm_compute; reflexivity|].
  split; [apply mem_source_good|]. intros flt. unfold open_reader.
  replace (open_header (Cfg true 1000 10) mem_source (sample_header x00 x00 x01 200 300))
    with (@Undef (header * bytes * mbuf) UB_oob_write) by (vm_compute; reflexivity).
  reflexivity.
Qed.
