(** Proofs about the pages read by the constructor. *)
From Verif Require Import Base Types Lemmas Buffer Page Header Column Metadata Decomp Data
  Reader SpecValues SpecBuffer SpecHeader SpecDecomp SpecReader SpecPages ProofValues
  ProofBuffer ProofHeader ProofDecomp ProofMetaInv ProofReader ProofPages.
Local Open Scope N_scope.

(** ** Signatures *)

Lemma sig_eq : forall e w v sig, length sig = w -> v < 256 ^ N.of_nat w ->
  bytes_eqb (write_int e w v) sig = (value_of e sig =? v).
Proof.
  intros e w v sig L B.
  assert (V : value_of e (write_int e w v) = v).
  { rewrite <- get_val_value. apply get_val_write. exact B. }
  destruct (N.eqb_spec (value_of e sig) v) as [E|E].
  - apply bytes_eqb_true. apply (value_of_facts sig) with (e := e).
    + rewrite write_int_length. auto.
    + congruence.
  - apply bytes_eqb_false. intros <-. apply E. exact V.
Qed.

Definition table_of (f : format) (k : kind) : list bytes :=
  match k with
  | KRowSize => ROW_SIZE_SUBHEADER f
  | KColumnSize => COLUMN_SIZE_SUBHEADER f
  | KCounts => SUBHEADER_COUNTS_SUBHEADER f
  | KText => COLUMN_TEXT_SUBHEADER f
  | KNames => COLUMN_NAME_SUBHEADER f
  | KAttributes => COLUMN_ATTRIBUTES_SUBHEADER f
  | KFormatLabel => FORMAT_AND_LABEL_SUBHEADER f
  | KList => COLUMN_LIST_SUBHEADER f
  end.

Lemma table_of_numbers : forall f k,
  let w := N.to_nat (word f) in let n := kind_number f k in
  table_of f k = [write_int Big w n; write_int Little w n]
  \/ table_of f k = [write_int Little w n; write_int Big w n]
  \/ (table_of f k = [write_int Little w n] /\ write_int Big w n = write_int Little w n).
Proof. destruct f, k; vm_compute; auto. Qed.

Lemma match_kind : forall f k sig, lenN sig = word f ->
  match_signature (table_of f k) sig = is_kind f k sig.
Proof.
  intros f k sig L. unfold is_kind.
  assert (LL : length sig = N.to_nat (word f)) by (unfold lenN in L; lia).
  assert (B : kind_number f k < 256 ^ N.of_nat (N.to_nat (word f)))
    by (destruct f, k; vm_compute; reflexivity).
  rewrite <- !(fun e => sig_eq e _ _ _ LL B).
  destruct (table_of_numbers f k) as [E|[E|[E E']]]; rewrite E; unfold match_signature;
    cbn [existsb]; rewrite orb_false_r; [apply orb_comm|reflexivity|].
  rewrite E'. destruct (bytes_eqb _ _); reflexivity.
Qed.

(** The handler of a subheader of a known kind. *)
Definition handler (e : endian) (f : format) (b : mbuf) (k : kind) (sh : page_subheader)
    (m : mstate) : res mstate :=
  match k with
  | KRowSize => process_ROW_SIZE e f b sh m
  | KColumnSize => process_COLUMN_SIZE e f b sh m
  | KText => process_COLUMN_TEXT e f b sh m
  | KNames => process_COLUMN_NAME e f b sh m
  | KAttributes => process_COLUMN_ATTRIBUTES e f b sh m
  | KFormatLabel => process_FORMAT_AND_LABEL e f b sh m
  | KCounts | KList => Ok m
  end.

Lemma process_subheader_kind : forall e f b m sh sig,
  get_raw AssertNo b (sh_offset sh) (integer_size f) = Ok sig ->
  process_subheader e f b m sh
  = match kind_of f sig with
    | Some k => m' <- handler e f b k sh m ;; Ok (m', false)
    | None => Ok (if data_subheader_check (md_compression (m_md m)) sh
                  then (process_DATA sh m, true) else (m, false))
    end.
Proof.
  intros e f b m sh sig G. unfold process_subheader. rewrite G. cbn [bind].
  assert (L : lenN sig = word f).
  { cbn in G. apply read_cells_Ok in G. rewrite <- word_eq. tauto. }
  change (ROW_SIZE_SUBHEADER f) with (table_of f KRowSize).
  change (COLUMN_SIZE_SUBHEADER f) with (table_of f KColumnSize).
  change (SUBHEADER_COUNTS_SUBHEADER f) with (table_of f KCounts).
  change (COLUMN_TEXT_SUBHEADER f) with (table_of f KText).
  change (COLUMN_NAME_SUBHEADER f) with (table_of f KNames).
  change (COLUMN_ATTRIBUTES_SUBHEADER f) with (table_of f KAttributes).
  change (FORMAT_AND_LABEL_SUBHEADER f) with (table_of f KFormatLabel).
  change (COLUMN_LIST_SUBHEADER f) with (table_of f KList).
  rewrite !match_kind by exact L.
  unfold kind_of, kinds. cbn [find].
  repeat match goal with
         | |- (if is_kind ?a ?b ?c then _ else _) = _ => destruct (is_kind a b c)
         end; try reflexivity.
  destruct (data_subheader_check _ _); reflexivity.
Qed.

(** What a handler does to the texts, to the compression and to the data
    subheaders. *)
Lemma handler_effect : forall e f b k sh m m', handler e f b k sh m = Ok m' ->
  m_data_subheaders m' = m_data_subheaders m
  /\ (k = KText -> m_texts m' <> [])
  /\ (k <> KText -> m_texts m' = m_texts m)
  /\ (m_texts m <> [] -> m_texts m' <> [])
  /\ (m_texts m <> [] \/ k <> KText -> md_compression (m_md m') = md_compression (m_md m)).
Proof.
  intros e f b k sh m m' H. destruct k; cbn [handler] in H.
  - unfold process_ROW_SIZE in H. apply (proj1 (noexcept_Ok _ _ _)) in H. cbv zeta in H.
    repeat binv H. injection H as <-. cbn. repeat split; auto; discriminate.
  - unfold process_COLUMN_SIZE in H. apply (proj1 (noexcept_Ok _ _ _)) in H. cbv zeta in H.
    repeat binv H. injection H as <-. cbn. repeat split; auto; discriminate.
  - injection H as <-. repeat split; auto; discriminate.
  - unfold process_COLUMN_TEXT in H. apply (proj1 (noexcept_Ok _ _ _)) in H. cbv zeta in H.
    binv H. binv H.
    assert (N : forall x : bytes, m_texts m ++ [x] <> []) by (intros z Z; apply app_eq_nil in Z; destruct Z; discriminate).
    destruct (m_texts m) as [|t ts] eqn:T.
    + repeat binv H.
      destruct x1 as [|y1 y].
      * binv H. injection H as <-. cbn. repeat split; auto; try congruence.
        intros [K|K]; congruence.
      * destruct (bytes_eqb (y1 :: y) RLE_COMPRESSION).
        -- binv H. injection H as <-. cbn. repeat split; auto; try congruence.
           intros [K|K]; congruence.
        -- destruct (0 <? md_lcs (m_md m)).
           ++ binv H. injection H as <-. cbn. repeat split; auto; try congruence.
              intros [K|K]; congruence.
           ++ injection H as <-. cbn. repeat split; auto; try congruence.
              intros [K|K]; congruence.
    + injection H as <-. cbn. repeat split; auto; try congruence; discriminate.
  - unfold process_COLUMN_NAME in H. apply (proj1 (noexcept_Ok _ _ _)) in H. cbv zeta in H.
    repeat binv H. injection H as <-. cbn. repeat split; auto; discriminate.
  - unfold process_COLUMN_ATTRIBUTES in H. apply (proj1 (noexcept_Ok _ _ _)) in H. cbv zeta in H.
    repeat binv H. injection H as <-. cbn. repeat split; auto; discriminate.
  - unfold process_FORMAT_AND_LABEL in H. apply (proj1 (noexcept_Ok _ _ _)) in H. cbv zeta in H.
    repeat binv H. injection H as <-. cbn. repeat split; auto; discriminate.
  - injection H as <-. repeat split; auto; discriminate.
Qed.

(** ** The subheaders of a page *)

Lemma entry_read : forall ly b pg i sh, holds b pg ->
  prefix (ly_format ly) + 8 + (i + 1) * (3 * word (ly_format ly)) < W64 ->
  get_page_subheader (ly_endian ly) (ly_format ly) b (subheader_pos (ly_format ly) i) = Ok sh ->
  sh = to_sub (nth_entry ly pg i)
  /\ prefix (ly_format ly) + 8 + (i + 1) * (3 * word (ly_format ly)) <= lenN pg.
Proof.
  intros ly b pg i sh H B G. pose proof H as (W & M & V).
  unfold get_page_subheader, subheader_pos, subheader_size, get_uinteger in G.
  rewrite prefix_eq, word_eq in G.
  set (w := word (ly_format ly)) in *. set (q := prefix (ly_format ly)) in *.
  assert (2 <= w) by (subst w; destruct (ly_format ly); cbn; lia).
  binv G. destruct x.
  assert (L : q + 8 + (i + 1) * (3 * w) <= lenN pg).
  { rewrite <- M. apply (proj1 (noexcept_Ok _ _ _)) in E.
    destruct (check b _ _) eqn:C in E; [|discriminate]. apply check_exact in C; lia. }
  split; [|exact L].
  rewrite !(holds_uint _ b pg) in G by (try exact H; lia). cbn [bind] in G.
  destruct (holds_byte b pg (q + 8 + i * (3 * w) + w * 2) H) as (x & X1 & X); [lia|].
  rewrite X1 in G. cbn [bind] in G.
  destruct (holds_byte b pg (q + 8 + i * (3 * w) + w * 2 + 1) H) as (y & Y1 & Y); [lia|].
  rewrite Y1 in G. cbn [bind] in G. binv G. injection G as <-.
  unfold to_sub, nth_entry. fold w q. cbn [se_pos se_len se_comp se_type].
  rewrite X, Y. f_equal; f_equal; lia.
Qed.

Lemma process_fold_inv : forall T ly b pg (body : T -> page_subheader -> res T) n i acc r,
  holds b pg -> i + N.of_nat n < 2 ^ 32 ->
  process_subheaders (ly_endian ly) (ly_format ly) b body n i acc = Ok r ->
  fold_subs body (map (nth_entry ly pg) (from i n)) acc = Ok r.
Proof.
  intros T ly b pg body n. induction n as [|n IH]; intros i acc r H B P; [exact P|].
  cbn [process_subheaders] in P. binv P.
  apply (entry_read ly b pg i x H) in E.
  2:{ unfold W64. destruct (ly_format ly); cbn [prefix word]; lia. }
  destruct E as [-> _]. cbn [from map fold_subs]. unfold TRUNCATED_SUBHEADER_ID in P.
  change (sh_length (to_sub (nth_entry ly pg i))) with (se_len (nth_entry ly pg i)) in P.
  change (sh_compression (to_sub (nth_entry ly pg i))) with (se_comp (nth_entry ly pg i)) in P.
  fold (skipped (nth_entry ly pg i)) in P. binv P. rewrite E. cbn [bind].
  apply IH; [exact H|lia|exact P].
Qed.

Lemma fold_live : forall T (body : T -> page_subheader -> res T) l acc,
  fold_subs body l acc = fold_subs body (filter (fun s => negb (skipped s)) l) acc.
Proof.
  intros T body l. induction l as [|s l IH]; intros acc; [reflexivity|]. cbn [fold_subs filter].
  destruct (skipped s) eqn:K; cbn [negb bind].
  - apply IH.
  - cbn [fold_subs]. rewrite K. destruct (body acc (to_sub s)); cbn [bind]; auto.
Qed.

Lemma live_not_skipped : forall ly pg, Forall (fun s => skipped s = false) (live ly pg).
Proof.
  intros ly pg. unfold live. destruct (has_subheaders _); [|constructor].
  apply Forall_forall. intros s I. apply filter_In in I. destruct I as [_ I].
  destruct (skipped s); [discriminate|reflexivity].
Qed.

(** Scanning subheaders, one after the other. *)
Definition scan_body (e : endian) (f : format) (b : mbuf) (acc : mstate * bool)
    (sh : page_subheader) : res (mstate * bool) :=
  '(m', d) <- process_subheader e f b (fst acc) sh ;; Ok (m', snd acc || d).

Definition scan (ly : layout) (b : mbuf) (l : list sub_entry) (m : mstate) (fl : bool)
  : res (mstate * bool) :=
  fold_subs (scan_body (ly_endian ly) (ly_format ly) b) l (m, fl).

Lemma process_page_scan : forall ly b pg m m' stop, holds b pg ->
  process_page (ly_endian ly) (ly_format ly) b (header_of ly pg) m = Ok (m', stop) ->
  exists d, scan ly b (live ly pg) m false = Ok (m', d)
    /\ stop = ((page_type ly pg =? 256) || is_mix (page_type ly pg)) || d.
Proof.
  intros ly b pg m m' stop H P. unfold process_page in P. unfold header_of in P.
  cbn [ph_type] in P. unfold live.
  assert (HS : is_page_meta_mix_amd (page_type ly pg) = has_subheaders (page_type ly pg)).
  { unfold is_page_meta_mix_amd, has_subheaders, PAGE_META_TYPE, PAGE_AMD_TYPE.
    change (is_page_mix (page_type ly pg)) with (is_mix (page_type ly pg)).
    destruct (_ =? 0), (_ =? 1024), (is_mix _); reflexivity. }
  rewrite HS in P.
  change (is_page_data_mix (page_type ly pg))
    with ((page_type ly pg =? 256) || is_mix (page_type ly pg)) in P.
  destruct (has_subheaders (page_type ly pg)).
  - binv P. destruct x as [m1 d]. injection P as <- <-. exists d. split; [|reflexivity].
    unfold process_page_metadata, process_page_subheaders in E.
    cbn [ph_subheaders_count] in E.
    apply (process_fold_inv _ ly b pg) in E; [|exact H|].
    2:{ pose proof (page_number_lt ly 2 pg). unfold page_subs. lia. }
    unfold scan. rewrite <- fold_live. exact E.
  - injection P as <- <-. exists false. split; [reflexivity|]. rewrite orb_false_r. reflexivity.
Qed.

(** ** The pages read by the constructor *)

(** The buffer at the beginning has the size of the header. *)
Definition starting (p : pstate fstate) (rest : bytes) : Prop :=
  ps_is p = FState rest false false /\ wf_mbuf (ps_buf p).

Lemma reading_starting : forall plen p rest, reading plen p rest -> starting p rest.
Proof. intros plen p rest (A & B & _). split; assumption. Qed.

(** A successful reading of a page. *)
Lemma read_page_file : forall c ly p rest x p',
  0 < ly_page_length ly -> ly_page_length ly < 2 ^ 63 -> starting p rest ->
  prefix (ly_format ly) + 6 <= ly_page_length ly ->
  read_page c file_source (ly_endian ly) (ly_format ly) (ly_page_length ly) p = (Ok x, p') ->
  let pg := field rest 0 (ly_page_length ly) in
  if x : bool then ly_page_length ly <= lenN rest
    /\ reading (ly_page_length ly) p' (skipn (N.to_nat (ly_page_length ly)) rest)
    /\ holds (ps_buf p') pg /\ ps_hdr p' = header_of ly pg
  else lenN rest < ly_page_length ly /\ ps_hdr p' = reset_page_header.
Proof.
  intros c ly p rest x p' P0 P1 (RI & RW) X H pg. set (plen := ly_page_length ly) in *.
  unfold read_page in H. rewrite RI in H. cbn [src_eof file_source file_eof fs_eof] in H.
  assert (A : plen <= max_alloc c \/ plen <= msize (ps_buf p)).
  { destruct (N.le_gt_cases plen (max_alloc c)); [auto|].
    destruct (N.le_gt_cases plen (msize (ps_buf p))); [auto|]. exfalso.
    rewrite read_stream_bad_alloc in H by (unfold W64; lia). discriminate. }
  destruct (N.leb_spec plen (lenN rest)) as [L|L].
  - assert (E : src_read file_source (FState rest false false) plen
                = (FState (skipn (N.to_nat plen) rest) false false, pg, true)).
    { cbn [src_read file_source]. unfold file_read. cbn [fs_eof fs_fail fs_rest orb].
      destruct (N.leb_spec (2 ^ 63) plen); [lia|].
      destruct (N.leb_spec plen (lenN rest)); [|lia]. reflexivity. }
    assert (LP : lenN pg = plen) by (apply field_front; exact L).
    destruct (read_stream_spec _ c file_source (ps_buf p) _ plen 0 _ _ _ RW
                ltac:(unfold W64; lia) ltac:(destruct A; [left|right]; lia) E ltac:(lia))
      as (b' & R & W' & M' & V').
    rewrite R in H.
    assert (HH : holds b' pg).
    { split; [exact W'|]. split; [rewrite M', LP; lia|]. rewrite V'. apply overwritten_all.
      rewrite resized_len. lia. }
    rewrite (holds_page_header ly b' pg HH) in H by lia. injection H as <- <-.
    split; [exact L|]. split; [|split; [exact HH|reflexivity]].
    split; [reflexivity|]. split; [exact W'|]. cbn [ps_buf]. rewrite M'. lia.
  - assert (E : src_read file_source (FState rest false false) plen
                = (FState [] true true, rest, false)).
    { cbn [src_read file_source]. unfold file_read. cbn [fs_eof fs_fail fs_rest orb].
      destruct (N.leb_spec (2 ^ 63) plen); [lia|].
      destruct (N.leb_spec plen (lenN rest)); [lia|]. reflexivity. }
    destruct (read_stream_spec _ c file_source (ps_buf p) _ plen 0 _ _ _ RW
                ltac:(unfold W64; lia) ltac:(destruct A; [left|right]; lia) E ltac:(lia))
      as (b' & R & _).
    rewrite R in H. cbn in H. injection H as <- <-. auto.
Qed.

Inductive scanned (ly : layout) : list bytes -> mstate -> mstate -> Prop :=
| ScannedNil : forall m, scanned ly [] m m
| ScannedCons : forall P l b m m1 m2, holds b P ->
    page_type ly P <> 256 -> is_mix (page_type ly P) = false ->
    scan ly b (live ly P) m false = Ok (m1, false) -> scanned ly l m1 m2 ->
    scanned ly (P :: l) m m2.

(** Pages are scanned until one holds rows, or to the end of the file. *)
Lemma metadata_loop_file : forall c ly, 
  0 < ly_page_length ly -> ly_page_length ly < 2 ^ 63 ->
  prefix (ly_format ly) + 6 <= ly_page_length ly ->
  forall fuel p rest m p' m', starting p rest ->
  metadata_loop c file_source (ly_endian ly) (ly_format ly) (ly_page_length ly) fuel p m
  = Ok (p', m') ->
  let pages := complete_pages (ly_page_length ly) rest in
  (scanned ly pages m m' /\ ps_hdr p' = reset_page_header)
  \/ exists pre P rest' m0 d,
       pages = pre ++ P :: complete_pages (ly_page_length ly) rest'
       /\ scanned ly pre m m0 /\ reading (ly_page_length ly) p' rest'
       /\ holds (ps_buf p') P /\ ps_hdr p' = header_of ly P
       /\ scan ly (ps_buf p') (live ly P) m0 false = Ok (m', d)
       /\ ((page_type ly P =? 256) || is_mix (page_type ly P)) || d = true.
Proof.
  intros c ly P0 P1 X. induction fuel as [|fuel IH]; intros p rest m p' m' R H; [discriminate|].
  cbn [metadata_loop] in H. cbv zeta.
  destruct (read_page c file_source (ly_endian ly) (ly_format ly) (ly_page_length ly) p)
    as [[x| | | |] p1] eqn:RP; try discriminate.
  apply (read_page_file c ly p rest) in RP; try assumption. cbv zeta in RP.
  rewrite complete_pages_eq by exact P0. destruct x.
  - destruct RP as (L & R1 & H1 & K1).
    destruct (N.leb_spec (ly_page_length ly) (lenN rest)); [|lia].
    binv H. destruct x as [m1 stop]. rewrite K1 in E.
    apply process_page_scan in E; [|exact H1]. destruct E as (d & E & ->).
    destruct (_ || _ || _) eqn:ST in H.
    + injection H as <- <-. right. exists [], (field rest 0 (ly_page_length ly)),
        (skipn (N.to_nat (ly_page_length ly)) rest), m, d.
      split; [reflexivity|]. split; [constructor|]. auto.
    + apply orb_false_iff in ST. destruct ST as [ST ->]. apply orb_false_iff in ST.
      destruct ST as [ST1 ST2]. apply N.eqb_neq in ST1.
      apply (IH _ _ _ _ _ (reading_starting _ _ _ R1)) in H. cbv zeta in H.
      destruct H as [[H HR]|(pre & P & rest' & m0 & d & H2 & H3 & H4)].
      * left. split; [|exact HR]. econstructor; eassumption.
      * right. exists (field rest 0 (ly_page_length ly) :: pre), P, rest', m0, d.
        split; [rewrite H2; reflexivity|]. split; [econstructor; eassumption|exact H4].
  - destruct RP as [L K]. destruct (N.leb_spec (ly_page_length ly) (lenN rest)); [lia|].
    injection H as <- <-. left. split; [constructor|exact K].
Qed.

(** ** The data subheaders found at construction *)

Definition base (m : mstate) : Prop :=
  m_texts m = [] -> md_compression (m_md m) = CompNone.

(** One subheader. *)
Lemma scan_body_inv : forall e f b m fl sh r, scan_body e f b (m, fl) sh = Ok r ->
  exists m1 d sig, r = (m1, fl || d)
    /\ get_raw AssertNo b (sh_offset sh) (integer_size f) = Ok sig
    /\ match kind_of f sig with
       | Some k => handler e f b k sh m = Ok m1 /\ d = false
       | None => if data_subheader_check (md_compression (m_md m)) sh
                 then m1 = process_DATA sh m /\ d = true else m1 = m /\ d = false
       end.
Proof.
  intros e f b m fl sh r H. unfold scan_body in H. binv H. destruct x as [m1 d].
  injection H as <-. cbn [fst snd] in *. exists m1, d.
  assert (G : exists sig, get_raw AssertNo b (sh_offset sh) (integer_size f) = Ok sig).
  { unfold process_subheader in E. binv E. eauto. }
  destruct G as [sig G]. exists sig. split; [reflexivity|]. split; [exact G|].
  rewrite (process_subheader_kind _ _ _ _ _ _ G) in E.
  destruct (kind_of f sig) as [k|].
  - binv E. injection E as -> <-. auto.
  - destruct (data_subheader_check _ _); injection E as <- <-; auto.
Qed.

Lemma scan_body_effect : forall e f b m fl sh m1 fl1, scan_body e f b (m, fl) sh = Ok (m1, fl1) ->
  (m_texts m <> [] -> m_texts m1 <> [] /\ md_compression (m_md m1) = md_compression (m_md m))
  /\ (base m -> base m1).
Proof.
  intros e f b m fl sh m1 fl1 H. apply scan_body_inv in H.
  destruct H as (m2 & d & sig & E & _ & H). injection E as -> _.
  destruct (kind_of f sig) as [k|].
  - destruct H as [H _]. apply handler_effect in H. destruct H as (_ & H1 & H2 & H3 & H4).
    split; [intros T; split; auto|].
    intros B T. assert (K : k <> KText) by (intros ->; apply H1; auto).
    rewrite H4 by auto. apply B. rewrite <- H2; assumption.
  - destruct (data_subheader_check _ _); destruct H as [-> _]; cbn; auto.
Qed.

Lemma scan_cons : forall ly b s l m fl r, skipped s = false ->
  scan ly b (s :: l) m fl = Ok r ->
  exists m1 fl1, scan_body (ly_endian ly) (ly_format ly) b (m, fl) (to_sub s) = Ok (m1, fl1)
    /\ scan ly b l m1 fl1 = Ok r.
Proof.
  intros ly b s l m fl r K H. unfold scan in H. cbn [fold_subs] in H. rewrite K in H. binv H.
  destruct x as [m1 fl1]. eauto.
Qed.

Lemma scan_mono : forall ly b l m fl m' fl', Forall (fun s => skipped s = false) l ->
  scan ly b l m fl = Ok (m', fl') ->
  (m_texts m <> [] -> m_texts m' <> [] /\ md_compression (m_md m') = md_compression (m_md m))
  /\ (base m -> base m').
Proof.
  intros ly b l. induction l as [|s l IH]; intros m fl m' fl' K H.
  - injection H as <- _. auto.
  - inversion K as [|? ? K1 K2]; subst. apply scan_cons in H; [|assumption].
    destruct H as (m1 & fl1 & E & H). apply scan_body_effect in E. apply IH in H; [|assumption].
    destruct E as [E1 E2]. destruct H as [E3 E4]. split; [|auto].
    intros T. destruct (E1 T) as [T1 C1]. destruct (E3 T1) as [T2 C2]. split; [exact T2|congruence].
Qed.

Lemma signature_read : forall ly b P s sig, holds b P ->
  se_pos s + word (ly_format ly) <= lenN P ->
  get_raw AssertNo b (sh_offset (to_sub s)) (integer_size (ly_format ly)) = Ok sig ->
  sig = signature ly P s.
Proof.
  intros ly b P s sig H L G. rewrite word_eq in G. cbn [to_sub sh_offset] in G.
  rewrite (holds_string _ b P) in G by assumption. injection G as <-. reflexivity.
Qed.

(** The places collected while scanning: those of the stored rows. *)
Lemma scan_collect : forall ly b P l m fl m' fl', holds b P ->
  Forall (fun s => skipped s = false) l ->
  scan ly b l m fl = Ok (m', fl') -> base m ->
  (m_texts m' <> [] -> md_compression (m_md m') = ly_compression ly) ->
  (forall a s z, l = a ++ s :: z -> is_data_entry (ly_compression ly) s = true ->
     se_pos s + word (ly_format ly) <= lenN P
     /\ (kind_on ly P s = None -> m_texts m <> [] \/ Exists (is_text ly P) a)) ->
  let found := map (fun s => (se_pos s, se_len s)) (filter (is_stored_row ly P) l) in
  m_data_subheaders m' = m_data_subheaders m ++ found
  /\ fl' = fl || negb (match found with [] => true | _ => false end).
Proof.
  intros ly b P l. induction l as [|s l IH]; intros m fl m' fl' H K S B F C; cbv zeta.
  - injection S as <- <-. cbn [filter map]. rewrite app_nil_r, orb_false_r. auto.
  - inversion K as [|? ? K1 K2]; subst.
    destruct (scan_cons _ _ _ _ _ _ _ K1 S) as (m1 & fl1 & E & S1).
    pose proof (scan_body_effect _ _ _ _ _ _ _ _ E) as [E1 E2].
    pose proof (scan_mono _ _ _ _ _ _ _ K2 S1) as [S2 S3].
    assert (CM : m_texts m <> [] -> md_compression (m_md m) = ly_compression ly).
    { intros T. destruct (E1 T) as [T1 Q1]. destruct (S2 T1) as [T2 Q2].
      rewrite <- Q1, <- Q2. apply F. exact T2. }
    apply scan_body_inv in E. destruct E as (m2 & d & sig & E & G & X).
    injection E as <- ->. cbn [filter].
    assert (C' : forall a s0 z, l = a ++ s0 :: z -> is_data_entry (ly_compression ly) s0 = true ->
       se_pos s0 + word (ly_format ly) <= lenN P
       /\ (kind_on ly P s0 = None -> m_texts m1 <> [] \/ Exists (is_text ly P) a)).
    { intros a s0 z EQ D0. destruct (C (s :: a) s0 z ltac:(rewrite EQ; reflexivity) D0) as (A1 & A2).
      split; [exact A1|]. intros KN. destruct (A2 KN) as [A3|A3].
      - left. apply E1. exact A3.
      - inversion A3 as [? ? IT|? ? IT]; subst; [left|right; exact IT].
        destruct IT as [L IT]. rewrite (signature_read ly b P s sig H L G) in X.
        unfold kind_on in IT. rewrite IT in X. destruct X as [X _]. apply handler_effect in X.
        destruct X as (_ & X & _). apply X. reflexivity. }
    destruct (IH _ _ _ _ H K2 S1 (E2 B) F C') as [I1 I2].
    destruct (is_stored_row ly P s) eqn:D.
    + apply andb_true_iff in D. destruct D as [D D'].
      destruct (kind_on ly P s) eqn:KN; [discriminate D'|].
      destruct (C [] s l eq_refl D) as (C1 & C2).
      assert (T : m_texts m <> []) by (destruct (C2 KN) as [C3|C3]; [exact C3|inversion C3]).
      rewrite (signature_read ly b P s sig H C1 G) in X. unfold kind_on in KN. rewrite KN in X.
      rewrite data_check_entry, (CM T), D in X by exact K1. destruct X as [-> ->].
      split.
      * rewrite I1. cbn [map process_DATA m_data_subheaders to_sub sh_offset sh_length].
        rewrite <- app_assoc. reflexivity.
      * rewrite I2. cbn [map]. rewrite orb_true_r. cbn [negb]. rewrite !orb_true_r. reflexivity.
    + assert (X' : m_data_subheaders m1 = m_data_subheaders m /\ d = false).
      { destruct (kind_of (ly_format ly) sig) as [k|] eqn:KS.
        - destruct X as [X ->]. apply handler_effect in X. tauto.
        - rewrite data_check_entry in X by exact K1.
          assert (N : is_data_entry (md_compression (m_md m)) s = false).
          { destruct (m_texts m) eqn:T.
            - rewrite B by exact T. reflexivity.
            - rewrite CM by discriminate.
              destruct (is_data_entry (ly_compression ly) s) eqn:DE; [|reflexivity]. exfalso.
              destruct (C [] s l eq_refl DE) as (C1 & _).
              unfold is_stored_row in D. rewrite DE in D. unfold kind_on in D.
              rewrite <- (signature_read ly b P s sig H C1 G), KS in D. discriminate D. }
          rewrite N in X. destruct X as [-> ->]. auto. }
      destruct X' as [X1 ->]. rewrite X1 in I1. rewrite orb_false_r in I2. auto.
Qed.

Lemma scanned_mono : forall ly l m m', scanned ly l m m' ->
  (m_texts m <> [] -> m_texts m' <> [] /\ md_compression (m_md m') = md_compression (m_md m))
  /\ (base m -> base m').
Proof.
  intros ly l m m' H. induction H as [m|P l b m m1 m2 H T1 T2 S SC IH]; [auto|].
  pose proof (scan_mono _ _ _ _ _ _ _ (live_not_skipped ly P) S) as [S1 S2].
  destruct IH as [I1 I2]. split; [|auto].
  intros T. destruct (S1 T) as [T3 Q1]. destruct (I1 T3) as [T4 Q2]. split; [exact T4|congruence].
Qed.

(** A text block is remembered. *)
Lemma scan_text : forall ly b P l m fl m' fl', holds b P ->
  Forall (fun s => skipped s = false) l -> scan ly b l m fl = Ok (m', fl') ->
  Exists (is_text ly P) l -> m_texts m' <> [].
Proof.
  intros ly b P l. induction l as [|s l IH]; intros m fl m' fl' H K S X; [inversion X|].
  inversion K as [|? ? K1 K2]; subst.
  destruct (scan_cons _ _ _ _ _ _ _ K1 S) as (m1 & fl1 & E & S1).
  inversion X as [? ? IT|? ? IT]; subst.
  - apply (scan_mono _ _ _ _ _ _ _ K2 S1).
    apply scan_body_inv in E. destruct E as (m2 & d & sig & E & G & Y). injection E as <- _.
    destruct IT as [L IT]. rewrite (signature_read ly b P s sig H L G) in Y.
    unfold kind_on in IT. rewrite IT in Y. destruct Y as [Y _]. apply handler_effect in Y.
    destruct Y as (_ & Y & _). apply Y. reflexivity.
  - eapply IH; eassumption.
Qed.

Lemma scanned_text : forall ly l m m', scanned ly l m m' ->
  Exists (fun q => Exists (is_text ly q) (live ly q)) l -> m_texts m' <> [].
Proof.
  intros ly l m m' H. induction H as [m|P l b m m1 m2 H T1 T2 S SC IH]; intros X; [inversion X|].
  inversion X as [? ? Y|? ? Y]; subst; [|auto].
  apply (scanned_mono _ _ _ _ SC). eapply scan_text; try eassumption. apply live_not_skipped.
Qed.

Lemma filter_filter : forall A (f g : A -> bool) l,
  filter f (filter g l) = filter (fun x => g x && f x) l.
Proof.
  intros A f g l. induction l as [|x l IH]; [reflexivity|]. cbn [filter].
  destruct (g x); cbn [filter andb]; [destruct (f x); rewrite IH; reflexivity|exact IH].
Qed.

Lemma data_entries_live : forall ly comp pg, has_subheaders (page_type ly pg) = true ->
  filter (is_data_entry comp) (live ly pg) = filter (is_data_entry comp) (entries ly pg).
Proof.
  intros ly comp pg H. unfold live. rewrite H, filter_filter. apply filter_ext.
  intros s. destruct (skipped s) eqn:K; cbn [negb andb]; [|reflexivity].
  symmetry. apply skipped_not_data. exact K.
Qed.

Lemma stored_exists : forall ly pg l,
  existsb (is_stored_row ly pg) l
  = negb (match map (fun s => (se_pos s, se_len s)) (filter (is_stored_row ly pg) l) with
          | [] => true | _ => false end).
Proof.
  intros ly pg l. induction l as [|s l IH]; [reflexivity|]. cbn [existsb filter].
  destruct (is_stored_row ly pg s); [reflexivity|]. exact IH.
Qed.

Lemma filter_count : forall A (f : A -> bool) l, lenN (filter f l) <= lenN l.
Proof.
  intros A f l. unfold lenN. induction l as [|x l IH]; cbn; [lia|].
  destruct (f x); cbn [length]; lia.
Qed.

Lemma stored_count : forall ly pg,
  lenN (filter (is_stored_row ly pg) (live ly pg)) <= page_subs ly pg.
Proof.
  intros ly pg. etransitivity; [apply filter_count|]. unfold live.
  destruct (has_subheaders _); [|change (lenN (@nil sub_entry)) with 0; lia].
  etransitivity; [apply filter_count|]. unfold entries. rewrite lenN_map, count_to_length. lia.
Qed.

(** The data do not begin on pages which are scanned without stopping. *)
Lemma scanned_rows : forall ly pages m m', scanned ly pages m m' ->
  forall before,
  (m_texts m' <> [] -> md_compression (m_md m') = ly_compression ly) ->
  base m -> m_data_subheaders m = [] ->
  (Exists (fun q => Exists (is_text ly q) (live ly q)) before -> m_texts m <> []) ->
  Forall (fun q => begins ly q = false) before ->
  (forall pre pg post, pages = pre ++ pg :: post ->
     Forall (fun q => begins ly q = false) (before ++ pre) -> clear_page ly (before ++ pre) pg) ->
  Forall (fun q => begins ly q = false) pages /\ m_data_subheaders m' = [].
Proof.
  intros ly pages m m' H. induction H as [m|P l b m m1 m2 H T1 T2 S SC IH];
    intros before F B DS TX BR C; [auto|].
  pose proof (scanned_mono _ _ _ _ SC) as [M1 M2].
  pose proof (scan_mono _ _ _ _ _ _ _ (live_not_skipped ly P) S) as [M3 M4].
  assert (CP : clear_page ly before P).
  { specialize (C [] P l eq_refl). rewrite app_nil_r in C. apply C. exact BR. }
  assert (F1 : m_texts m1 <> [] -> md_compression (m_md m1) = ly_compression ly).
  { intros T. destruct (M1 T) as [T' Q]. rewrite <- Q. apply F. exact T'. }
  destruct (scan_collect ly b P (live ly P) m false m1 false H (live_not_skipped ly P) S B F1)
    as [I1 I2].
  { intros a s z E D. destruct (CP a s z E D) as (A1 & A2). split; [exact A1|].
    intros KN. destruct (A2 KN) as [A3|A3]; [left; apply TX; exact A3|right; exact A3]. }
  rewrite <- stored_exists in I2. cbn [orb] in I2.
  assert (R : begins ly P = false).
  { unfold begins. rewrite <- I2. destruct (N.eqb_spec (page_type ly P) 256); [contradiction|].
    rewrite T2. reflexivity. }
  rewrite stored_exists in I2.
  assert (R0 : m_data_subheaders m1 = []).
  { rewrite I1, DS. destruct (map _ _); [reflexivity|discriminate I2]. }
  destruct (IH (before ++ [P])) as (J1 & J2); auto.
  - intros X. apply Exists_app in X. destruct X as [X|X].
    + apply M3. apply TX. exact X.
    + inversion X as [? ? Y|? ? Y]; subst; [|inversion Y].
      eapply scan_text; try eassumption. apply live_not_skipped.
  - apply Forall_app. split; [exact BR|]. constructor; [exact R|constructor].
  - intros pre pg post E FR. rewrite <- app_assoc in FR |- *. cbn [app] in FR |- *.
    apply (C (P :: pre) pg post); [rewrite E; reflexivity|exact FR].
Qed.

Lemma data_pages_skip : forall ly pre l, Forall (fun q => begins ly q = false) pre ->
  data_pages ly (pre ++ l) = data_pages ly l.
Proof.
  intros ly pre l F. induction F as [|q pre E F IH]; [reflexivity|]. cbn [app data_pages].
  rewrite E. exact IH.
Qed.

Lemma good_data_skip : forall ly pre l, Forall (fun q => begins ly q = false) pre ->
  good_data ly (pre ++ l) = good_data ly l.
Proof.
  intros ly pre l F. induction F as [|q pre E F IH]; [reflexivity|]. cbn [app good_data].
  rewrite E. exact IH.
Qed.

Lemma page_rows_on : forall ly l,
  flat_map (fun x => map (row_content ly (fst x)) (snd x)) (map (fun q => (q, row_places ly q)) l)
  = flat_map (page_rows ly) l.
Proof.
  intros ly l. induction l as [|q l IH]; [reflexivity|]. cbn [map flat_map fst snd].
  rewrite IH. reflexivity.
Qed.

(** ** The reader just opened *)

Lemma page_length_lt : forall c flt content r ev,
  open_reader c file_source flt (file_open content) = Ok (r, ev) ->
  h_page_length (rs_h r) < 2 ^ 32.
Proof.
  intros c flt content r ev H. destruct (reader_header _ _ _ _ _ H) as (_ & HF & _).
  rewrite (hof_page_length _ _ HF). rewrite <- get_val_value.
  eapply N.lt_le_trans; [apply get_val_lt|]. change (2 ^ 32) with (256 ^ 4).
  apply N.pow_le_mono_r; [lia|]. rewrite field_slice, lenN_slice. lia.
Qed.

Lemma opened_pages : forall c flt content r ev,
  open_reader c file_source flt (file_open content) = Ok (r, ev) ->
  let ly := layout_of (rs_h r) (rs_md r) in
  let pages := file_pages content (rs_h r) in
  prefix (ly_format ly) + 6 <= ly_page_length ly ->
  exists p m, create_columns c (ly_endian ly) flt m = Ok (rs_md r)
    /\ read_data c (rs_h r) (rs_md r) p (m_data_subheaders m) = Ok (rs_d r)
    /\ ((scanned ly pages empty_mstate m /\ ps_hdr p = reset_page_header)
        \/ exists pre P rest' m0 d,
             pages = pre ++ P :: complete_pages (ly_page_length ly) rest'
             /\ scanned ly pre empty_mstate m0 /\ reading (ly_page_length ly) p rest'
             /\ holds (ps_buf p) P /\ ps_hdr p = header_of ly P
             /\ scan ly (ps_buf p) (live ly P) m0 false = Ok (m, d)
             /\ ((page_type ly P =? 256) || is_mix (page_type ly P)) || d = true).
Proof.
  intros c flt content r ev H ly pages X. pose proof (page_length_lt _ _ _ _ _ H) as PL.
  apply open_reader_inv in H. destruct H as (s1 & b1 & p & m & HH & HM & HC & HD & _).
  pose proof (header_consumed _ _ _ _ _ HH) as ->.
  assert (WB : wf_mbuf b1).
  { apply header_opened in HH. destruct HH as (_ & _ & _ & _ & _ & ->). unfold wf_mbuf, full.
    cbn [mem msize]. rewrite lenN_map. lia. }
  exists p, m. split; [exact HC|]. split; [exact HD|].
  change (h_endianness (rs_h r)) with (ly_endian ly) in HM.
  change (h_format (rs_h r)) with (ly_format ly) in HM.
  change (h_page_length (rs_h r)) with (ly_page_length ly) in HM, PL.
  assert (P0 : 0 < ly_page_length ly) by (destruct (ly_format ly); cbn [prefix] in X; lia).
  refine (metadata_loop_file c ly P0 _ X _ _ _ _ _ _ _ HM); [lia|].
  split; [reflexivity|exact WB].
Qed.

Lemma open_sim : forall c flt content r ev,
  open_reader c file_source flt (file_open content) = Ok (r, ev) -> max_alloc c < row_limit ->
  let ly := layout_of (rs_h r) (rs_md r) in
  let pages := file_pages content (rs_h r) in
  prefix (ly_format ly) + 6 <= ly_page_length ly ->
  good_data ly pages -> clear_start ly pages ->
  (length pages < page_fuel c)%nat ->
  sim_r c r (0, firstn (N.to_nat (md_row_count (rs_md r))) (rows_on ly pages)).
Proof.
  intros c flt content r ev H MA ly pages X G CS PF.
  pose proof (page_length_lt _ _ _ _ _ H) as PL.
  pose proof (opened_counts _ _ _ _ _ _ _ H) as (RC & _).
  pose proof (opened_data _ _ _ _ _ _ _ MA H) as (R0 & DO).
  destruct (opened_pages _ _ _ _ _ H X) as (p & m & HC & HD & HP). fold ly pages in HP.
  change (h_page_length (rs_h r)) with (ly_page_length ly) in PL.
  assert (P0 : 0 < ly_page_length ly) by (destruct (ly_format ly); cbn [prefix] in X; lia).
  assert (B : page_bounds ly) by (split; [exact P0|]; split; [lia|exact RC]).
  assert (CM : md_compression (m_md m) = ly_compression ly).
  { apply create_columns_md in HC. destruct HC as [cols [HC _]]. unfold ly, layout_of.
    cbn [ly_compression]. rewrite HC. reflexivity. }
  unfold read_data in HD. binv HD.
  assert (K : dec_kind (md_compression (rs_md r)) x).
  { unfold make_decompressor in E. destruct (md_compression (rs_md r)).
    - injection E as <-. exact I.
    - binv E. injection E as <-. exact I.
    - binv E. injection E as <-. exact I. }
  assert (KD : ds_dec (rs_d r) = x).
  { destruct (m_data_subheaders m); [binv HD|]; injection HD as <-; reflexivity. }
  assert (GOAL : forall l, todo c ly (rs_d r) l -> l = rows_on ly pages ->
     sim_r c r (0, firstn (N.to_nat (md_row_count (rs_md r))) (rows_on ly pages))).
  { intros l T ->. split.
    - split; [lia|]. split; [exact RC|exact DO].
    - exact B.
    - rewrite KD. exact K.
    - eexists. split; [exact T|]. rewrite R0. unfold row_limited. rewrite N.sub_0_r. reflexivity. }
  assert (CSS : forall pre pg post, pages = pre ++ pg :: post ->
     Forall (fun q => begins ly q = false) ([] ++ pre) -> clear_page ly ([] ++ pre) pg) by exact CS.
  destruct HP as [[SC HR]|(pre & P & rest' & m0 & d & HE & SC & RD & HO & HR & SP & ST)].
  - destruct (scanned_rows _ _ _ _ SC []) as (J1 & J2); auto.
    { intros _. reflexivity. }
    { intros Y. inversion Y. }
    rewrite J2 in HD. binv HD. injection HD as HD.
    assert (x0 = None).
    { unfold build_page in E0. rewrite HR in E0. cbn in E0. congruence. }
    subst x0. apply (GOAL []).
    + apply TodoEnd. rewrite <- HD. reflexivity.
    + unfold rows_on. rewrite <- (app_nil_r pages), data_pages_skip by exact J1. reflexivity.
  - pose proof (scan_mono _ _ _ _ _ _ _ (live_not_skipped ly P) SP) as [M3 M4].
    assert (BE : base empty_mstate) by (intros _; reflexivity).
    pose proof (scanned_mono _ _ _ _ SC) as [_ M5].
    destruct (scanned_rows _ _ _ _ SC []) as (J1 & J2); auto.
    { intros T. destruct (M3 T) as [_ Q]. congruence. }
    { intros Y. inversion Y. }
    { intros q1 q q2 QE QF. apply (CSS q1 q (q2 ++ P :: complete_pages (ly_page_length ly) rest')).
      - rewrite HE, QE, <- app_assoc. reflexivity.
      - exact QF. }
    assert (CP : clear_page ly pre P) by (apply (CSS pre P _ HE); exact J1).
    destruct (scan_collect ly (ps_buf p) P (live ly P) m0 false m d HO (live_not_skipped ly P) SP
                (M5 BE)) as [I1 I2].
    { intros _. exact CM. }
    { intros a s z QE QD. destruct (CP a s z QE QD) as (A1 & A2). split; [exact A1|].
      intros KN. destruct (A2 KN) as [A3|A3]; [left|right; exact A3].
      eapply scanned_text; [exact SC|exact A3]. }
    rewrite J2 in I1. rewrite <- stored_exists in I2. cbn [app orb] in I1, I2.
    assert (BG : begins ly P = true) by (unfold begins; rewrite <- I2; exact ST).
    rewrite HE, good_data_skip in G by exact J1. cbn [good_data] in G. rewrite BG in G.
    destruct G as (GF & GR & NE). rewrite HE in PF.
    assert (GPS : good_pages c ly rest').
    { split; [exact GR|]. split; [exact NE|]. rewrite app_length in PF. cbn [length] in PF. lia. }
    assert (LP : lenN P = ly_page_length ly).
    { destruct HO as (_ & HO & _). destruct RD as (_ & _ & RD). congruence. }
    assert (PGE : exists pg, ds_page (rs_d r) = Some pg /\ ds_p (rs_d r) = p
              /\ pg_row pg <= page_count pg /\ page_count pg < W64
              /\ lines pg = first_places ly P /\ Forall (usable ly P) (lines pg)).
    { unfold first_places in GF |- *.
      destruct (m_data_subheaders m) as [|a l] eqn:MD.
      - assert (FN : filter (is_stored_row ly P) (live ly P) = []).
        { destruct (filter _ (live ly P)); [reflexivity|discriminate I1]. }
        rewrite FN in GF |- *. rewrite stored_exists, FN in I2. cbn in I2. subst d.
        rewrite orb_false_r in ST.
        assert (GP' : good_page ly P).
        { split; [lia|]. split; [exact GF|]. intros T. rewrite T in ST. discriminate ST. }
        binv HD. injection HD as HD. rewrite <- HD. cbn [ds_page ds_p].
        pose proof (build_page_holds (rs_h r) (rs_md r) (ps_buf p) P (ps_hdr p) HO) as BP.
        specialize (BP ltac:(unfold W64; lia) GP' HR). rewrite E0 in BP. injection BP as ->. fold ly.
        assert (NN : page_for ly P <> None).
        { unfold page_for. destruct (page_type ly P =? 0) eqn:T0.
          - exfalso. apply N.eqb_eq in T0. rewrite T0 in ST. discriminate.
          - destruct (page_type ly P =? 256); [discriminate|].
            destruct (is_mix (page_type ly P)); [discriminate|]. discriminate ST. }
        destruct (page_for ly P) as [pg|] eqn:PG; [|congruence]. exists pg.
        destruct (page_for_lines _ _ _ PG) as [L1 L2].
        split; [reflexivity|]. split; [reflexivity|]. split; [lia|].
        split; [exact (page_for_count ly P pg RC PG)|]. split; [exact L1|].
        rewrite L1. exact (good_usable _ _ GP').
      - injection HD as HD. rewrite <- HD. cbn [ds_page ds_p].
        destruct (filter (is_stored_row ly P) (live ly P)) as [|q qs] eqn:FQ; [discriminate I1|].
        eexists. split; [reflexivity|]. split; [reflexivity|].
        rewrite I1. cbn [pg_row]. split; [lia|]. split.
        { unfold page_count. cbn [pg_kind]. rewrite lenN_map, <- FQ.
          eapply N.le_lt_trans; [apply stored_count|].
          pose proof (page_number_lt ly 2 P). unfold page_subs, W64. lia. }
        split; [reflexivity|]. change (lines (Page (PMeta ?l) 0)) with l.
        rewrite Forall_forall in GF |- *. intros pl IP. split; [apply GF; exact IP|].
        intros CN. exfalso.
        apply in_map_iff in IP. destruct IP as (s0 & _ & IP). rewrite <- FQ in IP.
        apply filter_In in IP. destruct IP as [_ IP]. unfold is_stored_row in IP.
        rewrite CN in IP. discriminate IP. }
    destruct PGE as (pg & PG1 & PG2 & L1 & L2 & L3 & U).
    eapply GOAL.
    + rewrite <- PG2 in RD, HO. eapply TodoPage; try eassumption.
    + unfold rows_on. rewrite HE, data_pages_skip by exact J1. cbn [data_pages]. rewrite BG.
      cbn [flat_map fst snd]. rewrite page_rows_on, L3. reflexivity.
Qed.

Lemma reader_is_cursor : forall c flt content r ev,
  open_reader c file_source flt (file_open content) = Ok (r, ev) -> max_alloc c < row_limit ->
  let ly := layout_of (rs_h r) (rs_md r) in
  let pages := file_pages content (rs_h r) in
  prefix (ly_format ly) + 6 <= ly_page_length ly ->
  good_data ly pages -> clear_start ly pages ->
  (length pages < page_fuel c)%nat ->
  forall ops,
  let cu := (0, firstn (N.to_nat (md_row_count (rs_md r))) (rows_on ly pages)) in
  seen (md_row_length (rs_md r)) (fst (trace c file_source ops (Some r))) = fst (cur_trace ops cu)
  /\ current_row_index (snd (trace c file_source ops (Some r))) = fst (snd (cur_trace ops cu)).
Proof.
  intros. apply trace_sim. eapply open_sim; eassumption.
Qed.
