(** Proofs about a file of which one byte has been changed. *)
From Verif Require Import Base Types Buffer Page Column Header Metadata Decomp Data Reader
  Lemmas SpecValues SpecHeader SpecReader SpecConform SpecDamage
  ProofMetaInv ProofValues ProofHeader ProofBuffer ProofSource ProofBisim ProofCut.
Local Open Scope N_scope.

(** ** Lists which differ in one place *)

Lemma firstn_skipn_change : forall A (a b : list A) x y k n,
  (k <= length a < k + n)%nat
  /\ (exists u v, firstn n (skipn k (a ++ x :: b)) = u ++ x :: v
                  /\ firstn n (skipn k (a ++ y :: b)) = u ++ y :: v)
  \/ ~ (k <= length a < k + n)%nat
     /\ firstn n (skipn k (a ++ x :: b)) = firstn n (skipn k (a ++ y :: b)).
Proof.
  intros A a b x y k n. rewrite !skipn_app.
  destruct (Nat.le_gt_cases k (length a)) as [L|L].
  - replace (k - length a)%nat with 0%nat by lia. cbn [skipn]. rewrite !firstn_app, !skipn_length.
    destruct (Nat.le_gt_cases n (length a - k)) as [M|M].
    + right. split; [lia|]. replace (n - (length a - k))%nat with 0%nat by lia. reflexivity.
    + left. split; [lia|]. destruct (n - (length a - k))%nat as [|j] eqn:J; [lia|]. cbn [firstn].
      eexists _, _. split; reflexivity.
  - right. split; [lia|]. destruct (k - length a)%nat as [|j] eqn:J; [lia|]. reflexivity.
Qed.

Lemma slice_change_before : forall A (a b : list A) x y off n, off + n <= lenN a ->
  slice off n (a ++ x :: b) = slice off n (a ++ y :: b).
Proof. intros A a b x y off n H. rewrite !slice_app1 by exact H. reflexivity. Qed.

Lemma read_cells_change : forall (a b : list cell) x y off n, off + n <= lenN a ->
  read_cells (a ++ x :: b) off n = read_cells (a ++ y :: b) off n.
Proof.
  intros a b x y off n H. unfold read_cells. rewrite (slice_change_before _ a b x y) by exact H.
  rewrite !lenN_app. cbn [lenN length]. reflexivity.
Qed.

(** ** Two sources *)

Section Damage.
Variables (c : cfg) (h : header).
Let e := h_endianness h.
Let f := h_format h.
Let plen := h_page_length h.
Hypothesis PL : plen < 2 ^ 32.

Inductive near : bytes -> bytes -> Prop :=
| near_here : forall a x y b z, lenN (a ++ x :: b) = plen -> page_bit_offset f + 8 <= lenN a ->
    get_val e (slice (page_bit_offset f) 2 (a ++ x :: b)) = PAGE_DATA_TYPE ->
    get_val e (slice (page_bit_offset f + 2) 2 (a ++ x :: b)) <> 0 ->
    near ((a ++ x :: b) ++ z) ((a ++ y :: b) ++ z)
| near_later : forall pg z z', lenN pg = plen -> 0 < plen -> near z z' -> near (pg ++ z) (pg ++ z').

(** The changed byte has not been read. *)
Definition before_p (p p' : pstate fstate) : Prop :=
  ps_buf p' = ps_buf p /\ ps_hdr p' = ps_hdr p
  /\ exists r r', ps_is p = FState r false false /\ ps_is p' = FState r' false false /\ near r r'.

(** The changed byte is byte [o] of the page which is in the buffer. *)
Definition in_p (o : N) (p p' : pstate fstate) : Prop :=
  ps_is p' = ps_is p /\ ps_hdr p' = ps_hdr p
  /\ ph_type (ps_hdr p) = PAGE_DATA_TYPE /\ 0 < ph_block_count (ps_hdr p) < 65536
  /\ msize (ps_buf p) = plen /\ msize (ps_buf p') = plen
  /\ page_bit_offset f + 8 <= o < plen
  /\ exists a x y b, mem (ps_buf p) = a ++ Some x :: b /\ mem (ps_buf p') = a ++ Some y :: b
                     /\ lenN a = o.

Lemma near_read : forall r r', near r r' -> exists pg pg' z z',
  Buffer.file_read (FState r false false) plen = (FState z false false, pg, true)
  /\ Buffer.file_read (FState r' false false) plen = (FState z' false false, pg', true)
  /\ lenN pg = plen /\ 0 < plen
  /\ (pg' = pg /\ near z z'
      \/ z' = z /\ exists a x y b, pg = a ++ x :: b /\ pg' = a ++ y :: b
           /\ page_bit_offset f + 8 <= lenN a
           /\ get_val e (slice (page_bit_offset f) 2 pg) = PAGE_DATA_TYPE
           /\ get_val e (slice (page_bit_offset f + 2) 2 pg) <> 0).
Proof.
  intros r r' H.
  assert (G : forall pg z, lenN pg = plen ->
    Buffer.file_read (FState (pg ++ z) false false) plen = (FState z false false, pg, true)).
  { intros pg z L. rewrite file_read_all; [|lia|rewrite lenN_app; lia].
    rewrite <- L. unfold lenN. rewrite Nnat.Nat2N.id.
    rewrite skipn_app, firstn_app, skipn_all, firstn_all, Nat.sub_diag. cbn. rewrite app_nil_r. reflexivity. }
  destruct H as [a x y b z L O T T0|pg z z' L P N].
  - exists (a ++ x :: b), (a ++ y :: b), z, z. rewrite G by exact L. rewrite G.
    2:{ rewrite <- L, !lenN_app. reflexivity. }
    repeat split; try assumption. { rewrite <- L, lenN_app. unfold lenN. cbn [length]. lia. }
    right. split; [reflexivity|]. exists a, x, y, b. auto.
  - exists pg, pg, z, z'. rewrite !G by exact L. repeat split; try assumption. left. auto.
Qed.

Lemma get_uint16_change : forall a b x y s1 s2 off, off + 2 <= lenN a ->
  get_uint16 e (MBuf (a ++ x :: b) s1) off = get_uint16 e (MBuf (a ++ y :: b) s2) off.
Proof.
  intros. unfold get_uint16, get_uint, get_raw. cbn [mem].
  rewrite (read_cells_change a b x y) by assumption. reflexivity.
Qed.

Lemma page_header_change : forall a b x y s1 s2, page_bit_offset f + 8 <= lenN a ->
  get_page_header e f (MBuf (a ++ x :: b) s1) = get_page_header e f (MBuf (a ++ y :: b) s2).
Proof.
  intros a b x y s1 s2 H. unfold get_page_header.
  rewrite !(get_uint16_change a b x y s1 s2) by lia. reflexivity.
Qed.

Lemma page_header_data : forall m s hd (pg : bytes) rest, m = map Some pg ++ rest ->
  page_bit_offset f + 8 <= lenN pg ->
  get_val e (slice (page_bit_offset f) 2 pg) = PAGE_DATA_TYPE ->
  get_val e (slice (page_bit_offset f + 2) 2 pg) <> 0 ->
  get_page_header e f (MBuf m s) = Ok hd ->
  ph_type hd = PAGE_DATA_TYPE /\ 0 < ph_block_count hd < 65536.
Proof.
  intros m s hd pg rest -> L T T0 H.
  assert (G : forall off v, off + 2 <= lenN pg ->
    get_uint16 e (MBuf (map Some pg ++ rest) s) off = Ok v -> v = get_val e (slice off 2 pg) /\ v < 65536).
  { intros off v LO G. unfold get_uint16, get_uint, get_raw in G. cbn [mem] in G.
    binv G. apply read_cells_Ok in E. destruct E as (_ & S0 & L1). injection G as <-. split.
    - rewrite slice_app1 in S0 by (rewrite lenN_map; exact LO). rewrite slice_map in S0. f_equal.
      revert S0. generalize (slice off 2 pg). clear. intros l. revert x.
      induction l as [|b l IH]; intros [|v w] S0; try discriminate; [reflexivity|].
      cbn in S0. injection S0 as -> S0. f_equal. apply IH. exact S0.
    - eapply N.lt_le_trans; [apply get_val_lt|]. rewrite L1. cbn. lia. }
  unfold get_page_header in H. binv H. binv H. binv H. injection H as <-. cbn [ph_type ph_block_count].
  apply G in E; [|lia]. apply G in E0; [|lia]. rewrite N.add_0_r in E.
  destruct E as [-> _], E0 as [-> E0]. split; [exact T|lia].
Qed.

(** ** A page is read *)

Lemma read_page_before : forall p p', before_p p p' -> exists x q q',
  read_page c file_source e f plen p = (x, q) /\ read_page c file_source e f plen p' = (x, q')
  /\ (forall b, x = Ok b -> b = true /\ (before_p q q' \/ exists o, in_p o q q')).
Proof.
  intros [s b hd] [s' b' hd'] (B & HD & r & r' & I & I' & N). cbn [ps_buf ps_hdr ps_is] in *. subst.
  unfold read_page. cbn [ps_is ps_buf src_eof file_source]. unfold file_eof. cbn [fs_eof].
  destruct (near_read _ _ N) as (pg & pg' & z & z' & R & R' & L & P & C).
  unfold read_stream. cbn [src_read file_source]. rewrite R, R'.
  replace (0 +! plen) with plen by (rewrite add64_small; unfold W64; lia).
  assert (L' : lenN pg' = plen).
  { destruct C as [[-> _]|(_ & a & x & y & w & -> & -> & _)]; [exact L|].
    rewrite <- L, !lenN_app. reflexivity. }
  destruct (resize c b plen) as [b1| | | |] eqn:RS;
    try (do 3 eexists; split; [reflexivity|]; split; [reflexivity|]; discriminate).
  assert (SZ : msize b1 = plen).
  { unfold resize in RS. destruct (msize b <? plen); [|injection RS as <-; reflexivity].
    binv RS. binv RS. injection RS as <-. reflexivity. }
  rewrite L, L'. destruct (N.eqb_spec plen 0); [lia|].
  unfold write_cells. rewrite !lenN_map, L, L'.
  destruct (0 + plen <=? lenN (mem b1)) eqn:LE;
    [|do 3 eexists; split; [reflexivity|]; split; [reflexivity|]; discriminate].
  destruct C as [[-> NZ]|(-> & a & x & y & w & -> & -> & O & T & T0)].
  - destruct (get_page_header e f _) as [hk| | | |] eqn:G; do 3 eexists; split; try reflexivity;
      split; try reflexivity; try discriminate.
    intros v [= <-]. split; [reflexivity|]. left. unfold before_p. cbn [ps_buf ps_hdr ps_is].
    split; [reflexivity|]. split; [reflexivity|]. eauto 6.
  - unfold splice. cbn [N.to_nat firstn app]. rewrite !map_length, !app_length. cbn [length Nat.add].
    rewrite !map_app. cbn [map]. rewrite <- !app_assoc. cbn [app].
    set (tl := map Some w ++ skipn (length a + S (length w)) (mem b1)).
    rewrite <- (page_header_change (map Some a) tl (Some x) (Some y) (msize b1) (msize b1))
      by (rewrite lenN_map; exact O).
    destruct (get_page_header e f _) as [hk| | | |] eqn:G; do 3 eexists; split; try reflexivity;
      split; try reflexivity; try discriminate.
    intros v [= <-]. split; [reflexivity|]. right. exists (lenN a).
    assert (Q : lenN a < plen) by (rewrite <- L, lenN_app; unfold lenN; cbn [length]; lia).
    unfold in_p. cbn [ps_buf ps_hdr ps_is msize mem].
    destruct (page_header_data _ (msize b1) hk (a ++ x :: w) (skipn (length a + S (length w)) (mem b1))
                eq_refl ltac:(lia) T T0) as [T1 T2].
    { rewrite map_app. cbn [map]. rewrite <- app_assoc. cbn [app]. exact G. }
    repeat split; try assumption; try lia.
    exists (map Some a), x, y, tl. rewrite lenN_map. auto.
Qed.

Lemma read_page_in : forall o p p', in_p o p p' -> exists x q q',
  read_page c file_source e f plen p = (x, q) /\ read_page c file_source e f plen p' = (x, q')
  /\ (x = Ok true -> q' = q).
Proof.
  intros o [s [m n] hd] [s' [m' n'] hd'] (I & HD & _ & _ & S1 & S2 & O & a & x & y & b & M & M' & L).
  cbn [ps_buf ps_hdr ps_is mem msize] in *. subst.
  unfold read_page. cbn [ps_is ps_buf].
  destruct (src_eof file_source s).
  { do 3 eexists. split; [reflexivity|]. split; [reflexivity|]. discriminate. }
  unfold read_stream.
  replace (0 +! plen) with plen by (rewrite add64_small; unfold W64; lia).
  unfold resize. cbn [msize mem]. rewrite N.ltb_irrefl.
  destruct (src_read file_source s plen) as [[s1 data] ok] eqn:R. cbn [mem msize].
  assert (LM : lenN (a ++ Some y :: b) = lenN (a ++ Some x :: b)) by (rewrite !lenN_app; reflexivity).
  destruct ok.
  - assert (LD : lenN data = plen).
    { cbn [src_read file_source] in R. unfold Buffer.file_read in R.
      destruct (fs_eof s || fs_fail s); [discriminate|]. destruct (2 ^ 63 <=? plen); [discriminate|].
      destruct (N.leb_spec plen (lenN (fs_rest s))) as [Z|Z]; [|discriminate].
      injection R as <- <-. rewrite lenN_firstn. lia. }
    rewrite LD. destruct (N.eqb_spec plen 0); [lia|]. unfold write_cells. rewrite LM, !lenN_map, LD.
    destruct (0 + plen <=? lenN (a ++ Some x :: b)) eqn:LE;
      [|do 3 eexists; split; [reflexivity|]; split; [reflexivity|]; discriminate].
    assert (SP : splice 0 (map Some data) (a ++ Some y :: b) = splice 0 (map Some data) (a ++ Some x :: b)).
    { unfold splice. cbn [N.to_nat firstn app]. f_equal. rewrite map_length.
      assert (ZL : (length a < length data)%nat) by (unfold lenN in *; lia).
      cbn [Nat.add]. rewrite !skipn_app. destruct (length data - length a)%nat as [|j] eqn:J; [lia|].
      reflexivity. }
    rewrite SP. destruct (get_page_header e f _); do 3 eexists; split; try reflexivity; split; try reflexivity;
      try discriminate; auto.
  - destruct (lenN data =? 0).
    + destruct (src_eof file_source s1); do 3 eexists; split; try reflexivity; split; try reflexivity;
        discriminate.
    + unfold write_cells. rewrite LM.
      destruct (0 + lenN (map Some data) <=? lenN (a ++ Some x :: b)).
      * destruct (src_eof file_source s1); do 3 eexists; split; try reflexivity; split; try reflexivity;
          discriminate.
      * do 3 eexists. split; [reflexivity|]. split; [reflexivity|]. discriminate.
Qed.

(** ** The pages with metadata *)

Lemma metadata_before : forall fuel p p' m, before_p p p' -> m_data_subheaders m = [] ->
  match metadata_loop c file_source e f plen fuel p m with
  | Ok (q, m1) => exists q', metadata_loop c file_source e f plen fuel p' m = Ok (q', m1)
      /\ (before_p q q' \/ m_data_subheaders m1 = [] /\ exists o, in_p o q q')
  | Exn x => metadata_loop c file_source e f plen fuel p' m = Exn x
  | Abort => metadata_loop c file_source e f plen fuel p' m = Abort
  | Undef u => metadata_loop c file_source e f plen fuel p' m = Undef u
  | Fuel => metadata_loop c file_source e f plen fuel p' m = Fuel
  end.
Proof.
  induction fuel as [|fuel IH]; intros p p' m B M; cbn [metadata_loop]; [reflexivity|].
  destruct (read_page_before p p' B) as (x & q & q' & R & R' & C). rewrite R, R'.
  destruct x as [t| | | |]; try reflexivity.
  destruct (C _ eq_refl) as [-> C1]. clear C.
  destruct C1 as [C1|[o C1]].
  - destruct C1 as (EB & EH & ER). rewrite EB, EH.
    destruct (process_page e f (ps_buf q) (ps_hdr q) m) as [[m1 stop]| | | |] eqn:PP; cbn [bind];
      try reflexivity.
    destruct stop.
    + exists q'. split; [reflexivity|]. left. split; [exact EB|]. auto.
    + destruct (process_page_found _ _ _ _ _ _ _ M PP) as [D|D]; [discriminate|].
      apply IH; [|exact D]. split; [exact EB|]. auto.
  - destruct C1 as (EI & EH & ET & EC & REST). rewrite EH.
    assert (PP : forall bf, process_page e f bf (ps_hdr q) m = Ok (m, true)).
    { intros bf. unfold process_page. rewrite ET. reflexivity. }
    rewrite !PP. cbn [bind]. exists q'. split; [reflexivity|]. right. split; [exact M|].
    exists o. split; [exact EI|]. auto 6.
Qed.

(** ** The rows *)

Section Rows.
Variable md : metadata.
Let len := md_row_length md.
Hypothesis SMALL : len < 2 ^ 47.

(** [w]: a row can still differ. *)
Inductive drel : bool -> dstate fstate -> dstate fstate -> Prop :=
| d_same : forall w d, drel w d d
| d_end : forall w p p' dec row, drel w (DState p dec row None) (DState p' dec row None)
| d_before : forall p p' dec row pg, before_p p p' ->
    drel true (DState p dec row pg) (DState p' dec row pg)
| d_in : forall w o p p' dec row n j, in_p o p p' -> j <= n -> n < 65536 ->
    (w = true \/ o < page_bit_offset f + 8 + len * j) ->
    drel w (DState p dec row (Some (Page (PRows n (page_bit_offset f + 8) len) j)))
           (DState p' dec row (Some (Page (PRows n (page_bit_offset f + 8) len) j))).

Lemma drel_row : forall w d d', drel w d d' -> ds_row d' = ds_row d.
Proof. intros w d d' []; reflexivity. Qed.

(** What has been handed out between [w] and [w']. *)
Definition changed (w w' : bool) (l l' : list (list cell)) : Prop :=
  l' = l /\ (w = false -> w' = false)
  \/ w = true /\ w' = false
     /\ exists a r r' b, l = a ++ r :: b /\ l' = a ++ r' :: b /\ one_byte r r'.

Lemma changed_nil : forall w w', (w = false -> w' = false) -> changed w w' [] [].
Proof. intros w w' H. left. auto. Qed.

Lemma changed_app : forall w1 w2 w3 a a' b b', changed w1 w2 a a' -> changed w2 w3 b b' ->
  changed w1 w3 (a ++ b) (a' ++ b').
Proof.
  intros w1 w2 w3 a a' b b' [[-> A]|(W1 & W2 & a1 & r & r' & a2 & -> & -> & O)]
    [[-> B]|(V1 & V2 & b1 & s & s' & b2 & -> & -> & O')].
  - left. auto.
  - right. split; [destruct w1; [reflexivity|specialize (A eq_refl); congruence]|]. split; [exact V2|].
    exists (a ++ b1), s, s', b2. rewrite <- !app_assoc. auto.
  - right. split; [exact W1|]. split; [auto|]. exists a1, r, r', (a2 ++ b).
    rewrite <- !app_assoc. auto.
  - congruence.
Qed.

Lemma next_before : forall fuel p p', before_p p p' -> exists x q q',
  read_next_page c file_source e f plen md fuel p = (x, q)
  /\ read_next_page c file_source e f plen md fuel p' = (x, q')
  /\ (forall pg, x = Ok (Some pg) -> before_p q q'
       \/ exists o n, in_p o q q' /\ 0 < n < 65536 /\ pg = Page (PRows n (page_bit_offset f + 8) len) 0).
Proof.
  induction fuel as [|fuel IH]; intros p p' B; cbn [read_next_page].
  { do 3 eexists. split; [reflexivity|]. split; [reflexivity|]. discriminate. }
  destruct (read_page_before p p' B) as (x & q & q' & R & R' & C). rewrite R, R'.
  destruct x as [t| | | |];
    try (do 3 eexists; split; [reflexivity|]; split; [reflexivity|]; discriminate).
  destruct (C _ eq_refl) as [-> C1]. clear C.
  destruct C1 as [C1|[o C1]].
  - destruct C1 as (EB & EH & ER). rewrite EB, EH.
    assert (BB : before_p q q') by (split; [exact EB|]; auto).
    destruct (build_page e f md (ps_buf q) (ps_hdr q)) as [[pg|]| | | |];
      try (do 3 eexists; split; [reflexivity|]; split; [reflexivity|]; discriminate).
    + do 3 eexists. split; [reflexivity|]. split; [reflexivity|]. auto.
    + apply IH. exact BB.
  - assert (CI := C1). destruct C1 as (EI & EH & ET & EC & REST). rewrite EH.
    assert (BP : forall bf, build_page e f md bf (ps_hdr q)
      = Ok (Some (Page (PRows (ph_block_count (ps_hdr q)) (page_bit_offset f + 8) len) 0))).
    { intros bf. unfold build_page. rewrite ET. reflexivity. }
    rewrite !BP. do 3 eexists. split; [reflexivity|]. split; [reflexivity|].
    intros pg [= <-]. right. eauto 8.
Qed.

Lemma next_in : forall fuel o p p', in_p o p p' -> exists x q q',
  read_next_page c file_source e f plen md fuel p = (x, q)
  /\ read_next_page c file_source e f plen md fuel p' = (x, q')
  /\ (forall pg, x = Ok (Some pg) -> q' = q).
Proof.
  intros [|fuel] o p p' B; cbn [read_next_page].
  { do 3 eexists. split; [reflexivity|]. split; [reflexivity|]. discriminate. }
  destruct (read_page_in o p p' B) as (x & q & q' & R & R' & C). rewrite R, R'.
  destruct x as [[|]| | | |];
    try (do 3 eexists; split; [reflexivity|]; split; [reflexivity|]; discriminate).
  rewrite (C eq_refl).
  match goal with |- context [match ?b with Ok _ => _ | _ => _ end] => destruct b as [[pg|]| | | |] end;
    try (do 3 eexists; split; [reflexivity|]; split; [reflexivity|]; auto; discriminate).
  destruct (read_next_page c file_source e f plen md fuel q) as [x2 q2]. do 3 eexists.
  split; [reflexivity|]. split; [reflexivity|]. auto.
Qed.

Lemma data_next_rel : forall w d d', drel w d d' -> exists x d1 d1',
  data_next c file_source h md d = (x, d1) /\ data_next c file_source h md d' = (x, d1')
  /\ drel w d1 d1'
  /\ (x = Ok true -> d1' = d1 \/ exists p p' dec row pg, d1 = DState p dec row (Some pg)
        /\ d1' = DState p' dec row (Some pg)
        /\ (before_p p p' /\ w = true
            \/ exists o n j, in_p o p p' /\ pg = Page (PRows n (page_bit_offset f + 8) len) j
                 /\ j < n < 65536 /\ (w = true \/ o < page_bit_offset f + 8 + len * j))).
Proof.
  intros w d d' R. destruct R as [w d|w p p' dec row|p p' dec row pg B|w o p p' dec row n j I J NB W].
  - destruct (data_next c file_source h md d) as [x d1]. exists x, d1, d1.
    split; [reflexivity|]. split; [reflexivity|]. split; [constructor|]. auto.
  - unfold data_next. cbn [ds_row ds_page].
    destruct (row =? md_row_count md); do 3 eexists; (split; [reflexivity|]); (split; [reflexivity|]);
      (split; [constructor|]); discriminate.
  - unfold data_next. cbn [ds_row ds_page ds_p ds_dec].
    destruct (row =? md_row_count md).
    { do 3 eexists. split; [reflexivity|]. split; [reflexivity|]. split; [constructor; exact B|]. discriminate. }
    destruct pg as [pg|].
    2:{ do 3 eexists. split; [reflexivity|]. split; [reflexivity|]. split; [constructor; exact B|]. discriminate. }
    destruct (page_next pg).
    2:{ do 3 eexists. split; [reflexivity|]. split; [reflexivity|]. split; [constructor; exact B|].
        intros _. right. do 5 eexists. split; [reflexivity|]. split; [reflexivity|]. auto. }
    destruct (next_before (page_fuel c) p p' B) as (x & q & q' & N1 & N2 & C).
    unfold e, f, plen in N1, N2. rewrite N1, N2.
    destruct x as [[pg'|]| | | |];
      try (do 3 eexists; split; [reflexivity|]; split; [reflexivity|]; split; [constructor|discriminate]).
    do 3 eexists. split; [reflexivity|]. split; [reflexivity|].
    destruct (C _ eq_refl) as [C1|(o & n & C1 & C2 & ->)].
    + split; [constructor; exact C1|]. intros _. right. do 5 eexists.
      split; [reflexivity|]. split; [reflexivity|]. auto.
    + split; [apply (d_in true o); auto; lia|]. intros _. right. do 5 eexists.
      split; [reflexivity|]. split; [reflexivity|]. right. exists o, n, 0. split; [exact C1|]. split; [reflexivity|]. split; [lia|auto].
  - unfold data_next. cbn [ds_row ds_page ds_p ds_dec].
    assert (DI : drel w (DState p dec row (Some (Page (PRows n (page_bit_offset f + 8) len) j)))
                  (DState p' dec row (Some (Page (PRows n (page_bit_offset f + 8) len) j))))
      by (apply (d_in w o); assumption).
    destruct (row =? md_row_count md).
    { do 3 eexists. split; [reflexivity|]. split; [reflexivity|]. split; [exact DI|]. discriminate. }
    unfold page_next. cbn [pg_kind pg_row]. destruct (N.eqb_spec j n) as [E|E].
    + destruct (next_in (page_fuel c) o p p' I) as (x & q & q' & N1 & N2 & C).
      unfold e, f, plen in N1, N2. rewrite N1, N2.
      destruct x as [[pg'|]| | | |];
        try (do 3 eexists; split; [reflexivity|]; split; [reflexivity|]; split; [constructor|discriminate]).
      rewrite (C _ eq_refl).
      do 3 eexists. split; [reflexivity|]. split; [reflexivity|]. split; [constructor|]. auto.
    + do 3 eexists. split; [reflexivity|]. split; [reflexivity|]. split; [exact DI|].
      intros _. right. do 5 eexists. split; [reflexivity|]. split; [reflexivity|]. right.
      exists o, n, j. split; [exact I|]. split; [reflexivity|]. split; [lia|exact W].
Qed.

Lemma row_change : forall o j (p p' : pstate fstate), in_p o p p' -> j < 65536 ->
  let off := (page_bit_offset f + 8) +! len *! j in
  off = page_bit_offset f + 8 + len * j
  /\ (off <= o < off + len
      /\ one_byte (row_under len (PView (mem (ps_buf p)) off)) (row_under len (PView (mem (ps_buf p')) off))
      \/ row_under len (PView (mem (ps_buf p')) off) = row_under len (PView (mem (ps_buf p)) off)).
Proof.
  intros o j p p' (_ & _ & _ & _ & _ & _ & _ & a & x & y & b & M & M' & L) J off.
  assert (BO : page_bit_offset f <= 32) by (unfold page_bit_offset; destruct f; lia).
  assert (SM : len * j < 2 ^ 47 * 65536).
  { apply (N.le_lt_trans _ (len * 65535)); [apply N.mul_le_mono_l; lia|]. lia. }
  assert (EO : off = page_bit_offset f + 8 + len * j).
  { unfold off, mul64. rewrite u64_small by (unfold W64; lia). apply add64_small. unfold W64. lia. }
  split; [exact EO|]. unfold row_under. cbn [pv_mem pv_off]. rewrite M, M'.
  destruct (firstn_skipn_change _ a b (Some x) (Some y) (N.to_nat off) (N.to_nat len))
    as [(C & u & v & E1 & E2)|(C & E)].
  - left. split; [unfold lenN in L; lia|]. exists u, x, y, v. auto.
  - right. symmetry. exact E.
Qed.

Definition lines (w w' : bool) (x x' : res (option pview)) : Prop :=
  match x, x' with
  | Ok (Some p), Ok (Some p') => pv_off p' = pv_off p /\ changed w w' [row_under len p] [row_under len p']
  | _, _ => x' = x /\ (w = false -> w' = false)
  end.

Lemma lines_same : forall w x, lines w w x x.
Proof. intros w [[p|]| | | |]; cbn; auto. split; [reflexivity|]. left. auto. Qed.

Lemma read_line_rel : forall w d d', drel w d d' -> exists w' x x' d1 d1',
  read_line c file_source h md d = (x, d1) /\ read_line c file_source h md d' = (x', d1')
  /\ drel w' d1 d1' /\ lines w w' x x'.
Proof.
  intros w d d' R. unfold read_line.
  destruct (data_next_rel w d d' R) as (x & d1 & d1' & N1 & N2 & R1 & C). rewrite N1, N2.
  destruct x as [[|]| | | |];
    try (exists w; do 4 eexists; split; [reflexivity|]; split; [reflexivity|]; split; [exact R1|];
         apply lines_same).
  destruct (C eq_refl) as [->|(p & p' & dec & row & pg & -> & -> & D)]; clear C N1 N2.
  - destruct (data_read_line d1) as [[[off n]| | | |] d2];
      try (exists w; do 4 eexists; split; [reflexivity|]; split; [reflexivity|]; split; [apply d_same|];
           apply lines_same).
    destruct (extract_row_values c h md off n d2) as [r d3].
    exists w. do 4 eexists. split; [reflexivity|]. split; [reflexivity|]. split; [apply d_same|].
    apply lines_same.
  - unfold data_read_line. cbn [ds_page ds_p ds_dec ds_row].
    destruct D as [[B ->]|(o & n & j & I & -> & J & W)].
    + destruct (page_read_line pg) as [[off n]| | | |];
        try (exists true; do 4 eexists; split; [reflexivity|]; split; [reflexivity|];
             split; [apply d_before; exact B|apply lines_same]).
      unfold extract_row_values. cbn [ds_p ds_dec ds_row ds_page].
      replace (ps_buf p') with (ps_buf p) by (symmetry; apply B).
      destruct (fmt_assert c _); cbn [bind];
        try (exists true; do 4 eexists; split; [reflexivity|]; split; [reflexivity|];
             split; [apply d_before; exact B|apply lines_same]).
      destruct (n <? md_row_length md);
        [|exists true; do 4 eexists; split; [reflexivity|]; split; [reflexivity|];
          split; [apply d_before; exact B|apply lines_same]].
      destruct dec as [|dst|dst];
        [exists true; do 4 eexists; split; [reflexivity|]; split; [reflexivity|];
          split; [apply d_before; exact B|apply lines_same]| |];
      (destruct (read_cells _ off n) as [s| | | |];
        try (exists true; do 4 eexists; split; [reflexivity|]; split; [reflexivity|];
             split; [apply d_before; exact B|apply lines_same])).
      * destruct (rdc s dst) as [r dst']. exists true. do 4 eexists. split; [reflexivity|].
        split; [reflexivity|]. split; [apply d_before; exact B|apply lines_same].
      * destruct (rle s dst) as [r dst']. exists true. do 4 eexists. split; [reflexivity|].
        split; [reflexivity|]. split; [apply d_before; exact B|apply lines_same].
    + cbn [page_read_line pg_kind pg_row]. unfold page_inc. cbn [pg_kind pg_row].
      destruct (row_change o j p p' I ltac:(lia)) as [EO CH]. cbn zeta in EO, CH.
      replace (j +! 1) with (j + 1) by (rewrite add64_small; unfold W64; lia).
      assert (NX : forall w', (w' = true \/ o < page_bit_offset f + 8 + len * (j + 1)) -> forall r,
        drel w' (DState p dec r (Some (Page (PRows n (page_bit_offset f + 8) len) (j + 1))))
                (DState p' dec r (Some (Page (PRows n (page_bit_offset f + 8) len) (j + 1))))).
      { intros w' W' r. apply (d_in w' o); auto; lia. }
      assert (W1 : w = true \/ o < page_bit_offset f + 8 + len * (j + 1)).
      { destruct W as [W|W]; [auto|right]. nia. }
      unfold extract_row_values. cbn [ds_p ds_dec ds_row ds_page].
      destruct (fmt_assert c _); cbn [bind];
        try (exists w; do 4 eexists; split; [reflexivity|]; split; [reflexivity|];
             split; [apply NX; exact W1|apply lines_same]).
      fold len. rewrite N.ltb_irrefl. cbn [bind].
      destruct CH as [[CO OB]|EQ].
      * exists false. do 4 eexists. split; [reflexivity|]. split; [reflexivity|].
        split; [apply NX; right; nia|]. cbn [lines]. split; [reflexivity|]. right.
        split; [destruct W as [W|W]; [exact W|exfalso; lia]|]. split; [reflexivity|].
        eexists [], _, _, []. split; [reflexivity|]. split; [reflexivity|]. exact OB.
      * exists w. do 4 eexists. split; [reflexivity|]. split; [reflexivity|].
        split; [apply NX; exact W1|]. cbn [lines]. split; [reflexivity|]. left. rewrite EQ. auto.
Qed.

Lemma data_skip_rel : forall n w d d', drel w d d' -> exists x d1 d1',
  data_skip c file_source h md n d = (x, d1) /\ data_skip c file_source h md n d' = (x, d1')
  /\ drel w d1 d1'.
Proof.
  induction n as [|n IH]; intros w d d' R; cbn [data_skip].
  { do 3 eexists. split; [reflexivity|]. split; [reflexivity|exact R]. }
  destruct (data_next_rel w d d' R) as (x & d1 & d1' & N1 & N2 & R1 & C). rewrite N1, N2.
  destruct x as [[|]| | | |]; try (do 3 eexists; split; [reflexivity|]; split; [reflexivity|exact R1]).
  destruct (C eq_refl) as [->|(p & p' & dec & row & pg & -> & -> & D)]; clear C N1 N2.
  - destruct (data_read_line d1) as [[o| | | |] d2];
      try (do 3 eexists; split; [reflexivity|]; split; [reflexivity|apply d_same]).
    apply IH. apply d_same.
  - unfold data_read_line. cbn [ds_page ds_p ds_dec ds_row].
    destruct D as [[B ->]|(o & m & j & I & -> & J & W)].
    + destruct (page_read_line pg) as [o| | | |];
        try (do 3 eexists; split; [reflexivity|]; split; [reflexivity|apply d_before; exact B]).
      apply IH. apply d_before. exact B.
    + cbn [page_read_line pg_kind pg_row]. unfold page_inc. cbn [pg_kind pg_row].
      replace (j +! 1) with (j + 1) by (rewrite add64_small; unfold W64; lia).
      apply IH. apply (d_in w o); [exact I|lia|lia|]. destruct W as [W|W]; [auto|right; nia].
Qed.

(** ** The calls *)

Definition rows_ev (ev : list event) : list (list cell) :=
  map (fun ip => row_under len (snd ip)) (rows_of ev).

Lemma rows_ev_app : forall a b, rows_ev (a ++ b) = rows_ev a ++ rows_ev b.
Proof. intros. unfold rows_ev, rows_of. rewrite flat_map_app, map_app. reflexivity. Qed.

Lemma read_row_rel : forall w d d', drel w d d' -> exists w' x d1 d1' ev ev',
  read_row c file_source (RState h md d) = (x, RState h md d1, ev)
  /\ read_row c file_source (RState h md d') = (x, RState h md d1', ev')
  /\ drel w' d1 d1' /\ map bare_event ev' = map bare_event ev
  /\ changed w w' (rows_ev ev) (rows_ev ev').
Proof.
  intros w d d' R. unfold read_row. cbn [rs_h rs_md rs_d]. rewrite (drel_row _ _ _ R).
  destruct (read_line_rel w d d' R) as (w' & x & x' & d1 & d1' & E1 & E2 & R1 & L). rewrite E1, E2.
  exists w'.
  destruct x as [[p|]| | | |], x' as [[p'|]| | | |]; cbn [lines] in L; destruct L as [L0 L1];
    try discriminate.
  1:{ do 5 eexists. split; [reflexivity|]. split; [reflexivity|]. split; [exact R1|].
      cbn [map bare_event]. unfold bare. rewrite L0. split; [reflexivity|]. exact L1. }
  all: try (injection L0 as ->); do 5 eexists; (split; [reflexivity|]); (split; [reflexivity|]);
    (split; [exact R1|]); (split; [reflexivity|]); apply changed_nil; exact L1.
Qed.

Lemma read_rows_rel : forall n w d d', drel w d d' -> exists w' x d1 d1' ev ev',
  read_rows c file_source n (RState h md d) = (x, RState h md d1, ev)
  /\ read_rows c file_source n (RState h md d') = (x, RState h md d1', ev')
  /\ drel w' d1 d1' /\ map bare_event ev' = map bare_event ev
  /\ changed w w' (rows_ev ev) (rows_ev ev').
Proof.
  induction n as [|n IH]; intros w d d' R; cbn [read_rows].
  { exists w. do 5 eexists. split; [reflexivity|]. split; [reflexivity|]. split; [exact R|].
    split; [reflexivity|]. apply changed_nil. auto. }
  destruct (read_row_rel w d d' R) as (w' & x & d1 & d1' & ev & ev' & E1 & E2 & R1 & B & C).
  rewrite E1, E2.
  destruct x as [[|]| | | |];
    try (exists w'; do 5 eexists; split; [reflexivity|]; split; [reflexivity|]; split; [exact R1|]; auto).
  destruct (IH w' d1 d1' R1) as (w2 & y & d2 & d2' & ev2 & ev2' & F1 & F2 & R2 & B2 & C2).
  rewrite F1, F2. exists w2. do 5 eexists. split; [reflexivity|]. split; [reflexivity|].
  split; [exact R2|]. rewrite !map_app, !rows_ev_app, B, B2. split; [reflexivity|].
  eapply changed_app; eassumption.
Qed.

Lemma read_all_rel : forall n w d d', drel w d d' -> exists w' x d1 d1' ev ev',
  read_all_loop c file_source n (RState h md d) = (x, RState h md d1, ev)
  /\ read_all_loop c file_source n (RState h md d') = (x, RState h md d1', ev')
  /\ drel w' d1 d1' /\ map bare_event ev' = map bare_event ev
  /\ changed w w' (rows_ev ev) (rows_ev ev').
Proof.
  induction n as [|n IH]; intros w d d' R; cbn [read_all_loop].
  { exists w. do 5 eexists. split; [reflexivity|]. split; [reflexivity|]. split; [exact R|].
    split; [reflexivity|]. apply changed_nil. auto. }
  destruct (read_row_rel w d d' R) as (w' & x & d1 & d1' & ev & ev' & E1 & E2 & R1 & B & C).
  rewrite E1, E2.
  destruct x as [[|]| | | |];
    try (exists w'; do 5 eexists; split; [reflexivity|]; split; [reflexivity|]; split; [exact R1|]; auto).
  destruct (IH w' d1 d1' R1) as (w2 & y & d2 & d2' & ev2 & ev2' & F1 & F2 & R2 & B2 & C2).
  rewrite F1, F2. exists w2. do 5 eexists. split; [reflexivity|]. split; [reflexivity|].
  split; [exact R2|]. rewrite !map_app, !rows_ev_app, B, B2. split; [reflexivity|].
  eapply changed_app; eassumption.
Qed.

Definition entry_rows (en : entry) : list (list cell) :=
  let '(_, x, ev) := en in
  rows_ev ev ++ match x with Ok (OPtr (Some p)) => [row_under len p] | _ => [] end.

Lemma step_rel : forall o w d d', drel w d d' -> exists w' x x' d1 d1' ev ev',
  step c file_source o (RState h md d) = (x, RState h md d1, ev)
  /\ step c file_source o (RState h md d') = (x', RState h md d1', ev')
  /\ drel w' d1 d1' /\ bare_entry (o, x', ev') = bare_entry (o, x, ev)
  /\ changed w w' (entry_rows (o, x, ev)) (entry_rows (o, x', ev')).
Proof.
  intros o w d d' R. destruct o as [|n| |n| |]; cbn [step].
  - destruct (read_row_rel w d d' R) as (w' & x & d1 & d1' & ev & ev' & E1 & E2 & R1 & B & C).
    rewrite E1, E2. exists w'. do 6 eexists. split; [reflexivity|]. split; [reflexivity|].
    split; [exact R1|]. unfold bare_entry. rewrite B. split; [reflexivity|]. unfold entry_rows.
    destruct x; cbn [rmap bind]; rewrite !app_nil_r; exact C.
  - destruct (read_rows_rel (N.to_nat n) w d d' R) as (w' & x & d1 & d1' & ev & ev' & E1 & E2 & R1 & B & C).
    rewrite E1, E2. exists w'. do 6 eexists. split; [reflexivity|]. split; [reflexivity|].
    split; [exact R1|]. unfold bare_entry. rewrite B. split; [reflexivity|]. unfold entry_rows.
    destruct x; cbn [rmap bind]; rewrite !app_nil_r; exact C.
  - unfold read_all. cbn [rs_md rs_d]. rewrite (drel_row _ _ _ R).
    match goal with |- context [read_all_loop _ _ ?k _] =>
      destruct (read_all_rel k w d d' R) as (w' & x & d1 & d1' & ev & ev' & E1 & E2 & R1 & B & C) end.
    rewrite E1, E2. exists w'. do 6 eexists. split; [reflexivity|]. split; [reflexivity|].
    split; [exact R1|]. unfold bare_entry. rewrite B. split; [reflexivity|]. unfold entry_rows.
    destruct x; cbn [rmap bind]; rewrite !app_nil_r; exact C.
  - unfold skip. cbn [rs_h rs_md rs_d].
    destruct (data_skip_rel (N.to_nat n) w d d' R) as (x & d1 & d1' & E1 & E2 & R1).
    rewrite E1, E2. exists w. do 6 eexists. split; [reflexivity|]. split; [reflexivity|].
    split; [exact R1|]. split; [reflexivity|]. left. auto.
  - unfold read_row_no_sink. cbn [rs_h rs_md rs_d].
    destruct (read_line_rel w d d' R) as (w' & x & x' & d1 & d1' & E1 & E2 & R1 & L). rewrite E1, E2.
    exists w'. do 6 eexists. split; [reflexivity|]. split; [reflexivity|]. split; [exact R1|].
    destruct x as [[p|]| | | |], x' as [[p'|]| | | |]; cbn [lines] in L; destruct L as [L0 L1];
      try discriminate.
    1:{ cbn [rmap bind bare_entry bare_out]. unfold bare. rewrite L0. split; [reflexivity|]. exact L1. }
    all: try (injection L0 as ->); (split; [reflexivity|]); apply changed_nil; exact L1.
  - exists w. do 6 eexists. split; [reflexivity|]. split; [reflexivity|]. split; [exact R|].
    split; [reflexivity|]. left. auto.
Qed.

Lemma trace_rel : forall ops w d d', drel w d d' -> exists w' t t' d1 d1',
  trace c file_source ops (Some (RState h md d)) = (t, Some (RState h md d1))
  /\ trace c file_source ops (Some (RState h md d')) = (t', Some (RState h md d1'))
  /\ drel w' d1 d1' /\ map bare_entry t' = map bare_entry t
  /\ changed w w' (rows_out len t) (rows_out len t').
Proof.
  induction ops as [|o ops IH]; intros w d d' R; cbn [trace].
  { exists w. do 4 eexists. split; [reflexivity|]. split; [reflexivity|]. split; [exact R|].
    split; [reflexivity|]. left. auto. }
  cbn [reader_step].
  destruct (step_rel o w d d' R) as (w' & x & x' & d1 & d1' & ev & ev' & E1 & E2 & R1 & B & C).
  rewrite E1, E2. destruct (IH w' d1 d1' R1) as (w2 & t & t' & d2 & d2' & F1 & F2 & R2 & B2 & C2).
  rewrite F1, F2.
  assert (SH : match x with Ok _ | Exn _ => true | _ => false end
               = match x' with Ok _ | Exn _ => true | _ => false end).
  { unfold bare_entry in B. injection B as B _. unfold bare_out in B.
    destruct x as [[| |[|]]| | | |], x' as [[| |[|]]| | | |]; try discriminate; reflexivity. }
  destruct x as [v|ex| | |], x' as [v'|ex'| | |]; try discriminate.
  1-4: exists w2; do 4 eexists; split; [reflexivity|]; split; [reflexivity|]; split; [exact R2|];
    cbn [map]; rewrite B, B2; split; [reflexivity|]; cbn [rows_out flat_map];
    eapply changed_app; [exact C|exact C2].
  all: exists w'; do 4 eexists; split; [reflexivity|]; split; [reflexivity|]; split; [exact R1|];
    cbn [map]; rewrite B; split; [reflexivity|]; cbn [rows_out flat_map];
    unfold entry_rows, rows_ev in C; rewrite ?app_nil_r in *; exact C.
Qed.

End Rows.

Lemma near_file : forall k a x y b o, lenN a = N.of_nat k * plen + o ->
  page_bit_offset f + 8 <= o < plen -> (N.of_nat k + 1) * plen <= lenN (a ++ x :: b) ->
  get_val e (slice (N.of_nat k * plen + page_bit_offset f) 2 (a ++ x :: b)) = PAGE_DATA_TYPE ->
  get_val e (slice (N.of_nat k * plen + page_bit_offset f + 2) 2 (a ++ x :: b)) <> 0 ->
  near (a ++ x :: b) (a ++ y :: b).
Proof.
  induction k as [|k IH]; intros a x y b o LA O LF T T0.
  - cbn [N.of_nat] in *. rewrite N.mul_0_l, N.add_0_l in LA, T, T0. rewrite N.add_0_l, N.mul_1_l in LF.
    rewrite lenN_app in LF. subst o.
    set (m := N.to_nat (plen - lenN a - 1)).
    assert (LB : (m <= length b)%nat) by (unfold m, lenN in *; cbn [length] in LF; lia).
    assert (SB : exists b1 z, b = b1 ++ z /\ length b1 = m).
    { exists (firstn m b), (skipn m b). rewrite firstn_skipn, firstn_length. split; [reflexivity|lia]. }
    destruct SB as (b1 & z & -> & L1).
    change (a ++ x :: b1 ++ z) with (a ++ (x :: b1) ++ z) in *.
    change (a ++ y :: b1 ++ z) with (a ++ (y :: b1) ++ z). rewrite !app_assoc in *.
    assert (LP : lenN (a ++ x :: b1) = plen) by (rewrite lenN_app; unfold lenN in *; cbn [length]; lia).
    rewrite slice_app1 in T by lia. rewrite slice_app1 in T0 by lia. apply near_here; auto; lia.
  - set (m := N.to_nat plen).
    assert (LB : (m <= length a)%nat) by (unfold m, lenN in *; nia).
    assert (SB : exists a1 a2, a = a1 ++ a2 /\ lenN a1 = plen).
    { exists (firstn m a), (skipn m a). unfold lenN. rewrite firstn_skipn, firstn_length. split; [reflexivity|lia]. }
    destruct SB as (a1 & a2 & -> & L1).
    rewrite <- !app_assoc in *. apply near_later; [exact L1|lia|].
    rewrite lenN_app, L1 in LA. rewrite lenN_app, L1 in LF.
    rewrite slice_app2 in T by nia. rewrite slice_app2 in T0 by nia.
    apply (IH a2 x y b o); [nia|exact O|nia| |].
    + rewrite <- T. f_equal. f_equal. rewrite L1. nia.
    + intros Z. apply T0. rewrite <- Z. f_equal. f_equal. rewrite L1. nia.
Qed.

End Damage.

(** ** The file *)

Lemma damage : forall c flt a x y b r,
  opened c file_source flt (file_open (a ++ x :: b)) r ->
  in_data_page (a ++ x :: b) (lenN a) -> md_row_length (rs_md r) < 2 ^ 47 ->
  exists r', opened c file_source flt (file_open (a ++ y :: b)) r'
    /\ rs_h r' = rs_h r /\ rs_md r' = rs_md r
    /\ forall ops,
       let (t, z) := trace c file_source ops (Some r) in
       let (t', z') := trace c file_source ops (Some r') in
       map bare_entry t' = map bare_entry t
       /\ one_row (rows_out (md_row_length (rs_md r)) t) (rows_out (md_row_length (rs_md r)) t')
       /\ current_row_index z' = current_row_index z.
Proof.
  intros c flt a x y b r [ev OP] (k & o & Q & RO & LF & T & T0) SMALL.
  unfold open_reader in OP. binv OP. destruct x0 as [[h s] b0]. cbn [fst snd] in OP.
  pose proof (header_opened _ _ _ _ _ E) as (L & M & R & TH & -> & ->).
  pose proof (open_header_plen _ _ _ _ _ E) as PL.
  pose proof (the_header_spec c (a ++ x :: b) h ltac:(lia) TH) as HO.
  assert (LA : header_length_field (a ++ x :: b) <= lenN a) by (cbn zeta in *; nia).
  assert (A288 : 288 <= lenN a) by lia.
  assert (EF : h_format h = file_format a)
    by (rewrite (hof_format _ _ HO); apply format_kept; exact A288).
  assert (EE : h_endianness h = file_endian a)
    by (rewrite (hof_endian _ _ HO); apply endian_kept; exact A288).
  assert (EP : h_page_length h = page_length_field (a ++ x :: b)) by apply (hof_page_length _ _ HO).
  assert (MA : 288 <= max_alloc c).
  { destruct (N.le_gt_cases 288 (max_alloc c)) as [A|A]; [exact A|exfalso].
    unfold open_header, check_header, check_header_ctor in E.
    rewrite read_stream_bad_alloc in E; [discriminate|reflexivity|exact A|reflexivity]. }
  set (hl := header_length_field (a ++ x :: b)) in *.
  assert (HL : header_length_field (a ++ y :: b) = hl)
    by (unfold hl; rewrite !hlen_kept by exact A288; reflexivity).
  assert (E' : open_header c file_source (file_open (a ++ y :: b))
    = Ok (h, FState (skipn (N.to_nat hl) (a ++ y :: b)) false false, full (field (a ++ x :: b) 0 hl))).
  { rewrite open_header_file in E by assumption. fold hl in E.
    assert (LEN : lenN (a ++ y :: b) = lenN (a ++ x :: b)) by (rewrite !lenN_app; reflexivity).
    assert (FLD : forall off n, off + n <= lenN a -> field (a ++ y :: b) off n = field (a ++ x :: b) off n)
      by (intros; rewrite !field_kept by assumption; reflexivity).
    rewrite open_header_file; [|rewrite LEN; exact L| |exact MA].
    2:{ unfold has_magic. rewrite FLD by lia. exact M. }
    rewrite HL, LEN. destruct (hl <? 288); [destruct (ndebug c); discriminate|].
    destruct (negb (hl <=? max_alloc c)); [discriminate|].
    destruct (lenN (a ++ x :: b) <? hl); [discriminate|].
    unfold the_header in *. rewrite HL, FLD by lia.
    rewrite !endian_kept, !format_kept, !shift1_kept, !shift2_kept in * by exact A288.
    fold hl in TH. rewrite TH. reflexivity. }
  unfold set_metadata in OP.
  assert (NEAR : near h (skipn (N.to_nat hl) (a ++ x :: b)) (skipn (N.to_nat hl) (a ++ y :: b))).
  { assert (ST : page_bit_offset (h_format h) = type_at (file_format (a ++ x :: b)))
      by (rewrite (hof_format _ _ HO); destruct (file_format (a ++ x :: b)); reflexivity).
    assert (SP : forall w, skipn (N.to_nat hl) (a ++ w :: b) = skipn (N.to_nat hl) a ++ w :: b).
    { intros w. rewrite skipn_app. replace (N.to_nat hl - length a)%nat with 0%nat
        by (unfold lenN in LA; lia). reflexivity. }
    assert (SL : forall off, slice off 2 (skipn (N.to_nat hl) a ++ x :: b) = field (a ++ x :: b) (hl + off) 2).
    { intros off. rewrite <- SP. unfold slice, field. rewrite skipn_skipn'. f_equal. f_equal. lia. }
    cbn zeta in *. unfold rows_at in RO. rewrite <- ST in *. rewrite <- EP in *.
    rewrite <- (hof_endian _ _ HO), <- get_val_value in T, T0.
    rewrite (SP x), (SP y).
    apply (near_file h PL (N.to_nat k) _ _ _ _ o); rewrite ?Nnat.N2Nat.id.
    - rewrite lenN_skipn. lia.
    - exact RO.
    - rewrite lenN_app, lenN_skipn in *. lia.
    - rewrite SL, N.add_assoc. exact T.
    - rewrite SL, !N.add_assoc. exact T0. }
  set (buf := full (field (a ++ x :: b) 0 hl)) in *.
  assert (BP : before_p h (PState (FState (skipn (N.to_nat hl) (a ++ x :: b)) false false) buf reset_page_header)
                 (PState (FState (skipn (N.to_nat hl) (a ++ y :: b)) false false) buf reset_page_header)).
  { split; [reflexivity|]. split; [reflexivity|]. eexists _, _. split; [reflexivity|].
    split; [reflexivity|]. exact NEAR. }
  pose proof (metadata_before c h PL (page_fuel c) _ _ empty_mstate BP eq_refl) as ML.
  binv OP. destruct x0 as [[p md] dsh]. binv E0. destruct x0 as [q m]. rewrite E1 in ML.
  destruct ML as (q' & ML & C). binv E0. injection E0 as <- <- <-. cbn [fst snd] in *.
  binv OP. injection OP as <- <-. cbn [rs_md rs_h] in *. rename x0 into md, x1 into d.
  assert (DR : exists d', read_data c h md q' (m_data_subheaders m) = Ok d' /\ drel h md true d d').
  { unfold read_data in *. binv E0. rename x0 into dec. rewrite E3. cbn [bind].
    destruct C as [C|[DS [o1 C]]].
    - destruct C as (EB & EH & ER). destruct (m_data_subheaders m).
      + rewrite EB, EH. binv E0. injection E0 as <-. rewrite E4. eexists. split; [reflexivity|].
        apply d_before. split; [exact EB|]. auto.
      + injection E0 as <-. eexists. split; [reflexivity|]. apply d_before. split; [exact EB|]. auto.
    - rewrite DS in *. assert (CI := C). destruct C as (EI & EH & ET & EC & REST). rewrite EH.
      unfold build_page in *. rewrite ET in *. cbn in *. injection E0 as <-. eexists.
      split; [reflexivity|]. apply (d_in h md true o1); auto; lia. }
  destruct DR as (d' & RD & DR).
  exists (RState h md d'). split.
  { exists [EvProps h md]. unfold open_reader. rewrite E'. cbn [bind]. unfold set_metadata. fold buf.
    rewrite ML. cbn [bind]. rewrite E2. cbn [bind]. rewrite RD. reflexivity. }
  split; [reflexivity|]. split; [reflexivity|]. intros ops.
  destruct (trace_rel c h PL md SMALL ops true d d' DR) as (w & t & t' & d1 & d1' & F1 & F2 & R1 & B & CH).
  rewrite F1, F2. split; [exact B|]. split; [|cbn; exact (drel_row _ _ _ _ _ R1)].
  destruct CH as [[CH _]|(_ & _ & CH)]; [left; exact CH|right; exact CH].
Qed.
