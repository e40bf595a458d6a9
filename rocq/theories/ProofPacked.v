(** Proofs about a file of which one byte has been changed, in compressed rows. *)
From Verif Require Import Base Types Buffer Page Column Header Metadata Decomp Data Reader
  Lemmas SpecValues SpecHeader SpecDecomp SpecReader SpecConform SpecDamage SpecPacked
  ProofMetaInv ProofValues ProofHeader ProofBuffer ProofSource ProofReader ProofBisim ProofCut ProofDamage.
Local Open Scope N_scope.

Lemma map_some_inj : forall (l m : bytes), map Some l = map Some m -> l = m.
Proof.
  induction l as [|b l IH]; intros [|v m] H; try discriminate; [reflexivity|].
  cbn in H. injection H as -> H. f_equal. apply IH. exact H.
Qed.

Lemma read_cells_page : forall (pg : bytes) rest off n v, off + n <= lenN pg ->
  read_cells (map Some pg ++ rest) off n = Ok v -> v = slice off n pg.
Proof.
  intros pg rest off n v L H. apply read_cells_Ok in H. destruct H as (_ & H & _).
  rewrite slice_app1 in H by (rewrite lenN_map; exact L). rewrite slice_map in H.
  symmetry. apply map_some_inj. exact H.
Qed.

Lemma read_cells_other : forall (a b : list cell) x y off n, ~ (off <= lenN a < off + n) ->
  read_cells (a ++ x :: b) off n = read_cells (a ++ y :: b) off n.
Proof.
  intros a b x y off n H. unfold read_cells. rewrite !lenN_app.
  replace (lenN (y :: b)) with (lenN (x :: b)) by reflexivity.
  destruct (off + n <=? lenN a + lenN (x :: b)); [|reflexivity].
  unfold slice. destruct (firstn_skipn_change _ a b x y (N.to_nat off) (N.to_nat n)) as [[C _]|[_ C]].
  - exfalso. apply H. unfold lenN. lia.
  - rewrite C. reflexivity.
Qed.

Section Packed.
Variables (c : cfg) (h : header) (md : metadata).
Let e := h_endianness h.
Let f := h_format h.
Let plen := h_page_length h.
Hypothesis PL : plen < 2 ^ 32.
Let len := md_row_length md.

(** Pointer [j] of a page. *)
Definition ent (pg : bytes) (j : N) : N * N :=
  (get_val e (slice (subheader_pos f j) (integer_size f) pg),
   get_val e (slice (subheader_pos f j + integer_size f) (integer_size f) pg)).

Definition cov (o : N) (p : N * N) : Prop := fst p <= o < fst p + snd p.

(** The page [pg] with the byte [o] to be changed. *)
Record changeable (pg : bytes) (o : N) : Prop := {
  ch_len : lenN pg = plen;
  ch_type : get_val e (slice (page_bit_offset f) 2 pg) = PAGE_META_TYPE;
  ch_table : page_bit_offset f + 8
             + get_val e (slice (page_bit_offset f + 4) 2 pg) * subheader_size f <= o;
  ch_once : forall i j, i < get_val e (slice (page_bit_offset f + 4) 2 pg) ->
    j < get_val e (slice (page_bit_offset f + 4) 2 pg) -> cov o (ent pg i) -> cov o (ent pg j) -> i = j
}.

(** [z] is what follows the changed page. *)
Inductive nearz (z : bytes) : bytes -> bytes -> Prop :=
| nearz_here : forall a x y b, changeable (a ++ x :: b) (lenN a) ->
    nearz z ((a ++ x :: b) ++ z) ((a ++ y :: b) ++ z)
| nearz_later : forall pg r r', lenN pg = plen -> 0 < plen -> nearz z r r' ->
    nearz z (pg ++ r) (pg ++ r').

Definition before_z (z : bytes) (p p' : pstate fstate) : Prop :=
  ps_buf p' = ps_buf p /\ ps_hdr p' = ps_hdr p
  /\ exists r r', ps_is p = FState r false false /\ ps_is p' = FState r' false false /\ nearz z r r'.

(** Two buffers which differ in byte [o]. *)
Definition held (o : N) (p p' : pstate fstate) : Prop :=
  ps_is p' = ps_is p /\ msize (ps_buf p) = plen /\ msize (ps_buf p') = plen /\ o < plen
  /\ exists a x y b, mem (ps_buf p) = a ++ Some x :: b /\ mem (ps_buf p') = a ++ Some y :: b
                     /\ lenN a = o.

(** The changed page has just been read. *)
Definition just_read (z : bytes) (o : N) (p p' : pstate fstate) : Prop :=
  held o p p' /\ ps_hdr p' = ps_hdr p /\ fs_rest (ps_is p) = z
  /\ get_page_header e f (ps_buf p) = Ok (ps_hdr p)
  /\ exists pg rest, mem (ps_buf p) = map Some pg ++ rest /\ changeable pg o.

Lemma nearz_read : forall z r r', nearz z r r' -> exists pg pg' s s',
  Buffer.file_read (FState r false false) plen = (FState s false false, pg, true)
  /\ Buffer.file_read (FState r' false false) plen = (FState s' false false, pg', true)
  /\ lenN pg = plen /\ 0 < plen
  /\ (pg' = pg /\ nearz z s s'
      \/ s = z /\ s' = z /\ exists a x y b, pg = a ++ x :: b /\ pg' = a ++ y :: b
           /\ changeable pg (lenN a)).
Proof.
  intros z r r' H.
  assert (G : forall pg z, lenN pg = plen ->
    Buffer.file_read (FState (pg ++ z) false false) plen = (FState z false false, pg, true)).
  { intros pg z0 L. rewrite file_read_all; [|lia|rewrite lenN_app; lia].
    rewrite <- L. unfold lenN. rewrite Nnat.Nat2N.id.
    rewrite skipn_app, firstn_app, skipn_all, firstn_all, Nat.sub_diag. cbn. rewrite app_nil_r. reflexivity. }
  destruct H as [a x y b CH|pg s s' L P N].
  - pose proof (ch_len _ _ CH) as L.
    exists (a ++ x :: b), (a ++ y :: b), z, z. rewrite G by exact L. rewrite G.
    2:{ rewrite <- L, !lenN_app. reflexivity. }
    repeat split; try assumption. { rewrite <- L, lenN_app. unfold lenN. cbn [length]. lia. }
    right. split; [reflexivity|]. split; [reflexivity|]. exists a, x, y, b. auto.
  - exists pg, pg, s, s'. rewrite !G by exact L. repeat split; try assumption. left. auto.
Qed.

Lemma read_page_before_z : forall z p p', before_z z p p' -> exists x q q',
  read_page c file_source e f plen p = (x, q) /\ read_page c file_source e f plen p' = (x, q')
  /\ (forall b, x = Ok b -> b = true /\ (before_z z q q' \/ exists o, just_read z o q q')).
Proof.
  intros z [s b hd] [s' b' hd'] (B & HD & r & r' & I & I' & N). cbn [ps_buf ps_hdr ps_is] in *. subst.
  unfold read_page. cbn [ps_is ps_buf src_eof file_source]. unfold file_eof. cbn [fs_eof].
  destruct (nearz_read _ _ _ N) as (pg & pg' & s & s' & R & R' & L & P & C).
  unfold read_stream. cbn [src_read file_source]. rewrite R, R'.
  replace (0 +! plen) with plen by (rewrite add64_small; unfold W64; lia).
  assert (L' : lenN pg' = plen).
  { destruct C as [[-> _]|(_ & _ & a & x & y & w & -> & -> & _)]; [exact L|].
    rewrite <- L, !lenN_app. reflexivity. }
  destruct (resize c b plen) as [b1| | | |] eqn:RS;
    try (do 3 eexists; split; [reflexivity|]; split; [reflexivity|]; discriminate).
  assert (SZ : msize b1 = plen).
  { unfold resize in RS. destruct (msize b <? plen); [|injection RS as <-; reflexivity].
    binv RS. binv RS. injection RS as <-. reflexivity. }
  rewrite L, L'. destruct (N.eqb_spec plen 0); [lia|].
  unfold write_cells. rewrite !lenN_map, L, L'.
  destruct (0 + plen <=? lenN (mem b1)) eqn:LE;
    [|do 3 eexists; split; [reflexivity|]; split; [reflexivity|]; discriminate].
  destruct C as [[-> NZ]|(-> & -> & a & x & y & w & -> & -> & CH)].
  - destruct (get_page_header e f _) as [hk| | | |] eqn:G; do 3 eexists; split; try reflexivity;
      split; try reflexivity; try discriminate.
    intros v [= <-]. split; [reflexivity|]. left. unfold before_z. cbn [ps_buf ps_hdr ps_is].
    split; [reflexivity|]. split; [reflexivity|]. eauto 6.
  - unfold splice. cbn [N.to_nat firstn app]. rewrite !map_length, !app_length. cbn [length Nat.add].
    rewrite !map_app. cbn [map]. rewrite <- !app_assoc. cbn [app].
    set (tl := map Some w ++ skipn (length a + S (length w)) (mem b1)).
    assert (O : page_bit_offset f + 8 <= lenN a) by (pose proof (ch_table _ _ CH); lia).
    assert (PH := page_header_change h PL (map Some a) tl (Some x) (Some y) (msize b1) (msize b1)
                    ltac:(rewrite lenN_map; exact O)).
    fold e f in PH. rewrite <- PH.
    destruct (get_page_header e f _) as [hk| | | |] eqn:G; do 3 eexists; split; try reflexivity;
      split; try reflexivity; try discriminate.
    intros v [= <-]. split; [reflexivity|]. right. exists (lenN a).
    assert (Q : lenN a < plen) by (rewrite <- L, lenN_app; unfold lenN; cbn [length]; lia).
    split; [|split; [reflexivity|split; [reflexivity|split; [exact G|]]]].
    + unfold held. cbn [ps_buf ps_hdr ps_is msize mem]. repeat split; try assumption.
      exists (map Some a), x, y, tl. rewrite lenN_map. auto.
    + exists (a ++ x :: w), (skipn (length a + S (length w)) (mem b1)). cbn [ps_buf mem].
      split; [|exact CH]. rewrite map_app. cbn [map]. rewrite <- app_assoc. reflexivity.
Qed.

Lemma read_page_held : forall o p p', held o p p' -> exists x q q',
  read_page c file_source e f plen p = (x, q) /\ read_page c file_source e f plen p' = (x, q')
  /\ (x = Ok true -> q' = q).
Proof.
  intros o [s [m n] hd] [s' [m' n'] hd'] (I & S1 & S2 & O & a & x & y & b & M & M' & L).
  cbn [ps_buf ps_hdr ps_is mem msize] in *. subst.
  unfold read_page. cbn [ps_is ps_buf].
  destruct (src_eof file_source s).
  { do 3 eexists. split; [reflexivity|]. split; [reflexivity|]. discriminate. }
  unfold read_stream.
  replace (0 +! plen) with plen by (rewrite add64_small; unfold W64; lia).
  unfold resize. cbn [msize mem]. rewrite N.ltb_irrefl.
  destruct (src_read file_source s plen) as [[s1 data] ok] eqn:R. cbn [mem msize].
  assert (LM : lenN (a ++ Some y :: b) = lenN (a ++ Some x :: b)) by (rewrite !lenN_app; reflexivity).
  destruct ok.
  - assert (LD : lenN data = plen).
    { cbn [src_read file_source] in R. unfold Buffer.file_read in R.
      destruct (fs_eof s || fs_fail s); [discriminate|]. destruct (2 ^ 63 <=? plen); [discriminate|].
      destruct (N.leb_spec plen (lenN (fs_rest s))) as [Z|Z]; [|discriminate].
      injection R as <- <-. rewrite lenN_firstn. lia. }
    rewrite LD. destruct (N.eqb_spec plen 0); [lia|]. unfold write_cells. rewrite LM, !lenN_map, LD.
    destruct (0 + plen <=? lenN (a ++ Some x :: b)) eqn:LE;
      [|do 3 eexists; split; [reflexivity|]; split; [reflexivity|]; discriminate].
    assert (SP : splice 0 (map Some data) (a ++ Some y :: b) = splice 0 (map Some data) (a ++ Some x :: b)).
    { unfold splice. cbn [N.to_nat firstn app]. f_equal. rewrite map_length.
      assert (ZL : (length a < length data)%nat) by (unfold lenN in *; lia).
      cbn [Nat.add]. rewrite !skipn_app. destruct (length data - length a)%nat as [|j] eqn:J; [lia|].
      reflexivity. }
    rewrite SP. destruct (get_page_header e f _); do 3 eexists; split; try reflexivity; split; try reflexivity;
      try discriminate; auto.
  - destruct (lenN data =? 0).
    + destruct (src_eof file_source s1); do 3 eexists; split; try reflexivity; split; try reflexivity;
        discriminate.
    + unfold write_cells. rewrite LM.
      destruct (0 + lenN (map Some data) <=? lenN (a ++ Some x :: b)).
      * destruct (src_eof file_source s1); do 3 eexists; split; try reflexivity; split; try reflexivity;
          discriminate.
      * do 3 eexists. split; [reflexivity|]. split; [reflexivity|]. discriminate.
Qed.

(** ** The pieces of the changed page *)

Lemma get_page_subheader_change : forall s (a b : list cell) x y off, off + subheader_size f <= lenN a ->
  get_page_subheader e f (MBuf (a ++ x :: b) s) off = get_page_subheader e f (MBuf (a ++ y :: b) s) off.
Proof.
  intros s a b x y off L. unfold get_page_subheader.
  assert (IS : 4 <= integer_size f) by (unfold integer_size; destruct f; lia).
  unfold subheader_size in *.
  assert (GU : forall o, o + integer_size f <= lenN a ->
    get_uinteger e f (MBuf (a ++ x :: b) s) o = get_uinteger e f (MBuf (a ++ y :: b) s) o).
  { intros o LO. unfold get_uinteger, get_uint, get_raw. cbn [mem].
    rewrite (read_cells_change a b x y) by exact LO. reflexivity. }
  assert (GB : forall o, o + 1 <= lenN a ->
    get_byte (MBuf (a ++ x :: b) s) o = get_byte (MBuf (a ++ y :: b) s) o).
  { intros o LO. unfold get_byte, get_raw. cbn [mem].
    rewrite (read_cells_change a b x y) by exact LO. reflexivity. }
  rewrite !GU, !GB by lia. reflexivity.
Qed.

Lemma process_change : forall T (body : T -> page_subheader -> res T) s (a b : list cell) x y n i acc,
  subheader_pos f (i + N.of_nat n) <= lenN a ->
  process_subheaders e f (MBuf (a ++ x :: b) s) body n i acc
  = process_subheaders e f (MBuf (a ++ y :: b) s) body n i acc.
Proof.
  intros T body s a b x y. induction n as [|n IH]; intros i acc L; cbn [process_subheaders]; [reflexivity|].
  rewrite (get_page_subheader_change s a b x y).
  2:{ unfold subheader_pos in *. nia. }
  destruct (get_page_subheader _ _ _ _); cbn [bind]; try reflexivity.
  match goal with |- (_ <- ?m ;; _) = _ => destruct m end; cbn [bind]; try reflexivity.
  apply IH. replace (i + 1 + N.of_nat n) with (i + N.of_nat (S n)) by lia. exact L.
Qed.

Inductive picks (g : N -> N * N) (hi : N) : N -> list (N * N) -> Prop :=
| picks_nil : forall i, picks g hi i []
| picks_cons : forall i j l, i <= j < hi -> picks g hi (j + 1) l -> picks g hi i (g j :: l).

Lemma picks_le : forall g hi i l, picks g hi i l -> forall k, k <= i -> picks g hi k l.
Proof. intros g hi i l [j|j m l' L P] k K; constructor; [lia|exact P]. Qed.

Lemma picks_in : forall g hi i l p, picks g hi i l -> In p l -> exists j, i <= j < hi /\ p = g j.
Proof.
  intros g hi i l p P. revert p. induction P as [i|i j l L P IH]; intros p K; [contradiction|].
  destruct K as [<-|K]; [eauto|]. destruct (IH p K) as (m & M & ->). exists m. split; [lia|reflexivity].
Qed.

Lemma picks_len : forall g hi i l, picks g hi i l -> i <= hi -> i + lenN l <= hi.
Proof.
  intros g hi i l P. induction P as [i|i j l L P IH]; intros H; unfold lenN in *; cbn [length]; lia.
Qed.

Definition once (o : N) (l : list (N * N)) : Prop :=
  forall k p, nth_error l k = Some p -> cov o p -> Forall (fun p => ~ cov o p) (skipn (S k) l).

Lemma picks_once : forall g hi o, (forall i j, i < hi -> j < hi -> cov o (g i) -> cov o (g j) -> i = j) ->
  forall i l, picks g hi i l -> once o l.
Proof.
  intros g hi o U i l P. induction P as [i|i j l L P IH]; intros k p K C.
  - destruct k; discriminate.
  - destruct k as [|k].
    + cbn in K. injection K as <-. cbn [skipn]. apply Forall_forall. intros p IN CP.
      destruct (picks_in _ _ _ _ _ P IN) as (m & M & ->). specialize (U j m ltac:(lia) ltac:(lia) C CP). lia.
    + cbn in K. cbn [skipn]. exact (IH k p K C).
Qed.

Lemma pieces_pick : forall s pg rest n i acc l,
  subheader_pos f (i + N.of_nat n) <= lenN pg ->
  process_subheaders e f (MBuf (map Some pg ++ rest) s)
    (fun acc sh => Ok (if data_subheader_check (md_compression md) sh
                       then acc ++ [(sh_offset sh, sh_length sh)] else acc)) n i acc = Ok l ->
  exists l2, l = acc ++ l2 /\ picks (ent pg) (i + N.of_nat n) i l2.
Proof.
  intros s pg rest. induction n as [|n IH]; intros i acc l L H; cbn [process_subheaders] in H.
  - injection H as <-. exists []. rewrite app_nil_r. split; [reflexivity|constructor].
  - binv H. rename x into sh.
    assert (EN : (sh_offset sh, sh_length sh) = ent pg i).
    { assert (PS : subheader_pos f i + subheader_size f <= lenN pg)
        by (unfold subheader_pos in *; nia).
      unfold subheader_size in PS. unfold get_page_subheader in E. binv E. binv E.
      unfold get_uinteger, get_uint, get_raw in E1. cbn [mem] in E1. binv E1. injection E1 as <-.
      apply read_cells_page in E2; [|lia].
      binv E. unfold get_uinteger, get_uint, get_raw in E1. cbn [mem] in E1. binv E1. injection E1 as <-.
      apply read_cells_page in E3; [|lia].
      binv E. binv E. binv E. injection E as <-. cbn [sh_offset sh_length]. subst. reflexivity. }
    binv H. replace (i + N.of_nat (S n)) with (i + 1 + N.of_nat n) in * by lia.
    destruct (IH (i + 1) x l L H) as (l2 & -> & P).
    destruct ((sh_length sh =? 0) || (sh_compression sh =? TRUNCATED_SUBHEADER_ID)).
    + injection E0 as <-. exists l2. split; [reflexivity|]. eapply picks_le; [exact P|lia].
    + injection E0 as <-. destruct (data_subheader_check (md_compression md) sh).
      * exists (ent pg i :: l2). rewrite EN, <- app_assoc. split; [reflexivity|]. constructor; [lia|exact P].
      * exists l2. split; [reflexivity|]. eapply picks_le; [exact P|lia].
Qed.

Lemma no_pieces : forall b n i acc l, md_compression md = CompNone ->
  process_subheaders e f b
    (fun acc sh => Ok (if data_subheader_check (md_compression md) sh
                       then acc ++ [(sh_offset sh, sh_length sh)] else acc)) n i acc = Ok l -> l = acc.
Proof.
  intros b n. induction n as [|n IH]; intros i acc l M H; cbn [process_subheaders] in H; [congruence|].
  binv H. binv H. apply IH in H; [|exact M]. subst l. rewrite M in E0.
  destruct (_ || _); injection E0 as <-; reflexivity.
Qed.

(** A page is built from the changed page as from the page. *)
Lemma build_just_read : forall z o p p', just_read z o p p' ->
  build_page e f md (ps_buf p') (ps_hdr p') = build_page e f md (ps_buf p) (ps_hdr p)
  /\ forall pg, build_page e f md (ps_buf p) (ps_hdr p) = Ok (Some pg) ->
     exists l, pg = Page (PMeta l) 0 /\ l <> [] /\ lenN l < 65536 /\ once o l /\ md_compression md <> CompNone.
Proof.
  intros z o [s [m n] hd] [s' [m' n'] hd']
    ((I & S1 & S2 & O & a & x & y & b & M & M' & L) & HD & _ & G & pg & rest & MP & CH).
  cbn [ps_buf ps_hdr ps_is mem msize] in *. subst hd'.
  assert (GV : forall off v, off + 2 <= lenN pg ->
    get_uint16 e (MBuf m n) off = Ok v -> v = get_val e (slice off 2 pg)).
  { intros off v LO GG. unfold get_uint16, get_uint, get_raw in GG. cbn [mem] in GG.
    binv GG. rewrite MP in E. apply read_cells_page in E; [|exact LO]. injection GG as <-. congruence. }
  pose proof (ch_len _ _ CH) as LP. pose proof (ch_table _ _ CH) as TB.
  unfold get_page_header in G. binv G. binv G. binv G. injection G as <-.
  apply GV in E; [|lia]. apply GV in E0; [|lia]. apply GV in E1; [|lia]. rewrite N.add_0_r in E.
  rewrite (ch_type _ _ CH) in E. subst x0 x2.
  unfold build_page. cbn [ph_type]. rewrite N.eqb_refl.
  unfold data_subheaders_of_page, process_page_subheaders. cbn [ph_subheaders_count].
  set (cnt := get_val e (slice (page_bit_offset f + 4) 2 pg)) in *.
  subst m m' n n'. split.
  - rewrite <- (process_change _ _ plen a b (Some x) (Some y)); [reflexivity|].
    unfold subheader_pos. rewrite Nnat.N2Nat.id. lia.
  - intros pg0 H. binv H. rename x0 into l.
    rewrite MP in E. assert (E' := E).
    apply pieces_pick in E; [|unfold subheader_pos; rewrite Nnat.N2Nat.id; lia].
    destruct E as (l2 & -> & P). cbn [app] in *.
    destruct l2 as [|p0 l2]; [discriminate|]. injection H as <-. eexists. split; [reflexivity|].
    split; [discriminate|]. split.
    { apply picks_len in P; [|lia]. rewrite Nnat.N2Nat.id in P.
      pose proof (get_val_lt e (slice (page_bit_offset f + 4) 2 pg)) as V. fold cnt in V.
      assert (L2 : lenN (slice (page_bit_offset f + 4) 2 pg) <= 2)
        by (unfold slice; rewrite lenN_firstn; lia).
      assert (256 ^ lenN (slice (page_bit_offset f + 4) 2 pg) <= 256 ^ 2) by (apply N.pow_le_mono_r; lia).
      lia. }
    split.
    + rewrite Nnat.N2Nat.id in P. eapply picks_once; [|exact P]. rewrite N.add_0_l. exact (ch_once _ _ CH).
    + intros MC. apply no_pieces in E'; [discriminate|exact MC].
Qed.

(** ** The rows *)

Lemma next_held : forall fuel o p p', held o p p' -> exists x q q',
  read_next_page c file_source e f plen md fuel p = (x, q)
  /\ read_next_page c file_source e f plen md fuel p' = (x, q')
  /\ (forall pg, x = Ok (Some pg) -> q' = q).
Proof.
  intros [|fuel] o p p' B; cbn [read_next_page].
  { do 3 eexists. split; [reflexivity|]. split; [reflexivity|]. discriminate. }
  destruct (read_page_held o p p' B) as (x & q & q' & R & R' & C). rewrite R, R'.
  destruct x as [[|]| | | |];
    try (do 3 eexists; split; [reflexivity|]; split; [reflexivity|]; discriminate).
  rewrite (C eq_refl).
  match goal with |- context [match ?b with Ok _ => _ | _ => _ end] => destruct b as [[pg|]| | | |] end;
    try (do 3 eexists; split; [reflexivity|]; split; [reflexivity|]; auto; discriminate).
  destruct (read_next_page c file_source e f plen md fuel q) as [x2 q2]. do 3 eexists.
  split; [reflexivity|]. split; [reflexivity|]. auto.
Qed.

Definition pieces (o : N) (l : list (N * N)) : Prop :=
  l <> [] /\ lenN l < 65536 /\ once o l /\ md_compression md <> CompNone.

Lemma next_before_z : forall z fuel p p', before_z z p p' -> exists x q q',
  read_next_page c file_source e f plen md fuel p = (x, q)
  /\ read_next_page c file_source e f plen md fuel p' = (x, q')
  /\ (forall pg, x = Ok (Some pg) -> before_z z q q' \/ q' = q
       \/ exists o l, held o q q' /\ pg = Page (PMeta l) 0 /\ pieces o l).
Proof.
  intros z. induction fuel as [|fuel IH]; intros p p' B; cbn [read_next_page].
  { do 3 eexists. split; [reflexivity|]. split; [reflexivity|]. discriminate. }
  destruct (read_page_before_z z p p' B) as (x & q & q' & R & R' & C). rewrite R, R'.
  destruct x as [t| | | |];
    try (do 3 eexists; split; [reflexivity|]; split; [reflexivity|]; discriminate).
  destruct (C _ eq_refl) as [-> C1]. clear C.
  destruct C1 as [C1|[o C1]].
  - destruct C1 as (EB & EH & ER). rewrite EB, EH.
    assert (BB : before_z z q q') by (split; [exact EB|]; auto).
    destruct (build_page e f md (ps_buf q) (ps_hdr q)) as [[pg|]| | | |];
      try (do 3 eexists; split; [reflexivity|]; split; [reflexivity|]; discriminate).
    + do 3 eexists. split; [reflexivity|]. split; [reflexivity|]. auto.
    + apply IH. exact BB.
  - destruct (build_just_read z o q q' C1) as [EB K]. rewrite EB.
    assert (H : held o q q') by apply C1.
    destruct (build_page e f md (ps_buf q) (ps_hdr q)) as [[pg|]| | | |];
      try (do 3 eexists; split; [reflexivity|]; split; [reflexivity|]; discriminate).
    + do 3 eexists. split; [reflexivity|]. split; [reflexivity|]. intros pg0 [= <-]. right. right.
      destruct (K _ eq_refl) as (l & -> & K'). exists o, l. split; [exact H|]. split; [reflexivity|]. exact K'.
    + destruct (next_held fuel o q q' H) as (x2 & q2 & q2' & N1 & N2 & N3). rewrite N1, N2.
      do 3 eexists. split; [reflexivity|]. split; [reflexivity|]. intros pg HP. right. left. exact (N3 pg HP).
Qed.

(** The decompressor goes with the metadata. *)
Definition works (dec : decompressor) : Prop :=
  dec_ok md dec /\ (md_compression md <> CompNone -> dec <> DNone).

Lemma works_same : forall a b, works a -> same_dec md b a -> works b.
Proof.
  intros a b [A1 A2] (B1 & B2 & B3). split; [exact B1|]. intros K. specialize (A2 K).
  destruct a, b; try contradiction; try discriminate.
Qed.

(** [w]: a row can still differ. *)
Inductive prel (z : bytes) : bool -> dstate fstate -> dstate fstate -> Prop :=
| r_same : forall w d d', equiv md d d' -> prel z w d d'
| r_end : forall w p p' dec dec' row, prel z w (DState p dec row None) (DState p' dec' row None)
| r_before : forall p p' dec row pg, before_z z p p' -> works dec ->
    prel z true (DState p dec row pg) (DState p' dec row pg)
| r_in : forall w o p p' dec dec' row l j, held o p p' -> pieces o l -> same_dec md dec dec' ->
    works dec -> j <= lenN l ->
    (w = true \/ Forall (fun p => ~ cov o p) (skipn (N.to_nat j) l)) ->
    prel z w (DState p dec row (Some (Page (PMeta l) j))) (DState p' dec' row (Some (Page (PMeta l) j))).

Lemma prel_row : forall z w d d', prel z w d d' -> ds_row d' = ds_row d.
Proof. intros z w d d' [w' x x' E|?|?|?]; try reflexivity. symmetry. apply E. Qed.

Lemma data_next_prel : forall z w d d', prel z w d d' -> exists x d1 d1',
  data_next c file_source h md d = (x, d1) /\ data_next c file_source h md d' = (x, d1')
  /\ prel z w d1 d1'
  /\ (x = Ok true -> equiv md d1 d1'
        \/ (exists p p' dec row pg, d1 = DState p dec row (Some pg) /\ d1' = DState p' dec row (Some pg)
            /\ before_z z p p' /\ works dec /\ w = true)
        \/ exists o p p' dec dec' row l j, d1 = DState p dec row (Some (Page (PMeta l) j))
            /\ d1' = DState p' dec' row (Some (Page (PMeta l) j))
            /\ held o p p' /\ pieces o l /\ same_dec md dec dec' /\ works dec /\ j < lenN l
            /\ (w = true \/ Forall (fun p => ~ cov o p) (skipn (N.to_nat j) l))).
Proof.
  intros z w d d' R.
  destruct R as [w d d' E|w p p' dec dec' row|p p' dec row pg B WK|w o p p' dec dec' row l j I PC SD WK J W].
  - destruct (data_next_equiv _ c file_source h md d d' E) as [F E1].
    destruct (data_next c file_source h md d) as [x d1].
    destruct (data_next c file_source h md d') as [x' d1']. cbn [fst snd] in *. subst x'.
    exists x, d1, d1'. split; [reflexivity|]. split; [reflexivity|]. split; [apply r_same; exact E1|]. auto.
  - unfold data_next. cbn [ds_row ds_page].
    destruct (row =? md_row_count md); do 3 eexists; (split; [reflexivity|]); (split; [reflexivity|]);
      (split; [apply r_end|]); discriminate.
  - assert (DB : prel z true (DState p dec row pg) (DState p' dec row pg)) by (apply r_before; assumption).
    unfold data_next. cbn [ds_row ds_page ds_p ds_dec].
    destruct (row =? md_row_count md).
    { do 3 eexists. split; [reflexivity|]. split; [reflexivity|]. split; [exact DB|]. discriminate. }
    destruct pg as [pg|].
    2:{ do 3 eexists. split; [reflexivity|]. split; [reflexivity|]. split; [exact DB|]. discriminate. }
    destruct (page_next pg).
    2:{ do 3 eexists. split; [reflexivity|]. split; [reflexivity|]. split; [exact DB|].
        intros _. right. left. exists p, p', dec, row, pg. auto. }
    destruct (next_before_z z (page_fuel c) p p' B) as (x & q & q' & N1 & N2 & C).
    unfold e, f, plen in N1, N2. rewrite N1, N2.
    destruct x as [[pg'|]| | | |];
      try (do 3 eexists; split; [reflexivity|]; split; [reflexivity|]; split; [apply r_end|discriminate]).
    do 3 eexists. split; [reflexivity|]. split; [reflexivity|].
    assert (SR : same_dec md dec dec) by (apply same_dec_refl; apply WK).
    destruct (C _ eq_refl) as [C1|[->|(o & l & C1 & -> & C2)]].
    + split; [apply r_before; assumption|]. intros _. right. left. exists q, q', dec, row, pg'. auto 8.
    + assert (EQ : equiv md (DState q dec row (Some pg')) (DState q dec row (Some pg')))
        by (apply equiv_refl; apply WK).
      split; [apply r_same; exact EQ|]. auto.
    + split; [apply (r_in z true o); auto; lia|]. intros _. right. right.
      exists o, q, q', dec, dec, row, l, 0. repeat (split; [reflexivity || assumption|]).
      split; [|auto]. destruct C2 as [C2 _]. destruct l; [contradiction|]. unfold lenN. cbn [length]. lia.
  - assert (DI : prel z w (DState p dec row (Some (Page (PMeta l) j)))
                  (DState p' dec' row (Some (Page (PMeta l) j)))) by (apply (r_in z w o); assumption).
    unfold data_next. cbn [ds_row ds_page ds_p ds_dec].
    destruct (row =? md_row_count md).
    { do 3 eexists. split; [reflexivity|]. split; [reflexivity|]. split; [exact DI|]. discriminate. }
    unfold page_next. cbn [pg_kind pg_row]. destruct (N.eqb_spec j (lenN l)) as [E|E].
    + destruct (next_held (page_fuel c) o p p' I) as (x & q & q' & N1 & N2 & C).
      unfold e, f, plen in N1, N2. rewrite N1, N2.
      destruct x as [[pg'|]| | | |];
        try (do 3 eexists; split; [reflexivity|]; split; [reflexivity|]; split; [apply r_end|discriminate]).
      rewrite (C _ eq_refl).
      assert (EQ : equiv md (DState q dec row (Some pg')) (DState q dec' row (Some pg')))
        by (split; [reflexivity|]; split; [reflexivity|]; split; [reflexivity|exact SD]).
      do 3 eexists. split; [reflexivity|]. split; [reflexivity|]. split; [apply r_same; exact EQ|]. auto.
    + do 3 eexists. split; [reflexivity|]. split; [reflexivity|]. split; [exact DI|].
      intros _. right. right. exists o, p, p', dec, dec', row, l, j.
      repeat (split; [reflexivity || assumption|]). split; [lia|exact W].
Qed.

Lemma extract_shape : forall (p : pstate fstate) dec row pg off n, dec_ok md dec ->
  exists r dec1, extract_row_values c h md off n (DState p dec row pg) = (r, DState p dec1 row pg)
    /\ same_dec md dec1 dec.
Proof.
  intros p dec row pg off n D.
  pose proof (extract_same _ c h md off n (DState p dec row pg) D) as (E1 & E2 & E3 & E4).
  destruct (extract_row_values c h md off n (DState p dec row pg)) as [r [p1 dec1 row1 pg1]].
  cbn [snd ds_p ds_row ds_page ds_dec] in *. subst. eauto.
Qed.

Definition plain_res (x : res pview) : res pview :=
  match x with Ok p => Ok (plain len p) | _ => x end.
Definition plain_line (x : res (option pview)) : res (option pview) :=
  match x with Ok (Some p) => Ok (Some (plain len p)) | _ => x end.

Lemma extract_other : forall o p p' dec dec' row pg off n,
  held o p p' -> ~ cov o (off, n) -> same_dec md dec dec' -> dec <> DNone ->
  plain_res (fst (extract_row_values c h md off n (DState p' dec' row pg)))
  = plain_res (fst (extract_row_values c h md off n (DState p dec row pg))).
Proof.
  intros o p p' dec dec' row pg off n (_ & _ & _ & _ & a & x & y & b & M & M' & L) NC SD DN.
  assert (EQ : equiv md (DState p' dec' row pg) (DState p' dec row pg)).
  { split; [reflexivity|]. split; [reflexivity|]. split; [reflexivity|]. apply same_dec_sym. exact SD. }
  destruct (extract_equiv _ c h md off n _ _ EQ) as [-> _].
  unfold cov in NC. cbn [fst snd] in NC.
  assert (RC : read_cells (mem (ps_buf p')) off n = read_cells (mem (ps_buf p)) off n).
  { rewrite M, M'. symmetry. apply read_cells_other. rewrite L. exact NC. }
  unfold extract_row_values. cbn [ds_p ds_dec ds_row ds_page].
  destruct (fmt_assert c _); try reflexivity.
  destruct (N.ltb_spec n (md_row_length md)) as [LT|GE].
  - destruct dec as [|dst|dst]; [contradiction| |]; rewrite RC;
      (destruct (read_cells (mem (ps_buf p)) off n) as [v| | | |]; try reflexivity).
    + destruct (rdc v dst). reflexivity.
    + destruct (rle v dst). reflexivity.
  - cbn [fst plain_res]. unfold plain, row_under. cbn [pv_mem pv_off]. rewrite M, M'. do 2 f_equal.
    destruct (firstn_skipn_change _ a b (Some x) (Some y) (N.to_nat off) (N.to_nat len)) as [[C _]|[_ C]].
    + exfalso. apply NC. unfold len, lenN in *. lia.
    + symmetry. exact C.
Qed.

Lemma read_line_prel : forall z w d d', prel z w d d' -> exists w' x x' d1 d1',
  read_line c file_source h md d = (x, d1) /\ read_line c file_source h md d' = (x', d1')
  /\ prel z w' d1 d1'
  /\ (plain_line x' = plain_line x /\ (w = false -> w' = false) \/ w = true /\ w' = false).
Proof.
  intros z w d d' R. unfold read_line.
  destruct (data_next_prel z w d d' R) as (x & d1 & d1' & N1 & N2 & R1 & C). rewrite N1, N2.
  destruct x as [[|]| | | |];
    try (exists w; do 4 eexists; split; [reflexivity|]; split; [reflexivity|]; split; [exact R1|];
         left; auto).
  destruct (C eq_refl) as [E|[(p & p' & dec & row & pg & -> & -> & B & WK & ->)
    |(o & p & p' & dec & dec' & row & l & j & -> & -> & I & PC & SD & WK & J & W)]]; clear C N1 N2.
  - destruct (data_read_line_equiv _ md d1 d1' E) as [F E1].
    destruct (data_read_line d1) as [y d2]. destruct (data_read_line d1') as [y' d2'].
    cbn [fst snd] in *. subst y'.
    destruct y as [[off n]| | | |];
      try (exists w; do 4 eexists; split; [reflexivity|]; split; [reflexivity|];
           split; [apply r_same; exact E1|left; auto]).
    destruct (extract_equiv _ c h md off n d2 d2' E1) as [G E2].
    destruct (extract_row_values c h md off n d2) as [r d3].
    destruct (extract_row_values c h md off n d2') as [r' d3']. cbn [fst snd] in *. subst r'.
    exists w. do 4 eexists. split; [reflexivity|]. split; [reflexivity|].
    split; [apply r_same; exact E2|left; auto].
  - unfold data_read_line. cbn [ds_page ds_p ds_dec ds_row].
    destruct (page_read_line pg) as [[off n]| | | |];
      try (exists true; do 4 eexists; split; [reflexivity|]; split; [reflexivity|];
           split; [apply r_before; assumption|left; auto]).
    destruct (extract_shape p dec (row +! 1) (Some (page_inc pg)) off n (proj1 WK)) as (r & dec1 & X & SD).
    assert (X' : extract_row_values c h md off n (DState p' dec (row +! 1) (Some (page_inc pg)))
                 = (r, DState p' dec1 (row +! 1) (Some (page_inc pg)))).
    { unfold extract_row_values in *. cbn [ds_p ds_dec ds_row ds_page] in *.
      replace (ps_buf p') with (ps_buf p) by (symmetry; apply B).
      destruct (fmt_assert c _); try (injection X as <- <-; reflexivity).
      destruct (n <? md_row_length md); [|injection X as <- <-; reflexivity].
      destruct dec as [|dst|dst]; [injection X as <- <-; reflexivity| |];
        (destruct (read_cells _ off n) as [v| | | |]; try (injection X as <- <-; reflexivity)).
      - destruct (rdc v dst). injection X as <- <-. reflexivity.
      - destruct (rle v dst). injection X as <- <-. reflexivity. }
    rewrite X, X'. exists true. do 4 eexists. split; [reflexivity|]. split; [reflexivity|].
    split; [|left; auto]. apply r_before; [exact B|]. eapply works_same; eassumption.
  - unfold data_read_line. cbn [ds_page ds_p ds_dec ds_row]. cbn [page_read_line pg_kind pg_row].
    unfold page_inc. cbn [pg_kind pg_row]. pose proof PC as (_ & PL2 & ON & MC).
    replace (j +! 1) with (j + 1) by (rewrite add64_small; unfold W64; lia).
    destruct (nth_error l (N.to_nat j)) as [[off n]|] eqn:NE.
    2:{ apply nth_error_None in NE. unfold lenN in J. lia. }
    assert (D1 : dec_ok md dec) by apply WK. assert (D2 : dec_ok md dec') by apply SD.
    destruct (extract_shape p dec (row +! 1) (Some (Page (PMeta l) (j + 1))) off n D1) as (r & e1 & X & S1).
    destruct (extract_shape p' dec' (row +! 1) (Some (Page (PMeta l) (j + 1))) off n D2) as (r' & e1' & X' & S2).
    rewrite X, X'.
    assert (S3 : same_dec md e1 e1').
    { eapply same_dec_trans; [exact S1|]. eapply same_dec_trans; [exact SD|]. apply same_dec_sym. exact S2. }
    assert (NX : forall w', (w' = true \/ Forall (fun p => ~ cov o p) (skipn (N.to_nat (j + 1)) l)) ->
      prel z w' (DState p e1 (row +! 1) (Some (Page (PMeta l) (j + 1))))
               (DState p' e1' (row +! 1) (Some (Page (PMeta l) (j + 1))))).
    { intros w' W'. apply (r_in z w' o); auto; [eapply works_same; eassumption|lia]. }
    assert (SK : skipn (N.to_nat j) l = (off, n) :: skipn (N.to_nat (j + 1)) l).
    { replace (N.to_nat (j + 1)) with (S (N.to_nat j)) by lia.
      clear - NE. revert NE. generalize (N.to_nat j). induction l as [|u l IH]; intros [|k] H; try discriminate.
      - cbn in H. injection H as ->. reflexivity.
      - cbn in H. cbn [skipn]. rewrite IH by exact H. reflexivity. }
    assert (DC : cov o (off, n) \/ ~ cov o (off, n)) by (unfold cov; cbn [fst snd]; lia).
    destruct DC as [DC|DC].
    + exists false. do 4 eexists. split; [reflexivity|]. split; [reflexivity|]. split.
      * apply NX. right. replace (N.to_nat (j + 1)) with (S (N.to_nat j)) by lia. exact (ON _ _ NE DC).
      * right. split; [|reflexivity]. destruct W as [W|W]; [exact W|]. exfalso. rewrite SK in W.
        inversion W; subst. contradiction.
    + exists w. do 4 eexists. split; [reflexivity|]. split; [reflexivity|]. split.
      * apply NX. destruct W as [W|W]; [auto|right]. rewrite SK in W. inversion W; subst. assumption.
      * left. split; [|auto].
        pose proof (extract_other o p p' dec dec' (row +! 1) (Some (Page (PMeta l) (j + 1))) off n I DC SD
                      (proj2 WK MC)) as EO.
        rewrite X, X' in EO. cbn [fst] in EO.
        destruct r, r'; cbn [plain_res bind plain_line] in *; try discriminate; congruence.
Qed.

Lemma data_skip_prel : forall z n w d d', prel z w d d' -> exists x d1 d1',
  data_skip c file_source h md n d = (x, d1) /\ data_skip c file_source h md n d' = (x, d1')
  /\ prel z w d1 d1'.
Proof.
  intros z. induction n as [|n IH]; intros w d d' R; cbn [data_skip].
  { do 3 eexists. split; [reflexivity|]. split; [reflexivity|exact R]. }
  destruct (data_next_prel z w d d' R) as (x & d1 & d1' & N1 & N2 & R1 & C). rewrite N1, N2.
  destruct x as [[|]| | | |]; try (do 3 eexists; split; [reflexivity|]; split; [reflexivity|exact R1]).
  destruct (C eq_refl) as [E|[(p & p' & dec & row & pg & -> & -> & B & WK & ->)
    |(o & p & p' & dec & dec' & row & l & j & -> & -> & I & PC & SD & WK & J & W)]]; clear C N1 N2.
  - destruct (data_read_line_equiv _ md d1 d1' E) as [F E1].
    destruct (data_read_line d1) as [y d2]. destruct (data_read_line d1') as [y' d2'].
    cbn [fst snd] in *. subst y'.
    destruct y as [v| | | |];
      try (do 3 eexists; split; [reflexivity|]; split; [reflexivity|apply r_same; exact E1]).
    apply IH. apply r_same. exact E1.
  - unfold data_read_line. cbn [ds_page ds_p ds_dec ds_row].
    destruct (page_read_line pg) as [v| | | |];
      try (do 3 eexists; split; [reflexivity|]; split; [reflexivity|apply r_before; assumption]).
    apply IH. apply r_before; assumption.
  - unfold data_read_line. cbn [ds_page ds_p ds_dec ds_row]. cbn [page_read_line pg_kind pg_row].
    unfold page_inc. cbn [pg_kind pg_row]. pose proof PC as (_ & PL2 & ON & MC).
    replace (j +! 1) with (j + 1) by (rewrite add64_small; unfold W64; lia).
    destruct (nth_error l (N.to_nat j)) as [v|] eqn:NE.
    2:{ apply nth_error_None in NE. unfold lenN in J. lia. }
    apply IH. apply (r_in z w o); auto; [lia|]. destruct W as [W|W]; [auto|right].
    replace (N.to_nat (j + 1)) with (N.to_nat j + 1)%nat by lia. rewrite <- skipn_skipn'.
    destruct (skipn (N.to_nat j) l); [constructor|]. inversion W; subst. assumption.
Qed.

(** ** The calls *)

Lemma step_prel : forall o z w d d', one_at_a_time o = true -> prel z w d d' ->
  exists w' x x' d1 d1' ev ev',
  step c file_source o (RState h md d) = (x, RState h md d1, ev)
  /\ step c file_source o (RState h md d') = (x', RState h md d1', ev')
  /\ prel z w' d1 d1'
  /\ (plain_entry len (o, x', ev') = plain_entry len (o, x, ev) /\ (w = false -> w' = false)
      \/ w = true /\ w' = false /\ gives_row o = true).
Proof.
  intros o z w d d' OO R. destruct o as [|n| |n| |]; try discriminate; cbn [step].
  - unfold read_row. cbn [rs_h rs_md rs_d]. rewrite (prel_row _ _ _ _ R).
    destruct (read_line_prel z w d d' R) as (w' & x & x' & d1 & d1' & E1 & E2 & R1 & L). rewrite E1, E2.
    exists w'. destruct L as [[L0 L1]|[L0 L1]].
    + destruct x as [[p|]| | | |], x' as [[p'|]| | | |]; cbn [plain_line] in L0; try discriminate;
        do 6 eexists; (split; [reflexivity|]); (split; [reflexivity|]); (split; [exact R1|]);
        left; (split; [|exact L1]); unfold plain_entry; cbn [map plain_event plain_out rmap bind];
        congruence.
    + destruct x as [[p|]| | | |], x' as [[p'|]| | | |];
        do 6 eexists; (split; [reflexivity|]); (split; [reflexivity|]); (split; [exact R1|]); right; auto.
  - unfold skip. cbn [rs_h rs_md rs_d].
    destruct (data_skip_prel z (N.to_nat n) w d d' R) as (x & d1 & d1' & E1 & E2 & R1).
    rewrite E1, E2. exists w. do 6 eexists. split; [reflexivity|]. split; [reflexivity|].
    split; [exact R1|]. left. split; [reflexivity|auto].
  - unfold read_row_no_sink. cbn [rs_h rs_md rs_d].
    destruct (read_line_prel z w d d' R) as (w' & x & x' & d1 & d1' & E1 & E2 & R1 & L). rewrite E1, E2.
    exists w'. do 6 eexists. split; [reflexivity|]. split; [reflexivity|]. split; [exact R1|].
    destruct L as [[L0 L1]|[L0 L1]]; [|right; auto]. left. split; [|exact L1].
    destruct x as [[p|]| | | |], x' as [[p'|]| | | |]; cbn [plain_line] in L0; try discriminate;
      unfold plain_entry; cbn [map plain_event plain_out rmap bind]; congruence.
  - exists w. do 6 eexists. split; [reflexivity|]. split; [reflexivity|]. split; [exact R|].
    left. split; [reflexivity|auto].
Qed.

Lemma one_call_cons : forall en t t', one_call t t' -> one_call (en :: t) (en :: t').
Proof.
  intros en t t' [->|(a & o & x & ev & x' & ev' & b & b' & -> & -> & G & B)]; [left; reflexivity|].
  right. exists (en :: a), o, x, ev, x', ev', b, b'. auto.
Qed.

Lemma trace_prel : forall ops z w d d', forallb one_at_a_time ops = true -> prel z w d d' ->
  let t := map (plain_entry len) (fst (trace c file_source ops (Some (RState h md d)))) in
  let t' := map (plain_entry len) (fst (trace c file_source ops (Some (RState h md d')))) in
  if w then one_call t t' else t' = t.
Proof.
  induction ops as [|o ops IH]; intros z w d d' F R; cbn [trace].
  { destruct w; [left|]; reflexivity. }
  cbn [forallb] in F. apply andb_prop in F. destruct F as [FO F]. cbn [reader_step].
  destruct (step_prel o z w d d' FO R) as (w' & x & x' & d1 & d1' & ev & ev' & E1 & E2 & R1 & C).
  rewrite E1, E2. pose proof (IH z w' d1 d1' F R1) as T. clear IH. cbn zeta in *.
  destruct (trace c file_source ops (Some (RState h md d1))) as [t r1].
  destruct (trace c file_source ops (Some (RState h md d1'))) as [t' r1'].
  cbn [fst] in T. destruct C as [[C W]|(-> & -> & G)].
  - assert (SH : match x with Ok _ | Exn _ => true | _ => false end
               = match x' with Ok _ | Exn _ => true | _ => false end).
    { unfold plain_entry in C. injection C as C _. unfold plain_out in C.
      destruct x as [[| |[|]]| | | |], x' as [[| |[|]]| | | |]; try discriminate; reflexivity. }
    destruct x as [v|ex| | |], x' as [v'|ex'| | |]; try discriminate; cbn [fst map]; rewrite C;
      (destruct w; [|try rewrite (W eq_refl) in T; congruence]);
      try (left; reflexivity);
      (apply one_call_cons; destruct w'; [exact T|left; exact T]).
  - right. exists []. unfold plain_entry.
    destruct x as [v|ex| | |], x' as [v'|ex'| | |]; cbn [fst map app];
      do 7 eexists; (split; [reflexivity|]); (split; [reflexivity|]); (split; [exact G|]);
      cbn [last_one plain_out]; try (left; exact T); try (right; left; reflexivity);
      right; right; reflexivity.
Qed.

End Packed.

(** ** Opening *)

Lemma file_read_rest : forall s n s' d ok, Buffer.file_read s n = (s', d, ok) ->
  lenN (fs_rest s') <= lenN (fs_rest s).
Proof.
  intros s n s' d ok H. unfold Buffer.file_read in H.
  destruct (fs_eof s || fs_fail s); [injection H as <- _ _; cbn; lia|].
  destruct (2 ^ 63 <=? n); [injection H as <- _ _; cbn; lia|].
  destruct (n <=? lenN (fs_rest s)); injection H as <- _ _; cbn [fs_rest]; rewrite ?lenN_skipn; try lia.
  unfold lenN. cbn. lia.
Qed.

Lemma read_page_rest : forall c e f plen p x q, read_page c file_source e f plen p = (x, q) ->
  lenN (fs_rest (ps_is q)) <= lenN (fs_rest (ps_is p)).
Proof.
  intros c e f plen p x q H. unfold read_page in H.
  destruct (src_eof file_source (ps_is p)); [injection H as _ <-; cbn [ps_is]; lia|].
  destruct (read_stream c file_source (ps_buf p) (ps_is p) plen 0) as [[y s1] b1] eqn:RS.
  assert (L : lenN (fs_rest s1) <= lenN (fs_rest (ps_is p))).
  { unfold read_stream in RS. destruct (resize c (ps_buf p) (0 +! plen)); try (injection RS as _ <- _; lia).
    destruct (src_read file_source (ps_is p) plen) as [[s2 d] ok] eqn:R.
    cbn [src_read file_source] in R. apply file_read_rest in R.
    destruct (if lenN d =? 0 then _ else _); injection RS as _ <- _; exact R. }
  repeat match type of H with
  | context [match ?m with _ => _ end] => destruct m
  end; injection H as _ <-; cbn [ps_is]; exact L.
Qed.

Lemma metadata_rest : forall c e f plen fuel p m q m1,
  metadata_loop c file_source e f plen fuel p m = Ok (q, m1) ->
  lenN (fs_rest (ps_is q)) <= lenN (fs_rest (ps_is p)).
Proof.
  intros c e f plen. induction fuel as [|fuel IH]; intros p m q m1 H; cbn [metadata_loop] in H; [discriminate|].
  destruct (read_page c file_source e f plen p) as [[[|]| | | |] p1] eqn:R; try discriminate;
    apply read_page_rest in R.
  - binv H. destruct x as [m2 stop]. destruct stop.
    + injection H as <- _. exact R.
    + apply IH in H. lia.
  - injection H as <- _. exact R.
Qed.

Section File.
Variables (c : cfg) (h : header).
Let e := h_endianness h.
Let f := h_format h.
Let plen := h_page_length h.
Hypothesis PL : plen < 2 ^ 32.

Lemma metadata_before_z : forall z fuel p p' m q m1, before_z h z p p' ->
  metadata_loop c file_source e f plen fuel p m = Ok (q, m1) -> lenN z < lenN (fs_rest (ps_is q)) ->
  exists q', metadata_loop c file_source e f plen fuel p' m = Ok (q', m1) /\ before_z h z q q'.
Proof.
  intros z. induction fuel as [|fuel IH]; intros p p' m q m1 B H Z; cbn [metadata_loop] in *; [discriminate|].
  destruct (read_page_before_z c h (m_md m) PL z p p' B) as (x & p1 & p1' & R & R' & C).
  unfold e, f, plen in *. rewrite R in H. rewrite R'.
  destruct x as [t| | | |]; try discriminate.
  destruct (C _ eq_refl) as [-> [C1|[o C1]]]; clear C.
  - pose proof C1 as (EB & EH & _). rewrite EB, EH. binv H. destruct x as [m2 stop]. rewrite E. cbn [bind].
    destruct stop.
    + injection H as <- <-. eauto.
    + exact (IH p1 p1' m2 q m1 C1 H Z).
  - exfalso. destruct C1 as (_ & _ & EZ & _). binv H. destruct x as [m2 stop]. destruct stop.
    + injection H as <- _. rewrite EZ in Z. lia.
    + apply metadata_rest in H. rewrite EZ in H. lia.
Qed.

Lemma nearz_pre : forall z r r', nearz h z r r' -> 0 < plen ->
  forall k pre, lenN pre = N.of_nat k * plen -> nearz h z (pre ++ r) (pre ++ r').
Proof.
  intros z r r' N P. induction k as [|k IH]; intros pre L.
  - destruct pre; [exact N|]. unfold lenN in L. cbn [length] in L. lia.
  - assert (SB : exists a1 a2, pre = a1 ++ a2 /\ lenN a1 = plen).
    { exists (firstn (N.to_nat plen) pre), (skipn (N.to_nat plen) pre).
      rewrite firstn_skipn, lenN_firstn. split; [reflexivity|]. nia. }
    destruct SB as (a1 & a2 & -> & L1). rewrite <- !app_assoc. rewrite lenN_app in L.
    apply nearz_later; [exact L1|exact P|]. apply IH. nia.
Qed.

End File.

Lemma damage_packed : forall c flt a x y b r, max_alloc c < row_limit ->
  opened c file_source flt (file_open (a ++ x :: b)) r ->
  in_piece (a ++ x :: b) (lenN a) ->
  lenN (a ++ x :: b) <= lenN a + lenN (not_taken r) ->
  exists r', opened c file_source flt (file_open (a ++ y :: b)) r'
    /\ rs_h r' = rs_h r /\ rs_md r' = rs_md r
    /\ forall ops, forallb one_at_a_time ops = true ->
       one_call (map (plain_entry (md_row_length (rs_md r))) (fst (trace c file_source ops (Some r))))
                (map (plain_entry (md_row_length (rs_md r))) (fst (trace c file_source ops (Some r')))).
Proof.
  intros c flt a x y b r MAX [ev OP] (k & o & Q & RO & LF & T & TB & ONCE) NT.
  unfold open_reader in OP. binv OP. destruct x0 as [[h s] b0]. cbn [fst snd] in OP.
  pose proof (header_opened _ _ _ _ _ E) as (L & M & R & TH & -> & ->).
  pose proof (open_header_plen _ _ _ _ _ E) as PL.
  pose proof (the_header_spec c (a ++ x :: b) h ltac:(lia) TH) as HO.
  assert (LA : header_length_field (a ++ x :: b) <= lenN a) by (cbn zeta in *; nia).
  assert (A288 : 288 <= lenN a) by lia.
  assert (EP : h_page_length h = page_length_field (a ++ x :: b)) by apply (hof_page_length _ _ HO).
  assert (MA : 288 <= max_alloc c).
  { destruct (N.le_gt_cases 288 (max_alloc c)) as [A|A]; [exact A|exfalso].
    unfold open_header, check_header, check_header_ctor in E.
    rewrite read_stream_bad_alloc in E; [discriminate|reflexivity|exact A|reflexivity]. }
  set (hl := header_length_field (a ++ x :: b)) in *.
  assert (HL : header_length_field (a ++ y :: b) = hl)
    by (unfold hl; rewrite !hlen_kept by exact A288; reflexivity).
  assert (E' : open_header c file_source (file_open (a ++ y :: b))
    = Ok (h, FState (skipn (N.to_nat hl) (a ++ y :: b)) false false, full (field (a ++ x :: b) 0 hl))).
  { rewrite open_header_file in E by assumption. fold hl in E.
    assert (LEN : lenN (a ++ y :: b) = lenN (a ++ x :: b)) by (rewrite !lenN_app; reflexivity).
    assert (FLD : forall off n, off + n <= lenN a -> field (a ++ y :: b) off n = field (a ++ x :: b) off n)
      by (intros; rewrite !field_kept by assumption; reflexivity).
    rewrite open_header_file; [|rewrite LEN; exact L| |exact MA].
    2:{ unfold has_magic. rewrite FLD by lia. exact M. }
    rewrite HL, LEN. destruct (hl <? 288); [destruct (ndebug c); discriminate|].
    destruct (negb (hl <=? max_alloc c)); [discriminate|].
    destruct (lenN (a ++ x :: b) <? hl); [discriminate|].
    unfold the_header in *. rewrite HL, FLD by lia.
    rewrite !endian_kept, !format_kept, !shift1_kept, !shift2_kept in * by exact A288.
    fold hl in TH. rewrite TH. reflexivity. }
  unfold set_metadata in OP.
  set (plen := h_page_length h) in *.
  rewrite <- EP in RO, LF, T, TB, ONCE, Q. cbn zeta in RO, LF, T, TB, ONCE, Q.
  (* the file around the page *)
  assert (SB : exists pre a1 b1 z, a = pre ++ a1 /\ b = b1 ++ z /\ lenN pre = hl + k * plen /\ lenN a1 = o
      /\ lenN (a1 ++ x :: b1) = plen).
  { set (st := N.to_nat (hl + k * plen)). set (n := N.to_nat (plen - o - 1)).
    exists (firstn st a), (skipn st a), (firstn n b), (skipn n b). rewrite !firstn_skipn.
    assert (length b >= n)%nat.
    { unfold n. rewrite lenN_app in LF. unfold lenN in *. cbn [length] in LF. lia. }
    split; [reflexivity|]. split; [reflexivity|].
    rewrite lenN_app, lenN_firstn, lenN_skipn.
    split; [unfold st; lia|]. split; [unfold st; lia|]. unfold lenN in *. cbn [length].
    rewrite firstn_length. unfold st, n in *. lia. }
  destruct SB as (pre & a1 & b1 & z & EA & EB & LP & LA1 & LPG).
  assert (FP : forall off n, off + n <= plen ->
    number_at (a ++ x :: b) (hl + k * plen + off) n = get_val (h_endianness h) (slice off n (a1 ++ x :: b1))).
  { intros off n LE. unfold number_at. rewrite get_val_value, (hof_endian _ _ HO). f_equal.
    change (field (a ++ x :: b) (hl + k * plen + off) n) with (slice (hl + k * plen + off) n (a ++ x :: b)).
    rewrite EA, EB, <- app_assoc. change (a1 ++ x :: b1 ++ z) with (a1 ++ (x :: b1) ++ z).
    rewrite (app_assoc a1), slice_app2 by lia. rewrite slice_app1 by lia. f_equal. lia. }
  assert (FT : page_bit_offset (h_format h) = type_at (file_format (a ++ x :: b)))
    by (rewrite (hof_format _ _ HO); destruct (file_format (a ++ x :: b)); reflexivity).
  assert (FW : integer_size (h_format h) = word (file_format (a ++ x :: b)))
    by (rewrite (hof_format _ _ HO); destruct (file_format (a ++ x :: b)); reflexivity).
  unfold points_to in ONCE. unfold rows_at in *. rewrite <- FT, <- FW in *. cbn zeta in ONCE.
  rewrite FP in T by lia.
  assert (NE : number_at (a ++ x :: b) (hl + k * plen + page_bit_offset (h_format h) + 4) 2
    = get_val (h_endianness h) (slice (page_bit_offset (h_format h) + 4) 2 (a1 ++ x :: b1))).
  { rewrite <- (N.add_assoc (hl + k * plen)). apply FP. lia. }
  rewrite NE in ONCE, TB.
  assert (CH : changeable h (a1 ++ x :: b1) (lenN a1)).
  { rewrite LA1. constructor.
    - exact LPG.
    - exact T.
    - unfold subheader_size. lia.
    - intros i j I J CI CJ. apply (ONCE i j I J).
      + unfold cov, ent in CI. cbn [fst snd] in CI. unfold subheader_pos, subheader_size in CI.
        rewrite <- !FP in CI by nia. rewrite !N.add_assoc in *. exact CI.
      + unfold cov, ent in CJ. cbn [fst snd] in CJ. unfold subheader_pos, subheader_size in CJ.
        rewrite <- !FP in CJ by nia. rewrite !N.add_assoc in *. exact CJ. }
  assert (NEAR : nearz h z (skipn (N.to_nat hl) (a ++ x :: b)) (skipn (N.to_nat hl) (a ++ y :: b))).
  { assert (SP : forall w, skipn (N.to_nat hl) (a ++ w :: b)
        = skipn (N.to_nat hl) pre ++ (a1 ++ w :: b1) ++ z).
    { intros w. rewrite EA, EB, <- !app_assoc. cbn [app]. rewrite skipn_app.
      replace (N.to_nat hl - length pre)%nat with 0%nat by (unfold lenN in LP; lia). reflexivity. }
    rewrite (SP x), (SP y). apply (nearz_pre h PL z _ _) with (k := N.to_nat k).
    - apply nearz_here. exact CH.
    - fold plen. lia.
    - rewrite lenN_skipn, Nnat.N2Nat.id. fold plen. lia. }
  set (buf := full (field (a ++ x :: b) 0 hl)) in *.
  assert (BP : before_z h z (PState (FState (skipn (N.to_nat hl) (a ++ x :: b)) false false) buf reset_page_header)
                 (PState (FState (skipn (N.to_nat hl) (a ++ y :: b)) false false) buf reset_page_header)).
  { split; [reflexivity|]. split; [reflexivity|]. eexists _, _. split; [reflexivity|].
    split; [reflexivity|]. exact NEAR. }
  binv OP. destruct x0 as [[p md] dsh]. binv E0. destruct x0 as [q m]. binv E0. injection E0 as <- <- <-.
  cbn [fst snd] in *. binv OP. injection OP as <- <-. cbn [rs_md rs_h] in *. rename x0 into md, x1 into d.
  unfold not_taken in NT. cbn [rs_d] in NT.
  assert (QD : ds_p d = q).
  { unfold read_data in E0. binv E0. destruct (m_data_subheaders m); [binv E0|]; injection E0 as <-; reflexivity. }
  rewrite QD in NT.
  destruct (metadata_before_z c h PL z (page_fuel c) _ _ empty_mstate q m BP E1) as (q' & ML & C).
  { rewrite EB in NT. rewrite lenN_app in NT. unfold lenN in *. cbn [length] in NT. rewrite app_length in NT. lia. }
  fold plen in ML.
  assert (DR : exists d', read_data c h md q' (m_data_subheaders m) = Ok d' /\ prel h md z true d d').
  { unfold read_data in *. binv E0. rename x0 into dec. rewrite E3. cbn [bind].
    assert (WK : works md dec).
    { split; [eapply make_decompressor_ok; eassumption|]. intros K. unfold make_decompressor in E3.
      destruct (md_compression md); [contradiction| |]; binv E3; injection E3 as <-; discriminate. }
    pose proof C as (EB1 & EH & ER). destruct (m_data_subheaders m).
    - rewrite EB1, EH. binv E0. injection E0 as <-. rewrite E4. eexists. split; [reflexivity|].
      apply r_before; assumption.
    - injection E0 as <-. eexists. split; [reflexivity|]. apply r_before; assumption. }
  destruct DR as (d' & RD & DR).
  exists (RState h md d'). split.
  { exists [EvProps h md]. unfold open_reader. rewrite E'. cbn [bind]. unfold set_metadata. fold buf.
    fold plen. rewrite ML. cbn [bind]. rewrite E2. cbn [bind]. rewrite RD. reflexivity. }
  split; [reflexivity|]. split; [reflexivity|]. intros ops F.
  exact (trace_prel c h md PL ops z true d d' F DR).
Qed.
