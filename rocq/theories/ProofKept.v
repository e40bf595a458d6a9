(** Rows which are kept: the memory they are in stays, and what it shows. *)
From Verif Require Import Base Types Buffer Page Column Header Metadata Decomp Data Reader Kept Lemmas SpecDecomp
  SpecReader SpecAsk SpecKept ProofDecomp ProofMetaInv ProofReader.
Local Open Scope N_scope.

(** ** Written memory stays written *)

Definition grows (m m' : list cell) : Prop := Forall2 (fun a b => a <> None -> b <> None) m m'.
Definition full (m : list cell) : Prop := Forall (fun a => a <> None) m.

Lemma grows_refl : forall m, grows m m.
Proof. induction m; constructor; auto. Qed.

Lemma grows_trans : forall a b c, grows a b -> grows b c -> grows a c.
Proof.
  intros a b c H. revert c. induction H as [|x y l l' E H IH]; intros c K; inversion K; subst; constructor; auto.
  apply IH. assumption.
Qed.

Lemma forall2_firstn : forall A B (R : A -> B -> Prop) n l l', Forall2 R l l' -> Forall2 R (firstn n l) (firstn n l').
Proof. induction n; intros l l' H; [constructor|]. destruct H; cbn [firstn]; constructor; auto. Qed.
Lemma forall2_skipn : forall A B (R : A -> B -> Prop) n l l', Forall2 R l l' -> Forall2 R (skipn n l) (skipn n l').
Proof. induction n; intros l l' H; [exact H|]. destruct H; cbn [skipn]; [constructor|auto]. Qed.

Lemma forall2_len : forall A B (R : A -> B -> Prop) l l', Forall2 R l l' -> length l = length l'.
Proof. induction 1; cbn; congruence. Qed.

Lemma grows_read : forall m m' off n v, grows m m' -> read_cells m off n = Ok v ->
  exists v', read_cells m' off n = Ok v'.
Proof.
  intros m m' off n v G H. destruct (read_cells_Ok _ _ _ _ H) as (L & E & _).
  assert (LE : lenN m' = lenN m) by (unfold lenN; f_equal; symmetry; exact (forall2_len _ _ _ _ _ G)).
  assert (K : Forall2 (fun a b : cell => a <> None -> b <> None) (slice off n m) (slice off n m')).
  { unfold slice. apply forall2_firstn, forall2_skipn, G. }
  rewrite E in K. assert (X : exists w, slice off n m' = map Some w).
  { clear - K. revert K. generalize (slice off n m'). induction v as [|b v IH]; intros l K; inversion K; subst.
    - exists []. reflexivity.
    - destruct (IH _ H3) as [w ->]. destruct y as [y|]; [|destruct (H1 ltac:(discriminate) eq_refl)].
      exists (y :: w). reflexivity. }
  destruct X as [w X]. exists w. apply read_cells_init; [lia|exact X].
Qed.

Lemma full_some : forall l, full (map Some l).
Proof. induction l; constructor; [discriminate|assumption]. Qed.
Lemma full_repeat : forall v n, full (repeat (Some v) n).
Proof. induction n; constructor; [discriminate|assumption]. Qed.
Lemma full_app : forall a b, full a -> full b -> full (a ++ b).
Proof. intros. apply Forall_app. auto. Qed.
Lemma full_firstn : forall n l, full l -> full (firstn n l).
Proof. induction n; intros l H; [constructor|]. destruct H; constructor; auto. apply IHn. assumption. Qed.
Lemma full_skipn : forall n l, full l -> full (skipn n l).
Proof. induction n; intros l H; [exact H|]. destruct H; [constructor|apply IHn; assumption]. Qed.

Lemma grows_write : forall m off new m', full new -> write_cells m off new = Ok m' -> grows m m'.
Proof.
  intros m off new m' F H. unfold write_cells in H. destruct (N.leb_spec (off + lenN new) (lenN m)) as [L|]; [|discriminate].
  injection H as <-. unfold splice, lenN in *.
  assert (E : m = firstn (N.to_nat off) m ++ firstn (length new) (skipn (N.to_nat off) m)
                  ++ skipn (N.to_nat off + length new) m).
  { rewrite <- (firstn_skipn (N.to_nat off) m) at 1. f_equal.
    rewrite <- (firstn_skipn (length new) (skipn (N.to_nat off) m)) at 1. f_equal.
    rewrite skipn_skipn'. reflexivity. }
  unfold grows. rewrite E at 1. apply Forall2_app; [apply grows_refl|]. apply Forall2_app; [|apply grows_refl].
  assert (K : length (firstn (length new) (skipn (N.to_nat off) m)) = length new).
  { rewrite firstn_length, skipn_length. lia. }
  revert K. generalize (firstn (length new) (skipn (N.to_nat off) m)). clear - F.
  induction F as [|x l X F IH]; intros k K; destruct k; try discriminate K; constructor; auto.
Qed.

Lemma full_write : forall m off new m', full m -> full new -> write_cells m off new = Ok m' -> full m'.
Proof.
  intros m off new m' M F H. unfold write_cells in H. destruct (N.leb_spec (off + lenN new) (lenN m)); [|discriminate].
  injection H as <-. unfold splice. apply full_app; [apply full_firstn; exact M|].
  apply full_app; [exact F|apply full_skipn; exact M].
Qed.

(** ** The buffer of the decompressor *)

Definition later (m m' : list cell) : Prop := lenN m' = lenN m /\ (full m -> full m').

Lemma later_refl : forall m, later m m.
Proof. split; auto. Qed.
Lemma later_trans : forall a b c, later a b -> later b c -> later a c.
Proof. intros a b c [A1 A2] [B1 B2]. split; [congruence|auto]. Qed.

Lemma write_len : forall m off new m', write_cells m off new = Ok m' -> lenN m' = lenN m.
Proof.
  intros m off new m' H. unfold write_cells in H. destruct (N.leb_spec (off + lenN new) (lenN m)); [|discriminate].
  injection H as <-. unfold splice, lenN in *. rewrite !app_length, firstn_length, skipn_length. lia.
Qed.

Lemma write_later : forall m off new m', (full m -> full new) -> write_cells m off new = Ok m' -> later m m'.
Proof.
  intros m off new m' F H. split; [exact (write_len _ _ _ _ H)|]. intros M. exact (full_write _ _ _ _ M (F M) H).
Qed.

Lemma later_read : forall m m' n v, lenN m = n -> later m m' -> read_cells m 0 n = Ok v ->
  exists v', read_cells m' 0 n = Ok v'.
Proof.
  intros m m' n v L [E F] H. apply read_cells_Ok in H. destruct H as (_ & H & _).
  assert (W : forall l : list cell, lenN l = n -> slice 0 n l = l).
  { intros l X. unfold slice. cbn [N.to_nat skipn]. apply firstn_all2. unfold lenN in X. lia. }
  rewrite (W _ L) in H. subst m. specialize (F (full_some _)).
  assert (X : exists w, m' = map Some w).
  { clear - F. induction F as [|[x|] l X F [w ->]]; [exists []; reflexivity|exists (x :: w); reflexivity|].
    destruct (X eq_refl). }
  destruct X as [w ->]. exists w. apply read_cells_init; [lia|]. apply W. congruence.
Qed.

Lemma store_value_later : forall d v n d', store_value d v n = Ok d' -> later (d_mem d) (d_mem d').
Proof.
  intros d v n d' H. unfold store_value in H. destruct (dst_assert_check d n); cbn [bind] in H; try discriminate.
  destruct (write_cells _ _ _) as [m| | | |] eqn:W; cbn [bind] in H; try discriminate. injection H as <-.
  exact (write_later _ _ _ _ (fun _ => full_repeat _ _) W).
Qed.

Lemma store_pattern_later : forall d ofs n d', store_pattern d ofs n = Ok d' -> later (d_mem d) (d_mem d').
Proof.
  intros d ofs n d' H. unfold store_pattern in H. destruct (dst_assert_check d n); cbn [bind] in H; try discriminate.
  destruct (d_i d <? ofs); [discriminate|]. destruct (ofs <? n); [discriminate|].
  destruct (write_cells _ _ _) as [m| | | |] eqn:W; cbn [bind] in H; try discriminate. injection H as <-.
  apply write_later in W; [exact W|]. intros F. unfold slice. apply full_firstn, full_skipn, F.
Qed.

Lemma store_values_later : forall src d n src' d', store_values src d n = Ok (src', d') ->
  later (d_mem d) (d_mem d').
Proof.
  intros src d n src' d' H. unfold store_values in H. cbv zeta in H.
  destruct (dst_assert_check d _); cbn [bind] in H; try discriminate.
  destruct (write_cells _ _ _) as [m| | | |] eqn:W; cbn [bind] in H; try discriminate. injection H as <- <-.
  exact (write_later _ _ _ _ (fun _ => full_some _) W).
Qed.

Lemma rle_step_later : forall src d src' d', rle_step src d = Ok (src', d') -> later (d_mem d) (d_mem d').
Proof.
  intros src d src' d' H. unfold rle_step in H. binv H. destruct x as [b s]. cbv zeta in H.
  assert (I : forall s v n, (d0 <- store_value d v n ;; Ok (s, d0)) = Ok (src', d') -> later (d_mem d) (d_mem d')).
  { intros s0 v n K. binv K. injection K as _ <-. exact (store_value_later _ _ _ _ E0). }
  revert H. generalize (b2n b mod 16). generalize (b2n b / 16). intros q low H.
  destruct q as [|q]; [|do 4 (try destruct q as [q|q|])]; try discriminate H;
    repeat first [exact (I _ _ _ H) | exact (store_values_later _ _ _ _ _ H) | binv H; destruct x as [? ?]].
Qed.

Lemma rle_loop_later : forall fuel src d, later (d_mem d) (d_mem (snd (rle_loop fuel src d))).
Proof.
  induction fuel as [|fuel IH]; intros src d; cbn [rle_loop];
    (destruct ((2 <=? lenN src) && dst_check d); [|apply later_refl]); [apply later_refl|].
  destruct (rle_step src d) as [[src' d']| | | |] eqn:E; try apply later_refl.
  exact (later_trans _ _ _ (rle_step_later _ _ _ _ E) (IH _ _)).
Qed.

Lemma rdc_step_later : forall src mask bits d src' mask' bits' d',
  rdc_step src mask bits d = Ok (src', mask', bits', d') -> later (d_mem d) (d_mem d').
Proof.
  intros src mask bits d src' mask' bits' d' H. unfold rdc_step in H. cbv zeta in H.
  assert (I : forall s mk bt v n, (d0 <- store_value d v n ;; Ok (s, mk, bt, d0)) = Ok (src', mask', bits', d') ->
    later (d_mem d) (d_mem d')).
  { intros s mk bt v n K. binv K. injection K as _ _ _ <-. exact (store_value_later _ _ _ _ E). }
  assert (J : forall s mk bt o n, (d0 <- store_pattern d o n ;; Ok (s, mk, bt, d0)) = Ok (src', mask', bits', d') ->
    later (d_mem d) (d_mem d')).
  { intros s mk bt o n K. binv K. injection K as _ _ _ <-. exact (store_pattern_later _ _ _ _ E). }
  destruct (if mask / 2 =? 0 then _ else _) as [[[s mk] bt]| | | |]; cbn [bind] in H; try discriminate.
  destruct (N.land bt mk =? 0).
  - binv H. destruct x. exact (I _ _ _ _ _ H).
  - binv H. destruct x as [b s0].
    destruct (b2n b / 16 =? 0); [|destruct (b2n b / 16 =? 1); [|destruct (b2n b / 16 =? 2)]];
      repeat first [exact (I _ _ _ _ _ H) | exact (J _ _ _ _ _ H) | binv H; destruct x as [? ?]].
Qed.

Lemma rdc_loop_later : forall fuel src mask bits d, later (d_mem d) (d_mem (snd (rdc_loop fuel src mask bits d))).
Proof.
  induction fuel as [|fuel IH]; intros src mask bits d; cbn [rdc_loop];
    (destruct ((3 <=? lenN src) && dst_check d); [|apply later_refl]); [apply later_refl|].
  destruct (rdc_step src mask bits d) as [[[[src' mask'] bits'] d']| | | |] eqn:E; try apply later_refl.
  exact (later_trans _ _ _ (rdc_step_later _ _ _ _ _ _ _ _ E) (IH _ _ _ _)).
Qed.

Lemma finish_later : forall m r, later m (d_mem (snd r)) -> later m (d_mem (snd (finish r))).
Proof.
  intros m [[[]| | | |] d] F; try exact F. cbn [finish snd] in *.
  destruct (dst_fill d) as [d'| | | |] eqn:E; try exact F. cbn [snd].
  unfold dst_fill in E. cbv zeta in E. destruct (d_n d -! d_i d =? 0); [injection E as <-; exact F|].
  exact (later_trans _ _ _ F (store_value_later _ _ _ _ E)).
Qed.

Lemma rle_later : forall src d, later (d_mem d) (d_mem (snd (rle src d))).
Proof. intros src d. apply finish_later. exact (rle_loop_later (length src) src (dst_reset d)). Qed.
Lemma rdc_later : forall src d, later (d_mem d) (d_mem (snd (rdc src d))).
Proof. intros src d. apply finish_later. exact (rdc_loop_later (length src) src 0 0 (dst_reset d)). Qed.

Definition dec_mem (d : decompressor) : list cell :=
  match d with DNone => [] | DRDC t => d_mem t | DRLE t => d_mem t end.

(** ** The page *)

(** There is room for a page. *)
Definition roomy {S} (plen : N) (p : pstate S) : Prop := 0 +! plen <= msize (ps_buf p).

Definition pgrows {S} (p p' : pstate S) : Prop := grows (mem (ps_buf p)) (mem (ps_buf p')).

Lemma resize_kept : forall c b n, n <= msize b -> resize c b n = Ok (MBuf (mem b) n).
Proof. intros c b n H. unfold resize. rewrite (proj2 (N.ltb_ge _ _)) by exact H. reflexivity. Qed.

Lemma resize_size : forall c b n b', resize c b n = Ok b' -> msize b' = n.
Proof.
  intros c b n b' H. unfold resize in H. destruct (msize b <? n); [|injection H as <-; reflexivity].
  binv H. binv H. injection H as <-. reflexivity.
Qed.

Lemma read_stream_kept : forall S c (src : source S) b s n x s' b', 0 +! n <= msize b ->
  read_stream c src b s n 0 = (x, s', b') -> grows (mem b) (mem b') /\ msize b' = 0 +! n.
Proof.
  intros S c src b s n x s' b' R H. unfold read_stream in H. rewrite (resize_kept _ _ _ R) in H.
  destruct (src_read src s n) as [[s1 data] ok]. cbn [mem msize] in H.
  destruct (lenN data =? 0); [injection H as _ _ <-; split; [apply grows_refl|reflexivity]|].
  destruct (write_cells _ _ _) as [m| | | |] eqn:W; injection H as _ _ <-; cbn [mem msize];
    (split; [|reflexivity]); try apply grows_refl. exact (grows_write _ _ _ _ (full_some _) W).
Qed.

Lemma read_page_cfg : forall S c c' (src : source S) e f plen p, roomy plen p ->
  read_page c src e f plen p = read_page c' src e f plen p.
Proof.
  intros S c c' src e f plen p R. unfold read_page, read_stream.
  rewrite (resize_kept c _ _ R), (resize_kept c' _ _ R). reflexivity.
Qed.

Lemma read_page_kept : forall S c (src : source S) e f plen p x p', roomy plen p ->
  read_page c src e f plen p = (x, p') -> pgrows p p' /\ roomy plen p'.
Proof.
  intros S c src e f plen p x p' R H. unfold read_page in H.
  destruct (src_eof src (ps_is p)); [injection H as _ <-; split; [apply grows_refl|exact R]|].
  destruct (read_stream c src (ps_buf p) (ps_is p) plen 0) as [[y s1] b1] eqn:E.
  apply read_stream_kept in E; [|exact R]. destruct E as [G M].
  assert (K : ps_buf p' = b1).
  { destruct y as [[|]| | | |]; [destruct (get_page_header e f b1)|destruct (src_eof src s1)|..];
      injection H as _ <-; reflexivity. }
  unfold pgrows, roomy. rewrite K, M. split; [exact G|lia].
Qed.

(** After any page was read there is room. *)
Lemma read_page_roomy : forall S c (src : source S) e f plen p x p',
  read_page c src e f plen p = (Ok x, p') -> roomy plen p' \/ (x = false /\ ps_hdr p' = reset_page_header).
Proof.
  intros S c src e f plen p x p' H. unfold read_page in H.
  destruct (src_eof src (ps_is p)); [injection H as <- <-; right; split; reflexivity|].
  unfold read_stream in H. destruct (resize c (ps_buf p) (0 +! plen)) as [b| | | |] eqn:R; try discriminate.
  apply resize_size in R. destruct (src_read src (ps_is p) plen) as [[s1 data] ok].
  destruct (if lenN data =? 0 then _ else _) as [m| | | |]; try discriminate.
  destruct ok.
  - destruct (get_page_header e f _); try discriminate. injection H as <- <-. left. unfold roomy.
    cbn [ps_buf msize]. lia.
  - destruct (src_eof src s1); [|discriminate]. injection H as <- <-. right. split; reflexivity.
Qed.

Lemma next_page_cfg : forall S c c' (src : source S) e f plen md fuel p, roomy plen p ->
  read_next_page c src e f plen md fuel p = read_next_page c' src e f plen md fuel p.
Proof.
  intros S c c' src e f plen md. induction fuel as [|fuel IH]; intros p R; cbn [read_next_page]; [reflexivity|].
  rewrite (read_page_cfg _ c c' _ _ _ _ _ R).
  destruct (read_page c' src e f plen p) as [x p'] eqn:E. destruct (read_page_kept _ _ _ _ _ _ _ _ _ R E) as [_ R'].
  destruct x as [[|]| | | |]; try reflexivity.
  destruct (build_page _ _ _ _ _) as [[pg|]| | | |]; try reflexivity. apply IH. exact R'.
Qed.

Lemma next_page_kept : forall S c (src : source S) e f plen md fuel p x p', roomy plen p ->
  read_next_page c src e f plen md fuel p = (x, p') -> pgrows p p' /\ roomy plen p'.
Proof.
  intros S c src e f plen md. induction fuel as [|fuel IH]; intros p x p' R H; cbn [read_next_page] in H.
  - injection H as _ <-. split; [apply grows_refl|exact R].
  - destruct (read_page c src e f plen p) as [y p1] eqn:E. destruct (read_page_kept _ _ _ _ _ _ _ _ _ R E) as [G1 R1].
    assert (D : p' = p1 -> pgrows p p' /\ roomy plen p') by (intros ->; split; assumption).
    destruct y as [[|]| | | |]; try (apply D; injection H as _ <-; reflexivity).
    destruct (build_page _ _ _ _ _) as [[pg|]| | | |]; try (apply D; injection H as _ <-; reflexivity).
    apply IH in H; [|exact R1]. destruct H as [G2 R2]. split; [exact (grows_trans _ _ _ G1 G2)|exact R2].
Qed.

(** ** The reader *)

Definition dec_later (a b : decompressor) : Prop := later (dec_mem a) (dec_mem b) /\ (a = DNone -> b = DNone).

Lemma dec_later_refl : forall a, dec_later a a.
Proof. split; [apply later_refl|auto]. Qed.
Lemma dec_later_trans : forall a b c, dec_later a b -> dec_later b c -> dec_later a c.
Proof. intros a b c [A1 A2] [B1 B2]. split; [exact (later_trans _ _ _ A1 B1)|auto]. Qed.

Definition ready {S} (h : header) (d : dstate S) : Prop := ds_page d <> None -> roomy (h_page_length h) (ds_p d).

Definition dlater {S} (h : header) (d d' : dstate S) : Prop :=
  pgrows (ds_p d) (ds_p d') /\ dec_later (ds_dec d) (ds_dec d') /\ ready h d'.

Lemma dlater_refl : forall S h (d : dstate S), ready h d -> dlater h d d.
Proof. intros S h d R. split; [apply grows_refl|]. split; [apply dec_later_refl|exact R]. Qed.
Lemma dlater_trans : forall S h (a b c : dstate S), dlater h a b -> dlater h b c -> dlater h a c.
Proof.
  intros S h a b c (A1 & A2 & _) (B1 & B2 & B3). split; [exact (grows_trans _ _ _ A1 B1)|].
  split; [exact (dec_later_trans _ _ _ A2 B2)|exact B3].
Qed.

Section Run.
Variables (S : Type) (src : source S) (c : cfg) (m : N).
Let c' := with_memory c m.

Lemma data_next_kept : forall h md d, ready h d ->
  data_next c' src h md d = data_next c src h md d
  /\ dlater h d (snd (data_next c src h md d)) /\ ds_dec (snd (data_next c src h md d)) = ds_dec d.
Proof.
  intros h md d R. unfold data_next. cbn [c' with_memory page_fuel].
  destruct (ds_row d =? md_row_count md).
  { split; [reflexivity|]. split; [apply dlater_refl; exact R|reflexivity]. }
  destruct (ds_page d) as [pg|] eqn:P; [|split; [reflexivity|]; split; [apply dlater_refl; exact R|reflexivity]].
  destruct (page_next pg); [|split; [reflexivity|]; split; [apply dlater_refl; exact R|reflexivity]].
  assert (Q : roomy (h_page_length h) (ds_p d)) by (apply R; congruence).
  rewrite (next_page_cfg _ (with_memory c m) c _ _ _ _ _ _ _ Q).
  destruct (read_next_page c src _ _ _ md (page_fuel c) (ds_p d)) as [x p'] eqn:E.
  apply next_page_kept in E; [|exact Q]. destruct E as [G R'].
  split; [reflexivity|].
  destruct x as [[pg'|]| | | |]; cbn [snd ds_dec]; (split; [|reflexivity]);
    (split; [exact G|]; split; [apply dec_later_refl|intros _; exact R']).
Qed.

Lemma data_read_line_kept : forall h (d : dstate S), ready h d ->
  dlater h d (snd (data_read_line d)) /\ ds_dec (snd (data_read_line d)) = ds_dec d.
Proof.
  intros h d R. unfold data_read_line. destruct (ds_page d) as [pg|] eqn:P; cbn [snd].
  - split; [|reflexivity]. split; [apply grows_refl|]. split; [apply dec_later_refl|].
    intros _. apply R. congruence.
  - split; [apply dlater_refl; exact R|reflexivity].
Qed.

Lemma extract_kept : forall h md off len (d : dstate S), ready h d ->
  extract_row_values c' h md off len d = extract_row_values c h md off len d
  /\ dlater h d (snd (extract_row_values c h md off len d)).
Proof.
  intros h md off len d R. split; [reflexivity|]. unfold extract_row_values.
  destruct (fmt_assert c _); try (apply dlater_refl; exact R).
  cbv zeta. destruct (len <? md_row_length md); [|apply dlater_refl; exact R].
  destruct (ds_dec d) as [|t|t] eqn:D; [apply dlater_refl; exact R|..];
    (destruct (read_cells _ off len) as [z| | | |]; try (apply dlater_refl; exact R)).
  - pose proof (rdc_later z t) as L. destruct (rdc z t) as [y t']. cbn [snd] in *.
    split; [apply grows_refl|]. split; [rewrite D; split; [exact L|discriminate]|exact R].
  - pose proof (rle_later z t) as L. destruct (rle z t) as [y t']. cbn [snd] in *.
    split; [apply grows_refl|]. split; [rewrite D; split; [exact L|discriminate]|exact R].
Qed.

Lemma read_line_kept : forall h md d, ready h d ->
  read_line c' src h md d = read_line c src h md d /\ dlater h d (snd (read_line c src h md d)).
Proof.
  intros h md d R. unfold read_line. destruct (data_next_kept h md d R) as (-> & L & _).
  destruct (data_next c src h md d) as [[[|]| | | |] d1]; cbn [snd] in *; try (split; [reflexivity|exact L]).
  destruct (data_read_line_kept h d1 (proj2 (proj2 L))) as [L2 _].
  destruct (data_read_line d1) as [[[off len]| | | |] d2]; cbn [snd] in *;
    try (split; [reflexivity|exact (dlater_trans _ _ _ _ _ L L2)]).
  destruct (extract_kept h md off len d2 (proj2 (proj2 L2))) as [-> L3].
  destruct (extract_row_values c h md off len d2) as [x d3]. cbn [snd] in *. split; [reflexivity|].
  exact (dlater_trans _ _ _ _ _ L (dlater_trans _ _ _ _ _ L2 L3)).
Qed.

Lemma data_skip_kept : forall h md n d, ready h d ->
  data_skip c' src h md n d = data_skip c src h md n d
  /\ dlater h d (snd (data_skip c src h md n d)) /\ ds_dec (snd (data_skip c src h md n d)) = ds_dec d.
Proof.
  intros h md. induction n as [|n IH]; intros d R; cbn [data_skip].
  { split; [reflexivity|]. split; [apply dlater_refl; exact R|reflexivity]. }
  destruct (data_next_kept h md d R) as (-> & L & D).
  destruct (data_next c src h md d) as [[[|]| | | |] d1]; cbn [snd] in *; try (split; [reflexivity|split; assumption]).
  destruct (data_read_line_kept h d1 (proj2 (proj2 L))) as [L2 D2].
  destruct (data_read_line d1) as [[pl| | | |] d2]; cbn [snd] in *;
    try (split; [reflexivity|]; split; [exact (dlater_trans _ _ _ _ _ L L2)|congruence]).
  destruct (IH d2 (proj2 (proj2 L2))) as (-> & L3 & D3). split; [reflexivity|].
  split; [exact (dlater_trans _ _ _ _ _ L (dlater_trans _ _ _ _ _ L2 L3))|congruence].
Qed.

(** [r'] comes from [r]. *)
Definition rlater (r r' : rstate S) : Prop :=
  rs_h r' = rs_h r /\ rs_md r' = rs_md r /\ dlater (rs_h r) (rs_d r) (rs_d r').
Definition rready (r : rstate S) : Prop := ready (rs_h r) (rs_d r).

Lemma rlater_refl : forall r, rready r -> rlater r r.
Proof. intros r R. split; [reflexivity|]. split; [reflexivity|]. apply dlater_refl. exact R. Qed.
Lemma rlater_ready : forall r r', rlater r r' -> rready r'.
Proof. intros r r' (H & _ & _ & _ & R). unfold rready. rewrite H. exact R. Qed.
Lemma rlater_trans : forall a b e, rlater a b -> rlater b e -> rlater a e.
Proof.
  intros a b e (A1 & A2 & A3) (B1 & B2 & B3). rewrite A1 in B3.
  split; [congruence|]. split; [congruence|exact (dlater_trans _ _ _ _ _ A3 B3)].
Qed.

Lemma read_row_kept : forall r, rready r ->
  read_row c' src r = read_row c src r /\ rlater r (snd (fst (read_row c src r))).
Proof.
  intros r R. unfold read_row. cbv zeta. destruct (read_line_kept (rs_h r) (rs_md r) (rs_d r) R) as [-> L].
  destruct (read_line c src (rs_h r) (rs_md r) (rs_d r)) as [[[p|]| | | |] d']; cbn [fst snd] in *;
    (split; [reflexivity|]; split; [reflexivity|]; split; [reflexivity|exact L]).
Qed.

Lemma read_rows_kept : forall n r, rready r ->
  read_rows c' src n r = read_rows c src n r /\ rlater r (snd (fst (read_rows c src n r))).
Proof.
  induction n as [|n IH]; intros r R; cbn [read_rows]; [split; [reflexivity|apply rlater_refl; exact R]|].
  destruct (read_row_kept r R) as [-> L]. destruct (read_row c src r) as [[x r1] ev]. cbn [fst snd] in L.
  destruct x as [[|]| | | |]; try (split; [reflexivity|exact L]).
  destruct (IH r1 (rlater_ready _ _ L)) as [-> L2]. destruct (read_rows c src n r1) as [[y r2] ev2].
  split; [reflexivity|exact (rlater_trans _ _ _ L L2)].
Qed.

Lemma read_all_loop_kept : forall n r, rready r ->
  read_all_loop c' src n r = read_all_loop c src n r /\ rlater r (snd (fst (read_all_loop c src n r))).
Proof.
  induction n as [|n IH]; intros r R; cbn [read_all_loop]; [split; [reflexivity|apply rlater_refl; exact R]|].
  destruct (read_row_kept r R) as [-> L]. destruct (read_row c src r) as [[x r1] ev]. cbn [fst snd] in L.
  destruct x as [[|]| | | |]; try (split; [reflexivity|exact L]).
  destruct (IH r1 (rlater_ready _ _ L)) as [-> L2]. destruct (read_all_loop c src n r1) as [[y r2] ev2].
  split; [reflexivity|exact (rlater_trans _ _ _ L L2)].
Qed.

Lemma step_kept : forall o r, rready r -> step c' src o r = step c src o r /\ rlater r (snd (fst (step c src o r))).
Proof.
  intros o r R. destruct o; cbn [step].
  - destruct (read_row_kept r R) as [-> L]. destruct (read_row c src r) as [[x r1] ev]. split; [reflexivity|exact L].
  - destruct (read_rows_kept (N.to_nat n) r R) as [-> L]. destruct (read_rows c src _ r) as [[x r1] ev].
    split; [reflexivity|exact L].
  - unfold read_all.
    destruct (read_all_loop_kept (Datatypes.S (N.to_nat (md_row_count (rs_md r) - ds_row (rs_d r)))) r R) as [-> L].
    destruct (read_all_loop c src _ r) as [[x r1] ev]. split; [reflexivity|exact L].
  - unfold skip. destruct (data_skip_kept (rs_h r) (rs_md r) (N.to_nat n) (rs_d r) R) as (-> & L & _).
    destruct (data_skip c src _ _ _ _) as [x d']. split; [reflexivity|].
    split; [reflexivity|]. split; [reflexivity|exact L].
  - unfold read_row_no_sink. destruct (read_line_kept (rs_h r) (rs_md r) (rs_d r) R) as [-> L].
    destruct (read_line c src _ _ _) as [x d']. split; [reflexivity|]. split; [reflexivity|]. split; [reflexivity|exact L].
  - split; [reflexivity|]. apply rlater_refl. exact R.
Qed.

Lemma next_place_cfg : forall h md d, ready h d -> next_place c' src h md d = next_place c src h md d.
Proof. intros h md d R. unfold next_place. destruct (data_next_kept h md d R) as (-> & _). reflexivity. Qed.

Definition more (a b : list place) : Prop := exists l, b = a ++ l.

Lemma kexec_kept : forall st r kept, rready r -> kexec c' src st (r, kept) = kexec c src st (r, kept)
  /\ rlater r (fst (snd (kexec c src st (r, kept)))) /\ more kept (snd (snd (kexec c src st (r, kept)))).
Proof.
  intros st r kept R. assert (M0 : more kept kept) by (exists []; symmetry; apply app_nil_r).
  destruct st as [o| |j]; cbn [kexec].
  - destruct (step_kept o r R) as [-> L]. destruct (step c src o r) as [[x r1] ev]. split; [reflexivity|].
    split; [exact L|exact M0].
  - rewrite (next_place_cfg _ _ _ R). unfold read_row_no_sink.
    destruct (read_line_kept (rs_h r) (rs_md r) (rs_d r) R) as [-> L].
    destruct (read_line c src (rs_h r) (rs_md r) (rs_d r)) as [x d'].
    assert (L' : rlater r (RState (rs_h r) (rs_md r) d')) by (split; [reflexivity|]; split; [reflexivity|exact L]).
    split; [reflexivity|].
    destruct x as [[p|]| | | |]; [destruct (next_place c src (rs_h r) (rs_md r) (rs_d r)) as [k|]|..];
      cbn [fst snd]; (split; [exact L'|]); try exact M0. exists [k]. reflexivity.
  - destruct (nth_error kept j); (split; [reflexivity|]); (split; [apply rlater_refl; exact R|exact M0]).
Qed.

Lemma kexec_all_kept : forall p r kept, rready r -> kexec_all c' src p (r, kept) = kexec_all c src p (r, kept)
  /\ rlater r (fst (snd (kexec_all c src p (r, kept)))) /\ more kept (snd (snd (kexec_all c src p (r, kept)))).
Proof.
  induction p as [|st p IH]; intros r kept R; cbn [kexec_all].
  { split; [reflexivity|]. split; [apply rlater_refl; exact R|exists []; symmetry; apply app_nil_r]. }
  destruct (kexec_kept st r kept R) as (-> & L & M).
  destruct (kexec c src st (r, kept)) as [x [r1 k1]]. cbn [fst snd] in L, M.
  destruct (IH r1 k1 (rlater_ready _ _ L)) as (E & L2 & [l2 M2]).
  destruct x; try (split; [reflexivity|split; assumption]); rewrite E;
    destruct (kexec_all c src p (r1, k1)) as [xs [r2 k2]]; cbn [fst snd] in *;
    (split; [reflexivity|]; split; [exact (rlater_trans _ _ _ L L2)|]);
    destruct M as [l ->]; exists (l ++ l2); rewrite M2; symmetry; apply app_assoc.
Qed.

End Run.

(** ** A Reader just opened *)

Lemma metadata_loop_stays : forall S c (src : source S) e f plen fuel p m p' m', roomy plen p ->
  metadata_loop c src e f plen fuel p m = Ok (p', m') -> roomy plen p'.
Proof.
  intros S c src e f plen. induction fuel as [|fuel IH]; intros p m p' m' Q H; cbn [metadata_loop] in H; [discriminate|].
  destruct (read_page c src e f plen p) as [x p1] eqn:R.
  destruct (read_page_kept _ _ _ _ _ _ _ _ _ Q R) as [_ Q1].
  destruct x as [[|]| | | |]; try discriminate; [|injection H as <- <-; exact Q1].
  binv H. destruct x as [m1 stop]. destruct stop; [injection H as <- <-; exact Q1|]. exact (IH _ _ _ _ Q1 H).
Qed.

Lemma metadata_loop_roomy : forall S c (src : source S) e f plen fuel p m p' m', 
  metadata_loop c src e f plen fuel p m = Ok (p', m') ->
  roomy plen p' \/ (ps_hdr p' = reset_page_header /\ m' = m).
Proof.
  intros S c src e f plen [|fuel] p m p' m' H; cbn [metadata_loop] in H; [discriminate|].
  destruct (read_page c src e f plen p) as [x p1] eqn:R. destruct x as [x| | | |]; try discriminate.
  destruct (read_page_roomy _ _ _ _ _ _ _ _ _ R) as [Q|[-> Q]].
  - left. destruct x; [|injection H as <- <-; exact Q].
    binv H. destruct x as [m1 stop]. destruct stop; [injection H as <- <-; exact Q|].
    exact (metadata_loop_stays _ _ _ _ _ _ _ _ _ _ _ Q H).
  - injection H as <- <-. right. split; [exact Q|reflexivity].
Qed.

Lemma opened_ready : forall S c (src : source S) flt s r, opened c src flt s r -> ready (rs_h r) (rs_d r)
  /\ (ds_dec (rs_d r) = DNone \/ lenN (dec_mem (ds_dec (rs_d r))) = md_row_length (rs_md r)).
Proof.
  intros S c src flt s r [ev H]. apply open_reader_inv in H.
  destruct H as (s1 & b1 & p & m & _ & ML & _ & RD & _).
  unfold read_data in RD. destruct (make_decompressor c _ _) as [dec| | | |] eqn:MD; cbn [bind] in RD; try discriminate.
  assert (DL : dec = DNone \/ lenN (dec_mem dec) = md_row_length (rs_md r)).
  { unfold make_decompressor in MD.
    assert (A : forall x, dst_new c (md_row_length (rs_md r)) = Ok x -> lenN (d_mem x) = md_row_length (rs_md r)).
    { intros x E. unfold dst_new, mbuf_new, alloc in E. destruct (_ <=? _); cbn [bind] in E; [|discriminate].
      injection E as <-. cbn [d_mem mem]. unfold lenN. rewrite repeat_length. lia. }
    destruct (md_compression (rs_md r)); [injection MD as <-; left; reflexivity|..];
      (binv MD; injection MD as <-; right; apply A; assumption). }
  destruct (metadata_loop_roomy _ _ _ _ _ _ _ _ _ _ _ ML) as [Q|[Q ->]].
  - destruct (m_data_subheaders m).
    + binv RD. injection RD as <-. split; [intros _; exact Q|exact DL].
    + injection RD as <-. split; [intros _; exact Q|exact DL].
  - cbn [m_data_subheaders empty_mstate] in RD. rewrite Q in RD.
    assert (B : build_page (h_endianness (rs_h r)) (h_format (rs_h r)) (rs_md r) (ps_buf p) reset_page_header = Ok None)
      by reflexivity.
    rewrite B in RD. cbn [bind] in RD. injection RD as <-. split; [intros X; destruct (X eq_refl)|exact DL].
Qed.

(** C113: no memory is asked for once the Reader is open. *)
Lemma kept_no_allocation : forall S c m (src : source S) flt s r p, opened c src flt s r ->
  kexec_all (with_memory c m) src p (r, []) = kexec_all c src p (r, []).
Proof. intros S c m src flt s r p O. apply kexec_all_kept. exact (proj1 (opened_ready _ _ _ _ _ _ O)). Qed.

(** ** The place is where the pointer points *)

Lemma read_line_place : forall S c (src : source S) h md d p d', read_line c src h md d = (Ok (Some p), d') ->
  exists k, next_place c src h md d = Some k /\ look k d' = p
  /\ (k = InRow -> ds_dec d' <> DNone).
Proof.
  intros S c src h md d p d' H. unfold read_line in H. unfold next_place.
  destruct (data_next c src h md d) as [[[|]| | | |] d1]; try discriminate.
  unfold data_read_line in *. destruct (ds_page d1) as [pg|]; cbn [fst]; [|discriminate].
  destruct (page_read_line pg) as [[off len]| | | |]; try discriminate.
  unfold extract_row_values, row_place in *. destruct (fmt_assert c _); try discriminate. cbv zeta in H.
  cbn [ds_p ds_dec ds_row ds_page] in H.
  destruct (len <? md_row_length md).
  - destruct (ds_dec d1) as [|t|t] eqn:D.
    + injection H as <- <-. exists (InPage off). split; [reflexivity|]. split; [reflexivity|discriminate].
    + destruct (read_cells _ off len) as [z| | | |]; try discriminate.
      destruct (rdc z t) as [[y| | | |] t'] eqn:E; cbn [bind] in H; try discriminate.
      injection H as <- <-. exists InRow. split; [reflexivity|]. split; [reflexivity|discriminate].
    + destruct (read_cells _ off len) as [z| | | |]; try discriminate.
      destruct (rle z t) as [[y| | | |] t'] eqn:E; cbn [bind] in H; try discriminate.
      injection H as <- <-. exists InRow. split; [reflexivity|]. split; [reflexivity|discriminate].
  - injection H as <- <-. exists (InPage off). split; [reflexivity|]. split; [reflexivity|discriminate].
Qed.

Definition seen (md : metadata) (x : option pview) : res kval :=
  match x with None => Ok KNull | Some p => rmap KRow (row_bytes md p) end.

Lemma keep_outcome : forall S c (src : source S) r kept,
  fst (kexec c src KKeep (r, kept)) = (x <- fst (read_row_no_sink c src r) ;; seen (rs_md r) x)
  /\ fst (snd (kexec c src KKeep (r, kept))) = snd (read_row_no_sink c src r).
Proof.
  intros S c src r kept. cbn [kexec]. unfold read_row_no_sink.
  destruct (read_line c src (rs_h r) (rs_md r) (rs_d r)) as [x d'] eqn:E.
  destruct x as [[p|]| | | |]; try (split; reflexivity).
  destruct (read_line_place _ _ _ _ _ _ _ _ E) as (k & -> & _). split; reflexivity.
Qed.

Lemma keep_row : forall S c (src : source S) r kept b w, kexec c src KKeep (r, kept) = (Ok (KRow b), w) ->
  exists k r', w = (r', kept ++ [k]) /\ rs_md r' = rs_md r /\ row_bytes (rs_md r) (look k (rs_d r')) = Ok b
  /\ (k = InRow -> ds_dec (rs_d r') <> DNone).
Proof.
  intros S c src r kept b w H. cbn [kexec] in H. unfold read_row_no_sink in H.
  destruct (read_line c src (rs_h r) (rs_md r) (rs_d r)) as [x d'] eqn:E.
  destruct x as [[p|]| | | |]; try discriminate.
  destruct (read_line_place _ _ _ _ _ _ _ _ E) as (k & K & L & D). rewrite K in H.
  injection H as H <-. exists k, (RState (rs_h r) (rs_md r) d'). split; [reflexivity|]. split; [reflexivity|].
  cbn [rs_d]. rewrite L. split; [|exact D].
  destruct (row_bytes (rs_md r) p); cbn in H; congruence.
Qed.

Lemma nth_last : forall A (l : list A) x, nth_error (l ++ [x]) (length l) = Some x.
Proof. induction l; cbn; auto. Qed.

Lemma keep_then_look : forall S c (src : source S) r kept b w, kexec c src KKeep (r, kept) = (Ok (KRow b), w) ->
  kexec c src (KLook (length kept)) w = (Ok (KRow b), w).
Proof.
  intros S c src r kept b w H. destruct (keep_row _ _ _ _ _ _ _ H) as (k & r' & -> & M & B & _).
  cbn [kexec]. rewrite nth_last, M, B. reflexivity.
Qed.

(** ** Later looks *)

Lemma row_bytes_len : forall md p b, row_bytes md p = Ok b -> lenN b = md_row_length md.
Proof. intros md p b H. apply read_cells_Ok in H. apply H. Qed.

Definition sized {S} (r : rstate S) : Prop :=
  ds_dec (rs_d r) = DNone \/ lenN (dec_mem (ds_dec (rs_d r))) = md_row_length (rs_md r).

Lemma rlater_sized : forall S (r r' : rstate S), rlater S r r' -> sized r -> sized r'.
Proof.
  intros S r r' (_ & M & _ & ([L _] & D) & _) [Z|Z]; [left; auto|right]. rewrite L, M. exact Z.
Qed.

Lemma look_row : forall S (d : dstate S), look InRow d = PView (dec_mem (ds_dec d)) 0.
Proof. intros S d. unfold look. destruct (ds_dec d); reflexivity. Qed.

Lemma look_later : forall S (r r' : rstate S) k b, rlater S r r' -> sized r -> (k = InRow -> ds_dec (rs_d r) <> DNone) ->
  row_bytes (rs_md r) (look k (rs_d r)) = Ok b ->
  exists b', row_bytes (rs_md r') (look k (rs_d r')) = Ok b' /\ lenN b' = md_row_length (rs_md r).
Proof.
  intros S r r' k b (_ & M & G & (L & _) & _) Z D H. rewrite M.
  assert (X : exists b', row_bytes (rs_md r) (look k (rs_d r')) = Ok b').
  { destruct k as [off|].
    - exact (grows_read _ _ _ _ _ G H).
    - rewrite look_row in *. destruct Z as [Z|Z]; [destruct (D eq_refl Z)|].
      exact (later_read _ _ _ _ Z L H). }
  destruct X as [b' X]. exists b'. split; [exact X|exact (row_bytes_len _ _ _ X)].
Qed.

Lemma kept_valid : forall S c (src : source S) flt s r q tq r1 kept1 b w2 p t w3,
  opened c src flt s r -> kexec_all c src q (r, []) = (tq, (r1, kept1)) ->
  kexec c src KKeep (r1, kept1) = (Ok (KRow b), w2) -> kexec_all c src p w2 = (t, w3) ->
  exists b', kexec c src (KLook (length kept1)) w3 = (Ok (KRow b'), w3) /\ lenN b' = md_row_length (rs_md r).
Proof.
  intros S c src flt s r q tq r1 kept1 b w2 p t w3 O Q K P.
  destruct (opened_ready _ _ _ _ _ _ O) as [R Z].
  destruct (kexec_all_kept _ src c 0 q r [] R) as (_ & L1 & _). rewrite Q in L1. cbn [fst snd] in L1.
  destruct (kexec_kept _ src c 0 KKeep r1 kept1 (rlater_ready _ _ _ L1)) as (_ & L2 & _).
  rewrite K in L2. cbn [fst snd] in L2.
  destruct (keep_row _ _ _ _ _ _ _ K) as (k & r2 & -> & M & B & D). cbn [fst] in L2.
  destruct (kexec_all_kept _ src c 0 p r2 (kept1 ++ [k]) (rlater_ready _ _ _ L2)) as (_ & L3 & [l M3]).
  rewrite P in L3, M3. destruct w3 as [r3 kept3]. cbn [fst snd] in L3, M3.
  pose proof (rlater_trans _ _ _ _ L1 L2) as L12.
  rewrite <- M in B. destruct (look_later _ _ _ _ _ L3 (rlater_sized _ _ _ L12 Z) D B) as (b' & B' & N).
  exists b'. split.
  - cbn [kexec]. rewrite M3, nth_error_app1, nth_last by (rewrite app_length; cbn; lia).
    rewrite B'. reflexivity.
  - rewrite N. f_equal. exact (proj1 (proj2 L12)).
Qed.

(** ** Rows in the page stay while no page is asked for *)

Definition counts {S} (a b : pstate (S * N)) : Prop :=
  snd (ps_is a) <= snd (ps_is b)
  /\ (snd (ps_is b) = snd (ps_is a) -> mem (ps_buf b) = mem (ps_buf a)).

Lemma counts_refl : forall S (a : pstate (S * N)), counts a a.
Proof. split; [lia|auto]. Qed.
Lemma counts_trans : forall S (a b c : pstate (S * N)), counts a b -> counts b c -> counts a c.
Proof.
  intros S a b c [A1 A2] [B1 B2]. split; [lia|]. intros E. rewrite B2 by lia. apply A2. lia.
Qed.

Section Counted.
Variables (S : Type) (src : source S) (c : cfg).

Lemma read_page_counts : forall e f plen p, roomy plen p -> counts p (snd (read_page c (counted src) e f plen p)).
Proof.
  intros e f plen p R. unfold read_page. destruct (src_eof (counted src) (ps_is p)); [split; [cbn; lia|reflexivity]|].
  unfold read_stream. rewrite (resize_kept c _ _ R). cbn [counted src_read].
  destruct (src_read src (fst (ps_is p)) plen) as [[s1 data] ok].
  assert (K : forall b h, counts p (PState (s1, snd (ps_is p) + 1) b h)).
  { intros b h. split; cbn [ps_is snd]; lia. }
  destruct (if lenN data =? 0 then _ else _); try apply K. destruct ok; [|destruct (src_eof _ _)]; try apply K.
  destruct (get_page_header e f _); apply K.
Qed.

Lemma next_page_counts : forall e f plen md fuel p, roomy plen p ->
  counts p (snd (read_next_page c (counted src) e f plen md fuel p)).
Proof.
  intros e f plen md. induction fuel as [|fuel IH]; intros p R; cbn [read_next_page]; [apply counts_refl|].
  pose proof (read_page_counts e f plen p R) as C.
  destruct (read_page c (counted src) e f plen p) as [x p1] eqn:E.
  destruct (read_page_kept _ _ _ _ _ _ _ _ _ R E) as [_ R1]. cbn [snd] in C.
  destruct x as [[|]| | | |]; try exact C.
  destruct (build_page _ _ _ _ _) as [[pg|]| | | |]; try exact C. exact (counts_trans _ _ _ _ C (IH _ R1)).
Qed.

Definition dcounts (a b : dstate (S * N)) : Prop := counts (ds_p a) (ds_p b).

Lemma data_next_counts : forall h md d, ready h d -> dcounts d (snd (data_next c (counted src) h md d)).
Proof.
  intros h md d R. unfold data_next. destruct (_ =? _); [apply counts_refl|].
  destruct (ds_page d) as [pg|] eqn:P; [|apply counts_refl]. destruct (page_next pg); [|apply counts_refl].
  assert (Q : roomy (h_page_length h) (ds_p d)) by (apply R; congruence).
  pose proof (next_page_counts (h_endianness h) (h_format h) _ md (page_fuel c) _ Q) as C.
  destruct (read_next_page _ _ _ _ _ _ _ _) as [[[pg'|]| | | |] p']; exact C.
Qed.

Lemma data_read_line_same_page : forall T (d : dstate T), ds_p (snd (data_read_line d)) = ds_p d.
Proof. intros T d. unfold data_read_line. destruct (ds_page d); reflexivity. Qed.

Lemma extract_same_page : forall T h md off len (d : dstate T),
  ds_p (snd (extract_row_values c h md off len d)) = ds_p d.
Proof.
  intros T h md off len d. unfold extract_row_values. destruct (fmt_assert _ _); try reflexivity. cbv zeta.
  destruct (_ <? _); [|reflexivity]. destruct (ds_dec d) as [|t|t]; [reflexivity|..];
    (destruct (read_cells _ _ _) as [z| | | |]; try reflexivity); [destruct (rdc z t)|destruct (rle z t)]; reflexivity.
Qed.

Lemma read_line_counts : forall h md d, ready h d -> dcounts d (snd (read_line c (counted src) h md d)).
Proof.
  intros h md d R. unfold read_line. pose proof (data_next_counts h md d R) as C.
  destruct (data_next c (counted src) h md d) as [[[|]| | | |] d1]; cbn [snd] in C; try exact C.
  pose proof (data_read_line_same_page _ d1) as E. unfold dcounts in *. rewrite <- E in C.
  destruct (data_read_line d1) as [[[off len]| | | |] d2]; cbn [snd] in C; try exact C.
  pose proof (extract_same_page _ h md off len d2) as E2.
  destruct (extract_row_values c h md off len d2) as [x d3]. cbn [snd] in *. rewrite E2. exact C.
Qed.

Lemma data_skip_counts : forall h md n d, ready h d -> dcounts d (snd (data_skip c (counted src) h md n d)).
Proof.
  intros h md. induction n as [|n IH]; intros d R; cbn [data_skip]; [apply counts_refl|].
  pose proof (data_next_counts h md d R) as C. destruct (data_next_kept _ (counted src) c 0 h md d R) as (_ & L & _).
  destruct (data_next c (counted src) h md d) as [[[|]| | | |] d1]; cbn [snd] in *; try exact C.
  destruct (data_read_line_kept _ h d1 (proj2 (proj2 L))) as [L2 _].
  pose proof (data_read_line_same_page _ d1) as E. unfold dcounts in *. rewrite <- E in C.
  destruct (data_read_line d1) as [[pl| | | |] d2]; cbn [snd] in *; try exact C.
  exact (counts_trans _ _ _ _ C (IH d2 (proj2 (proj2 L2)))).
Qed.

Definition rcounts (a b : rstate (S * N)) : Prop := dcounts (rs_d a) (rs_d b).

Lemma read_row_counts : forall r, rready _ r -> rcounts r (snd (fst (read_row c (counted src) r))).
Proof.
  intros r R. unfold read_row. cbv zeta. pose proof (read_line_counts _ (rs_md r) _ R) as C.
  destruct (read_line c (counted src) (rs_h r) (rs_md r) (rs_d r)) as [[[p|]| | | |] d']; exact C.
Qed.

Lemma read_rows_counts : forall n r, rready _ r -> rcounts r (snd (fst (read_rows c (counted src) n r))).
Proof.
  induction n as [|n IH]; intros r R; cbn [read_rows]; [apply counts_refl|].
  pose proof (read_row_counts r R) as C. destruct (read_row_kept _ (counted src) c 0 r R) as [_ L].
  destruct (read_row c (counted src) r) as [[x r1] ev]. cbn [fst snd] in *.
  destruct x as [[|]| | | |]; try exact C. pose proof (IH r1 (rlater_ready _ _ _ L)) as C2.
  destruct (read_rows c (counted src) n r1) as [[y r2] ev2]. exact (counts_trans _ _ _ _ C C2).
Qed.

Lemma read_all_loop_counts : forall n r, rready _ r -> rcounts r (snd (fst (read_all_loop c (counted src) n r))).
Proof.
  induction n as [|n IH]; intros r R; cbn [read_all_loop]; [apply counts_refl|].
  pose proof (read_row_counts r R) as C. destruct (read_row_kept _ (counted src) c 0 r R) as [_ L].
  destruct (read_row c (counted src) r) as [[x r1] ev]. cbn [fst snd] in *.
  destruct x as [[|]| | | |]; try exact C. pose proof (IH r1 (rlater_ready _ _ _ L)) as C2.
  destruct (read_all_loop c (counted src) n r1) as [[y r2] ev2]. exact (counts_trans _ _ _ _ C C2).
Qed.

Lemma step_counts : forall o r, rready _ r -> rcounts r (snd (fst (step c (counted src) o r))).
Proof.
  intros o r R. destruct o; cbn [step].
  - pose proof (read_row_counts r R) as C. destruct (read_row _ _ r) as [[x r1] ev]. exact C.
  - pose proof (read_rows_counts (N.to_nat n) r R) as C. destruct (read_rows _ _ _ r) as [[x r1] ev]. exact C.
  - unfold read_all.
    pose proof (read_all_loop_counts (Datatypes.S (N.to_nat (md_row_count (rs_md r) - ds_row (rs_d r)))) r R) as C.
    destruct (read_all_loop _ _ _ r) as [[x r1] ev]. exact C.
  - unfold skip. pose proof (data_skip_counts _ (rs_md r) (N.to_nat n) _ R) as C.
    destruct (data_skip _ _ _ _ _ _) as [x d']. exact C.
  - unfold read_row_no_sink. pose proof (read_line_counts _ (rs_md r) _ R) as C.
    destruct (read_line _ _ _ _ _) as [x d']. exact C.
  - apply counts_refl.
Qed.

Lemma kexec_counts : forall st r kept, rready _ r -> rcounts r (fst (snd (kexec c (counted src) st (r, kept)))).
Proof.
  intros st r kept R. destruct st as [o| |j]; cbn [kexec].
  - pose proof (step_counts o r R) as C. destruct (step _ _ o r) as [[x r1] ev]. exact C.
  - unfold read_row_no_sink. pose proof (read_line_counts _ (rs_md r) _ R) as C.
    destruct (read_line _ _ _ _ _) as [x d']. cbn [snd] in C.
    destruct x as [[p|]| | | |]; [destruct (next_place _ _ _ _ _)|..]; exact C.
  - destruct (nth_error kept j); apply counts_refl.
Qed.

Lemma kexec_all_counts : forall p r kept, rready _ r ->
  rcounts r (fst (snd (kexec_all c (counted src) p (r, kept)))).
Proof.
  induction p as [|st p IH]; intros r kept R; cbn [kexec_all]; [apply counts_refl|].
  pose proof (kexec_counts st r kept R) as C. destruct (kexec_kept _ (counted src) c 0 st r kept R) as (_ & L & _).
  destruct (kexec c (counted src) st (r, kept)) as [x [r1 k1]]. cbn [fst snd] in *.
  pose proof (IH r1 k1 (rlater_ready _ _ _ L)) as C2.
  destruct x; try exact C;
    destruct (kexec_all c (counted src) p (r1, k1)) as [xs [r2 k2]]; exact (counts_trans _ _ _ _ C C2).
Qed.

End Counted.

Lemma more_nth : forall (a b : list place) j k, more a b -> nth_error a j = Some k -> nth_error b j = Some k.
Proof.
  intros a b j k [l ->] H. rewrite nth_error_app1; [exact H|]. apply nth_error_Some. congruence.
Qed.

Lemma kept_page : forall S c (src : source S) flt s r q tq r1 kept1 p t r2 kept2 j off,
  opened c (counted src) flt s r -> kexec_all c (counted src) q (r, []) = (tq, (r1, kept1)) ->
  kexec_all c (counted src) p (r1, kept1) = (t, (r2, kept2)) -> asked_for r2 = asked_for r1 ->
  nth_error kept1 j = Some (InPage off) ->
  fst (kexec c (counted src) (KLook j) (r2, kept2)) = fst (kexec c (counted src) (KLook j) (r1, kept1)).
Proof.
  intros S c src flt s r q tq r1 kept1 p t r2 kept2 j off O Q P A J.
  destruct (kexec_all_kept _ (counted src) c 0 q r [] (proj1 (opened_ready _ _ _ _ _ _ O))) as (_ & L1 & _).
  rewrite Q in L1. cbn [fst snd] in L1. pose proof (rlater_ready _ _ _ L1) as R1.
  pose proof (kexec_all_counts _ src c p r1 kept1 R1) as [_ C].
  destruct (kexec_all_kept _ (counted src) c 0 p r1 kept1 R1) as (_ & (_ & M & _) & K).
  rewrite P in C, M, K. cbn [fst snd] in C, M, K. unfold asked_for, source_at in A.
  cbn [kexec]. rewrite (more_nth _ _ _ _ K J), J. cbn [fst look]. rewrite M, (C A). reflexivity.
Qed.

(** ** Rows in the buffer of the decompressor *)

Lemma quiet_dec : forall S c (src : source S) st r kept, rready _ r -> extracts_none st ->
  ds_dec (rs_d (fst (snd (kexec c src st (r, kept))))) = ds_dec (rs_d r).
Proof.
  intros S c src st r kept R E. destruct st as [o| |j]; [|destruct E|].
  - destruct o; try destruct E; cbn [kexec step]; [|reflexivity].
    unfold skip. destruct (data_skip_kept _ src c 0 (rs_h r) (rs_md r) (N.to_nat n) (rs_d r) R) as (_ & _ & D).
    destruct (data_skip _ _ _ _ _ _) as [x d']. exact D.
  - cbn [kexec]. destruct (nth_error kept j); reflexivity.
Qed.

Lemma quiet_all_dec : forall S c (src : source S) p r kept, rready _ r -> Forall extracts_none p ->
  ds_dec (rs_d (fst (snd (kexec_all c src p (r, kept))))) = ds_dec (rs_d r).
Proof.
  intros S c src. induction p as [|st p IH]; intros r kept R F; cbn [kexec_all]; [reflexivity|].
  inversion F as [|? ? F1 F2]; subst.
  pose proof (quiet_dec _ c src st r kept R F1) as D. destruct (kexec_kept _ src c 0 st r kept R) as (_ & L & _).
  destruct (kexec c src st (r, kept)) as [x [r1 k1]]. cbn [fst snd] in *.
  pose proof (IH r1 k1 (rlater_ready _ _ _ L) F2) as D2.
  destruct x; try exact D; destruct (kexec_all c src p (r1, k1)) as [xs [r2 k2]]; cbn [fst snd] in *; congruence.
Qed.

Lemma kept_row : forall S c (src : source S) flt s r q tq r1 kept1 p t r2 kept2 j,
  opened c src flt s r -> kexec_all c src q (r, []) = (tq, (r1, kept1)) ->
  kexec_all c src p (r1, kept1) = (t, (r2, kept2)) -> Forall extracts_none p ->
  nth_error kept1 j = Some InRow ->
  fst (kexec c src (KLook j) (r2, kept2)) = fst (kexec c src (KLook j) (r1, kept1)).
Proof.
  intros S c src flt s r q tq r1 kept1 p t r2 kept2 j O Q P F J.
  destruct (kexec_all_kept _ src c 0 q r [] (proj1 (opened_ready _ _ _ _ _ _ O))) as (_ & L1 & _).
  rewrite Q in L1. cbn [fst snd] in L1. pose proof (rlater_ready _ _ _ L1) as R1.
  pose proof (quiet_all_dec _ c src p r1 kept1 R1 F) as D.
  destruct (kexec_all_kept _ src c 0 p r1 kept1 R1) as (_ & (_ & M & _) & K).
  rewrite P in D, M, K. cbn [fst snd] in D, M, K.
  cbn [kexec]. rewrite (more_nth _ _ _ _ K J), J. cbn [fst]. rewrite !look_row, M, D. reflexivity.
Qed.

Lemma kept_overwritten : forall S c (src : source S) r kept b r' kept' j,
  kexec c src KKeep (r, kept) = (Ok (KRow b), (r', kept')) ->
  nth_error kept' (length kept) = Some InRow -> nth_error kept j = Some InRow ->
  kexec c src (KLook j) (r', kept') = (Ok (KRow b), (r', kept')).
Proof.
  intros S c src r kept b r' kept' j H K I.
  destruct (keep_row _ _ _ _ _ _ _ H) as (k & r1 & E & M & B & _). injection E as <- ->.
  rewrite nth_last in K. injection K as ->. cbn [kexec].
  rewrite nth_error_app1 by (apply nth_error_Some; congruence). rewrite I, M, B. reflexivity.
Qed.
