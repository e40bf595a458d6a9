(** Proofs about pages of an unknown type. *)
From Coq Require Import Lia ZArith.
From Verif Require Import Base Types Buffer Page Column Header Metadata Decomp Data Reader
  Lemmas SpecValues ProofValues SpecBuffer ProofBuffer SpecHeader ProofHeader SpecReader ProofMetaInv ProofReader
  SpecPages ProofPages ProofOpen SpecAsk ProofAsk ProofRows ProofFile SpecNamed ProofNamed ProofOrder ProofPacked ProofSource
  SpecForeign.
Local Open Scope N_scope.

Section Pages.
Variables (c : cfg) (e : endian) (f : format) (plen : N).
Hypothesis P0 : plen < 2 ^ 63.
Hypothesis P1 : page_bit_offset f + 6 <= plen.

Let at_ (rest : bytes) b h : pstate fstate := PState (FState rest false false) b h.

(** What a page which is there does to the buffer. *)
Definition landed (b : mbuf) (pg : bytes) (b2 : mbuf) (hd : page_header) : Prop :=
  exists b1, resize c b plen = Ok b1 /\ msize b1 = plen /\ lenN pg <= lenN (mem b1)
  /\ b2 = MBuf (map Some pg ++ skipn (length pg) (mem b1)) plen
  /\ get_page_header e f b2 = Ok hd.

Lemma resize_msize : forall b n b1, resize c b n = Ok b1 -> msize b1 = n.
Proof.
  intros b n b1 H. unfold resize in H. destruct (_ <? _); [|injection H as <-; reflexivity].
  binv H. binv H. injection H as <-. reflexivity.
Qed.

Lemma add_plen : 0 +! plen = plen.
Proof. rewrite add64_small; [apply N.add_0_l|]. unfold W64. lia. Qed.

Lemma source_page : forall pg rest, lenN pg = plen ->
  src_read file_source (FState (pg ++ rest) false false) plen = (FState rest false false, pg, true).
Proof.
  intros pg rest L. cbn [src_read file_source]. unfold Buffer.file_read. cbn [fs_eof fs_fail fs_rest orb].
  destruct (N.leb_spec (2 ^ 63) plen); [lia|]. rewrite lenN_app.
  destruct (N.leb_spec plen (lenN pg + lenN rest)); [|lia].
  assert (Z : N.to_nat plen = length pg) by (unfold lenN in L; lia). rewrite Z.
  rewrite skipn_app, skipn_all, Nat.sub_diag, firstn_app, firstn_all, Nat.sub_diag. cbn [skipn firstn app].
  rewrite app_nil_r. reflexivity.
Qed.

Lemma read_landed : forall pg rest b h b2 hd, lenN pg = plen -> landed b pg b2 hd ->
  read_page c file_source e f plen (at_ (pg ++ rest) b h) = (Ok true, at_ rest b2 hd).
Proof.
  intros pg rest b h b2 hd L (b1 & R & M & LM & -> & G). unfold read_page, at_. cbn [ps_is ps_buf].
  cbn [src_eof file_source file_eof fs_eof]. unfold read_stream. rewrite add_plen, R, source_page by exact L.
  assert (NZ : lenN pg =? 0 = false) by (apply N.eqb_neq; lia). rewrite NZ.
  rewrite write_cells_Ok by (rewrite lenN_map; lia). unfold splice. cbn [N.to_nat firstn app].
  rewrite map_length, M, Nat.add_0_l, G. reflexivity.
Qed.

Lemma landed_read : forall pg rest b h x p', lenN pg = plen ->
  read_page c file_source e f plen (at_ (pg ++ rest) b h) = (Ok x, p') ->
  exists b2 hd, landed b pg b2 hd /\ x = true /\ p' = at_ rest b2 hd.
Proof.
  intros pg rest b h x p' L H. unfold read_page, at_ in H. cbn [ps_is ps_buf] in H.
  cbn [src_eof file_source file_eof fs_eof] in H. unfold read_stream in H.
  rewrite add_plen in H. destruct (resize c b plen) as [b1| | | |] eqn:R; try discriminate.
  rewrite source_page in H by exact L.
  assert (NZ : lenN pg =? 0 = false) by (apply N.eqb_neq; lia). rewrite NZ in H.
  unfold write_cells in H. destruct (N.leb_spec (0 + lenN (map Some pg)) (lenN (mem b1))) as [LM|]; [|discriminate].
  pose proof (resize_msize _ _ _ R) as M.
  unfold splice in H. cbn [N.to_nat firstn app] in H. rewrite map_length, M, Nat.add_0_l in H.
  destruct (get_page_header e f _) as [hd| | | |] eqn:G; try discriminate. injection H as <- <-.
  eexists _, hd. split; [|split; reflexivity]. exists b1. rewrite lenN_map in LM.
  split; [exact R|]. split; [exact M|]. split; [lia|]. split; [reflexivity|exact G].
Qed.

Lemma word_there : forall (x : bytes) (r : list cell) n off, off + 2 <= lenN x ->
  get_uint16 e (MBuf (map Some x ++ r) n) off = Ok (value_of e (field x off 2)).
Proof.
  intros x r n off L. unfold get_uint16, get_uint, get_raw. cbn [mem].
  assert (RC : read_cells (map Some x ++ r) off 2 = Ok (slice off 2 x)).
  { apply read_cells_init; [rewrite lenN_app, lenN_map; lia|]. unfold slice. unfold lenN in L.
    rewrite skipn_app, firstn_app, skipn_length, map_length.
    replace (N.to_nat 2 - (length x - N.to_nat off))%nat with 0%nat by lia. cbn [firstn]. rewrite app_nil_r.
    rewrite skipn_map, firstn_map. reflexivity. }
  rewrite RC. cbn [bind]. rewrite get_val_value, field_slice. reflexivity.
Qed.

(** Another page in front of it leaves no trace. *)
Lemma landed_after : forall b pg b2 hd x, lenN pg = plen -> lenN x = plen -> landed b pg b2 hd ->
  exists b3 hx, landed b x b3 hx /\ ph_type hx = value_of e (field x (page_bit_offset f) 2)
  /\ landed b3 pg b2 hd.
Proof.
  intros b pg b2 hd x L LX (b1 & R & M & LM & -> & G).
  eexists (MBuf (map Some x ++ skipn (length x) (mem b1)) plen), _. split; [|split].
  - exists b1. split; [exact R|]. split; [exact M|]. split; [lia|]. split; [reflexivity|].
    unfold get_page_header. rewrite !word_there by lia. cbn [bind]. reflexivity.
  - cbn [ph_type]. rewrite N.add_0_r. reflexivity.
  - exists (MBuf (map Some x ++ skipn (length x) (mem b1)) plen).
    split. { unfold resize. cbn [msize]. rewrite N.ltb_irrefl. reflexivity. }
    split; [reflexivity|]. cbn [mem]. unfold lenN in *.
    split. { rewrite app_length, map_length, skipn_length. lia. }
    split; [|exact G]. f_equal. f_equal. replace (length pg) with (length x) by lia.
    rewrite skipn_app, (skipn_all2 (map Some x)) by (rewrite map_length; lia). rewrite map_length, Nat.sub_diag. reflexivity.
Qed.

Lemma foreign_page : forall ly b hx m, ly_endian ly = e -> ly_format ly = f -> forall x, foreign ly x ->
  ph_type hx = value_of e (field x (page_bit_offset f) 2) ->
  process_page e f b hx m = Ok (m, false).
Proof.
  intros ly b hx m <- <- x F T.
  assert (E : ph_type hx = page_type ly x).
  { rewrite T. unfold page_type, page_number. rewrite N.mul_0_r, N.add_0_r.
    destruct (ly_format ly); reflexivity. }
  unfold foreign in F. rewrite <- E in F. cbn [In] in F. unfold process_page.
  assert (A : is_page_meta_mix_amd (ph_type hx) = false).
  { unfold is_page_meta_mix_amd, is_page_mix, PAGE_META_TYPE, PAGE_AMD_TYPE, PAGE_MIX_TYPE1, PAGE_MIX_TYPE2.
    repeat (apply orb_false_iff; split); apply N.eqb_neq; intros K; rewrite K in F; tauto. }
  assert (B : is_page_data_mix (ph_type hx) = false).
  { unfold is_page_data_mix, is_page_mix, PAGE_DATA_TYPE, PAGE_MIX_TYPE1, PAGE_MIX_TYPE2.
    repeat (apply orb_false_iff; split); apply N.eqb_neq; intros K; rewrite K in F; tauto. }
  rewrite A, B. reflexivity.
Qed.

Lemma loop_step : forall fuel pg rest b h b2 hd m, lenN pg = plen -> landed b pg b2 hd ->
  metadata_loop c file_source e f plen (S fuel) (at_ (pg ++ rest) b h) m
  = ('(m', stop) <- process_page e f b2 hd m ;;
     if stop : bool then Ok (at_ rest b2 hd, m')
     else metadata_loop c file_source e f plen fuel (at_ rest b2 hd) m').
Proof.
  intros fuel pg rest b h b2 hd m L K. cbn [metadata_loop]. rewrite (read_landed pg rest b h b2 hd L K). reflexivity.
Qed.

Lemma loop_first : forall fuel pg rest b h m r, lenN pg = plen ->
  metadata_loop c file_source e f plen fuel (at_ (pg ++ rest) b h) m = Ok r ->
  exists k b2 hd, fuel = S k /\ landed b pg b2 hd.
Proof.
  intros [|k] pg rest b h m r L H; [discriminate|]. cbn [metadata_loop] in H.
  destruct (read_page c file_source e f plen (at_ (pg ++ rest) b h)) as [[x| | | |] p'] eqn:R; try discriminate.
  destruct (landed_read pg rest b h x p' L R) as (b2 & hd & K & _). exists k, b2, hd. auto.
Qed.

Lemma loop_mixed : forall ly y, ly_endian ly = e -> ly_format ly = f -> ly_page_length ly = plen -> plen <= lenN y ->
  forall n l l', mixed_in ly n l l' -> Forall (fun pg => lenN pg = plen) l ->
  forall fuel b h m p' m',
  metadata_loop c file_source e f plen fuel (at_ (concat l ++ y) b h) m = Ok (p', m') ->
  lenN (fs_rest (ps_is p')) < lenN y ->
  metadata_loop c file_source e f plen (fuel + n) (at_ (concat l' ++ y) b h) m = Ok (p', m').
Proof.
  intros ly y E1 E2 E3 LY n l l' H. induction H as [|n pg l l' H IH|n x l l' LX F H IH]; intros FL fuel b h m p' m' M S.
  - rewrite Nat.add_0_r. exact M.
  - pose proof (Forall_inv FL) as L. cbn beta in L. apply Forall_inv_tail in FL. cbn [concat] in *. rewrite <- app_assoc in *.
    destruct (loop_first _ _ _ _ _ _ _ L M) as (k & b2 & hd & -> & K).
    rewrite (loop_step k pg _ b h b2 hd m L K) in M.
    cbn [Nat.add]. rewrite (loop_step _ pg _ b h b2 hd m L K).
    destruct (process_page _ _ b2 hd m) as [[m1 [|]]| | | |]; cbn [bind] in *; try discriminate.
    + exfalso. injection M as <- _. unfold at_ in S. cbn [ps_is fs_rest] in S. rewrite lenN_app in S. lia.
    + apply IH; assumption.
  - rewrite E3 in LX.
    assert (SP : exists pg rest, lenN pg = plen /\ concat l ++ y = pg ++ rest).
    { exists (firstn (N.to_nat plen) (concat l ++ y)), (skipn (N.to_nat plen) (concat l ++ y)).
      split; [|symmetry; apply firstn_skipn]. unfold lenN in *. rewrite firstn_length, app_length. lia. }
    destruct SP as (pg & rest & L & SP). rewrite SP in M.
    destruct (loop_first _ _ _ _ _ _ _ L M) as (k & b2 & hd & -> & K).
    destruct (landed_after b pg b2 hd x L LX K) as (b3 & hx & K3 & T & K2).
    cbn [concat]. rewrite <- app_assoc. rewrite Nat.add_succ_r, (loop_step _ x _ b h b3 hx m LX K3).
    rewrite (foreign_page ly b3 hx m E1 E2 x F T). cbn [bind].
    apply IH; [exact FL| |exact S]. rewrite SP.
    rewrite (loop_step k pg rest b h b2 hd m L K) in M. rewrite (loop_step k pg rest b3 hx b2 hd m L K2). exact M.
Qed.
End Pages.

Lemma fuel_header : forall S n c (src : source S) s, open_header (more_fuel n c) src s = open_header c src s.
Proof. intros S n [a b k] src s. reflexivity. Qed.
Lemma fuel_loop : forall S n c (src : source S) e f plen fuel p m,
  metadata_loop (more_fuel n c) src e f plen fuel p m = metadata_loop c src e f plen fuel p m.
Proof.
  intros S n c src e f plen. induction fuel as [|fuel IH]; intros p m; [reflexivity|]. cbn [metadata_loop].
  assert (R : read_page (more_fuel n c) src e f plen p = read_page c src e f plen p) by (destruct c; reflexivity).
  rewrite R. destruct (read_page c src e f plen p) as [[[|]| | | |] p']; try reflexivity.
  destruct (process_page _ _ _ _ _) as [[m1 [|]]| | | |]; cbn [bind]; try reflexivity. apply IH.
Qed.
Lemma fuel_columns : forall n c e flt m, create_columns (more_fuel n c) e flt m = create_columns c e flt m.
Proof. intros n [a b k] e flt m. reflexivity. Qed.
Lemma fuel_data : forall S n c h md (p : pstate S) l, read_data (more_fuel n c) h md p l = read_data c h md p l.
Proof. intros S n [a b k] h md p l. reflexivity. Qed.

Lemma header_tail : forall c front z1 z2 h s b, open_header c file_source (file_open (front ++ z1)) = Ok (h, s, b) ->
  lenN front = h_header_length h ->
  s = FState z1 false false /\ open_header c file_source (file_open (front ++ z2)) = Ok (h, FState z2 false false, b).
Proof.
  intros c front z1 z2 h s b O LF.
  assert (G : forall z s b, open_header c file_source (file_open (front ++ z)) = Ok (h, s, b) -> s = FState z false false).
  { intros z s0 b0 Q. pose proof (header_opened _ _ _ _ _ Q) as (L & M & R & T & -> & _).
    assert (HO : header_of_file (front ++ z) h) by (eapply the_header_spec; [|exact T]; lia).
    rewrite (hof_header_length _ _ HO) in LF. rewrite <- LF. unfold lenN. rewrite Nat2N.id.
    rewrite skipn_app, skipn_all, Nat.sub_diag. reflexivity. }
  pose proof (G _ _ _ O) as ->. split; [reflexivity|].
  destruct (open_header_talks _ c file_source (file_open (front ++ z1))) as (t & s' & T & A & B).
  destruct (B _ _ _ O) as [<- _].
  destruct (file_talks_same t _ _ front z1 z2 T eq_refl eq_refl (N.le_refl _)) as [s2 T2].
  pose proof (A _ _ _ _ T2) as Q. rewrite O in Q. cbn [at_source bind] in Q.
  change (FState (front ++ z2) (fs_eof (file_open (front ++ z1))) (fs_fail (file_open (front ++ z1))))
    with (file_open (front ++ z2)) in Q.
  pose proof (G _ _ _ Q) as ->. exact Q.
Qed.

Lemma foreign_read : forall c flt front l l' pg post n r ev,
  let file k := front ++ concat (k ++ pg :: post) in
  open_reader c file_source flt (file_open (file l)) = Ok (r, ev) -> readable c (file l) r ->
  let ly := layout_of (rs_h r) (rs_md r) in
  lenN front = h_header_length (rs_h r) ->
  Forall (fun q => lenN q = h_page_length (rs_h r)) (l ++ pg :: post) ->
  no_data ly l -> rows_on ly (l ++ pg :: post) <> [] -> mixed_in ly n l l' ->
  open_reader (more_fuel n c) file_source flt (file_open (file l')) = Ok (r, ev).
Proof.
  intros c flt front l l' pg post n r ev file O R ly LF LP ND NE MX.
  assert (PL : prefix (h_format (rs_h r)) + 6 <= h_page_length (rs_h r)) by (destruct R as (_ & A & _); exact A).
  assert (FP : file_pages (file l) (rs_h r) = l ++ pg :: post) by (apply file_pages_front; [exact LF|lia|exact LP]).
  assert (R0 : current_row_index (Some r) = 0).
  { destruct R as (A & _). exact (proj1 (opened_data _ c file_source flt _ r ev A O)). }
  pose proof (proj1 (Forall_app _ _ _) LP) as [LL LT].
  assert (CL : lenN (concat l) = lenN l * h_page_length (rs_h r)) by (apply concat_len; exact LL).
  assert (CT : lenN (concat (pg :: post)) = lenN (pg :: post) * h_page_length (rs_h r)) by (apply concat_len; exact LT).
  assert (ST : lenN (fs_rest (source_at r)) < lenN (concat (pg :: post))).
  { destruct (source_stands c flt (file l) r ev [] [] r O R eq_refl) as [(k & PF & SA)|[X|[X _]]].
    - rewrite FP in PF. fold ly in PF. destruct PF as (K1 & K2 & _).
      assert (K : (length l < k)%nat).
      { destruct (Nat.le_gt_cases k (length l)) as [Q|Q]; [|exact Q]. exfalso. apply K2.
        rewrite firstn_app. replace (k - length l)%nat with 0%nat by lia. cbn [firstn]. rewrite app_nil_r.
        unfold no_data in *. rewrite <- (firstn_skipn k l) in ND. apply Forall_app in ND. apply ND. }
      rewrite SA. cbn [file_open fs_rest]. unfold file, lenN. rewrite skipn_length, app_length, concat_app, app_length.
      unfold lenN in LF, CL, CT |- *. cbn [length] in CT. nia.
    - exfalso. rewrite FP in X. fold ly in X. apply NE. apply no_data_nil. exact X.
    - exfalso. rewrite FP in X. fold ly in X. rewrite R0 in X. apply NE.
      destruct (rows_on ly (l ++ pg :: post)); [reflexivity|]. unfold lenN in X. cbn [length] in X. lia. }
  pose proof (open_reader_inv _ _ _ _ _ _ _ O) as (s1 & b1 & p & m & OH & ML & CC & RD & ->).
  pose proof (open_header_plen _ _ _ _ _ OH) as PB.
  unfold file in OH. destruct (header_tail c front _ (concat (l' ++ pg :: post)) _ _ _ OH LF) as [-> OH'].
  assert (SP : source_at r = ps_is p).
  { unfold source_at. unfold read_data in RD. binv RD. destruct (m_data_subheaders m).
    - binv RD. injection RD as <-. reflexivity.
    - injection RD as <-. reflexivity. }
  rewrite SP in ST. rewrite concat_app in ML.
  assert (PF : page_bit_offset (h_format (rs_h r)) + 6 <= h_page_length (rs_h r)) by (destruct (h_format (rs_h r)); exact PL).
  apply (loop_mixed c (h_endianness (rs_h r)) (h_format (rs_h r)) (h_page_length (rs_h r)) ltac:(lia) PF ly
           (concat (pg :: post)) eq_refl eq_refl eq_refl) with (n := n) (l' := l') in ML; [|rewrite CT; unfold lenN; cbn [length]; nia|exact MX|exact LL|exact ST].
  unfold open_reader. rewrite fuel_header. unfold file. rewrite OH'. cbn [bind].
  unfold set_metadata. rewrite fuel_loop, concat_app. cbn [more_fuel page_fuel]. rewrite ML. cbn [bind].
  rewrite fuel_columns, CC. cbn [bind]. rewrite fuel_data, RD. cbn [bind]. destruct r; reflexivity.
Qed.
