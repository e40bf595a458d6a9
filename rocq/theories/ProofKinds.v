(** Pages of other kinds: lemmas. *)
From Verif Require Import Base Types DateTime Buffer Header Page Column Decomp Metadata Data Reader Lemmas SpecValues SpecHeader
  SpecDecomp SpecReader SpecPages SpecMeta SpecFile SpecRoundtrip SpecConform ProofHeader ProofPages ProofOpen ProofRows
  ProofConform ProofCut ProofCutAny.
Local Open Scope N_scope.

(** ** The pages of a file in parts *)

Lemma field_front : forall pg back, field (pg ++ back) 0 (lenN pg) = pg.
Proof.
  intros pg back. unfold field, lenN. cbn [N.to_nat skipn]. rewrite Nat2N.id, firstn_app, firstn_all, Nat.sub_diag.
  cbn [firstn]. apply app_nil_r.
Qed.

Lemma page_front : forall plen pg back, 0 < plen -> lenN pg = plen ->
  complete_pages plen (pg ++ back) = pg :: complete_pages plen back.
Proof.
  intros plen pg back P L. rewrite complete_pages_eq by exact P.
  destruct (N.leb_spec plen (lenN (pg ++ back))) as [X|X]; [|rewrite lenN_app in X; lia].
  rewrite <- L, field_front. f_equal. f_equal. unfold lenN. rewrite Nat2N.id, skipn_app, skipn_all, Nat.sub_diag. reflexivity.
Qed.

Lemma pages_joined : forall plen, 0 < plen -> forall n x back, lenN x = N.of_nat n * plen ->
  complete_pages plen (x ++ back) = complete_pages plen x ++ complete_pages plen back.
Proof.
  intros plen P. induction n as [|n IH]; intros x back L.
  - destruct x; [|unfold lenN in L; cbn in L; lia]. cbn [app]. rewrite (complete_pages_eq plen []) by exact P.
    destruct (N.leb_spec plen (lenN (@nil byte))) as [X|X]; [unfold lenN in X; cbn in X; lia|reflexivity].
  - assert (LX : plen <= lenN x) by (rewrite L; nia).
    rewrite <- (firstn_skipn (N.to_nat plen) x), <- app_assoc.
    assert (L1 : lenN (firstn (N.to_nat plen) x) = plen) by (unfold lenN in *; rewrite firstn_length; lia).
    assert (L2 : lenN (skipn (N.to_nat plen) x) = N.of_nat n * plen) by (unfold lenN in *; rewrite skipn_length; nia).
    rewrite (page_front plen _ (skipn (N.to_nat plen) x) P L1), (page_front plen _ (skipn (N.to_nat plen) x ++ back) P L1).
    cbn [app]. f_equal. apply IH. exact L2.
Qed.

Lemma pages_in_joined : forall front pg back n, 288 <= header_length_field front -> 0 < page_length_field front ->
  lenN front = header_length_field front + n * page_length_field front -> lenN pg = page_length_field front ->
  pages_in (front ++ pg ++ back) = pages_in front ++ pg :: complete_pages (page_length_field front) back.
Proof.
  intros front pg back n H P L G. assert (L0 : 288 <= lenN front) by lia.
  unfold pages_in. rewrite hlen_kept, plen_kept by exact L0. rewrite skipn_app.
  replace (N.to_nat (header_length_field front) - length front)%nat with 0%nat by (unfold lenN in *; nia).
  cbn [skipn]. rewrite (pages_joined _ P (N.to_nat n)); [rewrite page_front by assumption; reflexivity|].
  unfold lenN in *. rewrite skipn_length. nia.
Qed.

(** ** A page of another kind *)

Lemma other_places : forall ly pg, ~ In (page_type ly pg) [0; 256; 512; 640] -> row_places ly pg = [].
Proof.
  intros ly pg K. unfold row_places, is_mix. cbn in K.
  destruct (N.eqb_spec (page_type ly pg) 0); [lia|]. destruct (N.eqb_spec (page_type ly pg) 256); [lia|].
  destruct (N.eqb_spec (page_type ly pg) 512); [lia|]. destruct (N.eqb_spec (page_type ly pg) 640); [lia|reflexivity].
Qed.

Lemma other_good : forall ly pg, ~ In (page_type ly pg) [0; 256; 512; 640] -> prefix (ly_format ly) + 6 <= lenN pg ->
  good_page ly pg /\ not_empty ly pg.
Proof.
  intros ly pg K L. pose proof (other_places ly pg K) as E. cbn in K. split.
  - split; [exact L|]. split; [rewrite E; constructor|]. intros Z. rewrite Z in K. lia.
  - intros [Z|Z]; [rewrite Z in K; lia|]. unfold is_mix in Z.
    destruct (N.eqb_spec (page_type ly pg) 512); [lia|]. destruct (N.eqb_spec (page_type ly pg) 640); [lia|discriminate Z].
Qed.

Lemma Exists_first : forall A (f : A -> bool) l, Exists (fun y => f y = true) l ->
  exists a x b, l = a ++ x :: b /\ Forall (fun y => f y = false) a /\ f x = true.
Proof.
  intros A f l E. destruct (none_or_first _ f l) as [F|H]; [|exact H].
  exfalso. rewrite Forall_forall in F. apply Exists_exists in E. destruct E as (x & I1 & X). rewrite (F x I1) in X. discriminate.
Qed.

Lemma Forall2_split : forall A B (R : A -> B -> Prop) a b c l, Forall2 R (a ++ b ++ c) l ->
  exists x y z, l = x ++ y ++ z /\ Forall2 R a x /\ Forall2 R b y /\ Forall2 R c z.
Proof.
  intros A B R a b c l F. apply Forall2_app_inv_l in F. destruct F as (x & k & F1 & F & ->).
  apply Forall2_app_inv_l in F. destruct F as (y & z & F2 & F3 & ->). exists x, y, z. auto.
Qed.

Lemma ended_fit : forall ly pages m more, ~ unended ly m pages -> pages_fit ly m pages -> pages_fit ly m (pages ++ more).
Proof.
  intros ly pages. induction pages as [|pg l IH]; intros m more U F; [elim U; exact I|]. destruct F as [F1 F2].
  cbn [app pages_fit]. split; [exact F1|]. intros E. apply IH; [|apply F2; exact E].
  intros V. apply U. split; assumption.
Qed.

Lemma first_begin : forall A (f : A -> bool) q tail tail' x post pre p1, f q = true -> Forall (fun y => f y = false) pre ->
  p1 ++ q :: tail = pre ++ x :: post -> exists post', p1 ++ q :: tail' = pre ++ x :: post'.
Proof.
  intros A f q tail tail' x post pre. induction pre as [|y pre IH]; intros p1 Q F E.
  - destruct p1 as [|z p1]; cbn [app] in *; injection E as -> E; eexists; reflexivity.
  - inversion F as [|? ? Y F']; subst. destruct p1 as [|z p1]; cbn [app] in E; injection E as -> E.
    + congruence.
    + destruct (IH p1 Q F' E) as [post' H]. exists post'. cbn [app]. rewrite H. reflexivity.
Qed.

Lemma other_kind : forall c front pg pg' back fields rows n,
  conforms c (front ++ pg ++ back) fields rows ->
  lenN front = header_length_field front + n * page_length_field front -> 288 <= lenN front ->
  lenN pg = page_length_field front -> lenN pg' = page_length_field front ->
  Exists (fun q => begins (full_layout (front ++ pg ++ back)) q = true) (pages_in front) ->
  ~ In (page_type (base_layout front) pg') [0; 256; 512; 640] ->
  length (stored_in (front ++ pg ++ back)) = length rows ->
  said (front ++ pg' ++ back) = said (front ++ pg ++ back)
  /\ exists before here after, rows = before ++ here ++ after
     /\ length here = length (row_places (full_layout (front ++ pg ++ back)) pg)
     /\ length before = length (stored_in front)
     /\ file_part row_made c (front ++ pg' ++ back) fields (before ++ after).
Proof.
  intros c front pg pg' back fields rows n [(HG & PP & PF & FS & GD & CS & RF & R1 & R2 & R3 & R4 & R5 & R6) RC]
    LF L0 LP LP' EB KD SL.
  assert (HL : header_length_field front <= lenN front) by nia.
  assert (HH : 288 <= header_length_field front).
  { destruct HG as (_ & X & _). rewrite hlen_kept in X by exact L0. lia. }
  rewrite format_kept, plen_kept in PP by exact L0. rewrite plen_kept in R3 by exact L0. rewrite hlen_kept in R2 by exact L0.
  assert (P0 : 0 < page_length_field front) by lia.
  pose proof (pages_in_joined front pg back n HH P0 LF LP) as PE.
  pose proof (pages_in_joined front pg' back n HH P0 LF LP') as PE'.
  set (rest := complete_pages (page_length_field front) back) in *.
  pose proof (header_kept front _ L0 HL HG) as HGF.
  rewrite PE in PF, GD, CS, R4.
  assert (LY : forall z, full_layout (front ++ z)
    = Layout (file_endian front) (file_format front) (page_length_field front) (md_row_length (m_md (said (front ++ z))))
        (md_row_count (m_md (said (front ++ z)))) (md_mix_page_row_count (m_md (said (front ++ z))))
        (md_compression (m_md (said (front ++ z))))).
  { intros z. unfold full_layout. rewrite endian_kept, format_kept, plen_kept by exact L0. reflexivity. }
  rewrite base_kept in PF by exact L0.
  (* the description ends in the front *)
  assert (NU : ~ unended (base_layout front) empty_mstate (pages_in front)).
  { intros U.
    assert (SD : said (front ++ pg ++ back) = pages_meaning (base_layout front) (said front) (pg :: rest)).
    { unfold said. rewrite base_kept, PE by exact L0. apply unended_app. exact U. }
    assert (G : grows (said front) (said (front ++ pg ++ back))) by (rewrite SD; apply pages_grow).
    assert (SR : same_reading (base_layout front) (full_layout (front ++ pg ++ back)))
      by (rewrite LY; split; reflexivity).
    assert (NB : Forall (fun q => begins (full_layout (front ++ pg ++ back)) q = false) (pages_in front)).
    { apply (unended_rows (base_layout front) _ (pages_in front) empty_mstate []); auto.
      - intros T. rewrite LY. cbn [ly_compression]. destruct G as (_ & _ & _ & _ & _ & _ & _ & G & _).
        symmetry. apply G. exact T.
      - intros X. inversion X.
      - intros pre q post E F. apply (CS pre q (post ++ pg :: rest)); [|exact F]. rewrite E, <- app_assoc. reflexivity. }
    rewrite Forall_forall in NB. apply Exists_exists in EB. destruct EB as (q & I1 & X). rewrite (NB q I1) in X. discriminate. }
  assert (EN : forall more, pages_meaning (base_layout front) empty_mstate (pages_in front ++ more) = said front).
  { destruct (ended_or_not (base_layout front) (pages_in front) empty_mstate) as [E|U]; [exact E|contradiction]. }
  assert (SA : said (front ++ pg ++ back) = said front).
  { unfold said. rewrite base_kept, PE by exact L0. apply EN. }
  assert (SA' : said (front ++ pg' ++ back) = said front).
  { unfold said. rewrite base_kept, PE' by exact L0. apply EN. }
  assert (LA : full_layout (front ++ pg ++ back) = full_layout front) by (rewrite LY, SA; reflexivity).
  assert (LA' : full_layout (front ++ pg' ++ back) = full_layout front) by (rewrite LY, SA'; reflexivity).
  rewrite LA in *. set (ly := full_layout front) in *.
  assert (KD' : ~ In (page_type ly pg') [0; 256; 512; 640]) by exact KD.
  destruct (other_good ly pg' KD') as [OG ON]; [change (ly_format ly) with (file_format front); lia|].
  destruct (Exists_first _ _ _ EB) as (p1 & q & p2 & PQ & F1 & BQ).
  assert (DP : forall l, data_pages ly (pages_in front ++ l)
     = ((q, first_places ly q) :: map (fun q => (q, row_places ly q)) p2) ++ map (fun q => (q, row_places ly q)) l).
  { intros l. rewrite PQ, <- app_assoc. rewrite data_pages_skip by exact F1. cbn [app data_pages]. rewrite BQ.
    rewrite map_app. reflexivity. }
  set (bytes_of := flat_map (fun x => map (fun p => field (fst x) (fst p) (snd p)) (snd x)) : list (bytes * list (N * N)) -> list bytes).
  assert (ST : stored_in (front ++ pg ++ back) = stored_in front
     ++ map (fun p => field pg (fst p) (snd p)) (row_places ly pg)
     ++ bytes_of (map (fun q => (q, row_places ly q)) rest)).
  { unfold stored_in. rewrite LA, PE, DP. rewrite <- (app_nil_r (pages_in front)) at 1. fold ly. rewrite DP.
    rewrite !flat_map_app. cbn [map flat_map app]. rewrite app_nil_r. cbn [fst snd]. reflexivity. }
  assert (ST' : stored_in (front ++ pg' ++ back) = stored_in front ++ bytes_of (map (fun q => (q, row_places ly q)) rest)).
  { unfold stored_in. rewrite LA', PE', DP. rewrite <- (app_nil_r (pages_in front)) at 1. fold ly. rewrite DP.
    rewrite !flat_map_app. cbn [map flat_map app]. rewrite (other_places ly pg' KD'). rewrite app_nil_r. reflexivity. }
  split; [congruence|].
  unfold rows_found in RF. cbv zeta in RF.
  assert (RN : N.to_nat (md_row_count (m_md (said front))) = length rows) by (rewrite SA in RC; unfold lenN in RC; lia).
  rewrite SA in RF, FS, R5, R6. rewrite RN, <- SL, firstn_all, ST in RF.
  destruct (Forall2_split _ _ _ _ _ _ _ RF) as (before & here & after & RE & X1 & X2 & X3).
  exists before, here, after. split; [exact RE|].
  assert (FL : forall A B (R : A -> B -> Prop) l k, Forall2 R l k -> length k = length l)
    by (intros A B R l k F; induction F; cbn; congruence).
  split; [rewrite (FL _ _ _ _ _ X2), map_length; reflexivity|]. split; [exact (FL _ _ _ _ _ X1)|].
  unfold file_part. cbv zeta. rewrite SA', LA', PE'. rewrite base_kept, format_kept, plen_kept, hlen_kept by exact L0.
  assert (LE : lenN (front ++ pg' ++ back) = lenN (front ++ pg ++ back)) by (rewrite !lenN_app; lia).
  split.
  { destruct HGF as (A1 & A2 & A3 & A4). unfold header_good, has_magic in *.
    pose proof (shift1_small front L0). rewrite hlen_kept, shift2_kept, endian_kept, shift1_kept by exact L0.
    rewrite !field_kept by lia. split; [exact A1|]. split; [rewrite LE, lenN_app; lia|]. auto. }
  split; [exact PP|]. split.
  { apply ended_fit; [exact NU|]. eapply pages_fit_prefix. exact PF. }
  split; [exact FS|]. split.
  { rewrite PQ, <- app_assoc in GD |- *. rewrite good_data_skip in GD |- * by exact F1. cbn [app good_data] in GD |- *.
    rewrite BQ in GD |- *. destruct GD as (G1 & G2 & G3). split; [exact G1|].
    apply Forall_app in G2, G3. destruct G2 as [G2 G2']. destruct G3 as [G3 G3'].
    inversion G2'; subst. inversion G3'; subst. split; apply Forall_app; auto. }
  split.
  { intros pre x post E F. rewrite PQ, <- app_assoc in E. cbn [app] in E.
    destruct (first_begin _ (begins ly) q _ (p2 ++ pg :: rest) x post pre p1 BQ F E) as [post' E'].
    apply (CS pre x post'); [|exact F]. rewrite PQ, <- app_assoc. exact E'. }
  split.
  { unfold rows_found. cbv zeta. rewrite SA', ST', RN. rewrite firstn_all2.
    - apply Forall2_app; assumption.
    - rewrite <- SL, ST. rewrite !app_length. lia. }
  split; [exact R1|]. split; [exact R2|]. split; [exact R3|].
  split; [rewrite app_length in *; cbn [length] in *; lia|]. split; assumption.
Qed.

(** ** What is read *)

Lemma other_kind_back : forall c flt front pg pg' back fields rows n,
  conforms c (front ++ pg ++ back) fields rows ->
  lenN front = header_length_field front + n * page_length_field front -> 288 <= lenN front ->
  lenN pg = page_length_field front -> lenN pg' = page_length_field front ->
  Exists (fun q => begins (full_layout (front ++ pg ++ back)) q = true) (pages_in front) ->
  ~ In (page_type (base_layout front) pg') [0; 256; 512; 640] ->
  length (stored_in (front ++ pg ++ back)) = length rows ->
  exists r cols before here after, rows = before ++ here ++ after
    /\ length here = length (row_places (full_layout (front ++ pg ++ back)) pg)
    /\ length before = length (stored_in front)
    /\ open_reader c file_source flt (file_open (front ++ pg' ++ back)) = Ok (r, [EvProps (rs_h r) (rs_md r)])
    /\ md_row_count (rs_md r) = lenN rows
    /\ md_columns (rs_md r) = (match flt with Some p => filter p cols | None => cols end)
    /\ Forall2 (column_for (file_endian front)) fields cols
    /\ forall ops, seen (md_row_length (rs_md r)) (fst (trace c file_source ops (Some r)))
                   = fst (cur_trace ops (0, map Ok (before ++ after))).
Proof.
  intros c flt front pg pg' back fields rows n H LF L0 LP LP' EB KD SL.
  destruct (other_kind c front pg pg' back fields rows n H LF L0 LP LP' EB KD SL)
    as (SD & before & here & after & RE & X1 & X2 & FP).
  destruct (file_back_like row_made eq c flt (front ++ pg' ++ back) fields (before ++ after))
    as (r & cols & got & OR & _ & RM & CF & LK & T); [|exact FP|].
  { intros k rl stored row LM MD. exists row. split; [apply made_reads; assumption|reflexivity]. }
  assert (E : before ++ after = got) by (clear -LK; induction LK; congruence). subst got.
  exists r, cols, before, here, after. split; [exact RE|]. split; [exact X1|]. split; [exact X2|]. split; [exact OR|].
  rewrite RM. rewrite endian_kept in CF by exact L0.
  split; [cbn [with_columns md_row_count]; rewrite SD; symmetry; apply (proj2 H)|]. split; [reflexivity|]. split; [exact CF|].
  intros ops. apply (proj1 (T ops)).
Qed.
