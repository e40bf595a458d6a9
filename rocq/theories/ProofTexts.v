(** Where the texts of the columns are: lemmas. *)
From Verif Require Import Base Types DateTime Buffer Header Page Column Decomp Metadata Data Reader Lemmas SpecValues SpecHeader
  SpecDecomp SpecReader SpecPages SpecMeta SpecFile SpecRoundtrip SpecConform SpecTexts ProofHeader ProofPages ProofMeta ProofOpen
  ProofRows ProofColumns ProofConform ProofCut ProofCutAny ProofKinds.
Local Open Scope N_scope.

(** What a reference gives when only the blocks before it are known. *)
Definition found (blocks : list bytes) (x : N * (N * N * N)) : bytes :=
  if block_no (snd x) <? fst x then text_of blocks (snd x) else [].

Lemma found_more : forall blocks more x, fst x <= lenN blocks -> found (blocks ++ more) x = found blocks x.
Proof.
  intros blocks more [n [[i p] k]] L. unfold found, block_no, text_of. cbn [fst snd] in *.
  destruct (N.ltb_spec i n) as [X|X]; [|reflexivity]. rewrite nth_error_app1; [reflexivity|]. unfold lenN in L. lia.
Qed.

Lemma found_all : forall blocks r, text_of blocks r = found blocks (lenN blocks, r).
Proof.
  intros blocks [[i p] k]. unfold found, block_no, text_of. cbn [fst snd]. destruct (N.ltb_spec i (lenN blocks)) as [X|X]; [reflexivity|].
  assert (E : nth_error blocks (N.to_nat i) = None) by (apply nth_error_None; unfold lenN in X; lia). rewrite E. reflexivity.
Qed.

Lemma counted_le : forall ly refs l n, Forall (fun x => n <= fst x <= n + lenN (flat_map (blocks_of ly) l)) (counted ly refs n l).
Proof.
  intros ly refs l. induction l as [|x l IH]; intros n; cbn [counted flat_map]; [constructor|].
  rewrite lenN_app. apply Forall_app. split.
  - apply Forall_forall. intros y I1. apply in_map_iff in I1. destruct I1 as (r & <- & _). cbn [fst]. lia.
  - eapply Forall_impl; [|apply IH]. cbn beta. intros y H. lia.
Qed.

Lemma counted_app : forall ly refs a b n,
  counted ly refs n (a ++ b) = counted ly refs n a ++ counted ly refs (n + lenN (flat_map (blocks_of ly) a)) b.
Proof.
  intros ly refs a. induction a as [|x a IH]; intros b n; cbn [app counted flat_map].
  - f_equal. unfold lenN. cbn. lia.
  - rewrite IH, app_assoc, lenN_app. do 2 f_equal. lia.
Qed.

Lemma map_found_more : forall ly refs l blocks more n, n + lenN (flat_map (blocks_of ly) l) <= lenN blocks ->
  map (found (blocks ++ more)) (counted ly refs n l) = map (found blocks) (counted ly refs n l).
Proof.
  intros ly refs l blocks more n L. apply map_ext_in. intros x I1. apply found_more.
  pose proof (counted_le ly refs l n) as C. rewrite Forall_forall in C. specialize (C x I1). lia.
Qed.

(** ** Subheaders *)

Definition texts_known (ly : layout) (m m' : mstate) (l : list placed) : Prop :=
  let bs' := m_texts m ++ flat_map (blocks_of ly) l in
  let refs := fun f => map (found bs') (counted ly f (lenN (m_texts m)) l) in
  m_texts m' = bs'
  /\ m_names m' = m_names m ++ refs (name_refs ly)
  /\ m_formats m' = m_formats m ++ refs (format_refs ly)
  /\ m_labels m' = m_labels m ++ refs (label_refs ly).

Lemma known_nil : forall ly m, texts_known ly m m [].
Proof. intros ly m. unfold texts_known. cbn. rewrite !app_nil_r. auto. Qed.

Lemma known_app : forall ly m1 m2 m3 a b, texts_known ly m1 m2 a -> texts_known ly m2 m3 b -> texts_known ly m1 m3 (a ++ b).
Proof.
  intros ly m1 m2 m3 a b (A1 & A2 & A3 & A4) (B1 & B2 & B3 & B4). unfold texts_known. cbv zeta.
  rewrite A1 in B1, B2, B3, B4. rewrite A2 in B2. rewrite A3 in B3. rewrite A4 in B4.
  rewrite flat_map_app, app_assoc. split; [exact B1|].
  rewrite !counted_app, !map_app.
  rewrite !(map_found_more ly _ a (m_texts m1 ++ flat_map (blocks_of ly) a)) by (rewrite lenN_app; lia).
  rewrite lenN_app in B2, B3, B4. split; [rewrite B2, <- app_assoc; reflexivity|].
  split; [rewrite B3, <- app_assoc; reflexivity|rewrite B4, <- app_assoc; reflexivity].
Qed.

Lemma known_one : forall ly pg m s, texts_known ly m (meaning ly pg m s) [(pg, s)].
Proof.
  intros ly pg m s. unfold texts_known, meaning. cbv zeta. cbn [flat_map counted app].
  unfold blocks_of, name_refs, format_refs, label_refs. cbn [fst snd].
  destruct (kind_on ly pg s) as [[]|]; try (cbn; rewrite !app_nil_r; repeat split; reflexivity).
  - cbn [map app m_texts m_names m_formats m_labels]. rewrite !app_nil_r. repeat split; try reflexivity.
    unfold names_meaning. cbn [m_names]. f_equal. rewrite !map_map. apply map_ext. intros k. apply found_all.
  - cbn [map app]. rewrite !app_nil_r. unfold format_label_meaning. cbv zeta. cbn [m_texts m_names m_formats m_labels].
    rewrite <- !found_all. repeat split; try reflexivity. do 3 f_equal. f_equal. lia.
  - destruct (is_row ly pg m s); cbn; rewrite !app_nil_r; repeat split; reflexivity.
Qed.

Lemma known_subs : forall ly pg l m, texts_known ly m (subs_meaning ly pg m l) (map (pair pg) l).
Proof.
  intros ly pg l. induction l as [|s l IH]; intros m; cbn [subs_meaning map]; [apply known_nil|].
  change ((pg, s) :: map (pair pg) l) with ([(pg, s)] ++ map (pair pg) l).
  eapply known_app; [apply known_one|apply IH].
Qed.

(** ** Pages *)

Lemma known_pages : forall ly pages m, exists front back, all_subs ly pages = front ++ back
  /\ texts_known ly m (pages_meaning ly m pages) front.
Proof.
  intros ly pages. induction pages as [|pg l IH]; intros m.
  - exists [], []. split; [reflexivity|apply known_nil].
  - cbn [pages_meaning]. unfold all_subs. cbn [flat_map]. fold (all_subs ly l). unfold page_meaning.
    destruct (page_ends ly pg m).
    + exists (map (pair pg) (live ly pg)), (all_subs ly l). split; [reflexivity|apply known_subs].
    + destruct (IH (subs_meaning ly pg m (live ly pg))) as (front & back & E & K).
      exists (map (pair pg) (live ly pg) ++ front), back. split; [rewrite E, app_assoc; reflexivity|].
      eapply known_app; [apply known_subs|exact K].
Qed.

Lemma texts_in_front : forall ly pages,
  let m := pages_meaning ly empty_mstate pages in
  let blocks := all_blocks ly pages in
  let subs := all_subs ly pages in
  (forall i t, nth_error (m_names m) i = Some t ->
     exists x, nth_error (counted ly (name_refs ly) 0 subs) i = Some x /\ t = found blocks x)
  /\ (forall i t, nth_error (m_formats m) i = Some t ->
     exists x, nth_error (counted ly (format_refs ly) 0 subs) i = Some x /\ t = found blocks x)
  /\ (forall i t, nth_error (m_labels m) i = Some t ->
     exists x, nth_error (counted ly (label_refs ly) 0 subs) i = Some x /\ t = found blocks x).
Proof.
  intros ly pages m blocks subs. destruct (known_pages ly pages empty_mstate) as (front & back & E & K1 & K2 & K3 & K4).
  cbn [empty_mstate m_texts m_names m_formats m_labels app] in K2, K3, K4. change (lenN []) with 0 in K2, K3, K4.
  unfold all_blocks, subs in *. rewrite E.
  assert (G : forall refs l i t, l = map (found (flat_map (blocks_of ly) front)) (counted ly refs 0 front) ->
    nth_error l i = Some t ->
    exists x, nth_error (counted ly refs 0 (front ++ back)) i = Some x
              /\ t = found (flat_map (blocks_of ly) (front ++ back)) x).
  { intros refs l i t -> H. rewrite nth_error_map in H. destruct (nth_error (counted ly refs 0 front) i) as [x|] eqn:X; [|discriminate].
    injection H as <-. exists x. rewrite counted_app, nth_error_app1 by (apply nth_error_Some; congruence).
    split; [exact X|]. rewrite flat_map_app. symmetry. apply found_more.
    pose proof (counted_le ly refs front 0) as C. rewrite Forall_forall in C. specialize (C x (nth_error_In _ _ X)). lia. }
  unfold blocks, all_blocks. rewrite E. split; [intros; eapply G; eauto|]. split; intros; eapply G; eauto.
Qed.

(** ** The columns of a reader *)

Lemma column_texts : forall c flt content h s b,
  open_header c file_source (file_open content) = Ok (h, s, b) -> described c content h ->
  let ly := layout_of h empty_metadata in
  let pages := file_pages content h in
  let text := fun refs i t => exists n r, nth_error (counted ly (refs ly) 0 (all_subs ly pages)) i = Some (n, r)
                /\ t = (if block_no r <? n then text_of (all_blocks ly pages) r else []) in
  open_reader c file_source flt (file_open content) = Exn E_out_of_range
  \/ exists r cols, open_reader c file_source flt (file_open content) = Ok (r, [EvProps (rs_h r) (rs_md r)])
     /\ md_columns (rs_md r) = (match flt with Some p => filter p cols | None => cols end)
     /\ forall i col, nth_error cols i = Some col ->
          text name_refs i (c_name col) /\ text format_refs i (c_format col) /\ text label_refs i (c_label col).
Proof.
  intros c flt content h s b OH D ly pages text. destruct (open_described c flt content h s b OH D) as [D1 D2].
  fold ly in D1, D2. fold pages in D1, D2. set (m := pages_meaning ly empty_mstate pages) in *.
  assert (DE : enough_entries m \/ ~ enough_entries m).
  { unfold enough_entries. cbv zeta. lia. }
  destruct DE as [EE|EE]; [|left; apply D1; exact EE]. right.
  destruct (D2 EE) as (r & cols & OR & _ & RM & _ & CA). exists r, cols. split; [exact OR|].
  split; [rewrite RM; reflexivity|]. intros i col I1. destruct (CA i col I1) as (ty & C1 & C2 & C3 & _).
  destruct (texts_in_front ly pages) as (T1 & T2 & T3). fold m in T1, T2, T3.
  destruct (T1 _ _ C1) as ([n1 r1] & X1 & Y1). destruct (T3 _ _ C2) as ([n2 r2] & X2 & Y2).
  destruct (T2 _ _ C3) as ([n3 r3] & X3 & Y3).
  split; [exists n1, r1; split; assumption|]. split; [exists n3, r3; split; assumption|exists n2, r2; split; assumption].
Qed.

(** ** A page behind the start of the data *)

Lemma pages_in_front : forall front back n, 288 <= header_length_field front -> 0 < page_length_field front ->
  lenN front = header_length_field front + n * page_length_field front ->
  pages_in (front ++ back) = pages_in front ++ complete_pages (page_length_field front) back.
Proof.
  intros front back n H P L. assert (L0 : 288 <= lenN front) by lia.
  unfold pages_in. rewrite hlen_kept, plen_kept by exact L0. rewrite skipn_app.
  replace (N.to_nat (header_length_field front) - length front)%nat with 0%nat by (unfold lenN in *; nia).
  cbn [skipn]. rewrite (pages_joined _ P (N.to_nat n)); [reflexivity|]. unfold lenN in *. rewrite skipn_length. nia.
Qed.

Lemma late_page : forall c front pg back fields rows n,
  conforms c (front ++ back) fields rows ->
  lenN front = header_length_field front + n * page_length_field front -> 288 <= lenN front ->
  lenN pg = page_length_field front ->
  Exists (fun q => begins (full_layout (front ++ back)) q = true) (pages_in front) ->
  ~ In (page_type (base_layout front) pg) [0; 256; 512; 640] ->
  (S (length (pages_in (front ++ back))) < page_fuel c)%nat ->
  said (front ++ pg ++ back) = said (front ++ back) /\ conforms c (front ++ pg ++ back) fields rows.
Proof.
  intros c front pg back fields rows n [(HG & PP & PF & FS & GD & CS & RF & R1 & R2 & R3 & R4 & R5 & R6) RC]
    LF L0 LP EB KD FU.
  assert (HL : header_length_field front <= lenN front) by nia.
  assert (HH : 288 <= header_length_field front).
  { destruct HG as (_ & X & _). rewrite hlen_kept in X by exact L0. lia. }
  rewrite format_kept, plen_kept in PP by exact L0. rewrite plen_kept in R3 by exact L0. rewrite hlen_kept in R2 by exact L0.
  assert (P0 : 0 < page_length_field front) by lia.
  pose proof (pages_in_front front back n HH P0 LF) as PE.
  pose proof (pages_in_joined front pg back n HH P0 LF LP) as PE'.
  set (rest := complete_pages (page_length_field front) back) in *.
  pose proof (header_kept front _ L0 HL HG) as HGF.
  rewrite PE in PF, GD, CS, R4, FU.
  assert (LY : forall z, full_layout (front ++ z)
    = Layout (file_endian front) (file_format front) (page_length_field front) (md_row_length (m_md (said (front ++ z))))
        (md_row_count (m_md (said (front ++ z)))) (md_mix_page_row_count (m_md (said (front ++ z))))
        (md_compression (m_md (said (front ++ z))))).
  { intros z. unfold full_layout. rewrite endian_kept, format_kept, plen_kept by exact L0. reflexivity. }
  rewrite base_kept in PF by exact L0.
  assert (NU : ~ unended (base_layout front) empty_mstate (pages_in front)).
  { intros U.
    assert (SD : said (front ++ back) = pages_meaning (base_layout front) (said front) rest).
    { unfold said. rewrite base_kept, PE by exact L0. apply unended_app. exact U. }
    assert (G : grows (said front) (said (front ++ back))) by (rewrite SD; apply pages_grow).
    assert (SR : same_reading (base_layout front) (full_layout (front ++ back)))
      by (rewrite LY; split; reflexivity).
    assert (NB : Forall (fun q => begins (full_layout (front ++ back)) q = false) (pages_in front)).
    { apply (unended_rows (base_layout front) _ (pages_in front) empty_mstate []); auto.
      - intros T. rewrite LY. cbn [ly_compression]. destruct G as (_ & _ & _ & _ & _ & _ & _ & G & _).
        symmetry. apply G. exact T.
      - intros X. inversion X.
      - intros pre q post E F. apply (CS pre q (post ++ rest)); [|exact F]. rewrite E, <- app_assoc. reflexivity. }
    rewrite Forall_forall in NB. apply Exists_exists in EB. destruct EB as (q & I1 & X). rewrite (NB q I1) in X. discriminate. }
  assert (EN : forall more, pages_meaning (base_layout front) empty_mstate (pages_in front ++ more) = said front).
  { destruct (ended_or_not (base_layout front) (pages_in front) empty_mstate) as [E|U]; [exact E|contradiction]. }
  assert (SA : said (front ++ back) = said front).
  { unfold said. rewrite base_kept, PE by exact L0. apply EN. }
  assert (SA' : said (front ++ pg ++ back) = said front).
  { unfold said. rewrite base_kept, PE' by exact L0. apply EN. }
  assert (LA : full_layout (front ++ back) = full_layout front) by (rewrite LY, SA; reflexivity).
  assert (LA' : full_layout (front ++ pg ++ back) = full_layout front) by (rewrite LY, SA'; reflexivity).
  rewrite LA in *. set (ly := full_layout front) in *.
  assert (KD' : ~ In (page_type ly pg) [0; 256; 512; 640]) by exact KD.
  destruct (other_good ly pg KD') as [OG ON]; [change (ly_format ly) with (file_format front); lia|].
  destruct (Exists_first _ _ _ EB) as (p1 & q & p2 & PQ & F1 & BQ).
  assert (DP : forall l, data_pages ly (pages_in front ++ l)
     = ((q, first_places ly q) :: map (fun q => (q, row_places ly q)) p2) ++ map (fun q => (q, row_places ly q)) l).
  { intros l. rewrite PQ, <- app_assoc. rewrite data_pages_skip by exact F1. cbn [app data_pages]. rewrite BQ.
    rewrite map_app. reflexivity. }
  assert (ST : stored_in (front ++ pg ++ back) = stored_in (front ++ back)).
  { unfold stored_in. rewrite LA, LA', PE, PE'. fold ly. rewrite !DP. rewrite !flat_map_app. cbn [map flat_map app].
    rewrite (other_places ly pg KD'). reflexivity. }
  split; [congruence|]. split; [|rewrite SA', <- SA; exact RC].
  unfold file_part. cbv zeta. rewrite SA', LA', PE'. rewrite base_kept, format_kept, plen_kept, hlen_kept by exact L0.
  rewrite SA in FS, R5, R6. split.
  { destruct HGF as (A1 & A2 & A3 & A4). unfold header_good, has_magic in *.
    pose proof (shift1_small front L0). rewrite hlen_kept, shift2_kept, endian_kept, shift1_kept by exact L0.
    rewrite !field_kept by lia. split; [exact A1|]. split; [rewrite lenN_app; lia|]. auto. }
  split; [exact PP|]. split.
  { apply ended_fit; [exact NU|]. eapply pages_fit_prefix. exact PF. }
  split; [exact FS|]. split.
  { rewrite PQ, <- app_assoc in GD |- *. rewrite good_data_skip in GD |- * by exact F1. cbn [app good_data] in GD |- *.
    rewrite BQ in GD |- *. destruct GD as (G1 & G2 & G3). split; [exact G1|].
    apply Forall_app in G2, G3. destruct G2 as [G2 G2']. destruct G3 as [G3 G3'].
    split; apply Forall_app; auto. }
  split.
  { intros pre x post E F. rewrite PQ, <- app_assoc in E. cbn [app] in E.
    destruct (first_begin _ (begins ly) q _ (p2 ++ rest) x post pre p1 BQ F E) as [post' E'].
    apply (CS pre x post'); [|exact F]. rewrite PQ, <- app_assoc. exact E'. }
  split.
  { unfold rows_found in *. cbv zeta in *. rewrite SA', ST. rewrite SA in RF. exact RF. }
  split; [exact R1|]. split; [exact R2|]. split; [exact R3|].
  split; [rewrite app_length in *; cbn [length] in *; lia|]. split; assumption.
Qed.
