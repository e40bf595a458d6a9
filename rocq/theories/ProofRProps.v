(** The properties which an R object is given, and that the sink classes keep them. *)
From Verif Require Import Base Lemmas Types Float DateTime Buffer Page Column Header Metadata Decomp Data Reader Drive
  Print Sinks Callbacks RPackage SpecDecomp SpecReader SpecDrive SpecTime SpecSinks SpecFile SpecCells SpecRPackage
  ProofFloat ProofText ProofMetaInv ProofDrive ProofPython ProofRChunks ProofRFile.
Local Open Scope N_scope.

Lemma r_text_whole : forall s, ~ In x00 s -> r_text s = s.
Proof.
  intros s H. apply (until_zero_unique s); [apply r_text_until|]. split; [exact H|left; reflexivity].
Qed.

Lemma digits_no_zero : forall w n, ~ In x00 (digits w n).
Proof.
  induction w as [|w IH]; intros n H; [exact H|]. cbn [digits] in H. destruct H as [H|H]; [|exact (IH n H)].
  pose proof (Z.mod_pos_bound (n / 10 ^ Z.of_nat w) 10 ltac:(lia)) as B.
  apply (f_equal b2n) in H. rewrite ProofUtf8.byte_value in H by lia. change (b2n x00) with 0 in H. lia.
Qed.

Lemma r_text_iso : forall day us, r_text (iso_date day ++ bs " " ++ iso_time us) = iso_date day ++ bs " " ++ iso_time us.
Proof.
  intros [[y m] d] us. apply r_text_whole. unfold iso_date, iso_time. intros H.
  repeat (apply in_app_or in H; destruct H as [H|H]);
    try (exact (digits_no_zero _ _ H)); try (cbn in H; intuition discriminate).
  destruct (_ =? _)%Z; [exact H|]. apply in_app_or in H. destruct H as [H|H]; [cbn in H; intuition discriminate|].
  exact (digits_no_zero _ _ H).
Qed.

Lemma wrap_says : forall h md q, wrap_properties h md = Ok q -> r_properties_say h md q.
Proof.
  intros h md q H. unfold wrap_properties in H.
  destruct (datetime_to_string (h_date_created h)) as [t1| | | |] eqn:D1; try discriminate. cbn [bind] in H.
  destruct (datetime_to_string (h_date_modified h)) as [t2| | | |] eqn:D2; try discriminate. cbn [bind] in H.
  injection H as <-.
  assert (T : forall t x k, r_dollar x k = Ok (wrap_text t) -> r_has_text x k t)
    by (intros t x k E; exists (r_text t); split; [apply r_text_until|exact E]).
  assert (Z : forall n x k, r_dollar x k = Ok (wrap_size n) -> n < 2 ^ 53 -> r_has_number x k n)
    by (intros n x k E L; eexists; split; [apply int_bits; lia|exact E]).
  assert (D : forall t s x k, datetime_to_string t = Ok s -> r_dollar x k = Ok (wrap_text s) -> r_has_moment x k t).
  { intros t s x k E R n dy us H1 H2 H3 ->. rewrite (datetime_string n dy us H1 H2 H3) in E.
    assert (ES : s = iso_date dy ++ bs " " ++ iso_time us) by congruence. clear E. subst s.
    rewrite R. unfold wrap_text. rewrite r_text_iso. reflexivity. }
  split; [exists (endian_word (h_endianness h)); split; [destruct (h_endianness h); cbn; tauto|apply T; reflexivity]|].
  split; [exists (platform_word (h_platform h)); split; [destruct (h_platform h); cbn; tauto|apply T; reflexivity]|].
  split; [exists (compression_word (md_compression md)); split; [destruct (md_compression md); cbn; tauto|apply T; reflexivity]|].
  split; [apply (D _ t1); [exact D1|reflexivity]|].
  split; [apply (D _ t2); [exact D2|reflexivity]|].
  split; [repeat (constructor; [apply T; reflexivity|]); constructor|].
  split; [repeat (constructor; [apply Z; reflexivity|]); constructor|].
  eexists. split; [reflexivity|]. induction (md_columns md) as [|c cs IH]; constructor; [|exact IH].
  split; [apply r_text_until|]. split; [apply T; reflexivity|]. split; [apply T; reflexivity|].
  split; [apply T; reflexivity|]. exists (type_word (c_type c)).
  split; [destruct (c_type c); cbn; tauto|apply T; reflexivity].
Qed.

(** Any object, with any of the three sinks. *)
Lemma r_object_told : forall P (o : robj P) k h md st a, dated h ->
  exists q, r_properties_say h md q
    /\ fst (r_kind_sink k o (EvProps h md) (st, a)) = fst (o (RqProps q) a)
    /\ snd (snd (r_kind_sink k o (EvProps h md) (st, a))) = snd (o (RqProps q) a).
Proof.
  intros P o k h md st a D. destruct (wrapped h md D) as [q W]. exists q. split; [apply wrap_says; exact W|].
  destruct k; cbn [r_kind_sink rrow_sink rchunk_sink rdata_sink];
    [destruct (r_alloc (r_heap st) (lenN (md_columns md))) as [ix hp]| |]; unfold rcb_props; rewrite W;
    destruct (o (RqProps q) a) as [[[]| | | |] a']; auto.
Qed.

(** What no row and no end of the data changes, no operation changes. *)
Lemma drive_keeps : forall S A c (src : source S) (k : sink A) (B : Type) (f : A -> B),
  (forall i p a, f (snd (k (EvRow i p) a)) = f a) -> (forall a, f (snd (k EvEnd a)) = f a) ->
  forall o r a, f (snd (fst (drive_step c src k o r a))) = f a.
Proof.
  intros S A c src k B f HR HE.
  assert (ROW : forall r a, f (snd (fst (drive_row c src k r a))) = f a).
  { intros r a. unfold drive_row. destruct (read_line _ _ _ _ _) as [[[p|]| | | |] d]; cbn [fst snd]; try reflexivity.
    - specialize (HR (ds_row (rs_d r)) p a). destruct (k (EvRow _ p) a) as [y a']. exact HR.
    - specialize (HE a). destruct (k EvEnd a) as [y a']. exact HE. }
  assert (ROWS : forall n r a, f (snd (fst (drive_rows c src k n r a))) = f a).
  { induction n as [|n IH]; intros r a; [reflexivity|]. cbn [drive_rows]. specialize (ROW r a).
    destruct (drive_row c src k r a) as [[[x r1] a1] ev]. cbn [fst snd] in ROW.
    destruct x as [[]| | | |]; cbn [fst snd]; try exact ROW.
    specialize (IH r1 a1). destruct (drive_rows c src k n r1 a1) as [[[y r2] a2] ev2]. cbn in *. congruence. }
  assert (ALL : forall n r a, f (snd (fst (drive_all_loop c src k n r a))) = f a).
  { induction n as [|n IH]; intros r a; [reflexivity|]. cbn [drive_all_loop]. specialize (ROW r a).
    destruct (drive_row c src k r a) as [[[x r1] a1] ev]. cbn [fst snd] in ROW.
    destruct x as [[]| | | |]; cbn [fst snd]; try exact ROW.
    specialize (IH r1 a1). destruct (drive_all_loop c src k n r1 a1) as [[[y r2] a2] ev2]. cbn in *. congruence. }
  intros o r a. destruct o; cbn [drive_step].
  - specialize (ROW r a). destruct (drive_row c src k r a) as [[[x r1] a1] ev]. exact ROW.
  - specialize (ROWS (N.to_nat n) r a). destruct (drive_rows c src k (N.to_nat n) r a) as [[[x r1] a1] ev]. exact ROWS.
  - unfold drive_all. match goal with |- context[drive_all_loop _ _ _ ?m _ _] => specialize (ALL m r a);
      destruct (drive_all_loop c src k m r a) as [[[x r1] a1] ev] end. exact ALL.
  - unfold drive_skip. destruct (data_skip _ _ _ _ _ _) as [[[]| | | |] d]; try reflexivity.
    specialize (HE a). destruct (k EvEnd a) as [y a']. exact HE.
  - destruct (read_row_no_sink c src r) as [x r']. reflexivity.
  - unfold drive_end. specialize (HE a). destruct (k EvEnd a) as [y a']. exact HE.
Qed.

Definition kept_props (st : rstate_sink * r_object) : rv * list bytes := (rob_properties (snd st), rob_columns (snd st)).

Lemma methods_keep : forall mk cls q a, (forall p, q <> RqProps p) ->
  (rob_properties (snd (r_methods mk cls q a)), rob_columns (snd (r_methods mk cls q a)))
  = (rob_properties a, rob_columns a).
Proof.
  intros mk cls q a NP. destruct q as [p|hp nm k|hp i row]; [exfalso; apply (NP p); reflexivity| |];
    destruct cls; try reflexivity; cbn [r_methods].
  - destruct (r_contents hp (rob_df a)); reflexivity.
  - destruct (r_contents hp (rob_df a)); reflexivity.
Qed.

Lemma class_keeps : forall mk cls ev st, (forall h md, ev <> EvProps h md) ->
  kept_props (snd (r_class_sink mk cls ev st)) = kept_props st.
Proof.
  intros mk cls ev [st a] NP. rewrite r_class_kind. unfold kept_props.
  assert (M : forall q, (forall p, q <> RqProps p) -> 
    (rob_properties (snd (r_methods mk cls q a)), rob_columns (snd (r_methods mk cls q a)))
    = (rob_properties a, rob_columns a))
    by (intros q; apply methods_keep).
  destruct ev as [h md|i p|]; [exfalso; apply (NP h md); reflexivity| |];
    destruct cls; cbn [r_sink_of rrow_sink rchunk_sink rdata_sink snd].
  - destruct (r_row_cells _ _ _) as [cells| | | |]; try reflexivity.
    match goal with |- context[r_methods mk RSinkByRow ?q a] => specialize (M q ltac:(discriminate));
      destruct (r_methods mk RSinkByRow q a) as [y a'] end. exact M.
  - unfold rcb_push, rcb_flush. destruct (r_base_push st i p) as [st1| | | |]; try reflexivity.
    destruct (_ =? _); [|reflexivity]. destruct (_ || _).
    { destruct (_ && _); reflexivity. }
    destruct (r_deliver _) as [st3 call].
    match goal with |- context[r_methods mk RSinkByChunk ?q a] => specialize (M q ltac:(discriminate));
      destruct (r_methods mk RSinkByChunk q a) as [y a'] end.
    destruct y as [[]| | | |]; try exact M. destruct (_ && _); exact M.
  - destruct (r_base_push st i p); reflexivity.
  - reflexivity.
  - unfold rcb_flush. destruct (_ || _); [reflexivity|]. destruct (r_deliver _) as [st3 call].
    match goal with |- context[r_methods mk RSinkByChunk ?q a] => specialize (M q ltac:(discriminate));
      destruct (r_methods mk RSinkByChunk q a) as [y a'] end.
    destruct y as [[]| | | |]; exact M.
  - destruct (_ =? _); [reflexivity|]. destruct (r_deliver _) as [st3 call].
    match goal with |- context[r_methods mk RSinkWholeData ?q a] => specialize (M q ltac:(discriminate));
      destruct (r_methods mk RSinkWholeData q a) as [y a'] end. exact M.
Qed.

Lemma r_do_keeps : forall S c (src : source S) mk cls o p x p', r_do c src mk cls o p = (x, p') ->
  kept_props (rp_st p') = kept_props (rp_st p).
Proof.
  intros S c src mk cls o p x p' H. unfold r_do in H. destruct (rp_reader p) as [r|]; [|injection H as <- <-; reflexivity].
  pose proof (drive_keeps _ _ c src (r_class_sink mk cls) _ kept_props) as K.
  specialize (K ltac:(intros; apply class_keeps; discriminate) ltac:(intros; apply class_keeps; discriminate) o r (rp_st p)).
  destruct (drive_step c src (r_class_sink mk cls) o r (rp_st p)) as [[[y r'] st] ev]. injection H as <- <-. exact K.
Qed.

(** The operations of an R program, one after the other. *)
Lemma r_doing_keeps : forall S c (src : source S) mk cls ops p,
  kept_props (rp_st (fold_left (fun p o => snd (r_do c src mk cls o p)) ops p)) = kept_props (rp_st p).
Proof.
  intros S c src mk cls ops. induction ops as [|o ops IH]; intros p; [reflexivity|]. cbn [fold_left]. rewrite IH.
  destruct (r_do c src mk cls o p) as [x p'] eqn:D. exact (r_do_keeps _ _ _ _ _ _ _ _ _ D).
Qed.

Lemma r_told : forall S c (src : source S) mk cls size flt s r ev ops, cls <> RSinkByRow ->
  open_reader c src (Some flt) s = Ok (r, ev) -> dated (rs_h r) ->
  exists p, r_open c src mk cls size flt s = (Ok tt, p)
    /\ let ob := snd (rp_st (fold_left (fun p o => snd (r_do c src mk cls o p)) ops p)) in
       r_properties_say (rs_h r) (rs_md r) (rob_properties ob) /\ rob_columns ob = [].
Proof.
  intros S c src mk cls size flt s r ev ops NR O D. destruct (wrapped _ (rs_md r) D) as [q W].
  unfold r_open. rewrite drive_open_spec, O. cbn zeta. rewrite (r_opened mk cls _ _ _ q NR W). cbn [fst snd rmap bind].
  eexists. split; [reflexivity|].
  pose proof (r_doing_keeps S c src mk cls ops) as K. unfold kept_props in K.
  match goal with |- context[fold_left _ ops ?p] => specialize (K p) end. injection K as K1 K2.
  rewrite K1, K2. cbn [rp_st snd rob_properties rob_columns]. split; [apply wrap_says; exact W|reflexivity].
Qed.
