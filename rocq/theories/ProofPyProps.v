(** The properties as Python objects, and that the sink classes keep them. *)
From Verif Require Import Base Lemmas Types DateTime Buffer Page Column Header Metadata Decomp Data Reader Drive
  Sinks Utf8 Callbacks PyObjects Python PyProps SpecDrive SpecTime SpecSinks SpecCells SpecUtf8 SpecPyObjects SpecPyProps
  ProofUtf8 ProofTime ProofCalendar ProofPyObjects ProofPython ProofRProps.
Local Open Scope N_scope.

Lemma micros_of : forall h mi s us, in_day h mi s us -> (0 <= micros h mi s us < day_us)%Z.
Proof. unfold in_day, micros, day_us. intros. lia. Qed.

Lemma day_unique : forall n t t', days_from_1960 n t -> days_from_1960 n t' -> supported t -> supported t' -> t = t'.
Proof.
  intros n t t' D D' Sp Sp'. assert (Z0 : (0 <= 0 < day_us)%Z) by (unfold day_us; lia).
  destruct (ticks_date n t 0 D Sp Z0) as (dn & _ & E1 & E2 & _).
  destruct (ticks_date n t' 0 D' Sp' Z0) as (dn' & _ & E1' & E2' & _).
  assert (dn = dn') by lia. subst dn'. congruence.
Qed.

Lemma shown_inv : forall t x, shown_as (VDateTime t) x ->
  (t = NotADateTime /\ x = PvNone)
  \/ exists n y m d h mi s us, days_from_1960 n (y, m, d) /\ supported (y, m, d) /\ in_day h mi s us
     /\ t = PTicks (jdn_1960 * day_us + n * day_us + micros h mi s us) /\ x = PvDateTime y m d h mi s us.
Proof.
  intros t x H. remember (VDateTime t) as v eqn:E. destruct H as [| | | | | |n y m d h mi s us D Sp I| |]; try discriminate E.
  - left. split; [congruence|reflexivity].
  - right. exists n, y, m, d, h, mi, s, us. split; [exact D|]. split; [exact Sp|]. split; [exact I|].
    split; [congruence|reflexivity].
Qed.

Lemma shown_moment : forall t x, shown_as (VDateTime t) x -> py_of_datetime t = Ok x.
Proof.
  intros t x H. apply shown_inv in H. destruct H as [[-> ->]|(n & y & m & d & h & mi & s & us & D & Sp & I & E & ->)];
    [reflexivity|].
  pose proof (micros_of _ _ _ _ I) as B.
  destruct (calendar_shown (VDateTime t)) as (x & V & Sh).
  { rewrite E. exists n, (y, m, d), (micros h mi s us). auto. }
  change (py_of_datetime t = Ok x) in V. rewrite V. clear V.
  apply shown_inv in Sh. destruct Sh as [[-> ->]|(n' & y' & m' & d' & h' & mi' & s' & us' & D' & Sp' & I' & E' & ->)];
    [discriminate E|].
  rewrite E in E'. assert (EN : (jdn_1960 * day_us + n * day_us + micros h mi s us
    = jdn_1960 * day_us + n' * day_us + micros h' mi' s' us')%Z) by congruence. clear E E'.
  pose proof (micros_of _ _ _ _ I') as B'. generalize dependent jdn_1960. intros j EN.
  assert (n' = n) by (unfold day_us in *; lia). subst n'.
  assert (EM : micros h' mi' s' us' = micros h mi s us) by lia.
  destruct (micros_inj _ _ _ _ _ _ _ _ I' I EM) as (-> & -> & -> & ->).
  pose proof (day_unique n _ _ D' D Sp' Sp) as ED. congruence.
Qed.

Lemma str_has : forall (get : bytes -> res pyattr) name t, get name = attr_str t -> has_str get name t.
Proof.
  intros get name t E. unfold has_str. rewrite E. unfold attr_str. pose proof (utf8_ok_text t) as U.
  destruct (utf8_ok t).
  - split; [reflexivity|]. intros N. exfalso. apply N, U. reflexivity.
  - split; [|reflexivity]. intros T. apply U in T. discriminate.
Qed.

Lemma moment_has : forall (get : bytes -> res pyattr) name t, get name = (v <- py_of_datetime t ;; Ok (PaValue v)) ->
  has_moment get name t.
Proof.
  intros get name t E. split.
  - intros x Sh. rewrite E, (shown_moment t x Sh). reflexivity.
  - intros n day us D Y NS U ET. pose proof (bad_year_full n day us D Y NS U) as B. rewrite <- ET in B.
    change (py_of_datetime t = Exn E_bad_year) in B. rewrite E, B. reflexivity.
Qed.

Lemma attrs_say : forall h md, py_properties_say h md (py_attr h md).
Proof.
  intros h md.
  split; [exists (py_format (h_format h)); split; [destruct (h_format h); cbn; tauto|reflexivity]|].
  split; [exists (py_endian (h_endianness h)); split; [destruct (h_endianness h); cbn; tauto|reflexivity]|].
  split; [exists (py_platform (h_platform h)); split; [destruct (h_platform h); cbn; tauto|reflexivity]|].
  split; [exists (py_compression (md_compression md)); split; [destruct (md_compression md); cbn; tauto|reflexivity]|].
  split; [apply moment_has; reflexivity|]. split; [apply moment_has; reflexivity|].
  split; [repeat (constructor; [apply str_has; reflexivity|]); constructor|].
  split; [repeat (constructor; [reflexivity|]); constructor|].
  split; [reflexivity|]. apply Forall_forall. intros c _.
  split; [apply str_has; reflexivity|]. split; [apply str_has; reflexivity|]. split; [apply str_has; reflexivity|].
  exists (py_type (c_type c)). split; [destruct (c_type c); cbn; tauto|reflexivity].
Qed.

Lemma find_attr_not : forall l name, ~ In name (map fst l) -> find_attr l name = Exn E_attribute_error.
Proof.
  induction l as [|[k x] l IH]; intros name N; [reflexivity|]. cbn [find_attr].
  destruct (bytes_eqb k name) eqn:E; [|apply IH; intros I; apply N; right; exact I].
  exfalso. apply N. left. apply bytes_eqb_true; exact E.
Qed.

Lemma no_other : forall h md name, ~ In name property_names -> py_attr h md name = Exn E_attribute_error.
Proof.
  intros h md name N. apply find_attr_not. intros I. apply N. cbn [map fst In] in I. unfold property_names.
  cbn [In]. tauto.
Qed.

(** ** What the classes keep *)

Definition kept_attr (st : pyst py_object) : option (header * metadata) := po_properties (pt_obj st).

Lemma method_keeps : forall cls q st, (forall h md, q <> PyProps h md) ->
  kept_attr (snd (py_method (py_methods cls) q st)) = kept_attr st.
Proof.
  intros cls q st NP. unfold py_method, kept_attr.
  assert (M : po_properties (snd (py_methods cls q (pt_obj st))) = po_properties (pt_obj st)).
  { destruct q as [h md|[]]; [exfalso; apply (NP h md); reflexivity| | |]; destruct cls; reflexivity. }
  destruct (pt_err st); [reflexivity|]. destruct (py_methods cls q (pt_obj st)) as [y o']. cbn [snd] in M.
  destruct y as [[]| | | |]; cbn; try exact M; try reflexivity.
Qed.

Lemma py_class_keeps : forall cls ev st, (forall h md, ev <> EvProps h md) ->
  kept_attr (snd (class_sink cls ev st)) = kept_attr st.
Proof.
  intros cls ev st NP. rewrite class_kind.
  assert (M : forall st q, (forall h md, q <> PyProps h md) ->
    kept_attr (snd (py_method (py_methods cls) q st)) = kept_attr st) by (intros; apply method_keeps; assumption).
  assert (DM : forall st q, (forall h md, q <> PyProps h md) ->
    kept_attr (snd (dict_method (py_methods cls) q st)) = kept_attr st).
  { intros s q Q. unfold dict_method. destruct (pt_err s); [reflexivity|].
    destruct (dict_ready _ _) as [[]| | | |]; try reflexivity. apply M. exact Q. }
  assert (FL : forall st, kept_attr (snd (cb_flush (py_methods cls) st)) = kept_attr st).
  { intros s. unfold cb_flush. destruct (_ =? _); [reflexivity|].
    match goal with |- context[dict_method ?a ?q s] => specialize (DM s q ltac:(discriminate));
      destruct (dict_method a q s) as [y s1] end. destruct y as [[]| | | |]; exact DM. }
  destruct ev as [h md|i p|]; [exfalso; apply (NP h md); reflexivity| |]; destruct cls; cbn [sink_of row_sink chunk_sink data_sink].
  - destruct (mapM _ _) as [vs| | | |]; try reflexivity. apply M. discriminate.
  - unfold cb_push. destruct (mapM _ _) as [vs| | | |]; try reflexivity. destruct (_ =? _); [|reflexivity].
    rewrite FL. reflexivity.
  - unfold cb_push. destruct (mapM _ _) as [vs| | | |]; try reflexivity. destruct (_ =? _); reflexivity.
  - reflexivity.
  - rewrite FL. reflexivity.
  - unfold cb_set_data. destruct (_ =? _); [reflexivity|].
    match goal with |- context[dict_method ?a ?q ?s] => specialize (DM s q ltac:(discriminate));
      destruct (dict_method a q s) as [y s1] end. destruct y as [[]| | | |]; exact DM.
Qed.

Lemma settle_keeps : forall A (x : res A) (st : pyst py_object), kept_attr (snd (settle x st)) = kept_attr st.
Proof. intros A x st. unfold settle. destruct x; [destruct (pt_err st)| | | |]; reflexivity. Qed.

(** The Reader keeps its header and its metadata. *)
Lemma drive_same : forall S A c (src : source S) (k : sink A) o r a,
  let r' := snd (fst (fst (drive_step c src k o r a))) in rs_h r' = rs_h r /\ rs_md r' = rs_md r.
Proof.
  intros S A c src k.
  set (same := fun r' r : rstate S => rs_h r' = rs_h r /\ rs_md r' = rs_md r).
  assert (T : forall r1 r2 r3, same r1 r2 -> same r2 r3 -> same r1 r3)
    by (intros r1 r2 r3 [] []; split; congruence).
  assert (ROW : forall r a, same (snd (fst (fst (drive_row c src k r a)))) r).
  { intros r a. unfold drive_row. destruct (read_line _ _ _ _ _) as [[[p|]| | | |] d]; cbn [fst snd];
      try (split; reflexivity); destruct (k _ a) as [y a']; split; reflexivity. }
  assert (ROWS : forall n r a, same (snd (fst (fst (drive_rows c src k n r a)))) r).
  { induction n as [|n IH]; intros r a; [split; reflexivity|]. cbn [drive_rows]. specialize (ROW r a).
    destruct (drive_row c src k r a) as [[[x r1] a1] ev]. cbn [fst snd] in ROW.
    destruct x as [[]| | | |]; cbn [fst snd]; try exact ROW.
    specialize (IH r1 a1). destruct (drive_rows c src k n r1 a1) as [[[y r2] a2] ev2]. exact (T _ _ _ IH ROW). }
  assert (ALL : forall n r a, same (snd (fst (fst (drive_all_loop c src k n r a)))) r).
  { induction n as [|n IH]; intros r a; [split; reflexivity|]. cbn [drive_all_loop]. specialize (ROW r a).
    destruct (drive_row c src k r a) as [[[x r1] a1] ev]. cbn [fst snd] in ROW.
    destruct x as [[]| | | |]; cbn [fst snd]; try exact ROW.
    specialize (IH r1 a1). destruct (drive_all_loop c src k n r1 a1) as [[[y r2] a2] ev2]. exact (T _ _ _ IH ROW). }
  intros o r a. cbv zeta. destruct o; cbn [drive_step].
  - specialize (ROW r a). destruct (drive_row c src k r a) as [[[x r1] a1] ev]. exact ROW.
  - specialize (ROWS (N.to_nat n) r a). destruct (drive_rows c src k (N.to_nat n) r a) as [[[x r1] a1] ev]. exact ROWS.
  - unfold drive_all. match goal with |- context[drive_all_loop _ _ _ ?m _ _] => specialize (ALL m r a);
      destruct (drive_all_loop c src k m r a) as [[[x r1] a1] ev] end. exact ALL.
  - unfold drive_skip. destruct (data_skip _ _ _ _ _ _) as [[[]| | | |] d]; try (split; reflexivity).
    destruct (k EvEnd a) as [y a']. split; reflexivity.
  - unfold read_row_no_sink. destruct (read_line _ _ _ _ _) as [x d]. destruct x as [[]| | | |]; split; reflexivity.
  - unfold drive_end. destruct (k EvEnd a) as [y a']. split; reflexivity.
Qed.

(** The sink object has these properties, and so has the Reader while there is one. *)
Definition props_of {S} (h : header) (md : metadata) (p : program S) : Prop :=
  kept_attr (pg_st p) = Some (h, md)
  /\ match pg_reader p with Some r => rs_h r = h /\ rs_md r = md | None => True end.

Lemma flush_props : forall S cls h md (p : program S), props_of h md p -> props_of h md (snd (py_flush_sink cls p)).
Proof.
  intros S cls h md p [K R]. unfold py_flush_sink. destruct (pt_cpp (pg_st p)); [|split; assumption].
  destruct (pg_reader p) as [r|] eqn:PR; [|split; [exact K|cbn [snd]; try rewrite PR; exact Logic.I]].
  pose proof (py_class_keeps cls EvEnd (pg_st p) ltac:(discriminate)) as C.
  destruct (class_sink cls EvEnd (pg_st p)) as [x st]. cbn [snd] in C.
  pose proof (settle_keeps _ x st) as Se. destruct (settle x st) as [y st']. cbn [snd] in *.
  split; [cbn; congruence|exact R].
Qed.

Lemma act_props : forall S c (src : source S) cls h md p a, props_of h md p -> props_of h md (py_act c src cls p a).
Proof.
  intros S c src cls h md p a HP. destruct a as [o| | |]; cbn [py_act].
  - destruct HP as [K R]. unfold py_do. destruct (pg_reader p) as [r|] eqn:PR; [|split; [exact K|cbn [snd]; try rewrite PR; exact Logic.I]].
    pose proof (drive_keeps _ _ c src (class_sink cls) _ kept_attr
      ltac:(intros; apply py_class_keeps; discriminate) ltac:(intros; apply py_class_keeps; discriminate) o r (pg_st p)) as D.
    pose proof (drive_same _ _ c src (class_sink cls) o r (pg_st p)) as D2. cbv zeta in D2.
    destruct (drive_step c src (class_sink cls) o r (pg_st p)) as [[[x r'] st] ev]. cbn [fst snd] in D, D2.
    pose proof (settle_keeps _ x st) as Se. destruct (settle x st) as [y st']. cbn [snd] in *.
    split; cbn [pg_st pg_reader]; [congruence|]. destruct D2, R. split; congruence.
  - apply flush_props. exact HP.
  - unfold py_df. destruct (po_df (pt_obj (pg_st p))); [exact HP|].
    pose proof (flush_props _ cls h md p HP) as F. destruct (py_flush_sink cls p) as [x p1]. cbn [snd] in F.
    destruct x as [[]| | | |]; try exact F. destruct cls; [| |exact F].
    + destruct (frame_of_records _ _); exact F.
    + destruct (concat_frames _); exact F.
  - destruct HP as [K R]. split; [exact K|exact Logic.I].
Qed.

Lemma opened_props : forall S c (src : source S) cls size flt s p, py_open c src cls size flt s = (Ok tt, p) ->
  exists r ev, open_reader c src (Some flt) s = Ok (r, ev) /\ props_of (rs_h r) (rs_md r) p.
Proof.
  intros S c src cls size flt s p H. unfold py_open in H.
  match type of H with context[drive_open _ _ _ _ _ ?s0] => remember s0 as st0 eqn:E0 end.
  rewrite drive_open_spec in H. destruct (open_reader c src (Some flt) s) as [[r ev]| | | |] eqn:O;
    try (cbn in H; discriminate H).
  exists r, ev. split; [reflexivity|]. cbn zeta in H.
  assert (K : kept_attr (snd (class_sink cls (EvProps (rs_h r) (rs_md r)) st0)) = Some (rs_h r, rs_md r)).
  { rewrite class_kind. subst st0. destruct cls; cbn [sink_of row_sink chunk_sink data_sink]; unfold cb_props, py_method;
      cbn [py_methods set_cpp with_chunk pt_err pt_obj];
      destruct (named_in_utf8 _); reflexivity. }
  destruct (class_sink cls (EvProps (rs_h r) (rs_md r)) st0) as [y st]. cbn [fst snd] in H, K.
  match type of H with context[settle ?x ?z] => pose proof (settle_keeps _ x z) as Se; destruct (settle x z) as [w st'] eqn:ES end.
  cbn [snd] in Se. destruct w as [r2| | | |]; try discriminate H. injection H as <-. cbn [rmap].
  split; [cbn; congruence|]. cbn [pg_reader]. unfold settle in ES.
  destruct y as [[]| | | |]; cbn [rmap bind] in ES; [destruct (pt_err st)| | | |]; try discriminate ES.
  injection ES as <- <-. split; reflexivity.
Qed.

Lemma props_kept : forall S c (src : source S) cls size flt s p0 acts, py_open c src cls size flt s = (Ok tt, p0) ->
  exists r ev, open_reader c src (Some flt) s = Ok (r, ev)
    /\ let p := fold_left (py_act c src cls) acts p0 in
       (exists x, py_sink_properties p = Some x /\ py_properties_say (rs_h r) (rs_md r) (py_get p x))
       /\ (forall x, py_reader_properties p = Ok x -> py_properties_say (rs_h r) (rs_md r) (py_get p x))
       /\ (~ In ActDrop acts -> exists x, py_reader_properties p = Ok x).
Proof.
  intros S c src cls size flt s p0 acts H. destruct (opened_props _ _ _ _ _ _ _ _ H) as (r & ev & O & P0).
  exists r, ev. split; [exact O|]. cbv zeta.
  assert (P : props_of (rs_h r) (rs_md r) (fold_left (py_act c src cls) acts p0)).
  { clear H. revert p0 P0. induction acts as [|a acts IH]; intros p0 P0; [exact P0|]. cbn [fold_left]. apply IH.
    apply act_props. exact P0. }
  assert (HELD : ~ In ActDrop acts -> pg_reader (fold_left (py_act c src cls) acts p0) <> None).
  { assert (H0 : pg_reader p0 <> None).
    { unfold py_open in H. destruct (drive_open _ _ _ _ _ _) as [[x st] ev']. destruct (settle x st) as [y st'].
      destruct y; cbn in H; try discriminate H. injection H as <-. discriminate. }
    clear H P0 P. revert p0 H0. induction acts as [|a acts IH]; intros p0 H0 ND; [exact H0|]. cbn [fold_left]. apply IH.
    - assert (F : pg_reader (snd (py_flush_sink cls p0)) <> None).
      { unfold py_flush_sink. destruct (pt_cpp _); [|exact H0]. destruct (pg_reader p0); [|congruence].
        destruct (class_sink _ _ _) as [x st]. destruct (settle x st). discriminate. }
      destruct a as [o| | |]; cbn [py_act].
      + unfold py_do. destruct (pg_reader p0) as [r0|]; [|congruence].
        destruct (drive_step _ _ _ _ _ _) as [[[x r'] st] ev']. destruct (settle x st). discriminate.
      + exact F.
      + unfold py_df. destruct (po_df _); [exact H0|]. destruct (py_flush_sink cls p0) as [x p1]. cbn [snd] in F.
        destruct x as [[]| | | |]; try exact F. destruct cls; [| |exact F].
        * destruct (frame_of_records _ _); exact F.
        * destruct (concat_frames _); exact F.
      + exfalso. apply ND. left. reflexivity.
    - intros I. apply ND. right. exact I. }
  destruct P as [K R]. unfold kept_attr in K. split; [|split].
  - exists (PpShared (rs_h r) (rs_md r)). unfold py_sink_properties. rewrite K. split; [reflexivity|]. apply attrs_say.
  - intros x E. unfold py_reader_properties in E. destruct (pg_reader _) as [r'|] eqn:PR; [|discriminate].
    injection E as <-. unfold py_get. rewrite PR. destruct R as [-> ->]. apply attrs_say.
  - intros ND. specialize (HELD ND). unfold py_reader_properties. destruct (pg_reader _); [|congruence].
    eexists. reflexivity.
Qed.

(** After the Reader is gone. *)
Lemma props_gone : forall S (p : program S) x name, py_reader_properties p = Ok x ->
  py_get (py_drop p) x name = Undef UB_lifetime.
Proof.
  intros S p x name H. unfold py_reader_properties in H. destruct (pg_reader p); [|discriminate].
  injection H as <-. reflexivity.
Qed.

(** References to None. *)
Lemma asked_none : forall t, none_asked t = if match t with NotADateTime => true | _ => false end then (-1)%Z else 0%Z.
Proof.
  intros t. unfold none_asked. destruct t as [|n]; [reflexivity|].
  destruct (py_of_datetime (PTicks n)) as [[]| | | |] eqn:E; try reflexivity. exfalso.
  unfold py_of_datetime in E. destruct (ptime_date (PTicks n)); try discriminate. cbn [bind] in E.
  destruct (date_ymd _) as [[[y m] d]| | | |]; try discriminate. cbn [bind] in E. destruct (_ && _); discriminate.
Qed.

Lemma none_asked_stop : forall n count, (0 < count)%Z ->
  none_steps count (repeat (none_asked NotADateTime) n)
  = if (Z.of_nat n <? count)%Z then Ok (count - Z.of_nat n)%Z else Abort.
Proof.
  change (none_asked NotADateTime) with (-1)%Z. induction n as [|n IH]; intros count C.
  - cbn. destruct (0 <? count)%Z eqn:E; [f_equal; lia|lia].
  - cbn [repeat none_steps]. destruct (count + -1 <=? 0)%Z eqn:E.
    + destruct (Z.of_nat (Datatypes.S n) <? count)%Z eqn:E2; [lia|reflexivity].
    + rewrite IH by lia. destruct (Z.of_nat n <? count + -1)%Z eqn:E1, (Z.of_nat (Datatypes.S n) <? count)%Z eqn:E2; try lia;
        [f_equal; lia|reflexivity].
Qed.

Lemma none_asked_kept : forall n u count, (0 < count)%Z -> none_steps count (repeat (none_asked (PTicks u)) n) = Ok count.
Proof.
  intros n u count C. rewrite asked_none. induction n as [|n IH]; [reflexivity|]. cbn [repeat none_steps].
  destruct (count + 0 <=? 0)%Z eqn:E; [lia|]. rewrite Z.add_0_r. exact IH.
Qed.
