From Verif Require Import Base Lemmas Types Buffer Page Column Header Metadata Decomp Data Reader Drive
  Sinks Callbacks PyObjects Python PyAgain SpecPython SpecAgain ProofReader ProofDrive ProofPython.
Local Open Scope N_scope.

(** ** The reader with two sinks which answer alike *)

Section Alike.
  Variables (A B : Type) (k : sink A) (k' : sink B) (R : A -> B -> Prop).
  Hypothesis K : forall ev a b, R a b -> fst (k ev a) = fst (k' ev b) /\ R (snd (k ev a)) (snd (k' ev b)).

  Definition alike {S X} (u : X * rstate S * A * list event) (v : X * rstate S * B * list event) : Prop :=
    fst (fst (fst u)) = fst (fst (fst v)) /\ snd (fst (fst u)) = snd (fst (fst v)) /\ R (snd (fst u)) (snd (fst v)).

  Lemma row_alike : forall S c (src : source S) r a b, R a b ->
    alike (drive_row c src k r a) (drive_row c src k' r b).
  Proof.
    intros S c src r a b H. unfold drive_row, alike.
    destruct (read_line c src (rs_h r) (rs_md r) (rs_d r)) as [[[p|]|ex| |u|] d'].
    - destruct (K (EvRow (ds_row (rs_d r)) p) a b H) as [E1 E2]. destruct k as [y a'], k' as [y' b'].
      cbn in *. subst. auto.
    - destruct (K EvEnd a b H) as [E1 E2]. destruct k as [y a'], k' as [y' b']. cbn in *. subst. auto.
    - cbn. auto.
    - cbn. auto.
    - cbn. auto.
    - cbn. auto.
  Qed.

  Lemma rows_alike : forall S c (src : source S) n r a b, R a b ->
    alike (drive_rows c src k n r a) (drive_rows c src k' n r b).
  Proof.
    induction n as [|n IH]; intros r a b H; [unfold alike; cbn; auto|]. cbn [drive_rows].
    pose proof (row_alike S c src r a b H) as E. unfold alike in E.
    destruct (drive_row c src k r a) as [[[x r1] a1] ev], (drive_row c src k' r b) as [[[x' r1'] b1] ev'].
    cbn in E. destruct E as (<- & <- & E). destruct x as [[|]|ex| |u|]; try (unfold alike; cbn; auto).
    specialize (IH r1 a1 b1 E). unfold alike in *.
    destruct (drive_rows c src k n r1 a1) as [[[y r2] a2] ev2], (drive_rows c src k' n r1 b1) as [[[y' r2'] b2] ev2'].
    exact IH.
  Qed.

  Lemma all_alike : forall S c (src : source S) n r a b, R a b ->
    alike (drive_all_loop c src k n r a) (drive_all_loop c src k' n r b).
  Proof.
    induction n as [|n IH]; intros r a b H; [unfold alike; cbn; auto|]. cbn [drive_all_loop].
    pose proof (row_alike S c src r a b H) as E. unfold alike in E.
    destruct (drive_row c src k r a) as [[[x r1] a1] ev], (drive_row c src k' r b) as [[[x' r1'] b1] ev'].
    cbn in E. destruct E as (<- & <- & E). destruct x as [[|]|ex| |u|]; try (unfold alike; cbn; auto).
    specialize (IH r1 a1 b1 E). unfold alike in *.
    destruct (drive_all_loop c src k n r1 a1) as [[[y r2] a2] ev2],
      (drive_all_loop c src k' n r1 b1) as [[[y' r2'] b2] ev2'].
    exact IH.
  Qed.

  Lemma step_alike : forall S c (src : source S) o r a b, R a b ->
    alike (drive_step c src k o r a) (drive_step c src k' o r b).
  Proof.
    intros S c src o r a b H. destruct o as [|n| |n| |]; cbn [drive_step].
    - pose proof (row_alike S c src r a b H) as E. unfold alike in *.
      destruct (drive_row c src k r a) as [[[x r1] a1] ev], (drive_row c src k' r b) as [[[x' r1'] b1] ev'].
      cbn in *. destruct E as (<- & <- & E). auto.
    - pose proof (rows_alike S c src (N.to_nat n) r a b H) as E. unfold alike in *.
      destruct (drive_rows c src k _ r a) as [[[x r1] a1] ev], (drive_rows c src k' _ r b) as [[[x' r1'] b1] ev'].
      cbn in *. destruct E as (<- & <- & E). auto.
    - pose proof (all_alike S c src (Datatypes.S (N.to_nat (md_row_count (rs_md r) - ds_row (rs_d r)))) r a b H) as E.
      unfold drive_all, alike in *.
      destruct (drive_all_loop c src k _ r a) as [[[x r1] a1] ev], (drive_all_loop c src k' _ r b) as [[[x' r1'] b1] ev'].
      cbn in *. destruct E as (<- & <- & E). auto.
    - unfold drive_skip, alike. destruct (data_skip c src (rs_h r) (rs_md r) (N.to_nat n) (rs_d r)) as [[[|]|ex| |u|] d'];
        try (cbn; auto; fail).
      destruct (K EvEnd a b H) as [E1 E2]. destruct k as [y a'], k' as [y' b']. cbn in *. subst. auto.
    - unfold alike. destruct (read_row_no_sink c src r) as [x r']. cbn. auto.
    - unfold drive_end, alike. destruct (K EvEnd a b H) as [E1 E2]. destruct k as [y a'], k' as [y' b'].
      cbn in *. subst. auto.
  Qed.
End Alike.

(** ** Two objects *)

(** [b] is [a] with what [ob] held before. *)
Definition holds_more (ob a b : py_object) : Prop :=
  po_properties a = po_properties b /\ po_columns a = po_columns b
  /\ po_rows b = po_rows ob ++ po_rows a /\ po_frames b = po_frames ob ++ po_frames a
  /\ po_df b = match po_df a with Some f => Some f | None => po_df ob end.

Lemma methods_more : forall ob cls q a b, holds_more ob a b ->
  fst (py_methods cls q a) = fst (py_methods cls q b)
  /\ holds_more ob (snd (py_methods cls q a)) (snd (py_methods cls q b)).
Proof.
  intros ob cls q a b (H1 & H2 & H3 & H4 & H5). unfold holds_more, py_methods.
  destruct q as [h md|k]; [|destruct k].
  - destruct (named_in_utf8 (md_columns md)), cls; cbn; auto 8.
  - destruct cls; cbn; rewrite ?H2, ?H3, ?H4, ?H5, ?app_assoc; auto 8.
  - destruct cls; cbn; rewrite ?H2, ?H3, ?H4, ?H5, ?app_assoc; auto 8.
  - destruct cls; cbn; rewrite ?H2, ?H3, ?H4, ?H5, ?app_assoc; auto 8.
Qed.

Section Lifted.
  Variables (P : Type) (o : pyobj P) (Q : P -> P -> Prop).
  Hypothesis O : forall q a b, Q a b -> fst (o q a) = fst (o q b) /\ Q (snd (o q a)) (snd (o q b)).

  Definition lifted (u v : pyst P) : Prop :=
    pt_cpp u = pt_cpp v /\ pt_err u = pt_err v /\ pt_c u = pt_c v /\ Q (pt_obj u) (pt_obj v).
  Definition lifted_res (x y : res unit * pyst P) : Prop := fst x = fst y /\ lifted (snd x) (snd y).

  Lemma method_lifted : forall q u v, lifted u v -> lifted_res (py_method o q u) (py_method o q v).
  Proof.
    intros q u v (H1 & H2 & H3 & H4). unfold py_method, lifted_res, lifted. rewrite <- H2.
    destruct (pt_err u) eqn:E; [cbn; rewrite E; auto|]. destruct (O q _ _ H4) as [E1 E2].
    destruct (o q (pt_obj u)) as [x p], (o q (pt_obj v)) as [x' p']. cbn in *. auto 6.
  Qed.

  Lemma dict_lifted : forall q u v, lifted u v -> lifted_res (dict_method o q u) (dict_method o q v).
  Proof.
    intros q u v H. pose proof H as (H1 & H2 & H3 & H4). unfold dict_method. rewrite <- H2, <- H3.
    destruct (pt_err u); [split; [reflexivity|exact H]|].
    destruct (dict_ready (py_cols (pt_c u)) (py_vals (pt_c u))) as [[]|ex| |w|];
      [apply method_lifted; exact H|..]; split; try reflexivity; exact H.
  Qed.

  Lemma chunk_lifted : forall c u v, lifted u v -> lifted (with_chunk c u) (with_chunk c v).
  Proof. intros c u v (H1 & H2 & H3 & H4). unfold lifted. cbn. auto. Qed.

  Lemma del_lifted : forall u v, lifted u v -> lifted (del_cpp u) (del_cpp v).
  Proof. intros u v (H1 & H2 & H3 & H4). unfold lifted. cbn. rewrite H1, H2. auto. Qed.

  Lemma then_chunk : forall x y (f : pychunk -> pychunk), lifted_res x y ->
    lifted_res (let (r, st1) := x in match r with Ok tt => (Ok tt, with_chunk (f (pt_c st1)) st1) | Exn e => (Exn e, st1)
       | Abort => (Abort, st1) | Undef w => (Undef w, st1) | Fuel => (Fuel, st1) end)
               (let (r, st1) := y in match r with Ok tt => (Ok tt, with_chunk (f (pt_c st1)) st1) | Exn e => (Exn e, st1)
       | Abort => (Abort, st1) | Undef w => (Undef w, st1) | Fuel => (Fuel, st1) end).
  Proof.
    intros [x u] [y v] f [E H]. cbn in E, H. subst y. pose proof H as (_ & _ & C & _).
    destruct x as [[]|ex| |w|]; [|split; auto..].
    split; [reflexivity|]. cbn [snd]. rewrite C. apply chunk_lifted. exact H.
  Qed.

  Lemma flush_lifted : forall u v, lifted u v -> lifted_res (cb_flush o u) (cb_flush o v).
  Proof.
    intros u v H. pose proof H as (H1 & H2 & H3 & H4). unfold cb_flush. rewrite <- H3.
    destruct (py_idata (pt_c u) =? 0); [split; auto|].
    apply (then_chunk _ _ (fun _ => py_clear (pt_c u))), dict_lifted, H.
  Qed.

  Lemma set_data_lifted : forall u v, lifted u v -> lifted_res (cb_set_data o u) (cb_set_data o v).
  Proof.
    intros u v H. pose proof H as (H1 & H2 & H3 & H4). unfold cb_set_data. rewrite <- H3.
    destruct (py_idata (pt_c u) =? 0); [split; auto|].
    apply (then_chunk _ _ (fun _ => py_clear (pt_c u))), dict_lifted, H.
  Qed.

  Lemma push_lifted : forall flush i p u v,
    (forall u v, lifted u v -> lifted_res (flush u) (flush v)) -> lifted u v ->
    lifted_res (cb_push flush i p u) (cb_push flush i p v).
  Proof.
    intros flush i p u v F H. pose proof H as (H1 & H2 & H3 & H4). unfold cb_push. rewrite <- H3.
    destruct (mapM (fun c => group_value c p) (py_cols (pt_c u))) as [vs|ex| |w|]; [|split; auto..].
    cbn zeta. match goal with |- context [if ?b then _ else _] => destruct b end.
    - apply F. apply chunk_lifted. exact H.
    - split; [reflexivity|]. apply chunk_lifted. exact H.
  Qed.

  Lemma props_lifted : forall h md f u v, pt_err u = pt_err v -> pt_c u = pt_c v -> Q (pt_obj u) (pt_obj v) ->
    lifted_res (cb_props o h md f u) (cb_props o h md f v).
  Proof.
    intros h md f u v H2 H3 H4. unfold cb_props. apply then_chunk, method_lifted. unfold lifted. cbn. auto.
  Qed.

  Lemma row_sink_lifted : forall ev u v, lifted u v -> lifted_res (row_sink o ev u) (row_sink o ev v).
  Proof.
    intros ev u v H. pose proof H as (H1 & H2 & H3 & H4). destruct ev as [h md|i p|]; cbn [row_sink].
    - apply props_lifted; assumption.
    - rewrite <- H3. destruct (mapM (fun c => row_cell c p) (py_cols (pt_c u))) as [vs|ex| |w|];
        [apply method_lifted; exact H|split; auto..].
    - split; [reflexivity|]. apply del_lifted, H.
  Qed.

  Lemma chunk_sink_lifted : forall ev u v, lifted u v -> lifted_res (chunk_sink o ev u) (chunk_sink o ev v).
  Proof.
    intros ev u v H. pose proof H as (H1 & H2 & H3 & H4). destruct ev as [h md|i p|]; cbn [chunk_sink].
    - apply props_lifted; assumption.
    - apply push_lifted; [exact flush_lifted|exact H].
    - apply flush_lifted, del_lifted, H.
  Qed.

  Lemma data_sink_lifted : forall ev u v, lifted u v -> lifted_res (data_sink o ev u) (data_sink o ev v).
  Proof.
    intros ev u v H. pose proof H as (H1 & H2 & H3 & H4). destruct ev as [h md|i p|]; cbn [data_sink].
    - rewrite <- H3. apply props_lifted; cbn; auto.
    - apply push_lifted; [|exact H]. intros a b L. split; [reflexivity|exact L].
    - apply set_data_lifted, del_lifted, H.
  Qed.
End Lifted.

Definition st_more (ob : py_object) : pyst py_object -> pyst py_object -> Prop := lifted _ (holds_more ob).

Lemma class_more : forall ob cls ev u v, st_more ob u v ->
  fst (class_sink cls ev u) = fst (class_sink cls ev v)
  /\ st_more ob (snd (class_sink cls ev u)) (snd (class_sink cls ev v)).
Proof.
  intros ob cls ev u v H. rewrite !class_kind. destruct cls; cbn [sink_of];
    [apply row_sink_lifted|apply chunk_sink_lifted|apply data_sink_lifted]; try exact H;
    intros q a b; apply methods_more.
Qed.

(** ** The program *)

Definition pg_more {S} (ob : py_object) (p p' : program S) : Prop :=
  pg_reader p = pg_reader p' /\ st_more ob (pg_st p) (pg_st p').

Lemma settle_more : forall A ob (x : res A) u v, st_more ob u v ->
  fst (settle x u) = fst (settle x v) /\ st_more ob (snd (settle x u)) (snd (settle x v)).
Proof.
  intros A ob x u v H. pose proof H as (H1 & H2 & H3 & H4). unfold settle. rewrite <- H2.
  destruct x as [a|ex| |w|]; [destruct (pt_err u)|..]; cbn [fst snd]; split; try reflexivity; try exact H;
    unfold st_more, lifted; cbn; auto.
Qed.

Lemma do_more : forall S ob c (src : source S) cls o p p', pg_more ob p p' ->
  fst (py_do c src cls o p) = fst (py_do c src cls o p')
  /\ pg_more ob (snd (py_do c src cls o p)) (snd (py_do c src cls o p')).
Proof.
  intros S ob c src cls o p p' [H1 H2]. unfold py_do. rewrite <- H1.
  destruct (pg_reader p) as [r|] eqn:E; [|cbn; unfold pg_more; rewrite <- H1; auto].
  pose proof (step_alike _ _ (class_sink cls) (class_sink cls) (st_more ob) (class_more ob cls) S c src o r _ _ H2) as A.
  unfold alike in A.
  destruct (drive_step c src (class_sink cls) o r (pg_st p)) as [[[x r1] a] ev],
    (drive_step c src (class_sink cls) o r (pg_st p')) as [[[x' r1'] a'] ev']. cbn in A. destruct A as (<- & <- & A).
  destruct (settle_more _ ob x a a' A) as [B1 B2].
  destruct (settle x a) as [y s1], (settle x a') as [y' s1']. cbn in *. subst y'. split; [reflexivity|].
  split; [reflexivity|exact B2].
Qed.

Lemma answers_more : forall S ob c (src : source S) cls ops p p', pg_more ob p p' ->
  fst (answers c src cls ops p) = fst (answers c src cls ops p')
  /\ pg_more ob (snd (answers c src cls ops p)) (snd (answers c src cls ops p')).
Proof.
  intros S ob c src cls. induction ops as [|o ops IH]; intros p p' H; [auto|]. cbn [answers].
  destruct (do_more S ob c src cls o p p' H) as [E1 E2].
  destruct (py_do c src cls o p) as [x p1], (py_do c src cls o p') as [x' p1']. cbn in E1, E2. subst x'.
  destruct (IH p1 p1' E2) as [F1 F2].
  destruct (answers c src cls ops p1) as [l p2], (answers c src cls ops p1') as [l' p2']. cbn in *. subst l'. auto.
Qed.

(** The constructor. *)
Lemma props_more : forall ob cls cpp c h md,
  let u := class_sink cls (EvProps h md) (PySt false false c py_new) in
  let v := class_sink cls (EvProps h md) (PySt cpp false c ob) in
  fst u = fst v /\ (fst u = Ok tt -> st_more ob (snd u) (snd v)).
Proof.
  intros ob cls cpp c h md. cbv zeta. rewrite !class_kind.
  assert (Z : forall X (m : list X), m = m ++ []) by (intros; rewrite app_nil_r; reflexivity).
  destruct cls; cbn [sink_of row_sink chunk_sink data_sink]; unfold cb_props, py_method;
    cbn [pt_err set_cpp with_chunk pt_c pt_cpp pt_obj py_methods];
    destruct (named_in_utf8 (md_columns md)); cbn [fst snd]; split; try reflexivity; try discriminate; intros _;
    unfold st_more, lifted, holds_more; cbn -[pychunk_props]; auto 10.
Qed.

Lemma open_more : forall S0 S (p0 : program S0) c (src : source S) cls size flt s,
  let u := py_open c src cls size flt s in
  let v := py_open_with p0 c src cls size flt s in
  fst u = fst v /\ (fst u = Ok tt -> pg_more (pt_obj (pg_st p0)) (snd u) (snd v)).
Proof.
  intros S0 S p0 c src cls size flt s. cbv zeta. unfold py_open, py_open_with. rewrite !drive_open_spec.
  destruct (open_reader c src (Some flt) s) as [[r ev]|ex| |w|];
    [|cbn; split; [reflexivity|discriminate]..].
  cbn zeta.
  destruct (props_more (pt_obj (pg_st p0)) cls (pt_cpp (pg_st p0))
    (pychunk_new match cls with SinkByChunk => size | _ => 0 end) (rs_h r) (rs_md r)) as [E1 E2].
  destruct (class_sink cls (EvProps (rs_h r) (rs_md r)) (PySt false false _ _)) as [x a],
    (class_sink cls (EvProps (rs_h r) (rs_md r)) (PySt (pt_cpp (pg_st p0)) false _ _)) as [x' a'].
  cbn in E1, E2 |- *. subst x'. destruct x as [[]|ex| |w|]; try (cbn; split; [reflexivity|discriminate]).
  specialize (E2 eq_refl). cbn [rmap bind].
  destruct (settle_more _ (pt_obj (pg_st p0)) (Ok r) a a' E2) as [B1 B2].
  destruct (settle (Ok r) a) as [y s1], (settle (Ok r) a') as [y' s1']. cbn in *. subst y'.
  split; [reflexivity|]. intros _. split; [reflexivity|exact B2].
Qed.

Lemma read_more : forall S0 S (p0 : program S0) c (src : source S) cls size inc exc s,
  let u := read_sas c src cls size inc exc s in
  let v := read_sas_with p0 c src cls size inc exc s in
  fst u = fst v /\ (fst u = Ok tt -> pg_more (pt_obj (pg_st p0)) (snd u) (snd v)).
Proof.
  intros S0 S p0 c src cls size inc exc s. cbv zeta. unfold read_sas, read_sas_with.
  destruct (open_more S0 S p0 c src cls size (py_filter inc exc) s) as [E1 E2].
  destruct (py_open c src cls size (py_filter inc exc) s) as [x p], (py_open_with p0 c src cls size (py_filter inc exc) s) as [x' p'].
  cbn in E1, E2. subst x'. destruct x as [[]|ex| |w|]; try (cbn; split; [reflexivity|discriminate]).
  destruct (do_more S _ c src cls OpReadAll p p' (E2 eq_refl)) as [F1 F2].
  destruct (py_do c src cls OpReadAll p) as [y q], (py_do c src cls OpReadAll p') as [y' q']. cbn in F1, F2 |- *. subst y'.
  split; [reflexivity|]. intros _. destruct F2 as [_ F2]. split; [reflexivity|exact F2].
Qed.

Lemma same_outcome : forall S0 S (p0 : program S0) c (src : source S) cls size flt inc exc s,
  fst (py_open_with p0 c src cls size flt s) = fst (py_open c src cls size flt s)
  /\ (fst (py_open c src cls size flt s) = Ok tt -> forall ops,
      fst (answers c src cls ops (snd (py_open_with p0 c src cls size flt s)))
      = fst (answers c src cls ops (snd (py_open c src cls size flt s))))
  /\ fst (read_sas_with p0 c src cls size inc exc s) = fst (read_sas c src cls size inc exc s).
Proof.
  intros S0 S p0 c src cls size flt inc exc s.
  destruct (open_more S0 S p0 c src cls size flt s) as [E1 E2]. split; [symmetry; exact E1|].
  split; [intros OK ops; symmetry; apply (answers_more S _ c src cls ops _ _ (E2 OK))|].
  symmetry. apply (read_more S0 S p0 c src cls size inc exc s).
Qed.

(** ** The frame which was asked for stays *)

Definition has_df (d : option frame) (a b : py_object) : Prop := a = b /\ po_df a = d.

Lemma methods_df : forall d cls q a b, cls <> SinkWholeData -> has_df d a b ->
  fst (py_methods cls q a) = fst (py_methods cls q b)
  /\ has_df d (snd (py_methods cls q a)) (snd (py_methods cls q b)).
Proof.
  intros d cls q a b NW [<- H]. split; [reflexivity|]. split; [reflexivity|]. unfold py_methods.
  destruct q as [h md|k]; [destruct (named_in_utf8 (md_columns md)), cls; exact H|].
  destruct k, cls; try exact H. contradiction.
Qed.

Definition st_df (d : option frame) : pyst py_object -> pyst py_object -> Prop := lifted _ (has_df d).

Lemma class_df : forall d cls, cls <> SinkWholeData -> forall ev u v, st_df d u v ->
  fst (class_sink cls ev u) = fst (class_sink cls ev v)
  /\ st_df d (snd (class_sink cls ev u)) (snd (class_sink cls ev v)).
Proof.
  intros d cls NW ev u v H. rewrite !class_kind. destruct cls; cbn [sink_of];
    [apply row_sink_lifted|apply chunk_sink_lifted|contradiction]; try exact H;
    intros q a b; apply methods_df; discriminate.
Qed.

Lemma st_df_refl : forall u, st_df (po_df (pt_obj u)) u u.
Proof. intros u. unfold st_df, lifted, has_df. auto 6. Qed.

Lemma settle_obj : forall A (x : res A) (u : pyst py_object), pt_obj (snd (settle x u)) = pt_obj u.
Proof. intros A x u. unfold settle. destruct x; [destruct (pt_err u)|..]; reflexivity. Qed.

Lemma do_df : forall S c (src : source S) cls o p, cls <> SinkWholeData ->
  po_df (pt_obj (pg_st (snd (py_do c src cls o p)))) = po_df (pt_obj (pg_st p)).
Proof.
  intros S c src cls o p NW. unfold py_do. destruct (pg_reader p) as [r|] eqn:E; [|reflexivity].
  pose proof (step_alike _ _ (class_sink cls) (class_sink cls) (st_df (po_df (pt_obj (pg_st p)))) (class_df _ cls NW)
    S c src o r _ _ (st_df_refl (pg_st p))) as A. unfold alike in A.
  destruct (drive_step c src (class_sink cls) o r (pg_st p)) as [[[x r1] a] ev].
  cbn in A. destruct A as (_ & _ & _ & _ & _ & _ & A).
  pose proof (settle_obj _ x a) as O. destruct (settle x a) as [y s1]. cbn in *. rewrite O. exact A.
Qed.

Lemma answers_df : forall S c (src : source S) cls ops p, cls <> SinkWholeData ->
  po_df (pt_obj (pg_st (snd (answers c src cls ops p)))) = po_df (pt_obj (pg_st p)).
Proof.
  intros S c src cls ops. induction ops as [|o ops IH]; intros p NW; [reflexivity|]. cbn [answers].
  pose proof (do_df S c src cls o p NW) as E. destruct (py_do c src cls o p) as [x p1]. cbn in E.
  specialize (IH p1 NW). destruct (answers c src cls ops p1) as [l p2]. cbn in *. congruence.
Qed.

Lemma open_with_df : forall S0 S (p0 : program S0) c (src : source S) cls size flt s,
  po_df (pt_obj (pg_st (snd (py_open_with p0 c src cls size flt s)))) = po_df (pt_obj (pg_st p0)).
Proof.
  intros S0 S p0 c src cls size flt s. unfold py_open_with. rewrite drive_open_spec.
  destruct (open_reader c src (Some flt) s) as [[r ev]|ex| |w|]; try reflexivity.
  cbn zeta. rewrite class_kind.
  assert (D : po_df (pt_obj (snd (sink_of cls (EvProps (rs_h r) (rs_md r)) (PySt (pt_cpp (pg_st p0)) false
      (pychunk_new match cls with SinkByChunk => size | _ => 0 end) (pt_obj (pg_st p0)))))) = po_df (pt_obj (pg_st p0))).
  { destruct cls; cbn [sink_of row_sink chunk_sink data_sink]; unfold cb_props, py_method;
      cbn [pt_err set_cpp with_chunk pt_c pt_cpp pt_obj py_methods];
      destruct (named_in_utf8 (md_columns (rs_md r))); reflexivity. }
  destruct (sink_of cls _ _) as [y a]. cbn [fst snd] in D |- *.
  pose proof (settle_obj _ (rmap (fun _ => r) y) a) as O. destruct (settle (rmap (fun _ => r) y) a) as [z s1].
  cbn in *. rewrite O. exact D.
Qed.

Lemma read_with_df : forall S0 S (p0 : program S0) c (src : source S) cls size inc exc s, cls <> SinkWholeData ->
  po_df (pt_obj (pg_st (snd (read_sas_with p0 c src cls size inc exc s)))) = po_df (pt_obj (pg_st p0)).
Proof.
  intros S0 S p0 c src cls size inc exc s NW. unfold read_sas_with.
  pose proof (open_with_df S0 S p0 c src cls size (py_filter inc exc) s) as O.
  destruct (py_open_with p0 c src cls size (py_filter inc exc) s) as [[[]|ex| |w|] p]; try exact O.
  pose proof (do_df S c src cls OpReadAll p NW) as D. cbn in O. rewrite <- O, <- D.
  destruct (py_do c src cls OpReadAll p) as [y q]. reflexivity.
Qed.

Lemma read_fresh : forall S c (src : source S) cls size inc exc s,
  read_sas c src cls size inc exc s = read_sas_with (@Program S None (PySt false false (pychunk_new 0) py_new)) c src cls size inc exc s.
Proof. reflexivity. Qed.

Lemma df_set : forall S cls (p0 p1 : program S) f, py_df cls p0 = (Ok (Some f), p1) -> po_df (pt_obj (pg_st p1)) = Some f.
Proof.
  intros S cls p0 p1 f H. unfold py_df in H.
  destruct (po_df (pt_obj (pg_st p0))) as [g|] eqn:D; [injection H as -> <-; exact D|].
  destruct (py_flush_sink cls p0) as [[[]|ex| |w|] q]; try discriminate. destruct cls.
  - destruct (frame_of_records _ _) as [g|ex| |w|]; try discriminate. injection H as -> <-. reflexivity.
  - destruct (concat_frames _) as [g|ex| |w|]; try discriminate. injection H as -> <-. reflexivity.
  - injection H as E <-. exact E.
Qed.

Lemma stays : forall S0 (p0 p1 : program S0) cls f, py_df cls p0 = (Ok (Some f), p1) -> cls <> SinkWholeData ->
  forall S c (src : source S) size flt inc exc s ops,
  fst (py_df cls (snd (answers c src cls ops (snd (py_open_with p1 c src cls size flt s))))) = Ok (Some f)
  /\ fst (py_df cls (snd (read_sas_with p1 c src cls size inc exc s))) = Ok (Some f).
Proof.
  intros S0 p0 p1 cls f H NW S c src size flt inc exc s ops. apply df_set in H. unfold py_df.
  rewrite answers_df, open_with_df, read_with_df, H by exact NW. auto.
Qed.

(** ** SinkWholeData *)

Lemma read_dropped : forall S c (src : source S) cls size inc exc s p,
  read_sas c src cls size inc exc s = (Ok tt, p) -> pg_reader p = None.
Proof.
  intros S c src cls size inc exc s p H. unfold read_sas in H.
  destruct (py_open c src cls size (py_filter inc exc) s) as [[[]|ex| |w|] q]; try discriminate.
  destruct (py_do c src cls OpReadAll q) as [y q']. injection H as _ <-. reflexivity.
Qed.

(** df of a program without a Reader. *)
Lemma df_alone : forall S cls (p : program S) d, pg_reader p = None -> fst (py_df cls p) = Ok d ->
  po_df (pt_obj (pg_st p)) = None -> pt_cpp (pg_st p) = false
  /\ match cls with
     | SinkByRow => exists f, d = Some f /\ frame_of_records (po_columns (pt_obj (pg_st p))) (po_rows (pt_obj (pg_st p))) = Ok f
     | SinkByChunk => exists f, d = Some f /\ concat_frames (po_frames (pt_obj (pg_st p))) = Ok f
     | SinkWholeData => d = None
     end.
Proof.
  intros S cls p d R H D. unfold py_df, py_flush_sink in H. rewrite D, R in H.
  destruct (pt_cpp (pg_st p)); [discriminate|]. split; [reflexivity|]. destruct cls.
  - destruct (frame_of_records _ _) as [f|ex| |w|]; try discriminate. injection H as <-. eauto.
  - destruct (concat_frames _) as [f|ex| |w|]; try discriminate. injection H as <-. eauto.
  - cbn in H. rewrite D in H. injection H as <-. reflexivity.
Qed.

Lemma whole_again : forall S0 (p0 : program S0) S c (src : source S) size inc exc s p f,
  read_sas c src SinkWholeData size inc exc s = (Ok tt, p) -> fst (py_df SinkWholeData p) = Ok (Some f) ->
  exists p', read_sas_with p0 c src SinkWholeData size inc exc s = (Ok tt, p')
    /\ fst (py_df SinkWholeData p') = Ok (Some f).
Proof.
  intros S0 p0 S c src size inc exc s p f H D. pose proof (read_dropped _ _ _ _ _ _ _ _ _ H) as R.
  destruct (read_more S0 S p0 c src SinkWholeData size inc exc s) as [E1 E2]. rewrite H in E1, E2. cbn in E1, E2.
  destruct (read_sas_with p0 c src SinkWholeData size inc exc s) as [x p']. cbn in E1, E2. subst x.
  destruct (E2 eq_refl) as (_ & _ & _ & _ & _ & _ & _ & _ & DF). exists p'. split; [reflexivity|].
  destruct (po_df (pt_obj (pg_st p))) as [g|] eqn:G.
  - unfold py_df in D |- *. rewrite G in D. rewrite DF. exact D.
  - destruct (df_alone _ _ _ _ R D G) as [_ K]. discriminate.
Qed.

Lemma whole_no_rows : forall S0 (p0 p1 : program S0) f0 S c (src : source S) size inc exc s p,
  py_df SinkWholeData p0 = (Ok (Some f0), p1) ->
  read_sas c src SinkWholeData size inc exc s = (Ok tt, p) -> fst (py_df SinkWholeData p) = Ok None ->
  exists p', read_sas_with p1 c src SinkWholeData size inc exc s = (Ok tt, p')
    /\ fst (py_df SinkWholeData p') = Ok (Some f0).
Proof.
  intros S0 p0 p1 f0 S c src size inc exc s p H0 H D. apply df_set in H0.
  destruct (read_more S0 S p1 c src SinkWholeData size inc exc s) as [E1 E2]. rewrite H in E1, E2. cbn in E1, E2.
  destruct (read_sas_with p1 c src SinkWholeData size inc exc s) as [x p']. cbn in E1, E2. subst x.
  destruct (E2 eq_refl) as (_ & _ & _ & _ & _ & _ & _ & _ & DF). exists p'. split; [reflexivity|].
  destruct (po_df (pt_obj (pg_st p))) as [g|] eqn:G.
  - unfold py_df in D. rewrite G in D. discriminate.
  - unfold py_df. rewrite DF, H0. reflexivity.
Qed.

(** ** SinkByRow and SinkByChunk, df not asked between *)

Lemma records_stacked : forall n1 n2 j r1 r2, length n1 = length n2 ->
  record_columns n2 j (r1 ++ r2) = stacked (record_columns n1 j r1) (record_columns n2 j r2).
Proof.
  intros n1 n2. revert n1. induction n2 as [|a n2 IH]; intros [|b n1] j r1 r2 L; try discriminate; [reflexivity|].
  injection L as L. cbn [record_columns]. rewrite (IH n1 (S j) r1 r2 L), map_app. reflexivity.
Qed.

Lemma records_length : forall names j rows, length (record_columns names j rows) = length names.
Proof. induction names as [|n names IH]; intros j rows; [reflexivity|]. cbn. rewrite IH. reflexivity. Qed.

Lemma append_assoc : forall f g h, append_frame (append_frame f g) h = append_frame f (append_frame g h).
Proof.
  induction f as [|[n u] f IH]; intros g h; [reflexivity|]. destruct g as [|[m v] g]; [reflexivity|].
  destruct h as [|[l w] h]; [reflexivity|]. cbn. rewrite IH, app_assoc. reflexivity.
Qed.

Lemma fold_append : forall l f g, append_frame f (fold_left append_frame l g) = fold_left append_frame l (append_frame f g).
Proof. induction l as [|h l IH]; intros f g; [reflexivity|]. cbn. rewrite IH, append_assoc. reflexivity. Qed.

Lemma concat_app : forall l m f g, concat_frames l = Ok f -> concat_frames m = Ok g ->
  concat_frames (l ++ m) = Ok (append_frame f g).
Proof.
  intros [|a l] [|b m] f g H H'; try discriminate. cbn in *. injection H as <-. injection H' as <-.
  rewrite fold_left_app. cbn. rewrite fold_append. reflexivity.
Qed.

Lemma append_stacked : forall f g, map fst f = map fst g -> append_frame f g = stacked f g.
Proof.
  induction f as [|[n u] f IH]; intros [|[m v] g] H; try discriminate; [reflexivity|].
  cbn in H. injection H as -> H. cbn. rewrite (IH g H). reflexivity.
Qed.

Lemma read_none : forall S c (src : source S) cls size inc exc s p, cls <> SinkWholeData ->
  read_sas c src cls size inc exc s = (Ok tt, p) -> po_df (pt_obj (pg_st p)) = None.
Proof.
  intros S c src cls size inc exc s p NW H. rewrite read_fresh in H.
  pose proof (read_with_df S S (Program None (PySt false false (pychunk_new 0) py_new)) c src cls size inc exc s NW) as E.
  rewrite H in E. exact E.
Qed.

(** The object after both readings. *)
Lemma both_read : forall S1 c1 (src1 : source S1) size1 inc1 exc1 s1 p1 f1 cls
    S c (src : source S) size inc exc s p f, cls <> SinkWholeData ->
  read_sas c1 src1 cls size1 inc1 exc1 s1 = (Ok tt, p1) -> fst (py_df cls p1) = Ok (Some f1) ->
  read_sas c src cls size inc exc s = (Ok tt, p) -> fst (py_df cls p) = Ok (Some f) ->
  exists p', read_sas_with p1 c src cls size inc exc s = (Ok tt, p')
    /\ pg_reader p' = None /\ pt_cpp (pg_st p') = false
    /\ let o1 := pt_obj (pg_st p1) in let o := pt_obj (pg_st p) in let o' := pt_obj (pg_st p') in
       po_df o' = None /\ po_columns o' = po_columns o
       /\ po_rows o' = po_rows o1 ++ po_rows o /\ po_frames o' = po_frames o1 ++ po_frames o.
Proof.
  intros S1 c1 src1 size1 inc1 exc1 s1 p1 f1 cls S c src size inc exc s p f NW H1 D1 H D.
  pose proof (read_none _ _ _ _ _ _ _ _ _ NW H1) as N1. pose proof (read_none _ _ _ _ _ _ _ _ _ NW H) as N2.
  pose proof (read_dropped _ _ _ _ _ _ _ _ _ H) as R.
  destruct (df_alone _ _ _ _ R D N2) as [CP _].
  destruct (read_more S1 S p1 c src cls size inc exc s) as [E1 E2]. rewrite H in E1, E2. cbn in E1, E2.
  destruct (read_sas_with p1 c src cls size inc exc s) as [x p']. cbn in E1, E2. subst x.
  destruct (E2 eq_refl) as (R' & C1 & C2 & C3 & C4 & C5 & C6 & C7 & C8). exists p'. split; [reflexivity|].
  split; [congruence|]. split; [congruence|]. cbv zeta. rewrite N2, N1 in C8. auto.
Qed.

Lemma rows_again : forall S1 c1 (src1 : source S1) size1 inc1 exc1 s1 p1 f1
    S c (src : source S) size inc exc s p f,
  read_sas c1 src1 SinkByRow size1 inc1 exc1 s1 = (Ok tt, p1) -> fst (py_df SinkByRow p1) = Ok (Some f1) ->
  read_sas c src SinkByRow size inc exc s = (Ok tt, p) -> fst (py_df SinkByRow p) = Ok (Some f) ->
  exists p', read_sas_with p1 c src SinkByRow size inc exc s = (Ok tt, p')
    /\ (length f1 = length f -> fst (py_df SinkByRow p') = Ok (Some (stacked f1 f)))
    /\ (length f1 <> length f -> (exists col, In col f1 /\ snd col <> []) -> fst (py_df SinkByRow p') = Exn E_value_error).
Proof.
  intros S1 c1 src1 size1 inc1 exc1 s1 p1 f1 S c src size inc exc s p f H1 D1 H D.
  assert (NW : SinkByRow <> SinkWholeData) by discriminate.
  destruct (both_read _ _ _ _ _ _ _ _ _ _ _ _ _ _ _ _ _ _ _ NW H1 D1 H D) as (p' & E & R & CP & O1 & O2 & O3 & O4).
  destruct (df_alone _ _ _ _ (read_dropped _ _ _ _ _ _ _ _ _ H1) D1 (read_none _ _ _ _ _ _ _ _ _ NW H1))
    as (_ & g1 & G1 & F1). injection G1 as <-.
  destruct (df_alone _ _ _ _ (read_dropped _ _ _ _ _ _ _ _ _ H) D (read_none _ _ _ _ _ _ _ _ _ NW H))
    as (_ & g & G & F). injection G as <-.
  exists p'. split; [exact E|]. unfold py_df, py_flush_sink. rewrite O1, CP. cbn [pg_st]. rewrite O2, O3.
  unfold frame_of_records in *. rewrite forallb_app.
  destruct (forallb _ (po_rows (pt_obj (pg_st p1)))) eqn:B1 in F1; [|discriminate]. injection F1 as <-.
  destruct (forallb _ (po_rows (pt_obj (pg_st p)))) eqn:B2 in F; [|discriminate]. injection F as <-.
  rewrite B2, andb_true_r. rewrite !records_length. split.
  - intros L. rewrite <- L, B1. cbn. rewrite (records_stacked _ _ 0 (po_rows (pt_obj (pg_st p1))) _ L). reflexivity.
  - intros L (col & I & NE). destruct (po_rows (pt_obj (pg_st p1))) as [|row rows] eqn:PR.
    + exfalso. apply NE. clear - I. revert I. generalize 0%nat.
      induction (po_columns (pt_obj (pg_st p1))) as [|n ns IH]; intros j I; [destruct I|].
      destruct I as [<-|I]; [reflexivity|exact (IH _ I)].
    + cbn [forallb] in B1 |- *. apply andb_prop in B1. destruct B1 as [B1 _]. apply PeanoNat.Nat.eqb_eq in B1.
      destruct (PeanoNat.Nat.eqb_spec (length row) (length (po_columns (pt_obj (pg_st p))))) as [K|K]; [congruence|].
      reflexivity.
Qed.

Lemma chunks_again : forall S1 c1 (src1 : source S1) size1 inc1 exc1 s1 p1 f1
    S c (src : source S) size inc exc s p f,
  read_sas c1 src1 SinkByChunk size1 inc1 exc1 s1 = (Ok tt, p1) -> fst (py_df SinkByChunk p1) = Ok (Some f1) ->
  read_sas c src SinkByChunk size inc exc s = (Ok tt, p) -> fst (py_df SinkByChunk p) = Ok (Some f) ->
  map fst f1 = map fst f ->
  exists p', read_sas_with p1 c src SinkByChunk size inc exc s = (Ok tt, p')
    /\ fst (py_df SinkByChunk p') = Ok (Some (stacked f1 f)).
Proof.
  intros S1 c1 src1 size1 inc1 exc1 s1 p1 f1 S c src size inc exc s p f H1 D1 H D NM.
  assert (NW : SinkByChunk <> SinkWholeData) by discriminate.
  destruct (both_read _ _ _ _ _ _ _ _ _ _ _ _ _ _ _ _ _ _ _ NW H1 D1 H D) as (p' & E & R & CP & O1 & O2 & O3 & O4).
  destruct (df_alone _ _ _ _ (read_dropped _ _ _ _ _ _ _ _ _ H1) D1 (read_none _ _ _ _ _ _ _ _ _ NW H1))
    as (_ & g1 & G1 & F1). injection G1 as <-.
  destruct (df_alone _ _ _ _ (read_dropped _ _ _ _ _ _ _ _ _ H) D (read_none _ _ _ _ _ _ _ _ _ NW H))
    as (_ & g & G & F). injection G as <-.
  exists p'. split; [exact E|]. unfold py_df, py_flush_sink. rewrite O1, CP. cbn [pg_st]. rewrite O4.
  rewrite (concat_app _ _ _ _ F1 F), (append_stacked _ _ NM). reflexivity.
Qed.
