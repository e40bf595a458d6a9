From Coq Require Import Permutation.
From Verif Require Import Base Lemmas Types Buffer Page Column Header Metadata Decomp Data Reader Drive
  Sinks Callbacks RPackage RAgain SpecDecomp SpecReader SpecSinks SpecDrive SpecFile SpecCells SpecRPackage SpecRAgain
  ProofReader ProofDrive ProofPyChunks ProofRChunks ProofPython ProofRPackage ProofRFile ProofAgain.
Local Open Scope N_scope.

Section Lifted.
  Variables (P : Type) (o : robj P) (Q : P -> P -> Prop).
  Hypothesis O : forall q a b, Q a b -> fst (o q a) = fst (o q b) /\ Q (snd (o q a)) (snd (o q b)).

  Definition r_lifted (u v : rstate_sink * P) : Prop := fst u = fst v /\ Q (snd u) (snd v).
  Definition r_lifted_res (x y : res unit * (rstate_sink * P)) : Prop := fst x = fst y /\ r_lifted (snd x) (snd y).

  Lemma rprops_lifted : forall h md st st' a b, Q a b ->
    r_lifted_res (rcb_props o h md st st' a) (rcb_props o h md st st' b).
  Proof.
    intros h md st st' a b H. unfold rcb_props, r_lifted_res, r_lifted.
    destruct (wrap_properties h md) as [p|ex| |u|]; try (cbn; auto; fail).
    destruct (O (RqProps p) a b H) as [E1 E2].
    destruct (o (RqProps p) a) as [y a'], (o (RqProps p) b) as [y' b']. cbn in E1, E2. subst y'.
    destruct y as [[]|ex| |u|]; cbn; auto.
  Qed.

  Definition triple_like (x y : res unit * rstate_sink * P) : Prop := fst x = fst y /\ Q (snd x) (snd y).

  Lemma rflush_lifted : forall st a b, Q a b -> triple_like (rcb_flush o st a) (rcb_flush o st b).
  Proof.
    intros st a b H. unfold rcb_flush, triple_like.
    destruct ((r_iend st <? r_istart st) || (r_idata st =? 0)); [cbn; auto|].
    destruct (r_deliver st) as [st1 call].
    destruct (O (RqRows (r_heap st1) (map r_name (r_cols st1)) call) a b H) as [E1 E2].
    destruct (o _ a) as [y a'], (o _ b) as [y' b']. cbn in E1, E2. subst y'.
    destruct y as [[]|ex| |u|]; cbn; auto.
  Qed.

  Lemma rpush_lifted : forall i p st a b, Q a b -> triple_like (rcb_push o i p st a) (rcb_push o i p st b).
  Proof.
    intros i p st a b H. unfold rcb_push.
    destruct (r_base_push st i p) as [st1|ex| |u|]; try (unfold triple_like; cbn; auto; fail).
    cbn zeta. match goal with |- context [if ?c then _ else _] => destruct c end; [|unfold triple_like; cbn; auto].
    match goal with |- context [rcb_flush o ?s a] => pose proof (rflush_lifted s a b H) as F;
      destruct (rcb_flush o s a) as [[y s3] a'], (rcb_flush o s b) as [[y' s3'] b'] end.
    unfold triple_like in *. cbn in F. destruct F as [F1 F2]. injection F1 as <- <-.
    destruct y as [[]|ex| |u|]; cbn; auto.
    match goal with |- context [if ?c then _ else _] => destruct c end; cbn; auto.
  Qed.

  Lemma rchunk_lifted : forall ev u v, r_lifted u v -> r_lifted_res (rchunk_sink o ev u) (rchunk_sink o ev v).
  Proof.
    intros ev [st a] [st' b] [E H]. cbn in E, H. subst st'. destruct ev as [h md|i p|]; cbn [rchunk_sink].
    - apply rprops_lifted, H.
    - pose proof (rpush_lifted i p st a b H) as F. unfold triple_like in F.
      destruct (rcb_push o i p st a) as [[y s3] a'], (rcb_push o i p st b) as [[y' s3'] b'].
      destruct F as [F1 F2]. cbn in F1, F2. injection F1 as <- <-. unfold r_lifted_res, r_lifted. cbn. auto.
    - pose proof (rflush_lifted st a b H) as F. unfold triple_like in F.
      destruct (rcb_flush o st a) as [[y s3] a'], (rcb_flush o st b) as [[y' s3'] b'].
      destruct F as [F1 F2]. cbn in F1, F2. injection F1 as <- <-. unfold r_lifted_res, r_lifted. cbn. auto.
  Qed.

  Lemma rdata_lifted : forall ev u v, r_lifted u v -> r_lifted_res (rdata_sink o ev u) (rdata_sink o ev v).
  Proof.
    intros ev [st a] [st' b] [E H]. cbn in E, H. subst st'. destruct ev as [h md|i p|]; cbn [rdata_sink].
    - apply rprops_lifted, H.
    - destruct (r_base_push st i p) as [s1|ex| |u|]; unfold r_lifted_res, r_lifted; cbn; auto.
    - destruct (r_idata st =? 0); [unfold r_lifted_res, r_lifted; cbn; auto|].
      destruct (r_deliver st) as [st1 call].
      destruct (O (RqRows (r_heap st1) (map r_name (r_cols st1)) call) a b H) as [E1 E2].
      destruct (o _ a) as [y a'], (o _ b) as [y' b']. cbn in E1, E2. subst y'.
      unfold r_lifted_res, r_lifted. cbn. auto.
  Qed.
End Lifted.

(** ** Objects whose df are related *)

Section Related.
  Variables (mk : list bytes -> list bytes) (cls : r_class) (D : rdf -> rdf -> Prop).
  Hypothesis NR : cls <> RSinkByRow.
  (** [D] is kept when rows arrive. *)
  Hypothesis KD : forall hp names k a b, D (rob_df a) (rob_df b) ->
    D (rob_df (snd (r_methods mk cls (RqRows hp names k) a))) (rob_df (snd (r_methods mk cls (RqRows hp names k) b))).

  Definition df_rel (a b : r_object) : Prop := D (rob_df a) (rob_df b).

  Lemma methods_rel : forall q a b, df_rel a b ->
    fst (r_methods mk cls q a) = fst (r_methods mk cls q b)
    /\ df_rel (snd (r_methods mk cls q a)) (snd (r_methods mk cls q b)).
  Proof.
    intros q a b H. destruct q as [p|hp names k|hp i row].
    - destruct cls; [contradiction| |]; cbn [r_methods]; unfold r_outcome;
        destruct (r_columns_of p); cbn; auto.
    - split; [|apply KD, H]. destruct cls; [contradiction| |reflexivity]. cbn.
      destruct (r_contents hp (rob_df a)), (r_contents hp (rob_df b)); reflexivity.
    - destruct cls; [contradiction| |]; cbn; auto.
  Qed.

  Definition rst_rel : rstate_sink * r_object -> rstate_sink * r_object -> Prop := r_lifted _ df_rel.

  Lemma class_rel : forall ev u v, rst_rel u v ->
    fst (r_class_sink mk cls ev u) = fst (r_class_sink mk cls ev v)
    /\ rst_rel (snd (r_class_sink mk cls ev u)) (snd (r_class_sink mk cls ev v)).
  Proof.
    pose proof methods_rel as MR.
    intros ev u v H. rewrite !r_class_kind. destruct cls; [contradiction| |]; cbn [r_sink_of];
      [apply rchunk_lifted|apply rdata_lifted]; try exact H; exact MR.
  Qed.

  Definition rpg_rel {S} (p p' : r_program S) : Prop := rp_reader p = rp_reader p' /\ rst_rel (rp_st p) (rp_st p').

  Lemma rdo_rel : forall S c (src : source S) o p p', rpg_rel p p' ->
    fst (r_do c src mk cls o p) = fst (r_do c src mk cls o p')
    /\ rpg_rel (snd (r_do c src mk cls o p)) (snd (r_do c src mk cls o p')).
  Proof.
    intros S c src o p p' [H1 H2]. unfold r_do. rewrite <- H1.
    destruct (rp_reader p) as [r|] eqn:E; [|cbn; unfold rpg_rel; rewrite <- H1; auto].
    pose proof (step_alike _ _ (r_class_sink mk cls) (r_class_sink mk cls) rst_rel class_rel S c src o r _ _ H2) as A.
    unfold alike in A.
    destruct (drive_step c src (r_class_sink mk cls) o r (rp_st p)) as [[[x r1] a] ev],
      (drive_step c src (r_class_sink mk cls) o r (rp_st p')) as [[[x' r1'] a'] ev']. cbn in A. destruct A as (<- & <- & A).
    cbn. split; [reflexivity|]. split; [reflexivity|exact A].
  Qed.

  Lemma ranswers_rel : forall S c (src : source S) ops p p', rpg_rel p p' ->
    fst (r_answers c src mk cls ops p) = fst (r_answers c src mk cls ops p')
    /\ rpg_rel (snd (r_answers c src mk cls ops p)) (snd (r_answers c src mk cls ops p')).
  Proof.
    intros S c src. induction ops as [|o ops IH]; intros p p' H; [auto|]. cbn [r_answers].
    destruct (rdo_rel S c src o p p' H) as [E1 E2].
    destruct (r_do c src mk cls o p) as [x p1], (r_do c src mk cls o p') as [x' p1']. cbn in E1, E2. subst x'.
    destruct (IH p1 p1' E2) as [F1 F2].
    destruct (r_answers c src mk cls ops p1) as [l p2], (r_answers c src mk cls ops p1') as [l' p2'].
    cbn in *. subst l'. auto.
  Qed.

  Lemma ropen_rel : forall S0 S (p0 : r_program S0) c (src : source S) size flt s,
    D DfNull (rob_df (r_kept_object p0)) ->
    let u := r_open c src mk cls size flt s in
    let v := r_open_with p0 c src mk cls size flt s in
    fst u = fst v /\ rpg_rel (snd u) (snd v).
  Proof.
    intros S0 S p0 c src size flt s H. cbv zeta. unfold r_open, r_open_with. rewrite !drive_open_spec.
    set (n := match cls with RSinkByChunk => size | _ => 0 end).
    assert (R0 : rst_rel (rsink_new n, r_new) (rsink_new n, r_kept_object p0)) by (split; [reflexivity|exact H]).
    destruct (open_reader c src (Some flt) s) as [[r ev]|ex| |w|];
      [|cbn; split; [reflexivity|split; [reflexivity|exact R0]]..].
    cbn zeta. destruct (class_rel (EvProps (rs_h r) (rs_md r)) _ _ R0) as [E1 E2].
    destruct (r_class_sink mk cls (EvProps (rs_h r) (rs_md r)) (rsink_new n, r_new)) as [x a],
      (r_class_sink mk cls (EvProps (rs_h r) (rs_md r)) (rsink_new n, r_kept_object p0)) as [x' a'].
    cbn in E1, E2 |- *. subst x'. split; [reflexivity|]. split; [reflexivity|exact E2].
  Qed.

  Lemma rread_rel : forall S0 S (p0 : r_program S0) c (src : source S) size inc exc s,
    D DfNull (rob_df (r_kept_object p0)) ->
    let u := r_read c src mk cls size inc exc s in
    let v := r_read_with p0 c src mk cls size inc exc s in
    fst u = fst v /\ rpg_rel (snd u) (snd v).
  Proof.
    intros S0 S p0 c src size inc exc s H. cbv zeta. unfold r_read, r_read_with.
    destruct (ropen_rel S0 S p0 c src size (r_filter inc exc) s H) as [E1 E2].
    destruct (r_open c src mk cls size (r_filter inc exc) s) as [x p],
      (r_open_with p0 c src mk cls size (r_filter inc exc) s) as [x' p']. cbn in E1, E2. subst x'.
    destruct x as [[]|ex| |w|]; try (cbn; auto; fail).
    destruct (rdo_rel S c src OpReadAll p p' E2) as [F1 F2].
    destruct (r_do c src mk cls OpReadAll p) as [y q], (r_do c src mk cls OpReadAll p') as [y' q'].
    cbn in F1, F2 |- *. subst y'. auto.
  Qed.
End Related.

(** ** The outcomes *)

Lemma by_row_fails : forall S0 S (p0 : r_program S0) c (src : source S) mk size flt s,
  fst (r_open_with p0 c src mk RSinkByRow size flt s) = fst (r_open c src mk RSinkByRow size flt s).
Proof.
  intros S0 S p0 c src mk size flt s. unfold r_open, r_open_with. rewrite !drive_open_spec.
  destruct (open_reader c src (Some flt) s) as [[r ev]|ex| |w|]; try reflexivity.
  cbn zeta. rewrite !r_class_kind. cbn [r_sink_of rrow_sink]. unfold r_alloc, rcb_props.
  destruct (wrap_properties (rs_h r) (rs_md r)) as [p| | | |]; try reflexivity.
  cbn [r_methods]. unfold r_outcome. destruct (r_columns_of p) as [cs| | | |]; try reflexivity.
  destruct (r_by_row_frame p cs); reflexivity.
Qed.

Lemma r_same_outcome : forall S0 S (p0 : r_program S0) c (src : source S) mk cls size flt inc exc s,
  cls <> RSinkByChunk ->
  fst (r_open_with p0 c src mk cls size flt s) = fst (r_open c src mk cls size flt s)
  /\ (fst (r_open c src mk cls size flt s) = Ok tt -> forall ops,
      fst (r_answers c src mk cls ops (snd (r_open_with p0 c src mk cls size flt s)))
      = fst (r_answers c src mk cls ops (snd (r_open c src mk cls size flt s))))
  /\ fst (r_read_with p0 c src mk cls size inc exc s) = fst (r_read c src mk cls size inc exc s).
Proof.
  intros S0 S p0 c src mk cls size flt inc exc s _.
  assert (D : cls = RSinkByRow \/ cls <> RSinkByRow) by (destruct cls; [left; reflexivity|right; discriminate..]).
  destruct D as [->|NR].
  - split; [apply by_row_fails|]. split; [intros K; destruct (by_row_never _ _ _ _ _ _ _ K)|].
    unfold r_read, r_read_with. pose proof (by_row_fails S0 S p0 c src mk size (r_filter inc exc) s) as E.
    pose proof (by_row_never _ c src mk size (r_filter inc exc) s) as NV.
    destruct (r_open c src mk RSinkByRow size (r_filter inc exc) s) as [x p],
      (r_open_with p0 c src mk RSinkByRow size (r_filter inc exc) s) as [x' p']. cbn in E, NV. subst x'.
    destruct x as [[]|ex| |w|]; try reflexivity. destruct (NV eq_refl).
  - set (D := fun _ _ : rdf => True).
    destruct (ropen_rel mk cls D NR (fun _ _ _ _ _ _ => Logic.I) S0 S p0 c src size flt s Logic.I) as [E1 E2].
    split; [symmetry; exact E1|]. split.
    + intros _ ops. symmetry. apply (ranswers_rel mk cls D NR (fun _ _ _ _ _ _ => Logic.I) S c src ops _ _ E2).
    + symmetry. apply (rread_rel mk cls D NR (fun _ _ _ _ _ _ => Logic.I) S0 S p0 c src size inc exc s Logic.I).
Qed.

(** ** SinkWholeData *)

Definition takes_over (d0 a b : rdf) : Prop := b = match a with DfNull => d0 | _ => a end.

Lemma kept_df : forall S0 (p0 : r_program S0) hp, r_contents hp (rob_df (r_kept_object p0)) = r_df p0.
Proof. intros S0 p0 hp. unfold r_kept_object. cbn. destruct (r_df p0); reflexivity. Qed.

Lemma r_whole_again : forall S0 (p0 : r_program S0) S c (src : source S) mk size flt inc exc s ops,
  (let p := snd (r_answers c src mk RSinkWholeData ops (snd (r_open c src mk RSinkWholeData size flt s))) in
   let p' := snd (r_answers c src mk RSinkWholeData ops (snd (r_open_with p0 c src mk RSinkWholeData size flt s))) in
   r_df p' = match r_df p with Some f => Some f | None => r_df p0 end)
  /\ r_df (snd (r_read_with p0 c src mk RSinkWholeData size inc exc s))
     = match r_df (snd (r_read c src mk RSinkWholeData size inc exc s)) with Some f => Some f | None => r_df p0 end.
Proof.
  intros S0 p0 S c src mk size flt inc exc s ops.
  set (D := takes_over (rob_df (r_kept_object p0))).
  assert (KD : forall hp names k a b, D (rob_df a) (rob_df b) ->
    D (rob_df (snd (r_methods mk RSinkWholeData (RqRows hp names k) a)))
      (rob_df (snd (r_methods mk RSinkWholeData (RqRows hp names k) b)))) by (intros; reflexivity).
  assert (NR : RSinkWholeData <> RSinkByRow) by discriminate.
  assert (G : forall (p p' : r_program S), rpg_rel D p p' ->
    r_df p' = match r_df p with Some f => Some f | None => r_df p0 end).
  { intros p p' [_ [E H]]. unfold df_rel, D, takes_over in H. unfold r_df at 1 2. rewrite <- E, H.
    destruct (rob_df (snd (rp_st p))) as [|nm refs|f]; [apply kept_df|reflexivity..]. }
  destruct (ropen_rel mk RSinkWholeData D NR KD S0 S p0 c src size flt s eq_refl) as [_ E2].
  split; [cbv zeta; apply G, (ranswers_rel mk RSinkWholeData D NR KD S c src ops _ _ E2)|].
  apply G, (rread_rel mk RSinkWholeData D NR KD S0 S p0 c src size inc exc s eq_refl).
Qed.

(** ** SinkByChunk *)

Lemma r_chunk_null : forall S0 (p0 : r_program S0) S c (src : source S) mk size flt inc exc s ops, r_df p0 = None ->
  fst (r_open_with p0 c src mk RSinkByChunk size flt s) = fst (r_open c src mk RSinkByChunk size flt s)
  /\ fst (r_answers c src mk RSinkByChunk ops (snd (r_open_with p0 c src mk RSinkByChunk size flt s)))
     = fst (r_answers c src mk RSinkByChunk ops (snd (r_open c src mk RSinkByChunk size flt s)))
  /\ fst (r_read_with p0 c src mk RSinkByChunk size inc exc s) = fst (r_read c src mk RSinkByChunk size inc exc s)
  /\ r_df (snd (r_answers c src mk RSinkByChunk ops (snd (r_open_with p0 c src mk RSinkByChunk size flt s))))
  = r_df (snd (r_answers c src mk RSinkByChunk ops (snd (r_open c src mk RSinkByChunk size flt s))))
  /\ r_df (snd (r_read_with p0 c src mk RSinkByChunk size inc exc s))
     = r_df (snd (r_read c src mk RSinkByChunk size inc exc s)).
Proof.
  intros S0 p0 S c src mk size flt inc exc s ops N0.
  assert (KD : forall hp names k a b, rob_df a = rob_df b ->
    rob_df (snd (r_methods mk RSinkByChunk (RqRows hp names k) a))
    = rob_df (snd (r_methods mk RSinkByChunk (RqRows hp names k) b))).
  { intros hp names k a b E. cbn. rewrite <- E. destruct (r_contents hp (rob_df a)); reflexivity. }
  assert (NR : RSinkByChunk <> RSinkByRow) by discriminate.
  assert (Z : DfNull = rob_df (r_kept_object p0)) by (unfold r_kept_object; rewrite N0; reflexivity).
  assert (G : forall (p p' : r_program S), rpg_rel eq p p' -> r_df p' = r_df p).
  { intros p p' [_ [E H]]. unfold df_rel in H. unfold r_df. rewrite <- E, <- H. reflexivity. }
  destruct (ropen_rel mk RSinkByChunk eq NR KD S0 S p0 c src size flt s Z) as [E1 E2].
  split; [symmetry; exact E1|].
  split; [symmetry; apply (ranswers_rel mk RSinkByChunk eq NR KD S c src ops _ _ E2)|].
  split; [symmetry; apply (rread_rel mk RSinkByChunk eq NR KD S0 S p0 c src size inc exc s Z)|].
  split; [apply G, (ranswers_rel mk RSinkByChunk eq NR KD S c src ops _ _ E2)|].
  apply G, (rread_rel mk RSinkByChunk eq NR KD S0 S p0 c src size inc exc s Z).
Qed.

Lemma rbind_assoc : forall f g h, r_rbind (r_rbind f g) h = r_rbind f (r_rbind g h).
Proof.
  induction f as [|[n u] f IH]; intros g h; [reflexivity|]. destruct g as [|[m v] g]; [reflexivity|].
  destruct h as [|[l w] h]; [reflexivity|]. cbn. rewrite IH, app_assoc. reflexivity.
Qed.

Lemma rbind_below : forall f g, length f = length g -> r_below f g (r_rbind f g).
Proof.
  unfold r_below. induction f as [|[n u] f IH]; intros [|[m v] g] L; try discriminate; [split; reflexivity|].
  injection L as L. destruct (IH g L) as [E1 E2]. cbn. rewrite E1, E2. split; reflexivity.
Qed.

(** The frame with these names and no rows. *)
Definition no_cells (names : list bytes) : rframe := map (fun n => (n, [])) names.

Lemma rbind_none : forall f names, map fst f = names -> r_rbind f (no_cells names) = f.
Proof.
  induction f as [|[n u] f IH]; intros names <-; [reflexivity|]. cbn. unfold no_cells in IH.
  rewrite (IH _ eq_refl), app_nil_r. reflexivity.
Qed.

Lemma no_cells_frame : forall order names, length names = length order -> r_frame_is names order [] (no_cells names).
Proof.
  unfold r_frame_is, no_cells. intros order names L. split; [rewrite map_map; apply map_id|].
  revert names L. induction order as [|c order IH]; intros [|n names] L; try discriminate; constructor;
    [constructor|apply IH; injection L; auto].
Qed.

Definition under (f0 : rframe) (a b : rdf) : Prop := exists g, a = DfOwn g /\ b = DfOwn (r_rbind f0 g).

Lemma under_kept : forall mk f0 hp names k a b, under f0 (rob_df a) (rob_df b) ->
  under f0 (rob_df (snd (r_methods mk RSinkByChunk (RqRows hp names k) a)))
    (rob_df (snd (r_methods mk RSinkByChunk (RqRows hp names k) b))).
Proof.
  intros mk f0 hp names k a b (g & E1 & E2). cbn. rewrite E1, E2. cbn. eexists. split; [reflexivity|].
  rewrite rbind_assoc. reflexivity.
Qed.

Lemma after_rel : forall mk cls (D : rdf -> rdf -> Prop), cls <> RSinkByRow ->
  (forall hp names k a b, D (rob_df a) (rob_df b) ->
    D (rob_df (snd (r_methods mk cls (RqRows hp names k) a))) (rob_df (snd (r_methods mk cls (RqRows hp names k) b)))) ->
  forall evs u v, rst_rel D u v -> accepts (r_sink_of mk cls) u evs ->
  accepts (r_sink_of mk cls) v evs /\ rst_rel D (after (r_sink_of mk cls) u evs) (after (r_sink_of mk cls) v evs).
Proof.
  intros mk cls D NR KD. induction evs as [|e evs IH]; intros u v H A; [auto|]. cbn [accepts after] in *.
  destruct (class_rel mk cls D NR KD e u v H) as [E1 E2]. rewrite !r_class_kind in E1, E2.
  destruct A as [A1 A2]. destruct (IH _ _ E2 A2) as [B1 B2]. rewrite <- E1. auto.
Qed.

Lemma r_opened_with : forall mk h md size q ob, wrap_properties h md = Ok q ->
  r_class_sink mk RSinkByChunk (EvProps h md) (rsink_new size, ob)
  = (Ok tt, (r_props (rsink_new size) md, RObject q [] (rob_df ob))).
Proof.
  intros mk h md size q ob W. rewrite r_class_kind. cbn [r_sink_of rchunk_sink].
  unfold rcb_props. rewrite W. cbn [r_methods]. rewrite (columns_of_flat _ _ _ W). reflexivity.
Qed.

Lemma r_chunks_again : forall S0 (p0 : r_program S0) f0 S c (src : source S) mk size inc exc s r0 ev r1 rows,
  max_alloc c < row_limit -> (forall l, length (mk l) = length l) ->
  open_reader c src (Some (r_filter inc exc)) s = Ok (r0, ev) ->
  read_all c src r0 = (Ok tt, r1, SpecSinks.pushes rows ++ [EvEnd]) ->
  dated (rs_h r0) -> md_row_count (rs_md r0) <= r_rows_limit -> r_readable (md_columns (rs_md r0)) rows ->
  lenN rows = md_row_count (rs_md r0) -> r_df p0 = Some f0 ->
  exists order names, Permutation order (filter known (md_columns (rs_md r0)))
    /\ Forall2 (fun c n => until_zero (c_name c) n) order names
    /\ (forall order0 rows0, r_frame_is (mk names) order0 rows0 f0 -> map c_type order0 = map c_type order -> exists p g f, r_read_with p0 c src mk RSinkByChunk size inc exc s = (Ok tt, p)
        /\ r_df p = Some f /\ r_frame_is (mk names) order rows g /\ r_below f0 g f).
Proof.
  intros S0 p0 f0 S c src mk size inc exc s r0 ev r1 rows M LM O R D BL RD LR D0.
  exists (grouped (md_columns (rs_md r0))), (map r_name (grouped (md_columns (rs_md r0)))).
  split; [apply grouped_perm|]. split; [apply names_until|].
  intros order0 rows0 [NM _] _.
  pose proof (read_increasing _ _ _ _ _ _ _ _ _ M O R) as INC.
  destruct (wrapped _ (rs_md r0) D) as [q W].
  destruct (r_start size (rs_md r0)) as (L & OK0 & SZ & IS0 & LE).
  set (names := mk (map r_name (grouped (md_columns (rs_md r0))))) in *.
  assert (LN : length names = length (grouped (md_columns (rs_md r0)))) by (unfold names; rewrite LM; apply map_length).
  destruct (tail_rows mk (md_columns (rs_md r0)) size (md_row_count (rs_md r0)) BL LN (length rows) rows [] L
    (r_props (rsink_new size) (rs_md r0)) (RObject q [] (DfOwn (no_cells names))) (le_n _) OK0)
    as (A1 & g & A2 & A3).
  { rewrite IS0. exact SZ. } { rewrite IS0. lia. } { rewrite IS0. exact INC. } { exact RD. }
  { left. exists (no_cells names). split; [reflexivity|]. apply no_cells_frame. exact LN. }
  cbn [app] in A3.
  assert (NR : RSinkByChunk <> RSinkByRow) by discriminate.
  assert (R0 : rst_rel (under f0) (r_props (rsink_new size) (rs_md r0), RObject q [] (DfOwn (no_cells names)))
                 (r_props (rsink_new size) (rs_md r0), RObject q [] (rob_df (r_kept_object p0)))).
  { split; [reflexivity|]. unfold df_rel, under. cbn. rewrite D0. eexists. split; [reflexivity|].
    rewrite rbind_none by exact NM. reflexivity. }
  destruct (after_rel mk RSinkByChunk (under f0) NR (under_kept mk f0) _ _ _ R0 A1) as [B1 [B2 (g' & B3 & B4)]].
  cbn [r_sink_of] in B1, B2, B3, B4.
  eexists (RProgram (Some r1) _), g, (r_rbind f0 g).
  split; [|split; [|split; [exact A3|]]].
  - unfold r_read_with, r_open_with. rewrite drive_open_spec, O. cbn zeta.
    rewrite (r_opened_with mk _ _ size q (r_kept_object p0) W). cbn [fst snd rmap bind].
    unfold r_do. cbn [rp_reader rp_st].
    assert (ST : step c src OpReadAll r0 = (Ok OUnit, r1, SpecSinks.pushes rows ++ [EvEnd]))
      by (cbn [step]; rewrite R; reflexivity).
    assert (A' : accepts (r_class_sink mk RSinkByChunk) (r_props (rsink_new size) (rs_md r0),
        RObject q [] (rob_df (r_kept_object p0))) (SpecSinks.pushes rows ++ [EvEnd]))
      by (apply (accepts_ext _ _ _ (r_class_kind mk RSinkByChunk)); exact B1).
    rewrite (drive_accepted _ _ _ _ _ _ _ _ _ _ _ ST A'). cbn [rmap bind].
    rewrite (after_ext _ _ _ (r_class_kind mk RSinkByChunk)). reflexivity.
  - unfold r_df. cbn [rp_st r_sink_of]. rewrite B4. cbn. f_equal. f_equal. rewrite B3 in A2. cbn in A2. congruence.
  - apply rbind_below. destruct A3 as [E _]. rewrite <- (map_length fst f0), <- (map_length fst g), E, NM. reflexivity.
Qed.
