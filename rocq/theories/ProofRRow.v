(** Proofs about the row sink of the R binding. *)
From Verif Require Import Base Lemmas Types Float DateTime Buffer Page Column Header Metadata Decomp Data Reader Drive
  Sinks Print Callbacks RPackage SpecReader SpecDrive SpecValues SpecTime SpecSinks SpecRPackage
  ProofValues ProofReader ProofDrive ProofTime ProofPyChunks ProofRChunks.
Local Open Scope N_scope.

Lemma row_cell_ok : forall c p v y, cell_value c p v -> r_shows c p v y ->
  exists x, r_row_cell v = Ok x /\ r_row_shows c p v x.
Proof.
  intros c p v y V S. destruct v as [s|z|b|[|t]|[|d]|[|t]]; cbn [r_row_cell r_row_shows].
  - eexists. split; [reflexivity|]. exists (r_text s). split; [apply r_text_until|reflexivity].
  - eexists. split; [reflexivity|]. reflexivity.
  - eexists. split; [reflexivity|].
    split; [destruct (sf_isnan (sf_of_bits b)); auto|]. split.
    + intros N. rewrite (nan_bits b N). reflexivity.
    + intros q Q. destruct (value_fz b q Q) as (_ & _ & E & _). rewrite E. reflexivity.
  - exists None. split; reflexivity.
  - pose proof (r_val_shows _ _ _ _ V S) as R. cbn [r_val r_shows] in *. destruct S as (x & S & ->).
    destruct (datetime_to_string (PTicks t)) as [w| | | |]; try discriminate R. cbn [bind] in *. injection R as ->. eauto.
  - exists None. split; reflexivity.
  - pose proof (r_val_shows _ _ _ _ V S) as R. cbn [r_val r_shows] in *. destruct S as (x & S & ->).
    destruct (date_to_string (GDate d)) as [w| | | |]; try discriminate R. cbn [bind] in *. injection R as ->. eauto.
  - exists None. split; reflexivity.
  - pose proof (r_val_shows _ _ _ _ V S) as R. cbn [r_val r_shows] in *. destruct S as (x & S & ->).
    destruct (time_to_string (TTicks t)) as [w| | | |]; try discriminate R. cbn [bind] in *. injection R as ->. eauto.
Qed.

(** What is not shown stays NULL. *)
Definition blank_row (cs : list column) (row : list (option rval)) : Prop :=
  Forall2 (fun c x => known c = false -> x = None) cs row.

Lemma row_cells_ok : forall cs p row, Forall (fun c => known c = true -> exists y, r_cell c p y) cs -> blank_row cs row ->
  exists cells, r_row_cells cs p row = Ok cells /\ r_row_is cs p cells /\ blank_row cs cells.
Proof.
  intros cs p row R B. induction B as [|c x cs row B1 B IH]; [exists []; repeat split; constructor|].
  inversion R as [|? ? R1 R2]; subst. destruct (IH R2) as (cells & E & F & G). cbn [r_row_cells].
  destruct (known c) eqn:K.
  - destruct (R1 eq_refl) as (y & v & V & S). destruct (row_cell_ok c p v y V S) as (z & Z1 & Z2).
    assert (CV : column_value c p = Ok (Some v)).
    { unfold column_value. destruct v; destruct V as [T V]; rewrite T, V; reflexivity. }
    rewrite CV. cbn [bind]. rewrite Z1. cbn [bind]. rewrite E. cbn [bind].
    eexists. split; [reflexivity|]. split; constructor; try assumption.
    + rewrite K. eauto.
    + rewrite K. discriminate.
  - assert (CV : column_value c p = Ok None).
    { unfold column_value. unfold known in K. destruct (c_type c); try discriminate K. reflexivity. }
    rewrite CV. cbn [bind]. rewrite E. cbn [bind].
    eexists. split; [reflexivity|]. split; constructor; try assumption; [rewrite K|]; auto.
Qed.

Definition row_ok (cs : list column) (st : rstate_sink) : Prop :=
  r_cols st = cs /\ (r_index st < length (r_heap st))%nat /\ blank_row cs (nth (r_index st) (r_heap st) []).

Lemma row_step : forall P (o : robj P) cs st a i p, (forall hp j r a, fst (o (RqRow hp j r) a) = Ok tt) ->
  row_ok cs st -> Forall (fun c => known c = true -> exists y, r_cell c p y) cs ->
  exists st' cells, rrow_sink o (EvRow i p) (st, a) = (Ok tt, (st', snd (o (RqRow (r_heap st') i (r_index st')) a)))
    /\ r_index st' = r_index st /\ row_ok cs st' /\ nth (r_index st') (r_heap st') [] = cells /\ r_row_is cs p cells.
Proof.
  intros P o cs st a i p Q (E & L & B) R. cbn [rrow_sink]. rewrite E.
  destruct (row_cells_ok cs p _ R B) as (cells & C1 & C2 & C3). rewrite C1.
  set (st' := r_with st (r_idata st) (r_istart st) (r_iend st) (r_index st) (upd (r_index st) cells (r_heap st))).
  exists st', cells. pose proof (Q (r_heap st') i (r_index st') a) as Q'.
  destruct (o (RqRow (r_heap st') i (r_index st')) a) as [y a']. cbn in Q'. subst y.
  split; [reflexivity|]. split; [reflexivity|].
  assert (NX : nth (r_index st) (upd (r_index st) cells (r_heap st)) [] = cells) by (apply upd_same; exact L).
  split; [|split; [exact NX|exact C2]].
  split; [exact E|]. cbn [st' r_with r_index r_heap]. rewrite upd_length, NX. auto.
Qed.

Lemma row_open : forall P (o : robj P) h md size a, dated h -> (forall p a, o (RqProps p) a = (Ok tt, a)) ->
  exists st, rrow_sink o (EvProps h md) (rsink_new size, a) = (Ok tt, (st, a)) /\ row_ok (md_columns md) st.
Proof.
  intros P o h md size a ((t1 & D1) & (t2 & D2)) Q. cbn [rrow_sink]. unfold r_alloc, rcb_props, wrap_properties.
  rewrite D1. cbn [bind]. rewrite D2. cbn [bind]. rewrite Q. eexists. split; [reflexivity|].
  split; [reflexivity|]. cbn [r_index r_heap rsink_new]. split; [cbn; lia|].
  cbn [app length nth]. unfold lenN. rewrite Nat2N.id. clear. unfold blank_row.
  induction (md_columns md) as [|c cs IH]; cbn; constructor; auto.
Qed.

Lemma rows_seen : forall rows cs st l, row_ok cs st -> r_readable cs rows ->
  accepts (rrow_sink r_looks) (st, l) (pushes rows)
  /\ exists l', snd (after (rrow_sink r_looks) (st, l) (pushes rows)) = l ++ l'
     /\ Forall2 (fun r x => fst x = fst r /\ r_row_is cs (snd r) (snd x)) rows l'.
Proof.
  induction rows as [|[i p] rows IH]; intros cs st l OKs RD.
  - cbn. split; [exact Logic.I|]. exists []. rewrite app_nil_r. split; [reflexivity|constructor].
  - inversion RD as [|? ? R1 R2]; subst. cbn [snd] in R1.
    destruct (row_step _ r_looks cs st l i p (fun _ _ _ _ => eq_refl) OKs R1) as (st' & cells & E & X & OK' & C1 & C2).
    change (pushes ((i, p) :: rows)) with (EvRow i p :: pushes rows). cbn [accepts after]. rewrite E. cbn [fst snd r_looks].
    destruct (IH cs st' (l ++ [(i, nth (r_index st') (r_heap st') [])]) OK' R2) as (A & l' & L1 & L2).
    split; [auto|]. exists ((i, cells) :: l'). rewrite L1, C1, <- app_assoc. split; [reflexivity|].
    constructor; [auto|exact L2].
Qed.

Lemma row_sink_shows : forall size h md rows, dated h -> r_readable (md_columns md) rows ->
  let k := rrow_sink r_looks in
  let evs := EvProps h md :: pushes rows ++ [EvEnd] in
  accepts k (rsink_new size, []) evs
  /\ Forall2 (fun r x => fst x = fst r /\ r_row_is (md_columns md) (snd r) (snd x)) rows
       (snd (after k (rsink_new size, []) evs)).
Proof.
  intros size h md rows D RD. cbv zeta. destruct (row_open _ r_looks h md size [] D (fun _ _ => eq_refl)) as (st & E & OKs).
  cbn [accepts after]. rewrite E. cbn [fst snd].
  destruct (rows_seen rows (md_columns md) st [] OKs RD) as (A & l' & L1 & L2). cbn [app] in L1.
  rewrite accepts_app, after_app.
  destruct (after (rrow_sink r_looks) (st, []) (pushes rows)) as [st1 l1]. cbn in L1. subst l1.
  cbn. auto.
Qed.

Lemma rows_kept : forall rows cs st l, row_ok cs st -> r_readable cs rows ->
  accepts (rrow_sink r_keeps) (st, l) (pushes rows)
  /\ exists st', after (rrow_sink r_keeps) (st, l) (pushes rows) = (st', l ++ repeat (r_index st) (length rows))
     /\ r_index st' = r_index st
     /\ forall before r, rows = before ++ [r] -> r_row_is cs (snd r) (nth (r_index st) (r_heap st') []).
Proof.
  induction rows as [|[i p] rows IH]; intros cs st l OKs RD.
  - cbn. split; [exact Logic.I|]. exists st. rewrite app_nil_r. split; [reflexivity|]. split; [reflexivity|].
    intros [|? ?] r E; discriminate E.
  - inversion RD as [|? ? R1 R2]; subst. cbn [snd] in R1.
    destruct (row_step _ r_keeps cs st l i p (fun _ _ _ _ => eq_refl) OKs R1) as (st' & cells & E & X & OK' & C1 & C2).
    change (pushes ((i, p) :: rows)) with (EvRow i p :: pushes rows). cbn [accepts after]. rewrite E. cbn [fst snd r_keeps].
    destruct (IH cs st' (l ++ [r_index st']) OK' R2) as (A & st2 & L1 & L2 & L3).
    split; [auto|]. exists st2. rewrite L1, <- app_assoc, X. split; [reflexivity|]. split; [congruence|].
    intros [|b before] r EQ.
    + cbn in EQ. injection EQ as <- E2. subst rows. cbn in L1. injection L1 as <-.
      rewrite <- X, C1. exact C2.
    + cbn in EQ. injection EQ as <- EQ. rewrite <- X. apply (L3 _ _ EQ).
Qed.

Lemma row_sink_keeps : forall size h md rows r, dated h -> r_readable (md_columns md) (rows ++ [r]) ->
  let k := rrow_sink r_keeps in
  let evs := EvProps h md :: pushes (rows ++ [r]) ++ [EvEnd] in
  accepts k (rsink_new size, []) evs
  /\ let '(st, refs) := after k (rsink_new size, []) evs in
     length refs = length (rows ++ [r])
     /\ Forall (fun w => r_row_is (md_columns md) (snd r) (nth w (r_heap st) [])) refs.
Proof.
  intros size h md rows r D RD. cbv zeta. destruct (row_open _ r_keeps h md size [] D (fun _ _ => eq_refl)) as (st & E & OKs).
  cbn [accepts after]. rewrite E. cbn [fst snd].
  destruct (rows_kept (rows ++ [r]) (md_columns md) st [] OKs RD) as (A & st' & L1 & L2 & L3). cbn [app] in L1.
  rewrite accepts_app, after_app, L1. cbn. split; [auto|]. split; [apply repeat_length|].
  apply Forall_forall. intros w I. apply repeat_spec in I. subst w. apply (L3 rows r eq_refl).
Qed.
