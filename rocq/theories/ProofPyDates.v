(** Rows with a datetime which has no Python object. *)
From Verif Require Import PyObjects Base Lemmas Types DateTime Buffer Column Header Metadata Reader Drive
  Sinks Callbacks SpecReader SpecDrive SpecTime SpecSinks SpecCells SpecCallbacks SpecPyObjects ProofPyObjects
  ProofTime ProofPyChunks ProofCallbacks ProofPython.
Local Open Scope N_scope.

(** All the values given away have become objects. *)
Definition all_conv (k : pycall) : Prop :=
  match k with
  | PyPushRows _ _ d => forall n l, In (n, l) d -> Forall conv l
  | _ => True
  end.
Definition good_log {P} (st : pyst (P * list (pyreq * res unit))) : Prop := Forall all_conv (logof st).

Lemma mapM_back : forall vs l, mapM to_py vs = Ok l -> Forall conv vs.
Proof.
  induction vs as [|v vs IH]; intros l H; [constructor|]. cbn [mapM] in H.
  destruct (to_py v) as [x| | | |] eqn:E; try discriminate. cbn [bind] in H.
  destruct (mapM to_py vs) as [l'| | | |] eqn:M; try discriminate.
  constructor; [exists x; exact E|exact (IH _ eq_refl)].
Qed.

Lemma set_conv : forall (d : list (bytes * list value)) k v, Forall conv v ->
  (forall n l, In (n, l) d -> Forall conv l) -> forall n l, In (n, l) (dict_set d k v) -> Forall conv l.
Proof.
  induction d as [|[k' v'] d IH]; intros k v V H n l I; cbn in I.
  - destruct I as [I|[]]. injection I as <- <-. exact V.
  - destruct (bytes_eqb k' k); cbn in I; destruct I as [I|I].
    + injection I as <- <-. exact V.
    + apply (H n l). right. exact I.
    + injection I as <- <-. apply (H k' v'). left. reflexivity.
    + apply (IH k v V) with (n := n); [|exact I]. intros n' l' I'. apply (H n' l'). right. exact I'.
Qed.

Lemma ready_conv : forall cs vals d, dict_ready cs vals = Ok tt ->
  (forall n l, In (n, l) d -> Forall conv l) -> forall n l, In (n, l) (py_dict cs vals d) -> Forall conv l.
Proof.
  induction cs as [|c cs IH]; intros [|v vals] d R H n l I; cbn [py_dict] in I; try exact (H n l I).
  cbn [dict_ready] in R. destruct (mapM to_py v) as [lx| | | |] eqn:M; try discriminate. cbn [bind] in R.
  destruct (Utf8.utf8_ok (c_name c)); [|discriminate].
  apply (IH vals (dict_set d (c_name c) v) R) with (n := n); [|exact I].
  apply set_conv; [exact (mapM_back _ _ M)|exact H].
Qed.

Lemma flush_log : forall P (o : pyobj P) (st : pyst (P * list (pyreq * res unit))),
  good_log st -> good_log (snd (cb_flush (noted o) st)).
Proof.
  intros P o st G. unfold cb_flush. destruct (py_idata (pt_c st) =? 0); [exact G|].
  unfold dict_method. destruct (pt_err st) eqn:E; [exact G|].
  destruct (dict_ready _ _) as [[]| | | |] eqn:R; try exact G.
  destruct (method_noted P o (PyPushRows (py_istart (pt_c st)) (py_iend (pt_c st))
       (py_dict (py_cols (pt_c st)) (py_vals (pt_c st)) [])) st E) as (y & p & log & M & L).
  rewrite M.
  assert (GL : Forall all_conv (returned log)).
  { rewrite L. apply Forall_app. split; [exact G|]. destruct y as [[]| | | |]; constructor; [|constructor].
    intros n l. apply (ready_conv _ _ _ R). intros ? ? []. }
  destruct y as [[]| | | |]; exact GL.
Qed.

Lemma step_log : forall P (o : pyobj P) ev (st : pyst (P * list (pyreq * res unit))),
  good_log st -> good_log (snd (chunk_sink (noted o) ev st)).
Proof.
  intros P o [h md|i p|] st G; cbn [chunk_sink].
  - unfold cb_props, py_method, set_cpp. cbn [pt_err pt_obj]. destruct (pt_err st); [exact G|].
    unfold noted. destruct (o (PyProps h md) (fst (pt_obj st))) as [y p'].
    assert (GL : Forall all_conv (returned (snd (pt_obj st) ++ [(PyProps h md, y)]))).
    { rewrite returned_app. apply Forall_app. split; [exact G|]. cbn. constructor. }
    destruct y as [[]| | | |]; exact GL.
  - unfold cb_push. destruct (mapM _ _); try exact G. cbv zeta.
    destruct (_ =? _); [apply flush_log|]; exact G.
  - apply flush_log. exact G.
Qed.

Lemma after_log : forall P (o : pyobj P) evs (st : pyst (P * list (pyreq * res unit))),
  good_log st -> good_log (after (chunk_sink (noted o)) st evs).
Proof. induction evs as [|e evs IH]; intros st G; [exact G|]. cbn [after]. apply IH. apply step_log. exact G. Qed.

(** A chunk which was given away has no such row. *)
Lemma chunk_without : forall cs ck k r col v, py_chunk cs ck k -> all_conv k -> In r ck -> In col cs ->
  known col = true -> cell_value col (snd r) v -> conv v.
Proof.
  intros cs ck k r col v CK AC I IC K CV. destruct k as [a b d| |]; try contradiction.
  destruct CK as [[_ PD] _]. destruct (PD col IC K) as (vs & ID & F).
  specialize (AC _ _ ID). clear ID PD. induction F as [|r' v' ck vs CV' F IH]; [destruct I|].
  inversion AC as [|? ? A1 A2]; subst. destruct I as [->|I]; [|exact (IH A2 I)].
  replace v with v'; [assumption|]. destruct v, v'; cbn in CV, CV'; destruct CV as [? CV], CV' as [? CV']; congruence.
Qed.

Lemma chunks_without : forall cs cks log r col v, Forall2 (py_chunk cs) cks log -> Forall all_conv log ->
  In r (concat cks) -> In col cs -> known col = true -> cell_value col (snd r) v -> conv v.
Proof.
  intros cs cks log r col v F. induction F as [|ck k cks log CK F IH]; intros G I IC K CV; [destruct I|].
  inversion G; subst. cbn [concat] in I. apply in_app_or in I. destruct I as [I|I]; [|auto].
  eapply chunk_without; eassumption.
Qed.

Lemma prefix_short : forall A (pre post u w : list A) r, pre ++ r :: post = u ++ w -> ~ In r u ->
  (length u <= length pre)%nat.
Proof.
  induction pre as [|x pre IH]; intros post [|y u] w r E NI; cbn in *; try lia.
  - injection E as <- _. contradiction NI. left. reflexivity.
  - injection E as <- E. assert (length u <= length pre)%nat; [|lia]. eapply IH; [exact E|]. intros I. apply NI. right. exact I.
Qed.

Lemma chunks_blocked : forall P (o : pyobj P) size h md pre r post p col n t us,
  let rows := pre ++ r :: post in
  NoDup (map c_name (filter known (md_columns md))) -> readable (md_columns md) rows -> lenN rows < W64 ->
  fst (o (PyProps h md) p) = Ok tt ->
  In col (md_columns md) ->
  cell_value col (snd r) (VDateTime (PTicks (jdn_1960 * day_us + n * day_us + us))) ->
  days_from_1960 n t -> (let '(y, _, _) := t in 0 <= y <= 20000)%Z -> ~ supported t -> (0 <= us < day_us)%Z ->
  let k := chunk_sink (noted o) in
  let st := after k (chunk_start size p) (EvProps h md :: pushes rows) in
  exists cks pend, rows = concat cks ++ pend
    /\ Forall2 (py_chunk (md_columns md)) cks (returned (snd (pt_obj st)))
    /\ (length (concat cks) <= length pre)%nat
    /\ fst (k EvEnd st) <> Ok tt.
Proof.
  intros P o size h md pre r post p col n t us rows ND RD B PR IC CV D Y S U k st.
  assert (NC : ~ conv (VDateTime (PTicks (jdn_1960 * day_us + n * day_us + us)))).
  { intros [x X]. rewrite (bad_year n t us D) in X; [discriminate| |exact S|exact U].
    destruct t as [[y m] d]. exact Y. }
  assert (K : known col = true) by (unfold known; destruct CV as [T _]; rewrite T; reflexivity).
  destruct (chunks_conserved P o size h md rows p ND RD B PR) as (cks & pend & RW & CK & EE & _).
  fold k in EE. fold st in EE.
  assert (G : good_log st) by (apply after_log; constructor).
  assert (NI : ~ In r (concat cks)).
  { intros I. apply NC. exact (chunks_without _ _ _ _ _ _ CK G I IC K CV). }
  exists cks, pend. split; [exact RW|]. split; [exact CK|].
  split; [eapply prefix_short; [exact RW|exact NI]|].
  intros E. destruct (EE E) as (last & PE & CK2).
  apply NC. eapply (chunks_without _ _ _ r _ _ CK2); [|rewrite concat_app, <- PE, <- RW; apply in_elt|exact IC|exact K|exact CV].
  apply (step_log P o EvEnd st G).
Qed.

(** ** The rows which the row sink tells *)

Lemma cells_told : forall cs p, Forall (fun c => known c = true -> exists v, cell_value c p v /\ in_calendar v) cs ->
  exists xs, mapM (fun c => row_cell c p) cs = Ok xs
    /\ Forall2 (fun c v => cell_value c p v) (filter known cs) (somes xs).
Proof.
  induction cs as [|c cs IH]; intros p R; [exists []; split; [reflexivity|constructor]|].
  inversion R as [|? ? R1 R2]; subst. destruct (IH p R2) as (xs & M & F). cbn [mapM filter].
  destruct (known c) eqn:K.
  - destruct (R1 eq_refl) as (v & V & IC). destruct (calendar_shown v IC) as (x & X & _).
    exists (Some v :: xs). rewrite M. split; [|cbn [somes]; constructor; assumption].
    unfold row_cell, column_value. destruct v; destruct V as [T G]; rewrite T, G; cbn [bind]; rewrite X; reflexivity.
  - exists (None :: xs). rewrite M. split; [|exact F].
    unfold row_cell, column_value. unfold known in K. destruct (c_type c); try discriminate K. reflexivity.
Qed.

Lemma rows_told : forall P (o : pyobj P) size h md rows p, showable (md_columns md) rows ->
  fst (o (PyProps h md) p) = Ok tt ->
  let k := row_sink (noted o) in
  let st := after k (chunk_start size p) (EvProps h md :: pushes rows) in
  fst (k EvEnd st) = Ok tt /\
  exists log, snd (pt_obj st) = (PyProps h md, Ok tt) :: log
    /\ Forall2 (fun r x => exists vs, fst x = PyCall (PyPushRow (fst r) vs)
                  /\ Forall2 (fun c v => cell_value c (snd r) v) (filter known (md_columns md)) vs) rows log.
Proof.
  intros P o size h md rows p R H. split; [reflexivity|].
  assert (G : forall rows st, showable (md_columns md) rows -> pt_err st = false -> py_cols (pt_c st) = md_columns md ->
    exists log, snd (pt_obj (after (row_sink (noted o)) st (pushes rows))) = snd (pt_obj st) ++ log
    /\ Forall2 (fun r x => exists vs, fst x = PyCall (PyPushRow (fst r) vs)
                  /\ Forall2 (fun c v => cell_value c (snd r) v) (filter known (md_columns md)) vs) rows log).
  { clear rows R. induction rows as [|[i q] rows IH]; intros st R E C.
    - exists []. rewrite app_nil_r. split; [reflexivity|constructor].
    - inversion R as [|? ? R1 R2]; subst. cbn [snd] in R1. destruct (cells_told _ _ R1) as (xs & M & F).
      cbn [pushes map after fst snd]. cbn [row_sink]. rewrite C, M. unfold py_method. rewrite E.
      unfold noted at 2. destruct (o (PyCall (PyPushRow i (somes xs))) (fst (pt_obj st))) as [y p'] eqn:D. cbn [snd].
      edestruct IH as (log & L & FL); [exact R2| | |]; [| |exists ((PyCall (PyPushRow i (somes xs)), y) :: log)].
      3: { split; [etransitivity; [exact L|]|constructor; [exists (somes xs); split; [reflexivity|exact F]|exact FL]].
           cbn. rewrite <- app_assoc. reflexivity. }
      { reflexivity. } { exact C. } }
  assert (S1 : exists s, snd (row_sink (noted o) (EvProps h md) (chunk_start size p)) = s /\ pt_err s = false
            /\ py_cols (pt_c s) = md_columns md /\ snd (pt_obj s) = [(PyProps h md, Ok tt)]).
  { cbn [row_sink]. unfold cb_props, py_method, set_cpp, chunk_start, noted. cbn [pt_err pt_obj fst snd].
    destruct (o (PyProps h md) p) as [y p']. cbn in H. subst y. eexists. split; [reflexivity|]. cbn. auto. }
  destruct S1 as (s & S1 & S2 & S3 & S4). cbn [after]. rewrite S1.
  destruct (G rows s R S2 S3) as (log & L & F). exists log. split; [rewrite L, S4; reflexivity|exact F].
Qed.
