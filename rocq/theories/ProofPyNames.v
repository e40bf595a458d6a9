(** The names of the columns as the sinks of the Python package get them. *)
From Verif Require Import PyObjects Base Lemmas Types Buffer Page Column Header Metadata Decomp Data Reader Drive
  Sinks Utf8 Callbacks Python SpecUtf8 ProofUtf8 SpecPyObjects ProofPyObjects SpecReader SpecDrive SpecSinks SpecCallbacks SpecPython ProofDrive
  ProofPyChunks ProofPython ProofPyEnd ProofPyFile.
Local Open Scope N_scope.

Lemma open_names : forall S c (src : source S) cls size flt s r0 ev,
  open_reader c src (Some flt) s = Ok (r0, ev) ->
  fst (py_open c src cls size flt s)
  = if named_in_utf8 (md_columns (rs_md r0)) then Ok tt else Exn E_unicode_error.
Proof.
  intros S c src cls size flt s r0 ev O. unfold py_open. fold (start_state cls size).
  rewrite drive_open_spec, O. cbn zeta. pose proof (class_props cls size (rs_h r0) (rs_md r0)) as K.
  destruct (named_in_utf8 (md_columns (rs_md r0))).
  - destruct K as (st1 & K & _ & E & _). rewrite K. cbn [fst snd rmap bind]. unfold settle. rewrite E. reflexivity.
  - destruct K as (st1 & K). rewrite K. reflexivity.
Qed.

Lemma open_text : forall S c (src : source S) cls size inc exc s r0 ev,
  open_reader c src (Some (py_filter inc exc)) s = Ok (r0, ev) ->
  (Forall (fun c => utf8_text (c_name c)) (md_columns (rs_md r0)) ->
     fst (py_open c src cls size (py_filter inc exc) s) = Ok tt)
  /\ (~ Forall (fun c => utf8_text (c_name c)) (md_columns (rs_md r0)) ->
     fst (py_open c src cls size (py_filter inc exc) s) = Exn E_unicode_error
     /\ fst (read_sas c src cls size inc exc s) = Exn E_unicode_error).
Proof.
  intros S c src cls size inc exc s r0 ev O. pose proof (open_names _ _ _ cls size _ _ _ _ O) as H.
  rewrite <- utf8_named. destruct (named_in_utf8 (md_columns (rs_md r0))).
  - split; [auto|]. intros X. contradiction X. reflexivity.
  - split; [discriminate|]. intros _. split; [exact H|].
    unfold read_sas. destruct (py_open c src cls size (py_filter inc exc) s) as [x p]. cbn [fst] in H. subst x.
    reflexivity.
Qed.

(** ** Any object given to the chunk sink *)

Lemma bad_grouped : forall cs c, In c cs -> known c = true -> ~ utf8_text (c_name c) ->
  named_in_utf8 (grouped cs) = false.
Proof.
  intros cs c I K U. destruct (named_in_utf8 (grouped cs)) eqn:E; [|reflexivity]. exfalso. apply U.
  apply utf8_named in E. rewrite Forall_forall in E. apply (E c). apply grouped_known. auto.
Qed.

Lemma unready : forall cs vals, named_in_utf8 cs = false -> Forall (Forall conv) vals -> length vals = length cs ->
  dict_ready cs vals = Exn E_unicode_error.
Proof.
  induction cs as [|c cs IH]; intros [|v vals] U F L; try discriminate.
  inversion F as [|? ? F1 F2]; subst. destruct (mapM_conv v F1) as [l M].
  cbn [dict_ready]. rewrite M. cbn [bind]. cbn in U. destruct (utf8_ok (c_name c)); [|reflexivity].
  apply IH; [exact U|exact F2|cbn in L; lia].
Qed.

Lemma append_length : forall vals vs, length (append_values vals vs) = length vals.
Proof. induction vals as [|l vals IH]; intros [|v vs]; cbn; auto. Qed.

Definition stuck {P} (cs : list column) (size n : N) (p : P) (st : pyst (P * list (pyreq * res unit))) : Prop :=
  pt_err st = false /\ pt_cpp st = true /\ py_cols (pt_c st) = grouped cs /\ py_size (pt_c st) = size
  /\ py_idata (pt_c st) = n /\ fst (pt_obj st) = p /\ returned (snd (pt_obj st)) = []
  /\ Forall (Forall conv) (py_vals (pt_c st)) /\ length (py_vals (pt_c st)) = length (grouped cs).

Lemma stuck_row : forall P (o : pyobj P) cs size n q st i p, named_in_utf8 (grouped cs) = false ->
  stuck cs size n q st -> showable cs [(i, p)] -> n + 1 < W64 ->
  fst (chunk_sink (noted o) (EvRow i p) st) = (if n + 1 =? size then Exn E_unicode_error else Ok tt)
  /\ stuck cs size (n + 1) q (snd (chunk_sink (noted o) (EvRow i p) st)).
Proof.
  intros P o cs size n q st i p U (E & CP & C & Z & D & PO & LG & CV & LV) SH B.
  pose proof (showable_readable _ _ SH) as RD. pose proof (showable_conv _ _ SH) as RC.
  inversion RC as [|? ? RC1 _]; subst. cbn [snd] in RC1.
  apply readable_grouped in RD. inversion RD as [|? ? R _]; subst. cbn [snd] in R.
  destruct (group_values (grouped cs) p (grouped_all_known cs) R) as (vs & M & F).
  pose proof (append_conv _ _ CV (RC1 vs M)) as CV'.
  assert (LV' : length (append_values (py_vals (pt_c st)) vs) = length (grouped cs)) by (rewrite append_length; exact LV).
  cbn [chunk_sink]. unfold cb_push. rewrite C, M. cbn [py_idata py_size].
  rewrite add64_small by exact B. destruct (N.eqb_spec (py_idata (pt_c st) + 1) (py_size (pt_c st))) as [L|L].
  - unfold cb_flush. cbn [with_chunk pt_c py_idata py_cols].
    destruct (N.eqb_spec (py_idata (pt_c st) + 1) 0); [lia|].
    unfold dict_method. cbn [with_chunk pt_err pt_c py_cols py_vals].
    rewrite E, (unready _ _ U CV' LV'). cbn [fst snd].
    split; [reflexivity|]. unfold stuck. cbn. auto 12.
  - cbn [fst snd]. split; [reflexivity|]. unfold stuck. cbn. auto 12.
Qed.

Lemma stuck_rows : forall P (o : pyobj P) cs size q, named_in_utf8 (grouped cs) = false ->
  forall rows n st, stuck cs size n q st -> showable cs rows -> n + lenN rows < W64 ->
  stuck cs size (n + lenN rows) q (after (chunk_sink (noted o)) st (SpecSinks.pushes rows)).
Proof.
  intros P o cs size q U. induction rows as [|[i p] rows IH]; intros n st H RD B.
  - change (lenN []) with 0. rewrite N.add_0_r. exact H.
  - change ((i, p) :: rows) with ([(i, p)] ++ rows) in RD. apply Forall_app in RD. destruct RD as [RD1 RD2].
    assert (LM : lenN ((i, p) :: rows) = 1 + lenN rows) by (unfold lenN; cbn [length]; lia).
    destruct (stuck_row P o cs size n q st i p U H RD1) as [_ H1]; [lia|].
    rewrite LM, N.add_assoc. apply IH; [exact H1|exact RD2|lia].
Qed.

Lemma chunks_undecodable : forall P (o : pyobj P) size h md rows p col,
  In col (md_columns md) -> known col = true -> ~ utf8_text (c_name col) ->
  showable (md_columns md) rows -> lenN rows < W64 -> fst (o (PyProps h md) p) = Ok tt ->
  let k := chunk_sink (noted o) in
  let st := after k (chunk_start size p) (EvProps h md :: SpecSinks.pushes rows) in
  returned (snd (pt_obj st)) = [] /\ pt_cpp st = true
  /\ (rows <> [] -> fst (k EvEnd st) = Exn E_unicode_error /\ returned (snd (pt_obj (snd (k EvEnd st)))) = [])
  /\ (forall i q, showable (md_columns md) [(i, q)] -> lenN rows + 1 < W64 ->
        fst (k (EvRow i q) st) = if lenN rows + 1 =? size then Exn E_unicode_error else Ok tt).
Proof.
  intros P o size h md rows p col IN KN UT RD B PR k st.
  pose proof (bad_grouped _ _ IN KN UT) as U.
  assert (H0 : stuck (md_columns md) size 0 (snd (o (PyProps h md) p))
                 (snd (chunk_sink (noted o) (EvProps h md) (chunk_start size p)))).
  { cbn [chunk_sink]. unfold cb_props, py_method, set_cpp, chunk_start, noted.
    cbn [pt_err pt_obj fst snd pt_c pt_cpp]. destruct (o (PyProps h md) p) as [y p']. cbn [fst] in PR. subst y.
    cbn. unfold stuck. cbn. repeat split; try reflexivity; [apply empty_conv|apply map_length]. }
  pose proof (stuck_rows P o _ _ _ U rows 0 _ H0 RD) as H. rewrite N.add_0_l in H. specialize (H B).
  change (after (chunk_sink (noted o)) _ (SpecSinks.pushes rows)) with st in H.
  pose proof H as (E & CP & C & Z & D & PO & LG & CV & LV). split; [exact LG|]. split; [exact CP|]. split.
  - intros NE. unfold k. cbn [chunk_sink]. unfold cb_flush. cbn [del_cpp pt_c]. rewrite D.
    destruct (N.eqb_spec (lenN rows) 0) as [L|L]; [destruct rows; [contradiction|unfold lenN in L; cbn in L; lia]|].
    unfold dict_method. cbn [del_cpp pt_err pt_c]. rewrite E, CP, C, (unready _ _ U CV LV). cbn. auto.
  - intros i q RQ BQ. apply (stuck_row P o _ _ _ _ _ i q U H RQ BQ).
Qed.
