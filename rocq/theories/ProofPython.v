From Coq Require Import Permutation.
From Verif Require Import Base Lemmas Types Buffer Page Column Header Metadata Decomp Data Reader Drive
  Sinks Callbacks PyObjects Python SpecUtf8 ProofUtf8 SpecPyObjects ProofPyObjects SpecReader SpecDrive SpecSinks SpecFile SpecCells SpecPython ProofReader ProofDrive
  ProofPyChunks.
Local Open Scope N_scope.

(** ** A sink which accepts the calls *)

Lemma accepts_last : forall A (k : sink A) a u e v, accepts k a (u ++ [e] ++ v) ->
  fst (k e (after k a u)) = Ok tt.
Proof. intros A k a u e v H. rewrite accepts_app in H. cbn in H. tauto. Qed.

Lemma drive_accepted : forall S A c (src : source S) (k : sink A) o r a x r' ev,
  step c src o r = (x, r', ev) -> accepts k a ev ->
  drive_step c src k o r a = (x, r', after k a ev, ev).
Proof.
  intros S A c src k o r a x r' ev H AC.
  destruct (drive_step c src k o r a) as [[[x1 r1] a1] ev1] eqn:D.
  destruct (drive_call _ _ _ _ _ _ _ _ _ _ _ _ _ _ _ D H) as [-> [[_ [-> [-> ->]]]|K]];
    [reflexivity|].
  destruct K as (before & e & rest & y & -> & -> & (_ & K1 & K2) & _). exfalso.
  apply K2. rewrite <- K1. rewrite <- app_assoc in AC. apply (accepts_last _ _ _ _ _ rest AC).
Qed.

Lemma drive_open_spec : forall S A c (src : source S) (k : sink A) flt s a,
  drive_open c src k flt s a
  = match open_reader c src flt s with
    | Ok (r, _) =>
        let e := EvProps (rs_h r) (rs_md r) in
        (rmap (fun _ => r) (fst (k e a)), snd (k e a), [e])
    | Exn e => (Exn e, a, [])
    | Abort => (Abort, a, [])
    | Undef u => (Undef u, a, [])
    | Fuel => (Fuel, a, [])
    end.
Proof.
  intros S A c src k flt s a. unfold drive_open, open_reader, bind.
  destruct (open_header c src s) as [[[h s1] b1]|ex| |u|]; try reflexivity.
  destruct (set_metadata c src (h_endianness h) (h_format h) (h_page_length h) flt s1 b1)
    as [[[p md] dsh]|ex| |u|]; try reflexivity.
  destruct (read_data c h md p dsh) as [d|ex| |u|]; try reflexivity.
  cbn [rs_h rs_md]. destruct (k (EvProps h md) a) as [y a']. reflexivity.
Qed.

(** ** The chunk and data sinks when the methods return *)

Definition dicts (calls : list pycall) : list pyreq := map PyCall calls.

Lemma told_app : forall P (o : pyobj P) u v p, told o (u ++ v) p = told o v (told o u p).
Proof. induction u as [|q u IH]; intros v p; [reflexivity|]. apply IH. Qed.

(** Values which become Python objects. *)
Definition conv (v : value) : Prop := exists x, to_py v = Ok x.
Definition row_conv (cs : list column) (p : pview) : Prop :=
  forall vs, mapM (fun c => group_value c p) (grouped cs) = Ok vs -> Forall conv vs.
Definition stocked (cs : list column) (s : pychunk) : Prop :=
  py_cols s = grouped cs /\ Forall (Forall conv) (py_vals s).
Definition fit {P} (cs : list column) (ev : event) (st : pyst P) : Prop :=
  match ev with
  | EvProps _ md => md_columns md = cs
  | EvRow _ p => stocked cs (pt_c st) /\ row_conv cs p
  | EvEnd => stocked cs (pt_c st)
  end.

(** What a C++ sink and a step of [Sinks.v] have in common. *)
Definition follows {P} (cs : list column) (o : pyobj P) (k : sink (pyst P))
    (stp : pychunk * list pycall -> event -> res (pychunk * list pycall)) : Prop :=
  forall ev st calls s' calls', pt_err st = false -> (ev = EvEnd -> pt_cpp st = true) ->
    fit cs ev st -> stp (pt_c st, calls) ev = Ok (s', calls') ->
    exists st' new, calls' = calls ++ new /\ k ev st = (Ok tt, st')
      /\ pt_c st' = s' /\ stocked cs s' /\ pt_err st' = false
      /\ pt_cpp st' = match ev with EvProps _ _ => true | EvRow _ _ => pt_cpp st | EvEnd => false end
      /\ pt_obj st' = told o ((match ev with EvProps h md => [PyProps h md] | _ => [] end) ++ dicts new)
                        (pt_obj st).

Lemma utf8_grouped : forall cs, named_in_utf8 cs = true -> named_in_utf8 (grouped cs) = true.
Proof.
  intros cs H. unfold named_in_utf8 in *. rewrite forallb_forall in *. intros c I. apply H.
  apply grouped_known in I. apply I.
Qed.

Lemma utf8_named : forall cs, named_in_utf8 cs = true <-> Forall (fun c => utf8_text (c_name c)) cs.
Proof.
  intros cs. unfold named_in_utf8. rewrite forallb_forall, Forall_forall.
  split; intros H c I; apply utf8_ok_text, H, I.
Qed.

Lemma mapM_conv : forall vs, Forall conv vs -> exists l, mapM to_py vs = Ok l.
Proof.
  induction 1 as [|v vs [x X] F [l L]]; [exists []; reflexivity|].
  exists (x :: l). cbn [mapM]. rewrite X, L. reflexivity.
Qed.

Lemma dict_ready_ok : forall cs vals, named_in_utf8 cs = true -> Forall (Forall conv) vals ->
  dict_ready cs vals = Ok tt.
Proof.
  induction cs as [|c cs IH]; intros [|v vals] U F; try reflexivity.
  inversion F as [|? ? F1 F2]; subst. destruct (mapM_conv v F1) as [l L].
  cbn [dict_ready]. rewrite L. cbn [bind]. cbn in U. apply andb_true_iff in U. destruct U as [U1 U2].
  rewrite U1. apply IH; assumption.
Qed.

Lemma append_conv : forall vals vs, Forall (Forall conv) vals -> Forall conv vs ->
  Forall (Forall conv) (append_values vals vs).
Proof.
  induction vals as [|l vals IH]; intros [|v vs] F G; cbn [append_values]; auto.
  inversion F; inversion G; subst. constructor; [|apply IH; assumption].
  apply Forall_app. split; [assumption|]. constructor; auto.
Qed.

Lemma cleared_conv : forall (vals : list (list value)), Forall (Forall conv) (map (fun _ => []) vals).
Proof. induction vals; constructor; auto. Qed.

Lemma empty_conv : forall (cs : list column), Forall (Forall conv) (map (fun _ => []) cs).
Proof. induction cs; constructor; auto. Qed.

Lemma stocked_ready : forall cs s, named_in_utf8 cs = true -> stocked cs s ->
  dict_ready (py_cols s) (py_vals s) = Ok tt.
Proof.
  intros cs s U (C & V). apply dict_ready_ok; [rewrite C; apply utf8_grouped; exact U|exact V].
Qed.

Lemma stocked_clear : forall cs s, stocked cs s -> stocked cs (py_clear s).
Proof. intros cs s (C & V). split; [exact C|apply cleared_conv]. Qed.

Lemma chunk_follows : forall P (o : pyobj P) cs, named_in_utf8 cs = true ->
  (forall h md p, named_in_utf8 (md_columns md) = true -> fst (o (PyProps h md) p) = Ok tt) ->
  (forall a b d p, fst (o (PyCall (PyPushRows a b d)) p) = Ok tt) ->
  follows cs o (chunk_sink o) pychunk_step.
Proof.
  intros P o cs UT Q1 Q2.
  assert (FL : forall st, pt_err st = false -> stocked cs (pt_c st) ->
    let '(s', new) := py_flush (pt_c st) in
    exists st', cb_flush o st = (Ok tt, st') /\ pt_c st' = s' /\ stocked cs s'
      /\ pt_err st' = false
      /\ pt_cpp st' = pt_cpp st /\ pt_obj st' = told o (dicts new) (pt_obj st)).
  { intros st E U. unfold py_flush, cb_flush.
    destruct (py_idata (pt_c st) =? 0); [exists st; auto 10|].
    unfold dict_method, py_method. rewrite E, (stocked_ready cs _ UT U). cbv beta iota zeta.
    pose proof (stocked_clear _ _ U) as SC.
    match goal with |- context [o ?q ?p] => pose proof (Q2 (py_istart (pt_c st)) (py_iend (pt_c st))
      (py_dict (py_cols (pt_c st)) (py_vals (pt_c st)) []) p) as Q; destruct (o q p) as [y p'] eqn:D end.
    cbn in Q. subst y. eexists. split; [reflexivity|]. cbn. rewrite D. auto 10. }
  intros ev st calls s' calls' E CP U H. destruct ev as [h md|i p|]; cbn [pychunk_step chunk_sink] in *.
  - injection H as <- <-. unfold cb_props, py_method, set_cpp. cbn [pt_err]. rewrite E. cbn [pt_obj].
    cbn [fit] in U. rewrite <- U in UT. pose proof (Q1 h md (pt_obj st) UT) as Q. destruct (o (PyProps h md) (pt_obj st)) as [y p'] eqn:D.
    cbn in Q. subst y. eexists _, []. rewrite app_nil_r. split; [reflexivity|].
    split; [reflexivity|]. cbn. rewrite D. split; [reflexivity|]. split; [split; [cbn; rewrite U; reflexivity|apply empty_conv]|]. auto.
  - unfold py_push_row, bind in H. unfold cb_push.
    destruct U as [[UC UV] UR].
    destruct (mapM (fun c => group_value c p) (py_cols (pt_c st))) as [vs|ex| |u|] eqn:M; try discriminate.
    rewrite UC in M. specialize (UR vs M).
    cbn [py_idata py_size] in *. destruct (py_idata (pt_c st) +! 1 =? py_size (pt_c st)).
    + match type of H with context [py_flush ?s1] =>
        set (s2 := s1) in *;
        assert (S2 : stocked cs s2) by (split; [exact UC|apply append_conv; assumption]);
        specialize (FL (with_chunk s2 st) E S2); cbn [pt_c with_chunk] in FL;
        destruct (py_flush s2) as [s3 new] end.
      injection H as <- <-. destruct FL as (st' & F1 & F2 & F3 & F4 & F5).
      exists st', new. rewrite F1. auto 12.
    + injection H as <- <-. eexists _, []. rewrite app_nil_r. split; [reflexivity|].
      split; [reflexivity|]. split; [reflexivity|].
      split; [split; [exact UC|apply append_conv; assumption]|]. auto.
  - specialize (FL (del_cpp st)). cbn [pt_c del_cpp pt_err pt_cpp pt_obj] in FL.
    rewrite E, (CP eq_refl) in FL. specialize (FL eq_refl U).
    destruct (py_flush (pt_c st)) as [s3 new]. injection H as <- <-.
    destruct FL as (st' & F1 & F2 & F3 & F4 & F5). exists st', new. rewrite F1. auto 10.
Qed.

Lemma data_follows : forall P (o : pyobj P) cs, named_in_utf8 cs = true ->
  (forall h md p, named_in_utf8 (md_columns md) = true -> fst (o (PyProps h md) p) = Ok tt) ->
  (forall d p, fst (o (PyCall (PySetData d)) p) = Ok tt) ->
  follows cs o (data_sink o) pydata_step.
Proof.
  intros P o cs UT Q1 Q2 ev st calls s' calls' E CP U H.
  destruct ev as [h md|i p|]; cbn [pydata_step data_sink] in *.
  - injection H as <- <-. unfold cb_props, py_method, set_cpp, with_chunk. cbn [pt_err pt_c pt_obj pt_cpp].
    rewrite E. cbn [fit] in U. rewrite <- U in UT. pose proof (Q1 h md (pt_obj st) UT) as Q.
    destruct (o (PyProps h md) (pt_obj st)) as [y p'] eqn:D.
    cbn in Q. subst y. eexists _, []. rewrite app_nil_r. split; [reflexivity|].
    split; [reflexivity|]. cbn. rewrite D. split; [reflexivity|]. split; [split; [cbn; rewrite U; reflexivity|apply empty_conv]|]. auto.
  - unfold py_push_row, bind in H. unfold cb_push.
    destruct U as [[UC UV] UR].
    destruct (mapM (fun c => group_value c p) (py_cols (pt_c st))) as [vs|ex| |u|] eqn:M; try discriminate.
    rewrite UC in M. specialize (UR vs M).
    cbn [py_idata py_size] in *.
    destruct (py_idata (pt_c st) +! 1 =? py_size (pt_c st));
      (injection H as <- <-; eexists _, []; rewrite app_nil_r; split; [reflexivity|];
       split; [reflexivity|]; split; [reflexivity|];
       split; [split; [exact UC|apply append_conv; assumption]|]; auto).
  - unfold cb_set_data. cbn [pt_c del_cpp].
    destruct (py_idata (pt_c st) =? 0).
    + injection H as <- <-. eexists _, []. rewrite app_nil_r. split; [reflexivity|].
      split; [reflexivity|]. cbn. rewrite E, (CP eq_refl). auto.
    + injection H as <- <-. unfold dict_method, py_method. cbn [pt_err del_cpp pt_obj pt_c].
      rewrite E, (CP eq_refl), (stocked_ready cs _ UT U). cbn [negb orb].
      pose proof (stocked_clear _ _ U) as SC.
      match goal with |- context [o ?q ?p] => pose proof (Q2 (py_dict (py_cols (pt_c st)) (py_vals (pt_c st)) []) p) as Q;
        destruct (o q p) as [y p'] eqn:D end.
      cbn in Q. subst y. eexists _, [_]. split; [reflexivity|]. split; [reflexivity|]. cbn. rewrite D. auto.
Qed.

(** The rows and the end. *)
Lemma follows_rows : forall P (o : pyobj P) cs k stp, follows cs o k stp ->
  forall rows st calls s' calls', pt_err st = false -> pt_cpp st = true ->
  stocked cs (pt_c st) -> Forall (fun r => row_conv cs (snd r)) rows ->
  feed stp (pt_c st, calls) (SpecSinks.pushes rows ++ [EvEnd]) = Ok (s', calls') ->
  exists new, calls' = calls ++ new /\ accepts k st (SpecSinks.pushes rows ++ [EvEnd])
    /\ let st' := after k st (SpecSinks.pushes rows ++ [EvEnd]) in
       pt_c st' = s' /\ pt_err st' = false /\ pt_cpp st' = false
       /\ pt_obj st' = told o (dicts new) (pt_obj st).
Proof.
  intros P o cs k stp FO. induction rows as [|[i p] rows IH]; intros st calls s' calls' E CP U RC H;
    [|change (SpecSinks.pushes ((i, p) :: rows)) with (EvRow i p :: SpecSinks.pushes rows) in *];
    cbn [app feed] in *.
  - change (SpecSinks.pushes []) with (@nil event) in *. cbn [app feed] in *.
    destruct (stp (pt_c st, calls) EvEnd) as [[s1 c1]|ex| |u|] eqn:D; try discriminate.
    cbn in H. injection H as <- <-.
    destruct (FO EvEnd st calls s1 c1 E (fun _ => CP) U D) as (st' & new & -> & K & F1 & _ & F2 & F3 & F4).
    exists new. split; [reflexivity|]. cbn [accepts after]. rewrite K. cbn. auto.
  - destruct (stp (pt_c st, calls) (EvRow i p)) as [[s1 c1]|ex| |u|] eqn:D; try discriminate.
    cbn [bind] in H.
    destruct (FO (EvRow i p) st calls s1 c1 E) as (st' & new & -> & K & F1 & U' & F2 & F3 & F4);
      [discriminate|split; [exact U|inversion RC; assumption]|exact D|].
    subst s1. destruct (IH st' (calls ++ new) s' calls' F2) as (new2 & -> & A1 & A2);
      [rewrite F3; exact CP|exact U'|inversion RC; assumption|exact H|].
    exists (new ++ new2). rewrite app_assoc. split; [reflexivity|].
    cbn [fst snd accepts after] in *. rewrite K. cbn [fst snd]. split; [auto|].
    destruct A2 as (A2 & A3 & A4 & A5). repeat (split; [assumption|]).
    rewrite A5, F4. unfold dicts. cbn [app]. rewrite map_app, told_app. reflexivity.
Qed.

Lemma follows_all : forall P (o : pyobj P) cs k stp, follows cs o k stp ->
  forall h md rows st s' calls, pt_err st = false -> md_columns md = cs ->
  Forall (fun r => row_conv cs (snd r)) rows ->
  feed stp (pt_c st, []) (EvProps h md :: SpecSinks.pushes rows ++ [EvEnd]) = Ok (s', calls) ->
  fst (k (EvProps h md) st) = Ok tt
  /\ let st1 := snd (k (EvProps h md) st) in
     pt_err st1 = false /\ accepts k st1 (SpecSinks.pushes rows ++ [EvEnd])
     /\ let st' := after k st1 (SpecSinks.pushes rows ++ [EvEnd]) in
        pt_err st' = false /\ pt_cpp st' = false
        /\ pt_obj st' = told o (PyProps h md :: dicts calls) (pt_obj st).
Proof.
  intros P o cs k stp FO h md rows st s' calls E U RC H. cbn [feed] in H.
  destruct (stp (pt_c st, []) (EvProps h md)) as [[s1 c1]|ex| |u|] eqn:D; try discriminate.
  cbn [bind] in H.
  destruct (FO (EvProps h md) st [] s1 c1 E) as (st' & new & -> & K & F1 & U' & F2 & F3 & F4);
    [discriminate|exact U|exact D|].
  rewrite K. cbn [fst snd]. split; [reflexivity|]. split; [exact F2|]. subst s1. cbn [app] in H.
  destruct (follows_rows _ _ _ _ _ FO rows st' new s' calls F2 F3 U' RC H) as (new2 & -> & A1 & A2 & A3 & A4 & A5).
  split; [exact A1|]. split; [exact A3|]. split; [exact A4|].
  rewrite A5, F4. cbn [app told]. unfold dicts. rewrite map_app, told_app. reflexivity.
Qed.

(** ** Rows within the calendar *)

Lemma showable_readable : forall cs rows, showable cs rows -> readable cs rows.
Proof.
  intros cs rows H. unfold showable, readable in *. eapply Forall_impl; [|exact H].
  intros r F. eapply Forall_impl; [|exact F]. intros c G K. destruct (G K) as (v & V & _). exists v. exact V.
Qed.

Lemma group_conv : forall cs p, Forall (fun c => known c = true) cs ->
  Forall (fun c => known c = true -> exists v, cell_value c p v /\ in_calendar v) cs ->
  forall vs, mapM (fun c => group_value c p) cs = Ok vs -> Forall conv vs.
Proof.
  induction cs as [|c cs IH]; intros p K F vs M; [injection M as <-; constructor|].
  inversion K; inversion F; subst. destruct (H5 H1) as (v & V & IC).
  assert (G : group_value c p = Ok v) by (apply group_value_cell; assumption).
  cbn [mapM] in M. rewrite G in M. cbn [bind] in M.
  destruct (mapM _ cs) as [vs'| | | |] eqn:M'; try discriminate. injection M as <-.
  constructor; [|apply (IH p H2 H6 _ M')]. destruct (calendar_shown v IC) as (x & X & _). exists x. exact X.
Qed.

Lemma showable_conv : forall cs rows, showable cs rows -> Forall (fun r => row_conv cs (snd r)) rows.
Proof.
  intros cs rows H. eapply Forall_impl; [|exact H]. intros r F vs M.
  eapply group_conv; [apply grouped_all_known| |exact M].
  rewrite Forall_forall in *. intros c I. apply F. apply grouped_known in I. apply I.
Qed.

(** ** The row sink *)

Lemma mapM_values : forall cs p, Forall (fun c => known c = true) cs ->
  Forall (fun c => known c = true -> exists v, cell_value c p v /\ in_calendar v) cs ->
  exists vs, mapM (fun c => row_cell c p) cs = Ok (map Some vs)
    /\ Forall2 (fun c v => cell_value c p v) cs vs.
Proof.
  induction cs as [|c cs IH]; intros p K R; [exists []; split; [reflexivity|constructor]|].
  inversion K; subst. inversion R; subst. destruct (IH p) as (vs & M & F); try assumption.
  destruct (H3 H1) as (v & V & IC). exists (v :: vs). split; [|constructor; assumption].
  destruct (calendar_shown v IC) as (x & X & _).
  cbn [mapM map]. rewrite M. unfold row_cell, column_value.
  destruct v; destruct V as [T G]; rewrite T, G; cbn [bind]; rewrite X; reflexivity.
Qed.

Lemma somes_map : forall A (l : list A), somes (map Some l) = l.
Proof. induction l as [|a l IH]; [reflexivity|]. cbn. rewrite IH. reflexivity. Qed.

Lemma row_sink_rows : forall P (o : pyobj P) cs,
  (forall i l p, fst (o (PyCall (PyPushRow i l)) p) = Ok tt) ->
  Forall (fun c => known c = true) cs ->
  forall rows st, showable cs rows -> pt_err st = false -> pt_cpp st = true -> py_cols (pt_c st) = cs ->
  exists vss, Forall2 (fun r vs => Forall2 (fun c v => cell_value c (snd r) v) cs vs) rows vss
    /\ accepts (row_sink o) st (SpecSinks.pushes rows ++ [EvEnd])
    /\ let st' := after (row_sink o) st (SpecSinks.pushes rows ++ [EvEnd]) in
       pt_err st' = false /\ pt_cpp st' = false
       /\ exists is, length is = length vss
          /\ pt_obj st' = told o (map (fun x => PyCall (PyPushRow (fst x) (snd x))) (combine is vss)) (pt_obj st).
Proof.
  intros P o cs Q K. induction rows as [|[i p] rows IH]; intros st R E CP C.
  - exists []. split; [constructor|]. cbn. rewrite E, CP. repeat split; try reflexivity.
    exists []. split; reflexivity.
  - inversion R as [|? ? R1 R2]; subst. cbn [snd] in R1.
    destruct (mapM_values (py_cols (pt_c st)) p K R1) as (vs & M & F).
    change (SpecSinks.pushes ((i, p) :: rows)) with (EvRow i p :: SpecSinks.pushes rows).
    cbn [app accepts after].
    assert (ST : exists st', row_sink o (EvRow i p) st = (Ok tt, st') /\ pt_err st' = false /\ pt_cpp st' = true
              /\ pt_c st' = pt_c st /\ pt_obj st' = told o [PyCall (PyPushRow i vs)] (pt_obj st)).
    { cbn [row_sink]. rewrite M, somes_map. unfold py_method. rewrite E.
      pose proof (Q i vs (pt_obj st)) as Q'. destruct (o (PyCall (PyPushRow i vs)) (pt_obj st)) as [y p'] eqn:D.
      cbn in Q'. subst y. eexists. split; [reflexivity|]. cbn. rewrite D. auto. }
    destruct ST as (st' & S1 & S2 & S3 & S4 & S5).
    destruct (IH st') as (vss & V1 & V2 & V3 & V4 & is & V5 & V6); try assumption; [rewrite S4; reflexivity|].
    rewrite S1. cbn [fst snd].
    exists (vs :: vss). split; [constructor; assumption|]. split; [auto|].
    split; [exact V3|]. split; [exact V4|]. exists (i :: is). split; [cbn; rewrite V5; reflexivity|].
    rewrite V6, S5. reflexivity.
Qed.

(** ** The classes *)

Definition sink_of (cls : py_class) : sink (pyst py_object) :=
  match cls with
  | SinkByRow => row_sink (py_methods SinkByRow)
  | SinkByChunk => chunk_sink (py_methods SinkByChunk)
  | SinkWholeData => data_sink (py_methods SinkWholeData)
  end.

Lemma class_kind : forall cls ev st, class_sink cls ev st = sink_of cls ev st.
Proof.
  intros cls ev st. unfold class_sink. destruct cls.
  - replace (select_sink (py_has SinkByRow)) with (Ok RowSink) by (vm_compute; reflexivity). reflexivity.
  - replace (select_sink (py_has SinkByChunk)) with (Ok ChunkSink) by (vm_compute; reflexivity). reflexivity.
  - replace (select_sink (py_has SinkWholeData)) with (Ok DataSink) by (vm_compute; reflexivity). reflexivity.
Qed.

Lemma after_ext : forall A (k k' : sink A), (forall e a, k e a = k' e a) ->
  forall evs a, after k a evs = after k' a evs.
Proof. intros A k k' H. induction evs as [|e evs IH]; intros a; cbn; [reflexivity|]. rewrite H. apply IH. Qed.

Lemma accepts_ext : forall A (k k' : sink A), (forall e a, k e a = k' e a) ->
  forall evs a, accepts k a evs <-> accepts k' a evs.
Proof. intros A k k' H. induction evs as [|e evs IH]; intros a; cbn; [tauto|]. rewrite H, IH. tauto. Qed.

(** ** Frames *)

Lemma dict_get_in : forall V (d : list (bytes * V)) k v, NoDup (map fst d) -> In (k, v) d ->
  dict_get d k = Some v.
Proof.
  induction d as [|[k' v'] d IH]; intros k v N H; [destruct H|].
  inversion N; subst. cbn. destruct H as [H|H].
  - injection H as <- <-. rewrite bytes_eqb_refl. reflexivity.
  - destruct (bytes_eqb k' k) eqn:E; [|apply IH; assumption].
    apply bytes_eqb_true in E. subst k'. exfalso. apply H2.
    apply (in_map fst) in H. exact H.
Qed.

Lemma filter_all : forall A (f : A -> bool) l, Forall (fun a => f a = true) l -> filter f l = l.
Proof. induction l as [|a l IH]; intros H; [reflexivity|]. inversion H; subst. cbn. rewrite H2, IH; auto. Qed.

Lemma dict_frame : forall cs ch d, named cs -> py_data cs ch d ->
  frame_is cs ch (frame_of_dict (map c_name cs) d).
Proof.
  intros cs ch d (K & ND & _) (PM & V). rewrite (filter_all _ _ _ K) in PM.
  assert (NDd : NoDup (map fst d)) by (apply (Permutation_NoDup (Permutation_sym PM)); exact ND).
  unfold frame_of_dict. set (n := match d with [] => O | (_, v) :: _ => length v end). clearbody n.
  assert (G : forall l, Forall (fun c => In c cs) l ->
    frame_is l ch (map (fun name => (name, match dict_get d name with
                          | Some v => map Some v | None => repeat None n end)) (map c_name l))).
  { induction l as [|c l IH]; intros G; [constructor|]. inversion G; subst.
    constructor; [|apply IH; assumption]. cbn [fst snd]. split; [reflexivity|].
    destruct (V c) as (vs & I & F); [assumption|rewrite Forall_forall in K; auto|].
    rewrite (dict_get_in _ _ _ _ NDd I). clear - F.
    induction F as [|r v ch vs CV F IH]; constructor; eauto. }
  apply G. apply Forall_forall. auto.
Qed.

Lemma append_frames : forall cs r1 r2 f g, frame_is cs r1 f -> frame_is cs r2 g ->
  frame_is cs (r1 ++ r2) (append_frame f g).
Proof.
  induction cs as [|c cs IH]; intros r1 r2 f g F G; inversion F; inversion G; subst; [constructor|].
  destruct y as [n v], y0 as [m w]. cbn [append_frame].
  constructor; [|apply IH; assumption]. cbn [fst snd] in *. destruct H1, H6. split; [assumption|].
  apply Forall2_app; assumption.
Qed.

Lemma concat_frames_is : forall cs chs fs, Forall2 (frame_is cs) chs fs -> chs <> [] ->
  exists f, concat_frames fs = Ok f /\ frame_is cs (concat chs) f.
Proof.
  intros cs chs fs H. destruct H as [|ch f chs fs F H]; intros N; [contradiction|].
  exists (fold_left append_frame fs f). split; [reflexivity|]. cbn [concat]. clear N.
  revert ch f F. induction H as [|ch2 f2 chs fs F2 H IH]; intros ch f F; cbn.
  - rewrite app_nil_r. exact F.
  - rewrite app_assoc. apply IH. apply append_frames; assumption.
Qed.

Lemma records_columns : forall cs rows vss, Forall2 (fun r vs => Forall2 (fun c v => cell_value c (snd r) v) cs vs) rows vss ->
  exists f, frame_of_records (map c_name cs) vss = Ok f /\ frame_is cs rows f.
Proof.
  intros cs rows vss H. unfold frame_of_records.
  replace (forallb (fun row => Nat.eqb (length row) (length (map c_name cs))) vss) with true.
  - eexists. split; [reflexivity|].
    assert (G : forall l pre, cs = pre ++ l ->
      frame_is l rows (record_columns (map c_name l) (length pre) vss)).
    { induction l as [|c l IH]; intros pre E; [constructor|]. cbn [map record_columns].
      constructor.
      - cbn [fst snd]. split; [reflexivity|]. subst cs. clear IH.
        induction H as [|r vs rows vss F H IHr]; [constructor|]. cbn [map]. constructor; [|exact IHr].
        apply Forall2_app_inv_l in F. destruct F as (v1 & v2 & F1 & F2 & ->).
        inversion F2; subst. exists y. split; [assumption|].
        rewrite nth_error_app2; rewrite (Forall2_len _ _ _ _ _ F1); [|lia].
        rewrite Nat.sub_diag. reflexivity.
      - specialize (IH (pre ++ [c])). rewrite app_length in IH. cbn [length] in IH.
        rewrite Nat.add_1_r in IH. apply IH. rewrite <- app_assoc. exact E. }
    apply (G cs []). reflexivity.
  - symmetry. apply forallb_forall. intros vs I. apply PeanoNat.Nat.eqb_eq. rewrite map_length.
    induction H as [|r w rows vss F H IH]; [destruct I|]. destruct I as [->|I]; [|auto].
    symmetry. apply (Forall2_len _ _ _ _ _ F).
Qed.

(** ** What the objects hold *)

Lemma told_chunks : forall calls ob, Forall (fun k => match k with PyPushRows _ _ _ => True | _ => False end) calls ->
  let ob' := told (py_methods SinkByChunk) (dicts calls) ob in
  po_columns ob' = po_columns ob /\ po_df ob' = po_df ob
  /\ po_frames ob' = po_frames ob ++ map (fun k => match k with
       | PyPushRows _ _ d => frame_of_dict (po_columns ob) d | _ => [] end) calls.
Proof.
  induction calls as [|k calls IH]; intros ob F; cbn zeta; [cbn; rewrite app_nil_r; auto|].
  inversion F; subst. destruct k as [a b d| |]; try contradiction.
  cbn [dicts map told py_methods snd]. specialize (IH (PyObject (po_properties ob) (po_columns ob) (po_rows ob)
    (po_frames ob ++ [frame_of_dict (po_columns ob) d]) (po_df ob)) H2). cbn [po_columns po_frames po_df] in IH.
  destruct IH as (E1 & E2 & E3). split; [exact E1|]. split; [exact E2|].
  unfold dicts in E3. rewrite E3, <- app_assoc. reflexivity.
Qed.

Lemma told_rows : forall vss is ob, length is = length vss ->
  let ob' := told (py_methods SinkByRow) (map (fun x => PyCall (PyPushRow (fst x) (snd x))) (combine is vss)) ob in
  po_columns ob' = po_columns ob /\ po_df ob' = po_df ob /\ po_rows ob' = po_rows ob ++ vss.
Proof.
  induction vss as [|vs vss IH]; intros [|i is] ob L; try discriminate; cbn zeta.
  - cbn. rewrite app_nil_r. auto.
  - cbn [combine map told py_methods snd fst]. injection L as L.
    specialize (IH is (PyObject (po_properties ob) (po_columns ob) (po_rows ob ++ [vs]) (po_frames ob) (po_df ob)) L).
    cbn [po_columns po_rows po_df] in IH. destruct IH as (E1 & E2 & E3).
    split; [exact E1|]. split; [exact E2|]. rewrite E3, <- app_assoc. reflexivity.
Qed.

(** ** read_sas *)

(** The object after the rows, for each class. *)
Definition filled_object (cls : py_class) (cs : list column) (rows : list (N * pview)) (o : py_object) : Prop :=
  po_columns o = map c_name cs /\
  match cls with
  | SinkByRow => po_df o = None /\ exists f, frame_of_records (po_columns o) (po_rows o) = Ok f /\ frame_is cs rows f
  | SinkByChunk => po_df o = None /\ exists chs, concat chs = rows /\ Forall (fun ch => ch <> []) chs
                   /\ Forall2 (frame_is cs) chs (po_frames o)
  | SinkWholeData => match rows with
                     | [] => po_df o = None
                     | _ => exists f, po_df o = Some f /\ frame_is cs rows f
                     end
  end.

Definition start_state (cls : py_class) (size : N) : pyst py_object :=
  PySt false false (pychunk_new match cls with SinkByChunk => size | _ => 0 end) py_new.

Lemma props_return : forall cls h md p, named_in_utf8 (md_columns md) = true ->
  fst (py_methods cls (PyProps h md) p) = Ok tt.
Proof. intros cls h md p U. cbn [py_methods]. rewrite U. reflexivity. Qed.

Lemma class_fills : forall cls size h md rows, named (md_columns md) -> showable (md_columns md) rows ->
  lenN rows < W64 ->
  let k := class_sink cls in
  let st := start_state cls size in
  fst (k (EvProps h md) st) = Ok tt
  /\ let st1 := snd (k (EvProps h md) st) in
     pt_err st1 = false /\ accepts k st1 (SpecSinks.pushes rows ++ [EvEnd])
     /\ let st' := after k st1 (SpecSinks.pushes rows ++ [EvEnd]) in
        pt_err st' = false /\ pt_cpp st' = false
        /\ filled_object cls (md_columns md) rows (pt_obj st').
Proof.
  intros cls size h md rows NA SH B. cbv zeta. pose proof NA as (K & ND & U). apply utf8_named in U.
  pose proof (showable_readable _ _ SH) as RD. pose proof (showable_conv _ _ SH) as RC.
  assert (ND' : NoDup (map c_name (filter known (md_columns md)))) by (rewrite (filter_all _ _ _ K); exact ND).
  rewrite (class_kind cls).
  rewrite (accepts_ext _ (class_sink cls) _ (class_kind cls)), (after_ext _ (class_sink cls) _ (class_kind cls)).
  destruct cls; cbn [sink_of].
  - split; [unfold row_sink, cb_props, py_method; cbn -[named_in_utf8]; rewrite U; reflexivity|].
    assert (S1 : exists st1, snd (row_sink (py_methods SinkByRow) (EvProps h md) (start_state SinkByRow size)) = st1
      /\ pt_err st1 = false /\ pt_cpp st1 = true /\ py_cols (pt_c st1) = md_columns md
      /\ pt_obj st1 = PyObject (Some (h, md)) (map c_name (md_columns md)) [] [] None)
      by (unfold row_sink, cb_props, py_method; cbn -[named_in_utf8]; rewrite U; eexists; repeat split).
    destruct S1 as (st1 & -> & S1 & S2 & S3 & S4). split; [exact S1|].
    destruct (row_sink_rows _ (py_methods SinkByRow) (md_columns md) (fun _ _ _ => eq_refl) K rows st1 SH S1 S2 S3)
      as (vss & V1 & V2 & V3 & V4 & is & V5 & V6).
    split; [exact V2|]. split; [exact V3|]. split; [exact V4|]. rewrite V6, S4.
    destruct (told_rows vss is (PyObject (Some (h, md)) (map c_name (md_columns md)) [] [] None) V5) as (E1 & E2 & E3).
    unfold filled_object. rewrite E1, E2, E3. cbn [po_columns po_df po_rows app].
    split; [reflexivity|]. split; [reflexivity|]. apply records_columns. exact V1.
  - destruct (py_read_all size h md rows ND' RD B) as (s & calls & cks & F & (G1 & G2 & G3 & G4) & FK & _).
    pose proof (chunk_follows _ (py_methods SinkByChunk) (md_columns md) U (props_return _) (fun _ _ _ _ => eq_refl)) as FO.
    destruct (follows_all _ _ _ _ _ FO h md rows (start_state SinkByChunk size) s calls eq_refl eq_refl RC F)
      as (E0 & E1 & E2 & E3 & E4 & E5).
    split; [exact E0|]. split; [exact E1|]. split; [exact E2|]. split; [exact E3|]. split; [exact E4|].
    rewrite E5. cbn [told py_methods snd start_state pt_obj]. rewrite U. cbn [snd].
    edestruct (told_chunks calls) as (T1 & T2 & T3); cycle 1.
    + unfold filled_object. rewrite T1, T2, T3. cbn [po_columns po_df po_frames py_new app].
      split; [reflexivity|]. split; [reflexivity|]. exists cks. split; [symmetry; exact G1|].
      split; [exact G2|]. clear - FK NA. induction FK as [|ch k cks calls F FK IH]; [constructor|].
      cbn [map]. constructor; [|exact IH]. destruct k as [a b d| |]; try contradiction.
      destruct F as [F _]. apply dict_frame; assumption.
    + clear - FK. induction FK as [|ch k cks calls F FK IH]; constructor; auto.
      destruct k; auto.
  - destruct (pydata_all h md rows 0 ND' RD B) as (s & calls & F & DL).
    pose proof (data_follows _ (py_methods SinkWholeData) (md_columns md) U (props_return _) (fun _ _ => eq_refl)) as FO.
    destruct (follows_all _ _ _ _ _ FO h md rows (start_state SinkWholeData 0) s calls eq_refl eq_refl RC F)
      as (E0 & E1 & E2 & E3 & E4 & E5).
    split; [exact E0|]. split; [exact E1|]. split; [exact E2|]. split; [exact E3|]. split; [exact E4|].
    unfold start_state in E5 |- *. rewrite E5. cbn [told py_methods snd pt_obj py_new po_columns po_rows po_frames po_df].
    rewrite U. cbn [snd].
    unfold py_delivered in DL. destruct rows as [|r rows].
    + subst calls. cbn. split; reflexivity.
    + destruct DL as (d & -> & PD). cbn. split; [reflexivity|]. eexists. split; [reflexivity|].
      apply dict_frame; assumption.
Qed.

Lemma df_filled : forall S cls cs rows (p : program S), pg_reader p = None ->
  pt_cpp (pg_st p) = false -> filled_object cls cs rows (pt_obj (pg_st p)) ->
  exists f, (rows <> [] \/ cls = SinkByRow -> frame_is cs rows f)
    /\ fst (py_df cls p) = df_answer cls rows f
    /\ fst (py_df cls (snd (py_df cls p))) = df_answer cls rows f.
Proof.
  intros S cls cs rows p R CP (C & F). unfold py_df, py_flush_sink. rewrite CP.
  destruct cls.
  - destruct F as (D & f & FR & FI). rewrite D, FR. cbn. exists f. auto.
  - destruct F as (D & chs & CC & NE & FS). rewrite D. destruct chs as [|ch chs].
    + assert (PF : po_frames (pt_obj (pg_st p)) = []) by (inversion FS; reflexivity).
      subst rows. rewrite PF. cbn. rewrite D, CP, PF. exists []. split; [|auto].
      intros [H|H]; [contradiction|discriminate].
    + destruct (concat_frames_is cs (ch :: chs) _ FS) as (f & CF & FI); [discriminate|].
      rewrite CF. exists f. rewrite CC in FI. destruct rows as [|r rows].
      * exfalso. inversion NE; subst. destruct ch; [contradiction|discriminate].
      * cbn. auto.
  - destruct rows as [|r rows].
    + rewrite F. exists []. cbn. rewrite F, CP. cbn. rewrite F. split; [|auto].
      intros [H|H]; [contradiction|discriminate].
    + destruct F as (f & D & FI). rewrite D. exists f. cbn. rewrite D. auto.
Qed.

Lemma read_sas_frame : forall S c (src : source S) cls size inc exc s r0 ev r1 rows,
  open_reader c src (Some (py_filter inc exc)) s = Ok (r0, ev) ->
  read_all c src r0 = (Ok tt, r1, SpecSinks.pushes rows ++ [EvEnd]) ->
  named (md_columns (rs_md r0)) -> showable (md_columns (rs_md r0)) rows -> lenN rows < W64 ->
  exists p f, read_sas c src cls size inc exc s = (Ok tt, p)
    /\ (rows <> [] \/ cls = SinkByRow -> frame_is (md_columns (rs_md r0)) rows f)
    /\ fst (py_df cls p) = df_answer cls rows f
    /\ fst (py_df cls (snd (py_df cls p))) = df_answer cls rows f.
Proof.
  intros S c src cls size inc exc s r0 ev r1 rows O R NA RD B.
  destruct (class_fills cls size (rs_h r0) (rs_md r0) rows NA RD B) as (E0 & E1 & E2 & E3 & E4 & E5).
  unfold read_sas, py_open. fold (start_state cls size). rewrite drive_open_spec, O. cbn zeta.
  rewrite E0. cbn [rmap bind]. unfold settle at 1. rewrite E1. cbn [rmap bind].
  unfold py_do. cbn [pg_reader pg_st].
  assert (ST : step c src OpReadAll r0 = (Ok OUnit, r1, SpecSinks.pushes rows ++ [EvEnd]))
    by (cbn [step]; rewrite R; reflexivity).
  rewrite (drive_accepted _ _ _ _ _ _ _ _ _ _ _ ST E2). unfold settle. rewrite E3. cbn [rmap bind].
  destruct (df_filled S cls (md_columns (rs_md r0)) rows
    (py_drop (Program (Some r1) (after (class_sink cls)
       (snd (class_sink cls (EvProps (rs_h r0) (rs_md r0)) (start_state cls size)))
       (SpecSinks.pushes rows ++ [EvEnd]))))) as (f & D1 & D2 & D3); [reflexivity|exact E4|exact E5|].
  eexists _, f. split; [reflexivity|]. auto.
Qed.
