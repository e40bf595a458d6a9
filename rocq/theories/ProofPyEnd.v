From Verif Require Import PyObjects Base Lemmas Types Buffer Page Column Header Metadata Decomp Data Reader Drive
  Sinks Callbacks Python SpecDecomp SpecReader SpecDrive SpecSinks SpecPython ProofReader ProofDrive
  ProofPyChunks ProofPython.
Local Open Scope N_scope.

(** ** A sink which refuses a call *)

Lemma first_refusal : forall A (k : sink A) u a e v u' e' v',
  accepts k a u -> fst (k e (after k a u)) <> Ok tt ->
  accepts k a u' -> fst (k e' (after k a u')) <> Ok tt ->
  u ++ e :: v = u' ++ e' :: v' -> u = u' /\ e = e' /\ v = v'.
Proof.
  intros A k. induction u as [|x u IH]; intros a e v [|x' u'] e' v' A1 R1 A2 R2 E; cbn [app accepts after] in *.
  - injection E as <- <-. auto.
  - injection E as <- ->. destruct A2 as [A2 _]. contradiction.
  - injection E as -> _. destruct A1 as [A1 _]. contradiction.
  - injection E as -> E. destruct A1 as [_ A1], A2 as [_ A2].
    destruct (IH _ _ _ _ _ _ A1 R1 A2 R2 E) as (-> & -> & ->). auto.
Qed.

Lemma drive_refused : forall S A c (src : source S) (k : sink A) o r a x0 r0 before e rest,
  step c src o r = (x0, r0, before ++ e :: rest) -> accepts k a before ->
  fst (k e (after k a before)) <> Ok tt ->
  exists x r', drive_step c src k o r a = (x, r', after k a (before ++ [e]), before ++ [e])
    /\ same_failure (fst (k e (after k a before))) x.
Proof.
  intros S A c src k o r a x0 r0 before e rest ST AC RF.
  destruct (drive_step c src k o r a) as [[[x1 r1] a1] ev1] eqn:D.
  destruct (drive_call _ _ _ _ _ _ _ _ _ _ _ _ _ _ _ D ST) as [-> [(A1 & _ & _ & ->)|K]].
  - exfalso. apply RF. change (e :: rest) with ([e] ++ rest) in A1. apply (accepts_last _ _ _ _ _ rest A1).
  - destruct K as (bf & e' & rs & y & -> & EV & (B1 & B2 & B3) & SF & _). rewrite <- B2 in B3.
    rewrite <- app_assoc in EV. cbn [app] in EV.
    destruct (first_refusal _ _ _ _ _ _ _ _ _ AC RF B1 B3 EV) as (<- & <- & _).
    exists x1, r1. split; [reflexivity|]. rewrite B2. exact SF.
Qed.

(** ** The end of the data *)

(** _cpp has been removed, no error is pending, no row is kept. *)
Definition closed (cls : py_class) (st : pyst py_object) : Prop :=
  pt_cpp st = false /\ pt_err st = false /\ (cls = SinkByRow \/ py_idata (pt_c st) = 0).

Lemma class_end : forall cls st st', class_sink cls EvEnd st = (Ok tt, st') ->
  pt_cpp st' = false /\ (cls = SinkByRow \/ py_idata (pt_c st') = 0)
  /\ (pt_err st' = pt_err st || negb (pt_cpp st)) /\ py_cols (pt_c st') = py_cols (pt_c st).
Proof.
  intros cls st st' H. rewrite class_kind in H. destruct cls; cbn [sink_of] in H.
  - injection H as <-. cbn. auto.
  - cbn [chunk_sink] in H. unfold cb_flush in H. cbn [del_cpp pt_c] in H.
    destruct (N.eqb_spec (py_idata (pt_c st)) 0) as [E|E].
    + injection H as <-. cbn. auto.
    + unfold dict_method, py_method in H. cbn [pt_err del_cpp pt_c] in H.
      destruct (pt_err st || negb (pt_cpp st)) eqn:ER; [discriminate|].
      destruct (dict_ready _ _) as [[]| | | |]; try discriminate. cbn in H. injection H as <-. cbn. auto.
  - cbn [data_sink] in H. unfold cb_set_data in H. cbn [del_cpp pt_c] in H.
    destruct (N.eqb_spec (py_idata (pt_c st)) 0) as [E|E].
    + injection H as <-. cbn. auto.
    + unfold dict_method, py_method in H. cbn [pt_err del_cpp pt_c] in H.
      destruct (pt_err st || negb (pt_cpp st)) eqn:ER; [discriminate|].
      destruct (dict_ready _ _) as [[]| | | |]; try discriminate. cbn in H. injection H as <-. cbn. auto.
Qed.

Lemma class_end_again : forall cls st, closed cls st ->
  exists st', class_sink cls EvEnd st = (Ok tt, st') /\ pt_err st' = true /\ pt_cpp st' = false
    /\ pt_c st' = pt_c st /\ pt_obj st' = pt_obj st.
Proof.
  intros cls st (C & E & I). rewrite class_kind.
  destruct cls; cbn [sink_of row_sink chunk_sink data_sink].
  - eexists. split; [reflexivity|]. cbn. rewrite C, orb_true_r. auto.
  - destruct I as [I|I]; [discriminate|]. unfold cb_flush. cbn [del_cpp pt_c]. rewrite I. cbn [N.eqb].
    eexists. split; [reflexivity|]. cbn. rewrite C, orb_true_r. auto.
  - destruct I as [I|I]; [discriminate|]. unfold cb_set_data. cbn [del_cpp pt_c]. rewrite I. cbn [N.eqb].
    eexists. split; [reflexivity|]. cbn. rewrite C, orb_true_r. auto.
Qed.

Lemma settle_ok : forall A P (x : res A) (st : pyst P) a st', settle x st = (Ok a, st') ->
  x = Ok a /\ st' = st /\ pt_err st = false.
Proof.
  intros A P x st a st' H. unfold settle in H.
  destruct x; try discriminate. destruct (pt_err st); [discriminate|]. injection H as <- <-. auto.
Qed.

(** A call which returns. *)
Lemma do_ok : forall S c (src : source S) cls o p r b p1, pg_reader p = Some r -> wf_r r ->
  py_do c src cls o p = (Ok b, p1) ->
  exists r1 rows, step c src o r = (Ok b, r1, rows ++ (if tells_end o (Ok b) then [EvEnd] else []))
    /\ wf_r r1 /\ pg_reader p1 = Some r1 /\ Forall (fun e => is_row e = true) rows
    /\ accepts (class_sink cls) (pg_st p) (rows ++ (if tells_end o (Ok b) then [EvEnd] else []))
    /\ pg_st p1 = after (class_sink cls) (pg_st p) (rows ++ (if tells_end o (Ok b) then [EvEnd] else []))
    /\ pt_err (pg_st p1) = false.
Proof.
  intros S c src cls o p r b p1 R W H. unfold py_do in H. rewrite R in H.
  destruct (drive_step c src (class_sink cls) o r (pg_st p)) as [[[x r'] st] ev] eqn:D.
  destruct (settle x st) as [y st'] eqn:SE. injection H as -> <-.
  destruct (settle_ok _ _ _ _ _ _ SE) as (-> & -> & ER).
  destruct (step c src o r) as [[x0 r0] ev0] eqn:ST.
  destruct (drive_call _ _ _ _ _ _ _ _ _ _ _ _ _ _ _ D ST) as [-> [(A1 & <- & -> & ->)|K]].
  - pose proof (step_consumes _ _ _ _ _ _ _ _ W ST) as (W1 & _).
    destruct (step_protocol _ _ _ _ _ _ _ _ W ST) as (rows & -> & RO & _).
    assert (EE : ProofReader.ends (tells_end o (Ok b)) = (if tells_end o (Ok b) then [EvEnd] else []))
      by (destruct (tells_end o (Ok b)); reflexivity).
    rewrite EE in *. exists r0, rows. auto 10.
  - destruct K as (bf & e & rs & y & _ & _ & _ & SF & _). destruct (same_ok _ _ _ _ SF).
Qed.

Lemma do_closed : forall S c (src : source S) cls o p r b p1, pg_reader p = Some r -> wf_r r ->
  py_do c src cls o p = (Ok b, p1) -> tells_end o (Ok b) = true ->
  closed cls (pg_st p1) /\ exists r1, pg_reader p1 = Some r1 /\ wf_r r1
    /\ (reports_end o (Ok b) = true -> ended_r r1).
Proof.
  intros S c src cls o p r b p1 R W H T.
  destruct (do_ok _ _ _ _ _ _ _ _ _ R W H) as (r1 & rows & ST & W1 & R1 & _ & AC & ES & ER).
  rewrite T in *. split.
  - rewrite accepts_app in AC. cbn [accepts] in AC. destruct AC as (_ & AC & _).
    rewrite after_app in ES. cbn [after] in ES.
    destruct (class_sink cls EvEnd (after (class_sink cls) (pg_st p) rows)) as [y st'] eqn:K.
    cbn [fst snd] in *. subst y. destruct (class_end _ _ _ K) as (K1 & K2 & _). unfold closed. rewrite ES in ER |- *. auto.
  - exists r1. split; [exact R1|]. split; [exact W1|].
    intros RE. exact (end_reported _ _ _ _ _ _ _ _ W ST RE).
Qed.

(** The sink told again. *)
Lemma told_again : forall S c (src : source S) cls p r o b r1, closed cls (pg_st p) -> pg_reader p = Some r ->
  step c src o r = (Ok b, r1, [EvEnd]) -> fst (py_do c src cls o p) = Exn E_system_error.
Proof.
  intros S c src cls p r o b r1 CL R ST.
  destruct (class_end_again cls (pg_st p) CL) as (st' & K & ER & _).
  unfold py_do. rewrite R.
  rewrite (drive_accepted _ _ _ _ _ _ _ (pg_st p) _ _ _ ST) by (cbn [accepts]; rewrite K; cbn; auto).
  cbn [after]. rewrite K. cbn [snd]. unfold settle. rewrite ER. reflexivity.
Qed.

Lemma end_twice : forall S c (src : source S) cls o p r b p1 o2, pg_reader p = Some r -> wf_r r ->
  py_do c src cls o p = (Ok b, p1) -> tells_end o (Ok b) = true ->
  (o2 = OpEnd \/ (reports_end o (Ok b) = true /\ asks o2 = true /\ o2 <> OpNoSink)) ->
  fst (py_do c src cls o2 p1) = Exn E_system_error.
Proof.
  intros S c src cls o p r b p1 o2 R W H T C.
  destruct (do_closed _ _ _ _ _ _ _ _ _ R W H T) as (CL & r1 & R1 & W1 & EN).
  destruct C as [->|(RE & AS & NS)].
  - eapply told_again; [exact CL|exact R1|reflexivity].
  - specialize (EN RE). pose proof (ended_step _ c src o2 r1 EN) as ST.
    assert (EV : end_events o2 = [EvEnd]).
    { destruct o2; cbn in *; try reflexivity; try discriminate; try congruence;
        destruct n; cbn in *; try discriminate; reflexivity. }
    rewrite EV in ST. eapply told_again; [exact CL|exact R1|exact ST].
Qed.

(** ** Reading, and what df sees *)

Definition cols_of (cls : py_class) (cs : list column) : list column :=
  match cls with SinkByRow => cs | _ => grouped cs end.

(** While rows are read. *)
Definition open_state (cls : py_class) (cs : list column) (st : pyst py_object) : Prop :=
  pt_cpp st = true /\ pt_err st = false /\ po_df (pt_obj st) = None /\ py_cols (pt_c st) = cols_of cls cs.

Lemma row_cpp : forall cls i p st, pt_err st = false ->
  let st' := snd (class_sink cls (EvRow i p) st) in
  pt_cpp st' = pt_cpp st /\ pt_err st' = false /\ po_df (pt_obj st') = po_df (pt_obj st)
  /\ py_cols (pt_c st') = py_cols (pt_c st).
Proof.
  intros cls i p st E. rewrite class_kind. destruct cls; cbn [sink_of row_sink chunk_sink data_sink].
  - destruct (mapM _ _); cbn [snd]; auto. unfold py_method. rewrite E. cbn. auto.
  - unfold cb_push. destruct (mapM _ _); cbn [snd]; auto. cbn [py_idata py_size].
    destruct (_ =? _); cbn [snd]; [|cbn; auto].
    unfold cb_flush. destruct (_ =? 0); cbn [snd]; [cbn; auto|].
    unfold dict_method, py_method. cbn [with_chunk pt_err pt_c].
    rewrite E. destruct (dict_ready _ _) as [[]| | | |]; cbn; auto.
  - unfold cb_push. destruct (mapM _ _); cbn [snd]; auto. cbn [py_idata py_size].
    destruct (_ =? _); cbn; auto.
Qed.

Lemma rows_cpp : forall cls rows st, Forall (fun e => is_row e = true) rows -> pt_err st = false ->
  let st' := after (class_sink cls) st rows in
  pt_cpp st' = pt_cpp st /\ pt_err st' = false /\ po_df (pt_obj st') = po_df (pt_obj st)
  /\ py_cols (pt_c st') = py_cols (pt_c st).
Proof.
  intros cls. induction rows as [|e rows IH]; intros st F E; [cbn; auto|].
  inversion F; subst. destruct e as [h md|i p|]; try discriminate. cbn [after].
  destruct (row_cpp cls i p st E) as (A1 & A2 & A3 & A4).
  destruct (IH _ H2 A2) as (B1 & B2 & B3 & B4). cbv zeta. rewrite <- A1, <- A3, <- A4. auto.
Qed.

(** The properties given to a new sink. *)
Lemma class_props : forall cls size h md,
  if named_in_utf8 (md_columns md)
  then exists st1, class_sink cls (EvProps h md) (start_state cls size) = (Ok tt, st1)
         /\ open_state cls (md_columns md) st1
  else exists st1, class_sink cls (EvProps h md) (start_state cls size) = (Exn E_unicode_error, st1).
Proof.
  intros cls size h md. rewrite class_kind. destruct (named_in_utf8 (md_columns md)) eqn:U;
    destruct cls; cbn [sink_of row_sink chunk_sink data_sink]; unfold cb_props, py_method; cbn -[named_in_utf8];
    rewrite U; eexists; try reflexivity; (split; [reflexivity|]); repeat split.
Qed.

Lemma open_ok : forall S c (src : source S) cls size flt s p, max_alloc c < row_limit ->
  py_open c src cls size flt s = (Ok tt, p) ->
  exists r, opened c src (Some flt) s r /\ wf_r r /\ pg_reader p = Some r
    /\ open_state cls (md_columns (rs_md r)) (pg_st p).
Proof.
  intros S c src cls size flt s p M H. unfold py_open in H. fold (start_state cls size) in H.
  rewrite drive_open_spec in H.
  destruct (open_reader c src (Some flt) s) as [[r ev]|ex| |u|] eqn:O; try discriminate. cbn zeta in H.
  assert (OP : opened c src (Some flt) s r) by (exists ev; exact O).
  pose proof (class_props cls size (rs_h r) (rs_md r)) as K.
  destruct (named_in_utf8 (md_columns (rs_md r))); [|destruct K as (st1 & K); rewrite K in H; discriminate H].
  destruct K as (st1 & K & OS). rewrite K in H. cbn [fst snd rmap bind] in H.
  unfold settle in H. destruct OS as (O1 & O2 & O3 & O4). rewrite O2 in H. cbn [rmap bind] in H.
  injection H as <-. exists r. split; [exact OP|]. split; [apply (opened_wf _ _ _ _ _ _ M OP)|].
  split; [reflexivity|]. repeat split; assumption.
Qed.

Lemma reads_ok : forall S c (src : source S) cls cs p p', reads c src cls p p' ->
  forall r, pg_reader p = Some r -> wf_r r -> md_columns (rs_md r) = cs -> open_state cls cs (pg_st p) ->
  exists r', pg_reader p' = Some r' /\ wf_r r' /\ md_columns (rs_md r') = cs /\ open_state cls cs (pg_st p').
Proof.
  intros S c src cls cs p p' H. induction H as [p|o b p p1 p2 H T H2 IH]; intros r R W M OS.
  - exists r. auto.
  - destruct (do_ok _ _ _ _ _ _ _ _ _ R W H) as (r1 & rows & ST & W1 & R1 & F & AC & ES & ER).
    rewrite T, app_nil_r in *. destruct OS as (O1 & O2 & O3 & O4).
    destruct (rows_cpp cls rows (pg_st p) F O2) as (B1 & B2 & B3 & B4).
    apply (IH r1 R1 W1).
    + pose proof (step_consumes _ _ _ _ _ _ _ _ W ST) as (_ & _ & MD & _). rewrite MD. exact M.
    + rewrite ES. unfold open_state. rewrite B1, B2, B3, B4. auto.
Qed.

Lemma reading_ok : forall S c (src : source S) cls size flt s p, max_alloc c < row_limit ->
  reading c src cls size flt s p ->
  exists r, pg_reader p = Some r /\ wf_r r /\ open_state cls (md_columns (rs_md r)) (pg_st p).
Proof.
  intros S c src cls size flt s p M (p0 & O & H).
  destruct (open_ok _ _ _ _ _ _ _ _ M O) as (r & _ & W & R & OS).
  destruct (reads_ok _ _ _ _ _ _ _ H r R W eq_refl OS) as (r' & R' & W' & MD & OS').
  exists r'. rewrite MD. auto.
Qed.

(** The Reader is dropped before the end. *)
Lemma df_dangling : forall S c (src : source S) cls size flt s p, max_alloc c < row_limit ->
  reading c src cls size flt s p -> fst (py_df cls (py_drop p)) = Undef UB_lifetime.
Proof.
  intros S c src cls size flt s p M H.
  destruct (reading_ok _ _ _ _ _ _ _ _ M H) as (r & R & W & O1 & O2 & O3 & O4).
  unfold py_df, py_drop. cbn [pg_st]. rewrite O3. unfold py_flush_sink. cbn [pg_st pg_reader]. rewrite O1. reflexivity.
Qed.

(** ** Reading on after df *)

(** df while the Reader is there and rows are read: it ends the data for the sink. *)
Lemma df_closes : forall S cls (p : program S) r cs x p1, pg_reader p = Some r ->
  open_state cls cs (pg_st p) -> py_df cls p = (Ok x, p1) ->
  pg_reader p1 = Some r /\ closed cls (pg_st p1) /\ py_cols (pt_c (pg_st p1)) = cols_of cls cs
  /\ (cls <> SinkWholeData -> po_df (pt_obj (pg_st p1)) = x).
Proof.
  intros S cls p r cs x p1 R (O1 & O2 & O3 & O4) H. unfold py_df in H. rewrite O3 in H.
  unfold py_flush_sink in H. rewrite O1, R in H.
  destruct (class_sink cls EvEnd (pg_st p)) as [y st'] eqn:K.
  destruct (settle y st') as [z st2] eqn:SE.
  destruct z as [[]|ex| |u|]; try discriminate H.
  destruct (settle_ok _ _ _ _ _ _ SE) as (-> & -> & ER).
  destruct (class_end _ _ _ K) as (K1 & K2 & _ & K4). rewrite O4 in K4.
  assert (CL : closed cls st') by (repeat split; assumption).
  cbn [pg_st] in H. destruct cls.
  - destruct (frame_of_records _ _) as [f|ex| |u|]; try discriminate H. injection H as <- <-.
    unfold with_df, closed in *. cbn in *. auto.
  - destruct (concat_frames _) as [f|ex| |u|]; try discriminate H. injection H as <- <-.
    unfold with_df, closed in *. cbn in *. auto.
  - injection H as <- <-. cbn. repeat split; try assumption; try apply CL.
Qed.

(** Rows pushed to the whole data sink. *)
Lemma data_rows : forall cs rows st, readable cs rows -> py_cols (pt_c st) = grouped cs ->
  py_idata (pt_c st) + lenN rows < W64 ->
  accepts (class_sink SinkWholeData) st (SpecSinks.pushes rows)
  /\ let st' := after (class_sink SinkWholeData) st (SpecSinks.pushes rows) in
     py_idata (pt_c st') = py_idata (pt_c st) + lenN rows /\ pt_cpp st' = pt_cpp st.
Proof.
  intros cs. induction rows as [|[i p] rows IH]; intros st RD C B.
  - cbn. change (lenN []) with 0. rewrite N.add_0_r. auto.
  - change ((i, p) :: rows) with ([(i, p)] ++ rows) in RD. apply Forall_app in RD. destruct RD as [RD1 RD2].
    apply readable_grouped in RD1. inversion RD1 as [|? ? R _]; subst. cbn [snd] in R.
    destruct (group_values (grouped cs) p (grouped_all_known cs) R) as (vs & M & F).
    assert (LM : lenN ((i, p) :: rows) = 1 + lenN rows) by (unfold lenN; cbn [length]; lia).
    change (SpecSinks.pushes ((i, p) :: rows)) with (EvRow i p :: SpecSinks.pushes rows).
    cbn [accepts after].
    assert (K : exists st', class_sink SinkWholeData (EvRow i p) st = (Ok tt, st')
       /\ py_idata (pt_c st') = py_idata (pt_c st) + 1 /\ py_cols (pt_c st') = grouped cs /\ pt_cpp st' = pt_cpp st).
    { rewrite class_kind. cbn [sink_of data_sink]. unfold cb_push. rewrite C, M. cbn [py_idata py_size].
      destruct (_ =? _); (eexists; split; [reflexivity|]; cbn; rewrite add64_small by lia; auto). }
    destruct K as (st' & K & K1 & K2 & K3). rewrite K. cbn [fst snd].
    destruct (IH st' RD2 K2) as (I1 & I2 & I3); [lia|]. split; [auto|]. rewrite I2, I3, K1, K3. split; [lia|reflexivity].
Qed.

Lemma data_after_df : forall S c (src : source S) size flt s p r x p1 r1 rows, max_alloc c < row_limit ->
  reading c src SinkWholeData size flt s p -> pg_reader p = Some r ->
  py_df SinkWholeData p = (Ok x, p1) ->
  read_all c src r = (Ok tt, r1, SpecSinks.pushes rows ++ [EvEnd]) -> rows <> [] ->
  readable (md_columns (rs_md r)) rows -> lenN rows < W64 ->
  fst (py_do c src SinkWholeData OpReadAll p1) = Undef UB_api.
Proof.
  intros S c src size flt s p r x p1 r1 rows M RG R DF RA NE RD B.
  destruct (reading_ok _ _ _ _ _ _ _ _ M RG) as (r' & R' & W & OS). rewrite R in R'. injection R' as <-.
  destruct (df_closes _ _ _ _ _ _ _ R OS DF) as (R1 & (C1 & C2 & C3) & CC & _).
  destruct C3 as [C3|C3]; [discriminate|].
  destruct (data_rows (md_columns (rs_md r)) rows (pg_st p1) RD CC) as (A1 & A2 & A3); [lia|].
  assert (ST : step c src OpReadAll r = (Ok OUnit, r1, SpecSinks.pushes rows ++ EvEnd :: []))
    by (cbn [step]; rewrite RA; reflexivity).
  assert (KE : fst (class_sink SinkWholeData EvEnd (after (class_sink SinkWholeData) (pg_st p1) (SpecSinks.pushes rows)))
               = Undef UB_api).
  { rewrite class_kind. cbn [sink_of data_sink]. unfold cb_set_data. cbn [del_cpp pt_c].
    rewrite A2, C3. destruct (N.eqb_spec (0 + lenN rows) 0) as [L|L];
      [destruct rows; [contradiction|unfold lenN in L; cbn in L; lia]|].
    unfold dict_method, py_method. cbn [del_cpp pt_err]. rewrite A3, C1. cbn [negb]. rewrite orb_true_r. reflexivity. }
  destruct (drive_refused _ _ c src (class_sink SinkWholeData) OpReadAll r (pg_st p1) _ _ _ _ _ ST A1) as (y & r2 & D & SF).
  { rewrite KE. discriminate. }
  rewrite KE in SF. unfold py_do. rewrite R1, D. destruct y; try contradiction. cbn in SF. subst u. reflexivity.
Qed.

(** Once a row or chunk sink has given its frame, it gives the same one for ever, and the
    next end of the data raises SystemError. *)
Lemma stale_frame : forall S c (src : source S) cls size flt s p f p1, max_alloc c < row_limit ->
  reading c src cls size flt s p -> py_df cls p = (Ok (Some f), p1) -> cls <> SinkWholeData ->
  forall p2, reads c src cls p1 p2 -> fst (py_df cls p2) = Ok (Some f).
Proof.
  intros S c src cls size flt s p f p1 M RG DF NW p2 RE.
  destruct (reading_ok _ _ _ _ _ _ _ _ M RG) as (r & R & W & OS).
  destruct (df_closes _ _ _ _ _ _ _ R OS DF) as (R1 & (C1 & C2 & C3) & CC & PD). specialize (PD NW).
  clear - RE R1 W C2 PD. revert r R1 W C2 PD.
  induction RE as [p|o b p p1 p2 H T H2 IH]; intros r R W C2 PD.
  - unfold py_df. rewrite PD. reflexivity.
  - destruct (do_ok _ _ _ _ _ _ _ _ _ R W H) as (r1 & rows & ST & W1 & R1 & F & AC & ES & ER).
    rewrite T, app_nil_r in *. destruct (rows_cpp cls rows (pg_st p) F C2) as (B1 & B2 & B3 & B4).
    apply (IH r1 R1 W1 ER). rewrite ES, B3. exact PD.
Qed.

Lemma reading_end_twice : forall S c (src : source S) cls size flt s p o b p1 o2, max_alloc c < row_limit ->
  reading c src cls size flt s p -> py_do c src cls o p = (Ok b, p1) -> tells_end o (Ok b) = true ->
  (o2 = OpEnd \/ (reports_end o (Ok b) = true /\ asks o2 = true /\ o2 <> OpNoSink)) ->
  fst (py_do c src cls o2 p1) = Exn E_system_error.
Proof.
  intros S c src cls size flt s p o b p1 o2 M RD D T A.
  destruct (reading_ok _ _ _ _ _ _ _ _ M RD) as (r & R & W & _).
  exact (end_twice _ _ _ _ _ _ _ _ _ _ R W D T A).
Qed.
