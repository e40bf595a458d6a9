From Coq Require Import Permutation.
From Verif Require Import Base Lemmas Types Float DateTime Buffer Column Header Metadata Reader Drive Sinks Callbacks
  SpecReader SpecDrive SpecValues SpecSinks SpecCallbacks ProofValues ProofDrive ProofCsv ProofPyChunks ProofRChunks.
Local Open Scope N_scope.

(** ** Python: rows are conserved *)

Lemma returned_app : forall u v, returned (u ++ v) = returned u ++ returned v.
Proof. intros u v. apply flat_map_app. Qed.

Definition logof {P} (st : pyst (P * list (pyreq * res unit))) : list pycall := returned (snd (pt_obj st)).

(** A request to an object which keeps notes. *)
Lemma method_noted : forall P (o : pyobj P) k (st : pyst (P * list (pyreq * res unit))), pt_err st = false ->
  exists y p log, py_method (noted o) (PyCall k) st = (y, PySt (pt_cpp st) false (pt_c st) (p, log))
    /\ returned log = logof st ++ match y with Ok tt => [k] | _ => [] end.
Proof.
  intros P o k st E. unfold py_method, noted. rewrite E.
  destruct (o (PyCall k) (fst (pt_obj st))) as [y p].
  eexists y, p, _. split; [reflexivity|]. unfold logof. rewrite returned_app. f_equal.
  destruct y as [[]| | | |]; reflexivity.
Qed.

(** flush: nothing to deliver, or one request, which returns or not. *)
Lemma flush_noted : forall P (o : pyobj P) cs size pend st, NoDup (map c_name (filter known cs)) ->
  pt_err st = false -> py_ok cs size pend (pt_c st) ->
  exists y st', cb_flush (noted o) st = (y, st') /\ pt_err st' = false /\ pt_cpp st' = pt_cpp st
    /\ ((y = Ok tt /\ exists cks, pend = concat cks /\ (length cks <= 1)%nat
           /\ py_ok cs size [] (pt_c st') /\ exists new, logof st' = logof st ++ new /\ Forall2 (py_chunk cs) cks new)
        \/ (y <> Ok tt /\ pend <> [] /\ pt_c st' = pt_c st /\ logof st' = logof st)).
Proof.
  intros P o cs size pend st ND E OKs. destruct pend as [|r pend].
  - unfold cb_flush. rewrite (po_idata _ _ _ _ OKs). change (lenN [] =? 0) with true. cbn [N.eqb].
    exists (Ok tt), st. split; [reflexivity|]. split; [exact E|]. split; [reflexivity|]. left.
    split; [reflexivity|]. exists []. split; [reflexivity|]. split; [cbn; lia|]. split; [exact OKs|].
    exists []. rewrite app_nil_r. split; [reflexivity|constructor].
  - destruct (py_flush_ok cs size _ _ ND OKs ltac:(discriminate)) as (s' & k & FL & OK' & CK & _).
    unfold py_flush in FL. unfold cb_flush.
    destruct (py_idata (pt_c st) =? 0); [discriminate FL|]. injection FL as <- <-.
    destruct (method_noted P o (PyPushRows (py_istart (pt_c st)) (py_iend (pt_c st))
       (py_dict (py_cols (pt_c st)) (py_vals (pt_c st)) [])) st E) as (y & p & log & M & R).
    unfold dict_method. rewrite E. destruct (dict_ready _ _) as [[]| | | |].
    2-5: (eexists _, _; split; [reflexivity|]; split; [exact E|]; split; [reflexivity|]; right;
          split; [discriminate|]; split; [discriminate|]; split; reflexivity).
    rewrite M. destruct y as [[]|ex| |u|].
    + eexists _, _. split; [reflexivity|]. split; [reflexivity|]. split; [reflexivity|]. left.
      split; [reflexivity|]. exists [r :: pend]. split; [cbn; rewrite app_nil_r; reflexivity|].
      split; [cbn; lia|]. split; [exact OK'|]. eexists. split; [unfold logof; cbn [with_chunk pt_obj snd]; exact R|].
      constructor; [exact CK|constructor].
    + eexists _, _. split; [reflexivity|]. split; [reflexivity|]. split; [reflexivity|]. right.
      split; [discriminate|]. split; [discriminate|]. split; [reflexivity|]. unfold logof at 1. cbn [pt_obj snd]. rewrite R. apply app_nil_r.
    + eexists _, _. split; [reflexivity|]. split; [reflexivity|]. split; [reflexivity|]. right.
      split; [discriminate|]. split; [discriminate|]. split; [reflexivity|]. unfold logof at 1. cbn [pt_obj snd]. rewrite R. apply app_nil_r.
    + eexists _, _. split; [reflexivity|]. split; [reflexivity|]. split; [reflexivity|]. right.
      split; [discriminate|]. split; [discriminate|]. split; [reflexivity|]. unfold logof at 1. cbn [pt_obj snd]. rewrite R. apply app_nil_r.
    + eexists _, _. split; [reflexivity|]. split; [reflexivity|]. split; [reflexivity|]. right.
      split; [discriminate|]. split; [discriminate|]. split; [reflexivity|]. unfold logof at 1. cbn [pt_obj snd]. rewrite R. apply app_nil_r.
Qed.

(** The rows held and those delivered. *)
Definition held {P} (cs : list column) (size : N) (rows : list (N * pview)) (st : pyst (P * list (pyreq * res unit)))
    (cks : list (list (N * pview))) (pend : list (N * pview)) : Prop :=
  pt_err st = false /\ pt_cpp st = true /\ py_ok cs size pend (pt_c st)
  /\ rows = concat cks ++ pend /\ Forall2 (py_chunk cs) cks (logof st).

Lemma push_noted : forall P (o : pyobj P) cs size rows st cks pend i p, NoDup (map c_name (filter known cs)) ->
  held cs size rows st cks pend -> readable cs [(i, p)] -> lenN pend + 1 < W64 ->
  exists cks' pend', held cs size (rows ++ [(i, p)]) (snd (chunk_sink (noted o) (EvRow i p) st)) cks' pend'
    /\ (length pend' <= length pend + 1)%nat.
Proof.
  intros P o cs size rows st cks pend i p ND (E & CP & OKs & RW & LG) RD B.
  pose proof OKs as [Z C D V EN].
  apply readable_grouped in RD. inversion RD as [|? ? R _]; subst. cbn [snd] in R.
  destruct (group_values (grouped cs) p (grouped_all_known cs) R) as (vs & M & F).
  cbn [chunk_sink]. unfold cb_push. rewrite C, M. cbn [py_idata py_size].
  set (s' := PyChunk _ _ _ _ _ _).
  assert (OK' : py_ok cs (py_size (pt_c st)) (pend ++ [(i, p)]) s').
  { constructor; cbn [s' py_size py_cols py_idata py_vals py_iend]; auto.
    - rewrite D, add64_small, lenN_app1 by exact B. reflexivity.
    - apply filled_append; assumption.
    - intros l j H. rewrite map_app in H. cbn [map fst] in H. apply app_inj_tail in H. apply H. }
  destruct (_ =? _).
  - destruct (flush_noted P o cs (py_size (pt_c st)) (pend ++ [(i, p)]) (with_chunk s' st) ND E OK')
      as (y & st' & FL & E' & CP' & H). rewrite FL. cbn [snd].
    destruct H as [(-> & ck & PE & _ & OK2 & new & LG2 & CK)|(_ & _ & PC & LG2)].
    + exists (cks ++ ck), []. split; [|cbn; lia]. split; [exact E'|]. split; [rewrite CP'; exact CP|].
      split; [exact OK2|]. split; [rewrite app_nil_r, concat_app, <- PE, app_assoc; reflexivity|].
      rewrite LG2. apply Forall2_app; [exact LG|exact CK].
    + exists cks, (pend ++ [(i, p)]). split; [|rewrite app_length; cbn; lia]. split; [exact E'|].
      split; [rewrite CP'; exact CP|]. split; [rewrite PC; exact OK'|].
      split; [rewrite app_assoc; reflexivity|]. rewrite LG2. exact LG.
  - cbn [snd]. exists cks, (pend ++ [(i, p)]). split; [|rewrite app_length; cbn; lia].
    split; [exact E|]. split; [exact CP|]. split; [exact OK'|]. split; [rewrite app_assoc; reflexivity|exact LG].
Qed.

Lemma rows_noted : forall P (o : pyobj P) cs size, NoDup (map c_name (filter known cs)) ->
  forall more rows st cks pend, held cs size rows st cks pend -> readable cs more ->
  lenN pend + lenN more < W64 ->
  exists cks' pend', held cs size (rows ++ more) (after (chunk_sink (noted o)) st (pushes more)) cks' pend'.
Proof.
  intros P o cs size ND. induction more as [|[i p] more IH]; intros rows st cks pend H RD B.
  - exists cks, pend. rewrite app_nil_r. exact H.
  - change ((i, p) :: more) with ([(i, p)] ++ more) in RD. apply Forall_app in RD. destruct RD as [RD1 RD2].
    assert (LM : lenN ((i, p) :: more) = 1 + lenN more) by (unfold lenN; cbn [length]; lia).
    destruct (push_noted P o cs size rows st cks pend i p ND H RD1) as (cks1 & pend1 & H1 & L1); [lia|].
    destruct (IH _ _ _ _ H1 RD2) as (cks' & pend' & H').
    { unfold lenN in *. lia. }
    exists cks', pend'. rewrite <- app_assoc in H'. exact H'.
Qed.

Lemma props_noted : forall P (o : pyobj P) size h md p, fst (o (PyProps h md) p) = Ok tt ->
  fst (chunk_sink (noted o) (EvProps h md) (chunk_start size p)) = Ok tt
  /\ held (md_columns md) size [] (snd (chunk_sink (noted o) (EvProps h md) (chunk_start size p))) [] [].
Proof.
  intros P o size h md p H. cbn [chunk_sink]. unfold cb_props, py_method, set_cpp, chunk_start, noted.
  cbn [pt_err pt_obj fst snd pt_c pt_cpp]. destruct (o (PyProps h md) p) as [y p']. cbn [fst] in H. subst y.
  cbn [fst snd]. split; [reflexivity|]. unfold held. cbn. split; [reflexivity|]. split; [reflexivity|].
  split; [|split; [reflexivity|constructor]].
  constructor; cbn; try reflexivity; [apply filled_nil|]. intros [|? ?] i E; discriminate.
Qed.

(** All rows, then end_of_data, whatever the object does. *)
Lemma chunks_conserved : forall P (o : pyobj P) size h md rows p,
  NoDup (map c_name (filter known (md_columns md))) -> readable (md_columns md) rows -> lenN rows < W64 ->
  fst (o (PyProps h md) p) = Ok tt ->
  let k := chunk_sink (noted o) in
  let st := after k (chunk_start size p) (EvProps h md :: pushes rows) in
  exists cks pend, rows = concat cks ++ pend /\ Forall2 (py_chunk (md_columns md)) cks (returned (snd (pt_obj st)))
  /\ (fst (k EvEnd st) = Ok tt ->
      exists last, pend = concat last
        /\ Forall2 (py_chunk (md_columns md)) (cks ++ last) (returned (snd (pt_obj (snd (k EvEnd st))))))
  /\ (forall e, fst (k EvEnd st) = Exn e -> pend <> []
        /\ returned (snd (pt_obj (snd (k EvEnd st)))) = returned (snd (pt_obj st))
        /\ fst (k EvEnd (snd (k EvEnd st))) = Undef UB_api).
Proof.
  intros P o size h md rows p ND RD B PR k st.
  destruct (props_noted P o size h md p PR) as [_ H0].
  destruct (rows_noted P o (md_columns md) size ND rows [] _ [] [] H0 RD) as (cks & pend & H).
  { change (lenN []) with 0. exact B. }
  cbn [app] in H. change (after (chunk_sink (noted o)) _ (pushes rows)) with st in H.
  destruct H as (E & CP & OKs & RW & LG). exists cks, pend. split; [exact RW|]. split; [exact LG|].
  assert (E0 : pt_err (del_cpp st) = false) by (change (pt_err st || negb (pt_cpp st) = false); rewrite E, CP; reflexivity).
  destruct (flush_noted P o _ size pend (del_cpp st) ND E0 OKs) as (y & st' & FL & E' & CP' & HF).
  assert (KE : k EvEnd st = (y, st')) by exact FL. rewrite KE. cbn [fst snd].
  split.
  - intros ->. destruct HF as [(_ & ck & PE & _ & _ & new & LG2 & CK)|(NK & _)]; [|contradiction NK; reflexivity].
    exists ck. split; [exact PE|]. unfold logof in LG2. rewrite LG2. apply Forall2_app; [exact LG|exact CK].
  - intros e ->. destruct HF as [(NK & _)|(_ & NE & PC & LG2)]; [discriminate|].
    split; [exact NE|]. split; [exact LG2|].
    subst k. cbn [chunk_sink]. unfold cb_flush.
    assert (OK2 : py_ok (md_columns md) size pend (pt_c (del_cpp st'))) by (cbn [del_cpp pt_c]; rewrite PC; exact OKs).
    rewrite (po_idata _ _ _ _ OK2).
    destruct (N.eqb_spec (lenN pend) 0) as [L|L]; [destruct pend; [contradiction|unfold lenN in L; cbn in L; lia]|].
    unfold dict_method, py_method. cbn [del_cpp pt_err]. rewrite CP'. cbn [del_cpp pt_cpp negb]. rewrite orb_true_r. reflexivity.
Qed.

(** ** R: after a push_rows which throws *)

Lemma r_pushes_refused : forall P (f : robj P) cs size last, last <= r_rows_limit ->
  forall rows next L pend s a i p j q e, r_ok cs size last L pend s ->
  sized size last L (r_istart s) -> small size pend ->
  r_istart s + lenN pend <= next ->
  r_readable cs (rows ++ [(i, p)]) -> increasing next last (rows ++ [(i, p)]) ->
  accepts (rchunk_sink f) (s, a) (pushes rows) ->
  threw (rchunk_sink f) (EvRow i p) (after (rchunk_sink f) (s, a) (pushes rows)) e ->
  fst (rchunk_sink f (EvRow j q) (after (rchunk_sink f) (s, a) (pushes rows ++ [EvRow i p]))) = Undef UB_oob_write.
Proof.
  intros P f cs size last BL rows.
  assert (BW : 2 * last < W64) by (unfold W64, r_rows_limit in *; lia). induction rows as [|[i0 p0] rows IH];
    intros next L pend s a i p j q e OKs SZ SM NX RD INC AC TH.
  - cbn [pushes map app after] in *. unfold threw in TH. cbn [rchunk_sink] in *. destruct INC as [[I1 I2] _].
    assert (LL : lenN pend < L).
    { destruct SZ as [[S1 ->]|[[-> S1]|S1]]; [apply SM, S1|lia|lia]. }
    destruct (base_push_ok cs size last L pend s i p OKs RD ltac:(lia) LL) as (s1 & P1 & OK1 & IS1 & IE1); [lia|].
    unfold rcb_push in *. rewrite P1 in *.
    set (s2 := r_with s1 (r_idata s1) (r_istart s1) i (r_index s1) (r_heap s1)) in *.
    assert (OK2 : r_ok cs size last L (pend ++ [(i, p)]) s2).
    { destruct OK1. constructor; cbn; auto. }
    rewrite (ro_idata _ _ _ _ _ _ OK2), (ro_size _ _ _ _ _ _ OK2), lenN_app1 in *.
    destruct (N.eqb_spec (lenN pend + 1) size) as [EZ|NZ]; [|discriminate TH].
    assert (EL : L = size).
    { destruct SZ as [[_ S1]|[[-> [S1|S1]]|S1]]; [exact S1|lia|lia|lia]. }
    assert (LP : lenN (pend ++ [(i, p)]) = L) by (rewrite lenN_app1; lia).
    destruct (deliver_ok cs size last L _ s2 OK2) as (s3 & k & D1 & D2 & D3 & D4 & D5 & D6 & D7 & D8 & D9).
    specialize (D9 LP). unfold rcb_flush in *. rewrite (ro_idata _ _ _ _ _ _ OK2), lenN_app1 in *.
    change (r_iend s2) with i in *. change (r_istart s2) with (r_istart s1) in *.
    destruct (N.ltb_spec i (r_istart s1)) as [K|_]; [lia|].
    destruct (N.eqb_spec (lenN pend + 1) 0) as [K|_]; [lia|]. cbn [orb] in *.
    rewrite D1 in *. destruct (f (RqRows (r_heap s3) (map r_name (r_cols s3)) k) a) as [y a'].
    destruct y as [[]|ex| |u|]; cbn [fst snd] in TH; try discriminate TH.
    { destruct (_ && _) in TH; discriminate TH. }
    cbn [snd fst]. unfold r_base_push.
    destruct (ro_index _ _ _ _ _ _ D9) as (X1 & X2 & _). cbn [r_with r_heap r_index] in X1, X2.
    cbn [rchunk_sink]. unfold rcb_push, r_base_push, r_store. rewrite (nth_error_nth' _ [] X1), X2, D6, LP, N.ltb_irrefl. reflexivity.
  - change (((i0, p0) :: rows) ++ [(i, p)]) with ((i0, p0) :: (rows ++ [(i, p)])) in *.
    cbn [increasing] in INC. destruct INC as [[I1 I2] INC].
    change ((i0, p0) :: rows ++ [(i, p)]) with ([(i0, p0)] ++ (rows ++ [(i, p)])) in RD.
    apply Forall_app in RD. destruct RD as [RD1 RD2].
    assert (LL : lenN pend < L).
    { destruct SZ as [[S1 ->]|[[-> S1]|S1]]; [apply SM, S1|lia|lia]. }
    destruct (base_push_ok cs size last L pend s i0 p0 OKs RD1 ltac:(lia) LL) as (s1 & P1 & OK1 & IS1 & IE1); [lia|].
    change (pushes ((i0, p0) :: rows)) with (EvRow i0 p0 :: pushes rows) in *.
    cbn [app accepts after] in *. destruct AC as [AC0 AC].
    set (s2 := r_with s1 (r_idata s1) (r_istart s1) i0 (r_index s1) (r_heap s1)).
    assert (OK2 : r_ok cs size last L (pend ++ [(i0, p0)]) s2).
    { destruct OK1. constructor; cbn; auto. }
    assert (ST : exists s5 L5 pend5 a5, snd (rchunk_sink f (EvRow i0 p0) (s, a)) = (s5, a5)
       /\ r_ok cs size last L5 pend5 s5 /\ sized size last L5 (r_istart s5) /\ small size pend5
       /\ r_istart s5 + lenN pend5 <= i0 + 1).
    { cbn [rchunk_sink] in *. unfold rcb_push in *. rewrite P1 in *. fold s2 in AC0 |- *.
      rewrite (ro_idata _ _ _ _ _ _ OK2), (ro_size _ _ _ _ _ _ OK2), lenN_app1 in *.
      destruct (N.eqb_spec (lenN pend + 1) size) as [EZ|NZ].
      - assert (EL : L = size).
        { destruct SZ as [[_ S1]|[[-> [S1|S1]]|S1]]; [exact S1|lia|lia|lia]. }
        assert (LP : lenN (pend ++ [(i0, p0)]) = L) by (rewrite lenN_app1; lia).
        destruct (deliver_ok cs size last L _ s2 OK2) as (s3 & k & D1 & D2 & D3 & D4 & D5 & D6 & D7 & D8 & D9).
        specialize (D9 LP). unfold rcb_flush in *. rewrite (ro_idata _ _ _ _ _ _ OK2), lenN_app1 in *.
        change (r_iend s2) with i0 in *. change (r_istart s2) with (r_istart s1) in *.
        destruct (N.ltb_spec i0 (r_istart s1)) as [K|_]; [lia|].
        destruct (N.eqb_spec (lenN pend + 1) 0) as [K|_]; [lia|]. cbn [orb] in *.
        rewrite D1 in *. destruct (f (RqRows (r_heap s3) (map r_name (r_cols s3)) k) a) as [y a'].
        destruct y as [[]|ex| |u|]; cbn [fst snd] in AC0; try discriminate AC0.
        set (s4 := r_with s3 0 (r_iend s3 +! 1) (r_iend s3) (r_index s3) (r_heap s3)) in *.
        assert (IS4 : r_istart s4 = i0 + 1).
        { cbn. rewrite D8. apply add64_small. lia. }
        rewrite (ro_size _ _ _ _ _ _ D9), (ro_last _ _ _ _ _ _ D9), IS4 in *.
        rewrite add64_small by lia.
        assert (SM5 : small size (@nil (N * pview))).
        { intros HZ. change (lenN (@nil (N * pview))) with 0. lia. }
        destruct (N.ltb_spec last (i0 + 1 + size)) as [T1|T1];
          [destruct (N.ltb_spec (i0 + 1) last) as [T2|T2]|]; cbn [andb snd].
        + destruct (prepare_ok cs size last (last -! (i0 + 1)) s4) as (Q1 & Q2 & Q3);
            [apply (ro_size _ _ _ _ _ _ D9)|apply (ro_last _ _ _ _ _ _ D9)|apply (ro_cols _ _ _ _ _ _ D9)|
             apply (ro_idata _ _ _ _ _ _ D9)|].
          eexists _, _, [], _. split; [reflexivity|]. split; [exact Q1|]. rewrite Q2, IS4. split; [|split; [exact SM5|cbn; lia]].
          right. left. split; [|right; exact T1]. apply sub64_small; lia.
        + eexists _, _, [], _. split; [reflexivity|]. split; [exact D9|]. rewrite IS4. split; [|split; [exact SM5|cbn; lia]].
          right. right. exact T2.
        + eexists _, _, [], _. split; [reflexivity|]. split; [exact D9|]. rewrite IS4. split; [|split; [exact SM5|cbn; lia]].
          left. split; [lia|exact EL].
      - cbn [snd]. eexists _, L, (pend ++ [(i0, p0)]), _. split; [reflexivity|]. split; [exact OK2|].
        change (r_istart s2) with (r_istart s1). rewrite IS1. split; [exact SZ|].
        rewrite lenN_app1. split; [|lia]. intros HZ. rewrite lenN_app1. specialize (SM HZ). lia. }
    destruct ST as (s5 & L5 & pend5 & a5 & ST & OK5 & SZ5 & SM5 & NX5). rewrite ST in *.
    eapply (IH (i0 + 1)); eassumption.
Qed.

Lemma r_refused : forall P (f : robj P) size h md rows a i p j q e, md_row_count md <= r_rows_limit ->
  r_readable (md_columns md) (rows ++ [(i, p)]) -> increasing 0 (md_row_count md) (rows ++ [(i, p)]) ->
  let k := rchunk_sink f in
  let st := after k (rsink_new size, a) (EvProps h md :: pushes rows) in
  accepts k (rsink_new size, a) (EvProps h md :: pushes rows) -> threw k (EvRow i p) st e ->
  fst (k (EvRow j q) (snd (k (EvRow i p) st))) = Undef UB_oob_write.
Proof.
  intros P f size h md rows a i p j q e B RD INC k st AC TH.
  destruct (r_start size md) as (L & OKs & SZ & IS & _).
  subst k st. cbn [accepts after rchunk_sink snd fst] in *. destruct AC as [AC0 AC].
  unfold rcb_props in *. destruct (wrap_properties h md) as [w|ex| |u|]; cbn [fst snd] in *; try discriminate AC0.
  destruct (f (RqProps w) a) as [[[]|ex| |u|] a1]; cbn [fst snd] in *; try discriminate AC0.
  pose proof (r_pushes_refused P f (md_columns md) size (md_row_count md) B rows 0 L [] _ a1 i p j q e OKs) as Q.
  rewrite IS in Q. specialize (Q SZ). rewrite after_app in Q. apply Q; try assumption.
  - intros HZ. change (lenN (@nil (N * pview))) with 0. lia.
  - cbn. lia.
Qed.
