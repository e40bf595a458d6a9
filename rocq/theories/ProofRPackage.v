(** Proofs about the R package. *)
From Coq Require Import Permutation.
From Verif Require Import Base Lemmas Types Float DateTime Buffer Column Header Metadata Decomp Data Reader Drive
  SpecReader SpecDrive Sinks Print Callbacks RPackage SpecValues ProofValues SpecSinks SpecRPackage
  ProofReader ProofDrive ProofCsv ProofPyChunks ProofRChunks.
Local Open Scope N_scope.

(** ** The heap *)

Lemma store_frame : forall h v i x h', r_store h v i x = Ok h' ->
  length h' = length h /\ forall w, w <> v -> nth w h' [] = nth w h [].
Proof.
  intros h v i x h' H. unfold r_store in H. destruct (nth_error h v) as [cells|]; [|discriminate].
  destruct (i <? lenN cells); [|discriminate]. injection H as <-. split; [apply upd_length|].
  intros w N. apply upd_other. congruence.
Qed.

Lemma push_values_frame : forall cs vecs h i p h', r_push_values h cs vecs i p = Ok h' ->
  length h' = length h /\ forall w, ~ In w vecs -> nth w h' [] = nth w h [].
Proof.
  induction cs as [|c cs IH]; intros [|v vecs] h i p h' H; cbn in H; try (injection H as <-; auto).
  destruct (group_value c p) as [x| | | |]; try discriminate. cbn in H.
  destruct (r_val x) as [y| | | |]; try discriminate. cbn in H.
  destruct (r_store h v i y) as [h1| | | |] eqn:S; try discriminate. cbn in H.
  apply IH in H. destruct H as [H1 H2]. apply store_frame in S. destruct S as [S1 S2].
  split; [congruence|]. intros w N. rewrite H2, S2; [reflexivity| |]; intros E; apply N; [left|right]; auto.
Qed.

Lemma base_push_frame : forall s i p s', r_base_push s i p = Ok s' ->
  r_vecs s' = r_vecs s /\ r_index s' = r_index s /\ length (r_heap s') = length (r_heap s)
  /\ forall w, ~ In w (r_index s :: r_vecs s) -> nth w (r_heap s') [] = nth w (r_heap s) [].
Proof.
  intros s i p s' H. unfold r_base_push in H.
  destruct (r_store (r_heap s) (r_index s) (r_idata s) (RInt (int32 (Z.of_N i)))) as [h1| | | |] eqn:S; try discriminate.
  cbn [bind] in H.
  destruct (r_push_values h1 (r_cols s) (r_vecs s) (r_idata s) p) as [h2| | | |] eqn:V; try discriminate.
  cbn [bind] in H. injection H as <-. apply store_frame in S. apply push_values_frame in V.
  destruct S as [S1 S2], V as [V1 V2]. split; [reflexivity|]. split; [reflexivity|]. cbn. split; [congruence|].
  intros w N. rewrite V2, S2; [reflexivity| |]; intros E; apply N; [left|right]; auto.
Qed.

Definition cols_hold (hp : rheap) (refs : list nat) (order : list column) (rows : list (N * pview)) : Prop :=
  Forall2 (fun c w => Forall2 (fun r x => exists y, r_cell c (snd r) y /\ x = Some y) rows (nth w hp [])) order refs.

Lemma set_values_same : forall n vecs h, Forall (fun v => lenN (nth v h []) = n) vecs ->
  r_set_values h vecs n = (vecs, h).
Proof.
  induction vecs as [|v vecs IH]; intros h F; [reflexivity|]. inversion F; subst. cbn [r_set_values].
  rewrite N.eqb_refl, IH by assumption. reflexivity.
Qed.

Lemma set_values_grows : forall n vecs h, exists ext, snd (r_set_values h vecs n) = h ++ ext.
Proof.
  induction vecs as [|v vecs IH]; intros h; cbn [r_set_values]; [exists []; rewrite app_nil_r; reflexivity|].
  destruct (n =? lenN (nth v h [])).
  - destruct (IH h) as (ext & E). destruct (r_set_values h vecs n). exists ext. exact E.
  - unfold r_resize. destruct (IH (h ++ [firstn (N.to_nat n) (nth v h [])])) as (ext & E).
    destruct (r_set_values (h ++ [firstn (N.to_nat n) (nth v h [])]) vecs n). cbn in *.
    rewrite <- app_assoc in E. eexists. exact E.
Qed.

Lemma deliver_more : forall cs size last L pend s s' k, r_ok cs size last L pend s -> r_deliver s = (s', k) ->
  cols_hold (r_heap s') (rc_rows k) (grouped cs) pend
  /\ r_vecs s' = r_vecs s
  /\ (exists ext, r_heap s' = r_heap s ++ ext)
  /\ (lenN pend = L -> rc_rows k = r_vecs s /\ r_heap s' = r_heap s /\ r_index s' = r_index s).
Proof.
  intros cs size last L pend s s' k OKs D.
  destruct (deliver_ok _ _ _ _ _ _ OKs) as (s1 & k1 & D' & (_ & RD) & _).
  rewrite D in D'. injection D' as <- <-.
  unfold r_deliver in D.
  assert (G : exists ext1 ix, (if r_idata s =? lenN (nth (r_index s) (r_heap s) []) then (r_index s, r_heap s)
                 else r_resize (r_heap s) (r_index s) (r_idata s)) = (ix, r_heap s ++ ext1)
             /\ (lenN pend = L -> ix = r_index s /\ ext1 = [])).
  { rewrite (ro_idata _ _ _ _ _ _ OKs). destruct (ro_index _ _ _ _ _ _ OKs) as (_ & E & _). rewrite E.
    destruct (N.eqb_spec (lenN pend) L).
    - exists [], (r_index s). rewrite app_nil_r. auto.
    - unfold r_resize. eexists _, _. split; [reflexivity|contradiction]. }
  destruct G as (ext1 & ix & G1 & G2). rewrite G1 in D.
  destruct (set_values_grows (r_idata s) (r_vecs s) (r_heap s ++ ext1)) as (ext2 & G3).
  destruct (r_set_values (r_heap s ++ ext1) (r_vecs s) (r_idata s)) as [ws h2] eqn:SV. cbn in G3.
  injection D as <- <-. cbn [rc_rows rc_rows_seen r_with r_heap r_vecs r_index] in *.
  split; [|split; [reflexivity|split]].
  - unfold cols_hold. clear - RD. remember (map (fun w => nth w h2 []) ws) as l eqn:E. revert ws E.
    induction RD as [|c vec order l F RD IH]; intros [|w ws] E; try discriminate; constructor.
    + injection E as -> ->. exact F.
    + apply IH. injection E as _ E. exact E.
  - exists (ext1 ++ ext2). rewrite app_assoc. exact G3.
  - intros EL. destruct (G2 EL) as [-> ->]. rewrite app_nil_r in *.
    rewrite set_values_same in SV.
    + injection SV as <- <-. auto.
    + rewrite (ro_idata _ _ _ _ _ _ OKs), EL. clear - OKs. pose proof (ro_vecs _ _ _ _ _ _ OKs) as F.
      induction F as [|c v cols vecs (vals & (_ & H & _) & _) F IH]; constructor; auto.
Qed.

Lemma allocs_grows : forall n cols h, exists ext vs, r_allocs h cols n = (vs, h ++ ext)
  /\ Forall (fun v => (length h <= v)%nat) vs.
Proof.
  intros n cols h. destruct (allocs_ok n cols h) as (ext & vs & A & _ & B & _). eauto.
Qed.

Lemma prepare_more : forall s n, exists ext, r_heap (r_prepare s n) = r_heap s ++ ext
  /\ Forall (fun w => (length (r_heap s) <= w)%nat) (r_index (r_prepare s n) :: r_vecs (r_prepare s n)).
Proof.
  intros s n. unfold r_prepare, r_alloc.
  destruct (allocs_grows n (r_cols s) (r_heap s ++ [repeat None (N.to_nat n)])) as (ext & vs & E & F).
  rewrite E. cbn [r_heap r_index r_vecs]. rewrite <- app_assoc. eexists. split; [reflexivity|].
  constructor; [lia|]. eapply Forall_impl; [|exact F]. cbn. intros w. rewrite app_length. lia.
Qed.

(** ** The chunk sink, called by the reader *)

Section Chunk.
Context {P : Type} (o : robj P).
Hypothesis o_ok : forall hp names k a, fst (o (RqRows hp names k) a) = Ok tt.
Variables (cs : list column) (size last : N).
Hypothesis BL : last <= r_rows_limit.

Lemma fill : forall rows L pend s (a : P) next, r_ok cs size last L pend s ->
  size = 0 \/ lenN pend + lenN rows < size -> lenN pend + lenN rows <= L -> lenN pend + lenN rows < W64 ->
  r_readable cs rows -> increasing next last rows ->
  exists s', accepts (rchunk_sink o) (s, a) (pushes rows)
    /\ after (rchunk_sink o) (s, a) (pushes rows) = (s', a)
    /\ r_ok cs size last L (pend ++ rows) s'
    /\ r_istart s' = r_istart s /\ r_vecs s' = r_vecs s /\ r_index s' = r_index s
    /\ length (r_heap s') = length (r_heap s)
    /\ (forall w, ~ In w (r_index s :: r_vecs s) -> nth w (r_heap s') [] = nth w (r_heap s) [])
    /\ (rows <> [] -> next <= r_iend s' < last).
Proof.
  induction rows as [|[i p] rows IH]; intros L pend s a next OKs SM LL LW RD INC.
  - exists s. rewrite app_nil_r. cbn. repeat split; auto; try apply OKs; contradiction.
  - cbn [increasing] in INC. destruct INC as [[I1 I2] INC].
    change ((i, p) :: rows) with ([(i, p)] ++ rows) in RD. apply Forall_app in RD. destruct RD as [RD1 RD2].
    rewrite lenN_cons in LL, LW, SM.
    destruct (base_push_ok cs size last L pend s i p OKs RD1 ltac:(lia)) as (s1 & P1 & OK1 & IS1 & IE1); [lia|lia|].
    destruct (base_push_frame _ _ _ _ P1) as (V1 & X1 & H1 & F1).
    set (s2 := r_with s1 (r_idata s1) (r_istart s1) i (r_index s1) (r_heap s1)).
    assert (OK2 : r_ok cs size last L (pend ++ [(i, p)]) s2) by (destruct OK1; constructor; cbn; auto).
    assert (E1 : rchunk_sink o (EvRow i p) (s, a) = (Ok tt, (s2, a))).
    { cbn [rchunk_sink]. unfold rcb_push. rewrite P1. fold s2. rewrite (ro_idata _ _ _ _ _ _ OK2), (ro_size _ _ _ _ _ _ OK2).
      rewrite lenN_app1. destruct (N.eqb_spec (lenN pend + 1) size) as [K|_]; [lia|]. reflexivity. }
    change (pushes ((i, p) :: rows)) with (EvRow i p :: pushes rows). cbn [accepts after]. rewrite E1. cbn [fst snd].
    destruct (IH L (pend ++ [(i, p)]) s2 a (i + 1) OK2) as (s' & A1 & A2 & A3 & A4 & A5 & A6 & A7 & A8 & A9); auto;
      try (rewrite lenN_app1; lia).
    exists s'. rewrite <- app_assoc in A3. split; [auto|]. split; [exact A2|]. split; [exact A3|].
    split; [rewrite A4; exact IS1|]. split; [rewrite A5; exact V1|]. split; [rewrite A6; exact X1|].
    split; [rewrite A7; exact H1|]. split.
    + intros w N. rewrite A8; [apply F1; exact N|]. cbn [s2 r_with r_index r_vecs]. rewrite V1, X1. exact N.
    + intros _. destruct rows as [|r rows]; [|destruct A9; [discriminate|lia]].
      cbn in A2. injection A2 as <-. cbn. lia.
Qed.

(** The rows which are left, at the end. *)
Lemma flush_end : forall L pend s a, r_ok cs size last L pend s -> pend <> [] -> r_istart s <= r_iend s ->
  exists s' k hp, rchunk_sink o EvEnd (s, a) = (Ok tt, (s', snd (o (RqRows hp (map r_name (grouped cs)) k) a)))
    /\ r_heap s' = hp /\ cols_hold hp (rc_rows k) (grouped cs) pend /\ exists ext, hp = r_heap s ++ ext.
Proof.
  intros L pend s a OKs NE IE. cbn [rchunk_sink]. unfold rcb_flush.
  destruct (N.ltb_spec (r_iend s) (r_istart s)) as [K|_]; [lia|].
  rewrite (ro_idata _ _ _ _ _ _ OKs). destruct (N.eqb_spec (lenN pend) 0) as [K|_].
  { destruct pend; [contradiction|]. rewrite lenN_cons in K. lia. }
  cbn [orb]. destruct (deliver_ok _ _ _ _ _ _ OKs) as (s1 & k & D & _ & _ & _ & D5 & _).
  destruct (deliver_more _ _ _ _ _ _ _ _ OKs D) as (M1 & M2 & M3 & _).
  rewrite D, D5. pose proof (o_ok (r_heap s1) (map r_name (grouped cs)) k a) as Q.
  destruct (o (RqRows (r_heap s1) (map r_name (grouped cs)) k) a) as [y a'] eqn:E. cbn in Q. subst y.
  eexists _, k, (r_heap s1). rewrite E. split; [reflexivity|]. auto.
Qed.

Lemma flush_nothing : forall L s a, r_ok cs size last L [] s -> rchunk_sink o EvEnd (s, a) = (Ok tt, (s, a)).
Proof.
  intros L s a OKs. cbn [rchunk_sink]. unfold rcb_flush. rewrite (ro_idata _ _ _ _ _ _ OKs).
  change (lenN (@nil (N * pview)) =? 0) with true. rewrite orb_true_r. reflexivity.
Qed.

(** A full chunk. *)
Lemma cycle : forall ch s a, r_ok cs size last size [] s -> size <> 0 -> lenN ch = size ->
  r_readable cs ch -> increasing (r_istart s) last ch -> r_istart s + size <= last ->
  map fst ch = map fst ch ->
  exists hp k s5 L5 i, accepts (rchunk_sink o) (s, a) (pushes ch)
    /\ after (rchunk_sink o) (s, a) (pushes ch) = (s5, snd (o (RqRows hp (map r_name (grouped cs)) k) a))
    /\ (exists pre p, ch = pre ++ [(i, p)])
    /\ cols_hold hp (rc_rows k) (grouped cs) ch /\ rc_rows k = r_vecs s
    /\ length hp = length (r_heap s)
    /\ (forall w, ~ In w (r_index s :: r_vecs s) -> nth w hp [] = nth w (r_heap s) [])
    /\ r_ok cs size last L5 [] s5 /\ sized size last L5 (r_istart s5) /\ r_istart s5 = i + 1
    /\ (exists ext, r_heap s5 = hp ++ ext)
    /\ (i + 1 + size <= last \/ last <= i + 1 -> r_vecs s5 = r_vecs s /\ L5 = size)
    /\ (last < i + 1 + size -> i + 1 < last -> Forall (fun w => (length hp <= w)%nat) (r_index s5 :: r_vecs s5)).
Proof.
  intros ch s a OKs SZ LC RD INC LT _.
  assert (BW : 2 * last < W64) by (unfold W64, r_rows_limit in *; lia).
  destruct (exists_last (l := ch)) as (pre & [i p] & ->).
  { intros ->. unfold lenN in LC. cbn in LC. lia. }
  rewrite lenN_app1 in LC. apply Forall_app in RD. destruct RD as [RD1 RD2].
  assert (INC2 : increasing (r_istart s) last pre /\ exists nx, r_istart s <= nx /\ nx <= i < last).
  { revert INC. generalize (r_istart s). clear. induction pre as [|[j q] pre IH]; intros n H; cbn in *.
    - split; [exact Logic.I|]. exists n. lia.
    - destruct H as [H1 H2]. destruct (IH _ H2) as (H3 & nx & H4 & H5). split; [auto|]. exists nx. lia. }
  destruct INC2 as (INC1 & nx & NX1 & NX2).
  destruct (fill pre size [] s a (r_istart s) OKs) as (s0 & A1 & A2 & A3 & A4 & A5 & A6 & A7 & A8 & _); auto;
    change (lenN (@nil (N * pview))) with 0; try lia.
  cbn [app] in A3.
  destruct (base_push_ok cs size last size pre s0 i p A3 RD2 ltac:(lia)) as (s1 & P1 & OK1 & IS1 & IE1); [lia|lia|].
  destruct (base_push_frame _ _ _ _ P1) as (V1 & X1 & H1 & F1).
  set (s2 := r_with s1 (r_idata s1) (r_istart s1) i (r_index s1) (r_heap s1)).
  assert (OK2 : r_ok cs size last size (pre ++ [(i, p)]) s2) by (destruct OK1; constructor; cbn; auto).
  assert (LP : lenN (pre ++ [(i, p)]) = size) by (rewrite lenN_app1; lia).
  destruct (deliver_ok cs size last size _ s2 OK2) as (s3 & k & D1 & D2 & D3 & D4 & D5 & D6 & D7 & D8 & D9).
  specialize (D9 LP). destruct (deliver_more _ _ _ _ _ _ _ _ OK2 D1) as (M1 & M2 & _ & M4).
  destruct (M4 LP) as (M5 & M6 & M7).
  set (s4 := r_with s3 0 (r_iend s3 +! 1) (r_iend s3) (r_index s3) (r_heap s3)) in *.
  change (r_iend s2) with i in *. change (r_istart s2) with (r_istart s1) in *.
  assert (IS4 : r_istart s4 = i + 1) by (cbn; rewrite D8; apply add64_small; lia).
  set (names := map r_name (grouped cs)). set (hp := r_heap s3) in *.
  assert (E1 : exists s5 L5, rchunk_sink o (EvRow i p) (s0, a) = (Ok tt, (s5, snd (o (RqRows hp names k) a)))
     /\ r_ok cs size last L5 [] s5 /\ sized size last L5 (r_istart s5) /\ r_istart s5 = i + 1
     /\ (exists ext, r_heap s5 = hp ++ ext)
     /\ (i + 1 + size <= last \/ last <= i + 1 -> r_vecs s5 = r_vecs s4 /\ L5 = size)
     /\ (last < i + 1 + size -> i + 1 < last -> Forall (fun w => (length hp <= w)%nat) (r_index s5 :: r_vecs s5))).
  { cbn [rchunk_sink]. unfold rcb_push. rewrite P1. fold s2.
    rewrite (ro_idata _ _ _ _ _ _ OK2), (ro_size _ _ _ _ _ _ OK2), LP, N.eqb_refl.
    unfold rcb_flush. change (r_iend s2) with i. change (r_istart s2) with (r_istart s1).
    destruct (N.ltb_spec i (r_istart s1)) as [K|_]; [lia|].
    rewrite (ro_idata _ _ _ _ _ _ OK2), LP. destruct (N.eqb_spec size 0) as [K|_]; [lia|]. cbn [orb].
    rewrite D1, D5. fold names hp. pose proof (o_ok hp names k a) as Q.
    destruct (o (RqRows hp names k) a) as [y a'] eqn:E. cbn in Q. subst y. fold s4.
    rewrite (ro_size _ _ _ _ _ _ D9), (ro_last _ _ _ _ _ _ D9), IS4. rewrite add64_small by lia.
    destruct (N.ltb_spec last (i + 1 + size)) as [T1|T1];
      [destruct (N.ltb_spec (i + 1) last) as [T2|T2]|]; cbn [andb].
    - destruct (prepare_ok cs size last (last -! (i + 1)) s4) as (Q1 & Q2 & Q3);
        [apply (ro_size _ _ _ _ _ _ D9)|apply (ro_last _ _ _ _ _ _ D9)|apply (ro_cols _ _ _ _ _ _ D9)|
         apply (ro_idata _ _ _ _ _ _ D9)|].
      destruct (prepare_more s4 (last -! (i + 1))) as (ext & R1 & R2).
      eexists _, _. split; [reflexivity|]. split; [exact Q1|]. rewrite Q2, IS4.
      split; [right; left; split; [apply sub64_small; lia|right; exact T1]|]. split; [reflexivity|].
      split; [exists ext; exact R1|]. split; [lia|]. intros _ _. exact R2.
    - eexists _, _. split; [reflexivity|]. split; [exact D9|]. rewrite IS4.
      split; [right; right; exact T2|]. split; [reflexivity|].
      split; [exists []; rewrite app_nil_r; reflexivity|]. split; [auto|lia].
    - eexists _, _. split; [reflexivity|]. split; [exact D9|]. rewrite IS4.
      split; [left; auto|]. split; [reflexivity|].
      split; [exists []; rewrite app_nil_r; reflexivity|]. split; [auto|lia]. }
  destruct E1 as (s5 & L5 & E1 & N1 & N2 & N3 & N4 & N5 & N6).
  exists hp, k, s5, L5, i.
  assert (PU : pushes (pre ++ [(i, p)]) = pushes pre ++ [EvRow i p]) by (unfold pushes; rewrite map_app; reflexivity).
  rewrite PU. split; [apply accepts_app; split; [exact A1|]; rewrite A2; cbn [accepts]; rewrite E1; auto|].
  split; [rewrite after_app, A2; cbn [after]; rewrite E1; reflexivity|].
  split; [eauto|]. split; [exact M1|]. split; [rewrite M5; cbn; rewrite V1; exact A5|].
  split; [rewrite M6; cbn; rewrite H1; exact A7|].
  split.
  { intros w NI. rewrite M6. cbn [s2 r_with r_heap]. rewrite F1; [apply A8; exact NI|].
    rewrite A5, A6. exact NI. }
  split; [exact N1|]. split; [exact N2|]. split; [exact N3|]. split; [exact N4|]. split; [|exact N6].
  intros H. destruct (N5 H) as [N7 N8]. split; [|exact N8]. rewrite N7. cbn. rewrite M2. cbn. rewrite V1. exact A5.
Qed.

End Chunk.

(** ** Frames *)

Lemma frame_of_refs : forall hp names order refs rows, cols_hold hp refs order rows -> length names = length order ->
  r_frame_is names order rows (combine names (map (fun v => nth v hp []) refs)).
Proof.
  intros hp names order refs rows H. unfold r_frame_is. revert names.
  induction H as [|c w order refs F H IH]; intros [|n names] L; try discriminate; [repeat constructor|].
  injection L as L. destruct (IH names L) as [E G]. cbn [map combine fst]. split; [rewrite E; reflexivity|].
  constructor; assumption.
Qed.

Lemma rbind_frames : forall order f g names names' r1 r2, r_frame_is names order r1 f -> r_frame_is names' order r2 g ->
  r_frame_is names order (r1 ++ r2) (r_rbind f g).
Proof.
  induction order as [|c order IH]; intros f g names names' r1 r2 [N1 F] [N2 G];
    inversion F; inversion G; subst; [repeat constructor|].
  destruct y as [n v], y0 as [m w]. cbn [r_rbind map fst].
  destruct (IH l' l'0 (map fst l') (map fst l'0) r1 r2) as [E H]; [split; auto|split; auto|].
  split; [cbn; rewrite E; reflexivity|]. constructor; [|exact H]. cbn [snd] in *. apply Forall2_app; assumption.
Qed.

Lemma cols_hold_frame : forall hp hp' refs order rows, cols_hold hp refs order rows ->
  (forall w, In w refs -> nth w hp' [] = nth w hp []) -> cols_hold hp' refs order rows.
Proof.
  intros hp hp' refs order rows H E. unfold cols_hold in *. eapply Forall2_in_r; [|exact H].
  cbn. intros c w I F. rewrite E by exact I. exact F.
Qed.

(** The frame does not change any more when rows are stored. *)
Definition settled (names : list bytes) (order : list column) (rows : list (N * pview)) (s : rstate_sink) (d : rdf) : Prop :=
  (exists f, d = DfOwn f /\ r_frame_is names order rows f)
  \/ (exists refs, d = DfShared names refs /\ length names = length order /\ cols_hold (r_heap s) refs order rows
      /\ Forall (fun w => (w < length (r_heap s))%nat /\ ~ In w (r_index s :: r_vecs s)) refs).

Lemma settled_contents : forall names order rows s d hp, settled names order rows s d ->
  (forall w, (w < length (r_heap s))%nat -> ~ In w (r_index s :: r_vecs s) -> nth w hp [] = nth w (r_heap s) []) ->
  exists f, r_contents hp d = Some f /\ r_frame_is names order rows f.
Proof.
  intros names order rows s d hp [(f & -> & F)|(refs & -> & L & C & A)] H.
  - exists f. auto.
  - eexists. split; [reflexivity|]. apply frame_of_refs; [|exact L]. eapply cols_hold_frame; [exact C|].
    intros w I. rewrite Forall_forall in A. destruct (A w I). auto.
Qed.

(** ** SinkByChunk *)

Section ByChunk.
Variables (mk : list bytes -> list bytes) (cs : list column) (size last : N).
Hypothesis BL : last <= r_rows_limit.
Let order := grouped cs.
Let names := mk (map r_name order).
Hypothesis LN : length names = length order.
Let o := r_methods mk RSinkByChunk.

Lemma chunk_answers : forall hp nm k a, fst (o (RqRows hp nm k) a) = Ok tt.
Proof. intros hp nm k a. cbn. destruct (r_contents hp (rob_df a)); reflexivity. Qed.

Lemma chunk_bound : forall hp k a rows1 rows2 f, r_contents hp (rob_df a) = Some f ->
  r_frame_is names order rows1 f -> cols_hold hp (rc_rows k) order rows2 ->
  exists g, rob_df (snd (o (RqRows hp (map r_name order) k) a)) = DfOwn g /\ r_frame_is names order (rows1 ++ rows2) g.
Proof.
  intros hp k a rows1 rows2 f C F H. cbn. rewrite C. cbn. eexists. split; [reflexivity|].
  eapply rbind_frames; [exact F|]. apply frame_of_refs; [exact H|exact LN].
Qed.

Lemma increasing_count : forall limit rows next, increasing next limit rows -> rows <> [] -> next + lenN rows <= limit.
Proof.
  intros limit. induction rows as [|[i p] rows IH]; intros next H NN; [contradiction|].
  cbn in H. destruct H as [H1 H2]. rewrite lenN_cons. destruct rows as [|r rows].
  - change (lenN (@nil (N * pview))) with 0. lia.
  - specialize (IH _ H2 ltac:(discriminate)). lia.
Qed.

Lemma increasing_split : forall limit a b next, increasing next limit (a ++ b) -> a <> [] ->
  exists pre i p, a = pre ++ [(i, p)] /\ next <= i < limit /\ increasing next limit a /\ increasing (i + 1) limit b
    /\ next + lenN a <= i + 1.
Proof.
  intros limit. induction a as [|[i p] a IH]; intros b next H N; [contradiction|].
  cbn in H. destruct H as [H1 H2]. destruct a as [|r a].
  - exists [], i, p. cbn in *. unfold lenN. cbn. repeat split; auto; lia.
  - destruct (IH b _ H2 ltac:(discriminate)) as (pre & j & q & E1 & E2 & E3 & E4 & E5).
    exists ((i, p) :: pre), j, q. rewrite E1. split; [reflexivity|]. split; [lia|]. rewrite <- E1.
    split; [cbn; auto|]. split; [exact E4|]. rewrite lenN_cons. lia.
Qed.

Lemma lenN_firstn : forall A (l : list A) n, n <= lenN l -> lenN (firstn (N.to_nat n) l) = n.
Proof. intros A l n H. unfold lenN in *. rewrite firstn_length. lia. Qed.

Lemma lenN_skipn : forall A (l : list A) n, lenN (skipn (N.to_nat n) l) = lenN l - n.
Proof. intros A l n. unfold lenN. rewrite skipn_length. lia. Qed.

Lemma tail_rows : forall n rows done L s ob, (length rows <= n)%nat -> r_ok cs size last L [] s ->
  sized size last L (r_istart s) -> r_istart s + lenN rows = last -> increasing (r_istart s) last rows ->
  r_readable cs rows -> settled names order done s (rob_df ob) ->
  accepts (rchunk_sink o) (s, ob) (pushes rows ++ [EvEnd])
  /\ exists f, let st := after (rchunk_sink o) (s, ob) (pushes rows ++ [EvEnd]) in
       r_contents (r_heap (fst st)) (rob_df (snd st)) = Some f /\ r_frame_is names order (done ++ rows) f.
Proof.
  assert (BW : 2 * last < W64) by (unfold W64, r_rows_limit in *; lia).
  induction n as [|n IH]; intros rows done L s ob LR OKs SZ CN INC RD ST.
  - destruct rows; [|cbn in LR; lia]. change (pushes []) with (@nil event). cbn [app accepts after].
    rewrite (flush_nothing o cs size last L s ob OKs). cbn [fst snd]. split; [auto|].
    rewrite app_nil_r. eapply settled_contents; [exact ST|auto].
  - destruct rows as [|r0 rows0] eqn:ER.
    { change (pushes []) with (@nil event). cbn [app accepts after].
      rewrite (flush_nothing o cs size last L s ob OKs). cbn [fst snd]. split; [auto|].
      rewrite app_nil_r. eapply settled_contents; [exact ST|auto]. }
    assert (NE : rows <> []) by (rewrite ER; discriminate).
    assert (LP : 0 < lenN rows) by (rewrite ER, lenN_cons; lia).
    rewrite <- ER in *. clear ER r0 rows0.
    destruct (N.eq_dec size 0) as [Z|Z]; [|destruct (N.ltb_spec (lenN rows) size) as [T|T]].
    3: {
      assert (L = size) by (destruct SZ as [[_ S1]|[[-> [S1|S1]]|S1]]; [exact S1|lia|lia|lia]). subst L.
      set (ch := firstn (N.to_nat size) rows). set (rest := skipn (N.to_nat size) rows).
      assert (SP : rows = ch ++ rest) by (symmetry; apply firstn_skipn).
      assert (LC : lenN ch = size) by (apply lenN_firstn; exact T).
      assert (LE : lenN rest = lenN rows - size) by apply lenN_skipn.
      assert (NC : ch <> []) by (intros E; rewrite E in LC; unfold lenN in LC; cbn in LC; lia).
      rewrite SP in INC, RD. apply Forall_app in RD. destruct RD as [RD1 RD2].
      destruct (increasing_split _ _ _ _ INC NC) as (pre & i & p & E1 & E2 & E3 & E4 & E5).
      destruct (cycle o chunk_answers cs size last BL ch s ob OKs Z LC RD1 E3 ltac:(lia) eq_refl)
        as (hp & k & s5 & L5 & i' & C1 & C2 & (pre' & p' & C3) & C4 & C5 & C6 & C7 & C8 & C9 & C10 & C11 & _ & _).
      rewrite E1 in C3. apply app_inj_tail in C3. destruct C3 as [_ C3]. injection C3 as <- <-.
      destruct (settled_contents _ _ _ _ _ hp ST) as (f & F1 & F2); [auto|].
      destruct (chunk_bound hp k ob done ch f F1 F2 C4) as (g & G1 & G2).
      fold order in C2. set (ob5 := snd (o (RqRows hp (map r_name order) k) ob)) in *.
      assert (IS : i + 1 = r_istart s + size).
      { destruct rest as [|r1 rest1] eqn:ER.
        - change (lenN (@nil (N * pview))) with 0 in LE. lia.
        - pose proof (increasing_count _ _ _ E4 ltac:(discriminate)). lia. }
      destruct (IH rest (done ++ ch) L5 s5 ob5) as (H1 & f' & H2 & H3).
      { unfold lenN in *. lia. }
      { exact C8. } { exact C9. } { rewrite C10. lia. } { rewrite C10. exact E4. } { exact RD2. }
      { left. eauto. }
      rewrite SP. unfold pushes. rewrite map_app, <- app_assoc. fold (pushes ch) (pushes rest).
      rewrite accepts_app, after_app, C2. split; [split; assumption|]. exists f'. split; [exact H2|].
      rewrite app_assoc. exact H3. }
    all: (assert (LB : lenN rows <= L /\ (size = 0 \/ lenN rows < size)) by
        (split; [destruct SZ as [[S1 S2]|[[S1 S2]|S1]]; lia|lia]));
      destruct LB as [LB1 LB2];
      destruct (fill o cs size last BL rows L [] s ob (r_istart s) OKs) as (s0 & A1 & A2 & A3 & A4 & A5 & A6 & A7 & A8 & A9);
      auto; change (lenN (@nil (N * pview))) with 0; try lia; cbn [app] in A3;
      destruct (flush_end o chunk_answers cs size last BL L rows s0 ob A3 NE) as (s1 & k & hp & B1 & B2 & B3 & ext & B4);
      [destruct (A9 NE); lia|];
      destruct (settled_contents _ _ _ _ _ hp ST) as (f & F1 & F2);
      [intros w W1 W2; rewrite B4, app_nth1 by lia; apply A8; exact W2|];
      destruct (chunk_bound hp k ob done rows f F1 F2 B3) as (g & G1 & G2);
      rewrite accepts_app, after_app, A2; cbn [accepts after]; rewrite B1; cbn [fst snd];
      (split; [auto|]); exists g; fold order; rewrite G1; split; [reflexivity|exact G2].
Qed.

Lemma first_bound : forall hp k a rows, rob_df a = DfNull -> cols_hold hp (rc_rows k) order rows ->
  rob_df (snd (o (RqRows hp (map r_name order) k) a)) = DfShared names (rc_rows k).
Proof. intros hp k a rows E H. cbn. rewrite E. reflexivity. Qed.

Lemma cols_hold_contents : forall hp refs rows, cols_hold hp refs order rows ->
  exists f, r_contents hp (DfShared names refs) = Some f /\ r_frame_is names order rows f.
Proof. intros hp refs rows H. eexists. split; [reflexivity|]. apply frame_of_refs; [exact H|exact LN]. Qed.

Lemma whole_rows : forall rows L s ob, r_ok cs size last L [] s -> r_istart s = 0 ->
  sized size last L 0 -> (size = 0 -> L = last) ->
  lenN rows = last -> increasing 0 last rows -> r_readable cs rows -> rob_df ob = DfNull ->
  accepts (rchunk_sink o) (s, ob) (pushes rows ++ [EvEnd])
  /\ let st := after (rchunk_sink o) (s, ob) (pushes rows ++ [EvEnd]) in
     r_df_is names order (r_kept_rows size rows) (r_contents (r_heap (fst st)) (rob_df (snd st))).
Proof.
  assert (BW : 2 * last < W64) by (unfold W64, r_rows_limit in *; lia).
  intros rows L s ob OKs IS SZ SZ0 CN INC RD DF.
  destruct rows as [|r0 rows0] eqn:ER.
  { change (pushes []) with (@nil event). cbn [app accepts after].
    rewrite (flush_nothing o cs size last L s ob OKs). cbn [fst snd]. rewrite DF.
    unfold r_kept_rows. replace ((0 <? size) && (2 * size <=? lenN (@nil (N * pview)))) with false; [split; auto; reflexivity|].
    symmetry. change (lenN (@nil (N * pview))) with 0. destruct (N.ltb_spec 0 size), (N.leb_spec (2 * size) 0); try reflexivity. lia. }
  assert (NE : rows <> []) by (rewrite ER; discriminate).
  assert (LP : 0 < lenN rows) by (rewrite ER, lenN_cons; lia).
  rewrite <- ER in *. clear ER r0 rows0.
  assert (DI : forall rs d f, d = Some f -> rs <> [] -> r_frame_is names order rs f -> r_df_is names order rs d).
  { intros [|r rs] d f E N F; [contradiction|]. exists f. auto. }
  destruct (N.eq_dec size 0) as [Z|Z]; [|destruct (N.ltb_spec (lenN rows) size) as [T|T]].
  3: {
    assert (L = size) by (destruct SZ as [[_ S1]|[[-> [S1|S1]]|S1]]; lia). subst L.
    set (ch := firstn (N.to_nat size) rows). set (rest := skipn (N.to_nat size) rows).
    assert (SP : rows = ch ++ rest) by (symmetry; apply firstn_skipn).
    assert (LC : lenN ch = size) by (apply lenN_firstn; exact T).
    assert (LE : lenN rest = lenN rows - size) by apply lenN_skipn.
    assert (NC : ch <> []) by (intros E; rewrite E in LC; unfold lenN in LC; cbn in LC; lia).
    rewrite <- IS in INC. pose proof INC as INC0.
    rewrite SP in INC, RD. apply Forall_app in RD. destruct RD as [RD1 RD2].
    destruct (increasing_split _ _ _ _ INC NC) as (pre & i & p & E1 & E2 & E3 & E4 & E5).
    destruct (cycle o chunk_answers cs size last BL ch s ob OKs Z LC RD1 E3 ltac:(lia) eq_refl)
      as (hp & k & s5 & L5 & i' & C1 & C2 & (pre' & p' & C3) & C4 & C5 & C6 & C7 & C8 & C9 & C10 & (ext & C11) & C12 & C13).
    rewrite E1 in C3. apply app_inj_tail in C3. destruct C3 as [_ C3]. injection C3 as <- <-.
    fold order in C2. set (ob5 := snd (o (RqRows hp (map r_name order) k) ob)) in *.
    assert (D5 : rob_df ob5 = DfShared names (rc_rows k)) by (eapply first_bound; [exact DF|exact C4]).
    assert (RL : Forall (fun w => (w < length hp)%nat) (rc_rows k)).
    { rewrite C5, C6. apply (col_ok_lt _ _ _ _ _ (ro_vecs _ _ _ _ _ _ OKs)). }
    assert (IS5 : i + 1 = size).
    { destruct rest as [|r1 rest1] eqn:ER.
      - change (lenN (@nil (N * pview))) with 0 in LE. lia.
      - pose proof (increasing_count _ _ _ E4 ltac:(discriminate)). lia. }
    assert (H5 : cols_hold (r_heap s5) (rc_rows k) order ch).
    { eapply cols_hold_frame; [exact C4|]. intros w I. rewrite C11, app_nth1; [reflexivity|].
      rewrite Forall_forall in RL. auto. }
    assert (PU : pushes rows ++ [EvEnd] = pushes ch ++ pushes rest ++ [EvEnd]).
    { rewrite SP. unfold pushes. rewrite map_app, <- app_assoc. reflexivity. }
    rewrite PU, accepts_app, after_app, C2.
    destruct (N.ltb_spec last (2 * size)) as [T2|T2].
    - (* one full chunk, and perhaps a part of one *)
      assert (K1 : r_kept_rows size rows = ch ++ rest).
      { unfold r_kept_rows. rewrite <- SP. rewrite CN. destruct (N.leb_spec (2 * size) last); [lia|].
        rewrite andb_false_r. reflexivity. }
      rewrite K1.
      destruct rest as [|r1 rest1] eqn:ER.
      + change (pushes []) with (@nil event). cbn [app accepts after].
        rewrite (flush_nothing o cs size last L5 s5 ob5 C8). cbn [fst snd]. rewrite D5, app_nil_r.
        split; [split; auto|]. destruct (cols_hold_contents _ _ _ H5) as (f & F1 & F2).
        exact (DI _ _ f F1 NC F2).
      + rewrite lenN_cons in LE. rewrite <- ER in *. assert (NF : last < i + 1 + size /\ i + 1 < last) by lia.
        specialize (C13 (proj1 NF) (proj2 NF)).
        destruct (tail_rows (length rest) rest ch L5 s5 ob5) as (H1 & f' & H2 & H3); auto.
        { rewrite C10. rewrite ER, lenN_cons. lia. } { rewrite C10. exact E4. }
        { right. exists (rc_rows k). split; [exact D5|]. split; [exact LN|]. split; [exact H5|].
          rewrite Forall_forall in RL, C13 |- *. intros w I. specialize (RL w I). rewrite C11, app_length.
          split; [lia|]. intros I2. specialize (C13 w I2). cbn in C13. lia. }
        split; [split; assumption|]. apply (DI _ _ f' H2); [|exact H3].
        destruct ch; [contradiction|discriminate].
    - (* two full chunks *)
      destruct (C12 ltac:(lia)) as [V5 ->].
      set (ch2 := firstn (N.to_nat size) rest). set (rest2 := skipn (N.to_nat size) rest).
      assert (SP2 : rest = ch2 ++ rest2) by (symmetry; apply firstn_skipn).
      assert (LC2 : lenN ch2 = size) by (apply lenN_firstn; lia).
      assert (LE2 : lenN rest2 = lenN rest - size) by apply lenN_skipn.
      assert (NC2 : ch2 <> []) by (intros E; rewrite E in LC2; unfold lenN in LC2; cbn in LC2; lia).
      rewrite SP2 in RD2. apply Forall_app in RD2. destruct RD2 as [RD3 RD4].
      pose proof E4 as INC2. rewrite SP2 in INC2.
      destruct (increasing_split _ _ _ _ INC2 NC2) as (pre2 & i2 & p2 & Q1 & Q2 & Q3 & Q4 & Q5).
      rewrite <- C10 in Q3.
      destruct (cycle o chunk_answers cs size last BL ch2 s5 ob5 C8 Z LC2 RD3 Q3 ltac:(rewrite C10; lia) eq_refl)
        as (hp2 & k2 & s6 & L6 & i2' & B1 & B2 & (pre2' & p2' & B3) & B4 & B5 & B6 & B7 & B8 & B9 & B10 & _ & _ & _).
      rewrite Q1 in B3. apply app_inj_tail in B3. destruct B3 as [_ B3]. injection B3 as <- <-.
      assert (CT : exists f, r_contents hp2 (rob_df ob5) = Some f /\ r_frame_is names order ch2 f).
      { rewrite D5. apply cols_hold_contents. rewrite C5, <- V5, <- B5. exact B4. }
      destruct CT as (f & F1 & F2).
      destruct (chunk_bound hp2 k2 ob5 ch2 ch2 f F1 F2 B4) as (g & G1 & G2).
      fold order in B2. set (ob6 := snd (o (RqRows hp2 (map r_name order) k2) ob5)) in *.
      assert (IS6 : i2 + 1 = 2 * size).
      { destruct rest2 as [|r1 rest1] eqn:ER.
        - change (lenN (@nil (N * pview))) with 0 in LE2. lia.
        - pose proof (increasing_count _ _ _ Q4 ltac:(discriminate)). lia. }
      destruct (tail_rows (length rest2) rest2 (ch2 ++ ch2) L6 s6 ob6) as (H1 & f' & H2 & H3); auto.
      { rewrite B10. lia. } { rewrite B10. exact Q4. }
      { left. eauto. }
      assert (PU2 : pushes rest ++ [EvEnd] = pushes ch2 ++ pushes rest2 ++ [EvEnd]).
      { rewrite SP2. unfold pushes. rewrite map_app, <- app_assoc. reflexivity. }
      rewrite PU2, accepts_app, after_app, B2.
      split; [split; [exact C1|split; assumption]|].
      assert (K2 : r_kept_rows size rows = ch2 ++ rest).
      { unfold r_kept_rows. rewrite CN. destruct (N.leb_spec (2 * size) last); [|lia].
        destruct (N.ltb_spec 0 size); [|lia]. reflexivity. }
      rewrite K2. apply (DI _ _ f' H2); [destruct ch2; [contradiction|discriminate]|].
      rewrite SP2, app_assoc. exact H3. }
  all: assert (K0 : r_kept_rows size rows = rows) by
     (unfold r_kept_rows; destruct (N.ltb_spec 0 size), (N.leb_spec (2 * size) (lenN rows)); try reflexivity; lia).
  all: rewrite K0.
  all: assert (LB : lenN rows <= L /\ (size = 0 \/ lenN rows < size)) by
        (split; [destruct SZ as [[S1 S2]|[[S1 S2]|S1]]; lia|lia]).
  all: destruct LB as [LB1 LB2];
      destruct (fill o cs size last BL rows L [] s ob 0 OKs) as (s0 & A1 & A2 & A3 & A4 & A5 & A6 & A7 & A8 & A9);
      auto; change (lenN (@nil (N * pview))) with 0; try lia; cbn [app] in A3;
      destruct (flush_end o chunk_answers cs size last BL L rows s0 ob A3 NE) as (s1 & k & hp & B1 & B2 & B3 & ext & B4);
      [rewrite A4, IS; lia|];
      rewrite accepts_app, after_app, A2; cbn [accepts after]; rewrite B1; cbn [fst snd];
      (split; [auto|]); fold order; rewrite (first_bound hp k ob rows DF B3), B2;
      destruct (cols_hold_contents _ _ _ B3) as (f & F1 & F2); exact (DI _ _ f F1 NE F2).
Qed.

End ByChunk.
