(** Proofs about devices which fail. *)
From Verif Require Import Base Types Buffer Page Column Header Metadata Decomp Data Reader
  Lemmas SpecBuffer ProofBuffer SpecReader ProofReader ProofMetaInv ProofBisim ProofInside SpecAsk
  ProofAsk Disk SpecDisk.
From Coq Require Import ZifyBool ZifyNat ZifyN.
Local Open Scope N_scope.

(** The stream on the whole file and the one on the failing device are at the same place;
    behind the bytes the latter can read, the file goes on with [z]. *)
Definition beside (z : bytes) (s : fstate) (k : disk) : Prop :=
  dk_bad k = false /\ fs_eof s = fs_eof (dk_file k) /\ fs_fail s = fs_fail (dk_file k)
  /\ (fs_eof s || fs_fail s = false -> fs_rest s = fs_rest (dk_file k) ++ z).

Lemma disk_read_beside : forall z s k n s' data ok, beside z s k ->
  file_read s n = (s', data, ok) ->
  (exists k', beside z s' k' /\ disk_read true k n = (k', data, ok))
  \/ (n < 2 ^ 63 /\ exists d, disk_read true k n = (Disk (FState [] false false) true, d, false) /\ lenN d < n).
Proof.
  intros z s [[rest e f] bad] n s' data ok (B & E & F & R) H. cbn [dk_bad dk_file fs_eof fs_fail fs_rest] in *.
  subst bad. unfold disk_read, file_read in *. cbn [dk_bad dk_file fs_eof fs_fail fs_rest]. rewrite E, F in *.
  destruct (e || f) eqn:EF.
  { injection H as <- <- <-. left. cbn [negb]. rewrite andb_false_r. cbn [andb].
    eexists. split; [|reflexivity]. unfold beside. cbn. split; [reflexivity|]. split; [reflexivity|].
    split; [reflexivity|]. rewrite orb_true_r. discriminate. }
  specialize (R eq_refl). cbn [negb andb].
  destruct (N.ltb_spec n (2 ^ 63)) as [L|L]; cbn [andb].
  2:{ rewrite (proj2 (N.leb_le _ _) L) in *. injection H as <- <- <-. left. eexists. split; [|reflexivity].
      unfold beside. cbn. split; [reflexivity|]. split; [reflexivity|]. split; [reflexivity|]. discriminate. }
  rewrite (proj2 (N.leb_gt _ _) L) in *.
  destruct (N.ltb_spec (lenN rest) n) as [M|M].
  { right. split; [exact L|]. exists rest. split; [reflexivity|exact M]. }
  rewrite (proj2 (N.leb_le _ _) M). rewrite R in H.
  rewrite (proj2 (N.leb_le n (lenN (rest ++ z)))) in H by (rewrite lenN_app; lia).
  injection H as <- <- <-. left. unfold lenN in M. eexists. split; [|rewrite firstn_app].
  2:{ replace (N.to_nat n - length rest)%nat with 0%nat by lia. cbn [firstn]. rewrite app_nil_r. reflexivity. }
  unfold beside. cbn. split; [reflexivity|]. split; [reflexivity|]. split; [reflexivity|]. intros _.
  rewrite skipn_app. replace (N.to_nat n - length rest)%nat with 0%nat by lia. reflexivity.
Qed.

Lemma stream_beside : forall z c b s k n off x s' b', beside z s k -> wf_mbuf b ->
  (n < 2 ^ 63 -> off + n < W64) ->
  read_stream c file_source b s n off = (x, s', b') ->
  (exists k', beside z s' k' /\ read_stream c (disk_source true) b k n off = (x, k', b'))
  \/ (exists m, read_stream c (disk_source true) b k n off
                = (Ok false, Disk (FState [] false false) true, m)).
Proof.
  intros z c b s k n off x s' b' B W L H. unfold read_stream in *.
  destruct (resize c b (off +! n)) as [b1| | | |] eqn:R;
    try (injection H as <- <- <-; left; exists k; split; [exact B|reflexivity]).
  cbn [src_read file_source disk_source] in *.
  destruct (file_read s n) as [[s1 data] ok] eqn:F.
  destruct (disk_read_beside _ _ _ _ _ _ _ B F) as [(k' & B' & ->)|(N & d & -> & D)].
  - left. destruct (if lenN data =? 0 then _ else _); injection H as <- <- <-; exists k'; (split; [exact B'|reflexivity]).
  - right. specialize (L N). apply resize_wf in R; [|exact W]. destruct R as [W1 M].
    unfold wf_mbuf in W1. rewrite add64_small in M by exact L.
    destruct (lenN d =? 0); [eexists; reflexivity|].
    rewrite write_cells_Ok by (rewrite lenN_map; lia). eexists; reflexivity.
Qed.

Lemma header_fits : forall n, n < 2 ^ 63 -> HEADER_SIZE + n < W64.
Proof. intros n H. unfold HEADER_SIZE. change W64 with (2 ^ 63 + 2 ^ 63). change 288 with (2 ^ 8 + 2 ^ 5). lia. Qed.

Section Pages.
Variables (z : bytes) (c : cfg).
Local Notation bad := (disk_source true).

Lemma page_beside : forall e f plen p k x p', beside z (ps_is p) k -> wf_p p -> plen < W64 ->
  read_page c file_source e f plen p = (x, p') ->
  wf_p p' /\
  ((exists k', beside z (ps_is p') k' /\ read_page c bad e f plen (moved p k) = (x, moved p' k'))
   \/ exists q, read_page c bad e f plen (moved p k) = (Exn E_cannot_read_page, q)).
Proof.
  intros e f plen p k x p' B W L H. split; [apply (read_page_room _ _ _ _ _ _ _ _ _ L W H)|].
  unfold read_page in *. cbn [moved ps_is ps_buf ps_hdr]. change (src_eof bad) with disk_eof.
  change (src_eof file_source) with file_eof in *. unfold file_eof, disk_eof in *. pose proof (proj1 (proj2 B)) as B2. rewrite <- B2. clear B2.
  destruct (fs_eof (ps_is p)) eqn:EO.
  { injection H as <- <-. left. exists k. split; [exact B|reflexivity]. }
  destruct (read_stream c file_source (ps_buf p) (ps_is p) plen 0) as [[y s'] b'] eqn:R.
  destruct (stream_beside z c (ps_buf p) (ps_is p) k plen 0 y s' b' B W ltac:(rewrite N.add_0_l; auto) R)
    as [(k' & B' & ->)|[m ->]]; [|right; eexists; reflexivity].
  left. exists k'. assert (E : fs_eof (dk_file k') = fs_eof s') by (symmetry; apply B'). rewrite E.
  destruct y as [[|]| | | |]; try (injection H as <- <-; split; [exact B'|reflexivity]).
  - destruct (get_page_header e f b'); injection H as <- <-; (split; [exact B'|reflexivity]).
  - destruct (fs_eof s'); injection H as <- <-; (split; [exact B'|reflexivity]).
Qed.

Lemma metadata_beside : forall e f plen fuel p k m, beside z (ps_is p) k -> wf_p p -> plen < W64 ->
  (exists k', metadata_loop c bad e f plen fuel (moved p k) m
     = at_source (fun '(p', m') s => (moved p' s, m')) (metadata_loop c file_source e f plen fuel p m) k'
     /\ forall p' m', metadata_loop c file_source e f plen fuel p m = Ok (p', m') ->
          beside z (ps_is p') k' /\ wf_p p')
  \/ metadata_loop c bad e f plen fuel (moved p k) m = Exn E_cannot_read_page.
Proof.
  intros e f plen. induction fuel as [|fuel IH]; intros p k m B W L; cbn [metadata_loop].
  { left. exists k. split; [reflexivity|discriminate]. }
  destruct (read_page c file_source e f plen p) as [x p1] eqn:R.
  destruct (page_beside _ _ _ _ _ _ _ B W L R) as [W1 [(k1 & B1 & ->)|[q ->]]]; [|right; reflexivity].
  destruct x as [[|]| | | |]; try (left; exists k1; split; [reflexivity|discriminate]).
  - change (ps_buf (moved p1 k1)) with (ps_buf p1). change (ps_hdr (moved p1 k1)) with (ps_hdr p1).
    destruct (process_page e f (ps_buf p1) (ps_hdr p1) m) as [[m1 [|]]| | | |]; cbn [bind];
      try (left; exists k1; split; [reflexivity|discriminate]).
    + left. exists k1. split; [reflexivity|]. intros p' m' [= <- <-]. auto.
    + apply IH; assumption.
  - left. exists k1. split; [reflexivity|]. intros p' m' [= <- <-]. auto.
Qed.

Lemma next_page_beside : forall e f plen md fuel p k x p', beside z (ps_is p) k -> wf_p p -> plen < W64 ->
  read_next_page c file_source e f plen md fuel p = (x, p') ->
  wf_p p' /\
  ((exists k', beside z (ps_is p') k' /\ read_next_page c bad e f plen md fuel (moved p k) = (x, moved p' k'))
   \/ exists q, read_next_page c bad e f plen md fuel (moved p k) = (Exn E_cannot_read_page, q)).
Proof.
  intros e f plen md. induction fuel as [|fuel IH]; intros p k x p' B W L H; cbn [read_next_page] in *.
  { injection H as <- <-. split; [exact W|]. left. exists k. split; [exact B|reflexivity]. }
  destruct (read_page c file_source e f plen p) as [y p1] eqn:R.
  destruct (page_beside _ _ _ _ _ _ _ B W L R) as [W1 [(k1 & B1 & ->)|[q ->]]].
  - destruct y as [[|]| | | |];
      try (injection H as <- <-; split; [exact W1|]; left; exists k1; split; [exact B1|reflexivity]).
    change (ps_buf (moved p1 k1)) with (ps_buf p1). change (ps_hdr (moved p1 k1)) with (ps_hdr p1).
    destruct (build_page e f md (ps_buf p1) (ps_hdr p1)) as [[pg|]| | | |];
      try (injection H as <- <-; split; [exact W1|]; left; exists k1; split; [exact B1|reflexivity]).
    apply IH; assumption.
  - split; [|right; exists q; reflexivity]. clear q.
    assert (K : forall fuel p x p', wf_p p -> read_next_page c file_source e f plen md fuel p = (x, p') -> wf_p p').
    { clear - L. induction fuel as [|fuel IH]; intros p x p' W H; cbn [read_next_page] in H;
        [injection H as <- <-; exact W|].
      destruct (read_page c file_source e f plen p) as [y p1] eqn:R.
      pose proof (proj1 (read_page_room _ _ _ _ _ _ _ _ _ L W R)) as W1.
      destruct y as [[|]| | | |]; try (injection H as <- <-; exact W1).
      destruct (build_page _ _ _ _ _) as [[pg|]| | | |]; try (injection H as <- <-; exact W1). eauto. }
    destruct y as [[|]| | | |]; try (injection H as <- <-; exact W1).
    destruct (build_page _ _ _ _ _) as [[pg|]| | | |]; try (injection H as <- <-; exact W1). eauto.
Qed.

(** The operations on the data. *)
Section Data.
Variables (h : header) (md : metadata).
Hypothesis L : h_page_length h < W64.

(** The two Readers are at the same place. *)
Definition dbeside (d : dstate fstate) (k : disk) : Prop := beside z (ps_is (ds_p d)) k /\ wf_p (ds_p d).

(** What an operation does on the failing device, beside what it does on the file. *)
Definition alike {A} (x : res A) (d : dstate fstate) (y : res A * dstate disk) : Prop :=
  (exists k, dbeside d k /\ y = (x, d_moved d k)) \/ exists e, y = (Exn E_cannot_read_page, e) /\ ds_page e = None.

Lemma data_next_beside : forall d k x d', dbeside d k ->
  data_next c file_source h md d = (x, d') -> alike x d' (data_next c bad h md (d_moved d k)).
Proof.
  intros d k x d' [B W] H. unfold data_next in *. cbn [d_moved ds_row ds_page ds_p ds_dec].
  destruct (ds_row d =? md_row_count md).
  { injection H as <- <-. left. exists k. split; [split; assumption|reflexivity]. }
  destruct (ds_page d) as [pg|] eqn:P.
  2:{ injection H as <- <-. left. exists k. split; [split; assumption|]. unfold d_moved. rewrite P. reflexivity. }
  destruct (page_next pg).
  2:{ injection H as <- <-. left. exists k. split; [split; assumption|]. unfold d_moved. rewrite P. reflexivity. }
  destruct (read_next_page c file_source _ _ _ md _ (ds_p d)) as [y p'] eqn:R.
  destruct (next_page_beside _ _ _ _ _ _ _ _ _ B W L R) as [W1 [(k1 & B1 & E)|[q E]]]; rewrite E.
  - left. exists k1. destruct y as [[pg'|]| | | |]; injection H as <- <-; (split; [split; assumption|reflexivity]).
  - right. eexists. split; reflexivity.
Qed.

Lemma data_read_line_beside : forall d k x d', dbeside d k ->
  data_read_line d = (x, d') -> dbeside d' k /\ data_read_line (d_moved d k) = (x, d_moved d' k).
Proof.
  intros d k x d' [B W] H. unfold data_read_line in *. cbn [d_moved ds_page].
  destruct (ds_page d) as [pg|] eqn:P; injection H as <- <-; (split; [split; assumption|]).
  - reflexivity.
  - unfold d_moved. rewrite P. reflexivity.
Qed.

Lemma extract_beside : forall off len d k x d', dbeside d k ->
  extract_row_values c h md off len d = (x, d') ->
  dbeside d' k /\ extract_row_values c h md off len (d_moved d k) = (x, d_moved d' k).
Proof.
  intros off len d k x d' [B W] H. unfold extract_row_values in *.
  cbn [d_moved ds_p ds_dec ds_row ds_page moved ps_buf].
  destruct (fmt_assert c _); try (injection H as <- <-; split; [split; assumption|reflexivity]).
  destruct (len <? md_row_length md); [|injection H as <- <-; split; [split; assumption|reflexivity]].
  destruct (ds_dec d) as [|dst|dst] eqn:D.
  - injection H as <- <-. split; [split; assumption|]. unfold d_moved. rewrite D. reflexivity.
  - destruct (read_cells _ off len);
      try (injection H as <- <-; split; [split; assumption|]; unfold d_moved; rewrite D; reflexivity).
    destruct (rdc _ dst) as [r dst']. injection H as <- <-. split; [split; assumption|reflexivity].
  - destruct (read_cells _ off len);
      try (injection H as <- <-; split; [split; assumption|]; unfold d_moved; rewrite D; reflexivity).
    destruct (rle _ dst) as [r dst']. injection H as <- <-. split; [split; assumption|reflexivity].
Qed.

Lemma read_line_beside : forall d k x d', dbeside d k ->
  read_line c file_source h md d = (x, d') -> alike x d' (read_line c bad h md (d_moved d k)).
Proof.
  intros d k x d' B H. unfold read_line in *.
  destruct (data_next c file_source h md d) as [y d1] eqn:N.
  destruct (data_next_beside _ _ _ _ B N) as [(k1 & B1 & ->)|(e & -> & E)].
  2:{ right. exists e. auto. }
  destruct y as [[|]| | | |]; try (injection H as <- <-; left; exists k1; split; [exact B1|reflexivity]).
  destruct (data_read_line d1) as [v d2] eqn:V.
  destruct (data_read_line_beside _ _ _ _ B1 V) as [B2 ->].
  destruct v as [[off len]| | | |]; try (injection H as <- <-; left; exists k1; split; [exact B2|reflexivity]).
  destruct (extract_row_values c h md off len d2) as [w d3] eqn:X.
  destruct (extract_beside _ _ _ _ _ _ B2 X) as [B3 ->].
  injection H as <- <-. left. exists k1. split; [exact B3|reflexivity].
Qed.

Lemma data_skip_beside : forall n d k x d', dbeside d k ->
  data_skip c file_source h md n d = (x, d') -> alike x d' (data_skip c bad h md n (d_moved d k)).
Proof.
  induction n as [|n IH]; intros d k x d' B H; cbn [data_skip] in *.
  { injection H as <- <-. left. exists k. split; [exact B|reflexivity]. }
  destruct (data_next c file_source h md d) as [y d1] eqn:N.
  destruct (data_next_beside _ _ _ _ B N) as [(k1 & B1 & ->)|(e & -> & E)].
  2:{ right. exists e. auto. }
  destruct y as [[|]| | | |]; try (injection H as <- <-; left; exists k1; split; [exact B1|reflexivity]).
  destruct (data_read_line d1) as [v d2] eqn:V.
  destruct (data_read_line_beside _ _ _ _ B1 V) as [B2 ->].
  destruct v as [pl| | | |]; try (injection H as <- <-; left; exists k1; split; [exact B2|reflexivity]).
  apply IH; assumption.
Qed.

(** With the calls received by the sink. *)
Definition alike3 {A} (x : res A) (r : rstate fstate) (ev : list event)
    (y : res A * rstate disk * list event) : Prop :=
  exists d, r = RState h md d /\
  ((exists k, dbeside d k /\ y = (x, RState h md (d_moved d k), ev))
   \/ exists e ev1 more, y = (Exn E_cannot_read_page, RState h md e, ev1) /\ ev = ev1 ++ more /\ ds_page e = None).

Lemma read_row_beside : forall d k x r ev, dbeside d k ->
  read_row c file_source (RState h md d) = (x, r, ev) ->
  alike3 x r ev (read_row c bad (RState h md (d_moved d k))).
Proof.
  intros d k x r ev B H. unfold read_row in *. cbn [rs_h rs_md rs_d] in *.
  destruct (read_line c file_source h md d) as [y d1] eqn:R.
  destruct (read_line_beside _ _ _ _ B R) as [(k1 & B1 & ->)|(e & -> & E)].
  - exists d1. split; [destruct y as [[p|]| | | |]; injection H as _ <- _; reflexivity|].
    left. exists k1. split; [exact B1|].
    destruct y as [[p|]| | | |]; injection H as <- <- <-; reflexivity.
  - exists d1. split; [destruct y as [[p|]| | | |]; injection H as _ <- _; reflexivity|].
    right. exists e, [], ev. auto.
Qed.

Lemma read_rows_beside : forall n d k x r ev, dbeside d k ->
  read_rows c file_source n (RState h md d) = (x, r, ev) ->
  alike3 x r ev (read_rows c bad n (RState h md (d_moved d k))).
Proof.
  induction n as [|n IH]; intros d k x r ev B H; cbn [read_rows] in *.
  { injection H as <- <- <-. exists d. split; [reflexivity|]. left. exists k. split; [exact B|reflexivity]. }
  destruct (read_row c file_source (RState h md d)) as [[y r1] ev1] eqn:R.
  destruct (read_row_beside _ _ _ _ _ B R) as (d1 & -> & [(k1 & B1 & ->)|(e & ev0 & more & -> & E1 & E2)]).
  - destruct y as [[|]| | | |];
      try (injection H as <- <- <-; exists d1; split; [reflexivity|]; left; exists k1; split; [exact B1|reflexivity]).
    destruct (read_rows c file_source n (RState h md d1)) as [[w r2] ev2] eqn:Q. injection H as <- <- <-.
    destruct (IH _ _ _ _ _ B1 Q) as (d2 & -> & [(k2 & B2 & ->)|(e & ev0 & more & -> & -> & E2)]);
      exists d2; (split; [reflexivity|]).
    + left. exists k2. split; [exact B2|reflexivity].
    + right. exists e, (ev1 ++ ev0), more. split; [reflexivity|]. split; [apply app_assoc|exact E2].
  - subst ev1. destruct y as [[|]| | | |];
      try (injection H as <- <- <-; exists d1; split; [reflexivity|]; right; exists e, ev0, more; auto).
    destruct (read_rows c file_source n (RState h md d1)) as [[w r2] ev2] eqn:Q. injection H as <- <- <-.
    apply read_rows_keeps in Q.
    exists (rs_d r2). split; [exact Q|]. right. exists e, ev0, (more ++ ev2).
    split; [reflexivity|]. split; [apply eq_sym, app_assoc|exact E2].
Qed.

Lemma read_all_beside : forall n d k x r ev, dbeside d k ->
  read_all_loop c file_source n (RState h md d) = (x, r, ev) ->
  alike3 x r ev (read_all_loop c bad n (RState h md (d_moved d k))).
Proof.
  induction n as [|n IH]; intros d k x r ev B H; cbn [read_all_loop] in *.
  { injection H as <- <- <-. exists d. split; [reflexivity|]. left. exists k. split; [exact B|reflexivity]. }
  destruct (read_row c file_source (RState h md d)) as [[y r1] ev1] eqn:R.
  destruct (read_row_beside _ _ _ _ _ B R) as (d1 & -> & [(k1 & B1 & ->)|(e & ev0 & more & -> & E1 & E2)]).
  - destruct y as [[|]| | | |];
      try (injection H as <- <- <-; exists d1; split; [reflexivity|]; left; exists k1; split; [exact B1|reflexivity]).
    destruct (read_all_loop c file_source n (RState h md d1)) as [[w r2] ev2] eqn:Q. injection H as <- <- <-.
    destruct (IH _ _ _ _ _ B1 Q) as (d2 & -> & [(k2 & B2 & ->)|(e & ev0 & more & -> & -> & E2)]);
      exists d2; (split; [reflexivity|]).
    + left. exists k2. split; [exact B2|reflexivity].
    + right. exists e, (ev1 ++ ev0), more. split; [reflexivity|]. split; [apply app_assoc|exact E2].
  - subst ev1. destruct y as [[|]| | | |];
      try (injection H as <- <- <-; exists d1; split; [reflexivity|]; right; exists e, ev0, more; auto).
    destruct (read_all_loop c file_source n (RState h md d1)) as [[w r2] ev2] eqn:Q. injection H as <- <- <-.
    apply read_all_loop_keeps in Q.
    exists (rs_d r2). split; [exact Q|]. right. exists e, ev0, (more ++ ev2).
    split; [reflexivity|]. split; [apply eq_sym, app_assoc|exact E2].
Qed.

Lemma alike3_map : forall A B (g : A -> B) x r ev y, alike3 x r ev y ->
  alike3 (rmap g x) r ev (let '(a, r', ev') := y in (rmap g a, r', ev')).
Proof.
  intros A B g x r ev y (d & -> & [(k & H & ->)|(e & ev1 & more & -> & H)]); exists d; (split; [reflexivity|]).
  - left. exists k. auto.
  - right. exists e, ev1, more. auto.
Qed.

Lemma step_beside : forall o d k x r ev, dbeside d k ->
  step c file_source o (RState h md d) = (x, r, ev) ->
  alike3 x r ev (step c bad o (RState h md (d_moved d k))).
Proof.
  intros o d k x r ev B H. destruct o; cbn [step] in *.
  - destruct (read_row c file_source _) as [[y r1] ev1] eqn:R. injection H as <- <- <-.
    apply alike3_map. eapply read_row_beside; eassumption.
  - destruct (read_rows c file_source _ _) as [[y r1] ev1] eqn:R. injection H as <- <- <-.
    apply alike3_map. eapply read_rows_beside; eassumption.
  - destruct (read_all c file_source _) as [[y r1] ev1] eqn:R. injection H as <- <- <-.
    apply alike3_map. unfold read_all in *. cbn [rs_md rs_d d_moved ds_row] in *.
    eapply read_all_beside; eassumption.
  - destruct (skip c file_source n _) as [[y r1] ev1] eqn:R. injection H as <- <- <-.
    apply alike3_map. unfold skip in *. cbn [rs_h rs_md rs_d] in *.
    destruct (data_skip c file_source h md (N.to_nat n) d) as [w d1] eqn:Q. injection R as <- <- <-.
    exists d1. split; [reflexivity|].
    destruct (data_skip_beside _ _ _ _ _ B Q) as [(k1 & B1 & ->)|(e & -> & E)].
    + left. exists k1. auto.
    + right. eexists e, [], _. split; [reflexivity|]. split; [reflexivity|exact E].
  - unfold read_row_no_sink in *. cbn [rs_h rs_md rs_d] in *.
    destruct (read_line c file_source h md d) as [y d1] eqn:R. injection H as <- <- <-.
    exists d1. split; [reflexivity|].
    destruct (read_line_beside _ _ _ _ B R) as [(k1 & B1 & ->)|(e & -> & E)].
    + left. exists k1. auto.
    + right. exists e, [], []. auto.
  - injection H as <- <- <-. exists d. split; [reflexivity|]. left. exists k. auto.
Qed.

Lemma trace_beside : forall ops d k, dbeside d k ->
  let good := fst (trace c file_source ops (Some (RState h md d))) in
  let t := fst (trace c bad ops (Some (RState h md (d_moved d k)))) in
  t = good \/ cut_by_fault ops good t.
Proof.
  induction ops as [|o ops IH]; intros d k B; [left; reflexivity|]. cbn [trace reader_step].
  destruct (step c file_source o (RState h md d)) as [[x r1] ev] eqn:S.
  destruct (step_beside _ _ _ _ _ _ B S) as (d1 & -> & [(k1 & B1 & ->)|(e & ev1 & more & -> & -> & E)]).
  - assert (G : let good := fst (trace c file_source ops (Some (RState h md d1))) in
                let t := fst (trace c bad ops (Some (RState h md (d_moved d1 k1)))) in
                (o, x, ev) :: t = (o, x, ev) :: good \/ cut_by_fault (o :: ops) ((o, x, ev) :: good) ((o, x, ev) :: t)).
    { destruct (IH _ _ B1) as [->|(l & o' & y & ev' & more & g & ops' & E1 & E2 & E3)]; [left; reflexivity|].
      right. exists ((o, x, ev) :: l), o', y, ev', more, g, ops'. cbn [map fst app].
      rewrite E1, E2, <- E3. auto. }
    destruct (trace c file_source ops (Some (RState h md d1))) as [g rg].
    destruct (trace c bad ops (Some (RState h md (d_moved d1 k1)))) as [t rt]. cbn [fst] in *.
    destruct x; try exact G; left; reflexivity.
  - right. rewrite (ended_trace _ _ _ ops (RState h md e)) by (right; exact E). cbn [fst].
    exists [], o, x, ev1, more. destruct (trace c file_source ops (Some (RState h md d1))) as [g rg].
    destruct x; cbn [fst app map]; eexists _, ops; (split; [reflexivity|]); split; reflexivity.
Qed.

End Data.

Lemma header_beside : forall s k, beside z s k ->
  (exists k', open_header c bad k = at_source (fun '(h, _, b) q => (h, q, b)) (open_header c file_source s) k'
     /\ forall h s' b, open_header c file_source s = Ok (h, s', b) -> beside z s' k')
  \/ open_header c bad k = Exn E_header_too_short.
Proof.
  intros s k B. unfold open_header, check_header, check_header_ctor.
  destruct (read_stream c file_source empty_mbuf s HEADER_SIZE 0) as [[x s1] b1] eqn:R.
  destruct (stream_beside z c empty_mbuf s k HEADER_SIZE 0 x s1 b1 B wf_empty (fun _ => eq_refl) R) as [(k1 & B1 & E)|[m E]];
    rewrite E; [|right; reflexivity].
  destruct x as [[|]| | | |]; cbn [bind]; try (left; exists k1; split; [reflexivity|discriminate]).
  destruct (check_magic_number b1) as [[]| | | |]; cbn [bind]; try (left; exists k1; split; [reflexivity|discriminate]).
  unfold set_aligns_endianness.
  destruct (get_byte b1 32); cbn [bind]; try (left; exists k1; split; [reflexivity|discriminate]).
  destruct (get_byte b1 35); cbn [bind]; try (left; exists k1; split; [reflexivity|discriminate]).
  destruct (get_byte b1 37); cbn [bind]; try (left; exists k1; split; [reflexivity|discriminate]).
  unfold read_header. cbn [ch_is ch_buf ch_align1 ch_align2 ch_big ch_64].
  unfold set_header_length_and_read.
  match goal with |- context [get_uint32 ?e b1 ?o] => destruct (get_uint32 e b1 o) as [hl| | | |] eqn:HL end;
    cbn [bind]; try (left; exists k1; split; [reflexivity|discriminate]).
  destruct (fmt_assert c (HEADER_SIZE <=? hl)); cbn [bind]; try (left; exists k1; split; [reflexivity|discriminate]).
  destruct (read_stream c file_source b1 s1 (hl -! HEADER_SIZE) HEADER_SIZE) as [[x s2] b2] eqn:R2.
  apply read_stream_wf in R as W; [|apply wf_empty].
  destruct (stream_beside z c b1 s1 k1 (hl -! HEADER_SIZE) HEADER_SIZE x s2 b2 B1 (proj1 W)
              (header_fits _) R2) as [(k2 & B2 & E2)|[m E2]];
    rewrite E2; [|right; reflexivity].
  left. exists k2. destruct x as [[|]| | | |]; cbn [bind]; try (split; [reflexivity|discriminate]).
  match goal with |- context [set_header ?a ?b ?d ?e ?g ?i ?j] => destruct (set_header a b d e g i j) end;
    cbn [bind]; try (split; [reflexivity|discriminate]).
  split; [reflexivity|]. intros ? ? ? [= <- <- <-]. exact B2.
Qed.

End Pages.

Theorem disk_faults : forall c flt content z ops,
  with_fault ops (session c file_source flt (file_open (content ++ z)) ops)
    (session c (disk_source true) flt (disk_open content) ops).
Proof.
  intros c flt content z ops. unfold session, open_reader.
  assert (B : beside z (file_open (content ++ z)) (disk_open content)).
  { unfold beside. cbn. auto. }
  destruct (header_beside z c _ _ B) as [(k1 & -> & B1)| ->]; [|right; left; reflexivity].
  destruct (open_header c file_source (file_open (content ++ z))) as [[[h s1] b1]| | | |] eqn:OH;
    cbn [bind at_source]; try (left; reflexivity).
  specialize (B1 _ _ _ eq_refl). destruct (header_room _ _ _ _ _ _ _ OH) as [W L].
  unfold set_metadata.
  change (PState k1 b1 reset_page_header) with (moved (PState s1 b1 reset_page_header) k1).
  destruct (metadata_beside z c (h_endianness h) (h_format h) (h_page_length h) (page_fuel c)
              (PState s1 b1 reset_page_header) k1 empty_mstate B1 W L) as [(k2 & -> & B2)| ->];
    [|right; right; left; reflexivity].
  destruct (metadata_loop c file_source _ _ _ _ _ _) as [[p m]| | | |]; cbn [bind at_source]; try (left; reflexivity).
  destruct (B2 _ _ eq_refl) as [B3 W3]. clear B1 B2.
  destruct (create_columns c (h_endianness h) flt m) as [md| | | |]; cbn [bind]; try (left; reflexivity).
  unfold read_data. destruct (make_decompressor c _ _) as [dec| | | |]; cbn [bind]; try (left; reflexivity).
  assert (T : forall d, dbeside z d k2 ->
            with_fault ops (Ok ([EvProps h md], fst (trace c file_source ops (Some (RState h md d)))))
              (Ok ([EvProps h md], fst (trace c (disk_source true) ops (Some (RState h md (d_moved d k2))))))).
  { intros d D. destruct (trace_beside z c h md L ops d k2 D) as [->|C]; [left; reflexivity|].
    right. right. right. eexists _, _, _. split; [reflexivity|]. split; [reflexivity|exact C]. }
  destruct (m_data_subheaders m).
  - change (ps_buf (moved p k2)) with (ps_buf p). change (ps_hdr (moved p k2)) with (ps_hdr p).
    destruct (build_page _ _ md _ _) as [pg| | | |]; cbn [bind]; try (left; reflexivity).
    apply (T (DState p dec 0 pg)). split; assumption.
  - apply (T (DState p dec 0 (Some (Page (PMeta (p0 :: l)) 0)))). split; assumption.
Qed.

(** ** Devices which do not fail, and sessions which do not come to the fault *)

Lemma disk_talks : forall t s s', talks file_source s t s' ->
  talks (disk_source false) (Disk s false) t (Disk s' false).
Proof.
  intros t s s' H. induction H.
  - constructor.
  - apply t_eof; [reflexivity|assumption].
  - econstructor; [|exact IHtalks]. cbn [src_read file_source disk_source] in *. unfold disk_read.
    cbn [dk_bad dk_file andb]. rewrite H. reflexivity.
Qed.

Theorem disk_sound : forall c flt content ops,
  session c (disk_source false) flt (disk_open content) ops
  = session c file_source flt (file_open content) ops.
Proof.
  intros c flt content ops.
  destruct (session_answers _ c file_source flt (file_open content) ops) as (t & s' & T & _ & A).
  apply (A _ _ _ _ (disk_talks _ _ _ T)).
Qed.

Lemma file_goes_on : forall t s s', talks file_source s t s' ->
  lenN (fs_rest s') <= lenN (fs_rest s) /\ (fs_eof s = true -> fs_eof s' = true).
Proof.
  intros t s s' H. induction H as [s|s t s' H IH|s n s1 data ok t s' R H IH]; [split; [lia|auto]|exact IH|].
  destruct IH as [I1 I2]. cbn [src_read file_source] in R. unfold file_read in R.
  destruct (fs_eof s || fs_fail s) eqn:EF; [injection R as <- _ _; cbn [fs_rest fs_eof] in *; auto|].
  apply orb_false_iff in EF. destruct EF as [EF _]. rewrite EF.
  destruct (2 ^ 63 <=? n); [injection R as <- _ _; cbn [fs_rest fs_eof] in *; split; [exact I1|discriminate]|].
  destruct (n <=? lenN (fs_rest s)); injection R as <- _ _; cbn [fs_rest fs_eof] in *; (split; [|discriminate]).
  - rewrite lenN_skipn in I1. lia.
  - cbn in I1. lia.
Qed.

Lemma disk_talks_far : forall z t s s' k, talks file_source s t s' -> beside z s k ->
  fs_eof s' = false -> lenN z <= lenN (fs_rest s') -> exists k', talks (disk_source true) k t k'.
Proof.
  intros z t s s' k H. revert k. induction H as [s|s t s' H IH|s n s1 data ok t s' R H IH]; intros k B E L.
  - exists k. constructor.
  - destruct (IH k B E L) as [k' K]. exists k'. apply t_eof; [|exact K]. symmetry. apply B.
  - destruct (disk_read_beside _ _ _ _ _ _ _ B R) as [(k1 & B1 & D)|(N & d & D & _)].
    + destruct (IH k1 B1 E L) as [k' K]. exists k'. econstructor; [exact D|exact K].
    + exfalso. destruct (file_goes_on _ _ _ H) as [G1 G2].
      assert (Q : fs_eof s1 = false) by (destruct (fs_eof s1); [rewrite G2 in E; auto|reflexivity]).
      destruct k as [[rest e f] bad]. destruct B as (B2 & B3 & B4 & B5).
      cbn [src_read file_source] in R. unfold file_read in R. unfold disk_read in D.
      cbn [dk_bad dk_file fs_eof fs_fail fs_rest] in *. subst bad. rewrite B3, B4 in *.
      destruct (e || f) eqn:EF.
      * cbn [negb andb] in D. destruct (file_read _ n) as [[? ?] ?]. discriminate.
      * specialize (B5 eq_refl). rewrite (proj2 (N.leb_gt _ _) N) in R. cbn [negb andb] in D.
        rewrite (proj2 (N.ltb_lt _ _) N) in D. cbn [andb] in D.
        destruct (N.ltb_spec (lenN rest) n) as [M|M].
        2:{ destruct (file_read _ n) as [[? ?] ?]. discriminate. }
        destruct (N.leb_spec n (lenN (fs_rest s))) as [P|P]; injection R as <- _ _; cbn [fs_eof fs_rest] in *;
          [|discriminate].
        rewrite lenN_skipn in G1. rewrite B5, lenN_app in *. lia.
Qed.

Theorem disk_far : forall c flt content z ops r0 ev l r,
  open_reader c file_source flt (file_open (content ++ z)) = Ok (r0, ev) ->
  trace c file_source ops (Some r0) = (l, Some r) ->
  fs_eof (source_at r) = false -> lenN z <= lenN (fs_rest (source_at r)) ->
  session c (disk_source true) flt (disk_open content) ops = Ok (ev, l).
Proof.
  intros c flt content z ops r0 ev l r O T E L.
  destruct (session_answers _ c file_source flt (file_open (content ++ z)) ops) as (t & s' & K & Z & A).
  specialize (Z _ _ _ _ O T). subst s'.
  destruct (disk_talks_far z _ _ _ (disk_open content) K) as [k' D].
  - unfold beside. cbn. auto.
  - exact E.
  - exact L.
  - rewrite (A _ _ _ _ D). unfold session. rewrite O, T. reflexivity.
Qed.
