(** Proofs about the reading buffer. *)
From Verif Require Import Base Types Buffer Lemmas SpecBuffer.
From Coq Require Import ZifyBool ZifyNat ZifyN.
Local Open Scope N_scope.

Definition wf_mbuf (b : mbuf) : Prop := msize b <= lenN (mem b).

Lemma wf_empty : wf_mbuf empty_mbuf.
Proof. unfold wf_mbuf. cbn. lia. Qed.

Lemma resized_len : forall n l, lenN (resized n l) = n.
Proof.
  intros n l. unfold resized. rewrite lenN_app, lenN_firstn, lenN_repeat.
  unfold lenN. lia.
Qed.

Lemma visible_len : forall b, wf_mbuf b -> lenN (visible b) = msize b.
Proof. intros b W. unfold wf_mbuf, visible in *. rewrite lenN_firstn. lia. Qed.

(** [resize] refines [resized]. *)
Lemma resize_spec : forall c b n, wf_mbuf b ->
  (n <= max_alloc c \/ n <= msize b) ->
  exists b', resize c b n = Ok b' /\ wf_mbuf b' /\ msize b' = n
    /\ visible b' = resized n (visible b).
Proof.
  intros c b n W A. unfold resize.
  destruct (N.ltb_spec (msize b) n) as [L|L].
  - unfold alloc. destruct (N.leb_spec n (max_alloc c)) as [M|M]; [|lia].
    cbn [bind].
    assert (F : forall m, Ok m = (if negb (msize b =? 0)
        then write_cells (repeat None (N.to_nat n)) 0 (firstn (N.to_nat (msize b)) (mem b))
        else Ok (repeat None (N.to_nat n))) ->
      lenN m = n /\ firstn (N.to_nat n) m = resized n (visible b)).
    { intros m E. destruct (N.eqb_spec (msize b) 0) as [Z|Z]; cbn [negb] in E.
      - injection E as ->. rewrite lenN_repeat. split; [lia|].
        unfold resized, visible. rewrite Z. cbn [N.to_nat firstn].
        rewrite firstn_nil, firstn_all2 by (rewrite repeat_length; lia).
        cbn [length app]. f_equal. lia.
      - rewrite write_cells_Ok in E
          by (rewrite lenN_firstn, lenN_repeat; unfold wf_mbuf in W; lia).
        injection E as ->. rewrite lenN_splice
          by (rewrite lenN_firstn, lenN_repeat; unfold wf_mbuf in W; lia).
        rewrite lenN_repeat. split; [lia|].
        rewrite firstn_all2.
        2:{ pose proof (lenN_splice _ 0 (firstn (N.to_nat (msize b)) (mem b))
              (repeat None (N.to_nat n))) as H.
            rewrite lenN_firstn, lenN_repeat in H. unfold wf_mbuf, lenN in *. lia. }
        unfold splice, resized, visible. cbn [N.to_nat firstn app Nat.add].
        rewrite (firstn_all2 (n := N.to_nat n) (firstn _ (mem b))).
        2:{ rewrite firstn_length. lia. }
        f_equal.
        set (k := length (firstn (N.to_nat (msize b)) (mem b))).
        assert (K : (k <= N.to_nat n)%nat) by (unfold k; rewrite firstn_length; lia).
        replace (N.to_nat n) with (k + (N.to_nat n - k))%nat at 1 by lia.
        rewrite repeat_app, skipn_app, repeat_length, Nat.sub_diag.
        rewrite skipn_all2 by (rewrite repeat_length; lia). reflexivity. }
    destruct (if negb (msize b =? 0) then _ else _) as [m| | | |] eqn:E.
    + specialize (F m eq_refl). cbn [bind]. exists (MBuf m n).
      split; [reflexivity|]. unfold wf_mbuf, visible at 1. cbn [mem msize].
      split; [lia|]. split; [reflexivity|apply F].
    + destruct (msize b =? 0); cbn [negb] in E; [discriminate|].
      rewrite write_cells_Ok in E; [discriminate|].
      rewrite lenN_firstn, lenN_repeat. unfold wf_mbuf in W. lia.
    + destruct (msize b =? 0); cbn [negb] in E; [discriminate|].
      rewrite write_cells_Ok in E; [discriminate|].
      rewrite lenN_firstn, lenN_repeat. unfold wf_mbuf in W. lia.
    + destruct (msize b =? 0); cbn [negb] in E; [discriminate|].
      rewrite write_cells_Ok in E; [discriminate|].
      rewrite lenN_firstn, lenN_repeat. unfold wf_mbuf in W. lia.
    + destruct (msize b =? 0); cbn [negb] in E; [discriminate|].
      rewrite write_cells_Ok in E; [discriminate|].
      rewrite lenN_firstn, lenN_repeat. unfold wf_mbuf in W. lia.
  - exists (MBuf (mem b) n). split; [reflexivity|].
    unfold wf_mbuf, visible, resized in *. cbn [mem msize].
    split; [lia|]. split; [reflexivity|].
    rewrite firstn_firstn, firstn_length.
    replace (Nat.min (N.to_nat n) (N.to_nat (msize b))) with (N.to_nat n) by lia.
    replace (N.to_nat n - _)%nat with 0%nat
      by (unfold lenN in W; lia).
    cbn. rewrite app_nil_r. reflexivity.
Qed.

Lemma resize_bad_alloc : forall c b n,
  max_alloc c < n -> msize b < n -> resize c b n = Exn E_bad_alloc.
Proof.
  intros c b n A L. unfold resize, alloc.
  destruct (N.ltb_spec (msize b) n); [|lia].
  destruct (N.leb_spec n (max_alloc c)); [lia|reflexivity].
Qed.

Lemma overwritten_nil : forall off l, overwritten off [] l = l.
Proof.
  intros off l. unfold overwritten. cbn. rewrite Nat.add_0_r. apply firstn_skipn.
Qed.

Lemma overwritten_len : forall off d l, off + lenN d <= lenN l ->
  lenN (overwritten off d l) = lenN l.
Proof.
  intros off d l H. unfold overwritten.
  rewrite !lenN_app, lenN_map, lenN_firstn, lenN_skipn. unfold lenN in *. lia.
Qed.

Lemma firstn_splice_gen : forall A n off (new l : list A),
  off + lenN new <= n -> n <= lenN l ->
  firstn (N.to_nat n) (splice off new l)
  = firstn (N.to_nat off) (firstn (N.to_nat n) l) ++ new
    ++ skipn (N.to_nat off + length new) (firstn (N.to_nat n) l).
Proof.
  intros A n off new l H1 H2. unfold splice, lenN in *.
  rewrite firstn_firstn, Nat.min_l by lia.
  rewrite !firstn_app. rewrite firstn_all2 by (rewrite firstn_length; lia).
  rewrite firstn_length, Nat.min_l by lia. f_equal.
  rewrite firstn_all2 by lia. f_equal.
  rewrite skipn_firstn_comm. f_equal. lia.
Qed.

Lemma read_stream_spec : forall S c (src : source S) b s len off s' data ok,
  wf_mbuf b -> off + len < W64 ->
  (off + len <= max_alloc c \/ off + len <= msize b) ->
  src_read src s len = (s', data, ok) -> lenN data <= len ->
  exists b', read_stream c src b s len off = (Ok ok, s', b')
    /\ wf_mbuf b' /\ msize b' = off + len
    /\ visible b' = overwritten off data (resized (off + len) (visible b)).
Proof.
  intros S c src b s len off s' data ok W B A R D.
  unfold read_stream. rewrite add64_small by exact B.
  destruct (resize_spec c b (off + len) W A) as [b1 [E [W1 [M1 V1]]]].
  rewrite E, R. destruct (N.eqb_spec (lenN data) 0) as [Z|Z].
  - destruct data as [|x data]; [|rewrite lenN_cons in Z; lia].
    exists (MBuf (mem b1) (msize b1)). split; [reflexivity|].
    rewrite overwritten_nil. rewrite <- V1. auto.
  - unfold wf_mbuf in W1. rewrite write_cells_Ok by (rewrite lenN_map; lia).
    eexists. split; [reflexivity|]. unfold wf_mbuf, visible at 1. cbn [mem msize].
    rewrite lenN_splice by (rewrite lenN_map; lia).
    split; [exact W1|]. split; [exact M1|].
    rewrite firstn_splice_gen by (rewrite ?lenN_map; lia).
    unfold overwritten. rewrite <- V1. unfold visible. rewrite map_length. reflexivity.
Qed.

Lemma read_stream_bad_alloc : forall S c (src : source S) b s len off,
  off + len < W64 -> max_alloc c < off + len -> msize b < off + len ->
  read_stream c src b s len off = (Exn E_bad_alloc, s, b).
Proof.
  intros S c src b s len off B A L. unfold read_stream.
  rewrite add64_small by exact B. rewrite resize_bad_alloc by assumption. reflexivity.
Qed.

(** C07. *)
Lemma buffer_step_refines : forall S c (src : source S) o b s,
  good_source src -> op_size o < W64 -> wf_mbuf b ->
  let '(r, s1, b1) := buffer_step c src o b s in
  wf_mbuf b1 /\ list_step c src o (visible b) s = (r, s1, visible b1).
Proof.
  intros S c src o b s G B W. unfold list_step. rewrite visible_len by exact W.
  destruct (N.leb_spec (op_size o) (max_alloc c)) as [A|A];
  destruct (N.leb_spec (op_size o) (msize b)) as [A'|A']; cbn [orb].
  1-3: destruct o as [n|off len]; cbn [op_size buffer_step] in *;
    [destruct (resize_spec c b n W) as [b' [E [W' [M V]]]]; [tauto|];
     rewrite E, V; auto
    |destruct (src_read src s len) as [[s' data] ok] eqn:R;
     destruct (G _ _ _ _ _ R) as [D _];
     destruct (read_stream_spec S c src b s len off s' data ok W B ltac:(tauto) R D)
       as [b' [E [W' [M V]]]]; rewrite E, V; auto].
  destruct o as [n|off len]; cbn [op_size buffer_step] in *.
  - rewrite resize_bad_alloc by assumption. auto.
  - rewrite read_stream_bad_alloc by assumption. auto.
Qed.

Lemma buffer_refines : forall S c (src : source S) ops b s,
  good_source src -> Forall (fun o => op_size o < W64) ops -> wf_mbuf b ->
  let '(rs, s1, b1) := buffer_run c src ops b s in
  wf_mbuf b1 /\ list_run c src ops (visible b) s = (rs, s1, visible b1).
Proof.
  intros S c src ops. induction ops as [|o ops IH]; intros b s G B W; cbn.
  - auto.
  - inversion B; subst.
    pose proof (buffer_step_refines S c src o b s G H1 W) as H.
    destruct (buffer_step c src o b s) as [[r s1] b1]. destruct H as [W1 E1].
    rewrite E1. specialize (IH b1 s1 G H2 W1).
    destruct (buffer_run c src ops b1 s1) as [[rs s2] b2]. destruct IH as [W2 E2].
    rewrite E2. auto.
Qed.

Lemma buffer_history : forall S c (src : source S) ops s,
  good_source src -> Forall (fun o => op_size o < W64) ops ->
  let '(rs, s1, b1) := buffer_run c src ops empty_mbuf s in
  msize b1 <= lenN (mem b1)
  /\ list_run c src ops [] s = (rs, s1, visible b1).
Proof. intros. apply (buffer_refines S c src ops empty_mbuf); auto. apply wf_empty. Qed.

Lemma resized_prefix : forall n l,
  lenN (resized n l) = n
  /\ firstn (Nat.min (N.to_nat n) (length l)) (resized n l)
     = firstn (Nat.min (N.to_nat n) (length l)) l.
Proof.
  intros n l. split; [apply resized_len|]. unfold resized.
  rewrite firstn_app, firstn_firstn, firstn_length.
  replace (Nat.min _ _ - _)%nat with 0%nat by lia. cbn. rewrite app_nil_r.
  f_equal. lia.
Qed.

Lemma file_source_good : good_source file_source.
Proof.
  intros s n s' data ok H. cbn in H. unfold file_read in H.
  destruct (fs_eof s || fs_fail s); [injection H as <- <- <-; cbn; split; [lia|discriminate]|].
  destruct (2 ^ 63 <=? n); [injection H as <- <- <-; cbn; split; [lia|discriminate]|].
  destruct (N.leb_spec n (lenN (fs_rest s))) as [L|L]; injection H as <- <- <-.
  - rewrite lenN_firstn. lia.
  - split; [lia|discriminate].
Qed.

(** ** Checks *)

Lemma check_exact : forall b off len,
  off + len < W64 -> (check b off len = true <-> off + len <= msize b).
Proof. intros. unfold check. rewrite add64_small by assumption. apply N.leb_le. Qed.

Lemma assert_check_partial : forall b off len, off + len < W64 ->
  (off + len <= msize b -> assert_check b off len = Ok tt)
  /\ (msize b < off + len -> assert_check b off len = Abort).
Proof.
  intros b off len B. unfold assert_check, check.
  rewrite add64_small by exact B.
  destruct (N.leb_spec (off + len) (msize b)); split; intros; try lia; reflexivity.
Qed.

Lemma check_wraps : exists b off len,
  msize b < off + len /\ off < W64 /\ len < W64 /\ assert_check b off len = Ok tt.
Proof. exists empty_mbuf, (W64 - 1), 1. vm_compute. auto. Qed.

Lemma check_terminates : exists b off len,
  off + len < W64 /\ msize b < off + len
  /\ assert_check b off len <> Exn E_invalid_buffer_access
  /\ assert_check b off len = Abort.
Proof. exists empty_mbuf, 0, 1. vm_compute. repeat split; discriminate. Qed.
