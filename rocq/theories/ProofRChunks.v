(** Proofs about the chunk sinks of the R binding. *)
From Coq Require Import Permutation.
From Verif Require Import Base Lemmas Types Float DateTime Column Header Metadata Reader SpecReader Sinks
  SpecValues ProofValues SpecSinks ProofCsv ProofPyChunks.
Local Open Scope N_scope.

(** ** Vectors *)

Lemma upd_length : forall A (l : list A) n a, length (upd n a l) = length l.
Proof. induction l as [|x l IH]; intros [|n] a; cbn; try reflexivity. rewrite IH. reflexivity. Qed.

Lemma upd_same : forall A (l : list A) n a d, (n < length l)%nat -> nth n (upd n a l) d = a.
Proof. induction l as [|x l IH]; intros [|n] a d H; cbn in *; try lia; [reflexivity|]. apply IH. lia. Qed.

Lemma upd_other : forall A (l : list A) n m a d, n <> m -> nth m (upd n a l) d = nth m l d.
Proof.
  induction l as [|x l IH]; intros [|n] [|m] a d H; cbn; try reflexivity; try congruence.
  apply IH. congruence.
Qed.

Lemma upd_app : forall A (a : list A) x y b, upd (length a) y (a ++ x :: b) = a ++ y :: b.
Proof. induction a as [|z a IH]; intros x y b; cbn; [reflexivity|]. rewrite IH. reflexivity. Qed.

(** The vector [v] has [L] elements, the first of which are [xs]. *)
Definition holds (h : rheap) (L : N) (v : nat) (xs : list rval) : Prop :=
  (v < length h)%nat /\ lenN (nth v h []) = L /\ exists rest, nth v h [] = map Some xs ++ rest.

Lemma holds_frame : forall h h' L v xs, length h' = length h -> nth v h' [] = nth v h [] ->
  holds h L v xs -> holds h' L v xs.
Proof. intros h h' L v xs H1 H2 (A & B & C). unfold holds. rewrite H1, H2. auto. Qed.

Lemma holds_extend : forall h ext L v xs, holds h L v xs -> holds (h ++ ext) L v xs.
Proof.
  intros h ext L v xs (A & B & C). unfold holds. rewrite app_nth1 by exact A. rewrite app_length.
  split; [lia|]. auto.
Qed.

Lemma store_ok : forall h L v xs x, holds h L v xs -> lenN xs < L ->
  exists h', r_store h v (lenN xs) x = Ok h' /\ holds h' L v (xs ++ [x])
    /\ length h' = length h /\ (forall w, w <> v -> nth w h' [] = nth w h []).
Proof.
  intros h L v xs x (A & B & rest & C) LT. unfold r_store.
  rewrite (nth_error_nth' h [] A), B. destruct (N.ltb_spec (lenN xs) L) as [_|K]; [|lia].
  assert (R : exists y rest', rest = y :: rest').
  { destruct rest as [|y rest']; [|eauto]. rewrite app_nil_r in C. rewrite C in B. unfold lenN in *.
    rewrite map_length in B. lia. }
  destruct R as (y & rest' & ->). eexists. split; [reflexivity|]. split; [|split].
  - unfold holds. rewrite upd_length, upd_same by exact A. split; [exact A|].
    split; [unfold lenN; rewrite upd_length; exact B|]. exists rest'. rewrite C.
    unfold lenN. rewrite Nat2N.id. rewrite <- (map_length Some xs), upd_app, map_app, <- app_assoc. reflexivity.
  - apply upd_length.
  - intros w N. apply upd_other. congruence.
Qed.

(** ** Columns *)

Definition col_ok (h : rheap) (L : N) (rows : list (N * pview)) (c : column) (v : nat) : Prop :=
  exists vals, holds h L v vals /\ Forall2 (fun r x => r_cell c (snd r) x) rows vals.

Lemma r_text_until : forall s, until_zero s (r_text s).
Proof.
  induction s as [|b s [IH1 IH2]]; [split; [exact (fun x => x)|left; reflexivity]|].
  cbn [r_text]. destruct (Byte.eqb b x00) eqn:E.
  - apply Byte.byte_dec_bl in E. subst b. split; [exact (fun x => x)|]. right. exists s. reflexivity.
  - split; [intros [->|I]; [discriminate E|exact (IH1 I)]|].
    destruct IH2 as [IH2|(r & IH2)]; [left; congruence|right; exists r; cbn; congruence].
Qed.

Lemma until_zero_unique : forall s t u, until_zero s t -> until_zero s u -> t = u.
Proof.
  assert (G : forall s t u, until_zero s t -> until_zero s u -> s = t -> t = u).
  { intros s t u [T _] [_ [->|(r & ->)]] E; [congruence|]. exfalso. apply T. rewrite <- E. apply in_elt. }
  intros s t u T U. destruct T as [T1 T2] eqn:ET. destruct T2 as [E|(r & E)]; [eapply G; eauto; congruence|].
  destruct U as [U1 [E2|(r2 & E2)]] eqn:EU; [symmetry; eapply G; eauto; congruence|].
  clear ET EU T U G. subst s. revert u U1 E2. induction t as [|b t IH]; intros u U1 E2.
  - destruct u as [|b u]; [reflexivity|]. cbn in E2. injection E2 as <- _. exfalso. apply U1. left. reflexivity.
  - destruct u as [|b' u]; cbn in E2; [injection E2 as -> _; exfalso; apply T1; left; reflexivity|].
    injection E2 as <- E2. f_equal. apply IH; [intros I; apply T1; right; exact I|intros I; apply U1; right; exact I|exact E2].
Qed.

Lemma r_val_shows : forall c p v y, cell_value c p v -> r_shows c p v y -> r_val v = Ok y.
Proof.
  intros c p v y V S. destruct v as [s|z|b|[|t]|[|d]|[|t]]; cbn [r_shows r_val] in *; try (subst y; reflexivity);
    [destruct S as (u & U & ->); rewrite (until_zero_unique _ _ _ U (r_text_until s)); reflexivity|..];
    destruct S as (x & S & ->); destruct V as [T V]; unfold c_get_datetime, c_get_date, c_get_time, c_to_string in *;
    unfold fm_to_string in S; unfold c_type, fkind_type in T;
    destruct (fm_kind (c_fm c)) eqn:K; try discriminate T; rewrite V in S; cbn [bind] in S; rewrite S; reflexivity.
Qed.

Lemma r_readable_grouped : forall cs rows, r_readable cs rows -> r_readable (grouped cs) rows.
Proof.
  intros cs rows H. eapply Forall_impl; [|exact H]. intros r F. apply Forall_forall. intros c I.
  apply grouped_known in I. destruct I as [I _]. rewrite Forall_forall in F. apply F, I.
Qed.

Lemma int32_small : forall i, i < r_rows_limit -> int32 (Z.of_N i) = Z.of_N i.
Proof. intros i H. unfold int32, r_rows_limit in *. rewrite Z.mod_small; lia. Qed.

Lemma Forall2_in_r : forall A B (R R' : A -> B -> Prop) l m,
  (forall a b, In b m -> R a b -> R' a b) -> Forall2 R l m -> Forall2 R' l m.
Proof.
  intros A B R R' l m H F. induction F; constructor.
  - apply H; [left; reflexivity|assumption].
  - apply IHF. intros a b I. apply H. right. exact I.
Qed.

Lemma push_values_ok : forall L p i rows cols vecs h, NoDup vecs -> all_known cols ->
  r_readable cols [(i, p)] -> lenN rows < L -> Forall2 (col_ok h L rows) cols vecs ->
  exists h', r_push_values h cols vecs (lenN rows) p = Ok h'
    /\ Forall2 (col_ok h' L (rows ++ [(i, p)])) cols vecs
    /\ length h' = length h /\ (forall w, ~ In w vecs -> nth w h' [] = nth w h []).
Proof.
  intros L p i rows cols. induction cols as [|c cols IH]; intros vecs h ND K RD LT F.
  - inversion F; subst. exists h. cbn. auto.
  - inversion F as [|? v ? vecs' F1 F2]; subst. inversion ND as [|? ? N1 N2]; subst.
    inversion K as [|? ? K1 K2]; subst. inversion RD as [|? ? RD1 _]; subst. cbn [snd] in RD1.
    inversion RD1 as [|? ? C1 C2]; subst. destruct (C1 K1) as [y (x & X & Y)]. cbn [r_push_values].
    rewrite (proj2 (group_value_cell c p x K1) X). cbn [bind]. rewrite (r_val_shows _ _ _ _ X Y). cbn [bind].
    destruct F1 as (vals & HV & FV).
    assert (LV : lenN vals = lenN rows).
    { unfold lenN. rewrite <- (Forall2_len _ _ _ _ _ FV). reflexivity. }
    destruct (store_ok h L v _ y HV) as (h1 & S1 & S2 & S3 & S4); [lia|].
    rewrite LV in S1. rewrite S1. cbn [bind].
    destruct (IH vecs' h1 N2 K2) as (h' & P1 & P2 & P3 & P4); auto.
    { constructor; [exact C2|constructor]. }
    { eapply Forall2_in_r; [|exact F2]. intros a b Ib (w & W1 & W2). exists w. split; [|exact W2].
      apply (holds_frame h); [exact S3| |exact W1]. apply S4. intros ->. contradiction. }
    exists h'. split; [exact P1|]. split; [|split].
    + constructor; [|exact P2]. exists (vals ++ [y]). split.
      * apply (holds_frame h1); [exact P3|apply P4, N1|exact S2].
      * apply Forall2_app; [exact FV|]. constructor; [exists x; auto|constructor].
    + rewrite P3. exact S3.
    + intros w NI. rewrite P4, S4; [reflexivity| |]; intros H; apply NI; [left|right]; auto.
Qed.

(** ** Delivery *)

Lemma holds_firstn : forall h L v xs, holds h L v xs -> firstn (length xs) (nth v h []) = map Some xs.
Proof.
  intros h L v xs (_ & _ & rest & ->). rewrite <- (map_length Some xs), firstn_app, firstn_all, Nat.sub_diag.
  cbn. apply app_nil_r.
Qed.

Lemma set_values_ok : forall n vecs h, Forall (fun v => (v < length h)%nat) vecs ->
  exists ext ws, r_set_values h vecs n = (ws, h ++ ext)
    /\ Forall2 (fun v w => nth w (h ++ ext) [] = firstn (N.to_nat n) (nth v h [])) vecs ws.
Proof.
  intros n vecs. induction vecs as [|v vecs IH]; intros h F; cbn [r_set_values].
  - exists [], []. rewrite app_nil_r. split; [reflexivity|constructor].
  - inversion F as [|? ? F1 F2]; subst. destruct (N.eqb_spec n (lenN (nth v h []))) as [E|E].
    + destruct (IH h F2) as (ext & ws & R & W). rewrite R. exists ext, (v :: ws). split; [reflexivity|].
      constructor; [|exact W]. rewrite app_nth1 by exact F1. subst n. unfold lenN. rewrite Nat2N.id, firstn_all.
      reflexivity.
    + unfold r_resize. set (cp := firstn (N.to_nat n) (nth v h [])).
      destruct (IH (h ++ [cp])) as (ext & ws & R & W).
      { eapply Forall_impl; [|exact F2]. intros w Hw. cbn in Hw. rewrite app_length. lia. }
      rewrite R. exists (cp :: ext), (length h :: ws). rewrite <- app_assoc in *. cbn [app] in *.
      split; [reflexivity|]. constructor; [rewrite app_nth2, Nat.sub_diag by lia; reflexivity|].
      clear -W F2. induction W; constructor; [|apply IHW; inversion F2; assumption].
      rewrite H. inversion F2; subst. rewrite app_nth1 by assumption. reflexivity.
Qed.

(** The state between two calls: the rows kept are [pend], the vectors have [L]
    elements. *)
Record r_ok (cs : list column) (size last L : N) (pend : list (N * pview)) (s : rstate_sink) : Prop := {
  ro_size : r_size s = size;
  ro_last : r_ilast s = last;
  ro_cols : r_cols s = grouped cs;
  ro_idata : r_idata s = lenN pend;
  ro_nodup : NoDup (r_index s :: r_vecs s);
  ro_index : holds (r_heap s) L (r_index s) (map (fun r => RInt (Z.of_N (fst r))) pend);
  ro_vecs : Forall2 (col_ok (r_heap s) L pend) (grouped cs) (r_vecs s)
}.

Lemma col_ok_lt : forall h L rows cols vecs, Forall2 (col_ok h L rows) cols vecs ->
  Forall (fun v => (v < length h)%nat) vecs.
Proof. intros h L rows cols vecs F. induction F as [|c v cols vecs (vals & (A & _) & _) F IH]; constructor; auto. Qed.

Lemma deliver_ok : forall cs size last L pend s, r_ok cs size last L pend s ->
  exists s' k, r_deliver s = (s', k) /\ r_data (grouped cs) pend k
    /\ r_size s' = size /\ r_ilast s' = last /\ r_cols s' = grouped cs /\ r_idata s' = lenN pend
    /\ r_istart s' = r_istart s /\ r_iend s' = r_iend s
    /\ (lenN pend = L -> r_ok cs size last L [] (r_with s' 0 (r_iend s' +! 1) (r_iend s') (r_index s') (r_heap s'))).
Proof.
  intros cs size last L pend s [A1 A2 A3 A4 ND HI HV].
  pose proof (holds_firstn _ _ _ _ HI) as FI. rewrite map_length in FI.
  destruct HI as (IL & IN & IR).
  assert (E1 : exists ext1 ix, (if r_idata s =? lenN (nth (r_index s) (r_heap s) []) then (r_index s, r_heap s)
                 else r_resize (r_heap s) (r_index s) (r_idata s)) = (ix, r_heap s ++ ext1)
             /\ (ix < length (r_heap s ++ ext1))%nat
             /\ nth ix (r_heap s ++ ext1) [] = map Some (map (fun r => RInt (Z.of_N (fst r))) pend)
             /\ (lenN pend = L -> ix = r_index s)).
  { rewrite A4, IN. destruct (N.eqb_spec (lenN pend) L) as [E|E].
    - exists [], (r_index s). rewrite app_nil_r. split; [reflexivity|]. split; [exact IL|].
      split; [|reflexivity]. rewrite <- FI. symmetry. rewrite firstn_all2; [reflexivity|].
      unfold lenN in *. lia.
    - unfold r_resize. eexists _, (length (r_heap s)). split; [reflexivity|].
      split; [rewrite app_length; cbn; lia|].
      split; [|contradiction]. rewrite app_nth2, Nat.sub_diag by lia. cbn [nth].
      unfold lenN. rewrite Nat2N.id. exact FI. }
  destruct E1 as (ext1 & ix & E1 & IXL & E2 & E3).
  destruct (set_values_ok (r_idata s) (r_vecs s) (r_heap s ++ ext1)) as (ext2 & ws & SV & W).
  { eapply Forall_impl; [|exact (col_ok_lt _ _ _ _ _ HV)]. intros v Hv. cbn in Hv. rewrite app_length. lia. }
  unfold r_deliver. rewrite E1, SV. eexists _, _. split; [reflexivity|]. split.
  { split; cbn [rc_index_seen rc_rows_seen].
    - rewrite app_nth1 by exact IXL. rewrite E2, map_map. reflexivity.
    - assert (G : Forall2 (fun c vec => Forall2 (fun r x => exists y, r_cell c (snd r) y /\ x = Some y) pend vec)
                    (grouped cs) (map (fun v => firstn (N.to_nat (r_idata s)) (nth v (r_heap s) [])) (r_vecs s))).
      { clear -HV A4. induction HV as [|c v cols vecs H F IH]; cbn [map]; constructor; [|exact IH].
        destruct H as (vals & H & FV). apply holds_firstn in H.
        rewrite A4. unfold lenN. rewrite Nat2N.id, (Forall2_len _ _ _ _ _ FV), H.
        clear -FV. induction FV; cbn [map]; constructor; [|exact IHFV]. eauto. }
      replace (map (fun w => nth w ((r_heap s ++ ext1) ++ ext2) []) ws)
        with (map (fun v => firstn (N.to_nat (r_idata s)) (nth v (r_heap s) [])) (r_vecs s)); [exact G|].
      clear -W HV. pose proof (col_ok_lt _ _ _ _ _ HV) as LT. clear HV.
      induction W; cbn [map]; [reflexivity|]. inversion LT; subst.
      rewrite H, IHW by assumption. rewrite app_nth1 by assumption. reflexivity. }
  cbn [r_with r_size r_ilast r_cols r_idata r_istart r_iend r_index r_heap r_vecs].
  do 6 (split; [assumption || reflexivity|]).
  intros EL. rewrite (E3 EL).
  constructor; cbn [r_with r_size r_ilast r_cols r_idata r_istart r_iend r_index r_heap r_vecs]; auto.
  - do 2 apply holds_extend. split; [exact IL|]. split; [exact IN|]. eexists. reflexivity.
  - eapply Forall2_in_r; [|exact HV]. intros c v _ (vals & (B1 & B2 & _) & _). exists [].
    split; [|constructor]. do 2 apply holds_extend. split; [exact B1|]. split; [exact B2|]. eexists. reflexivity.
Qed.

(** New vectors. *)
Lemma allocs_ok : forall n cols h, exists ext vs, r_allocs h cols n = (vs, h ++ ext)
  /\ NoDup vs /\ Forall (fun v => (length h <= v)%nat) vs
  /\ Forall2 (col_ok (h ++ ext) n []) cols vs.
Proof.
  intros n cols. induction cols as [|c cols IH]; intros h; cbn [r_allocs].
  - exists [], []. rewrite app_nil_r. repeat split; constructor.
  - cbn [r_alloc]. destruct (IH (h ++ [repeat None (N.to_nat n)])) as (ext & vs & R & ND & GE & F).
    unfold r_alloc. rewrite R. exists (repeat None (N.to_nat n) :: ext), (length h :: vs).
    rewrite <- app_assoc in *. cbn [app] in *. split; [reflexivity|]. split; [|split].
    + constructor; [|exact ND]. intros I. rewrite Forall_forall in GE. apply GE in I.
      rewrite app_length in I. cbn in I. lia.
    + constructor; [lia|]. eapply Forall_impl; [|exact GE]. intros v Hv. cbn in Hv. rewrite app_length in Hv. lia.
    + constructor; [|exact F]. exists []. split; [|constructor]. unfold holds.
      rewrite app_nth2, Nat.sub_diag by lia. cbn [nth]. split; [rewrite app_length; cbn; lia|].
      split; [unfold lenN; rewrite repeat_length; lia|]. eexists. reflexivity.
Qed.

Lemma prepare_ok : forall cs size last n s, r_size s = size -> r_ilast s = last -> r_cols s = grouped cs ->
  r_idata s = 0 ->
  r_ok cs size last n [] (r_prepare s n)
  /\ r_istart (r_prepare s n) = r_istart s /\ r_iend (r_prepare s n) = r_iend s.
Proof.
  intros cs size last n s A1 A2 A3 A4. unfold r_prepare, r_alloc.
  destruct (allocs_ok n (r_cols s) (r_heap s ++ [repeat None (N.to_nat n)])) as (ext & vs & R & ND & GE & F).
  rewrite R. split; [|split; reflexivity].
  constructor; cbn [r_size r_ilast r_cols r_idata r_istart r_iend r_index r_heap r_vecs]; auto.
  - constructor; [|exact ND]. intros I. rewrite Forall_forall in GE. apply GE in I.
    rewrite app_length in I. cbn in I. lia.
  - apply holds_extend. unfold holds. rewrite app_nth2, Nat.sub_diag by lia. cbn [nth].
    split; [rewrite app_length; cbn; lia|]. split; [unfold lenN; rewrite repeat_length; lia|]. eexists. reflexivity.
  - rewrite <- A3. exact F.
Qed.

(** ** Pushing rows *)

Lemma base_push_ok : forall cs size last L pend s i p, r_ok cs size last L pend s ->
  r_readable cs [(i, p)] -> i < r_rows_limit -> lenN pend < L -> lenN pend + 1 < W64 ->
  exists s', r_base_push s i p = Ok s' /\ r_ok cs size last L (pend ++ [(i, p)]) s'
    /\ r_istart s' = r_istart s /\ r_iend s' = r_iend s.
Proof.
  intros cs size last L pend s i p [A1 A2 A3 A4 ND HI HV] RD IL LT B. unfold r_base_push.
  rewrite (int32_small i IL).
  assert (LI : lenN (map (fun r : N * pview => RInt (Z.of_N (fst r))) pend) = lenN pend) by (unfold lenN; rewrite map_length; reflexivity).
  destruct (store_ok _ _ _ _ (RInt (Z.of_N i)) HI) as (h1 & S1 & S2 & S3 & S4); [lia|].
  rewrite LI in S1. rewrite A4, S1. cbn [bind]. inversion ND as [|? ? N1 N2]; subst.
  destruct (push_values_ok L p i pend (grouped cs) (r_vecs s) h1 N2 (grouped_all_known cs)) as (h2 & P1 & P2 & P3 & P4); auto.
  { apply r_readable_grouped, RD. }
  { eapply Forall2_in_r; [|exact HV]. intros c v I (vals & W1 & W2). exists vals. split; [|exact W2].
    apply (holds_frame (r_heap s)); [exact S3| |exact W1]. apply S4. intros ->. contradiction. }
  rewrite A3, P1. cbn [bind]. eexists. split; [reflexivity|].
  cbn [r_with r_istart r_iend]. split; [|split; reflexivity].
  constructor; cbn [r_with r_size r_ilast r_cols r_idata r_istart r_iend r_index r_heap r_vecs]; auto.
  - rewrite add64_small by exact B. rewrite lenN_app1. reflexivity.
  - rewrite map_app. apply (holds_frame h1); [exact P3|apply P4, N1|exact S2].
Qed.

(** The length of the vectors: full chunks until the last one, which is as long as
    what remains. *)
Definition sized (size last L istart : N) : Prop :=
  (size <> 0 /\ L = size) \/ (L = last - istart /\ (size = 0 \/ last < istart + size)) \/ last <= istart.

Lemma r_feed : forall cs size last, last <= r_rows_limit ->
  forall rows next L pend s calls, r_ok cs size last L pend s ->
  sized size last L (r_istart s) -> small size pend ->
  r_istart s + lenN pend <= next ->
  (forall l i, map fst pend = l ++ [i] -> r_iend s = i /\ r_istart s <= i < last) ->
  r_readable cs rows -> increasing next last rows ->
  exists s' new cks pend' L',
    feed rchunk_step (s, calls) (pushes rows) = Ok (s', calls ++ new)
    /\ r_ok cs size last L' pend' s' /\ small size pend'
    /\ pend ++ rows = concat cks ++ pend'
    /\ Forall2 (r_data (grouped cs)) cks new
    /\ Forall (fun ch => ch <> []) cks
    /\ Forall (fun ch => lenN ch = size) cks
    /\ (forall l i, map fst pend' = l ++ [i] -> r_iend s' = i /\ r_istart s' <= i < last).
Proof.
  intros cs size last BL rows.
  assert (BW : 2 * last < W64) by (unfold W64, r_rows_limit in *; lia). induction rows as [|[i p] rows IH];
    intros next L pend s calls OKs SZ SM NX EN RD INC.
  - exists s, [], [], pend, L. cbn [pushes map feed]. rewrite !app_nil_r.
    split; [reflexivity|]. split; [exact OKs|]. split; [exact SM|]. split; [reflexivity|].
    repeat (split; [constructor|]). exact EN.
  - cbn [increasing] in INC. destruct INC as [[I1 I2] INC].
    change ((i, p) :: rows) with ([(i, p)] ++ rows) in RD. apply Forall_app in RD. destruct RD as [RD1 RD2].
    assert (LL : lenN pend < L).
    { destruct SZ as [[S1 ->]|[[-> S1]|S1]]; [apply SM, S1|lia|lia]. }
    destruct (base_push_ok cs size last L pend s i p OKs RD1 ltac:(lia) LL) as (s1 & P1 & OK1 & IS1 & IE1); [lia|].
    cbn [pushes map feed rchunk_step fst snd]. unfold r_push_row. rewrite P1. cbn [bind].
    set (s2 := r_with s1 (r_idata s1) (r_istart s1) i (r_index s1) (r_heap s1)).
    assert (OK2 : r_ok cs size last L (pend ++ [(i, p)]) s2).
    { destruct OK1. constructor; cbn; auto. }
    rewrite (ro_idata _ _ _ _ _ _ OK2), (ro_size _ _ _ _ _ _ OK2), lenN_app1.
    destruct (N.eqb_spec (lenN pend + 1) size) as [EZ|NZ].
    + assert (EL : L = size).
      { destruct SZ as [[_ S1]|[[-> [S1|S1]]|S1]]; [exact S1|lia|lia|lia]. }
      assert (LP : lenN (pend ++ [(i, p)]) = L) by (rewrite lenN_app1; lia).
      destruct (deliver_ok cs size last L _ s2 OK2) as (s3 & k & D1 & D2 & D3 & D4 & D5 & D6 & D7 & D8 & D9).
      specialize (D9 LP). unfold r_flush. rewrite (ro_idata _ _ _ _ _ _ OK2), lenN_app1.
      change (r_iend s2) with i in *. change (r_istart s2) with (r_istart s1) in *.
      destruct (N.ltb_spec i (r_istart s1)) as [K|_]; [lia|].
      destruct (N.eqb_spec (lenN pend + 1) 0) as [K|_]; [lia|]. cbn [orb].
      rewrite D1. set (s4 := r_with s3 0 (r_iend s3 +! 1) (r_iend s3) (r_index s3) (r_heap s3)) in *.
      assert (IS4 : r_istart s4 = i + 1).
      { cbn. rewrite D8. apply add64_small. lia. }
      rewrite (ro_size _ _ _ _ _ _ D9), (ro_last _ _ _ _ _ _ D9), IS4.
      assert (NEXT : exists s5 L5, (if (last <? i + 1 +! size) && (i + 1 <? last)
          then Ok (r_prepare s4 (last -! (i + 1)), [k]) else Ok (s4, [k])) = Ok (s5, [k])
          /\ r_ok cs size last L5 [] s5 /\ sized size last L5 (r_istart s5) /\ r_istart s5 = i + 1).
      { rewrite add64_small by lia.
        destruct (N.ltb_spec last (i + 1 + size)) as [T1|T1];
          [destruct (N.ltb_spec (i + 1) last) as [T2|T2]|]; cbn [andb].
        - destruct (prepare_ok cs size last (last -! (i + 1)) s4) as (Q1 & Q2 & Q3);
            [apply (ro_size _ _ _ _ _ _ D9)|apply (ro_last _ _ _ _ _ _ D9)|apply (ro_cols _ _ _ _ _ _ D9)|
             apply (ro_idata _ _ _ _ _ _ D9)|].
          eexists _, _. split; [reflexivity|]. split; [exact Q1|]. rewrite Q2, IS4. split; [|reflexivity].
          right. left. split; [|right; exact T1]. apply sub64_small; lia.
        - eexists _, _. split; [reflexivity|]. split; [exact D9|]. rewrite IS4. split; [|reflexivity].
          right. right. exact T2.
        - eexists _, _. split; [reflexivity|]. split; [exact D9|]. rewrite IS4. split; [|reflexivity].
          left. split; [lia|exact EL]. }
      destruct NEXT as (s5 & L5 & N1 & N2 & N3 & N4). rewrite N1. cbn [bind].
      destruct (IH (i + 1) L5 [] s5 (calls ++ [k])) as (s' & new & cks & pend' & L' & G1 & G2 & G3 & G4 & G5 & G6 & G7 & G8); auto.
      { intros HZ. change (lenN (@nil (N * pview))) with 0. lia. }
      { rewrite N4. change (lenN (@nil (N * pview))) with 0. lia. }
      { intros [|? ?] j H; discriminate. }
      exists s', (k :: new), ((pend ++ [(i, p)]) :: cks), pend', L'.
      split; [unfold pushes in G1; rewrite G1, <- app_assoc; reflexivity|].
      split; [exact G2|]. split; [exact G3|].
      split; [cbn [concat]; cbn [app] in G4; rewrite <- (app_assoc _ (concat cks)), <- G4, <- app_assoc; reflexivity|].
      split; [constructor; assumption|]. split; [constructor; [destruct pend; discriminate|exact G6]|].
      split; [constructor; [lia|exact G7]|]. exact G8.
    + cbn [bind]. rewrite app_nil_r.
      destruct (IH (i + 1) L (pend ++ [(i, p)]) s2 calls) as (s' & new & cks & pend' & L' & G1 & G2 & G3 & G4 & G5 & G6 & G7 & G8); auto.
      { change (r_istart s2) with (r_istart s1). rewrite IS1. exact SZ. }
      { intros HZ. rewrite lenN_app1. specialize (SM HZ). lia. }
      { change (r_istart s2) with (r_istart s1). rewrite IS1, lenN_app1. lia. }
      { intros l j H. rewrite map_app in H. cbn [map fst] in H. apply app_inj_tail in H. destruct H as [_ <-].
        change (r_istart s2) with (r_istart s1). rewrite IS1. split; [reflexivity|lia]. }
      exists s', new, cks, pend', L'. rewrite <- app_assoc in G4.
      split; [exact G1|]. split; [exact G2|]. split; [exact G3|]. split; [exact G4|].
      split; [exact G5|]. split; [exact G6|]. split; [exact G7|]. exact G8.
Qed.

Lemma r_ends : forall k s calls, r_idata s = 0 ->
  feed rchunk_step (s, calls) (repeat EvEnd k) = Ok (s, calls).
Proof.
  intros k s calls H. revert calls. induction k as [|k IH]; intros calls; [reflexivity|].
  cbn [repeat feed rchunk_step]. unfold r_flush. rewrite H. rewrite orb_true_r. cbn [bind].
  rewrite app_nil_r. apply IH.
Qed.

Lemma r_start : forall size md, exists L,
  r_ok (md_columns md) size (md_row_count md) L [] (r_props (rsink_new size) md)
  /\ sized size (md_row_count md) L 0 /\ r_istart (r_props (rsink_new size) md) = 0
  /\ (size = 0 -> L = md_row_count md).
Proof.
  intros size md. unfold r_props. cbn [rsink_new r_size r_idata r_istart r_iend r_index r_vecs r_heap].
  destruct (prepare_ok (md_columns md) size (md_row_count md)
              (if size =? 0 then md_row_count md else N.min size (md_row_count md))
              (RSink size 0 (md_row_count md) 0 0 (grouped (md_columns md)) 0 [] [[]]))
    as (Q1 & Q2 & Q3); try reflexivity.
  eexists. split; [exact Q1|]. rewrite Q2. split; [|split; [reflexivity|]].
  - unfold sized. cbn [r_istart]. destruct (N.eqb_spec size 0) as [E|E]; lia.
  - intros ->. reflexivity.
Qed.

Lemma r_chunks : forall size h md rows k, md_row_count md <= r_rows_limit ->
  r_readable (md_columns md) rows -> increasing 0 (md_row_count md) rows ->
  exists s calls cks,
    feed rchunk_step (rsink_new size, []) (EvProps h md :: pushes rows ++ repeat EvEnd (Datatypes.S k)) = Ok (s, calls)
    /\ chunked size rows cks
    /\ Forall2 (r_data (grouped (md_columns md))) cks calls.
Proof.
  intros size h md rows k BL RD INC. set (cs := md_columns md) in *. set (last := md_row_count md) in *.
  cbn [feed rchunk_step bind].
  destruct (r_start size md) as (L & OK0 & SZ & IS0 & _). fold cs last in OK0, SZ.
  destruct (r_feed cs size last BL rows 0 L [] (r_props (rsink_new size) md) [])
    as (s1 & new & cks & pend & L' & G1 & G2 & G3 & G4 & G5 & G6 & G7 & G8); auto.
  { rewrite IS0. exact SZ. }
  { intros HZ. change (lenN (@nil (N * pview))) with 0. lia. }
  { rewrite IS0. reflexivity. }
  { intros [|? ?] j H; discriminate. }
  cbn [app] in G1, G4. rewrite feed_app, G1. cbn [bind].
  destruct pend as [|r0 pend0].
  - rewrite app_nil_r in G4.
    rewrite r_ends by (apply (ro_idata _ _ _ _ _ _ G2)).
    exists s1, new, cks. split; [reflexivity|]. split; [|exact G5].
    split; [exact G4|]. split; [exact G6|]. split.
    + clear -G7. induction G7 as [|ch cks H1 H2 IH]; [constructor|].
      cbn [removelast]. destruct cks; constructor; assumption.
    + intros _. eapply Forall_impl; [|exact G7]. cbn. intros; lia.
  - destruct (deliver_ok cs size last L' _ s1 G2) as (s3 & c & D1 & D2 & D3 & D4 & D5 & D6 & D7 & D8 & D9).
    assert (NE : r0 :: pend0 <> []) by discriminate.
    destruct (exists_last NE) as (pre & [i p] & PE).
    destruct (G8 (map fst pre) i) as [E1 E2]; [rewrite PE, map_app; reflexivity|].
    cbn [repeat feed rchunk_step]. unfold r_flush. rewrite (ro_idata _ _ _ _ _ _ G2), E1.
    destruct (N.ltb_spec i (r_istart s1)) as [K|_]; [lia|].
    destruct (N.eqb_spec (lenN (r0 :: pend0)) 0) as [K|_]; [unfold lenN in K; cbn in K; lia|]. cbn [orb].
    rewrite D1. cbn [bind]. rewrite r_ends by reflexivity.
    exists (r_with s3 0 (r_iend s3 +! 1) (r_iend s3) (r_index s3) (r_heap s3)), (new ++ [c]), (cks ++ [r0 :: pend0]).
    split; [reflexivity|]. split; [|apply Forall2_app; [exact G5|constructor; [exact D2|constructor]]].
    split; [rewrite concat_app; cbn [concat]; rewrite app_nil_r; exact G4|].
    split; [apply Forall_app; split; [exact G6|constructor; [discriminate|constructor]]|].
    split; [rewrite removelast_last; exact G7|].
    intros HZ. apply Forall_app. split.
    + eapply Forall_impl; [|exact G7]. cbn. intros; lia.
    + constructor; [|constructor]. specialize (G3 HZ). lia.
Qed.

(** ** SinkData *)

Lemma rdata_feed : forall cs last, last <= r_rows_limit ->
  forall rows next pend s calls, r_ok cs 0 last last pend s -> lenN pend <= next ->
  r_readable cs rows -> increasing next last rows ->
  exists s', feed rdata_step (s, calls) (pushes rows) = Ok (s', calls)
    /\ r_ok cs 0 last last (pend ++ rows) s'.
Proof.
  intros cs last BL rows.
  assert (BW : 2 * last < W64) by (unfold W64, r_rows_limit in *; lia). induction rows as [|[i p] rows IH]; intros next pend s calls OKs NX RD INC.
  - exists s. rewrite app_nil_r. split; [reflexivity|exact OKs].
  - cbn [increasing] in INC. destruct INC as [[I1 I2] INC].
    change ((i, p) :: rows) with ([(i, p)] ++ rows) in *. apply Forall_app in RD. destruct RD as [RD1 RD2].
    destruct (base_push_ok cs 0 last last pend s i p OKs RD1) as (s1 & P1 & OK1 & IS1 & IE1); [lia|lia|lia|].
    cbn [app pushes map feed rdata_step fst snd]. rewrite P1. cbn [bind].
    destruct (IH (i + 1) (pend ++ [(i, p)]) s1 calls OK1) as (s' & F & G); auto.
    { rewrite lenN_app1. lia. }
    exists s'. rewrite <- app_assoc in G. split; [exact F|exact G].
Qed.

Lemma r_data_all : forall h md rows, md_row_count md <= r_rows_limit ->
  r_readable (md_columns md) rows -> increasing 0 (md_row_count md) rows ->
  exists s calls,
    feed rdata_step (rsink_new 0, []) (EvProps h md :: pushes rows ++ [EvEnd]) = Ok (s, calls)
    /\ r_delivered (grouped (md_columns md)) rows calls.
Proof.
  intros h md rows BL RD INC. cbn [feed rdata_step bind].
  destruct (r_start 0 md) as (L & OK0 & SZ & IS0 & LE). rewrite (LE eq_refl) in OK0.
  destruct (rdata_feed (md_columns md) (md_row_count md) BL rows 0 [] _ [] OK0) as (s1 & F & OK1); auto.
  { reflexivity. }
  cbn [app] in OK1. rewrite feed_app, F. cbn [bind feed rdata_step].
  rewrite (ro_idata _ _ _ _ _ _ OK1). destruct rows as [|r rows].
  - exists s1, []. split; reflexivity.
  - destruct (N.eqb_spec (lenN (r :: rows)) 0) as [K|_]; [unfold lenN in K; cbn in K; lia|].
    destruct (deliver_ok _ _ _ _ _ _ OK1) as (s3 & c & D1 & D2 & _). rewrite D1. cbn [bind app].
    eexists _, _. split; [reflexivity|]. exists c. split; [reflexivity|exact D2].
Qed.
