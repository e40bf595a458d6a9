(** Proofs about Column objects. *)
From Verif Require Import Base Types Column Lemmas Sinks Reader ProofObjects ColObjects SpecColObjects.
From Coq Require Import ZifyBool ZifyNat ZifyN.
Local Open Scope N_scope.

Definition own1 (a : nat) (o : option cobj) : N := if owns a o then 1 else 0.

Lemma owners_snoc : forall a l o, owners a (l ++ [o]) = owners a l + own1 a o.
Proof.
  intros a l o. unfold owners, own1. rewrite filter_app, lenN_app. cbn [filter].
  destruct (owns a o); reflexivity.
Qed.

Lemma owners_upd : forall a l v o, (v < length l)%nat ->
  owners a (upd v o l) + own1 a (nth v l None) = owners a l + own1 a o.
Proof.
  intros a l. unfold owners, own1. induction l as [|x l IH]; intros [|v] o H; cbn [length] in H; try lia;
    cbn [upd nth filter].
  - destruct (owns a o), (owns a x); rewrite ?lenN_cons; lia.
  - specialize (IH v o ltac:(lia)). destruct (owns a x); rewrite ?lenN_cons; lia.
Qed.

Lemma owners_nth : forall a l v, owns a (nth v l None) = true -> 0 < owners a l.
Proof.
  intros a l. unfold owners. induction l as [|x l IH]; intros [|v] H; cbn [nth] in H; try discriminate;
    cbn [filter].
  - rewrite H, lenN_cons. lia.
  - specialize (IH v H). destruct (owns a x); rewrite ?lenN_cons; lia.
Qed.

Lemma owners_none : forall a l, owners a l = 0 -> forall v, owns a (nth v l None) = false.
Proof.
  intros a l H v. destruct (owns a (nth v l None)) eqn:E; [|reflexivity].
  apply owners_nth in E. lia.
Qed.

Lemma nth_some_lt : forall A v (l : list (option A)) o, nth v l None = Some o -> (v < length l)%nat.
Proof.
  intros A v l o H. destruct (Nat.lt_ge_cases v (length l)) as [L|L]; [exact L|].
  rewrite nth_overflow in H by exact L. discriminate.
Qed.

(** Each formatter has as many owners as it counts, and is destroyed when it has none. *)
Definition counted_ok (w : cworld) : Prop := forall a,
  match nth a (cw_models w) None with
  | Some (_, n) => owners a (cw_vars w) = n /\ 0 < n
  | None => owners a (cw_vars w) = 0
  end.

(** A column object and the plain column. *)
Definition stands (models : list (option (fm_arg * N))) (o : option cobj) (c : option pcol) : Prop :=
  match o, c with
  | Some o, Some c =>
      co_name o = pc_name c /\ co_label o = pc_label c /\ co_format o = pc_format c /\ co_type o = pc_type c
      /\ match co_pimpl o, pc_fm c with
         | Some a, Some k => exists n, nth a models None = Some (k, n)
         | None, None => True
         | _, _ => False
         end
  | None, None => True
  | _, _ => False
  end.

Definition worlds (w : cworld) (q : pworld) : Prop :=
  counted_ok w /\ cw_named w = snd q /\ length (cw_vars w) = length (fst q)
  /\ forall v, stands (cw_models w) (nth v (cw_vars w) None) (nth v (fst q) None).

Lemma stands_models : forall m m' o c, stands m o c ->
  (forall a k n, owns a o = true -> nth a m None = Some (k, n) -> exists n', nth a m' None = Some (k, n')) ->
  stands m' o c.
Proof.
  intros m m' [o|] [c|] H M; cbn [stands] in *; try exact H.
  destruct H as (A & B & C & D & E). split; [exact A|]. split; [exact B|]. split; [exact C|]. split; [exact D|].
  cbn [owns] in M. destruct (co_pimpl o) as [a|], (pc_fm c) as [k|]; try exact E.
  destruct E as [n E]. exact (M a k n (Nat.eqb_refl a) E).
Qed.

Lemma worlds_start : worlds no_columns ([], []).
Proof.
  split; [|split; [reflexivity|split; [reflexivity|]]].
  - intros a. cbn. destruct a; reflexivity.
  - intros v. cbn. destruct v; exact Logic.I.
Qed.

Lemma exec_plain : forall A (st : cstmt A) w q, worlds w q ->
  fst (cexec st w) = fst (pexec st q) /\ worlds (snd (cexec st w)) (snd (pexec st q)).
Proof.
  intros A st [models vars named] [pvars pnamed] (CO & NM & LE & ST).
  unfold counted_ok in CO. cbn [cw_models cw_vars cw_named fst snd] in *. subst pnamed.
  assert (SAME : worlds (CWorld models vars named) (pvars, named)).
  { split; [exact CO|]. split; [reflexivity|]. split; [exact LE|exact ST]. }
  destruct st as [fm|n|name label fmt k|v|v|v|v g|v v2|v]; cbn [cexec pexec cw_models cw_vars cw_named].
  - split; [reflexivity|]. split; [exact CO|]. split; [reflexivity|]. split; [exact LE|exact ST].
  - destruct (nth n named None); cbn [fst snd]; (split; [reflexivity|]); [|exact SAME].
    split; [exact CO|]. split; [reflexivity|]. split; [exact LE|exact ST].
  - destruct (fm_now named k) as [fm|]; cbn [fst snd]; (split; [reflexivity|]); [|exact SAME].
    assert (Z : owners (length models) vars = 0).
    { specialize (CO (length models)). rewrite nth_overflow in CO by apply Nat.le_refl. exact CO. }
    split; [|split; [reflexivity|split; [cbn [cw_vars fst]; rewrite !app_length, LE; reflexivity|]]].
    + intros a. cbn [cw_models cw_vars]. rewrite nth_snoc, owners_snoc. unfold own1. cbn [owns co_pimpl].
      destruct (Nat.eqb_spec a (length models)) as [->|N].
      * rewrite Z. lia.
      * specialize (CO a). destruct (nth a models None) as [[k' n]|]; lia.
    + intros v. cbn [cw_models cw_vars fst]. rewrite !nth_snoc, <- LE. destruct (Nat.eqb_spec v (length vars)) as [->|N].
      * cbn [stands co_name co_label co_format co_type co_pimpl pc_name pc_label pc_format pc_type pc_fm].
        repeat (split; [reflexivity|]). exists 1. rewrite nth_snoc, Nat.eqb_refl. reflexivity.
      * apply (stands_models models); [apply ST|]. intros a k' n _ M. exists n.
        rewrite app_nth1; [exact M|]. eapply nth_some_lt. exact M.
  - pose proof (ST v) as SV. destruct (nth v vars None) as [o|] eqn:V, (nth v pvars None) as [c|];
      cbn [stands] in SV; try contradiction; cbn [fst snd]; (split; [reflexivity|]); [|exact SAME].
    assert (SH : forall a, nth a (share (co_pimpl o) models) None
              = match nth a models None with
                | Some (k, n) => Some (k, n + own1 a (Some o))
                | None => None end).
    { intros a. unfold share, own1. cbn [owns]. destruct SV as (_ & _ & _ & _ & SV).
      destruct (co_pimpl o) as [b|].
      - destruct (pc_fm c) as [k|]; [|contradiction]. destruct SV as [n SV]. rewrite SV.
        rewrite nth_upd by (eapply nth_some_lt; exact SV).
        destruct (Nat.eqb_spec a b) as [->|N]; [rewrite SV; reflexivity|].
        destruct (nth a models None) as [[k' n']|]; [rewrite N.add_0_r|]; reflexivity.
      - destruct (nth a models None) as [[k' n']|]; [rewrite N.add_0_r|]; reflexivity. }
    split; [|split; [reflexivity|split; [cbn [cw_vars fst]; rewrite !app_length, LE; reflexivity|]]].
    + intros a. cbn [cw_models cw_vars]. rewrite SH, owners_snoc. specialize (CO a).
      destruct (nth a models None) as [[k n]|] eqn:M; [lia|].
      rewrite CO. unfold own1. rewrite <- V, (owners_none a vars CO v). reflexivity.
    + intros u. cbn [cw_models cw_vars fst]. rewrite !nth_snoc, <- LE. destruct (Nat.eqb_spec u (length vars)) as [->|N].
      * apply (stands_models models); [exact SV|]. intros a k n _ M. rewrite SH, M. eauto.
      * apply (stands_models models); [apply ST|]. intros a k n _ M. rewrite SH, M. eauto.
  - pose proof (ST v) as SV. destruct (nth v vars None) as [o|] eqn:V, (nth v pvars None) as [c|] eqn:PV;
      cbn [stands] in SV; try contradiction; cbn [fst snd]; (split; [reflexivity|]); [|exact SAME].
    pose proof (nth_some_lt _ _ _ _ V) as L. pose proof (nth_some_lt _ _ _ _ PV) as PL.
    split; [|split; [reflexivity|split; [cbn [cw_vars fst]; rewrite !app_length, !upd_len, LE; reflexivity|]]].
    + intros a. cbn [cw_models cw_vars]. rewrite owners_snoc.
      pose proof (owners_upd a vars v (Some (CObj (co_name o) (co_label o) (co_format o) (co_type o) None)) L) as U.
      rewrite V in U. unfold own1 at 2 in U. cbn [owns co_pimpl] in U. rewrite N.add_0_r in U. rewrite U. apply CO.
    + intros u. cbn [cw_models cw_vars fst]. rewrite !nth_snoc, !upd_len, <- LE.
      destruct (Nat.eqb_spec u (length vars)) as [->|N]; [exact SV|].
      rewrite !nth_upd by assumption. destruct (Nat.eqb u v); [|apply ST].
      destruct SV as (A1 & A2 & A3 & A4 & _). cbn [stands co_name co_label co_format co_type co_pimpl
        pc_name pc_label pc_format pc_type pc_fm]. auto.
  - pose proof (ST v) as SV. destruct (nth v vars None) as [o|] eqn:V, (nth v pvars None) as [c|] eqn:PV;
      cbn [stands] in SV; try contradiction; cbn [fst snd]; (split; [reflexivity|]); [|exact SAME].
    pose proof (nth_some_lt _ _ _ _ V) as L. pose proof (nth_some_lt _ _ _ _ PV) as PL.
    assert (RL : forall a, nth a (release (co_pimpl o) models) None
              = match nth a models None with
                | Some (k, n) => if owns a (Some o) then (if n =? 1 then None else Some (k, n - 1)) else Some (k, n)
                | None => None end).
    { intros a. unfold release. cbn [owns]. destruct SV as (_ & _ & _ & _ & SV).
      destruct (co_pimpl o) as [b|].
      - destruct (pc_fm c) as [k|]; [|contradiction]. destruct SV as [n SV]. rewrite SV.
        rewrite nth_upd by (eapply nth_some_lt; exact SV).
        destruct (Nat.eqb_spec a b) as [->|N]; [rewrite SV; reflexivity|].
        destruct (nth a models None) as [[k' n']|]; reflexivity.
      - destruct (nth a models None) as [[k' n']|]; reflexivity. }
    assert (CNT : forall a, owners a (upd v None vars) + own1 a (Some o) = owners a vars).
    { intros a. pose proof (owners_upd a vars v None L) as U. rewrite V in U. unfold own1 at 2 in U. cbn [owns] in U. lia. }
    split; [|split; [reflexivity|split; [cbn [cw_vars fst]; rewrite !upd_len, LE; reflexivity|]]].
    + intros a. cbn [cw_models cw_vars]. rewrite RL. specialize (CO a). specialize (CNT a). unfold own1 in CNT.
      destruct (nth a models None) as [[k n]|] eqn:M; [|destruct (owns a (Some o)); lia].
      destruct (owns a (Some o)); [|lia]. destruct (N.eqb_spec n 1); lia.
    + intros u. cbn [cw_models cw_vars fst]. rewrite !nth_upd by assumption.
      destruct (Nat.eqb_spec u v) as [->|N]; [exact Logic.I|].
      apply (stands_models models); [apply ST|]. intros a k n OW M. rewrite RL, M.
      specialize (CO a). specialize (CNT a). unfold own1 in CNT. rewrite M in CO.
      destruct (owns a (Some o)); [|eauto].
      assert (0 < owners a (upd v None vars)).
      { apply (owners_nth a _ u). rewrite nth_upd by exact L.
        destruct (Nat.eqb_spec u v) as [->|_]; [contradiction|exact OW]. }
      destruct (N.eqb_spec n 1); [lia|eauto].
  - pose proof (ST v) as SV. destruct (nth v vars None) as [o|] eqn:V, (nth v pvars None) as [c|] eqn:PV;
      cbn [stands] in SV; try contradiction; cbn [fst snd]; [|split; [reflexivity|exact SAME]].
    destruct SV as (_ & _ & _ & _ & SV). destruct (co_pimpl o) as [a|], (pc_fm c) as [k|]; try contradiction.
    + destruct SV as [n ->]. destruct (fm_now named k); (split; [reflexivity|exact SAME]).
    + split; [reflexivity|exact SAME].
  - pose proof (ST v) as SV. destruct (nth v vars None) as [o|], (nth v pvars None) as [c|];
      cbn [stands] in SV; try contradiction; [|split; [reflexivity|exact SAME]].
    pose proof (ST v2) as SV2. destruct (nth v2 vars None) as [o2|], (nth v2 pvars None) as [c2|];
      cbn [stands] in SV2; try contradiction; [|split; [reflexivity|exact SAME]].
    destruct SV as [-> _], SV2 as [-> _]. split; [reflexivity|exact SAME].
  - pose proof (ST v) as SV. destruct (nth v vars None) as [o|], (nth v pvars None) as [c|];
      cbn [stands] in SV; try contradiction; [|split; [reflexivity|exact SAME]].
    destruct SV as (-> & -> & -> & -> & _). split; [reflexivity|exact SAME].
Qed.

Lemma exec_all_plain : forall A (p : list (cstmt A)) w q, worlds w q ->
  fst (cexec_all p w) = fst (pexec_all p q) /\ worlds (snd (cexec_all p w)) (snd (pexec_all p q)).
Proof.
  intros A. induction p as [|st p IH]; intros w q W; cbn [cexec_all pexec_all]; [split; [reflexivity|exact W]|].
  destruct (exec_plain A st w q W) as [E W1].
  destruct (cexec st w) as [x w1], (pexec st q) as [y q1]. cbn [fst snd] in *. subst y.
  specialize (IH _ _ W1). destruct (cexec_all p w1), (pexec_all p q1). cbn [fst snd] in IH. destruct IH as [-> IH].
  destruct x; cbn [fst snd]; (split; [reflexivity|]); assumption.
Qed.

Theorem columns_plain : forall A (p : list (cstmt A)),
  fst (cexec_all p no_columns) = fst (pexec_all p ([], [])).
Proof. intros A p. apply (exec_all_plain A p no_columns ([], []) worlds_start). Qed.

Theorem columns_released : forall A (p : list (cstmt A)) t w a, cexec_all p no_columns = (t, w) ->
  match nth a (cw_models w) None with
  | Some (_, n) => owners a (cw_vars w) = n /\ 0 < n
  | None => owners a (cw_vars w) = 0
  end.
Proof.
  intros A p t w a H. destruct (exec_all_plain A p no_columns ([], []) worlds_start) as [_ [CO _]].
  rewrite H in CO. apply CO.
Qed.

(** ** Copies *)

Lemma plain_named : forall A (st : cstmt A) q k fm, keeps_formatters st -> fm_now (snd q) k = Some fm ->
  fm_now (snd (snd (pexec st q))) k = Some fm.
Proof.
  intros A st [vars named] k fm K H. cbn [snd] in *. destruct st as [f|n|name label fmt k'|v|v|v|v g|v v2|v];
    cbn [pexec]; try contradiction;
    repeat match goal with |- context [match ?x with Some _ => _ | None => _ end] => destruct x end;
    cbn [snd]; try exact H.
  destruct k as [f'|n]; cbn [fm_now] in *; [exact H|]. rewrite app_nth1; [exact H|].
  eapply nth_some_lt. exact H.
Qed.

Lemma plain_var : forall A (st : cstmt A) q v c, leaves v st -> nth v (fst q) None = Some c ->
  nth v (fst (snd (pexec st q))) None = Some c.
Proof.
  intros A st [vars named] v c K H. cbn [fst] in *. pose proof (nth_some_lt _ _ _ _ H) as L.
  destruct st as [f|n|name label fmt k'|u|u|u|u g|u v2|u]; cbn [pexec leaves] in *;
    repeat match goal with |- context [match ?x with Some _ => _ | None => _ end] => destruct x eqn:? end;
    cbn [fst snd]; try exact H; try (rewrite app_nth1; [exact H|exact L]).
  - rewrite app_nth1 by (rewrite upd_len; exact L). rewrite nth_upd by (eapply nth_some_lt; eassumption).
    destruct (Nat.eqb_spec v u) as [->|_]; [destruct (K eq_refl)|exact H].
  - rewrite nth_upd by (eapply nth_some_lt; eassumption).
    destruct (Nat.eqb_spec v u) as [->|_]; [destruct (K eq_refl)|exact H].
Qed.

Lemma plain_all : forall A (p : list (cstmt A)) q v c k fm, Forall (leaves v) p -> Forall keeps_formatters p ->
  nth v (fst q) None = Some c -> fm_now (snd q) k = Some fm ->
  nth v (fst (snd (pexec_all p q))) None = Some c /\ fm_now (snd (snd (pexec_all p q))) k = Some fm.
Proof.
  intros A. induction p as [|st p IH]; intros q v c k fm K1 K2 H1 H2; cbn [pexec_all]; [auto|].
  inversion K1; subst. inversion K2; subst.
  pose proof (plain_var A st q v c ltac:(assumption) H1) as G1.
  pose proof (plain_named A st q k fm ltac:(assumption) H2) as G2.
  destruct (pexec st q) as [x q1]. cbn [fst snd] in *.
  specialize (IH q1 v c k fm ltac:(assumption) ltac:(assumption) G1 G2).
  destruct (pexec_all p q1). destruct x; cbn [fst snd] in *; auto.
Qed.

(** A copy is read as the column was when it was copied. *)
Theorem copy_outlives : forall A (p0 p : list (cstmt A)) t0 w0 v g a,
  cexec_all p0 no_columns = (t0, w0) -> fst (cexec (A := A) (CRead v g) w0) = Ok (CValue a) ->
  let n := length (cw_vars w0) in
  Forall (leaves n) p -> Forall keeps_formatters p ->
  let w1 := snd (cexec_all p (snd (cexec (A := A) (CCopy v) w0))) in
  fst (cexec (CRead n g) w1) = Ok (CValue a).
Proof.
  intros A p0 p t0 w0 v g a H0 R n K1 K2 w1.
  destruct (exec_all_plain A p0 no_columns ([], []) worlds_start) as [_ W0]. rewrite H0 in W0. cbn [snd] in W0.
  set (q0 := snd (pexec_all p0 ([], []))) in *.
  destruct (exec_plain A (CCopy v) w0 q0 W0) as [_ W1].
  destruct (exec_all_plain A p _ _ W1) as [_ W2]. fold w1 in W2.
  rewrite (proj1 (exec_plain A (CRead n g) w1 _ W2)).
  rewrite (proj1 (exec_plain A (CRead v g) w0 q0 W0)) in R.
  assert (LE : length (fst q0) = n) by (destruct W0 as (_ & _ & LE & _); symmetry; exact LE).
  clearbody q0 n w1. destruct q0 as [vars named]. cbn [fst] in LE. cbn [pexec] in R.
  destruct (nth v vars None) as [c|] eqn:V; [|discriminate]. cbn [pexec] in *. rewrite V in *. cbn [snd] in *.
  destruct (pc_fm c) as [k|] eqn:F; [|discriminate]. destruct (fm_now named k) as [fm|] eqn:FN; [|discriminate].
  cbn [fst] in R.
  destruct (plain_all A p (vars ++ [Some c], named) n c k fm K1 K2) as [P1 P2].
  - cbn [fst]. rewrite nth_snoc, LE, Nat.eqb_refl. reflexivity.
  - exact FN.
  - destruct (snd (pexec_all p (vars ++ [Some c], named))) as [vars1 named1]. cbn [fst snd] in *.
    cbn [pexec]. rewrite P1, F, P2. exact R.
Qed.

(** The texts and the type never change. *)
Definition texts_of (c : option pcol) : option (bytes * bytes * bytes * ctype) :=
  match c with Some c => Some (pc_name c, pc_label c, pc_format c, pc_type c) | None => None end.

Lemma plain_texts : forall A (st : cstmt A) q v, (v < length (fst q))%nat ->
  (v < length (fst (snd (pexec st q))))%nat
  /\ (texts_of (nth v (fst (snd (pexec st q))) None) = texts_of (nth v (fst q) None)
      \/ nth v (fst (snd (pexec st q))) None = None).
Proof.
  intros A st [vars named] v L. cbn [fst] in *.
  destruct st as [f|n|name label fmt k'|u|u|u|u g|u v2|u]; cbn [pexec];
    repeat match goal with |- context [match ?x with Some _ => _ | None => _ end] => destruct x eqn:? end;
    cbn [fst snd]; try (split; [exact L|left; reflexivity]);
    try (split; [rewrite app_length; lia|left; rewrite app_nth1 by exact L; reflexivity]).
  - split; [rewrite app_length, upd_len; lia|]. left. rewrite app_nth1 by (rewrite upd_len; exact L).
    rewrite nth_upd by (eapply nth_some_lt; eassumption).
    destruct (Nat.eqb_spec v u) as [->|_]; [|reflexivity]. rewrite Heqo. reflexivity.
  - split; [rewrite upd_len; exact L|]. rewrite nth_upd by (eapply nth_some_lt; eassumption).
    destruct (Nat.eqb v u); auto.
Qed.

Lemma plain_all_texts : forall A (p : list (cstmt A)) q v, (v < length (fst q))%nat ->
  texts_of (nth v (fst (snd (pexec_all p q))) None) = texts_of (nth v (fst q) None)
  \/ nth v (fst (snd (pexec_all p q))) None = None.
Proof.
  intros A. induction p as [|st p IH]; intros q v L; cbn [pexec_all]; [left; reflexivity|].
  destruct (plain_texts A st q v L) as [L1 T]. destruct (pexec st q) as [x q1]. cbn [fst snd] in *.
  specialize (IH q1 v L1).
  assert (G : texts_of (nth v (fst (snd (pexec_all p q1))) None) = texts_of (nth v (fst q) None)
              \/ nth v (fst (snd (pexec_all p q1))) None = None).
  { destruct IH as [IH|IH]; [|right; exact IH]. destruct T as [T|T]; [left; congruence|].
    right. rewrite T in IH. destruct (nth v (fst (snd (pexec_all p q1))) None); [discriminate|reflexivity]. }
  destruct (pexec_all p q1). destruct x; cbn [fst snd] in *; auto.
Qed.

Theorem facts_stay : forall A (p0 p : list (cstmt A)) t0 w0 v x,
  cexec_all p0 no_columns = (t0, w0) -> fst (cexec (A := A) (CFacts v) w0) = Ok x ->
  let w1 := snd (cexec_all p w0) in
  fst (cexec (A := A) (CFacts v) w1) = Ok x \/ fst (cexec (A := A) (CFacts v) w1) = Undef UB_lifetime.
Proof.
  intros A p0 p t0 w0 v x H0 R w1.
  destruct (exec_all_plain A p0 no_columns ([], []) worlds_start) as [_ W0]. rewrite H0 in W0. cbn [snd] in W0.
  set (q0 := snd (pexec_all p0 ([], []))) in *. clearbody q0.
  destruct (exec_all_plain A p _ _ W0) as [_ W1]. fold w1 in W1.
  rewrite (proj1 (exec_plain A (CFacts v) w1 _ W1)).
  rewrite (proj1 (exec_plain A (CFacts v) w0 q0 W0)) in R. destruct q0 as [vars named]. cbn [pexec] in R.
  destruct (nth v vars None) as [c|] eqn:V; [|discriminate]. cbn [fst] in R.
  destruct (plain_all_texts A p (vars, named) v (nth_some_lt _ _ _ _ V)) as [T|T].
  - left. destruct (snd (pexec_all p (vars, named))) as [vars1 named1]. cbn [fst] in T. rewrite V in T.
    cbn [pexec]. destruct (nth v vars1 None) as [c1|]; [|discriminate]. cbn [texts_of] in T.
    injection T as -> -> -> ->. exact R.
  - right. destruct (snd (pexec_all p (vars, named))) as [vars1 named1]. cbn [fst] in T.
    cbn [pexec]. rewrite T. reflexivity.
Qed.

(** ** The columns of a file *)

Definition plain_readable (vars : list (option pcol)) : list (option column) :=
  flat_map (fun v => match v with
                     | Some c => [match pc_fm c with
                                  | Some (FmValue fm) => Some (Column (pc_name c) (pc_label c) (pc_format c) fm)
                                  | _ => None
                                  end]
                     | None => []
                     end) vars.

Lemma readable_plain : forall w q, worlds w q -> readable w = plain_readable (fst q).
Proof.
  intros [models vars named] [pvars pnamed] (_ & _ & LE & ST). unfold readable, plain_readable.
  cbn [cw_models cw_vars fst] in *. revert pvars LE ST. induction vars as [|o vars IH]; intros [|c pvars] LE ST;
    cbn [length] in LE; try discriminate; [reflexivity|]. cbn [flat_map].
  rewrite (IH pvars) by (try congruence; intros v; apply (ST (Datatypes.S v))). f_equal.
  specialize (ST 0%nat). cbn [nth] in ST. destruct o as [o|], c as [c|]; cbn [stands] in ST; try contradiction;
    [|reflexivity].
  destruct ST as (-> & -> & -> & _ & ST). destruct (co_pimpl o) as [a|], (pc_fm c) as [k|]; try contradiction;
    [|reflexivity]. destruct ST as [n ->]. destruct k; reflexivity.
Qed.

Lemma creation_plain : forall A accept cs vars named,
  exists t vars', pexec_all (A := A) (creation accept (length vars) cs) (vars, named) = (t, (vars', named))
  /\ Forall (eq (Ok CNothing)) t
  /\ plain_readable vars' = plain_readable vars ++ map Some (filter accept cs).
Proof.
  intros A accept. induction cs as [|c cs IH]; intros vars named; cbn [creation filter].
  { exists [], vars. split; [reflexivity|]. split; [constructor|]. cbn. rewrite app_nil_r. reflexivity. }
  set (pc := PCol (c_name c) (c_label c) (c_format c) (fkind_type (fm_kind (c_fm c))) (Some (FmValue (c_fm c)))).
  assert (U : forall (x y : option pcol) l, upd (length vars) x (vars ++ y :: l) = vars ++ x :: l).
  { intros x y l. clear. induction vars as [|v vars IH]; cbn; [reflexivity|]. rewrite IH. reflexivity. }
  assert (NV : forall (y : option pcol) l, nth (length vars) (vars ++ y :: l) None = y).
  { intros y l. clear. induction vars as [|v vars IH]; cbn; auto. }
  destruct (accept c).
  - destruct (IH (vars ++ [None; Some pc]) named) as (t & vars' & E & F & G).
    exists (Ok CNothing :: Ok CNothing :: Ok CNothing :: t), vars'.
    split; [|split; [repeat (constructor; [reflexivity|]); exact F|]].
    + cbn [app pexec_all pexec fm_now]. fold pc. rewrite NV. cbn [pexec_all pexec]. fold pc. rewrite U, <- app_assoc. cbn [app].
      rewrite NV. cbn [pexec_all pexec]. rewrite U. rewrite app_length in E. cbn [length] in E.
      replace (length vars + 2)%nat with (2 + length vars)%nat in E by lia. rewrite E. reflexivity.
    + rewrite G. unfold plain_readable. rewrite flat_map_app. cbn [flat_map pc pc_fm pc_name pc_label pc_format app].
      rewrite <- app_assoc. cbn [app map]. destruct c; reflexivity.
  - destruct (IH (vars ++ [None]) named) as (t & vars' & E & F & G).
    exists (Ok CNothing :: Ok CNothing :: t), vars'.
    split; [|split; [repeat (constructor; [reflexivity|]); exact F|]].
    + cbn [app pexec_all pexec fm_now]. fold pc. rewrite NV. cbn [pexec_all pexec]. rewrite U. rewrite app_length in E. cbn [length] in E.
      replace (length vars + 1)%nat with (1 + length vars)%nat in E by lia. rewrite E. reflexivity.
    + rewrite G. unfold plain_readable. rewrite flat_map_app. cbn [flat_map app]. rewrite app_nil_r. reflexivity.
Qed.

Theorem columns_created : forall A accept cs, exists t w,
  cexec_all (A := A) (creation accept 0 cs) no_columns = (t, w)
  /\ Forall (eq (Ok CNothing)) t /\ readable w = map Some (filter accept cs).
Proof.
  intros A accept cs. destruct (exec_all_plain A (creation accept 0 cs) no_columns ([], []) worlds_start) as [E W].
  destruct (creation_plain A accept cs [] []) as (t & vars & P & F & G). cbn [length] in P. rewrite P in E, W.
  destruct (cexec_all (creation accept 0 cs) no_columns) as [t' w]. cbn [fst snd] in *. subst t'.
  exists t, w. split; [reflexivity|]. split; [exact F|]. rewrite (readable_plain _ _ W). exact G.
Qed.
