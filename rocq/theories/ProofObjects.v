(** Proofs about the Reader objects of a program. *)
From Verif Require Import Base Types Buffer Header Column Metadata Data Reader Drive Sinks Objects SpecObjects.
Local Open Scope N_scope.

(** ** A living sink *)

Lemma living_row : forall S A c (src : source S) (k : sink A) r a,
  drive_row c src (living k) r (Some a)
  = (let '(x, r', a', ev) := drive_row c src k r a in (x, r', Some a', ev)).
Proof.
  intros S A c src k r a. unfold drive_row, living.
  destruct (read_line c src (rs_h r) (rs_md r) (rs_d r)) as [[[p|]|e| |u|] d']; cbn; try reflexivity.
  - destruct (k (EvRow (ds_row (rs_d r)) p) a); reflexivity.
  - destruct (k EvEnd a); reflexivity.
Qed.

Lemma living_rows : forall S A c (src : source S) (k : sink A) n r a,
  drive_rows c src (living k) n r (Some a)
  = (let '(x, r', a', ev) := drive_rows c src k n r a in (x, r', Some a', ev)).
Proof.
  intros S A c src k n. induction n as [|n IH]; intros r a; [reflexivity|].
  cbn [drive_rows]. rewrite living_row.
  destruct (drive_row c src k r a) as [[[x r1] a1] ev]. destruct x as [[]|e| |u|]; try reflexivity.
  rewrite IH. destruct (drive_rows c src k n r1 a1) as [[[y r2] a2] ev']. reflexivity.
Qed.

Lemma living_all : forall S A c (src : source S) (k : sink A) n r a,
  drive_all_loop c src (living k) n r (Some a)
  = (let '(x, r', a', ev) := drive_all_loop c src k n r a in (x, r', Some a', ev)).
Proof.
  intros S A c src k n. induction n as [|n IH]; intros r a; [reflexivity|].
  cbn [drive_all_loop]. rewrite living_row.
  destruct (drive_row c src k r a) as [[[x r1] a1] ev]. destruct x as [[]|e| |u|]; try reflexivity.
  rewrite IH. destruct (drive_all_loop c src k n r1 a1) as [[[y r2] a2] ev']. reflexivity.
Qed.

Lemma living_step : forall S A c (src : source S) (k : sink A) o r a,
  drive_step c src (living k) o r (Some a)
  = (let '(x, r', a', ev) := drive_step c src k o r a in (x, r', Some a', ev)).
Proof.
  intros S A c src k o r a. destruct o; cbn [drive_step].
  - rewrite living_row. destruct (drive_row c src k r a) as [[[x r1] a1] ev]. reflexivity.
  - rewrite living_rows. destruct (drive_rows c src k (N.to_nat n) r a) as [[[x r1] a1] ev]. reflexivity.
  - unfold drive_all. rewrite living_all.
    destruct (drive_all_loop c src k (Datatypes.S (N.to_nat (md_row_count (rs_md r) - ds_row (rs_d r)))) r a)
      as [[[x r1] a1] ev]. reflexivity.
  - unfold drive_skip.
    destruct (data_skip c src (rs_h r) (rs_md r) (N.to_nat n) (rs_d r)) as [[[]|e| |u|] d']; try reflexivity.
    unfold living. destruct (k EvEnd a); reflexivity.
  - destruct (read_row_no_sink c src r); reflexivity.
  - unfold drive_end, living. destruct (k EvEnd a); reflexivity.
Qed.

Lemma living_open : forall S A c (src : source S) (k : sink A) flt s a,
  drive_open c src (living k) flt s (Some a)
  = (let '(x, a', ev) := drive_open c src k flt s a in (x, Some a', ev)).
Proof.
  intros S A c src k flt s a. unfold drive_open.
  match goal with |- context [match ?m with Ok _ => _ | _ => _ end] => destruct m end; try reflexivity.
  unfold living. destruct (k (EvProps (rs_h a0) (rs_md a0)) a); reflexivity.
Qed.

(** ** What a call keeps *)

Lemma row_keeps : forall S A c (src : source S) (k : sink A) r a x r' a' ev,
  drive_row c src k r a = (x, r', a', ev) -> rs_h r' = rs_h r /\ rs_md r' = rs_md r.
Proof.
  intros S A c src k r a x r' a' ev H. unfold drive_row in H.
  destruct (read_line c src (rs_h r) (rs_md r) (rs_d r)) as [[[p|]|e| |u|] d'];
    try (injection H as <- <- <- <-; split; reflexivity).
  - destruct (k (EvRow (ds_row (rs_d r)) p) a). injection H as <- <- <- <-. split; reflexivity.
  - destruct (k EvEnd a). injection H as <- <- <- <-. split; reflexivity.
Qed.

Lemma rows_keep : forall S A c (src : source S) (k : sink A) n r a x r' a' ev,
  drive_rows c src k n r a = (x, r', a', ev) -> rs_h r' = rs_h r /\ rs_md r' = rs_md r.
Proof.
  intros S A c src k n. induction n as [|n IH]; intros r a x r' a' ev H; cbn [drive_rows] in H.
  - injection H as <- <- <- <-. split; reflexivity.
  - destruct (drive_row c src k r a) as [[[y r1] a1] ev1] eqn:E. apply row_keeps in E. destruct E as [E1 E2].
    destruct y as [[]|e| |u|]; try (injection H as <- <- <- <-; split; assumption).
    destruct (drive_rows c src k n r1 a1) as [[[z r2] a2] ev2] eqn:F. apply IH in F.
    injection H as <- <- <- <-. destruct F as [F1 F2]. split; congruence.
Qed.

Lemma all_keep : forall S A c (src : source S) (k : sink A) n r a x r' a' ev,
  drive_all_loop c src k n r a = (x, r', a', ev) -> rs_h r' = rs_h r /\ rs_md r' = rs_md r.
Proof.
  intros S A c src k n. induction n as [|n IH]; intros r a x r' a' ev H; cbn [drive_all_loop] in H.
  - injection H as <- <- <- <-. split; reflexivity.
  - destruct (drive_row c src k r a) as [[[y r1] a1] ev1] eqn:E. apply row_keeps in E. destruct E as [E1 E2].
    destruct y as [[]|e| |u|]; try (injection H as <- <- <- <-; split; assumption).
    destruct (drive_all_loop c src k n r1 a1) as [[[z r2] a2] ev2] eqn:F. apply IH in F.
    injection H as <- <- <- <-. destruct F as [F1 F2]. split; congruence.
Qed.

Lemma step_keeps : forall S A c (src : source S) (k : sink A) o r a x r' a' ev,
  drive_step c src k o r a = (x, r', a', ev) -> rs_h r' = rs_h r /\ rs_md r' = rs_md r.
Proof.
  intros S A c src k o r a x r' a' ev H. destruct o; cbn [drive_step] in H.
  - destruct (drive_row c src k r a) as [[[y r1] a1] ev1] eqn:E. injection H as <- <- <- <-.
    apply (row_keeps _ _ _ _ _ _ _ _ _ _ _ E).
  - destruct (drive_rows c src k (N.to_nat n) r a) as [[[y r1] a1] ev1] eqn:E. injection H as <- <- <- <-.
    apply (rows_keep _ _ _ _ _ _ _ _ _ _ _ _ E).
  - unfold drive_all in H.
    destruct (drive_all_loop c src k (Datatypes.S (N.to_nat (md_row_count (rs_md r) - ds_row (rs_d r)))) r a)
      as [[[y r1] a1] ev1] eqn:E. injection H as <- <- <- <-.
    apply (all_keep _ _ _ _ _ _ _ _ _ _ _ _ E).
  - unfold drive_skip in H.
    destruct (data_skip c src (rs_h r) (rs_md r) (N.to_nat n) (rs_d r)) as [[[]|e| |u|] d'];
      try (injection H as <- <- <- <-; split; reflexivity).
    destruct (k EvEnd a). injection H as <- <- <- <-. split; reflexivity.
  - unfold read_row_no_sink in H. destruct (read_line c src (rs_h r) (rs_md r) (rs_d r)) as [y d'].
    injection H as <- <- <- <-. split; reflexivity.
  - unfold drive_end in H. destruct (k EvEnd a). injection H as <- <- <- <-. split; reflexivity.
Qed.

Lemma plays_keep : forall S A c (src : source S) (k : sink A) calls r a ev r' a' ev',
  fold_left (play c src k) calls (r, a, ev) = (r', a', ev') -> rs_h r' = rs_h r /\ rs_md r' = rs_md r.
Proof.
  intros S A c src k calls. induction calls as [|o calls IH]; intros r a ev r' a' ev' H; cbn [fold_left] in H.
  - injection H as <- <- <-. split; reflexivity.
  - destruct (drive_step c src k o r a) as [[[x r1] a1] ev1] eqn:E.
    unfold play at 2 in H. rewrite E in H. apply IH in H. apply step_keeps in E.
    destruct H as [H1 H2], E as [E1 E2]. split; congruence.
Qed.

Lemma life_keeps : forall S A c (src : source S) (k : sink A) b calls r a ev,
  life c src k b calls = Some (r, a, ev) ->
  exists r0 a0 ev0, life c src k b [] = Some (r0, a0, ev0) /\ rs_h r = rs_h r0 /\ rs_md r = rs_md r0.
Proof.
  intros S A c src k b calls r a ev H. unfold life in *.
  destruct (drive_open c src k (b_filter b) (b_source b) (b_sink b)) as [[[r0|e| |u|] a0] ev0]; try discriminate.
  injection H as H. apply plays_keep in H. exists r0, a0, ev0. split; [reflexivity|exact H].
Qed.

Lemma life_snoc : forall S A c (src : source S) (k : sink A) b calls o r a ev,
  life c src k b calls = Some (r, a, ev) ->
  life c src k b (calls ++ [o]) = Some (play c src k (r, a, ev) o).
Proof.
  intros S A c src k b calls o r a ev H. unfold life in *.
  destruct (drive_open c src k (b_filter b) (b_source b) (b_sink b)) as [[[r0|e| |u|] a0] ev0]; try discriminate.
  injection H as H. rewrite fold_left_app, H. reflexivity.
Qed.

(** ** Lists *)

Lemma upd_len : forall A n (a : A) l, length (upd n a l) = length l.
Proof. intros A n a l. revert n. induction l as [|x l IH]; intros [|n]; cbn; auto. Qed.

Lemma nth_upd : forall A n m (a d : A) l, (n < length l)%nat ->
  nth m (upd n a l) d = if Nat.eqb m n then a else nth m l d.
Proof.
  intros A n m a d l. revert n m. induction l as [|x l IH]; intros [|n] [|m] H; cbn in *; try lia; auto.
  apply IH. lia.
Qed.

Lemma nth_snoc : forall A m (a d : A) l,
  nth m (l ++ [a]) d = if Nat.eqb m (length l) then a else nth m l d.
Proof.
  intros A m a d l. destruct (Nat.eqb_spec m (length l)) as [->|E].
  - rewrite app_nth2, Nat.sub_diag by lia. reflexivity.
  - destruct (Nat.lt_ge_cases m (length l)) as [L|L].
    + apply app_nth1. exact L.
    + rewrite !nth_overflow; [reflexivity|lia|rewrite app_length; cbn; lia].
Qed.

Lemma called_nth : forall S A n o m (l : list (birth S A * list op)),
  nth_error (called n o l) m
  = match nth_error l m with
    | Some (b, calls) => Some (b, if Nat.eqb m n then calls ++ [o] else calls)
    | None => None
    end.
Proof.
  intros S A n o m l. revert n m.
  induction l as [|[b calls] l IH]; intros [|n] [|m]; cbn; try reflexivity.
  - destruct (nth_error l m) as [[b' calls']|]; reflexivity.
  - apply IH.
Qed.

Lemma called_len : forall S A n o (l : list (birth S A * list op)), length (called n o l) = length l.
Proof.
  intros S A n o l. revert n. induction l as [|[b calls] l IH]; intros [|n]; cbn; auto.
Qed.

Local Arguments mine : simpl never.

Lemma mine_app : forall n u v, mine n (u ++ v) = mine n u ++ mine n v.
Proof. intros n u v. unfold mine. rewrite filter_app, map_app. reflexivity. Qed.

Lemma mine_pair : forall n m ev,
  mine n (map (pair (InImpl m)) ev) = if Nat.eqb m n then ev else [].
Proof.
  intros n m ev. unfold mine. induction ev as [|e ev IH]; cbn.
  - destruct (Nat.eqb m n); reflexivity.
  - destruct (Nat.eqb m n); cbn; [f_equal|]; exact IH.
Qed.

(** ** The objects agree with the histories *)

Definition shown_as (p : place) : option (option nat) :=
  match p with Nowhere => None | Empty => Some None | Holds n => Some (Some n) end.
Definition ref_as (p : place) : pref :=
  match p with Holds n => RefImpl n | _ => RefStatic end.

Record agrees {S A} (c : cfg) (src : source S) (k : sink A) (w : world S A) (t : table S A) : Prop := {
  ag_vars : forall v, nth v (w_readers w) None = shown_as (t_var t v);
  ag_declared : length (w_readers w) = t_declared t;
  ag_count : length (w_impls w) = length (t_lives t);
  ag_held : forall v n, t_var t v = Holds n ->
    exists b calls r a ev, nth_error (t_lives t) n = Some (b, calls)
      /\ life c src k b calls = Some (r, a, ev)
      /\ nth n (w_impls w) None = Some (Impl r (ByValue a));
  ag_free : forall n, (forall v, t_var t v <> Holds n) -> nth n (w_impls w) None = None;
  ag_one : forall u v n, t_var t u = Holds n -> t_var t v = Holds n -> u = v;
  ag_refs : w_refs w = map ref_as (t_refs t);
  ag_real : Forall (fun p => p <> Nowhere) (t_refs t);
  ag_log : forall n b calls, nth_error (t_lives t) n = Some (b, calls) ->
    mine n (w_log w) = heard c src k b calls;
  ag_quiet : forall n, (length (t_lives t) <= n)%nat -> mine n (w_log w) = []
}.

Lemma agrees_start : forall S A c (src : source S) (k : sink A), agrees c src k no_objects nothing_yet.
Proof.
  intros S A c src k. split; cbn; try reflexivity; try discriminate; try constructor;
    try (intros [|?]; reflexivity); try (intros [|?] ? ?; discriminate); intros [|n] _; reflexivity.
Qed.

(** A variable which has something has been declared. *)
Lemma declared : forall S A c (src : source S) (k : sink A) w t v,
  agrees c src k w t -> t_var t v <> Nowhere -> (v < length (w_readers w))%nat.
Proof.
  intros S A c src k w t v H N. destruct (Nat.lt_ge_cases v (length (w_readers w))) as [L|L]; [exact L|].
  exfalso. pose proof (ag_vars _ _ _ _ _ H v) as E. rewrite nth_overflow in E by exact L.
  destruct (t_var t v); [congruence|discriminate|discriminate].
Qed.

Lemma held_bound : forall S A c (src : source S) (k : sink A) w t v n,
  agrees c src k w t -> t_var t v = Holds n -> (n < length (w_impls w))%nat.
Proof.
  intros S A c src k w t v n H E. destruct (ag_held _ _ _ _ _ H v n E) as (b & calls & r & a & ev & L & _).
  rewrite (ag_count _ _ _ _ _ H). apply nth_error_Some. congruence.
Qed.

(** An agreement where only the variables change: what they hold is held already, or has
    been dropped. *)
Lemma agrees_vars : forall S A c (src : source S) (k : sink A) w t impls readers var dec,
  agrees c src k w t ->
  (forall v, nth v readers None = shown_as (var v)) ->
  length readers = dec ->
  length impls = length (w_impls w) ->
  (forall v n, var v = Holds n -> exists u, t_var t u = Holds n) ->
  (forall v n, var v = Holds n -> nth n impls None = nth n (w_impls w) None) ->
  (forall n, (forall v, var v <> Holds n) -> nth n impls None = None) ->
  (forall u v n, var u = Holds n -> var v = Holds n -> u = v) ->
  agrees c src k (World impls readers (w_sinks w) (w_refs w) (w_log w)) (Table var dec (t_lives t) (t_refs t)).
Proof.
  intros S A c src k w t impls readers var dec H V D C Hh Hi Hf H1. split; cbn; auto.
  - rewrite C. apply (ag_count _ _ _ _ _ H).
  - intros v n E. destruct (Hh v n E) as [u Eu].
    destruct (ag_held _ _ _ _ _ H u n Eu) as (b & calls & r & a & ev & L & F & I).
    exists b, calls, r, a, ev. rewrite (Hi v n E). auto.
  - apply (ag_refs _ _ _ _ _ H).
  - apply (ag_real _ _ _ _ _ H).
  - apply (ag_log _ _ _ _ _ H).
  - apply (ag_quiet _ _ _ _ _ H).
Qed.

Lemma drop_len : forall S A h (l : list (option (impl S A))), length (drop_impl h l) = length l.
Proof. intros S A [i|] l; [apply upd_len|reflexivity]. Qed.

Ltac eqb := repeat match goal with
  | |- context [Nat.eqb ?a ?b] => destruct (Nat.eqb_spec a b)
  | H : context [Nat.eqb ?a ?b] |- _ => destruct (Nat.eqb_spec a b)
  end; subst; try discriminate; try congruence; auto.

Lemma exec_tells : forall S A c (src : source S) (k : sink A) st w t,
  agrees c src k w t -> owning st ->
  fst (exec c src k st w) = fst (tell c src k st t)
  /\ agrees c src k (snd (exec c src k st w)) (snd (tell c src k st t)).
Proof.
  intros S A c src k st w t H O.
  destruct st as [[a|n0] flt s| |v|v u|v|v o|v|v|r|a|n0]; cbn [owning] in O; try contradiction; cbn [exec tell].
  - (* SNew *)
    cbn [sink_now sinks_after owner_of]. rewrite living_open.
    destruct (drive_open c src k flt s a) as [[x a'] ev] eqn:E. cbn [fst].
    assert (HD : t_declared t = length (w_readers w)) by (symmetry; apply (ag_declared _ _ _ _ _ H)).
    assert (HC := ag_count _ _ _ _ _ H).
    assert (HL : life c src k (Birth a flt s) [] = match x with Ok r => Some (r, a', ev) | _ => None end)
      by (unfold life; cbn [b_filter b_source b_sink]; rewrite E; destruct x; reflexivity).
    assert (HH : heard c src k (Birth a flt s) [] = ev).
    { unfold heard. rewrite HL. cbn [b_filter b_source b_sink]. rewrite E. destruct x; reflexivity. }
    assert (HNew : forall v, t_var t v <> Holds (length (t_lives t))).
    { intros v F. pose proof (held_bound _ _ _ _ _ _ _ _ _ H F). lia. }
    assert (LOG : forall n b calls,
      nth_error (t_lives t ++ [(Birth a flt s, [])]) n = Some (b, calls) ->
      mine n (w_log w ++ map (pair (InImpl (length (w_impls w)))) ev) = heard c src k b calls).
    { intros n b calls F. rewrite mine_app, mine_pair.
      destruct (Nat.eqb_spec (length (w_impls w)) n) as [<-|N].
      - rewrite HC, nth_error_app2, Nat.sub_diag in F by lia. injection F as <- <-.
        rewrite (ag_quiet _ _ _ _ _ H), HH by lia. reflexivity.
      - rewrite app_nil_r. destruct (Nat.lt_ge_cases n (length (t_lives t))) as [L|L].
        + rewrite nth_error_app1 in F by exact L. apply (ag_log _ _ _ _ _ H _ _ _ F).
        + rewrite nth_error_app2 in F by exact L.
          destruct (n - length (t_lives t))%nat as [|j] eqn:J; [lia|]. destruct j; discriminate. }
    assert (QUIET : forall n, (length (t_lives t ++ [(Birth a flt s, [])]) <= n)%nat ->
      mine n (w_log w ++ map (pair (InImpl (length (w_impls w)))) ev) = []).
    { intros n L. rewrite app_length in L. cbn in L. rewrite mine_app, mine_pair, (ag_quiet _ _ _ _ _ H) by lia.
      destruct (Nat.eqb_spec (length (w_impls w)) n); [lia|reflexivity]. }
    assert (HELD : forall v n x0, t_var t v = Holds n ->
      exists b calls r a0 ev0, nth_error (t_lives t ++ [(Birth a flt s, [])]) n = Some (b, calls)
      /\ life c src k b calls = Some (r, a0, ev0)
      /\ nth n (w_impls w ++ [x0]) None = Some (Impl r (ByValue a0))).
    { intros v n x0 F. destruct (ag_held _ _ _ _ _ H v n F) as (b & calls & r & a0 & ev0 & L & G & I).
      exists b, calls, r, a0, ev0. repeat split; auto.
      - rewrite nth_error_app1; [exact L|]. apply nth_error_Some. congruence.
      - rewrite nth_snoc. pose proof (held_bound _ _ _ _ _ _ _ _ _ H F).
        destruct (Nat.eqb_spec n (length (w_impls w))); [lia|exact I]. }
    assert (FAIL : agrees c src k
        (World (w_impls w ++ [None]) (w_readers w ++ [None]) (w_sinks w) (w_refs w)
           (w_log w ++ map (pair (InImpl (length (w_impls w)))) ev))
        (Table (at_var (t_declared t) Nowhere (t_var t)) (Datatypes.S (t_declared t))
           (t_lives t ++ [(Birth a flt s, [])]) (t_refs t))).
    { split; cbn; auto.
      - intros v. rewrite nth_snoc. unfold at_var. rewrite HD.
        destruct (Nat.eqb v (length (w_readers w))); [reflexivity|apply (ag_vars _ _ _ _ _ H)].
      - rewrite app_length, HD. cbn. lia.
      - rewrite !app_length, HC. reflexivity.
      - intros v n F. unfold at_var in F. destruct (Nat.eqb v (t_declared t)); [discriminate|]. eauto.
      - intros n F. rewrite nth_snoc. destruct (Nat.eqb n (length (w_impls w))); [reflexivity|].
        apply (ag_free _ _ _ _ _ H). intros v G. apply (F v). unfold at_var.
        destruct (Nat.eqb_spec v (t_declared t)) as [->|]; [|exact G].
        pose proof (declared _ _ _ _ _ _ _ (t_declared t) H). rewrite G, HD in H0.
        assert (length (w_readers w) < length (w_readers w))%nat by (apply H0; discriminate). lia.
      - intros u v n F G. unfold at_var in F, G.
        destruct (Nat.eqb u (t_declared t)); [discriminate|].
        destruct (Nat.eqb v (t_declared t)); [discriminate|]. apply (ag_one _ _ _ _ _ H _ _ _ F G).
      - apply (ag_refs _ _ _ _ _ H).
      - apply (ag_real _ _ _ _ _ H). }
    destruct x as [r|e| |ub|]; cbn [fst snd rmap bind sink_kept]; try (split; [reflexivity|exact FAIL]).
    split; [reflexivity|]. split; cbn; auto.
    + intros v. rewrite nth_snoc. unfold at_var. rewrite HD, HC.
      destruct (Nat.eqb v (length (w_readers w))); [reflexivity|apply (ag_vars _ _ _ _ _ H)].
    + rewrite app_length, HD. cbn. lia.
    + rewrite !app_length, HC. reflexivity.
    + intros v n F. unfold at_var in F. destruct (Nat.eqb v (t_declared t)); [|eauto].
      injection F as <-. exists (Birth a flt s), [], r, a', ev. repeat split; auto.
      * rewrite nth_error_app2, Nat.sub_diag by lia. reflexivity.
      * rewrite nth_snoc, HC, Nat.eqb_refl. reflexivity.
    + intros n F. rewrite nth_snoc. destruct (Nat.eqb_spec n (length (w_impls w))) as [->|N].
      * exfalso. apply (F (t_declared t)). unfold at_var. rewrite Nat.eqb_refl, HC. reflexivity.
      * apply (ag_free _ _ _ _ _ H). intros v G. apply (F v). unfold at_var.
        destruct (Nat.eqb_spec v (t_declared t)) as [->|]; [|exact G].
        pose proof (declared _ _ _ _ _ _ _ (t_declared t) H). rewrite G, HD in H0.
        assert (length (w_readers w) < length (w_readers w))%nat by (apply H0; discriminate). lia.
    + intros u v n F G. unfold at_var in F, G.
      destruct (Nat.eqb_spec u (t_declared t)), (Nat.eqb_spec v (t_declared t)).
      * congruence.
      * exfalso. apply (HNew v). rewrite G. congruence.
      * exfalso. apply (HNew u). rewrite F. congruence.
      * apply (ag_one _ _ _ _ _ H _ _ _ F G).
    + apply (ag_refs _ _ _ _ _ H).
    + apply (ag_real _ _ _ _ _ H).
  - (* SDefault *)
    cbn [fst snd]. split; [reflexivity|].
    assert (HD : t_declared t = length (w_readers w)) by (symmetry; apply (ag_declared _ _ _ _ _ H)).
    apply agrees_vars; auto.
    + intros v. rewrite nth_snoc. unfold at_var. rewrite HD.
      destruct (Nat.eqb v (length (w_readers w))); [reflexivity|apply (ag_vars _ _ _ _ _ H)].
    + rewrite app_length, HD. cbn. lia.
    + intros v n F. unfold at_var in F. destruct (Nat.eqb v (t_declared t)); [discriminate|eauto].
    + intros n F. apply (ag_free _ _ _ _ _ H). intros v G. apply (F v). unfold at_var.
      destruct (Nat.eqb_spec v (t_declared t)) as [->|]; [|exact G].
      pose proof (declared _ _ _ _ _ _ _ (t_declared t) H). rewrite G, HD in H0.
      assert (length (w_readers w) < length (w_readers w))%nat by (apply H0; discriminate). lia.
    + intros u v n F G. unfold at_var in F, G.
      destruct (Nat.eqb u (t_declared t)); [discriminate|].
      destruct (Nat.eqb v (t_declared t)); [discriminate|]. apply (ag_one _ _ _ _ _ H _ _ _ F G).
  - (* SMove *)
    rewrite (ag_vars _ _ _ _ _ H v).
    assert (HD : t_declared t = length (w_readers w)) by (symmetry; apply (ag_declared _ _ _ _ _ H)).
    destruct (t_var t v) as [| |m] eqn:E; cbn [shown_as fst snd]; (split; [reflexivity|]); auto;
      (assert (HV : (v < length (w_readers w))%nat) by (apply (declared _ _ _ _ _ _ _ _ H); congruence));
      apply agrees_vars; auto.
    1, 6: intros u; rewrite nth_snoc, upd_len; unfold at_var; rewrite HD;
      destruct (Nat.eqb u (length (w_readers w))); [reflexivity|]; rewrite nth_upd by exact HV;
      destruct (Nat.eqb u v); [reflexivity|apply (ag_vars _ _ _ _ _ H)].
    1, 5: rewrite app_length, upd_len, HD; cbn; lia.
    + intros u n F. unfold at_var in F. destruct (Nat.eqb u (t_declared t)); [discriminate|].
      destruct (Nat.eqb u v); [discriminate|eauto].
    + intros n F. apply (ag_free _ _ _ _ _ H). intros u G. apply (F u). unfold at_var.
      destruct (Nat.eqb_spec u (t_declared t)) as [->|].
      * pose proof (declared _ _ _ _ _ _ _ (t_declared t) H) as K. rewrite G, HD in K.
        assert (length (w_readers w) < length (w_readers w))%nat by (apply K; discriminate). lia.
      * destruct (Nat.eqb_spec u v) as [->|]; [congruence|exact G].
    + intros u u' n F G. unfold at_var in F, G.
      destruct (Nat.eqb u (t_declared t)); [discriminate|]. destruct (Nat.eqb u v); [discriminate|].
      destruct (Nat.eqb u' (t_declared t)); [discriminate|]. destruct (Nat.eqb u' v); [discriminate|].
      apply (ag_one _ _ _ _ _ H _ _ _ F G).
    + intros u n F. unfold at_var in F. destruct (Nat.eqb u (t_declared t)).
      * assert (m = n) by congruence. subst m. eauto.
      * destruct (Nat.eqb u v); [discriminate|eauto].
    + intros n F. apply (ag_free _ _ _ _ _ H). intros u G.
      destruct (Nat.eqb_spec u v) as [->|N].
      * apply (F (t_declared t)). unfold at_var. rewrite Nat.eqb_refl. congruence.
      * apply (F u). unfold at_var. destruct (Nat.eqb_spec u (t_declared t)) as [->|].
        -- pose proof (declared _ _ _ _ _ _ _ (t_declared t) H) as K. rewrite G, HD in K.
           assert (length (w_readers w) < length (w_readers w))%nat by (apply K; discriminate). lia.
        -- destruct (Nat.eqb_spec u v) as [->|]; [congruence|exact G].
    + intros u u' n F G. unfold at_var in F, G.
      destruct (Nat.eqb_spec u (t_declared t)) as [->|Nu], (Nat.eqb_spec u' (t_declared t)) as [->|Nu']; auto.
      * destruct (Nat.eqb_spec u' v) as [->|N]; [discriminate|]. exfalso. apply N.
        apply (ag_one _ _ _ _ _ H _ _ n); congruence.
      * destruct (Nat.eqb_spec u v) as [->|N]; [discriminate|]. exfalso. apply N.
        apply (ag_one _ _ _ _ _ H _ _ n); congruence.
      * destruct (Nat.eqb u v); [discriminate|]. destruct (Nat.eqb u' v); [discriminate|].
        apply (ag_one _ _ _ _ _ H _ _ _ F G).
  - (* SAssign *)
    rewrite (ag_vars _ _ _ _ _ H v), (ag_vars _ _ _ _ _ H u).
    assert (DONE : forall p q, t_var t v = p -> t_var t u = q -> p <> Nowhere -> q <> Nowhere -> v <> u ->
      forall h, shown_as p = Some h -> forall h2, shown_as q = Some h2 ->
      agrees c src k
        (World (drop_impl h (w_impls w)) (upd v (Some h2) (upd u (Some None) (w_readers w))) (w_sinks w)
           (w_refs w) (w_log w))
        (Table (at_var v q (at_var u Empty (t_var t))) (t_declared t) (t_lives t) (t_refs t))).
    { intros p q Ep Eq Np Nq N h Sp h2 Sq.
      assert (HV : (v < length (w_readers w))%nat) by (apply (declared _ _ _ _ _ _ _ _ H); congruence).
      assert (HU : (u < length (w_readers w))%nat) by (apply (declared _ _ _ _ _ _ _ _ H); congruence).
      assert (DROP : forall n, (forall m, p = Holds m -> m <> n) ->
        nth n (drop_impl h (w_impls w)) None = nth n (w_impls w) None).
      { intros n F. destruct p as [| |m]; cbn in Sp; try congruence; injection Sp as <-; [reflexivity|].
        cbn [drop_impl]. rewrite nth_upd by (apply (held_bound _ _ _ _ _ _ _ _ _ H Ep)).
        destruct (Nat.eqb_spec n m) as [->|]; [|reflexivity]. exfalso. apply (F m); reflexivity. }
      apply agrees_vars; auto.
      - intros x. rewrite nth_upd by (rewrite upd_len; exact HV). rewrite nth_upd by exact HU. unfold at_var.
        destruct (Nat.eqb x v); [congruence|]. destruct (Nat.eqb x u); [reflexivity|]. apply (ag_vars _ _ _ _ _ H).
      - rewrite !upd_len. apply (ag_declared _ _ _ _ _ H).
      - apply drop_len.
      - intros x n F. unfold at_var in F. destruct (Nat.eqb x v); [exists u; congruence|].
        destruct (Nat.eqb x u); [discriminate|eauto].
      - intros x n F. apply DROP. intros m Pm Mn. unfold at_var in F.
        destruct (Nat.eqb_spec x v) as [Xv|Nv].
        + apply N. apply (ag_one _ _ _ _ _ H v u n); congruence.
        + destruct (Nat.eqb x u); [discriminate|]. apply Nv. apply (ag_one _ _ _ _ _ H x v n); congruence.
      - intros n F.
        assert (K : (exists m, p = Holds m /\ m = n) \/ forall m, p = Holds m -> m <> n).
        { destruct p as [| |m]; [right; discriminate|right; discriminate|].
          destruct (Nat.eq_dec m n) as [->|M]; [left; eauto|right; congruence]. }
        destruct K as [(m & Pm & ->)|K].
        + rewrite Pm in Sp. cbn in Sp. injection Sp as <-. cbn [drop_impl].
          rewrite nth_upd, Nat.eqb_refl by (apply (held_bound _ _ _ _ _ _ _ v _ H); congruence). reflexivity.
        + rewrite DROP by exact K. apply (ag_free _ _ _ _ _ H). intros x G.
          destruct (Nat.eq_dec x v) as [->|Nv].
          { apply (K n); congruence. }
          destruct (Nat.eq_dec x u) as [->|Nu].
          { apply (F v). unfold at_var. rewrite Nat.eqb_refl. congruence. }
          apply (F x). unfold at_var.
          destruct (Nat.eqb_spec x v); [congruence|]. destruct (Nat.eqb_spec x u); [congruence|]. exact G.
      - intros x y n F G. unfold at_var in F, G.
        destruct (Nat.eqb_spec x v) as [->|Nx], (Nat.eqb_spec y v) as [->|Ny]; auto.
        + destruct (Nat.eqb_spec y u) as [->|M]; [discriminate|]. exfalso. apply M.
          apply (ag_one _ _ _ _ _ H _ _ n); congruence.
        + destruct (Nat.eqb_spec x u) as [->|M]; [discriminate|]. exfalso. apply M.
          apply (ag_one _ _ _ _ _ H _ _ n); congruence.
        + destruct (Nat.eqb x u); [discriminate|]. destruct (Nat.eqb y u); [discriminate|].
          apply (ag_one _ _ _ _ _ H _ _ _ F G). }
    destruct (t_var t v) as [| |m] eqn:Ev; cbn [shown_as]; [split; [reflexivity|exact H]| |];
      (destruct (t_var t u) as [| |m2] eqn:Eu; cbn [shown_as]; [split; [reflexivity|exact H]| |]);
      (destruct (Nat.eqb_spec v u) as [->|N]; cbn [fst snd]; (split; [reflexivity|]); [exact H|]);
      (eapply DONE; [reflexivity|reflexivity|discriminate|discriminate|exact N|reflexivity|reflexivity]).
  - (* SDestroy *)
    rewrite (ag_vars _ _ _ _ _ H v).
    assert (DONE : forall p, t_var t v = p -> p <> Nowhere -> forall h, shown_as p = Some h ->
      agrees c src k
        (World (drop_impl h (w_impls w)) (upd v None (w_readers w)) (w_sinks w) (w_refs w) (w_log w))
        (Table (at_var v Nowhere (t_var t)) (t_declared t) (t_lives t) (t_refs t))).
    { intros p Ep Np h Sp.
      assert (HV : (v < length (w_readers w))%nat) by (apply (declared _ _ _ _ _ _ _ _ H); congruence).
      assert (DROP : forall n, (forall m, p = Holds m -> m <> n) ->
        nth n (drop_impl h (w_impls w)) None = nth n (w_impls w) None).
      { intros n F. destruct p as [| |m]; cbn in Sp; try congruence; injection Sp as <-; [reflexivity|].
        cbn [drop_impl]. rewrite nth_upd by (apply (held_bound _ _ _ _ _ _ _ _ _ H Ep)).
        destruct (Nat.eqb_spec n m) as [->|]; [|reflexivity]. exfalso. apply (F m); reflexivity. }
      apply agrees_vars; auto.
      - intros x. rewrite nth_upd by exact HV. unfold at_var.
        destruct (Nat.eqb x v); [reflexivity|]. apply (ag_vars _ _ _ _ _ H).
      - rewrite upd_len. apply (ag_declared _ _ _ _ _ H).
      - apply drop_len.
      - intros x n F. unfold at_var in F. destruct (Nat.eqb x v); [discriminate|eauto].
      - intros x n F. apply DROP. intros m Pm Mn. unfold at_var in F.
        destruct (Nat.eqb_spec x v) as [Xv|Nv]; [discriminate|]. apply Nv. apply (ag_one _ _ _ _ _ H x v n); congruence.
      - intros n F.
        assert (K : (exists m, p = Holds m /\ m = n) \/ forall m, p = Holds m -> m <> n).
        { destruct p as [| |m]; [right; discriminate|right; discriminate|].
          destruct (Nat.eq_dec m n) as [->|M]; [left; eauto|right; congruence]. }
        destruct K as [(m & Pm & ->)|K].
        + rewrite Pm in Sp. cbn in Sp. injection Sp as <-. cbn [drop_impl].
          rewrite nth_upd, Nat.eqb_refl by (apply (held_bound _ _ _ _ _ _ _ v _ H); congruence). reflexivity.
        + rewrite DROP by exact K. apply (ag_free _ _ _ _ _ H). intros x G.
          destruct (Nat.eq_dec x v) as [->|Nv].
          { apply (K n); congruence. }
          apply (F x). unfold at_var. destruct (Nat.eqb_spec x v); [congruence|]. exact G.
      - intros x y n F G. unfold at_var in F, G.
        destruct (Nat.eqb x v); [discriminate|]. destruct (Nat.eqb y v); [discriminate|].
        apply (ag_one _ _ _ _ _ H _ _ _ F G). }
    destruct (t_var t v) as [| |m] eqn:Ev; cbn [shown_as fst snd]; (split; [reflexivity|]); [exact H| |];
      (eapply DONE; [reflexivity|discriminate|reflexivity]).
  - (* SCall *)
    rewrite (ag_vars _ _ _ _ _ H v). destruct (t_var t v) as [| |n] eqn:E; cbn [shown_as].
    + split; [reflexivity|exact H].
    + split; [destruct o; reflexivity|exact H].
    + destruct (ag_held _ _ _ _ _ H v n E) as (b & calls & r & a & ev & L & F & I).
      rewrite I, L. cbn [im_r im_sink sink_now sinks_after owner_of]. rewrite living_step.
      unfold answer. rewrite F.
      destruct (drive_step c src k o r a) as [[[x r'] a'] ev'] eqn:D. cbn [fst snd sink_kept].
      split; [reflexivity|].
      assert (HB := held_bound _ _ _ _ _ _ _ _ _ H E).
      assert (F' : life c src k b (calls ++ [o]) = Some (r', a', ev ++ ev')).
      { rewrite (life_snoc _ _ _ _ _ _ _ o _ _ _ F). unfold play. rewrite D. reflexivity. }
      split; cbn.
      * apply (ag_vars _ _ _ _ _ H).
      * apply (ag_declared _ _ _ _ _ H).
      * rewrite upd_len, called_len. apply (ag_count _ _ _ _ _ H).
      * intros u m G. destruct (ag_held _ _ _ _ _ H u m G) as (b1 & calls1 & r1 & a1 & ev1 & L1 & F1 & I1).
        rewrite called_nth, L1, nth_upd by exact HB. destruct (Nat.eqb_spec m n) as [->|N].
        -- rewrite L in L1. injection L1 as <- <-. exists b, (calls ++ [o]), r', a', (ev ++ ev'). auto.
        -- exists b1, calls1, r1, a1, ev1. auto.
      * intros m G. rewrite nth_upd by exact HB. destruct (Nat.eqb_spec m n) as [->|N].
        -- exfalso. apply (G v E).
        -- apply (ag_free _ _ _ _ _ H m G).
      * apply (ag_one _ _ _ _ _ H).
      * apply (ag_refs _ _ _ _ _ H).
      * apply (ag_real _ _ _ _ _ H).
      * intros m b1 calls1 G. rewrite called_nth in G. rewrite mine_app, mine_pair.
        destruct (nth_error (t_lives t) m) as [[b2 calls2]|] eqn:L2; [|discriminate].
        injection G as <- <-. destruct (Nat.eqb_spec n m) as [<-|N].
        -- rewrite L in L2. injection L2 as <- <-. rewrite Nat.eqb_refl.
           rewrite (ag_log _ _ _ _ _ H _ _ _ L). unfold heard. rewrite F, F'. reflexivity.
        -- rewrite app_nil_r. destruct (Nat.eqb_spec m n); [congruence|]. apply (ag_log _ _ _ _ _ H _ _ _ L2).
      * intros m G. rewrite called_len in G. rewrite mine_app, mine_pair, (ag_quiet _ _ _ _ _ H _ G).
        destruct (Nat.eqb_spec n m) as [<-|N]; [|reflexivity].
        rewrite (ag_count _ _ _ _ _ H) in HB. lia.
  - (* SIndex *)
    rewrite (ag_vars _ _ _ _ _ H v). destruct (t_var t v) as [| |n] eqn:E; cbn [shown_as]; try (split; [reflexivity|exact H]).
    destruct (ag_held _ _ _ _ _ H v n E) as (b & calls & r & a & ev & L & F & I).
    rewrite I, L, F. split; [reflexivity|exact H].
  - (* SProps *)
    rewrite (ag_vars _ _ _ _ _ H v).
    assert (DONE : forall p x, p <> Nowhere -> ref_as p = x ->
      agrees c src k (World (w_impls w) (w_readers w) (w_sinks w) (w_refs w ++ [x]) (w_log w))
        (Table (t_var t) (t_declared t) (t_lives t) (t_refs t ++ [p]))).
    { intros p x N R. split; cbn; try apply H.
      - rewrite map_app, (ag_refs _ _ _ _ _ H). cbn. rewrite R. reflexivity.
      - apply Forall_app. split; [apply H|]. constructor; [exact N|constructor]. }
    destruct (t_var t v) as [| |n] eqn:E; cbn [shown_as fst snd]; (split; [reflexivity|]); [exact H| |];
      apply DONE; try discriminate; reflexivity.
  - (* SLook *)
    rewrite (ag_refs _ _ _ _ _ H), nth_error_map.
    destruct (nth_error (t_refs t) r) as [p|] eqn:E; cbn [option_map]; [|split; [reflexivity|exact H]].
    assert (NP : p <> Nowhere).
    { pose proof (ag_real _ _ _ _ _ H) as R. rewrite Forall_forall in R. apply R. apply (nth_error_In _ _ E). }
    destruct p as [| |n]; cbn [ref_as]; [congruence|split; [reflexivity|exact H]|].
    destruct (is_held t n) eqn:HH.
    + unfold is_held in HH. apply existsb_exists in HH. destruct HH as (v & _ & Hv).
      assert (Ev : t_var t v = Holds n).
      { unfold holds in Hv. destruct (t_var t v) as [| |m]; try discriminate. apply Nat.eqb_eq in Hv. congruence. }
      destruct (ag_held _ _ _ _ _ H v n Ev) as (b & calls & r1 & a & ev & L & F & I).
      rewrite L, I. destruct (life_keeps _ _ _ _ _ _ _ _ _ _ F) as (r0 & a0 & ev0 & G & G1 & G2).
      rewrite G. cbn [im_r properties]. rewrite G1, G2. split; [reflexivity|exact H].
    + assert (FREE : forall v, t_var t v <> Holds n).
      { intros v F. assert (HV : (v < length (w_readers w))%nat) by (apply (declared _ _ _ _ _ _ _ _ H); congruence).
        rewrite (ag_declared _ _ _ _ _ H) in HV.
        assert (is_held t n = true); [|congruence]. unfold is_held. apply existsb_exists. exists v. split.
        - apply in_seq. lia.
        - unfold holds. rewrite F. apply Nat.eqb_refl. }
      rewrite (ag_free _ _ _ _ _ H n FREE).
      destruct (nth_error (t_lives t) n) as [[b calls]|]; split; try reflexivity; exact H.
Qed.

Lemma all_tell : forall S A c (src : source S) (k : sink A) p w t,
  agrees c src k w t -> Forall owning p ->
  fst (exec_all c src k p w) = fst (tell_all c src k p t)
  /\ agrees c src k (snd (exec_all c src k p w)) (snd (tell_all c src k p t)).
Proof.
  intros S A c src k p. induction p as [|st p IH]; intros w t H O; [split; [reflexivity|exact H]|].
  inversion O as [|? ? O1 O2]; subst. cbn [exec_all tell_all].
  destruct (exec_tells _ _ c src k st w t H O1) as [E G].
  destruct (exec c src k st w) as [x w1], (tell c src k st t) as [y t1]. cbn [fst snd] in E, G. subst y.
  specialize (IH w1 t1 G O2).
  destruct (exec_all c src k p w1) as [xs w2], (tell_all c src k p t1) as [ys t2]. cbn [fst snd] in IH.
  destruct IH as [I1 I2]. destruct x; cbn [fst snd]; split; congruence.
Qed.

Lemma objects_are_histories : forall S A c (src : source S) (k : sink A) p,
  Forall owning p ->
  let '(xs, w) := exec_all c src k p no_objects in
  let '(ys, t) := tell_all c src k p nothing_yet in
  xs = ys /\
  forall n b calls, nth_error (t_lives t) n = Some (b, calls) -> mine n (w_log w) = heard c src k b calls.
Proof.
  intros S A c src k p O.
  destruct (all_tell _ _ c src k p no_objects nothing_yet (agrees_start _ _ c src k) O) as [E G].
  destruct (exec_all c src k p no_objects) as [xs w], (tell_all c src k p nothing_yet) as [ys t].
  cbn [fst snd] in E, G. split; [exact E|apply (ag_log _ _ _ _ _ G)].
Qed.

(** ** References to the properties *)

Lemma opened : forall S A c (src : source S) (k : sink A) flt s a r a' ev,
  drive_open c src k flt s a = (Ok r, a', ev) -> ev = [EvProps (rs_h r) (rs_md r)].
Proof.
  intros S A c src k flt s a r a' ev H. unfold drive_open in H.
  match type of H with context [match ?m with Ok _ => _ | _ => _ end] => destruct m as [r0|e| |u|] end; try discriminate.
  destruct (k (EvProps (rs_h r0) (rs_md r0)) a) as [[[]|e| |u|] a1]; cbn in H; try discriminate.
  injection H as <- <- <-. reflexivity.
Qed.

Lemma plays_after : forall S A c (src : source S) (k : sink A) calls r a ev r' a' ev',
  fold_left (play c src k) calls (r, a, ev) = (r', a', ev') -> exists more, ev' = ev ++ more.
Proof.
  intros S A c src k calls. induction calls as [|o calls IH]; intros r a ev r' a' ev' H; cbn [fold_left] in H.
  - injection H as <- <- <-. exists []. rewrite app_nil_r. reflexivity.
  - destruct (drive_step c src k o r a) as [[[x r1] a1] ev1] eqn:E.
    unfold play at 2 in H. rewrite E in H. apply IH in H. destruct H as [more ->].
    exists (ev1 ++ more). rewrite app_assoc. reflexivity.
Qed.

Lemma heard_first : forall S A c (src : source S) (k : sink A) b calls r a ev,
  life c src k b calls = Some (r, a, ev) ->
  exists more, heard c src k b calls = EvProps (rs_h r) (rs_md r) :: more.
Proof.
  intros S A c src k b calls r a ev H. unfold heard. rewrite H. unfold life in H.
  destruct (drive_open c src k (b_filter b) (b_source b) (b_sink b)) as [[[r0|e| |u|] a0] ev0] eqn:E; try discriminate.
  injection H as H. apply opened in E. subst ev0.
  destruct (plays_keep _ _ _ _ _ _ _ _ _ _ _ _ H) as [-> ->].
  destruct (plays_after _ _ _ _ _ _ _ _ _ _ _ _ H) as [more ->]. exists more. reflexivity.
Qed.

Lemma reference_shows : forall S A c (src : source S) (k : sink A) p xs w r i,
  Forall owning p -> exec_all c src k p no_objects = (xs, w) ->
  nth_error (w_refs w) r = Some (RefImpl i) ->
  ((exists v, nth v (w_readers w) None = Some (Some i)) ->
     exists h md more, mine i (w_log w) = EvProps h md :: more
     /\ exec c src k (SLook r) w = (Ok (VProps h md), w))
  /\ (~ (exists v, nth v (w_readers w) None = Some (Some i)) ->
     exec c src k (SLook r) w = (Undef UB_lifetime, w)).
Proof.
  intros S A c src k p xs w r i O E R.
  destruct (all_tell _ _ c src k p no_objects nothing_yet (agrees_start _ _ c src k) O) as [_ G].
  rewrite E in G. cbn [snd] in G. set (t := snd (tell_all c src k p nothing_yet)) in *. clearbody t.
  cbn [exec]. rewrite R. split.
  - intros [v V]. rewrite (ag_vars _ _ _ _ _ G) in V.
    destruct (t_var t v) as [| |n] eqn:T; cbn in V; try discriminate. injection V as ->.
    destruct (ag_held _ _ _ _ _ G v i T) as (b & calls & r1 & a & ev & L & F & I).
    rewrite I. cbn [im_r properties]. destruct (heard_first _ _ _ _ _ _ _ _ _ _ F) as [more M].
    exists (rs_h r1), (rs_md r1), more. rewrite (ag_log _ _ _ _ _ G _ _ _ L). split; [exact M|reflexivity].
  - intros N. rewrite (ag_free _ _ _ _ _ G); [reflexivity|].
    intros v T. apply N. exists v. rewrite (ag_vars _ _ _ _ _ G), T. reflexivity.
Qed.

(** ** Named sinks *)

Record paired {S A} (w w' : world S A) : Prop := {
  pd_readers : w_readers w' = w_readers w;
  pd_refs : w_refs w' = w_refs w;
  pd_impls : length (w_impls w') = length (w_impls w);
  pd_sinks : length (w_sinks w') = length (w_impls w);
  pd_each : forall n,
    match nth n (w_impls w) None with
    | None => nth n (w_impls w') None = None
    | Some (Impl r (ByValue a)) =>
        nth n (w_impls w') None = Some (Impl r (ByName n)) /\ nth n (w_sinks w') None = Some a
    | Some (Impl r (ByName _)) => False
    end;
  pd_log : forall n, told_to n (w_log w') = mine n (w_log w)
}.

Local Arguments told_to : simpl never.

Lemma told_app : forall n u v, told_to n (u ++ v) = told_to n u ++ told_to n v.
Proof. intros n u v. unfold told_to. rewrite filter_app, map_app. reflexivity. Qed.

Lemma told_pair : forall n m ev,
  told_to n (map (pair (Named m)) ev) = if Nat.eqb m n then ev else [].
Proof.
  intros n m ev. unfold told_to. induction ev as [|e ev IH]; cbn.
  - destruct (Nat.eqb m n); reflexivity.
  - destruct (Nat.eqb m n); cbn; [f_equal|]; exact IH.
Qed.

Lemma nth_None_upd : forall A n m (l : list (option A)),
  nth m (upd n None l) None = if Nat.eqb m n then None else nth m l None.
Proof.
  intros A n m l. revert n m. induction l as [|x l IH]; intros [|n] [|m]; cbn; auto.
  destruct (Nat.eqb m n); reflexivity.
Qed.

(** Every statement but a construction. *)
Lemma paired_exec : forall S A c (src : source S) (k : sink A) st w w',
  paired w w' -> owning st -> (forall arg flt s, st <> SNew arg flt s) ->
  fst (exec c src k st w') = fst (exec c src k st w)
  /\ paired (snd (exec c src k st w)) (snd (exec c src k st w')).
Proof.
  intros S A c src k st w w' H O N.
  assert (DROP : forall h readers,
    paired (World (drop_impl h (w_impls w)) readers (w_sinks w) (w_refs w) (w_log w))
           (World (drop_impl h (w_impls w')) readers (w_sinks w') (w_refs w') (w_log w'))).
  { intros h readers. split; cbn [w_impls w_readers w_sinks w_refs w_log]; try apply H; try reflexivity.
    - rewrite !drop_len. apply H.
    - rewrite drop_len. apply H.
    - intros n. destruct h as [i|]; cbn [drop_impl]; [|apply (pd_each _ _ H)].
      rewrite !nth_None_upd. destruct (Nat.eqb n i); [reflexivity|apply (pd_each _ _ H)]. }
  destruct st as [arg flt s| |v|v u|v|v o|v|v|r|a|n0]; cbn [owning] in O; try contradiction;
    try (exfalso; eapply N; reflexivity); cbn [exec]; rewrite ?(pd_readers _ _ H), ?(pd_refs _ _ H).
  - split; [reflexivity|]. split; cbn; try reflexivity; apply H.
  - destruct (nth v (w_readers w) None) as [h|]; cbn [fst snd]; (split; [reflexivity|]); [|exact H].
    split; cbn; try reflexivity; apply H.
  - destruct (nth v (w_readers w) None) as [h|]; [|split; [reflexivity|exact H]].
    destruct (nth u (w_readers w) None) as [h2|]; [|split; [reflexivity|exact H]].
    destruct (Nat.eqb v u); (split; [reflexivity|]); cbn [snd]; [exact H|].
    pose proof (DROP h) as D. rewrite (pd_refs _ _ H) in D. apply D.
  - destruct (nth v (w_readers w) None) as [h|]; cbn [fst snd]; (split; [reflexivity|]); [|exact H].
    pose proof (DROP h) as D. rewrite (pd_refs _ _ H) in D. apply D.
  - destruct (nth v (w_readers w) None) as [[i|]|]; [|split; [reflexivity|exact H]|split; [reflexivity|exact H]].
    pose proof (pd_each _ _ H i) as P.
    destruct (nth i (w_impls w) None) as [[r [a|m]]|] eqn:I; [|contradiction|].
    + destruct P as [P1 P2]. rewrite P1. cbn [im_r im_sink sink_now sinks_after owner_of]. rewrite P2.
      rewrite !living_step. destruct (drive_step c src k o r a) as [[[x r'] a'] ev]. cbn [fst snd sink_kept].
      split; [reflexivity|].
      assert (B : (i < length (w_impls w))%nat).
      { destruct (Nat.lt_ge_cases i (length (w_impls w))) as [L|L]; [exact L|].
        rewrite nth_overflow in I by exact L. discriminate. }
      split; cbn.
      * reflexivity.
      * reflexivity.
      * rewrite !upd_len. apply H.
      * rewrite !upd_len. apply H.
      * intros n. rewrite !nth_upd by (rewrite ?(pd_impls _ _ H), ?(pd_sinks _ _ H); exact B).
        destruct (Nat.eqb_spec n i) as [->|]; [split; reflexivity|]. apply (pd_each _ _ H).
      * intros n. rewrite told_app, told_pair, mine_app, mine_pair, (pd_log _ _ H). reflexivity.
    + rewrite P. split; [reflexivity|exact H].
  - destruct (nth v (w_readers w) None) as [[i|]|]; [|split; [reflexivity|exact H]|split; [reflexivity|exact H]].
    pose proof (pd_each _ _ H i) as P.
    destruct (nth i (w_impls w) None) as [[r [a|m]]|]; [|contradiction|].
    + destruct P as [-> _]. split; [reflexivity|exact H].
    + rewrite P. split; [reflexivity|exact H].
  - destruct (nth v (w_readers w) None) as [h|]; cbn [fst snd]; (split; [reflexivity|]); [|exact H].
    split; cbn; try reflexivity; apply H.
  - destruct (nth_error (w_refs w) r) as [[|i]|]; [split; [reflexivity|exact H]| |split; [reflexivity|exact H]].
    pose proof (pd_each _ _ H i) as P.
    destruct (nth i (w_impls w) None) as [[r0 [a|m]]|]; [|contradiction|].
    + destruct P as [-> _]. split; [reflexivity|exact H].
    + rewrite P. split; [reflexivity|exact H].
Qed.

(** A construction, with its sink declared before it. *)
Lemma paired_new : forall S A c (src : source S) (k : sink A) a flt s w w',
  paired w w' ->
  let w1 := snd (exec c src k (SSink a) w') in
  fst (exec c src k (SNew (ByName (length (w_impls w))) flt s) w1) = fst (exec c src k (SNew (ByValue a) flt s) w)
  /\ paired (snd (exec c src k (SNew (ByValue a) flt s) w))
       (snd (exec c src k (SNew (ByName (length (w_impls w))) flt s) w1))
  /\ length (w_impls (snd (exec c src k (SNew (ByValue a) flt s) w))) = Datatypes.S (length (w_impls w)).
Proof.
  intros S A c src k a flt s w w' H. cbn [exec snd w_impls w_readers w_sinks w_refs w_log sink_now sinks_after owner_of].
  assert (HS := pd_sinks _ _ H). assert (HI := pd_impls _ _ H).
  rewrite nth_snoc, HS, Nat.eqb_refl. rewrite !living_open.
  destruct (drive_open c src k flt s a) as [[x a'] ev].
  assert (U : upd (length (w_impls w)) (Some a') (w_sinks w' ++ [Some a]) = w_sinks w' ++ [Some a']).
  { rewrite <- HS. clear. induction (w_sinks w') as [|y l IH]; cbn; [reflexivity|]. rewrite IH. reflexivity. }
  rewrite U.
  assert (LOG : forall n, told_to n (w_log w' ++ map (pair (Named (length (w_impls w)))) ev)
                          = mine n (w_log w ++ map (pair (InImpl (length (w_impls w)))) ev)).
  { intros n. rewrite told_app, told_pair, mine_app, mine_pair, (pd_log _ _ H). reflexivity. }
  assert (BAD : paired
    (World (w_impls w ++ [None]) (w_readers w ++ [None]) (w_sinks w) (w_refs w)
       (w_log w ++ map (pair (InImpl (length (w_impls w)))) ev))
    (World (w_impls w' ++ [None]) (w_readers w' ++ [None]) (w_sinks w' ++ [Some a']) (w_refs w')
       (w_log w' ++ map (pair (Named (length (w_impls w)))) ev))).
  { split; cbn; auto.
    - rewrite (pd_readers _ _ H). reflexivity.
    - apply H.
    - rewrite !app_length. cbn. lia.
    - rewrite !app_length. cbn. lia.
    - intros n. rewrite !nth_snoc, HI, HS. destruct (Nat.eqb n (length (w_impls w))); [reflexivity|apply (pd_each _ _ H)]. }
  destruct x as [r|e| |u|]; cbn [fst snd sink_kept w_impls];
    (split; [reflexivity|]); (split; [|rewrite app_length; cbn; lia]); try exact BAD.
  split; cbn; auto.
  - rewrite (pd_readers _ _ H), HI. reflexivity.
  - apply H.
  - rewrite !app_length. cbn. lia.
  - rewrite !app_length. cbn. lia.
  - intros n. rewrite !nth_snoc, HI, HS. destruct (Nat.eqb_spec n (length (w_impls w))) as [->|]; [split; reflexivity|].
    apply (pd_each _ _ H).
Qed.

Lemma exec_impls : forall S A c (src : source S) (k : sink A) st w,
  (forall arg flt s, st <> SNew arg flt s) ->
  length (w_impls (snd (exec c src k st w))) = length (w_impls w).
Proof.
  intros S A c src k st w N.
  destruct st as [arg flt s| |v|v u|v|v o|v|v|r|a|n0]; try (exfalso; eapply N; reflexivity); cbn [exec].
  - reflexivity.
  - destruct (nth v (w_readers w) None); reflexivity.
  - destruct (nth v (w_readers w) None); [|reflexivity]. destruct (nth u (w_readers w) None); [|reflexivity].
    destruct (Nat.eqb v u); [reflexivity|]. cbn. apply drop_len.
  - destruct (nth v (w_readers w) None); [|reflexivity]. cbn. apply drop_len.
  - destruct (nth v (w_readers w) None) as [[i|]|]; try reflexivity.
    destruct (nth i (w_impls w) None) as [m|]; [|reflexivity].
    destruct (drive_step c src (living k) o (im_r m) (sink_now w (im_sink m))) as [[[x r'] a'] ev].
    cbn. apply upd_len.
  - destruct (nth v (w_readers w) None) as [[i|]|]; try reflexivity.
    destruct (nth i (w_impls w) None); reflexivity.
  - destruct (nth v (w_readers w) None); reflexivity.
  - destruct (nth_error (w_refs w) r) as [[|i]|]; try reflexivity. destruct (nth i (w_impls w) None); reflexivity.
  - reflexivity.
  - destruct (nth n0 (w_sinks w) None); reflexivity.
Qed.

Lemma no_outcomes : forall S A (p : list (stmt S A)), named_outcomes p [] = [].
Proof. intros S A [|[] p]; reflexivity. Qed.

Lemma paired_all : forall S A c (src : source S) (k : sink A) p w w',
  paired w w' -> Forall owning p ->
  fst (exec_all c src k (with_names (length (w_impls w)) p) w') = named_outcomes p (fst (exec_all c src k p w))
  /\ paired (snd (exec_all c src k p w)) (snd (exec_all c src k (with_names (length (w_impls w)) p) w')).
Proof.
  intros S A c src k p. induction p as [|st p IH]; intros w w' H O; [split; [reflexivity|exact H]|].
  inversion O as [|? ? O1 O2]; subst.
  assert (NEW : (exists a flt s, st = SNew (ByValue a) flt s) \/ forall arg flt s, st <> SNew arg flt s).
  { destruct st as [[a|n] flt s| | | | | | | | | |]; try (right; discriminate); [|contradiction O1]. left. eauto. }
  destruct NEW as [(a & flt & s & ->)|N].
  - destruct (paired_new _ _ c src k a flt s w w' H) as (P1 & P2 & P3).
    cbn [with_names].
    change (exec_all c src k (SSink a :: SNew (ByName (length (w_impls w))) flt s
              :: with_names (Datatypes.S (length (w_impls w))) p) w')
      with (let '(xs, w2) := exec_all c src k (SNew (ByName (length (w_impls w))) flt s
              :: with_names (Datatypes.S (length (w_impls w))) p) (snd (exec c src k (SSink a) w'))
            in (Ok VNone :: xs, w2)).
    set (w1 := snd (exec c src k (SSink a) w')) in *. cbn [exec_all].
    destruct (exec c src k (SNew (ByName (length (w_impls w))) flt s) w1) as [x w2] eqn:E2.
    destruct (exec c src k (SNew (ByValue a) flt s) w) as [y w3] eqn:E3.
    cbn [fst snd] in P1, P2, P3. subst y. specialize (IH w3 w2 P2 O2). rewrite P3 in IH.
    destruct (exec_all c src k (with_names (Datatypes.S (length (w_impls w))) p) w2) as [xs w4].
    destruct (exec_all c src k p w3) as [ys w5]. cbn [fst snd] in IH. destruct IH as [I1 I2].
    destruct x; cbn [fst snd named_outcomes]; (split; [|auto]); rewrite ?no_outcomes; congruence.
  - destruct (paired_exec _ _ c src k st w w' H O1 N) as [P1 P2].
    pose proof (exec_impls _ _ c src k st w N) as P3.
    assert (W : with_names (length (w_impls w)) (st :: p) = st :: with_names (length (w_impls w)) p).
    { destruct st; try reflexivity. exfalso. eapply N. reflexivity. }
    assert (U : forall x xs, named_outcomes (st :: p) (x :: xs) = x :: named_outcomes p xs).
    { intros x xs. destruct st; try reflexivity. exfalso. eapply N. reflexivity. }
    rewrite W. cbn [exec_all].
    destruct (exec c src k st w') as [x w2], (exec c src k st w) as [y w3].
    cbn [fst snd] in P1, P2, P3. subst y. specialize (IH w3 w2 P2 O2). rewrite P3 in IH.
    destruct (exec_all c src k (with_names (length (w_impls w)) p) w2) as [xs w4].
    destruct (exec_all c src k p w3) as [ys w5]. cbn [fst snd] in IH. destruct IH as [I1 I2].
    destruct x; cbn [fst snd]; rewrite ?U; (split; [|auto]); rewrite ?no_outcomes; congruence.
Qed.

Lemma named_sinks : forall S A c (src : source S) (k : sink A) p,
  Forall owning p ->
  let '(xs, w) := exec_all c src k p no_objects in
  let '(ys, w') := exec_all c src k (with_names 0 p) no_objects in
  ys = named_outcomes p xs /\ forall n, told_to n (w_log w') = mine n (w_log w).
Proof.
  intros S A c src k p O.
  assert (START : @paired S A no_objects no_objects).
  { split; cbn; try reflexivity. intros [|n]; reflexivity. }
  destruct (paired_all _ _ c src k p no_objects no_objects START O) as [E P].
  change (length (w_impls (@no_objects S A))) with 0%nat in *.
  destruct (exec_all c src k p no_objects) as [xs w],
    (exec_all c src k (with_names 0 p) no_objects) as [ys w']. cbn [fst snd] in *.
  split; [exact E|apply (pd_log _ _ P)].
Qed.

(** ** A Reader handed on *)

Lemma relay_moves : forall S A c (src : source S) (k : sink A) n v q (w : world S A) m,
  length (w_readers w) = Datatypes.S v -> nth v (w_readers w) None = Some (Some m) ->
  exists w', length (w_readers w') = Datatypes.S (v + n) /\ nth (v + n) (w_readers w') None = Some (Some m)
  /\ w_impls w' = w_impls w /\ w_log w' = w_log w
  /\ exec_all c src k (map SMove (seq v n) ++ q) w
     = (repeat (Ok VNone) n ++ fst (exec_all c src k q w'), snd (exec_all c src k q w')).
Proof.
  intros S A c src k n. induction n as [|n IH]; intros v q w m L V.
  - exists w. rewrite Nat.add_0_r. repeat split; auto. cbn. destruct (exec_all c src k q w); reflexivity.
  - cbn [seq map app exec_all exec]. rewrite V.
    destruct (IH (Datatypes.S v) q
      (World (w_impls w) (upd v (Some None) (w_readers w) ++ [Some (Some m)]) (w_sinks w) (w_refs w) (w_log w)) m)
      as (w' & L' & V' & I' & G' & E').
    + cbn. rewrite app_length, upd_len, L. cbn. lia.
    + cbn [w_readers]. rewrite nth_snoc, upd_len, L, Nat.eqb_refl. reflexivity.
    + exists w'. rewrite E'. cbn [w_impls w_log] in I', G'. cbn [repeat app fst snd].
      replace (v + Datatypes.S n)%nat with (Datatypes.S v + n)%nat by lia. auto.
Qed.

Lemma of_calls_repeat : forall n l, of_calls (repeat (Ok VNone) n ++ l) = of_calls l.
Proof. intros n l. induction n as [|n IH]; [reflexivity|]. exact IH. Qed.

Lemma relay_drives : forall S A c (src : source S) (k : sink A) l v (w : world S A) r a,
  length (w_readers w) = Datatypes.S v -> nth v (w_readers w) None = Some (Some O) ->
  w_impls w = [Some (Impl r (ByValue a))] ->
  of_calls (fst (exec_all c src k (relay v l) w))
  = map (fun e => rmap VOut (snd (fst e))) (fst (fst (drive c src k (map snd l) r a))).
Proof.
  intros S A c src k l. induction l as [|[n o] l IH]; intros v w r a L V I; [reflexivity|].
  cbn [relay].
  destruct (relay_moves _ _ c src k n v (SCall (v + n) o :: relay (v + n) l) w O L V) as (w' & L' & V' & I' & G' & E').
  rewrite E'. cbn [fst]. rewrite of_calls_repeat. rewrite I in I'.
  cbn [exec_all exec]. rewrite V', I'. cbn [nth im_r im_sink sink_now sinks_after owner_of]. rewrite living_step.
  cbn [map snd drive]. destruct (drive_step c src k o r a) as [[[x r'] a'] ev]. cbn [sink_kept upd].
  set (w2 := World [Some (Impl r' (ByValue a'))] (w_readers w') (w_sinks w') (w_refs w')
               (w_log w' ++ map (pair (InImpl 0)) ev)).
  assert (G := IH (v + n)%nat w2 r' a' L' V' eq_refl).
  destruct (exec_all c src k (relay (v + n) l) w2) as [xs w3].
  destruct (drive c src k (map snd l) r' a') as [[es r3] a3]. cbn [fst] in G.
  destruct x as [x|e| |u|]; cbn [rmap bind fst map of_calls filter]; try reflexivity; fold (of_calls xs); rewrite G; reflexivity.
Qed.

Lemma handed_on : forall S A c (src : source S) (k : sink A) a flt s r a' ev l,
  drive_open c src k flt s a = (Ok r, a', ev) ->
  of_calls (fst (exec_all c src k (SNew (ByValue a) flt s :: relay 0 l) no_objects))
  = map (fun e => rmap VOut (snd (fst e))) (fst (fst (drive c src k (map snd l) r a'))).
Proof.
  intros S A c src k a flt s r a' ev l E. cbn [exec_all exec no_objects w_impls w_readers w_sinks w_refs w_log sink_now sinks_after owner_of].
  rewrite living_open, E. cbn [sink_kept app length].
  set (w := World [Some (Impl r (ByValue a'))] [Some (Some O)] [] [] (map (pair (InImpl 0)) ev)).
  assert (G := relay_drives _ _ c src k l O w r a' eq_refl eq_refl eq_refl).
  destruct (exec_all c src k (relay 0 l) w) as [xs w2]. cbn [fst] in G. exact G.
Qed.
