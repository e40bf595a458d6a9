(** Proofs about the command line program, the csv sink made from a file name, and the
    rows a reader pushes. *)
From Verif Require Import Base Lemmas Types Buffer Float DateTime Page Column Header Metadata Decomp Data Reader
  SpecDecomp SpecReader ProofReader Sinks Cli SpecSinks.
Local Open Scope N_scope.

(** ** Files *)

Lemma fs_get_put : forall fs n c, fs_get (fs_put fs n c) n = Some c.
Proof.
  induction fs as [|[m d] fs IH]; intros n c; cbn [fs_put fs_get].
  - rewrite bytes_eqb_refl. reflexivity.
  - destruct (bytes_eqb m n) eqn:E; cbn [fs_get]; rewrite E; [reflexivity|apply IH].
Qed.

Lemma fs_get_put_other : forall fs n m c, m <> n -> fs_get (fs_put fs n c) m = fs_get fs m.
Proof.
  induction fs as [|[k d] fs IH]; intros n m c N; cbn [fs_put fs_get].
  - assert (E : bytes_eqb n m = false) by (apply bytes_eqb_false; congruence). rewrite E. reflexivity.
  - destruct (bytes_eqb k n) eqn:E; cbn [fs_get].
    + apply bytes_eqb_true in E. subst k.
      assert (E : bytes_eqb n m = false) by (apply bytes_eqb_false; congruence). rewrite E. reflexivity.
    + destruct (bytes_eqb k m); [reflexivity|apply IH, N].
Qed.

Lemma csv_destroys : forall c sink_first name fs content, fs_get fs name = Some content ->
  let '(fs', x) := process_csv_open c sink_first name fs in
  fs_get fs' name = Some [] /\ (forall other, other <> name -> fs_get fs' other = fs_get fs other)
  /\ x = open_reader c file_source None (file_open []).
Proof.
  intros c b name fs content H. unfold process_csv_open, fs_truncate. rewrite H.
  destruct b; rewrite fs_get_put; (split; [reflexivity|]; split; [|reflexivity]);
    intros o N; apply fs_get_put_other, N.
Qed.

(** ** print *)

Lemma print_loop_negative : forall S c (src : source S) fuel n r, (n < 0)%Z ->
  print_loop c src fuel n r = read_all_loop c src fuel r.
Proof.
  intros S c src fuel n. induction fuel as [|fuel IH]; intros r L; [reflexivity|].
  cbn [print_loop read_all_loop]. destruct (Z.eqb_spec n 0) as [E|_]; [lia|].
  destruct (Z.ltb_spec 0 n) as [E|_]; [lia|].
  destruct (read_row c src r) as [[x r1] ev]. destruct x as [[|]| | | |]; try reflexivity.
  rewrite IH by exact L. reflexivity.
Qed.

Lemma print_loop_few : forall S c (src : source S) fuel n r, (n < fuel)%nat ->
  print_loop c src fuel (Z.of_nat n) r
  = let '(x, r', ev) := read_rows c src n r in (all_of_rows (match x with Ok true => Ok false | _ => x end), r', ev).
Proof.
  intros S c src fuel. induction fuel as [|fuel IH]; intros n r L; [lia|].
  cbn [print_loop]. destruct n as [|n].
  - reflexivity.
  - destruct (Z.eqb_spec (Z.of_nat (Datatypes.S n)) 0) as [E|_]; [lia|].
    destruct (Z.ltb_spec 0 (Z.of_nat (Datatypes.S n))) as [_|E]; [|lia].
    cbn [read_rows]. destruct (read_row c src r) as [[x r1] ev]. destruct x as [[|]| | | |]; try reflexivity.
    replace (Z.of_nat (Datatypes.S n) - 1)%Z with (Z.of_nat n) by lia.
    rewrite IH by lia. destruct (read_rows c src n r1) as [[y r2] ev']. reflexivity.
Qed.

Lemma print_loop_many : forall S c (src : source S) fuel n r, (fuel <= n)%nat ->
  print_loop c src fuel (Z.of_nat n) r = read_all_loop c src fuel r.
Proof.
  intros S c src fuel. induction fuel as [|fuel IH]; intros n r L; [reflexivity|].
  cbn [print_loop read_all_loop]. destruct (Z.eqb_spec (Z.of_nat n) 0) as [E|_]; [lia|].
  destruct (Z.ltb_spec 0 (Z.of_nat n)) as [_|E]; [|lia].
  destruct (read_row c src r) as [[x r1] ev]. destruct x as [[|]| | | |]; try reflexivity.
  replace (Z.of_nat n - 1)%Z with (Z.of_nat (pred n)) by lia.
  rewrite IH by lia. reflexivity.
Qed.

Definition rows_done (x : res bool) : res unit :=
  match x with Ok _ => Ok tt | Exn e => Exn e | Abort => Abort | Undef u => Undef u | Fuel => Fuel end.

Lemma process_print_spec : forall S c (src : source S) s n r ev0,
  max_alloc c < row_limit -> open_reader c src None s = Ok (r, ev0) ->
  process_print c src n s
  = if (n <? 0)%Z
    then let '(x, _, ev) := read_all c src r in (x, ev0 ++ ev)
    else let '(x, _, ev) := read_rows c src (Z.to_nat n) r in (rows_done x, ev0 ++ ev).
Proof.
  intros S c src s n r ev0 M H. unfold process_print. rewrite H.
  destruct (opened_wf S c src None s r M) as [W A]; [exists ev0; exact H|].
  set (fuel := Datatypes.S (Datatypes.S (N.to_nat (md_row_count (rs_md r))))).
  assert (LF : left_rows r < N.of_nat fuel).
  { unfold left_rows, fuel. rewrite A. lia. }
  destruct (Z.ltb_spec n 0) as [L|L].
  - rewrite print_loop_negative by exact L. rewrite read_all_loop_rows, (read_all_rows S c src r fuel W LF).
    destruct (read_rows c src fuel r) as [[x r'] ev]. reflexivity.
  - rewrite <- (Z2Nat.id n) at 1 by exact L.
    destruct (Nat.lt_ge_cases (Z.to_nat n) fuel) as [K|K].
    + rewrite print_loop_few by exact K. destruct (read_rows c src (Z.to_nat n) r) as [[x r'] ev].
      destruct x as [[|]| | | |]; reflexivity.
    + rewrite print_loop_many by exact K. rewrite read_all_loop_rows.
      destruct (read_rows c src fuel r) as [[x r'] ev] eqn:R.
      assert (N : x <> Ok true) by (eapply read_rows_bounded; [exact W|exact LF|exact R]).
      rewrite (read_rows_more _ _ _ _ _ _ _ _ _ R N K). destruct x as [[|]| | | |]; try reflexivity. congruence.
Qed.

Lemma read_rows_at_most : forall S c (src : source S) n r x r' ev,
  read_rows c src n r = (x, r', ev) -> (length (rows_of ev) <= n)%nat
  /\ (x = Ok true -> length (rows_of ev) = n).
Proof.
  intros S c src n. induction n as [|n IH]; intros r x r' ev H; cbn [read_rows] in H.
  - injection H as <- <- <-. cbn. auto.
  - unfold read_row in H. destruct (read_line c src (rs_h r) (rs_md r) (rs_d r)) as [y d'].
    destruct y as [[p|]| | | |]; try (injection H as <- <- <-; cbn; split; [lia|discriminate]).
    destruct (read_rows c src n _) as [[z r2] ev2] eqn:R. injection H as <- <- <-.
    destruct (IH _ _ _ _ R) as [A B]. unfold rows_of in *. cbn. split; [lia|]. intros E. rewrite (B E). reflexivity.
Qed.

(** The first rows of all the rows. *)
Lemma read_rows_prefix : forall S c (src : source S) r n x r1 ev r2 ev2, wf_r r ->
  read_rows c src n r = (x, r1, ev) -> read_all c src r = (Ok tt, r2, ev2) ->
  rows_of ev = firstn n (rows_of ev2) /\ rows_done x = Ok tt.
Proof.
  intros S c src r n x r1 ev r2 ev2 W H A.
  set (m := (n + Datatypes.S (N.to_nat (left_rows r)))%nat).
  assert (L : left_rows r < N.of_nat m) by (unfold m; lia).
  rewrite (read_all_rows S c src r m W L) in A.
  destruct (read_rows_at_most _ _ _ _ _ _ _ _ H) as [B1 B2].
  assert (T : x = Ok true \/ x <> Ok true).
  { destruct x as [[|]| | | |]; auto; right; discriminate. }
  destruct T as [T|T].
  - subst x. unfold m in A. rewrite read_rows_plus, H in A.
    destruct (read_rows c src (Datatypes.S (N.to_nat (left_rows r))) r1) as [[y r3] ev3].
    injection A as A1 A2 A3. subst ev2. rewrite rows_of_app.
    rewrite <- (B2 eq_refl), firstn_app, firstn_all, Nat.sub_diag. cbn [firstn]. rewrite app_nil_r. auto.
  - rewrite (read_rows_more _ _ _ _ m _ _ _ _ H T) in A by (unfold m; lia).
    injection A as A1 A2 A3. subst ev2. rewrite firstn_all2 by exact B1. split; [reflexivity|].
    destruct x as [[|]| | | |]; cbn in *; congruence.
Qed.

Lemma print_rows : forall S c (src : source S) s n r ev0 r2 ev2,
  max_alloc c < row_limit -> open_reader c src None s = Ok (r, ev0) ->
  read_all c src r = (Ok tt, r2, ev2) ->
  exists evs, process_print c src n s = (Ok tt, evs)
  /\ rows_of evs = (if (n <? 0)%Z then rows_of ev2 else firstn (Z.to_nat n) (rows_of ev2)).
Proof.
  intros S c src s n r ev0 r2 ev2 M H A.
  destruct (opened_wf S c src None s r M) as [W _]; [exists ev0; exact H|].
  pose proof (open_events _ _ _ _ _ _ _ H) as E0.
  assert (R0 : rows_of ev0 = []) by (rewrite E0; reflexivity).
  rewrite (process_print_spec S c src s n r ev0 M H). destruct (n <? 0)%Z.
  - rewrite A. exists (ev0 ++ ev2). split; [reflexivity|]. rewrite rows_of_app, R0. reflexivity.
  - destruct (read_rows c src (Z.to_nat n) r) as [[x r1] ev] eqn:R.
    destruct (read_rows_prefix S c src r _ x r1 ev r2 ev2 W R A) as [P Q].
    rewrite Q. exists (ev0 ++ ev). split; [reflexivity|]. rewrite rows_of_app, R0. exact P.
Qed.

(** ** The rows of a history *)

Lemma increasing_from : forall rows i limit, map fst rows = from i (length rows) ->
  i + lenN rows <= limit -> forall more, increasing (i + lenN rows) limit more ->
  increasing i limit (rows ++ more).
Proof.
  induction rows as [|[j p] rows IH]; intros i limit F L more M.
  - change (lenN (@nil (N * pview))) with 0 in M. rewrite N.add_0_r in M. exact M.
  - cbn [map fst length from] in F. injection F as -> F.
    assert (LL : lenN ((i, p) :: rows) = lenN rows + 1) by (unfold lenN; cbn [length]; lia).
    rewrite LL in *. cbn [app increasing]. split; [lia|]. apply IH; [exact F|lia|].
    replace (i + 1 + lenN rows) with (i + (lenN rows + 1)) by lia. exact M.
Qed.

Lemma increasing_weaken : forall rows a b limit, a <= b -> increasing b limit rows -> increasing a limit rows.
Proof. intros [|[i p] rows] a b limit L H; [exact I|]. cbn in *. destruct H as [H1 H2]. split; [lia|exact H2]. Qed.

Lemma from_length : forall k i, length (from i k) = k.
Proof. induction k; intros i; cbn; [reflexivity|]. rewrite IHk. reflexivity. Qed.

Lemma consumes_le : forall i t j, consumes i t j ->
  map fst (rows_of (snd t)) = from i (length (rows_of (snd t))) /\ i + lenN (rows_of (snd t)) <= j.
Proof.
  intros i [[o x] ev] j H. unfold consumes in H. destruct H as (pushed & E & H). cbn [snd].
  assert (L : length (rows_of ev) = pushed).
  { unfold indices in E. rewrite <- (map_length fst), E. apply from_length. }
  split; [rewrite L; exact E|]. unfold lenN. rewrite L.
  destruct o, x as [y| | | |]; try (destruct y as [[|]| |[|]]); try contradiction; lia.
Qed.

Lemma numbered_increasing : forall t i j limit, numbered i t j -> j <= limit ->
  increasing i limit (rows_of (all_events t)).
Proof.
  induction t as [|e t IH]; intros i j limit H L; [exact I|].
  cbn [numbered] in H. destruct H as (k & C & H). apply consumes_le in C. destruct C as [C1 C2].
  assert (K : k <= j).
  { clear -H. revert k H. induction t as [|e t IH]; intros k H; cbn [numbered] in H; [subst; lia|].
    destruct H as (k' & C & H). apply consumes_le in C. apply IH in H. lia. }
  change (all_events (e :: t)) with (snd e ++ all_events t). rewrite rows_of_app.
  apply increasing_from; [exact C1|lia|]. eapply increasing_weaken; [exact C2|]. eapply IH; eassumption.
Qed.

Lemma history_increasing : forall S c (src : source S) flt s r0 ops t r,
  max_alloc c < row_limit -> opened c src flt s r0 -> trace c src ops (Some r0) = (t, r) ->
  increasing 0 (md_row_count (rs_md r0)) (rows_of (all_events t)).
Proof.
  intros S c src flt s r0 ops t r M O T.
  pose proof (history_numbered S c src flt s r0 ops t r M O T) as NB.
  destruct (history_bounded S c src flt s r0 ops t r M O T) as [B _].
  eapply numbered_increasing; eassumption.
Qed.

(** ** The csv sink made from a file name *)

Lemma csv_file_lost : forall f h md rows w,
  match csv_file_sink f h md rows w with
  | Ok w' => rows = [] /\ ow_file w' = []
  | Undef UB_lifetime => rows <> []
  | _ => exists i p rest, rows = (i, p) :: rest /\ forall line, csv_row f (md_columns md) p <> Ok line
  end.
Proof.
  intros f h md rows w. unfold csv_file_sink, csv_of_new, csv_of_move, csv_of_print.
  cbn [co_os co_self ow_objs ow_file]. set (n := length (ow_objs w)).
  assert (U : forall a b, upd n b (ow_objs w ++ [a]) = ow_objs w ++ [b]).
  { intros a b. unfold n. generalize (ow_objs w) as l. induction l as [|x l IH]; cbn; [reflexivity|]. rewrite IH. reflexivity. }
  rewrite U.
  assert (U2 : forall a b c, upd n c ((ow_objs w ++ [a]) ++ [b]) = (ow_objs w ++ [c]) ++ [b]).
  { intros a b c. unfold n. generalize (ow_objs w) as l. induction l as [|x l IH]; cbn; [reflexivity|]. rewrite IH. reflexivity. }
  assert (NE : forall a b : ofobj, nth_error ((ow_objs w ++ [a]) ++ [b]) n = Some a).
  { intros a b. rewrite nth_error_app1 by (rewrite app_length; cbn; unfold n; lia).
    rewrite nth_error_app2 by (unfold n; lia). unfold n. rewrite Nat.sub_diag. reflexivity. }
  rewrite NE. cbn [bind]. unfold csv_of_destroy. cbn [co_self ow_objs ow_file]. rewrite U2.
  destruct rows as [|[i p] rows].
  - split; reflexivity.
  - destruct (csv_row f (md_columns md) p) as [line| | | |] eqn:R; cbn [bind].
    + cbn [ow_objs]. rewrite NE. cbn. discriminate.
    + exists i, p, rows. split; [reflexivity|]. intros l; congruence.
    + exists i, p, rows. split; [reflexivity|]. intros l; congruence.
    + destruct u; try (exists i, p, rows; split; [reflexivity|]; intros l; congruence). discriminate.
    + exists i, p, rows. split; [reflexivity|]. intros l; congruence.
Qed.
