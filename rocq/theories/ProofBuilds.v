From Verif Require Import Base Types Buffer Page Column Header Metadata Decomp Data Reader
  Lemmas ProofHeader ProofMetaInv SpecReader SpecAsk SpecBuilds.
From Coq Require Import ZifyBool ZifyNat ZifyN.
Local Open Scope N_scope.

Section Two.
Variables c1 c2 : cfg.
Hypothesis LE : stricter c1 c2.

Definition below {A} (x y : res A) : Prop := gives_up c1 c2 x \/ x = y.

(** With a state beside the outcome. *)
Definition below2 {A B} (x y : res A * B) : Prop := gives_up c1 c2 (fst x) \/ x = y.

Lemma gives_up_bind : forall A B (x : res A) (k : A -> res B),
  gives_up c1 c2 x -> gives_up c1 c2 (bind x k).
Proof.
  intros A B x k [[-> H]|[-> H]]; [left|right]; (split; [reflexivity|exact H]).
Qed.

Lemma gives_up_any : forall A B (x : res A), gives_up c1 c2 x ->
  (x = Abort /\ gives_up c1 c2 (A := B) Abort) \/ (x = Exn E_bad_alloc /\ gives_up c1 c2 (A := B) (Exn E_bad_alloc)).
Proof.
  intros A B x [[-> H]|[-> H]]; [left|right]; (split; [reflexivity|]); [left|right]; (split; [reflexivity|exact H]).
Qed.

Lemma below_refl : forall A (x : res A), below x x.
Proof. right. reflexivity. Qed.

Lemma below_bind : forall A B (x y : res A) (k l : A -> res B), below x y ->
  (forall a, below (k a) (l a)) -> below (bind x k) (bind y l).
Proof.
  intros A B x y k l [H| ->] K; [left; apply gives_up_bind; exact H|].
  destruct y; cbn [bind]; [apply K|..]; right; reflexivity.
Qed.

Lemma below_assert : forall b, below (fmt_assert c1 b) (fmt_assert c2 b).
Proof.
  intros b. destruct LE as (D & _). unfold fmt_assert, below, gives_up.
  destruct (ndebug c1), (ndebug c2), b; auto; specialize (D eq_refl); discriminate.
Qed.

Lemma below_alloc : forall n, below (alloc c1 n) (alloc c2 n).
Proof.
  intros n. destruct LE as (_ & M & _). unfold alloc, below, gives_up.
  destruct (N.leb_spec n (max_alloc c1)), (N.leb_spec n (max_alloc c2)); auto; try lia.
  left. right. split; [reflexivity|lia].
Qed.

Lemma below_resize : forall b n, below (resize c1 b n) (resize c2 b n).
Proof.
  intros b n. unfold resize. destruct (_ <? _); [|apply below_refl].
  apply below_bind; [apply below_alloc|]. intros. apply below_refl.
Qed.

Lemma below_read_stream : forall S (src : source S) b s n off,
  gives_up c1 c2 (fst (fst (read_stream c1 src b s n off)))
  \/ read_stream c1 src b s n off = read_stream c2 src b s n off.
Proof.
  intros S src b s n off. unfold read_stream. destruct (below_resize b (off +! n)) as [H| ->]; [|right; reflexivity].
  left. apply (gives_up_any _ bool) in H. destruct H as [[-> H]|[-> H]]; exact H.
Qed.

Lemma below_header : forall S (src : source S) s,
  below (open_header c1 src s) (open_header c2 src s).
Proof.
  intros S src s. unfold open_header. apply below_bind.
  - unfold check_header. apply below_bind; [|intros []; apply below_refl].
    unfold check_header_ctor. destruct (below_read_stream S src empty_mbuf s HEADER_SIZE 0) as [H| ->]; [|apply below_refl].
    destruct (read_stream c1 src _ _ _ _) as [[x s'] b']. cbn [fst] in H. left.
    apply (gives_up_any _ (S * mbuf)) in H. destruct H as [[-> H]|[-> H]]; exact H.
  - intros ch. unfold read_header. apply below_bind.
    + unfold set_header_length_and_read. apply below_bind; [apply below_refl|]. intros hl.
      apply below_bind; [apply below_assert|]. intros _.
      destruct (below_read_stream S src (ch_buf ch) (ch_is ch) (hl -! HEADER_SIZE) HEADER_SIZE) as [H| ->]; [|apply below_refl].
      destruct (read_stream c1 src _ _ _ _) as [[x s'] b']. cbn [fst] in H. left.
      apply (gives_up_any _ (N * S * mbuf)) in H. destruct H as [[-> H]|[-> H]]; exact H.
    + intros [[hl s'] b']. apply below_bind; [|intros; apply below_refl].
      unfold set_header. apply below_bind; [apply below_assert|]. intros. apply below_refl.
Qed.

Lemma below_read_page : forall S (src : source S) e f plen p,
  below2 (read_page c1 src e f plen p) (read_page c2 src e f plen p).
Proof.
  intros S src e f plen p. unfold read_page. destruct (src_eof _ _); [right; reflexivity|].
  destruct (below_read_stream S src (ps_buf p) (ps_is p) plen 0) as [H| ->]; [|right; reflexivity].
  destruct (read_stream c1 src _ _ _ _) as [[x s'] b']. cbn [fst] in H. left.
  destruct H as [[-> H]|[-> H]]; cbn [fst]; [left|right]; (split; [reflexivity|exact H]).
Qed.

Lemma below_metadata_loop : forall S (src : source S) e f plen fuel p m,
  below (metadata_loop c1 src e f plen fuel p m) (metadata_loop c2 src e f plen fuel p m).
Proof.
  intros S src e f plen. induction fuel as [|fuel IH]; intros p m; cbn [metadata_loop]; [apply below_refl|].
  destruct (below_read_page S src e f plen p) as [H| ->].
  - destruct (read_page c1 src e f plen p) as [x p']. cbn [fst] in H. left.
    apply (gives_up_any _ (pstate S * mstate)) in H. destruct H as [[-> H]|[-> H]]; exact H.
  - destruct (read_page c2 src e f plen p) as [[[|]| | | |] p']; try apply below_refl.
    apply below_bind; [apply below_refl|]. intros [m' [|]]; [apply below_refl|apply IH].
Qed.

Lemma below_create : forall e flt m, below (create_columns c1 e flt m) (create_columns c2 e flt m).
Proof.
  intros e flt m. destruct LE as (_ & M & _). unfold create_columns.
  generalize (sizeof_column * md_column_count (m_md m)). intros n.
  destruct (N.leb_spec n (max_alloc c1)), (N.leb_spec n (max_alloc c2)); try apply below_refl; try lia.
  left. right. split; [reflexivity|lia].
Qed.

Lemma below_decompressor : forall k n, below (make_decompressor c1 k n) (make_decompressor c2 k n).
Proof.
  intros k n. destruct k; cbn [make_decompressor]; [apply below_refl|..]; unfold dst_new, mbuf_new;
    repeat (apply below_bind; [|intros; apply below_refl]); apply below_alloc.
Qed.

Lemma below_open : forall S (src : source S) flt s,
  below (open_reader c1 src flt s) (open_reader c2 src flt s).
Proof.
  intros S src flt s. unfold open_reader. apply below_bind; [apply below_header|].
  intros [[h s1] b1]. apply below_bind.
  - unfold set_metadata. destruct LE as (_ & _ & F). rewrite <- F.
    apply below_bind; [apply below_metadata_loop|]. intros [p m].
    apply below_bind; [apply below_create|]. intros. apply below_refl.
  - intros [[p md] dsh]. apply below_bind; [|intros; apply below_refl].
    unfold read_data. apply below_bind; [apply below_decompressor|]. intros. apply below_refl.
Qed.

Lemma below_next_page : forall S (src : source S) e f plen md fuel p,
  below2 (read_next_page c1 src e f plen md fuel p) (read_next_page c2 src e f plen md fuel p).
Proof.
  intros S src e f plen md. induction fuel as [|fuel IH]; intros p; cbn [read_next_page]; [right; reflexivity|].
  destruct (below_read_page S src e f plen p) as [H| ->].
  - destruct (read_page c1 src e f plen p) as [x p']. cbn [fst] in H. left.
    apply (gives_up_any _ (option page)) in H. destruct H as [[-> H]|[-> H]]; exact H.
  - destruct (read_page c2 src e f plen p) as [[[|]| | | |] p']; try (right; reflexivity).
    destruct (build_page _ _ _ _ _) as [[pg|]| | | |]; try (right; reflexivity). apply IH.
Qed.

Lemma below_data_next : forall S (src : source S) h md d,
  below2 (data_next c1 src h md d) (data_next c2 src h md d).
Proof.
  intros S src h md d. unfold data_next. destruct (_ =? _); [right; reflexivity|].
  destruct (ds_page d) as [pg|]; [|right; reflexivity]. destruct (page_next pg); [|right; reflexivity].
  destruct LE as (_ & _ & F). rewrite <- F.
  destruct (below_next_page S src (h_endianness h) (h_format h) (h_page_length h) md (page_fuel c1) (ds_p d))
    as [H| ->]; [|right; reflexivity].
  destruct (read_next_page c1 src _ _ _ _ _ _) as [x p']. cbn [fst] in H. left.
  apply (gives_up_any _ bool) in H. destruct H as [[-> H]|[-> H]]; exact H.
Qed.

Lemma below_extract : forall S h md off len (d : dstate S),
  below2 (extract_row_values c1 h md off len d) (extract_row_values c2 h md off len d).
Proof.
  intros S h md off len d. unfold extract_row_values.
  destruct (below_assert ((off +! len) <=? h_page_length h)) as [H| ->]; [|right; reflexivity].
  left. apply (gives_up_any _ pview) in H. destruct H as [[-> H]|[-> H]]; exact H.
Qed.

Lemma below_read_line : forall S (src : source S) h md d,
  below2 (read_line c1 src h md d) (read_line c2 src h md d).
Proof.
  intros S src h md d. unfold read_line. destruct (below_data_next S src h md d) as [H| ->].
  - destruct (data_next c1 src h md d) as [x d']. cbn [fst] in H. left.
    apply (gives_up_any _ (option pview)) in H. destruct H as [[-> H]|[-> H]]; exact H.
  - destruct (data_next c2 src h md d) as [[[|]| | | |] d1]; try (right; reflexivity).
    destruct (data_read_line d1) as [[[off len]| | | |] d2]; try (right; reflexivity).
    destruct (below_extract S h md off len d2) as [H| ->]; [|right; reflexivity].
    destruct (extract_row_values c1 h md off len d2) as [x d']. cbn [fst] in H. left. cbn [fst].
    apply gives_up_bind. exact H.
Qed.

Lemma below_data_skip : forall S (src : source S) h md n d,
  below2 (data_skip c1 src h md n d) (data_skip c2 src h md n d).
Proof.
  intros S src h md. induction n as [|n IH]; intros d; cbn [data_skip]; [right; reflexivity|].
  destruct (below_data_next S src h md d) as [H| ->].
  - destruct (data_next c1 src h md d) as [x d']. cbn [fst] in H. left.
    apply (gives_up_any _ bool) in H. destruct H as [[-> H]|[-> H]]; exact H.
  - destruct (data_next c2 src h md d) as [[[|]| | | |] d1]; try (right; reflexivity).
    destruct (data_read_line d1) as [[pl| | | |] d2]; try (right; reflexivity). apply IH.
Qed.

(** With the calls of the sink: when the first one gives up, its calls are the start of the
    calls of the other one. *)
Definition below3 {A B} (x y : res A * B * list event) : Prop :=
  (gives_up c1 c2 (fst (fst x)) /\ exists more, snd y = snd x ++ more) \/ x = y.

Lemma below_read_row : forall S (src : source S) r, below3 (read_row c1 src r) (read_row c2 src r).
Proof.
  intros S src r. unfold read_row.
  destruct (below_read_line S src (rs_h r) (rs_md r) (rs_d r)) as [H| ->]; [|right; reflexivity].
  destruct (read_line c1 src _ _ _) as [x d']. cbn [fst] in H. left.
  apply (gives_up_any _ bool) in H. destruct H as [[-> H]|[-> H]]; (split; [exact H|eexists; reflexivity]).
Qed.

Lemma below_read_rows : forall S (src : source S) n r, below3 (read_rows c1 src n r) (read_rows c2 src n r).
Proof.
  intros S src. induction n as [|n IH]; intros r; cbn [read_rows]; [right; reflexivity|].
  destruct (below_read_row S src r) as [[H [more E]]| ->].
  - destruct (read_row c1 src r) as [[x r1] ev1]. destruct (read_row c2 src r) as [[y r2] ev2].
    cbn [fst snd] in *. subst ev2. left.
    split; [destruct H as [[-> H]|[-> H]]; [left|right]; (split; [reflexivity|exact H])|].
    assert (X : snd match x with
                    | Ok true => let '(y0, r3, ev') := read_rows c1 src n r1 in (y0, r3, ev1 ++ ev')
                    | _ => (x, r1, ev1) end = ev1) by (destruct H as [[-> _]|[-> _]]; reflexivity).
    rewrite X. destruct y as [[|]| | | |]; try (eexists; reflexivity).
    destruct (read_rows c2 src n r2) as [[y0 r3] ev']. exists (more ++ ev'). cbn [snd]. apply eq_sym, app_assoc.
  - destruct (read_row c2 src r) as [[[[|]| | | |] r1] ev1]; try (right; reflexivity).
    destruct (IH r1) as [[H [more E]]| ->]; [|right; reflexivity].
    destruct (read_rows c1 src n r1) as [[x r2] ev2]. destruct (read_rows c2 src n r1) as [[y r3] ev3].
    cbn [fst snd] in *. subst ev3. left. split; [exact H|]. exists more. cbn [snd]. apply app_assoc.
Qed.

Lemma below_read_all_loop : forall S (src : source S) n r,
  below3 (read_all_loop c1 src n r) (read_all_loop c2 src n r).
Proof.
  intros S src. induction n as [|n IH]; intros r; cbn [read_all_loop]; [right; reflexivity|].
  destruct (below_read_row S src r) as [[H [more E]]| ->].
  - destruct (read_row c1 src r) as [[x r1] ev1]. destruct (read_row c2 src r) as [[y r2] ev2].
    cbn [fst snd] in *. subst ev2. left.
    split; [destruct H as [[-> H]|[-> H]]; [left|right]; (split; [reflexivity|exact H])|].
    assert (X : exists z : res unit, match x with
                    | Ok true => let '(y0, r3, ev') := read_all_loop c1 src n r1 in (y0, r3, ev1 ++ ev')
                    | Ok false => (Ok tt, r1, ev1)
                    | Exn ex => (Exn ex, r1, ev1)
                    | Abort => (Abort, r1, ev1)
                    | Undef u => (Undef u, r1, ev1)
                    | Fuel => (Fuel, r1, ev1) end = (z, r1, ev1))
      by (destruct H as [[-> _]|[-> _]]; eexists; reflexivity).
    destruct X as [z ->]. destruct y as [[|]| | | |]; try (eexists; reflexivity).
    destruct (read_all_loop c2 src n r2) as [[y0 r3] ev']. exists (more ++ ev'). cbn [snd]. apply eq_sym, app_assoc.
  - destruct (read_row c2 src r) as [[[[|]| | | |] r1] ev1]; try (right; reflexivity).
    destruct (IH r1) as [[H [more E]]| ->]; [|right; reflexivity].
    destruct (read_all_loop c1 src n r1) as [[x r2] ev2]. destruct (read_all_loop c2 src n r1) as [[y r3] ev3].
    cbn [fst snd] in *. subst ev3. left. split; [exact H|]. exists more. cbn [snd]. apply app_assoc.
Qed.

Lemma below3_map : forall A B D (g : A -> D) (x y : res A * B * list event), below3 x y ->
  below3 (let '(a, r, ev) := x in (rmap g a, r, ev)) (let '(a, r, ev) := y in (rmap g a, r, ev)).
Proof.
  intros A B D g [[a r] ev] [[a' r'] ev'] [[H [more E]]|[= -> -> ->]]; [|right; reflexivity].
  cbn [fst snd] in *. left. split; [|exists more; exact E]. cbn [fst]. apply gives_up_bind. exact H.
Qed.

Lemma below_step : forall S (src : source S) o r, below3 (step c1 src o r) (step c2 src o r).
Proof.
  intros S src o r. destruct o; cbn [step].
  - apply below3_map, below_read_row.
  - apply below3_map, below_read_rows.
  - apply below3_map. unfold read_all. apply below_read_all_loop.
  - apply below3_map. unfold skip.
    destruct (below_data_skip S src (rs_h r) (rs_md r) (N.to_nat n) (rs_d r)) as [H| ->]; [|right; reflexivity].
    destruct (data_skip c1 src _ _ _ _) as [x d']. destruct (data_skip c2 src _ _ _ _) as [y d2].
    cbn [fst] in H. left. split; [exact H|]. destruct H as [[-> _]|[-> _]]; eexists; reflexivity.
  - unfold read_row_no_sink.
    destruct (below_read_line S src (rs_h r) (rs_md r) (rs_d r)) as [H| ->]; [|right; reflexivity].
    destruct (read_line c1 src _ _ _) as [x d']. destruct (read_line c2 src _ _ _) as [y d2].
    cbn [fst] in H. left. cbn [fst snd]. split; [|exists []; reflexivity]. apply gives_up_bind. exact H.
  - right. reflexivity.
Qed.

Lemma below_trace : forall S (src : source S) ops r,
  same_until c1 c2 (fst (trace c1 src ops r)) (fst (trace c2 src ops r)).
Proof.
  intros S src. induction ops as [|o ops IH]; intros r; cbn [trace]; [constructor|].
  assert (B : below3 (reader_step c1 src o r) (reader_step c2 src o r)).
  { destruct r as [r|]; cbn [reader_step]; [|right; reflexivity].
    destruct (below_step S src o r) as [[H [more E]]| ->]; [|right; reflexivity].
    destruct (step c1 src o r) as [[x r1] ev1]. destruct (step c2 src o r) as [[y r2] ev2].
    left. split; [exact H|]. exists more. exact E. }
  destruct B as [[H [more E]]| ->].
  - destruct (reader_step c1 src o r) as [[x r1] ev1]. destruct (reader_step c2 src o r) as [[y r2] ev2].
    cbn [fst snd] in *. subst ev2.
    destruct H as [[-> H]|[-> H]].
    + assert (G : gives_up c1 c2 (A := out) Abort) by (left; split; [reflexivity|exact H]).
      destruct y; try (apply U_up; exact G); destruct (trace c2 src ops r2); apply U_up; exact G.
    + assert (G : gives_up c1 c2 (A := out) (Exn E_bad_alloc)) by (right; split; [reflexivity|exact H]).
      destruct (trace c1 src ops r1).
      destruct y; try (apply U_up; exact G); destruct (trace c2 src ops r2); apply U_up; exact G.
  - destruct (reader_step c2 src o r) as [[x r1] ev1]. specialize (IH r1).
    destruct (trace c1 src ops r1), (trace c2 src ops r1). cbn [fst] in IH.
    destruct x; apply U_same; try exact IH; constructor.
Qed.

Theorem builds_agree : forall S (src : source S) flt s ops,
  agree c1 c2 (session c1 src flt s ops) (session c2 src flt s ops).
Proof.
  intros S src flt s ops. unfold session. destruct (below_open S src flt s) as [H| ->].
  - left. apply (gives_up_any _ (list event * list entry)) in H. destruct H as [[-> H]|[-> H]]; exact H.
  - right. destruct (open_reader c2 src flt s) as [[r ev]| | | |]; try reflexivity.
    eexists. split; [reflexivity|]. apply below_trace.
Qed.

End Two.

(** ** Enough memory *)

Section Memory.
Variables (nd : bool) (m1 m2 : N) (k : nat).
Hypothesis LE : m1 <= m2.
Let c1 := Cfg nd m1 k.
Let c2 := Cfg nd m2 k.

Lemma alloc_same : forall n, n <= m1 -> alloc c1 n = alloc c2 n.
Proof.
  intros n H. unfold alloc, c1, c2. cbn [max_alloc].
  rewrite (proj2 (N.leb_le n m1)) by lia. rewrite (proj2 (N.leb_le n m2)) by lia. reflexivity.
Qed.

Lemma read_stream_same : forall S (src : source S) b s n off, off +! n <= m1 ->
  read_stream c1 src b s n off = read_stream c2 src b s n off.
Proof.
  intros S src b s n off H. unfold read_stream, resize. rewrite (alloc_same _ H). reflexivity.
Qed.

Lemma read_page_same : forall S (src : source S) e f plen p, plen <= m1 -> plen < W64 ->
  read_page c1 src e f plen p = read_page c2 src e f plen p.
Proof.
  intros S src e f plen p H W. unfold read_page.
  rewrite read_stream_same by (unfold add64, u64; rewrite N.add_0_l, N.mod_small; assumption). reflexivity.
Qed.

Section Pages.
Variables (S : Type) (src : source S) (h : header) (md : metadata).
Hypothesis P : h_page_length h <= m1.
Hypothesis W : h_page_length h < W64.

Lemma metadata_loop_same : forall e f fuel p m,
  metadata_loop c1 src e f (h_page_length h) fuel p m = metadata_loop c2 src e f (h_page_length h) fuel p m.
Proof.
  intros e f. induction fuel as [|fuel IH]; intros p m; cbn [metadata_loop]; [reflexivity|].
  rewrite (read_page_same _ _ _ _ _ _ P W).
  destruct (read_page c2 src _ _ _ p) as [[[|]| | | |] p']; try reflexivity.
  destruct (process_page _ _ _ _ _) as [[m' [|]]| | | |]; cbn [bind]; try reflexivity. apply IH.
Qed.

Lemma next_page_same : forall fuel p,
  read_next_page c1 src (h_endianness h) (h_format h) (h_page_length h) md fuel p
  = read_next_page c2 src (h_endianness h) (h_format h) (h_page_length h) md fuel p.
Proof.
  induction fuel as [|fuel IH]; intros p; cbn [read_next_page]; [reflexivity|].
  rewrite (read_page_same _ _ _ _ _ _ P W).
  destruct (read_page c2 src _ _ _ p) as [[[|]| | | |] p']; try reflexivity.
  destruct (build_page _ _ _ _ _) as [[pg|]| | | |]; try reflexivity. apply IH.
Qed.

Lemma data_next_same : forall d, data_next c1 src h md d = data_next c2 src h md d.
Proof. intros d. unfold data_next. rewrite next_page_same. reflexivity. Qed.

Lemma read_line_same : forall d, read_line c1 src h md d = read_line c2 src h md d.
Proof. intros d. unfold read_line. rewrite data_next_same. reflexivity. Qed.

Lemma data_skip_same : forall n d, data_skip c1 src h md n d = data_skip c2 src h md n d.
Proof.
  induction n as [|n IH]; intros d; cbn [data_skip]; [reflexivity|]. rewrite data_next_same.
  destruct (data_next c2 src h md d) as [[[|]| | | |] d1]; try reflexivity.
  destruct (data_read_line d1) as [[pl| | | |] d2]; try reflexivity. apply IH.
Qed.

Lemma read_row_same : forall d,
  read_row c1 src (RState h md d) = read_row c2 src (RState h md d)
  /\ exists d', snd (fst (read_row c2 src (RState h md d))) = RState h md d'.
Proof.
  intros d. unfold read_row. cbn [rs_h rs_md rs_d]. rewrite read_line_same. split; [reflexivity|].
  destruct (read_line c2 src h md d) as [[[p|]| | | |] d']; exists d'; reflexivity.
Qed.

Lemma read_rows_same : forall n d,
  read_rows c1 src n (RState h md d) = read_rows c2 src n (RState h md d)
  /\ exists d', snd (fst (read_rows c2 src n (RState h md d))) = RState h md d'.
Proof.
  induction n as [|n IH]; intros d; cbn [read_rows]; [split; [|exists d]; reflexivity|].
  destruct (read_row_same d) as [-> [d' E]].
  destruct (read_row c2 src (RState h md d)) as [[x r1] ev1]. cbn [fst snd] in E. subst r1.
  destruct x as [[|]| | | |]; try (split; [|exists d']; reflexivity).
  destruct (IH d') as [-> [d2 E]]. destruct (read_rows c2 src n (RState h md d')) as [[y r2] ev2].
  split; [reflexivity|]. exists d2. exact E.
Qed.

Lemma read_all_loop_same : forall n d,
  read_all_loop c1 src n (RState h md d) = read_all_loop c2 src n (RState h md d)
  /\ exists d', snd (fst (read_all_loop c2 src n (RState h md d))) = RState h md d'.
Proof.
  induction n as [|n IH]; intros d; cbn [read_all_loop]; [split; [|exists d]; reflexivity|].
  destruct (read_row_same d) as [-> [d' E]].
  destruct (read_row c2 src (RState h md d)) as [[x r1] ev1]. cbn [fst snd] in E. subst r1.
  destruct x as [[|]| | | |]; try (split; [|exists d']; reflexivity).
  destruct (IH d') as [-> [d2 E]]. destruct (read_all_loop c2 src n (RState h md d')) as [[y r2] ev2].
  split; [reflexivity|]. exists d2. exact E.
Qed.

Lemma step_same : forall o d,
  step c1 src o (RState h md d) = step c2 src o (RState h md d)
  /\ exists d', snd (fst (step c2 src o (RState h md d))) = RState h md d'.
Proof.
  intros o d. destruct o; cbn [step].
  - destruct (read_row_same d) as [-> [d' E]].
    destruct (read_row c2 src _) as [[x r1] ev1]. split; [reflexivity|]. exists d'. exact E.
  - destruct (read_rows_same (N.to_nat n) d) as [-> [d' E]].
    destruct (read_rows c2 src _ _) as [[x r1] ev1]. split; [reflexivity|]. exists d'. exact E.
  - unfold read_all. cbn [rs_md rs_d].
    destruct (read_all_loop_same (Datatypes.S (N.to_nat (md_row_count md - ds_row d))) d) as [-> [d' E]].
    destruct (read_all_loop c2 src _ _) as [[x r1] ev1]. split; [reflexivity|]. exists d'. exact E.
  - unfold skip. cbn [rs_h rs_md rs_d]. rewrite data_skip_same.
    destruct (data_skip c2 src h md _ d) as [x d']. split; [reflexivity|]. exists d'. reflexivity.
  - unfold read_row_no_sink. cbn [rs_h rs_md rs_d]. rewrite read_line_same.
    destruct (read_line c2 src h md d) as [x d']. split; [reflexivity|]. exists d'. reflexivity.
  - split; [reflexivity|]. exists d. reflexivity.
Qed.

Lemma trace_same : forall ops d,
  trace c1 src ops (Some (RState h md d)) = trace c2 src ops (Some (RState h md d)).
Proof.
  induction ops as [|o ops IH]; intros d; cbn [trace reader_step]; [reflexivity|].
  destruct (step_same o d) as [-> [d' E]].
  destruct (step c2 src o (RState h md d)) as [[x r1] ev1]. cbn [fst snd] in E. subst r1.
  destruct x; try reflexivity; rewrite IH; reflexivity.
Qed.

End Pages.

Lemma set_header_lengths : forall c e f b a1 ta hl h, set_header c e f b a1 ta hl = Ok h ->
  h_header_length h = hl /\ h_page_length h < W64.
Proof.
  intros c e f b a1 ta hl h H. unfold set_header in H.
  repeat (let X := fresh "G" in match type of H with bind ?m _ = Ok _ =>
    destruct m eqn:X; cbn [bind] in H; try discriminate end).
  injection H as <-. cbn [h_page_length h_header_length]. split; [reflexivity|].
  match goal with H : get_uint32 _ _ (200 + _) = Ok ?n |- _ < _ =>
    apply get_uint_lt in H; change (2 ^ (8 * 4)) with 4294967296 in H; unfold W64; lia end.
Qed.

Lemma open_header_same : forall S (src : source S) s h s1 b1, 288 <= m1 ->
  open_header c2 src s = Ok (h, s1, b1) -> h_header_length h <= m1 ->
  open_header c1 src s = Ok (h, s1, b1) /\ h_page_length h < W64.
Proof.
  intros S src s h s1 b1 M H L. unfold open_header, check_header, check_header_ctor in *.
  rewrite read_stream_same by exact M.
  destruct (read_stream c2 src _ _ _ _) as [[[[|]| | | |] s'] b'] eqn:R; cbn [bind] in *; try discriminate.
  destruct (check_magic_number b'); cbn [bind] in *; try discriminate.
  destruct (set_aligns_endianness s' b') as [ch| | | |]; cbn [bind] in *; try discriminate.
  unfold read_header in *. cbv zeta in *. unfold set_header_length_and_read in *.
  destruct (get_uint32 _ _ (196 + _)) as [hl| | | |] eqn:G; cbn [bind] in *; try discriminate.
  change (fmt_assert c1) with (fmt_assert c2).
  destruct (fmt_assert c2 (HEADER_SIZE <=? hl)); cbn [bind] in *; try discriminate.
  apply get_uint_lt in G. change (2 ^ (8 * 4)) with 4294967296 in G.
  assert (B : hl <= m1 -> HEADER_SIZE +! (hl -! HEADER_SIZE) <= m1).
  { intros B. unfold add64, sub64, u64, HEADER_SIZE. change W64 with 18446744073709551616.
    destruct (N.ltb_spec hl 288).
    - replace ((hl + 18446744073709551616 - 288 mod 18446744073709551616) mod 18446744073709551616)
        with (hl + 18446744073709551328) by (rewrite (N.mod_small 288), N.mod_small; lia).
      replace (288 + (hl + 18446744073709551328)) with (hl + 1 * 18446744073709551616) by lia.
      rewrite N.mod_add, N.mod_small; lia.
    - replace ((hl + 18446744073709551616 - 288 mod 18446744073709551616) mod 18446744073709551616)
        with (hl - 288).
      + rewrite N.mod_small; lia.
      + rewrite (N.mod_small 288) by lia. replace (hl + 18446744073709551616 - 288) with (hl - 288 + 1 * 18446744073709551616) by lia.
        rewrite N.mod_add, N.mod_small; lia. }
  destruct (read_stream c2 src (ch_buf ch) (ch_is ch) _ _) as [[[[|]| | | |] s2] b2] eqn:R2;
    cbn [bind] in H; try discriminate.
  destruct (set_header c2 _ _ b2 _ _ hl) as [h'| | | |] eqn:SH; cbn [bind] in H; try discriminate.
  injection H as -> -> ->. destruct (set_header_lengths _ _ _ _ _ _ _ _ SH) as [X Y].
  rewrite X in L. specialize (B L). rewrite (read_stream_same _ _ _ _ _ _ B), R2. cbn [bind].
  change (set_header c1) with (set_header c2). rewrite SH. cbn [bind]. auto.
Qed.

Theorem enough_memory : forall S (src : source S) flt s r ev ops,
  open_reader c2 src flt s = Ok (r, ev) -> largest_piece (rs_h r) (rs_md r) <= m1 ->
  session c1 src flt s ops = session c2 src flt s ops.
Proof.
  intros S src flt s r ev ops O L.
  assert (E : open_reader c1 src flt s = Ok (r, ev) /\ h_page_length (rs_h r) < W64).
  { unfold open_reader in *. unfold largest_piece in L.
    destruct (open_header c2 src s) as [[[h s1] b1]| | | |] eqn:OH; cbn [bind] in O; try discriminate.
    destruct (set_metadata c2 src _ _ _ flt s1 b1) as [[[p md] dsh]| | | |] eqn:SM; cbn [bind] in O; try discriminate.
    destruct (read_data c2 h md p dsh) as [d| | | |] eqn:RD; cbn [bind] in O; try discriminate.
    injection O as <- <-. cbn [rs_h rs_md] in *.
    destruct (open_header_same S src s h s1 b1 ltac:(lia) OH ltac:(lia)) as [-> W]. cbn [bind].
    split; [|exact W].
    unfold set_metadata in *. change (page_fuel c1) with k. change (page_fuel c2) with k in SM.
    rewrite metadata_loop_same by (try exact W; lia).
    destruct (metadata_loop c2 src _ _ _ k _ _) as [[p1 m]| | | |] eqn:ML; cbn [bind] in *; try discriminate.
    destruct (create_columns c2 _ flt m) as [md1| | | |] eqn:CC; cbn [bind] in *; try discriminate.
    injection SM as -> -> ->.
    assert (CC1 : create_columns c1 (h_endianness h) flt m = Ok md).
    { rewrite <- CC. unfold create_columns in *. cbn [max_alloc c1 c2] in *.
      destruct (_ <=? m2) eqn:Z in CC; [|discriminate].
      destruct (create_loop _ _ _ _ _ _ _) as [cols| | | |] eqn:CL; cbn [bind] in CC; try discriminate.
      injection CC as <-. cbn [md_column_count] in L. rewrite Z.
      rewrite (proj2 (N.leb_le _ m1)) by lia. reflexivity. }
    rewrite CC1. cbn [bind]. unfold read_data in *.
    destruct (make_decompressor c2 _ _) as [dec| | | |] eqn:MD; cbn [bind] in RD; try discriminate.
    assert (MD1 : make_decompressor c1 (md_compression md) (md_row_length md) = Ok dec).
    { rewrite <- MD. destruct (md_compression md); cbn [make_decompressor]; [reflexivity|..];
        unfold dst_new, mbuf_new; rewrite alloc_same by lia; reflexivity. }
    rewrite MD1. cbn [bind]. rewrite RD. reflexivity. }
  destruct E as [E W]. unfold session. rewrite E, O. destruct r as [h md d].
  rewrite trace_same; [reflexivity|cbn [rs_h rs_md] in *; unfold largest_piece in L; lia|exact W].
Qed.

End Memory.

Lemma debug_is_release : forall S (src : source S) flt s ops m k ev l,
  session (Cfg false m k) src flt s ops = Ok (ev, l) -> Forall (fun x => snd (fst x) <> Abort) l ->
  session (Cfg true m k) src flt s ops = Ok (ev, l).
Proof.
  intros S src flt s ops m k ev l H F.
  assert (T : stricter (Cfg false m k) (Cfg true m k)) by (split; [discriminate|]; split; [cbn; lia|reflexivity]).
  destruct (builds_agree _ _ T S src flt s ops) as [G|G]; rewrite H in G.
  - destruct G as [[G _]|[G _]]; discriminate.
  - destruct G as (l' & -> & U). f_equal. f_equal. clear H. induction U as [|x l l' U IH|o x ev' y more l l' G].
    + reflexivity.
    + f_equal. apply IH. apply Forall_inv_tail in F. exact F.
    + destruct G as [[-> _]|[_ G]]; [|cbn [max_alloc] in G; lia].
      apply Forall_inv in F. cbn in F. congruence.
Qed.
