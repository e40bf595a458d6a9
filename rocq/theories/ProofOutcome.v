(** Which outcomes are possible: a call loops or reports a failed read only if
    reading a page does. *)
From Verif Require Import Base Types Float DateTime Buffer Page Column Header Metadata Decomp Data Reader
  Lemmas SpecValues ProofValues SpecBuffer ProofBuffer SpecDecomp ProofDecomp
  SpecReader ProofMetaInv ProofReader ProofBisim.
From Coq Require Import ZifyBool ZifyNat ZifyN.
Local Open Scope N_scope.

Lemma length_app1 : forall A (l : list A) x, length (l ++ [x]) = Datatypes.S (length l).
Proof. intros. rewrite app_length. cbn [length]. lia. Qed.

Section Outcome.
Variable P : exn -> Prop.
Variable Pf : Prop.
Hypothesis P_others : forall e, e <> E_cannot_read_page -> P e.

Definition within {A} (m : res A) : Prop :=
  match m with
  | Exn e => P e
  | Fuel => Pf
  | _ => True
  end.

Lemma within_bind : forall A B (m : res A) (k : A -> res B),
  within m -> (forall a, m = Ok a -> within (k a)) -> within (bind m k).
Proof. intros A B m k H K. destruct m; cbn; auto. Qed.

Lemma within_noexcept : forall A (m : res A), (m = Fuel -> Pf) -> within (noexcept m).
Proof. intros A m H. destruct m; cbn; auto. Qed.

Lemma within_Fuel : forall A (m : res A), within m -> m = Fuel -> Pf.
Proof. intros A m H ->. exact H. Qed.

Lemma within_read_cells : forall m off len, within (read_cells m off len).
Proof. intros m off len. destruct (read_cells_cases m off len) as [[v ->]|[u ->]]; exact I. Qed.

Lemma within_write_cells : forall m off l, within (write_cells m off l).
Proof. intros. unfold write_cells. destruct (_ <=? _); exact I. Qed.

Lemma within_get_raw : forall a b off n, within (get_raw a b off n).
Proof. intros. destruct a; apply within_read_cells. Qed.

Lemma within_get_uint : forall a e n b off, within (get_uint a e n b off).
Proof.
  intros. unfold get_uint. apply within_bind; [apply within_get_raw|intros; exact I].
Qed.

Lemma within_get_string : forall a b off n, within (get_string a b off n).
Proof.
  intros. unfold get_string. apply within_bind; [apply within_get_raw|intros; exact I].
Qed.

Lemma within_get_byte : forall b off, within (get_byte b off).
Proof.
  intros. unfold get_byte. apply within_bind; [apply within_get_raw|].
  intros [|x [|]] _; exact I.
Qed.

Lemma within_assert : forall b off n, within (assert_check b off n).
Proof. intros. unfold assert_check. destruct (check _ _ _); exact I. Qed.

Lemma within_fmt : forall c x, within (fmt_assert c x).
Proof. intros. unfold fmt_assert. destruct (ndebug c), x; exact I. Qed.

Lemma within_lround : forall x, within (lround x).
Proof.
  intros x. destruct x as [s| | |s m e]; try exact I.
  unfold lround. cbv zeta. destruct (int64_ok _); exact I.
Qed.

Lemma within_add : forall a b, within (add_i64 a b).
Proof. intros. unfold add_i64. destruct (int64_ok _); exact I. Qed.
Lemma within_mul : forall a b, within (mul_i64 a b).
Proof. intros. unfold mul_i64. destruct (int64_ok _); exact I. Qed.

Ltac win :=
  repeat first
    [ match goal with
      | |- within (Ok _) => exact I | |- within (Undef _) => exact I | |- within Abort => exact I
      end
    | apply within_read_cells | apply within_write_cells | apply within_get_raw
    | apply within_get_uint | apply within_get_string | apply within_get_byte
    | apply within_assert | apply within_fmt | apply within_lround
    | apply within_bind; [|intros] ].

Lemma within_datetime : forall x, within (get_datetime_from_epoch x).
Proof.
  intros x. unfold get_datetime_from_epoch. apply within_noexcept. apply within_Fuel.
  destruct (sf_isnan x); [exact I|].
  unfold add_days. cbv zeta. win; first [apply within_add|apply within_mul].
Qed.

Lemma within_alloc : forall c n, within (alloc c n).
Proof. intros. unfold alloc. destruct (_ <=? _); [exact I|apply P_others; discriminate]. Qed.

Lemma within_resize : forall c b n, within (resize c b n).
Proof.
  intros. unfold resize. destruct (_ <? _); [|exact I].
  apply within_bind; [apply within_alloc|intros]. apply within_bind; [|intros; exact I].
  destruct (negb _); win.
Qed.

Lemma within_read_stream : forall S c (src : source S) b s len off,
  within (fst (fst (read_stream c src b s len off))).
Proof.
  intros. unfold read_stream. pose proof (within_resize c b (off +! len)) as R.
  destruct (resize c b (off +! len)) as [b'| | | |]; cbn; auto.
  destruct (src_read src s len) as [[s' data] ok].
  destruct (lenN data =? 0); [exact I|].
  pose proof (within_write_cells (mem b') off (map Some data)) as W.
  destruct (write_cells _ _ _); cbn; auto.
Qed.

Lemma within_page_header : forall e f b, within (get_page_header e f b).
Proof. intros. unfold get_page_header, get_uint16. win. Qed.

(** ** The header *)

Lemma within_header : forall S c (src : source S) s, within (open_header c src s).
Proof.
  intros S c src s. unfold open_header. apply within_bind.
  - unfold check_header. apply within_bind.
    + unfold check_header_ctor.
      pose proof (within_read_stream S c src empty_mbuf s HEADER_SIZE 0) as R.
      destruct (read_stream _ _ _ _ _ _) as [[[[|]| | | |] s'] b]; cbn in *; auto.
      apply P_others. discriminate.
    + intros [s' b] _. apply within_bind.
      * unfold check_magic_number. win. destruct (bytes_eqb _ _); [exact I|].
        apply P_others. discriminate.
      * intros. unfold set_aligns_endianness. win.
  - intros ch _. unfold read_header. apply within_bind.
    + unfold set_header_length_and_read. win.
      match goal with |- context [read_stream c src ?b ?s ?n ?o] =>
        pose proof (within_read_stream S c src b s n o) as R;
        destruct (read_stream c src b s n o) as [[[[|]| | | |] s'] b'] end; cbn in *; auto.
      apply P_others. discriminate.
    + intros [[hl s'] b'] _. apply within_bind; [|intros; exact I].
      unfold set_header, get_uint32, get_double_bits. win; try apply within_datetime.
      destruct (negb _); win.
Qed.

(** ** Metadata *)

Lemma within_process_subheaders : forall T e f b (body : T -> page_subheader -> res T),
  (forall acc sh, within (body acc sh)) ->
  forall n i acc, within (process_subheaders e f b body n i acc).
Proof.
  intros T e f b body HB. induction n as [|n IH]; intros i acc; [exact I|].
  cbn [process_subheaders]. apply within_bind.
  - unfold get_page_subheader, get_uinteger. win.
  - intros sh _. apply within_bind; [|intros; apply IH].
    destruct (_ || _); [exact I|apply HB].
Qed.

Lemma within_build_page : forall e f md b h, within (build_page e f md b h).
Proof.
  intros. unfold build_page. destruct (_ =? _).
  - apply within_bind.
    + unfold data_subheaders_of_page, process_page_subheaders.
      apply within_process_subheaders. intros. exact I.
    + intros [|] _; exact I.
  - destruct (_ =? _); [exact I|]. destruct (is_page_mix _); exact I.
Qed.

(** A buffer which fits in the address space. *)
Definition small (b : mbuf) : Prop := lenN (mem b) + 32 < W64.

Lemma get_uint_range : forall a e n b off v, get_uint a e n b off = Ok v -> off + n <= lenN (mem b).
Proof.
  intros a e n b off v H. unfold get_uint in H. binv H.
  destruct a; cbn in E; apply read_cells_Ok in E; tauto.
Qed.

Lemma names_loop_ends : forall e b texts, small b -> forall fuel off m acc,
  off < W64 -> lenN (mem b) + 8 < off + 8 * N.of_nat fuel ->
  (off <= lenN (mem b) + 6 \/ fuel <> 0%nat) ->
  within (names_loop e b texts fuel off m acc).
Proof.
  intros e b texts SM. unfold small in SM.
  induction fuel as [|fuel IH]; intros off m acc O F Z; cbn [names_loop].
  - destruct (off <=? m); [|exact I]. exfalso. cbn in F. lia.
  - destruct (off <=? m); [|exact I]. unfold get_uint16.
    apply within_bind; [win|]. intros idx E. apply get_uint_range in E.
    rewrite add64_small in E by lia.
    apply within_bind; [win|]. intros no _. apply within_bind; [win|]. intros nl _.
    rewrite (add64_small off 8) by lia. apply IH; lia.
Qed.

Lemma attrs_loop_ends : forall e f b, small b -> forall fuel off m acc,
  off < W64 -> lenN (mem b) + 16 < off + 12 * N.of_nat fuel ->
  (off <= lenN (mem b) + 12 \/ fuel <> 0%nat) ->
  within (attrs_loop e f b fuel off m acc).
Proof.
  intros e f b SM. unfold small in SM.
  induction fuel as [|fuel IH]; intros off m acc O F Z; cbn [attrs_loop].
  - destruct (off <=? m); [|exact I]. exfalso. cbn in F. lia.
  - destruct (off <=? m); [|exact I]. unfold get_uinteger, get_uint32.
    apply within_bind; [win|]. intros idx E. apply get_uint_range in E.
    rewrite add64_small in E by lia.
    apply within_bind; [win|]. intros no _. apply within_bind; [win|]. intros nl _.
    assert (integer_size f = 4 \/ integer_size f = 8) as K by (destruct f; auto).
    rewrite (add64_small off (integer_size f + 8)) by lia. apply IH; lia.
Qed.

Lemma add64_lt : forall a b, a +! b < W64.
Proof. intros. unfold add64. apply N.mod_lt. discriminate. Qed.

Lemma within_process_subheader : forall e f b m sh, small b ->
  within (process_subheader e f b m sh).
Proof.
  intros e f b m sh SM. unfold process_subheader. apply within_bind; [win|].
  intros sig E.
  assert (NE : integer_size f <= lenN (mem b)).
  { cbn in E. apply read_cells_Ok in E. lia. }
  assert (K : 4 <= integer_size f) by (destruct f; cbn; lia).
  destruct (match_signature _ sig).
  { win. unfold process_ROW_SIZE. apply within_noexcept. apply within_Fuel.
    unfold get_uint16, get_uinteger. win. }
  destruct (match_signature _ sig).
  { win. unfold process_COLUMN_SIZE. apply within_noexcept. apply within_Fuel. win. }
  destruct (match_signature _ sig); [exact I|].
  destruct (match_signature _ sig).
  { win. unfold process_COLUMN_TEXT. apply within_noexcept. apply within_Fuel.
    unfold get_string_untrim. win. destruct (m_texts m); [|exact I]. win.
    match goal with |- within (match ?x with _ => _ end) => destruct x end; [win|].
    destruct (bytes_eqb _ _); [win|]. destruct (0 <? _); win. }
  destruct (match_signature _ sig).
  { win. unfold process_COLUMN_NAME. apply within_noexcept. apply within_Fuel. win.
    apply names_loop_ends; [exact SM|apply add64_lt| |right; discriminate].
    unfold loop_fuel, lenN in *. lia. }
  destruct (match_signature _ sig).
  { win. unfold process_COLUMN_ATTRIBUTES. apply within_noexcept. apply within_Fuel. win.
    apply attrs_loop_ends; [exact SM|apply add64_lt| |right; discriminate].
    unfold loop_fuel, lenN in *. lia. }
  destruct (match_signature _ sig).
  { win. unfold process_FORMAT_AND_LABEL. apply within_noexcept. apply within_Fuel.
    unfold get_uint16. win. }
  destruct (match_signature _ sig); [exact I|].
  destruct (data_subheader_check _ _); exact I.
Qed.

Lemma within_process_page : forall e f b h m, small b -> within (process_page e f b h m).
Proof.
  intros e f b h m SM. unfold process_page. destruct (is_page_meta_mix_amd _); [|exact I].
  apply within_bind; [|intros [m' d] _; exact I].
  unfold process_page_metadata, process_page_subheaders.
  apply within_process_subheaders. intros acc sh. apply within_bind.
  - apply within_process_subheader. exact SM.
  - intros [m' d] _. exact I.
Qed.

Lemma within_create_loop : forall e flt m n fuel i acc,
  (length (m_names m) < fuel + i)%nat -> (i <= length (m_names m))%nat \/ fuel <> 0%nat ->
  within (create_loop e flt m n fuel i acc).
Proof.
  intros e flt m n. induction fuel as [|fuel IH]; intros i acc F Z; cbn [create_loop].
  - destruct (_ <? _); [|exact I]. exfalso. lia.
  - destruct (_ <? _); [|exact I]. unfold at_.
    destruct (nth_error (m_names m) i) as [nm|] eqn:E; cbn [bind];
      [|apply P_others; discriminate].
    assert (L : (i < length (m_names m))%nat) by (apply nth_error_Some; congruence).
    repeat (match goal with |- context [match nth_error ?l i with _ => _ end] =>
      destruct (nth_error l i); cbn [bind]; [|apply P_others; discriminate] end).
    apply IH; lia.
Qed.

Lemma within_create_columns : forall c e flt m, within (create_columns c e flt m).
Proof.
  intros. unfold create_columns. destruct (_ <=? _); [|apply P_others; discriminate].
  apply within_bind; [|intros; exact I]. apply within_create_loop; lia.
Qed.

(** ** Pages *)

Variables (S : Type) (c : cfg) (src : source S) (h : header).
Variable Inv : nat -> pstate S -> Prop.
Hypothesis Inv_small : forall n p, Inv n p -> small (ps_buf p).
Hypothesis Inv_step : forall n p x p', Inv n p ->
  read_page c src (h_endianness h) (h_format h) (h_page_length h) p = (x, p') ->
  within x /\ small (ps_buf p')
  /\ (x = Ok true -> exists m, ((m < n)%nat \/ Pf) /\ Inv m p').

Definition turns (n fuel : nat) : Prop := (n < fuel)%nat \/ Pf.

Lemma within_next_page : forall md fuel n p x p', Inv n p -> turns n fuel ->
  read_next_page c src (h_endianness h) (h_format h) (h_page_length h) md fuel p = (x, p') ->
  within x /\ (forall pg, x = Ok (Some pg) -> exists m, ((m <= n)%nat \/ Pf) /\ Inv m p').
Proof.
  intros md. induction fuel as [|fuel IH]; intros n p x p' H T R.
  - injection R as <- <-. split; [|discriminate]. destruct T as [T|T]; [lia|exact T].
  - cbn [read_next_page] in R.
    destruct (read_page c src _ _ _ p) as [y p1] eqn:RP.
    destruct (Inv_step n p y p1 H RP) as (W & SM & X).
    destruct y as [[|]| | | |]; try (injection R as <- <-; split; [exact W|discriminate]).
    + destruct (X eq_refl) as (m & LT & I1).
      pose proof (within_build_page (h_endianness h) (h_format h) md (ps_buf p1) (ps_hdr p1)) as B.
      destruct (build_page _ _ md _ _) as [[pg|]| | | |];
        try (injection R as <- <-; split; [exact B|discriminate]).
      * injection R as <- <-. split; [exact I|]. intros _ _. exists m. split; [|exact I1].
        destruct LT; [left; lia|auto].
      * destruct (IH m p1 x p' I1) as [A1 A2]; [|exact R|].
        { destruct LT; [|right; assumption]. destruct T; [left; lia|right; assumption]. }
        split; [exact A1|]. intros pg E. destruct (A2 pg E) as (z & Z & A3). exists z.
        split; [|exact A3]. destruct Z; [|auto]. destruct LT; [left; lia|auto].
Qed.

Definition inv_d (md : metadata) (d : dstate S) : Prop :=
  wf_d md d /\ (ds_page d <> None -> exists n, turns n (page_fuel c) /\ Inv n (ds_p d)).

Lemma within_data_next : forall md d x d', inv_d md d -> data_next c src h md d = (x, d') ->
  within x /\ inv_d md d'.
Proof.
  intros md d x d' [W H] E. pose proof E as E'. apply data_next_props in E'.
  destruct E' as (R & D & _).
  assert (WD : wf_d md d') by (unfold wf_d in *; rewrite R, D; exact W).
  unfold data_next in E. destruct (_ =? _); [injection E as <- <-; split; [exact I|split; assumption]|].
  destruct (ds_page d) as [pg|] eqn:G; [|injection E as <- <-; split; [exact I|split; [exact W|]]].
  2:{ intros N. congruence. }
  destruct (page_next pg).
  - destruct (H ltac:(discriminate)) as (n & T & In).
    destruct (read_next_page _ _ _ _ _ _ _ _) as [y p'] eqn:RN.
    destruct (within_next_page md _ n _ _ _ In T RN) as [A1 A2].
    destruct y as [[pg'|]| | | |]; injection E as <- <-; (split; [exact A1|]); (split; [exact WD|]);
      cbn [ds_page]; try congruence.
    intros _. destruct (A2 pg' eq_refl) as (m & M & Im). exists m. split; [|exact Im].
    destruct M; [|right; assumption]. destruct T; [left; lia|right; assumption].
  - injection E as <- <-. split; [exact I|]. split; [exact W|]. intros _. apply H. discriminate.
Qed.

Lemma within_data_read_line : forall md d x d', inv_d md d -> ds_row d <> md_row_count md ->
  data_read_line d = (x, d') -> within x /\ inv_d md d'.
Proof.
  intros md d x d' [W H] N E. pose proof (row_inc _ _ _ W N) as WI. unfold data_read_line in E.
  destruct (ds_page d) as [pg|] eqn:G; injection E as <- <-.
  - split.
    + unfold page_read_line. destruct (pg_kind pg); [|exact I].
      destruct (nth_error _ _); exact I.
    + split; [|intros _; apply H; congruence].
      destruct W as (W1 & W2 & W3). destruct WI as [WI1 WI2].
      split; [cbn [ds_row]; lia|]. split; [exact W2|exact W3].
  - split; [exact I|]. split; [exact W|]. congruence.
Qed.

Lemma within_extract : forall md off len d x d', inv_d md d ->
  extract_row_values c h md off len d = (x, d') -> within x /\ inv_d md d'.
Proof.
  intros md off len d x d' [W H] E. pose proof E as E'.
  apply extract_props in E'; [|apply W]. destruct E' as (R & DP & DG & O & X).
  assert (WD : inv_d md d').
  { split.
    - destruct W as (W1 & W2 & _). split; [rewrite R; exact W1|]. split; [exact W2|exact O].
    - rewrite DP, DG. exact H. }
  split; [|exact WD]. destruct W as (_ & _ & DO).
  unfold extract_row_values in E. pose proof (within_fmt c (off +! len <=? h_page_length h)) as F.
  destruct (fmt_assert c _); try (injection E as <- _; exact F).
  destruct (len <? md_row_length md); [|injection E as <- _; exact I].
  pose proof (within_read_cells (mem (ps_buf (ds_p d))) off len) as RC.
  destruct (ds_dec d) as [|z|z]; [injection E as <- _; exact I| |];
    (destruct (read_cells _ off len) as [v| | | |]; try (injection E as <- _; exact RC));
    cbn [dec_ok] in DO; destruct DO as [O1 O2].
  - pose proof (rdc_outcome _ z v O1 O2) as Q. destruct (rdc v z) as [r z']. cbn [fst] in Q.
    injection E as <- _. destruct r; cbn; try contradiction; try exact I.
    apply P_others. rewrite Q. discriminate.
  - pose proof (rle_outcome _ z v O1 O2) as Q. destruct (rle v z) as [r z']. cbn [fst] in Q.
    injection E as <- _. destruct r; cbn; try contradiction; try exact I.
    apply P_others. rewrite Q. discriminate.
Qed.

Lemma within_read_line : forall md d x d', inv_d md d -> read_line c src h md d = (x, d') ->
  within x /\ inv_d md d'.
Proof.
  intros md d x d' H E. unfold read_line in E.
  destruct (data_next c src h md d) as [y d1] eqn:N.
  destruct (within_data_next md d y d1 H N) as [A1 H1].
  apply data_next_props in N. destruct N as (N1 & _ & N3).
  destruct y as [[|]| | | |]; try (injection E as <- <-; auto; fail).
  rewrite <- N1 in N3. destruct (data_read_line d1) as [z d2] eqn:R.
  destruct (within_data_read_line md d1 z d2 H1 N3 R) as [A2 H2].
  destruct z as [[off len]| | | |]; try (injection E as <- <-; auto; fail).
  destruct (extract_row_values c h md off len d2) as [w d3] eqn:X.
  destruct (within_extract md off len d2 w d3 H2 X) as [A3 H3].
  injection E as <- <-. split; [|exact H3]. destruct w; exact A3.
Qed.

Lemma within_skip : forall md n d x d', inv_d md d -> data_skip c src h md n d = (x, d') ->
  within x /\ inv_d md d'.
Proof.
  intros md. induction n as [|n IH]; intros d x d' H E; cbn [data_skip] in E.
  - injection E as <- <-. split; [exact I|exact H].
  - destruct (data_next c src h md d) as [y d1] eqn:N.
    destruct (within_data_next md d y d1 H N) as [A1 H1].
    apply data_next_props in N. destruct N as (N1 & _ & N3).
    destruct y as [[|]| | | |]; try (injection E as <- <-; auto; fail).
    rewrite <- N1 in N3. destruct (data_read_line d1) as [z d2] eqn:R.
    destruct (within_data_read_line md d1 z d2 H1 N3 R) as [A2 H2].
    destruct z as [pl| | | |]; try (injection E as <- <-; auto; fail).
    apply (IH d2 x d' H2 E).
Qed.

Definition inv_r (r : rstate S) : Prop := rs_h r = h /\ inv_d (rs_md r) (rs_d r).

Lemma within_read_row : forall r x r' ev, inv_r r -> read_row c src r = (x, r', ev) ->
  within x /\ inv_r r'.
Proof.
  intros r x r' ev [HH H] E. unfold read_row in E. rewrite HH in E.
  destruct (read_line c src h (rs_md r) (rs_d r)) as [y d1] eqn:L.
  destruct (within_read_line _ _ _ _ H L) as [A1 H1].
  assert (K : inv_r (RState h (rs_md r) d1)) by (split; [reflexivity|exact H1]).
  destruct y as [[p|]| | | |]; injection E as <- <- _; (split; [exact A1|exact K]).
Qed.

Lemma within_read_rows : forall n r x r' ev, inv_r r -> read_rows c src n r = (x, r', ev) ->
  within x /\ inv_r r'.
Proof.
  induction n as [|n IH]; intros r x r' ev H E; cbn [read_rows] in E.
  - injection E as <- <- _. split; [exact I|exact H].
  - destruct (read_row c src r) as [[y r1] ev1] eqn:R.
    destruct (within_read_row _ _ _ _ H R) as [A1 H1].
    destruct y as [[|]| | | |]; try (injection E as <- <- _; auto; fail).
    destruct (read_rows c src n r1) as [[z r2] ev2] eqn:RR. injection E as <- <- _.
    apply (IH r1 z r2 ev2 H1 RR).
Qed.

Lemma within_rmap : forall A B (g : A -> B) m, within m -> within (rmap g m).
Proof. intros A B g m H. destruct m; exact H. Qed.

Lemma within_step : forall o r x r' ev, inv_r r -> step c src o r = (x, r', ev) ->
  within x /\ inv_r r'.
Proof.
  intros o r x r' ev H E. destruct o; cbn [step] in E.
  - destruct (read_row c src r) as [[y r1] ev1] eqn:R. injection E as <- <- _.
    destruct (within_read_row _ _ _ _ H R) as [A1 H1]. split; [apply within_rmap; exact A1|exact H1].
  - destruct (read_rows c src _ r) as [[y r1] ev1] eqn:R. injection E as <- <- _.
    destruct (within_read_rows _ _ _ _ _ H R) as [A1 H1].
    split; [apply within_rmap; exact A1|exact H1].
  - rewrite (read_all_rows _ _ _ r (Datatypes.S (N.to_nat (left_rows r)))) in E
      by (first [apply H|lia]).
    destruct (read_rows c src _ r) as [[y r1] ev1] eqn:R. injection E as <- <- _.
    pose proof R as R'. apply read_rows_bounded in R'; [|apply H|lia].
    destruct (within_read_rows _ _ _ _ _ H R) as [A1 H1]. split; [|exact H1].
    apply within_rmap. destruct y as [[|]| | | |]; cbn [all_of_rows rmap bind]; first [exact A1|exact I|congruence].
  - unfold skip in E. destruct H as [HH H]. rewrite HH in E.
    destruct (data_skip c src h (rs_md r) _ (rs_d r)) as [y d1] eqn:R. injection E as <- <- _.
    destruct (within_skip _ _ _ _ _ H R) as [A1 H1].
    split; [apply within_rmap; exact A1|]. split; [reflexivity|exact H1].
  - unfold read_row_no_sink in E. destruct H as [HH H]. rewrite HH in E.
    destruct (read_line c src h (rs_md r) (rs_d r)) as [y d1] eqn:R. injection E as <- <- _.
    destruct (within_read_line _ _ _ _ H R) as [A1 H1].
    split; [apply within_rmap; exact A1|]. split; [reflexivity|exact H1].
  - injection E as <- <- _. split; [exact I|exact H].
Qed.

Lemma within_trace : forall ops r, inv_r r ->
  Forall (fun t => within (snd (fst t))) (fst (trace c src ops (Some r))).
Proof.
  induction ops as [|o ops IH]; intros r H; cbn [trace]; [apply Forall_nil|].
  cbn [reader_step]. destruct (step c src o r) as [[x r1] ev] eqn:E.
  destruct (within_step _ _ _ _ _ H E) as [A1 H1]. specialize (IH r1 H1).
  destruct (trace c src ops (Some r1)) as [t r2]. cbn [fst] in IH.
  destruct x; cbn [fst]; apply Forall_cons; cbn [fst snd]; auto.
Qed.

Lemma within_metadata_loop : forall fuel n p m, Inv n p -> turns n fuel ->
  within (metadata_loop c src (h_endianness h) (h_format h) (h_page_length h) fuel p m)
  /\ forall p' m', metadata_loop c src (h_endianness h) (h_format h) (h_page_length h) fuel p m
       = Ok (p', m') -> m_data_subheaders m = [] ->
     (exists z, ((z <= n)%nat \/ Pf) /\ Inv z p')
     \/ (m_data_subheaders m' = [] /\ ps_hdr p' = reset_page_header).
Proof.
  induction fuel as [|fuel IH]; intros n p m H T.
  - cbn [metadata_loop]. split; [|discriminate]. destruct T as [T|T]; [lia|exact T].
  - cbn [metadata_loop]. destruct (read_page c src _ _ _ p) as [y p1] eqn:RP.
    destruct (Inv_step n p y p1 H RP) as (W & SM & X).
    destruct y as [[|]| | | |]; try (split; [exact W|discriminate]).
    + destruct (X eq_refl) as (k & LT & I1).
      pose proof (within_process_page (h_endianness h) (h_format h) (ps_buf p1) (ps_hdr p1) m SM) as PW.
      destruct (process_page _ _ (ps_buf p1) (ps_hdr p1) m) as [[m1 stop]| | | |] eqn:PP;
        cbn [bind]; try (split; [exact PW|discriminate]).
      destruct stop.
      * split; [exact I|]. intros p' m' E _. injection E as <- <-. left. exists k.
        split; [destruct LT; [left; lia|auto]|exact I1].
      * destruct (IH k p1 m1 I1) as [A1 A2].
        { destruct LT; [|right; assumption]. destruct T; [left; lia|right; assumption]. }
        split; [exact A1|]. intros p' m' E M.
        pose proof (process_page_found _ _ _ _ _ _ _ M PP) as FD.
        destruct FD as [FD|FD]; [discriminate|].
        destruct (A2 p' m' E FD) as [(z & Z & A3)|A3]; [left|right; exact A3].
        exists z. split; [|exact A3]. destruct Z; [|auto]. destruct LT; [left; lia|auto].
    + split; [exact I|]. intros p' m' E M. injection E as <- <-. right. split; [exact M|].
      unfold read_page in RP. destruct (src_eof src (ps_is p)); [injection RP as <-; reflexivity|].
      destruct (read_stream _ _ _ _ _ _) as [[[[|]| | | |] s'] b']; try discriminate.
      * destruct (get_page_header _ _ b'); discriminate.
      * destruct (src_eof src s'); [injection RP as <-; reflexivity|discriminate].
Qed.

Lemma within_open : forall flt s s1 b n, max_alloc c < row_limit ->
  open_header c src s = Ok (h, s1, b) -> Inv n (PState s1 b reset_page_header) ->
  turns n (page_fuel c) ->
  within (open_reader c src flt s)
  /\ forall r ev, open_reader c src flt s = Ok (r, ev) -> inv_r r.
Proof.
  intros flt s s1 b n MA OH H T.
  destruct (within_metadata_loop (page_fuel c) n _ empty_mstate H T) as [A1 A2].
  split.
  - unfold open_reader. rewrite OH. cbn [bind]. apply within_bind.
    + unfold set_metadata. apply within_bind; [exact A1|]. intros [p' m'] _.
      apply within_bind; [apply within_create_columns|intros; exact I].
    + intros [[p md] dsh] _. apply within_bind; [|intros; exact I].
      unfold read_data. apply within_bind.
      * unfold make_decompressor, dst_new, mbuf_new. destruct (md_compression md);
          try exact I; apply within_bind; try (intros; exact I);
          apply within_bind; try (intros; exact I); apply within_bind; try (intros; exact I);
          apply within_alloc.
      * intros dec _. destruct dsh; [|exact I]. apply within_bind; [|intros; exact I].
        apply within_build_page.
  - intros r ev O. pose proof O as O'. apply open_reader_inv in O'.
    destruct O' as (s2 & b2 & p & m & H1 & H2 & H3 & H4 & _).
    rewrite OH in H1. injection H1 as E1 <- <-. rewrite <- E1 in *.
    split; [symmetry; exact E1|]. split.
    + apply (opened_wf _ c src flt s r MA). exists ev. exact O.
    + intros N. destruct (A2 p m H2 eq_refl) as [(z & Z & Iz)|[M R]].
      * exists z. split; [destruct Z; [|right; assumption]; destruct T; [left; lia|right; assumption]|].
        unfold read_data in H4. binv H4. destruct (m_data_subheaders m).
        -- binv H4. injection H4 as <-. exact Iz.
        -- injection H4 as <-. exact Iz.
      * exfalso. unfold read_data in H4. binv H4. rewrite M in H4. rewrite R in H4.
        cbn in H4. injection H4 as H4. apply N. rewrite <- H4. reflexivity.
Qed.

End Outcome.
