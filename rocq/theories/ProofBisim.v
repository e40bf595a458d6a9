(** Two readers whose sources deliver the same pages behave in the same way. *)
From Verif Require Import Base Types Buffer Page Column Header Metadata Decomp Data Reader
  Lemmas SpecReader ProofMetaInv.
From Coq Require Import ZifyBool ZifyNat ZifyN.
Local Open Scope N_scope.

(** Enough turns for [n] pages, or as many in both. *)
Definition fuel_ok (n k1 k2 : nat) : Prop := k1 = k2 \/ (n < k1 /\ n < k2)%nat.

Lemma fuel_ok_le : forall n m k1 k2, (m <= n)%nat \/ k1 = k2 -> fuel_ok n k1 k2 ->
  fuel_ok m k1 k2.
Proof. intros n m k1 k2 [L|L] [H|H]; [left|right|left|left]; lia. Qed.

Lemma process_page_found : forall e f b h m m' stop, m_data_subheaders m = [] ->
  process_page e f b h m = Ok (m', stop) -> stop = true \/ m_data_subheaders m' = [].
Proof.
  intros e f b h m m' stop M H. unfold process_page in H.
  destruct (is_page_meta_mix_amd _); [|injection H as <- _; auto].
  binv H. destruct x as [m2 d]. injection H as <- <-.
  assert (D : d = false -> m_data_subheaders m2 = []).
  { change (snd (m2, d) = false -> m_data_subheaders (fst (m2, d)) = []).
    unfold process_page_metadata, process_page_subheaders in E. revert E.
    apply (process_subheaders_inv _
             (fun a => snd a = false -> m_data_subheaders (fst a) = [])).
    - intros acc sh acc' HA HB. binv HB. destruct x as [m3 d3]. injection HB as <-.
      cbn [fst snd]. intros HO. apply orb_false_iff in HO. destruct HO as [HO ->].
      specialize (HA HO). rewrite <- HA. clear -E. unfold process_subheader in E. binv E.
      repeat (match type of E with
      | (if ?k then _ else _) = _ => destruct k
      end); try (injection E as <-; reflexivity); try discriminate;
        binv E; injection E as <-.
      + unfold process_ROW_SIZE in E1. apply (proj1 (noexcept_Ok _ _ _)) in E1.
        do 8 binv E1. injection E1 as <-. reflexivity.
      + unfold process_COLUMN_SIZE in E1. apply (proj1 (noexcept_Ok _ _ _)) in E1.
        binv E1. injection E1 as <-. reflexivity.
      + unfold process_COLUMN_TEXT in E1. apply (proj1 (noexcept_Ok _ _ _)) in E1.
        do 2 binv E1. destruct (m_texts _).
        * binv E1. destruct x3.
          -- binv E1. injection E1 as <-. reflexivity.
          -- destruct (bytes_eqb _ _).
             ++ binv E1. injection E1 as <-. reflexivity.
             ++ destruct (0 <? md_lcs _); [binv E1|]; injection E1 as <-; reflexivity.
        * injection E1 as <-. reflexivity.
      + unfold process_COLUMN_NAME in E1. apply (proj1 (noexcept_Ok _ _ _)) in E1.
        binv E1. injection E1 as <-. reflexivity.
      + unfold process_COLUMN_ATTRIBUTES in E1.
        apply (proj1 (noexcept_Ok _ _ _)) in E1. binv E1. injection E1 as <-. reflexivity.
      + unfold process_FORMAT_AND_LABEL in E1.
        apply (proj1 (noexcept_Ok _ _ _)) in E1. do 7 binv E1. injection E1 as <-. reflexivity.
    - intros _. exact M. }
  destruct d; [left; apply orb_true_r|right; auto].
Qed.

Section Bisim.
Variables (S1 S2 : Type) (src1 : source S1) (src2 : source S2) (nd : bool) (ma : N) (k1 k2 : nat).
Variable h : header.
Let c1 := Cfg nd ma k1.
Let c2 := Cfg nd ma k2.
Let e := h_endianness h.
Let f := h_format h.
Let plen := h_page_length h.

(** Related page readers; at most [n] pages are left. *)
Variable R : nat -> pstate S1 -> pstate S2 -> Prop.

Hypothesis R_step : forall n p q, R n p q ->
  exists x p' q', read_page c1 src1 e f plen p = (x, p')
    /\ read_page c2 src2 e f plen q = (x, q')
    /\ match x with
       | Ok true => exists m, ((m < n)%nat \/ k1 = k2) /\ R m p' q' /\ ps_buf p' = ps_buf q'
                              /\ ps_hdr p' = ps_hdr q'
       | Ok false => ps_hdr p' = reset_page_header /\ ps_hdr q' = reset_page_header
       | _ => True
       end.

Lemma next_page_bisim : forall md j1 j2 n p q, R n p q -> fuel_ok n j1 j2 ->
  (k1 = k2 -> j1 = j2) ->
  exists x p' q', read_next_page c1 src1 e f plen md j1 p = (x, p')
    /\ read_next_page c2 src2 e f plen md j2 q = (x, q')
    /\ match x with
       | Ok (Some _) => exists m, ((m <= n)%nat \/ k1 = k2) /\ R m p' q' /\ ps_buf p' = ps_buf q'
       | _ => True
       end.
Proof.
  intros md. induction j1 as [|j1 IH]; intros j2 n p q H F KJ.
  - destruct j2 as [|j2]; [|destruct F; lia]. exists Fuel, p, q. auto.
  - destruct j2 as [|j2]; [destruct F; lia|]. cbn [read_next_page].
    destruct (R_step n p q H) as (x & p' & q' & E1 & E2 & X). rewrite E1, E2.
    destruct x as [[|]| | | |]; try (do 3 eexists; auto; fail).
    destruct X as (m & LT & Rm & B & HD). rewrite B, HD.
    destruct (build_page e f md (ps_buf q') (ps_hdr q')) as [[pg|]| | | |];
      try (do 3 eexists; auto; fail).
    + do 3 eexists. split; [reflexivity|]. split; [reflexivity|]. exists m. split; [lia|auto].
    + destruct (IH j2 m p' q' Rm) as (y & p2 & q2 & A1 & A2 & A3).
      { destruct LT as [LT|LT]; [destruct F as [F|F]; [left|right]; lia|left].
        specialize (KJ LT). lia. }
      { intros K. specialize (KJ K). lia. }
      exists y, p2, q2. split; [exact A1|]. split; [exact A2|].
      destruct y as [[pg|]| | | |]; try exact I. destruct A3 as (z & Z & A3).
      exists z. split; [lia|exact A3].
Qed.

Definition d_rel (d1 : dstate S1) (d2 : dstate S2) : Prop :=
  ds_dec d1 = ds_dec d2 /\ ds_row d1 = ds_row d2 /\ ds_page d1 = ds_page d2
  /\ (ds_page d1 <> None -> exists n, R n (ds_p d1) (ds_p d2)
        /\ ps_buf (ds_p d1) = ps_buf (ds_p d2) /\ fuel_ok n k1 k2).

Lemma data_next_bisim : forall md d1 d2, d_rel d1 d2 ->
  exists x d1' d2', data_next c1 src1 h md d1 = (x, d1') /\ data_next c2 src2 h md d2 = (x, d2')
    /\ d_rel d1' d2'.
Proof.
  intros md d1 d2 H. pose proof H as (D & W & P & L). unfold data_next. rewrite <- W, <- P.
  destruct (ds_row d1 =? md_row_count md); [do 3 eexists; eauto|].
  destruct (ds_page d1) as [pg|] eqn:G; [|do 3 eexists; eauto].
  destruct (page_next pg); [|do 3 eexists; eauto].
  destruct (L ltac:(discriminate)) as (n & Rn & B & F).
  destruct (next_page_bisim md k1 k2 n _ _ Rn F ltac:(auto)) as (x & p' & q' & E1 & E2 & X).
  fold e f plen. cbn [page_fuel c1 c2]. rewrite E1, E2.
  destruct x as [[pg'|]| | | |]; do 3 eexists; (split; [reflexivity|]); (split; [reflexivity|]);
    (split; [exact D|]); (split; [reflexivity|]); (split; [reflexivity|]); cbn [ds_page ds_p];
    try congruence.
  intros _. destruct X as (m & M & Rm & B'). exists m. split; [exact Rm|]. split; [exact B'|].
  eapply fuel_ok_le; eassumption.
Qed.

Lemma read_line_bisim_d : forall d1 d2, d_rel d1 d2 ->
  exists x d1' d2', data_read_line d1 = (x, d1') /\ data_read_line d2 = (x, d2')
    /\ d_rel d1' d2' /\ (match x with Ok _ => ds_page d1' <> None | _ => True end).
Proof.
  intros d1 d2 H. pose proof H as (D & W & P & L). unfold data_read_line. rewrite <- P.
  destruct (ds_page d1) as [pg|] eqn:G.
  - do 3 eexists. split; [reflexivity|]. split; [reflexivity|]. split.
    + split; [exact D|]. split; [cbn [ds_row]; congruence|]. split; [reflexivity|].
      intros _. apply L. discriminate.
    + destruct (page_read_line pg); cbn [ds_page]; try exact I. discriminate.
  - do 3 eexists. split; [reflexivity|]. split; [reflexivity|]. split; [|exact I].
    split; [exact D|]. split; [exact W|]. split; [congruence|]. congruence.
Qed.

Lemma extract_bisim : forall md off len d1 d2, d_rel d1 d2 -> ds_page d1 <> None ->
  exists x d1' d2', extract_row_values c1 h md off len d1 = (x, d1')
    /\ extract_row_values c2 h md off len d2 = (x, d2') /\ d_rel d1' d2'.
Proof.
  intros md off len d1 d2 H N. pose proof H as (D & W & P & L).
  destruct (L N) as (n & Rn & B & F). unfold extract_row_values.
  change (fmt_assert c2) with (fmt_assert c1).
  destruct (fmt_assert c1 _); try (do 3 eexists; eauto; fail).
  rewrite <- B, <- D.
  destruct (len <? md_row_length md); [|do 3 eexists; eauto].
  assert (ND : forall x, d_rel (DState (ds_p d1) x (ds_row d1) (ds_page d1))
                           (DState (ds_p d2) x (ds_row d2) (ds_page d2))).
  { intros x. split; [reflexivity|]. split; [exact W|]. split; [exact P|exact L]. }
  destruct (ds_dec d1) as [|z|z]; [do 3 eexists; eauto| |].
  - destruct (read_cells _ off len) as [x| | | |]; try (do 3 eexists; eauto; fail).
    destruct (rdc x z) as [r z']. do 3 eexists. eauto.
  - destruct (read_cells _ off len) as [x| | | |]; try (do 3 eexists; eauto; fail).
    destruct (rle x z) as [r z']. do 3 eexists. eauto.
Qed.

Lemma read_line_bisim : forall md d1 d2, d_rel d1 d2 ->
  exists x d1' d2', read_line c1 src1 h md d1 = (x, d1') /\ read_line c2 src2 h md d2 = (x, d2')
    /\ d_rel d1' d2'.
Proof.
  intros md d1 d2 H. unfold read_line.
  destruct (data_next_bisim md d1 d2 H) as (x & e1 & e2 & E1 & E2 & H1). rewrite E1, E2.
  destruct x as [[|]| | | |]; try (do 3 eexists; eauto; fail).
  destruct (read_line_bisim_d e1 e2 H1) as (y & g1 & g2 & F1 & F2 & H2 & N). rewrite F1, F2.
  destruct y as [[off len]| | | |]; try (do 3 eexists; eauto; fail).
  destruct (extract_bisim md off len g1 g2 H2 N) as (z & a1 & a2 & A1 & A2 & H3).
  rewrite A1, A2. do 3 eexists. eauto.
Qed.

Lemma data_skip_bisim : forall md n d1 d2, d_rel d1 d2 ->
  exists x d1' d2', data_skip c1 src1 h md n d1 = (x, d1')
    /\ data_skip c2 src2 h md n d2 = (x, d2') /\ d_rel d1' d2'.
Proof.
  intros md. induction n as [|n IH]; intros d1 d2 H; cbn [data_skip]; [do 3 eexists; eauto|].
  destruct (data_next_bisim md d1 d2 H) as (x & e1 & e2 & E1 & E2 & H1). rewrite E1, E2.
  destruct x as [[|]| | | |]; try (do 3 eexists; eauto; fail).
  destruct (read_line_bisim_d e1 e2 H1) as (y & g1 & g2 & F1 & F2 & H2 & N). rewrite F1, F2.
  destruct y as [pl| | | |]; try (do 3 eexists; eauto; fail).
  apply IH. exact H2.
Qed.

Definition r_rel (r1 : rstate S1) (r2 : rstate S2) : Prop :=
  rs_h r1 = h /\ rs_h r2 = h /\ rs_md r1 = rs_md r2 /\ d_rel (rs_d r1) (rs_d r2).

Lemma read_row_bisim : forall r1 r2, r_rel r1 r2 ->
  exists x r1' r2' ev, read_row c1 src1 r1 = (x, r1', ev) /\ read_row c2 src2 r2 = (x, r2', ev)
    /\ r_rel r1' r2'.
Proof.
  intros r1 r2 (H1 & H2 & M & D). unfold read_row. rewrite H1, H2, <- M.
  pose proof D as (_ & W & _). rewrite <- W.
  destruct (read_line_bisim (rs_md r1) _ _ D) as (x & d1 & d2 & E1 & E2 & D'). rewrite E1, E2.
  destruct x as [[p|]| | | |]; do 4 eexists; (split; [reflexivity|]); (split; [reflexivity|]);
    (split; [reflexivity|]); (split; [reflexivity|]); (split; [reflexivity|exact D']).
Qed.

Lemma read_rows_bisim : forall n r1 r2, r_rel r1 r2 ->
  exists x r1' r2' ev, read_rows c1 src1 n r1 = (x, r1', ev)
    /\ read_rows c2 src2 n r2 = (x, r2', ev) /\ r_rel r1' r2'.
Proof.
  induction n as [|n IH]; intros r1 r2 H; cbn [read_rows]; [do 4 eexists; eauto|].
  destruct (read_row_bisim r1 r2 H) as (x & a1 & a2 & ev & E1 & E2 & H1). rewrite E1, E2.
  destruct x as [[|]| | | |]; try (do 4 eexists; eauto; fail).
  destruct (IH a1 a2 H1) as (y & b1 & b2 & ev' & F1 & F2 & H2). rewrite F1, F2.
  do 4 eexists; eauto.
Qed.

Lemma read_all_loop_bisim : forall n r1 r2, r_rel r1 r2 ->
  exists x r1' r2' ev, read_all_loop c1 src1 n r1 = (x, r1', ev)
    /\ read_all_loop c2 src2 n r2 = (x, r2', ev) /\ r_rel r1' r2'.
Proof.
  induction n as [|n IH]; intros r1 r2 H; cbn [read_all_loop]; [do 4 eexists; eauto|].
  destruct (read_row_bisim r1 r2 H) as (x & a1 & a2 & ev & E1 & E2 & H1). rewrite E1, E2.
  destruct x as [[|]| | | |]; try (do 4 eexists; eauto; fail).
  destruct (IH a1 a2 H1) as (y & b1 & b2 & ev' & F1 & F2 & H2). rewrite F1, F2.
  do 4 eexists; eauto.
Qed.

Lemma step_bisim : forall o r1 r2, r_rel r1 r2 ->
  exists x r1' r2' ev, step c1 src1 o r1 = (x, r1', ev) /\ step c2 src2 o r2 = (x, r2', ev)
    /\ r_rel r1' r2'.
Proof.
  intros o r1 r2 H. unfold step. destruct o.
  - destruct (read_row_bisim r1 r2 H) as (x & a1 & a2 & ev & E1 & E2 & H1). rewrite E1, E2.
    do 4 eexists; eauto.
  - destruct (read_rows_bisim (N.to_nat n) r1 r2 H) as (x & a1 & a2 & ev & E1 & E2 & H1).
    rewrite E1, E2. do 4 eexists; eauto.
  - unfold read_all. pose proof H as (_ & _ & M & _ & W & _). rewrite <- M, <- W.
    destruct (read_all_loop_bisim (Datatypes.S (N.to_nat (md_row_count (rs_md r1) - ds_row (rs_d r1))))
                r1 r2 H) as (x & a1 & a2 & ev & E1 & E2 & H1).
    rewrite E1, E2. do 4 eexists; eauto.
  - unfold skip. pose proof H as (H1 & H2 & M & D). rewrite H1, H2, <- M.
    destruct (data_skip_bisim (rs_md r1) (N.to_nat n) _ _ D) as (x & d1 & d2 & E1 & E2 & D').
    rewrite E1, E2. do 4 eexists. split; [reflexivity|]. split; [reflexivity|].
    split; [reflexivity|]. split; [reflexivity|]. split; [reflexivity|exact D'].
  - unfold read_row_no_sink. pose proof H as (H1 & H2 & M & D). rewrite H1, H2, <- M.
    destruct (read_line_bisim (rs_md r1) _ _ D) as (x & d1 & d2 & E1 & E2 & D').
    rewrite E1, E2. do 4 eexists. split; [reflexivity|]. split; [reflexivity|].
    split; [reflexivity|]. split; [reflexivity|]. split; [reflexivity|exact D'].
  - do 4 eexists; eauto.
Qed.

Lemma trace_bisim : forall ops r1 r2, r_rel r1 r2 ->
  fst (trace c1 src1 ops (Some r1)) = fst (trace c2 src2 ops (Some r2))
  /\ current_row_index (snd (trace c1 src1 ops (Some r1)))
     = current_row_index (snd (trace c2 src2 ops (Some r2))).
Proof.
  induction ops as [|o ops IH]; intros r1 r2 H; cbn [trace].
  - split; [reflexivity|]. cbn. destruct H as (_ & _ & _ & _ & W & _). exact W.
  - cbn [reader_step].
    destruct (step_bisim o r1 r2 H) as (x & a1 & a2 & ev & E1 & E2 & H1). rewrite E1, E2.
    destruct (IH a1 a2 H1) as [I1 I2].
    destruct (trace c1 src1 ops (Some a1)) as [t1 f1].
    destruct (trace c2 src2 ops (Some a2)) as [t2 f2]. cbn [fst snd] in I1, I2.
    assert (CI : current_row_index (Some a1) = current_row_index (Some a2))
      by (destruct H1 as (_ & _ & _ & _ & W & _); exact W).
    destruct x; cbn [fst snd]; split; try reflexivity; try exact CI; try exact I2; congruence.
Qed.

(** ** Construction *)

Lemma metadata_bisim : forall j1 j2 n p q m, R n p q -> fuel_ok n j1 j2 ->
  (k1 = k2 -> j1 = j2) ->
  m_data_subheaders m = [] ->
  match metadata_loop c1 src1 e f plen j1 p m with
  | Ok (p', m') => exists q', metadata_loop c2 src2 e f plen j2 q m = Ok (q', m')
      /\ ps_hdr p' = ps_hdr q'
      /\ ((exists z, ((z <= n)%nat \/ k1 = k2) /\ R z p' q' /\ ps_buf p' = ps_buf q')
          \/ (m_data_subheaders m' = [] /\ ps_hdr p' = reset_page_header))
  | Exn x => metadata_loop c2 src2 e f plen j2 q m = Exn x
  | Abort => metadata_loop c2 src2 e f plen j2 q m = Abort
  | Undef u => metadata_loop c2 src2 e f plen j2 q m = Undef u
  | Fuel => metadata_loop c2 src2 e f plen j2 q m = Fuel
  end.
Proof.
  induction j1 as [|j1 IH]; intros j2 n p q m H F KJ M.
  - destruct j2 as [|j2]; [|destruct F; lia]. reflexivity.
  - destruct j2 as [|j2]; [destruct F; lia|]. cbn [metadata_loop].
    destruct (R_step n p q H) as (x & p' & q' & E1 & E2 & X). rewrite E1, E2.
    destruct x as [[|]| | | |]; try reflexivity.
    + destruct X as (z & LT & Rz & B & HD). rewrite B, HD.
      destruct (process_page e f (ps_buf q') (ps_hdr q') m) as [[m' stop]| | | |] eqn:PP;
        cbn [bind]; try reflexivity.
      pose proof (process_page_found _ _ _ _ _ _ _ M PP) as FD.
      destruct stop.
      * exists q'. split; [reflexivity|]. split; [exact HD|]. left. exists z.
        split; [lia|]. auto.
      * destruct FD as [FD|FD]; [discriminate|].
        assert (F' : fuel_ok z j1 j2).
        { destruct LT as [LT|LT]; [destruct F as [F|F]; [left|right]; lia|left].
          specialize (KJ LT). lia. }
        specialize (IH j2 z p' q' m' Rz F' ltac:(intros K; specialize (KJ K); lia) FD).
        destruct (metadata_loop c1 src1 e f plen j1 p' m') as [[p2 m2]| | | |]; try exact IH.
        destruct IH as (q2 & I1 & I2 & I3). exists q2. split; [exact I1|]. split; [exact I2|].
        destruct I3 as [(y & Y & I3)|I3]; [left|right; exact I3]. exists y. split; [lia|exact I3].
    + destruct X as [X1 X2]. exists q'. split; [reflexivity|]. split; [congruence|].
      right. auto.
Qed.

Lemma read_data_bisim : forall n md p q dsh, fuel_ok n k1 k2 -> ps_hdr p = ps_hdr q ->
  ((exists z, ((z <= n)%nat \/ k1 = k2) /\ R z p q /\ ps_buf p = ps_buf q)
   \/ (dsh = [] /\ ps_hdr p = reset_page_header)) ->
  match read_data c1 h md p dsh with
  | Ok d1 => exists d2, read_data c2 h md q dsh = Ok d2 /\ d_rel d1 d2
  | Exn x => read_data c2 h md q dsh = Exn x
  | Abort => read_data c2 h md q dsh = Abort
  | Undef u => read_data c2 h md q dsh = Undef u
  | Fuel => read_data c2 h md q dsh = Fuel
  end.
Proof.
  intros n md p q dsh F HD C. unfold read_data.
  change (make_decompressor c2) with (make_decompressor c1).
  destruct (make_decompressor c1 _ _) as [dec| | | |]; cbn [bind]; try reflexivity.
  destruct C as [(z & Z & Rz & B)|[-> C]].
  - assert (D : forall pg, d_rel (DState p dec 0 pg) (DState q dec 0 pg)).
    { intros pg. split; [reflexivity|]. split; [reflexivity|]. split; [reflexivity|].
      intros _. exists z. split; [exact Rz|]. split; [exact B|]. eapply fuel_ok_le; eassumption. }
    destruct dsh as [|a l].
    + rewrite <- B, <- HD. destruct (build_page _ _ _ _ _); cbn [bind]; try reflexivity.
      eexists. split; [reflexivity|apply D].
    + eexists. split; [reflexivity|apply D].
  - rewrite <- HD, C. unfold build_page. cbn [ph_type reset_page_header].
    cbn. eexists. split; [reflexivity|].
    split; [reflexivity|]. split; [reflexivity|]. split; [reflexivity|]. cbn. congruence.
Qed.

(** The whole construction, after the header. *)
Lemma open_bisim : forall flt s1 s2 t1 t2 b n,
  open_header c1 src1 s1 = Ok (h, t1, b) -> open_header c2 src2 s2 = Ok (h, t2, b) ->
  R n (PState t1 b reset_page_header) (PState t2 b reset_page_header) -> fuel_ok n k1 k2 ->
  match open_reader c1 src1 flt s1 with
  | Ok (r1, ev) => exists r2, open_reader c2 src2 flt s2 = Ok (r2, ev) /\ r_rel r1 r2
  | Exn x => open_reader c2 src2 flt s2 = Exn x
  | Abort => open_reader c2 src2 flt s2 = Abort
  | Undef u => open_reader c2 src2 flt s2 = Undef u
  | Fuel => open_reader c2 src2 flt s2 = Fuel
  end.
Proof.
  intros flt s1 s2 t1 t2 b n O1 O2 H F. unfold open_reader. rewrite O1, O2. cbn [bind].
  unfold set_metadata. fold e f plen. cbn [page_fuel c1 c2].
  pose proof (metadata_bisim k1 k2 n _ _ empty_mstate H F ltac:(auto) eq_refl) as M.
  fold c1 c2.
  destruct (metadata_loop c1 src1 e f plen k1 (PState t1 b reset_page_header) empty_mstate)
    as [[p' m']| | | |]; cbn [bind]; try (rewrite M; reflexivity).
  destruct M as (q' & -> & HD & C). cbn [bind].
  change (create_columns c2) with (create_columns c1).
  destruct (create_columns c1 e flt m') as [md| | | |]; cbn [bind]; try reflexivity.
  pose proof (read_data_bisim n md p' q' (m_data_subheaders m') F HD C) as D.
  destruct (read_data c1 h md p' (m_data_subheaders m')) as [d1| | | |]; cbn [bind];
    try (rewrite D; reflexivity).
  destruct D as (d2 & -> & D). cbn [bind]. eexists. split; [reflexivity|].
  split; [reflexivity|]. split; [reflexivity|]. split; [reflexivity|exact D].
Qed.

End Bisim.
