(** Readers of files whose headers differ in words only. *)
From Verif Require Import Base Types Buffer Page Column Header Metadata Decomp Data Reader
  Lemmas SpecReader SpecValues SpecHeader SpecSource SpecWords ProofBuffer ProofHeader ProofMetaInv
  ProofBisim ProofSource SpecFile Samples.
From Coq Require Import ZifyBool ZifyNat ZifyN.
Local Open Scope N_scope.

(** ** What is used of the header *)

Definition put_header {S} (h : header) (r : rstate S) : rstate S :=
  RState h (rs_md r) (rs_d r).

Section Header.
Variables (S : Type) (c : cfg) (src : source S) (h h' : header).
Hypothesis E : h_endianness h' = h_endianness h.
Hypothesis F : h_format h' = h_format h.
Hypothesis P : h_page_length h' = h_page_length h.

Lemma next_header : forall md (d : dstate S),
  data_next c src h' md d = data_next c src h md d.
Proof. intros. unfold data_next. rewrite E, F, P. reflexivity. Qed.

Lemma extract_header : forall md off len (d : dstate S),
  extract_row_values c h' md off len d = extract_row_values c h md off len d.
Proof. intros. unfold extract_row_values. rewrite P. reflexivity. Qed.

Lemma line_header : forall md (d : dstate S),
  read_line c src h' md d = read_line c src h md d.
Proof.
  intros. unfold read_line. rewrite next_header.
  destruct (data_next c src h md d) as [[[|]| | | |] d1]; try reflexivity.
  destruct (data_read_line d1) as [[[off len]| | | |] d2]; try reflexivity.
  rewrite extract_header. reflexivity.
Qed.

Lemma skip_header : forall md n (d : dstate S),
  data_skip c src h' md n d = data_skip c src h md n d.
Proof.
  intros md. induction n as [|n IH]; intros d; cbn [data_skip]; [reflexivity|].
  rewrite next_header.
  destruct (data_next c src h md d) as [[[|]| | | |] d1]; try reflexivity.
  destruct (data_read_line d1) as [[[off len]| | | |] d2]; try reflexivity. apply IH.
Qed.

Lemma read_data_header : forall md (p : pstate S) dsh,
  read_data c h' md p dsh = read_data c h md p dsh.
Proof. intros. unfold read_data. rewrite E, F. reflexivity. Qed.

Lemma row_header : forall r, rs_h r = h ->
  read_row c src (put_header h' r)
  = (let '(x, r', ev) := read_row c src r in (x, put_header h' r', ev))
  /\ rs_h (snd (fst (read_row c src r))) = h
  /\ rs_md (snd (fst (read_row c src r))) = rs_md r.
Proof.
  intros r H. unfold read_row, put_header. cbn [rs_h rs_md rs_d]. rewrite line_header, H.
  destruct (read_line c src h (rs_md r) (rs_d r)) as [[[p|]| | | |] d]; cbn; auto.
Qed.

Lemma rows_header : forall n r, rs_h r = h ->
  read_rows c src n (put_header h' r)
  = (let '(x, r', ev) := read_rows c src n r in (x, put_header h' r', ev))
  /\ rs_h (snd (fst (read_rows c src n r))) = h
  /\ rs_md (snd (fst (read_rows c src n r))) = rs_md r.
Proof.
  induction n as [|n IH]; intros r H; cbn [read_rows]; [auto|].
  destruct (row_header r H) as (A & B & M). rewrite A.
  destruct (read_row c src r) as [[x r1] ev]. cbn [fst snd] in *.
  destruct x as [[|]| | | |]; auto.
  destruct (IH r1 B) as (A1 & B1 & M1). rewrite A1.
  destruct (read_rows c src n r1) as [[y r2] ev2]. cbn [fst snd] in *.
  repeat split; auto; congruence.
Qed.

Lemma all_header : forall n r, rs_h r = h ->
  read_all_loop c src n (put_header h' r)
  = (let '(x, r', ev) := read_all_loop c src n r in (x, put_header h' r', ev))
  /\ rs_h (snd (fst (read_all_loop c src n r))) = h
  /\ rs_md (snd (fst (read_all_loop c src n r))) = rs_md r.
Proof.
  induction n as [|n IH]; intros r H; cbn [read_all_loop]; [auto|].
  destruct (row_header r H) as (A & B & M). rewrite A.
  destruct (read_row c src r) as [[x r1] ev]. cbn [fst snd] in *.
  destruct x as [[|]| | | |]; auto.
  destruct (IH r1 B) as (A1 & B1 & M1). rewrite A1.
  destruct (read_all_loop c src n r1) as [[y r2] ev2]. cbn [fst snd] in *.
  repeat split; auto; congruence.
Qed.

Lemma step_header : forall o r, rs_h r = h ->
  step c src o (put_header h' r)
  = (let '(x, r', ev) := step c src o r in (x, put_header h' r', ev))
  /\ rs_h (snd (fst (step c src o r))) = h
  /\ rs_md (snd (fst (step c src o r))) = rs_md r.
Proof.
  intros o r H. unfold step. destruct o.
  - destruct (row_header r H) as (A & B & M). rewrite A.
    destruct (read_row c src r) as [[x r1] ev]. auto.
  - destruct (rows_header (N.to_nat n) r H) as (A & B & M). rewrite A.
    destruct (read_rows c src _ r) as [[x r1] ev]. auto.
  - unfold read_all. destruct (all_header (Datatypes.S (N.to_nat (md_row_count (rs_md r) - ds_row (rs_d r)))) r H) as (A & B & M).
    change (rs_md (put_header h' r)) with (rs_md r). change (rs_d (put_header h' r)) with (rs_d r).
    rewrite A. destruct (read_all_loop c src _ r) as [[x r1] ev]. auto.
  - unfold skip, put_header. cbn [rs_h rs_md rs_d]. rewrite skip_header, H.
    destruct (data_skip c src h (rs_md r) _ (rs_d r)) as [x d]. cbn. auto.
  - unfold read_row_no_sink, put_header. cbn [rs_h rs_md rs_d]. rewrite line_header, H.
    destruct (read_line c src h (rs_md r) (rs_d r)) as [x d]. cbn. auto.
  - auto.
Qed.

Lemma trace_header : forall ops r, rs_h r = h ->
  fst (trace c src ops (Some (put_header h' r))) = fst (trace c src ops (Some r))
  /\ current_row_index (snd (trace c src ops (Some (put_header h' r))))
     = current_row_index (snd (trace c src ops (Some r)))
  /\ properties (snd (trace c src ops (Some (put_header h' r)))) = (h', rs_md r)
  /\ properties (snd (trace c src ops (Some r))) = (h, rs_md r).
Proof.
  induction ops as [|o ops IH]; intros r H; cbn [trace].
  - cbn. rewrite H. auto.
  - cbn [reader_step]. destruct (step_header o r H) as (A & B & M). rewrite A.
    destruct (step c src o r) as [[x r1] ev]. cbn [fst snd] in *.
    destruct (IH r1 B) as (I1 & I2 & I3 & I4).
    destruct (trace c src ops (Some (put_header h' r1))) as [t1 q1].
    destruct (trace c src ops (Some r1)) as [t2 q2]. cbn [fst snd] in *. rewrite M in *.
    destruct x; cbn [fst snd]; repeat split; auto; try congruence;
      cbn; rewrite ?B, M; reflexivity.
Qed.

End Header.

(** ** A page in the place of the header *)

Lemma read_over : forall S c (src : source S) b s len s' data,
  lenN (mem b) = msize b -> msize b <= len -> 0 < len < W64 ->
  len <= max_alloc c \/ msize b = len ->
  src_read src s len = (s', data, true) -> lenN data = len ->
  read_stream c src b s len 0 = (Ok true, s', full data).
Proof.
  intros S c src b s len s' data W M L A R D. unfold read_stream.
  rewrite add64_small by lia. rewrite N.add_0_l.
  assert (Z : exists m, resize c b len = Ok (MBuf m len) /\ lenN m = len).
  { unfold resize. destruct (N.ltb_spec (msize b) len) as [G|G].
    - unfold alloc. destruct (N.leb_spec len (max_alloc c)); [|lia]. cbn [bind].
      assert (FN : firstn (N.to_nat (msize b)) (mem b) = mem b)
        by (apply firstn_all2; unfold lenN in W; lia).
      rewrite FN. destruct (N.eqb_spec (msize b) 0) as [Q|Q]; cbn [negb].
      + eexists. split; [reflexivity|]. rewrite lenN_repeat. lia.
      + rewrite write_cells_Ok by (rewrite lenN_repeat; lia). eexists. split; [reflexivity|].
        unfold splice. cbn [N.to_nat firstn app Nat.add].
        rewrite lenN_app. unfold lenN in *. rewrite skipn_length, repeat_length. lia.
    - exists (mem b). split; [reflexivity|lia]. }
  destruct Z as (m & -> & LM). rewrite R. cbn [mem msize].
  rewrite D. destruct (N.eqb_spec len 0); [lia|].
  rewrite write_cells_Ok by (rewrite lenN_map; lia).
  unfold full. rewrite D. do 3 f_equal. unfold splice. cbn [N.to_nat firstn app Nat.add].
  rewrite skipn_all2; [apply app_nil_r|]. rewrite map_length. unfold lenN in *. lia.
Qed.

Section Words.
Variables (nd : bool) (ma : N) (k : nat) (h : header).
Let c := Cfg nd ma k.
Let plen := h_page_length h.

(** The sources are in the same state, the buffers have the same size. *)
Definition over_rel (n : nat) (p q : pstate fstate) : Prop :=
  ps_is p = ps_is q /\ (fs_eof (ps_is p) = fs_fail (ps_is p))
  /\ msize (ps_buf p) = msize (ps_buf q) /\ msize (ps_buf p) <= plen
  /\ lenN (mem (ps_buf p)) = msize (ps_buf p) /\ lenN (mem (ps_buf q)) = msize (ps_buf q).

Lemma over_step : 0 < plen < 2 ^ 32 -> forall n p q, over_rel n p q ->
  exists x p' q', read_page c file_source (h_endianness h) (h_format h) plen p = (x, p')
    /\ read_page c file_source (h_endianness h) (h_format h) plen q = (x, q')
    /\ match x with
       | Ok true => exists m, ((m < n)%nat \/ k = k) /\ over_rel m p' q' /\ ps_buf p' = ps_buf q'
                              /\ ps_hdr p' = ps_hdr q'
       | Ok false => ps_hdr p' = reset_page_header /\ ps_hdr q' = reset_page_header
       | _ => True
       end.
Proof.
  intros PL n p q (I & EF & M & L & W1 & W2). unfold read_page. rewrite <- I.
  destruct (src_eof file_source (ps_is p)) eqn:EO; [do 3 eexists; cbn; auto|].
  cbn [src_eof file_source] in EO. unfold file_eof in EO.
  destruct (ps_is p) as [rest eo fa]. cbn [fs_eof fs_fail] in *. subst eo fa.
  destruct (N.le_gt_cases plen (max_alloc c)) as [A|A];
    [|destruct (N.eq_dec plen (msize (ps_buf p))) as [A'|A']].
  3:{ rewrite !read_stream_bad_alloc by (rewrite ?N.add_0_l; first [assumption | unfold W64; lia]).
      do 3 eexists. auto. }
  all: (assert (AL : plen <= max_alloc c \/ msize (ps_buf p) = plen) by lia; clear A; try clear A';
    destruct (N.le_gt_cases plen (lenN rest)) as [G|G];
    [ pose proof (file_read_all rest plen ltac:(lia) G) as R;
      assert (LD : lenN (firstn (N.to_nat plen) rest) = plen)
        by (unfold lenN in *; rewrite firstn_length; lia);
      rewrite (read_over _ c file_source (ps_buf p) _ plen _ _ W1 L ltac:(unfold W64; lia) AL R LD);
      rewrite (read_over _ c file_source (ps_buf q) _ plen _ _ W2 ltac:(lia) ltac:(unfold W64; lia)
                 ltac:(lia) R LD);
      destruct (get_page_header _ _ _); do 3 eexists; (split; [reflexivity|]);
        (split; [reflexivity|]); auto;
      exists 0%nat; (split; [auto|]); (split; [|split; reflexivity]);
      unfold over_rel, full; cbn [ps_is ps_buf fs_eof fs_fail mem msize]; rewrite lenN_map, LD;
      repeat split; lia
    | pose proof (file_read_short rest plen ltac:(lia) G) as R;
      assert (V1 : wf_mbuf (ps_buf p)) by (unfold wf_mbuf; lia);
      assert (V2 : wf_mbuf (ps_buf q)) by (unfold wf_mbuf; lia);
      destruct (read_stream_spec _ c file_source (ps_buf p) _ plen 0 _ _ _ V1
                  ltac:(unfold W64; lia) ltac:(lia) R ltac:(lia)) as (b1 & R1 & _);
      destruct (read_stream_spec _ c file_source (ps_buf q) _ plen 0 _ _ _ V2
                  ltac:(unfold W64; lia) ltac:(lia) R ltac:(lia)) as (b2 & R2 & _);
      rewrite R1, R2; cbn; do 3 eexists; auto ]).
Qed.

End Words.

(** ** Two files *)

Lemma words : forall c flt f1 f2,
  has_magic f1 -> has_magic f2 -> header_dates_ok f1 -> header_dates_ok f2 ->
  same_but_words f1 f2 ->
  288 + shift2 f1 <= header_length_field f1 <= page_length_field f1 ->
  header_length_field f1 <= lenN f1 -> header_length_field f2 <= lenN f2 ->
  same_outcome (same_but_header c file_source f1 f2)
    (open_reader c file_source flt (file_open f1))
    (open_reader c file_source flt (file_open f2)).
Proof.
  intros [nd ma k] flt f1 f2 M1 M2 D1 D2 [SF SE SH SL SP SR] R L1 L2.
  set (c := Cfg nd ma k).
  assert (S2 : shift2 f2 = shift2 f1).
  { unfold shift2. rewrite SH. unfold file_format in SF.
    destruct (is_64 f1), (is_64 f2); congruence. }
  destruct (N.le_gt_cases (header_length_field f1) ma) as [A|A].
  2:{ assert (B : forall f, has_magic f -> 288 <= header_length_field f <= lenN f ->
        ma < header_length_field f ->
        open_reader c file_source flt (file_open f) = Exn E_bad_alloc).
      { intros f M L B. unfold open_reader.
        destruct (N.le_gt_cases 288 ma) as [A1|A1].
        - rewrite open_header_file by (assumption || lia).
          destruct (N.ltb_spec (header_length_field f) 288); [lia|]. cbn [max_alloc c].
          destruct (N.leb_spec (header_length_field f) ma); [lia|]. reflexivity.
        - unfold open_header, check_header, check_header_ctor.
          rewrite read_stream_bad_alloc; [reflexivity|reflexivity|exact A1|reflexivity]. }
      rewrite (B f1), (B f2) by (assumption || lia). reflexivity. }
  destruct (header_total c f1 M1 ltac:(lia) L1 A D1) as (h1 & O1 & H1).
  destruct (header_total c f2 M2 ltac:(lia) L2 ltac:(cbn; lia) D2) as (h2 & O2 & H2).
  pose proof (open_header_plen _ _ _ _ _ O1) as PL.
  assert (EE : h_endianness h2 = h_endianness h1)
    by (rewrite (hof_endian _ _ H1), (hof_endian _ _ H2); auto).
  assert (EF : h_format h2 = h_format h1)
    by (rewrite (hof_format _ _ H1), (hof_format _ _ H2); auto).
  assert (P1 : h_page_length h1 = page_length_field f1) by apply (hof_page_length _ _ H1).
  assert (EP : h_page_length h2 = h_page_length h1).
  { rewrite P1, SP. apply (hof_page_length _ _ H2). }
  unfold open_reader. rewrite O1, O2. cbn [bind]. unfold set_metadata. rewrite EE, EF, EP.
  cbn [page_fuel c]. fold c. rewrite <- SR.
  set (s := FState (skipn (N.to_nat (header_length_field f1)) f1) false false).
  set (b1 := full (field f1 0 (header_length_field f1))).
  set (b2 := full (field f2 0 (header_length_field f2))).
  assert (OS := over_step nd ma k h1 ltac:(lia)).
  assert (RR : over_rel h1 0 (PState s b1 reset_page_header) (PState s b2 reset_page_header)).
  { assert (Z1 : lenN (field f1 0 (header_length_field f1)) = header_length_field f1)
      by (apply lenN_field; lia).
    assert (Z2 : lenN (field f2 0 (header_length_field f2)) = header_length_field f2)
      by (apply lenN_field; lia).
    unfold over_rel, b1, b2, full. cbn [ps_is ps_buf s fs_eof fs_fail mem msize].
    rewrite !lenN_map, Z1, Z2. repeat split; lia. }
  assert (FK : fuel_ok 0 k k) by (left; reflexivity).
  pose proof (metadata_bisim _ _ file_source file_source nd ma k k h1 (over_rel h1) OS
                k k 0 _ _ empty_mstate RR FK ltac:(auto) eq_refl) as MB. fold c in MB.
  destruct (metadata_loop c file_source _ _ _ k (PState s b1 reset_page_header) empty_mstate)
    as [[p' m']| | | |]; cbn [bind]; try (rewrite MB; cbn; auto; fail).
  destruct MB as (q' & -> & HD & C). cbn [bind].
  destruct (create_columns c _ flt m') as [md| | | |]; cbn [bind]; try (cbn; auto; fail).
  rewrite (read_data_header _ c h1 h2 EE EF md q').
  pose proof (read_data_bisim _ _ nd ma k k h1 (over_rel h1) 0%nat md p' q'
                (m_data_subheaders m') FK HD C) as DB. fold c in DB.
  destruct (read_data c h1 md p' (m_data_subheaders m')) as [d1| | | |]; cbn [bind];
    try (rewrite DB; cbn; auto; fail).
  destruct DB as (d2 & -> & DR). cbn [bind same_outcome].
  exists h1, h2, md. cbn [fst snd]. split; [reflexivity|]. split; [reflexivity|].
  split; [exact H1|]. split; [exact H2|]. intros ops.
  destruct (trace_header _ c file_source h1 h2 EE EF EP ops (RState h1 md d2) eq_refl)
    as (T1 & T2 & T3 & _).
  destruct (trace_header _ c file_source h1 h1 eq_refl eq_refl eq_refl ops (RState h1 md d1) eq_refl)
    as (_ & _ & _ & T4).
  change (put_header h2 (RState h1 md d2)) with (RState h2 md d2) in *.
  destruct (trace_bisim _ _ file_source file_source nd ma k k h1 (over_rel h1) OS ops
              (RState h1 md d1) (RState h1 md d2)) as [B1 B2].
  { split; [reflexivity|]. split; [reflexivity|]. split; [reflexivity|]. exact DR. }
  fold c in B1, B2. split; [congruence|]. split; [congruence|]. split; [exact T4|exact T3].
Qed.

(** ** Pages shorter than the header *)

Definition patch (off : nat) (new l : bytes) : bytes :=
  firstn off l ++ new ++ skipn (off + length new) l.

(** A header of 1024 bytes before pages of 800, and a data page which announces one row
    more than it has room for. *)
Definition short_pages : bytes :=
  header_bytes Big Bit32 false 1024 800 2 (bs "SAMPLE")
  ++ page_bytes Big Bit32 800 type_meta 0 (description Big Bit32 [] sample_fields 12 65 0) []
  ++ page_bytes Big Bit32 800 type_data 65 [] [].

Lemma short_words : exists f1 f2,
  has_magic f1 /\ has_magic f2 /\ header_dates_ok f1 /\ header_dates_ok f2
  /\ same_but_words f1 f2
  /\ 288 + shift2 f1 <= header_length_field f1 /\ page_length_field f1 < header_length_field f1
  /\ header_length_field f1 <= lenN f1 /\ header_length_field f2 <= lenN f2
  /\ ~ same_outcome (same_but_header sample_cfg file_source f1 f2)
         (open_reader sample_cfg file_source None (file_open f1))
         (open_reader sample_cfg file_source None (file_open f2)).
Proof.
  exists short_pages, (patch 800 (bs "XXXX") short_pages).
  split; [vm_compute; reflexivity|]. split; [vm_compute; reflexivity|].
  split; [do 2 eexists; split; vm_compute; reflexivity|].
  split; [do 2 eexists; split; vm_compute; reflexivity|].
  split; [constructor; vm_compute; reflexivity|].
  split; [vm_compute; discriminate|]. split; [vm_compute; reflexivity|].
  split; [vm_compute; discriminate|]. split; [vm_compute; discriminate|].
  set (last_row := fun x : res (rstate fstate * list event) =>
    match x with
    | Ok (r, _) =>
        match fst (trace sample_cfg file_source [OpSkip 64; OpReadRow] (Some r)) with
        | [_; (_, _, [EvRow _ p])] => row_text 12 p
        | _ => []
        end
    | _ => []
    end).
  assert (D : last_row (open_reader sample_cfg file_source None (file_open short_pages))
              <> last_row (open_reader sample_cfg file_source None
                             (file_open (patch 800 (bs "XXXX") short_pages))))
    by (vm_compute; discriminate).
  destruct (open_reader sample_cfg file_source None (file_open short_pages)) as [[r1 e1]| | | |];
  destruct (open_reader sample_cfg file_source None (file_open (patch 800 (bs "XXXX") short_pages)))
    as [[r2 e2]| | | |]; cbn [same_outcome]; try (intros []; fail); try (exfalso; exact (D eq_refl)).
  intros (h1 & h2 & md & _ & _ & _ & _ & T). apply D. unfold last_row. cbn [fst] in T.
  destruct (T [OpSkip 64; OpReadRow]) as [-> _]. reflexivity.
Qed.
