(** The end of a file, sources which fail, termination. *)
From Verif Require Import Base Types Buffer Page Column Header Metadata Decomp Data Reader
  Lemmas SpecValues ProofValues SpecBuffer ProofBuffer SpecHeader ProofHeader SpecDecomp ProofDecomp
  SpecReader ProofMetaInv ProofReader SpecPages ProofPages ProofOpen SpecSource ProofBisim.
From Coq Require Import ZifyBool ZifyNat ZifyN.
Local Open Scope N_scope.

(** ** The header of a longer file *)

Lemma field_front_eq : forall (l : bytes) k, field l 0 k = firstn (N.to_nat k) l.
Proof. intros. unfold field. reflexivity. Qed.

Lemma header_prefix : forall c content k h s b,
  open_header c file_source (file_open content) = Ok (h, s, b) ->
  h_header_length h <= k ->
  open_header c file_source (file_open (firstn (N.to_nat k) content))
  = Ok (h, FState (skipn (N.to_nat (h_header_length h)) (firstn (N.to_nat k) content)) false false, b).
Proof.
  intros c content k h s b H K.
  assert (A : 288 <= max_alloc c).
  { destruct (N.le_gt_cases 288 (max_alloc c)) as [A|A]; [exact A|]. exfalso.
    unfold open_header, check_header, check_header_ctor in H.
    rewrite read_stream_bad_alloc in H; [discriminate|reflexivity|exact A|reflexivity]. }
  pose proof (header_opened _ _ _ _ _ H) as (L & M & (R1 & R2) & T & _ & _).
  assert (O : header_of_file content h) by (eapply the_header_spec; [|exact T]; lia).
  rewrite (hof_header_length _ _ O) in K |- *.
  rewrite <- field_front_eq. set (a := field content 0 k).
  assert (LA : lenN a = N.min k (lenN content)).
  { unfold a. rewrite field_slice, lenN_slice. lia. }
  assert (S1 : shift1 a = shift1 content)
    by (unfold shift1, a; rewrite byte_at_prefix by lia; reflexivity).
  assert (I6 : is_64 a = is_64 content)
    by (unfold is_64, a; rewrite byte_at_prefix by lia; reflexivity).
  assert (S2 : shift2 a = shift2 content) by (unfold shift2; rewrite S1, I6; reflexivity).
  assert (FE : file_endian a = file_endian content)
    by (unfold file_endian, a; rewrite byte_at_prefix by lia; reflexivity).
  assert (S3 : shift1 content <= 4) by (unfold shift1; destruct (_ =? _); lia).
  assert (HL : header_length_field a = header_length_field content).
  { unfold header_length_field. rewrite FE, S1. unfold a. rewrite field_prefix by lia. reflexivity. }
  assert (MA : has_magic a).
  { unfold has_magic, a in *. rewrite field_prefix by lia. exact M. }
  rewrite open_header_file in H |- * by (assumption || lia).
  assert (TH : the_header c a = the_header c content).
  { unfold the_header. rewrite FE, HL, S1, S2. unfold file_format. rewrite I6.
    unfold a. rewrite field_prefix by lia. reflexivity. }
  rewrite TH, HL. rewrite T in H |- *. cbn [bind] in H |- *.
  destruct (header_length_field content <? 288); [destruct (ndebug c); discriminate|].
  destruct (negb _); [discriminate|].
  destruct (lenN content <? header_length_field content); [discriminate|].
  destruct (N.ltb_spec (lenN a) (header_length_field content)); [lia|].
  injection H as _ <-. unfold a at 2. rewrite field_prefix by lia. reflexivity.
Qed.

(** ** Whole pages *)

Section Cut.
Variables (nd : bool) (ma : N) (k : nat) (h : header).
Let c := Cfg nd ma k.
Let plen := h_page_length h.

Definition cut_rel (n : nat) (p q : pstate fstate) : Prop :=
  ps_buf p = ps_buf q /\ wf_mbuf (ps_buf p) /\
  exists rest tail, ps_is p = FState (rest ++ tail) false false
    /\ ps_is q = FState rest false false
    /\ lenN rest = N.of_nat n * plen /\ lenN tail < plen.

Lemma cut_step : plen < 2 ^ 63 -> forall n p q, cut_rel n p q ->
  exists x p' q', read_page c file_source (h_endianness h) (h_format h) plen p = (x, p')
    /\ read_page c file_source (h_endianness h) (h_format h) plen q = (x, q')
    /\ match x with
       | Ok true => exists m, ((m < n)%nat \/ k = k) /\ cut_rel m p' q' /\ ps_buf p' = ps_buf q'
                              /\ ps_hdr p' = ps_hdr q'
       | Ok false => ps_hdr p' = reset_page_header /\ ps_hdr q' = reset_page_header
       | _ => True
       end.
Proof.
  intros P63 n p q (B & W & rest & tail & P & Q & LR & LT). unfold read_page.
  rewrite P, Q. cbn [src_eof file_source file_eof fs_eof]. rewrite <- B.
  destruct (N.le_gt_cases plen (max_alloc c)) as [A|A];
    [|destruct (N.le_gt_cases plen (msize (ps_buf p))) as [A'|A']].
  3:{ rewrite !read_stream_bad_alloc by (rewrite ?N.add_0_l; first [assumption | unfold W64; lia]). do 3 eexists. auto. }
  all: (assert (AL : 0 + plen <= max_alloc c \/ 0 + plen <= msize (ps_buf p)) by lia;
  clear A; try clear A'; destruct n as [|n];
  [ assert (rest = []) by (destruct rest; [reflexivity|rewrite lenN_cons in LR; lia]); subst rest;
    assert (E1 : src_read file_source (FState ([] ++ tail) false false) plen
                 = (FState [] true true, tail, false))
      by (cbn [src_read file_source app]; unfold file_read; cbn [fs_eof fs_fail fs_rest orb];
          destruct (N.leb_spec (2 ^ 63) plen); [lia|];
          destruct (N.leb_spec plen (lenN tail)); [lia|reflexivity]);
    assert (E2 : src_read file_source (FState [] false false) plen
                 = (FState [] true true, [], false))
      by (cbn [src_read file_source app]; unfold file_read; cbn [fs_eof fs_fail fs_rest orb];
          destruct (N.leb_spec (2 ^ 63) plen); [lia|];
          destruct (N.leb_spec plen (lenN (@nil byte))); [cbn in *; lia|reflexivity]);
    destruct (read_stream_spec _ c file_source (ps_buf p) _ plen 0 _ _ _ W
                ltac:(unfold W64; lia) AL E1 ltac:(lia)) as (b1 & R1 & _);
    destruct (read_stream_spec _ c file_source (ps_buf p) _ plen 0 _ _ _ W
                ltac:(unfold W64; lia) AL E2 ltac:(cbn; lia)) as (b2 & R2 & _);
    rewrite R1, R2; cbn; do 3 eexists; auto
  | assert (LP : plen <= lenN rest) by lia;
    set (data := field rest 0 plen);
    assert (E1 : src_read file_source (FState (rest ++ tail) false false) plen
                 = (FState (skipn (N.to_nat plen) rest ++ tail) false false, data, true))
      by (cbn [src_read file_source]; unfold file_read; cbn [fs_eof fs_fail fs_rest orb];
          destruct (N.leb_spec (2 ^ 63) plen); [lia|];
          destruct (N.leb_spec plen (lenN (rest ++ tail))); [|rewrite lenN_app in *; lia];
          rewrite skipn_app, firstn_app; unfold lenN in *;
          replace (N.to_nat plen - length rest)%nat with O by lia;
          cbn [skipn firstn]; rewrite app_nil_r; reflexivity);
    assert (E2 : src_read file_source (FState rest false false) plen
                 = (FState (skipn (N.to_nat plen) rest) false false, data, true))
      by (cbn [src_read file_source]; unfold file_read; cbn [fs_eof fs_fail fs_rest orb];
          destruct (N.leb_spec (2 ^ 63) plen); [lia|];
          destruct (N.leb_spec plen (lenN rest)); [reflexivity|lia]);
    assert (LD : lenN data = plen) by (apply field_front; exact LP);
    destruct (read_stream_spec _ c file_source (ps_buf p) _ plen 0 _ _ _ W
                ltac:(unfold W64; lia) AL E1 ltac:(lia)) as (b1 & R1 & W1 & _);
    assert (R2 : read_stream c file_source (ps_buf p) (FState rest false false) plen 0
                 = (Ok true, FState (skipn (N.to_nat plen) rest) false false, b1))
      by (unfold read_stream in R1 |- *; rewrite E1 in R1; rewrite E2;
          destruct (resize c (ps_buf p) (0 +! plen)); try discriminate;
          destruct (if lenN data =? 0 then _ else _); try discriminate;
          injection R1 as <-; reflexivity);
    rewrite R1, R2; destruct (get_page_header _ _ b1); do 3 eexists;
    (split; [reflexivity|]); (split; [reflexivity|]); auto;
    exists n; (split; [auto|]); (split; [|split; reflexivity]);
    (split; [reflexivity|]); (split; [exact W1|]);
    exists (skipn (N.to_nat plen) rest), tail; (split; [reflexivity|]); (split; [reflexivity|]);
    (split; [|exact LT]); unfold lenN in *; rewrite skipn_length; lia ]).
Qed.

End Cut.

Lemma open_header_plen : forall c content h s b,
  open_header c file_source (file_open content) = Ok (h, s, b) -> h_page_length h < 2 ^ 32.
Proof.
  intros c content h s b H. pose proof (header_opened _ _ _ _ _ H) as (L & M & R & T & _ & _).
  assert (O : header_of_file content h) by (eapply the_header_spec; [|exact T]; lia).
  rewrite (hof_page_length _ _ O). rewrite <- get_val_value.
  eapply N.lt_le_trans; [apply get_val_lt|]. change (2 ^ 32) with (256 ^ 4).
  apply N.pow_le_mono_r; [lia|]. rewrite field_slice, lenN_slice. lia.
Qed.

Lemma truncated : forall c flt content h s b,
  open_header c file_source (file_open content) = Ok (h, s, b) -> 0 < h_page_length h ->
  same_outcome (fun a b => snd a = snd b /\ same_reader c file_source (fst a) (fst b))
    (open_reader c file_source flt (file_open content))
    (open_reader c file_source flt (file_open (whole_pages content h))).
Proof.
  intros [nd ma k] flt content h s b H P. set (c := Cfg nd ma k) in *.
  pose proof (open_header_plen _ _ _ _ _ H) as PL.
  pose proof (header_opened _ _ _ _ _ H) as (L & M & R & T & HS & HB).
  assert (O : header_of_file content h) by (eapply the_header_spec; [|exact T]; lia).
  pose proof (hof_header_length _ _ O) as HL.
  set (hl := h_header_length h) in *. set (plen := h_page_length h) in *.
  set (n := (lenN content - hl) / plen).
  pose proof (N.div_mod (lenN content - hl) plen ltac:(lia)) as DM. fold n in DM.
  pose proof (N.mod_lt (lenN content - hl) plen ltac:(lia)) as ML.
  set (kk := hl + plen * n).
  assert (WP : whole_pages content h = firstn (N.to_nat kk) content) by reflexivity.
  pose proof (header_prefix c content kk h s b H ltac:(unfold kk; fold hl; lia)) as H2.
  rewrite <- WP in H2. fold hl in H2.
  assert (W : wf_mbuf b).
  { subst b. unfold wf_mbuf, full. cbn [mem msize]. rewrite lenN_map. lia. }
  assert (RR : cut_rel h (N.to_nat n) (PState s b reset_page_header)
            (PState (FState (skipn (N.to_nat hl) (whole_pages content h)) false false) b
               reset_page_header)).
  { split; [reflexivity|]. split; [exact W|].
    exists (skipn (N.to_nat hl) (whole_pages content h)), (skipn (N.to_nat kk) content).
    cbn [ps_is]. split.
    - rewrite HS. f_equal. rewrite WP. rewrite <- HL.
      rewrite <- (firstn_skipn (N.to_nat kk) content) at 1. rewrite skipn_app.
      f_equal. rewrite firstn_length.
      replace (N.to_nat hl - Nat.min (N.to_nat kk) (length content))%nat with 0%nat
        by (unfold kk, lenN in *; lia). reflexivity.
    - split; [reflexivity|]. fold plen. rewrite WP. unfold lenN in *.
      rewrite !skipn_length, firstn_length. unfold kk in *. split; lia. }
  pose proof (open_bisim _ _ file_source file_source nd ma k k h (cut_rel h)
                (cut_step nd ma k h ltac:(fold plen; lia)) flt _ _ _ _ b _ H H2 RR
                ltac:(left; reflexivity)) as OB. fold c in OB.
  destruct (open_reader c file_source flt (file_open content)) as [[r1 ev]| | | |] eqn:E1;
    [|rewrite OB; cbn; auto..].
  destruct OB as (r2 & E2 & RRel). rewrite E2. cbn [same_outcome fst snd].
  split; [reflexivity|]. pose proof RRel as (A1 & A2 & A3 & _).
  split; [congruence|]. split; [exact A3|]. intros ops.
  apply (trace_bisim _ _ file_source file_source nd ma k k h (cut_rel h)
                (cut_step nd ma k h ltac:(fold plen; lia)) ops r1 r2 RRel).
Qed.
