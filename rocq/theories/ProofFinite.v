(** Finite sources: termination; files: no read error; sources which fail. *)
From Verif Require Import Base Types Buffer Page Column Header Metadata Decomp Data Reader
  Lemmas SpecValues ProofValues SpecBuffer ProofBuffer SpecHeader ProofHeader SpecDecomp ProofDecomp
  SpecReader ProofMetaInv SpecFile Samples ProofReader SpecPages ProofPages ProofOpen SpecSource ProofBisim ProofOutcome
  ProofSource.
From Coq Require Import ZifyBool ZifyNat ZifyN.
Local Open Scope N_scope.

(** ** The memory of the buffer *)

Lemma resize_mem : forall c b n b', lenN (mem b) <= max_alloc c -> resize c b n = Ok b' ->
  lenN (mem b') <= max_alloc c.
Proof.
  intros c b n b' L H. unfold resize in H. destruct (_ <? _); [|injection H as <-; exact L].
  binv H. binv H. injection H as <-. cbn [mem]. unfold alloc in E.
  destruct (N.leb_spec n (max_alloc c)); [|discriminate]. injection E as <-.
  destruct (negb _).
  - unfold write_cells in E0. destruct (_ <=? _) eqn:LE; [|discriminate]. injection E0 as <-.
    apply N.leb_le in LE. rewrite lenN_splice by exact LE. unfold lenN. rewrite repeat_length. lia.
  - injection E0 as <-. unfold lenN. rewrite repeat_length. lia.
Qed.

Lemma read_stream_mem : forall S c (src : source S) b s n off x s' b',
  lenN (mem b) <= max_alloc c -> read_stream c src b s n off = (x, s', b') ->
  lenN (mem b') <= max_alloc c.
Proof.
  intros S c src b s n off x s' b' L H. unfold read_stream in H.
  destruct (resize c b (off +! n)) as [b1| | | |] eqn:R; try (injection H as _ _ <-; exact L).
  apply resize_mem in R; [|exact L].
  destruct (src_read src s n) as [[s1 data] ok].
  destruct (lenN data =? 0); [injection H as _ _ <-; exact R|].
  unfold write_cells in H. destruct (_ <=? _) eqn:LE; injection H as _ _ <-; [|exact R].
  cbn [mem]. apply N.leb_le in LE. rewrite lenN_splice by exact LE. exact R.
Qed.

Lemma open_header_inv : forall S c (src : source S) s h s2 b2,
  open_header c src s = Ok (h, s2, b2) ->
  exists s1 b1 hl, read_stream c src empty_mbuf s HEADER_SIZE 0 = (Ok true, s1, b1)
    /\ hl < 2 ^ 32 /\ read_stream c src b1 s1 (hl -! HEADER_SIZE) HEADER_SIZE = (Ok true, s2, b2)
    /\ h_page_length h < 2 ^ 32.
Proof.
  intros S c src s h s2 b2 H. unfold open_header in H. binv H.
  unfold check_header in E. binv E. destruct x0 as [s1 b1].
  unfold check_header_ctor in E0.
  destruct (read_stream c src empty_mbuf s HEADER_SIZE 0) as [[[[|]| | | |] s1'] b1'] eqn:R1;
    try discriminate. injection E0 as -> ->.
  binv E. unfold set_aligns_endianness in E.
  assert (X : ch_is x = s1 /\ ch_buf x = b1).
  { binv E. binv E. binv E. injection E as <-. auto. }
  destruct X as [X1 X2]. unfold read_header in H. cbv zeta in H. rewrite X1, X2 in H.
  binv H. destruct x1 as [[hl s3] b3].
  unfold set_header_length_and_read in E1. binv E1. rename x1 into hl'. rename E2 into G.
  binv E1.
  destruct (read_stream c src b1 s1 (hl' -! HEADER_SIZE) HEADER_SIZE)
    as [[[[|]| | | |] s4] b4] eqn:R2; try discriminate.
  injection E1 as <- -> ->. apply get_uint_lt in G.
  binv H. injection H as -> -> ->. exists s1, b1, hl'.
  split; [reflexivity|]. split; [exact G|]. split; [exact R2|].
  unfold set_header in E1.
  repeat (let X := fresh "G" in match type of E1 with bind ?m _ = Ok _ =>
    destruct m eqn:X; cbn [bind] in E1; try discriminate end).
  injection E1 as <-. cbn [h_page_length].
  match goal with H : get_uint32 _ _ (200 + _) = Ok ?n |- _ < _ =>
    apply get_uint_lt in H; exact H end.
Qed.

Lemma header_mem : forall S c (src : source S) s h s2 b2,
  open_header c src s = Ok (h, s2, b2) -> lenN (mem b2) <= max_alloc c.
Proof.
  intros S c src s h s2 b2 H. apply open_header_inv in H.
  destruct H as (s1 & b1 & hl & R1 & _ & R2 & _).
  eapply read_stream_mem; [|exact R2]. eapply read_stream_mem; [|exact R1]. cbn. lia.
Qed.

Lemma read_page_mem : forall S c (src : source S) e f plen p x p',
  lenN (mem (ps_buf p)) <= max_alloc c -> read_page c src e f plen p = (x, p') ->
  lenN (mem (ps_buf p')) <= max_alloc c.
Proof.
  intros S c src e f plen p x p' L H. unfold read_page in H.
  destruct (src_eof src (ps_is p)); [injection H as _ <-; exact L|].
  destruct (read_stream c src (ps_buf p) (ps_is p) plen 0) as [[y s'] b'] eqn:R.
  apply read_stream_mem in R; [|exact L].
  destruct y as [[|]| | | |]; try (injection H as _ <-; exact R).
  - destruct (get_page_header e f b'); injection H as _ <-; exact R.
  - destruct (src_eof src s'); injection H as _ <-; exact R.
Qed.

Lemma small_mem : forall c b, max_alloc c < row_limit -> lenN (mem b) <= max_alloc c -> small b.
Proof. intros c b M L. unfold small, row_limit, W64 in *. lia. Qed.

(** ** Termination *)

Section Finite.
Variables (S : Type) (c : cfg) (src : source S) (h : header).

Definition finite_inv (n : nat) (p : pstate S) : Prop :=
  at_most src (h_page_length h) n (ps_is p) /\ lenN (mem (ps_buf p)) <= max_alloc c.

Lemma finite_step : forall n p x p', finite_inv n p ->
  read_page c src (h_endianness h) (h_format h) (h_page_length h) p = (x, p') ->
  (x = Ok true -> exists m, (m < n)%nat /\ finite_inv m p') /\ x <> Fuel.
Proof.
  intros n p x p' [A L] H. pose proof (read_page_mem _ _ _ _ _ _ _ _ _ L H) as L'.
  unfold read_page in H.
  destruct (src_eof src (ps_is p)) eqn:EO; [injection H as <- <-; split; discriminate|].
  destruct (read_stream c src (ps_buf p) (ps_is p) (h_page_length h) 0) as [[y s'] b'] eqn:R.
  assert (Y : y <> Fuel).
  { pose proof (within_read_stream (fun _ => True) False (fun _ _ => I) S c src (ps_buf p) (ps_is p)
      (h_page_length h) 0) as W. rewrite R in W. intros ->. exact W. }
  destruct y as [[|]| | | |]; try (injection H as <- <-; split; [discriminate|congruence]).
  2:{ destruct (src_eof src s'); injection H as <- <-; split; discriminate. }
  assert (SR : exists data, src_read src (ps_is p) (h_page_length h) = (s', data, true)).
  { unfold read_stream in R. destruct (resize _ _ _); try discriminate.
    destruct (src_read src (ps_is p) (h_page_length h)) as [[s1 data] ok].
    destruct (if lenN data =? 0 then _ else _); try discriminate.
    injection R as -> -> _. exists data. reflexivity. }
  destruct SR as [data SR].
  assert (A' : exists m, n = Datatypes.S m /\ at_most src (h_page_length h) m s').
  { destruct n as [|m]; cbn [at_most] in A; rewrite SR in A; cbv beta iota in A; (destruct A as [A|A]; [congruence|]).
    - destruct (A eq_refl).
    - exists m. auto. }
  destruct A' as (m & -> & A').
  pose proof (within_page_header (fun _ => True) False (h_endianness h) (h_format h) b') as W.
  destruct (get_page_header _ _ b'); injection H as <- <-;
    (split; [|first [discriminate|intros _; exact W]]); try discriminate.
  intros _. exists m. split; [lia|]. split; assumption.
Qed.

Hypothesis M : max_alloc c < row_limit.

Lemma finite_within : forall n p x p', finite_inv n p ->
  read_page c src (h_endianness h) (h_format h) (h_page_length h) p = (x, p') ->
  within (fun _ => True) False x /\ small (ps_buf p')
  /\ (x = Ok true -> exists m, ((m < n)%nat \/ False) /\ finite_inv m p').
Proof.
  intros n p x p' H R. destruct (finite_step n p x p' H R) as [A B].
  split; [destruct x; try exact I; congruence|]. split.
  - apply (small_mem c); [exact M|]. eapply read_page_mem; [apply H|exact R].
  - intros E. destruct (A E) as (m & L & K). exists m. auto.
Qed.

Lemma finite_small : forall n p, finite_inv n p -> small (ps_buf p).
Proof. intros n p [_ L]. apply (small_mem c); assumption. Qed.

End Finite.

(** Construction and every later call end. *)
Lemma finite_ends : forall S c (src : source S) flt s h s1 b n,
  max_alloc c < row_limit ->
  open_header c src s = Ok (h, s1, b) -> at_most src (h_page_length h) n s1 ->
  (n < page_fuel c)%nat ->
  open_reader c src flt s <> Fuel
  /\ forall r ops, opened c src flt s r ->
     Forall (fun t => snd (fst t) <> Fuel) (fst (trace c src ops (Some r))).
Proof.
  intros S c src flt s h s1 b n M H A F.
  assert (INV : finite_inv S c src h n (PState s1 b reset_page_header)).
  { split; [exact A|]. cbn [ps_buf]. eapply header_mem. exact H. }
  destruct (within_open (fun _ => True) False (fun _ _ => I) S c src h (finite_inv S c src h)
              (finite_small S c src h M) (finite_within S c src h M) flt s s1 b n M H INV
              ltac:(left; exact F)) as [W1 W2].
  split.
  - intros E. rewrite E in W1. exact W1.
  - intros r ops [ev O]. pose proof (within_trace (fun _ => True) False (fun _ _ => I) S c src h
      (finite_inv S c src h) (finite_small S c src h M) (finite_within S c src h M) ops r
      (W2 r ev O)) as T.
    eapply Forall_impl; [|exact T]. intros [[o x] e'] Wt E.
    cbn [fst snd] in *. subst x. exact Wt.
Qed.

Lemma header_ends : forall S c (src : source S) s, open_header c src s <> Fuel.
Proof.
  intros S c src s E. pose proof (within_header (fun _ => True) False (fun _ _ => I) S c src s) as W.
  rewrite E in W. exact W.
Qed.

(** The bound on the turns of the loops does not matter once it is large enough. *)
Lemma finite_same : forall S nd ma k1 k2 (src : source S) flt s h s1 b n,
  open_header (Cfg nd ma k1) src s = Ok (h, s1, b) -> at_most src (h_page_length h) n s1 ->
  (n < k1)%nat -> (n < k2)%nat ->
  same_outcome (fun x y => snd x = snd y /\ forall ops,
      fst (trace (Cfg nd ma k1) src ops (Some (fst x)))
      = fst (trace (Cfg nd ma k2) src ops (Some (fst y))))
    (open_reader (Cfg nd ma k1) src flt s) (open_reader (Cfg nd ma k2) src flt s).
Proof.
  intros S nd ma k1 k2 src flt s h s1 b n H A F1 F2.
  assert (INV : finite_inv S (Cfg nd ma k1) src h n (PState s1 b reset_page_header)).
  { split; [exact A|]. cbn [ps_buf]. eapply header_mem. exact H. }
  set (R := fun n (p q : pstate S) => p = q /\ finite_inv S (Cfg nd ma k1) src h n p).
  assert (RS : forall n p q, R n p q ->
    exists x p' q', read_page (Cfg nd ma k1) src (h_endianness h) (h_format h) (h_page_length h) p
                    = (x, p')
    /\ read_page (Cfg nd ma k2) src (h_endianness h) (h_format h) (h_page_length h) q = (x, q')
    /\ match x with
       | Ok true => exists m, ((m < n)%nat \/ k1 = k2) /\ R m p' q' /\ ps_buf p' = ps_buf q'
                              /\ ps_hdr p' = ps_hdr q'
       | Ok false => ps_hdr p' = reset_page_header /\ ps_hdr q' = reset_page_header
       | _ => True
       end).
  { intros m p q [<- Im].
    change (read_page (Cfg nd ma k2) src) with (read_page (Cfg nd ma k1) src).
    destruct (read_page (Cfg nd ma k1) src _ _ _ p) as [x p'] eqn:RP.
    exists x, p', p'. split; [reflexivity|]. split; [reflexivity|].
    destruct (finite_step S (Cfg nd ma k1) src h m p x p' Im RP) as [B _].
    destruct x as [[|]| | | |]; try exact I.
    - destruct (B eq_refl) as (z & Z & Iz). exists z. split; [left; exact Z|].
      split; [split; [reflexivity|exact Iz]|]. auto.
    - assert (ps_hdr p' = reset_page_header).
      { unfold read_page in RP. destruct (src_eof src (ps_is p)); [injection RP as <-; reflexivity|].
        destruct (read_stream _ _ _ _ _ _) as [[[[|]| | | |] s'] b']; try discriminate.
        * destruct (get_page_header _ _ b'); discriminate.
        * destruct (src_eof src s'); [injection RP as <-; reflexivity|discriminate]. }
      auto. }
  pose proof (open_bisim S S src src nd ma k1 k2 h R RS flt s s s1 s1 b n H H
                ltac:(split; [reflexivity|exact INV]) ltac:(right; lia)) as OB.
  destruct (open_reader (Cfg nd ma k1) src flt s) as [[r1 ev]| | | |]; [|rewrite OB; cbn; auto..].
  destruct OB as (r2 & E2 & RR). rewrite E2. cbn [same_outcome fst snd].
  split; [reflexivity|]. intros ops.
  apply (trace_bisim S S src src nd ma k1 k2 h R RS ops r1 r2 RR).
Qed.

(** A file is finite, if the pages are not empty. *)
Lemma file_at_most : forall plen n rest, 0 < plen -> lenN rest < (N.of_nat n + 1) * plen ->
  at_most file_source plen n (FState rest false false).
Proof.
  intros plen. induction n as [|n IH]; intros rest P L; cbn [at_most]; right;
    cbn [src_read file_source]; unfold file_read; cbn [fs_eof fs_fail fs_rest orb];
    (destruct (N.leb_spec (2 ^ 63) plen); [discriminate|]);
    (destruct (N.leb_spec plen (lenN rest)); [|discriminate]); intros _.
  - lia.
  - apply IH; [exact P|]. rewrite lenN_skipn. lia.
Qed.

Lemma file_ends : forall c flt content, max_alloc c < row_limit ->
  (length content < page_fuel c)%nat ->
  (forall h s b, open_header c file_source (file_open content) = Ok (h, s, b) ->
     0 < h_page_length h) ->
  open_reader c file_source flt (file_open content) <> Fuel
  /\ forall r ops, opened c file_source flt (file_open content) r ->
     Forall (fun t => snd (fst t) <> Fuel) (fst (trace c file_source ops (Some r))).
Proof.
  intros c flt content M F P.
  destruct (open_header c file_source (file_open content)) as [[[h s] b]| | | |] eqn:H.
  2-5: split; [unfold open_reader; rewrite H; cbn;
               first [discriminate|intros _; exact (header_ends _ _ _ _ H)]|];
    intros r ops [ev O]; exfalso; unfold open_reader in O; rewrite H in O; discriminate.
  specialize (P h s b eq_refl).
  pose proof (header_opened _ _ _ _ _ H) as (_ & _ & _ & _ & HS & _). subst s.
  eapply finite_ends; [exact M|exact H| |exact F]. apply file_at_most; [exact P|].
  rewrite lenN_skipn. unfold lenN. nia.
Qed.

(** ** Files never fail to be read *)

Definition file_inv (c : cfg) (_ : nat) (p : pstate fstate) : Prop :=
  (fs_fail (ps_is p) = true -> fs_eof (ps_is p) = true) /\ lenN (mem (ps_buf p)) <= max_alloc c.

Definition not_read_error (e : exn) : Prop := e <> E_cannot_read_page.

Lemma file_within : forall c h, max_alloc c < row_limit -> forall n p x p', file_inv c n p ->
  read_page c file_source (h_endianness h) (h_format h) (h_page_length h) p = (x, p') ->
  within not_read_error True x /\ small (ps_buf p')
  /\ (x = Ok true -> exists m, ((m < n)%nat \/ True) /\ file_inv c m p').
Proof.
  intros c h M n p x p' [F L] H. pose proof (read_page_mem _ _ _ _ _ _ _ _ _ L H) as L'.
  assert (SM : small (ps_buf p')) by (apply (small_mem c); assumption).
  unfold read_page in H. cbn [src_eof file_source] in H. unfold file_eof in H.
  destruct (fs_eof (ps_is p)) eqn:EO.
  { injection H as <- <-. split; [exact I|]. split; [exact SM|]. discriminate. }
  assert (FF : fs_fail (ps_is p) = false) 
    by (destruct (fs_fail (ps_is p)); [specialize (F eq_refl); congruence|reflexivity]).
  destruct (read_stream c file_source (ps_buf p) (ps_is p) (h_page_length h) 0)
    as [[y s'] b'] eqn:R.
  pose proof (within_read_stream not_read_error True (fun _ X => X) fstate c file_source (ps_buf p)
      (ps_is p) (h_page_length h) 0) as W. rewrite R in W.
  assert (Q : forall ok, y = Ok ok -> fs_eof s' = negb ok /\ fs_fail s' = negb ok).
  { intros ok ->. unfold read_stream in R. destruct (resize _ _ _); try discriminate.
    cbn [src_read file_source] in R. unfold file_read in R. rewrite EO, FF in R.
    cbn [orb] in R. destruct (2 ^ 63 <=? h_page_length h).
    - cbn in R. injection R as <- <- _. auto.
    - destruct (h_page_length h <=? lenN (fs_rest (ps_is p)));
        (destruct (if lenN _ =? 0 then _ else _); try discriminate); injection R as <- <- _; auto. }
  destruct y as [[|]| | | |];
    try (injection H as <- <-; split; [exact W|]; split; [exact SM|]; discriminate).
  - destruct (Q true eq_refl) as [Q1 Q2].
    pose proof (within_page_header not_read_error True (h_endianness h) (h_format h) b') as G.
    destruct (get_page_header _ _ b'); injection H as <- <-; (split; [exact G|]);
      (split; [exact SM|]); try discriminate.
    intros _. exists n. split; [auto|]. split; [|exact L']. cbn [ps_is]. congruence.
  - destruct (Q false eq_refl) as [Q1 Q2]. rewrite Q1 in H. injection H as <- <-.
    split; [exact I|]. split; [exact SM|]. discriminate.
Qed.

Lemma file_never_fails : forall c flt content r ops, max_alloc c < row_limit ->
  open_reader c file_source flt (file_open content) <> Exn E_cannot_read_page
  /\ (opened c file_source flt (file_open content) r ->
      Forall (fun t => ~ read_failed t) (fst (trace c file_source ops (Some r)))).
Proof.
  intros c flt content r ops M.
  destruct (open_header c file_source (file_open content)) as [[[h s] b]| | | |] eqn:H.
  - assert (INV : file_inv c 0%nat (PState s b reset_page_header)).
    { split; [|eapply header_mem; exact H]. cbn [ps_is].
      pose proof (header_opened _ _ _ _ _ H) as (_ & _ & _ & _ & -> & _). discriminate. }
    assert (FS : forall n p, file_inv c n p -> small (ps_buf p)).
    { intros n p [_ L]. apply (small_mem c); assumption. }
    destruct (within_open not_read_error True (fun _ X => X) fstate c file_source h (file_inv c)
                FS (file_within c h M) flt _ s b 0%nat M H INV ltac:(right; exact I)) as [W1 W2].
    split.
    + intros E. rewrite E in W1. apply W1. reflexivity.
    + intros [ev O]. pose proof (within_trace not_read_error True (fun _ X => X) fstate c file_source
        h (file_inv c) FS (file_within c h M) ops r (W2 r ev O)) as T.
      eapply Forall_impl; [|exact T]. intros [[o x] e'] Wt E. unfold read_failed in E.
      cbn [fst snd] in *. subst x. apply Wt. reflexivity.
  - split.
    + unfold open_reader. rewrite H. cbn [bind].
      pose proof (within_header not_read_error True (fun _ X => X) fstate c file_source
                    (file_open content)) as W.
      rewrite H in W. intros E. injection E as E. exact (W E).
    + intros [ev O]. unfold open_reader in O. rewrite H in O. discriminate.
  - split; [unfold open_reader; rewrite H; discriminate|].
    intros [ev O]. unfold open_reader in O. rewrite H in O. discriminate.
  - split; [unfold open_reader; rewrite H; discriminate|].
    intros [ev O]. unfold open_reader in O. rewrite H in O. discriminate.
  - split; [unfold open_reader; rewrite H; discriminate|].
    intros [ev O]. unfold open_reader in O. rewrite H in O. discriminate.
Qed.

(** ** Sources which fail *)

Section Watched.
Variables (S : Type) (c : cfg) (src : source S).
Hypothesis G : good_source src.

Definition fresh_p (p : pstate (S * bool)) : Prop :=
  wf_mbuf (ps_buf p) /\ snd (ps_is p) = false.

Definition watch {A} (x : res A) (p : pstate (S * bool)) : Prop :=
  wf_mbuf (ps_buf p) /\ (x = Exn E_cannot_read_page <-> snd (ps_is p) = true).

Lemma watch_fresh : forall A (x : res A) p, watch x p -> x <> Exn E_cannot_read_page -> fresh_p p.
Proof.
  intros A x p [W H] N. split; [exact W|].
  destruct (snd (ps_is p)) eqn:E; [|reflexivity]. destruct N. apply H. reflexivity.
Qed.

Lemma fresh_watch : forall A (x : res A) p, fresh_p p -> x <> Exn E_cannot_read_page -> watch x p.
Proof. intros A x p [W H] N. split; [exact W|]. split; [contradiction|congruence]. Qed.

Lemma watch_read_page : forall e f plen p x p', plen < W64 -> fresh_p p ->
  read_page c (watched src) e f plen p = (x, p') -> watch x p'.
Proof.
  intros e f plen p x p' P [W F] H. unfold read_page in H.
  destruct (src_eof (watched src) (ps_is p)).
  { injection H as <- <-. apply fresh_watch; [split; assumption|discriminate]. }
  assert (AL : (0 + plen <= max_alloc c \/ 0 + plen <= msize (ps_buf p))
               \/ (max_alloc c < 0 + plen /\ msize (ps_buf p) < 0 + plen)) by lia.
  destruct AL as [AL|[A1 A2]].
  2:{ rewrite read_stream_bad_alloc in H by assumption.
      injection H as <- <-. apply fresh_watch; [split; assumption|discriminate]. }
  destruct (src_read (watched src) (ps_is p) plen) as [[s' data] ok] eqn:R.
  assert (D : lenN data <= plen /\ snd s' = negb ok && negb (src_eof src (fst s'))).
  { cbn [watched src_read] in R.
    destruct (src_read src (fst (ps_is p)) plen) as [[s1 data1] ok1] eqn:R1.
    injection R as <- <- <-. destruct (G _ _ _ _ _ R1) as [G1 _]. rewrite F. auto. }
  destruct D as [D1 D2].
  destruct (read_stream_spec _ c (watched src) (ps_buf p) (ps_is p) plen 0 _ _ _ W
              ltac:(rewrite N.add_0_l; exact P) AL R D1) as (b' & RS & WB & _).
  rewrite RS in H. destruct ok; cbn [negb andb] in D2.
  - assert (Q : raises (fun _ => False) (get_page_header e f b'))
      by (unfold get_page_header; repeat (apply raises_bind; [apply raises_get_uint|intros]); exact I).
    destruct (get_page_header e f b'); injection H as <- <-;
      first [exact (False_ind _ Q)|apply fresh_watch; [split; assumption|discriminate]].
  - change (src_eof (watched src) s') with (src_eof src (fst s')) in H.
    destruct (src_eof src (fst s')); injection H as <- <-; (split; [exact WB|]); cbn [ps_is];
      rewrite D2; split; auto; discriminate.
Qed.

Lemma watch_next_page : forall e f plen md, plen < W64 -> forall fuel p x p', fresh_p p ->
  read_next_page c (watched src) e f plen md fuel p = (x, p') -> watch x p'.
Proof.
  intros e f plen md P. induction fuel as [|fuel IH]; intros p x p' F H; cbn [read_next_page] in H.
  - injection H as <- <-. apply fresh_watch; [exact F|discriminate].
  - destruct (read_page c (watched src) e f plen p) as [y p1] eqn:R.
    apply watch_read_page in R; [|exact P|exact F].
    destruct y as [[|]|e0| | |];
      try (injection H as <- <-; apply fresh_watch; [|discriminate];
           eapply watch_fresh; [exact R|discriminate]).
    + assert (F1 : fresh_p p1) by (eapply watch_fresh; [exact R|discriminate]).
      pose proof (raises_build_page (fun _ => False) e f md (ps_buf p1) (ps_hdr p1)) as B.
      destruct (build_page e f md (ps_buf p1) (ps_hdr p1)) as [[pg|]| | | |];
        try (injection H as <- <-; apply fresh_watch; [exact F1|discriminate]).
      * apply (IH p1 x p' F1 H).
      * destruct B.
    + injection H as <- <-. destruct R as [R1 R2]. split; [exact R1|].
      rewrite <- R2. split; intros E; injection E as ->; reflexivity.
Qed.

Variable h : header.
Hypothesis P : h_page_length h < W64.

Lemma watch_data_next : forall md d x d', fresh_p (ds_p d) ->
  data_next c (watched src) h md d = (x, d') -> watch x (ds_p d').
Proof.
  intros md d x d' F H. unfold data_next in H.
  destruct (_ =? _); [injection H as <- <-; apply fresh_watch; [exact F|discriminate]|].
  destruct (ds_page d) as [pg|]; [|injection H as <- <-; apply fresh_watch; [exact F|discriminate]].
  destruct (page_next pg); [|injection H as <- <-; apply fresh_watch; [exact F|discriminate]].
  destruct (read_next_page _ _ _ _ _ _ _ _) as [y p'] eqn:R.
  apply watch_next_page in R; [|exact P|exact F].
  destruct y as [[pg'|]|e0| | |]; injection H as <- <-; cbn [ds_p];
    try (apply fresh_watch; [|discriminate]; eapply watch_fresh; [exact R|discriminate]).
  destruct R as [R1 R2]. split; [exact R1|].
  rewrite <- R2. split; intros E; injection E as ->; reflexivity.
Qed.

Lemma read_line_same_p : forall (d : dstate (S * bool)) x d', data_read_line d = (x, d') ->
  ds_p d' = ds_p d.
Proof.
  intros d x d' H. unfold data_read_line in H.
  destruct (ds_page d); injection H as <- <-; reflexivity.
Qed.

Lemma watch_read_line : forall md d x d', wf_d md d -> fresh_p (ds_p d) ->
  read_line c (watched src) h md d = (x, d') -> watch x (ds_p d').
Proof.
  intros md d x d' W F H. unfold read_line in H.
  destruct (data_next c (watched src) h md d) as [y d1] eqn:N.
  pose proof (data_next_props _ _ _ _ _ _ _ _ N) as (_ & N2 & _).
  apply watch_data_next in N; [|exact F].
  destruct y as [[|]|e0| | |];
    try (injection H as <- <-; apply fresh_watch; [|discriminate];
         eapply watch_fresh; [exact N|discriminate]).
  2:{ injection H as <- <-. destruct N as [R1 R2]. split; [exact R1|].
      rewrite <- R2. split; intros E; injection E as ->; reflexivity. }
  assert (F1 : fresh_p (ds_p d1)) by (eapply watch_fresh; [exact N|discriminate]).
  destruct (data_read_line d1) as [z d2] eqn:R.
  pose proof (read_line_same_p _ _ _ R) as RP.
  apply data_read_line_props in R. destruct R as (R1 & _ & _ & R2 & _ & _).
  rewrite <- RP in F1.
  destruct z as [[off len]|e0| | |];
    try (injection H as <- <-; apply fresh_watch; [exact F1|]; first [discriminate|apply R2]).
  - destruct (extract_row_values c h md off len d2) as [w d3] eqn:X.
    apply extract_props in X; [|rewrite R1, N2; apply W].
    destruct X as (_ & XP & _ & _ & X). injection H as <- <-. rewrite XP.
    apply fresh_watch; [exact F1|]. destruct w; try discriminate. subst. discriminate.
  - destruct (R2 e0 eq_refl).
Qed.

Lemma watch_skip : forall md n d x d', wf_d md d -> fresh_p (ds_p d) ->
  data_skip c (watched src) h md n d = (x, d') -> watch x (ds_p d').
Proof.
  intros md. induction n as [|n IH]; intros d x d' W F H; cbn [data_skip] in H.
  - injection H as <- <-. apply fresh_watch; [exact F|discriminate].
  - destruct (data_next c (watched src) h md d) as [y d1] eqn:N.
    pose proof (data_next_props _ _ _ _ _ _ _ _ N) as (N1 & N2 & N3).
    apply watch_data_next in N; [|exact F].
    destruct y as [[|]|e0| | |];
      try (injection H as <- <-; apply fresh_watch; [|discriminate];
           eapply watch_fresh; [exact N|discriminate]).
    2:{ injection H as <- <-. destruct N as [R1 R2]. split; [exact R1|].
        rewrite <- R2. split; intros E; injection E as ->; reflexivity. }
    assert (F1 : fresh_p (ds_p d1)) by (eapply watch_fresh; [exact N|discriminate]).
    destruct (row_inc _ md d W N3) as [I1 I2].
    destruct (data_read_line d1) as [z d2] eqn:R.
    pose proof (read_line_same_p _ _ _ R) as RP.
    apply data_read_line_props in R. destruct R as (R1 & R0 & _ & R2 & _ & _).
    rewrite <- RP in F1.
    destruct z as [pl|e0| | |];
      try (injection H as <- <-; apply fresh_watch; [exact F1|]; first [discriminate|apply R2]).
    + apply (IH d2 x d'); [|exact F1|exact H].
      destruct W as (W1 & W2 & W3). split; [rewrite R0 by discriminate; rewrite N1, I1; exact I2|].
      split; [exact W2|]. rewrite R1, N2. exact W3.
    + destruct (R2 e0 eq_refl).
Qed.

Definition p_of (r : rstate (S * bool)) : pstate (S * bool) := ds_p (rs_d r).

Lemma watch_read_row : forall r x r' ev, rs_h r = h -> wf_r r -> fresh_p (p_of r) ->
  read_row c (watched src) r = (x, r', ev) -> watch x (p_of r').
Proof.
  intros r x r' ev HH W F H. unfold read_row in H. rewrite HH in H.
  destruct (read_line c (watched src) h (rs_md r) (rs_d r)) as [y d1] eqn:L.
  apply watch_read_line in L; [|exact W|exact F].
  destruct y as [[p|]|e0| | |]; injection H as <- <- _; unfold p_of; cbn [rs_d];
    try (apply fresh_watch; [|discriminate]; eapply watch_fresh; [exact L|discriminate]).
  destruct L as [R1 R2]. split; [exact R1|].
  rewrite <- R2. split; intros E; injection E as ->; reflexivity.
Qed.

Lemma watch_read_rows : forall n r x r' ev, rs_h r = h -> wf_r r -> fresh_p (p_of r) ->
  read_rows c (watched src) n r = (x, r', ev) -> watch x (p_of r').
Proof.
  induction n as [|n IH]; intros r x r' ev HH W F H; cbn [read_rows] in H.
  - injection H as <- <- _. apply fresh_watch; [exact F|discriminate].
  - destruct (read_row c (watched src) r) as [[y r1] ev1] eqn:R.
    pose proof (read_row_props _ _ _ _ _ _ _ W R) as (W1 & H1 & _).
    apply watch_read_row in R; [|assumption..].
    destruct y as [[|]|e0| | |]; try (injection H as <- <- _; exact R).
    destruct (read_rows c (watched src) n r1) as [[z r2] ev2] eqn:RR. injection H as <- <- _.
    apply (IH r1 z r2 ev2); [congruence|exact W1| |exact RR].
    eapply watch_fresh; [exact R|discriminate].
Qed.

Lemma watch_rmap : forall A B (g : A -> B) m p, watch m p -> watch (rmap g m) p.
Proof.
  intros A B g m p [W H]. split; [exact W|]. rewrite <- H.
  destruct m; cbn; split; intros E; try discriminate; injection E as ->; reflexivity.
Qed.

Lemma watch_step : forall o r x r' ev, rs_h r = h -> wf_r r -> fresh_p (p_of r) ->
  step c (watched src) o r = (x, r', ev) -> watch x (p_of r').
Proof.
  intros o r x r' ev HH W F H. destruct o; cbn [step] in H.
  - destruct (read_row c (watched src) r) as [[y r1] ev1] eqn:R. injection H as <- <- _.
    apply watch_rmap. eapply watch_read_row; eassumption.
  - destruct (read_rows c (watched src) _ r) as [[y r1] ev1] eqn:R. injection H as <- <- _.
    apply watch_rmap. eapply watch_read_rows; eassumption.
  - rewrite (read_all_rows _ _ _ r (Datatypes.S (N.to_nat (left_rows r)))) in H by (auto; lia).
    destruct (read_rows c (watched src) _ r) as [[y r1] ev1] eqn:R. injection H as <- <- _.
    apply watch_rmap. apply watch_read_rows in R; [|assumption..].
    destruct R as [R1 R2]. split; [exact R1|]. rewrite <- R2.
    destruct y as [[|]| | | |]; cbn; split; intros E; try discriminate; injection E as ->; reflexivity.
  - unfold skip in H. rewrite HH in H.
    destruct (data_skip c (watched src) h (rs_md r) _ (rs_d r)) as [y d1] eqn:R.
    injection H as <- <- _. apply watch_rmap. eapply watch_skip; eassumption.
  - unfold read_row_no_sink in H. rewrite HH in H.
    destruct (read_line c (watched src) h (rs_md r) (rs_d r)) as [y d1] eqn:R.
    injection H as <- <- _. apply watch_rmap. eapply watch_read_line; eassumption.
  - injection H as <- <- _. apply fresh_watch; [exact F|discriminate].
Qed.

Lemma end_entries_fine : forall ops t,
  In t (map (fun o => (o, Ok (end_answer o), end_events o)) ops) -> ~ read_failed t.
Proof.
  intros ops t H E. apply in_map_iff in H. destruct H as (o & <- & _). discriminate.
Qed.

Lemma watch_trace : forall ops r t r', rs_h r = h -> wf_r r -> fresh_p (p_of r) ->
  trace c (watched src) ops (Some r) = (t, Some r') ->
  (source_failed r' = true <-> Exists read_failed t).
Proof.
  induction ops as [|o ops IH]; intros r t r' HH W F H; cbn [trace] in H.
  - injection H as <- <-. destruct F as [_ F]. unfold source_failed.
    change (snd (ps_is (ds_p (rs_d r)))) with (snd (ps_is (p_of r))). rewrite F.
    split; [discriminate|intros E; inversion E].
  - cbn [reader_step] in H.
    destruct (step c (watched src) o r) as [[x r1] ev] eqn:E.
    pose proof (step_consumes _ _ _ _ _ _ _ _ W E) as (W1 & H1 & _).
    pose proof (watch_step _ _ _ _ _ HH W F E) as WS.
    assert (CONT : forall t2 r2, trace c (watched src) ops (Some r1) = (t2, Some r2) ->
      (source_failed r2 = true <-> Exists read_failed ((o, x, ev) :: t2))).
    { intros t2 r2 T. destruct (snd (ps_is (p_of r1))) eqn:FL.
      - destruct WS as [_ WS]. apply WS in FL. subst x.
        assert (EN : ended_r r1) by (eapply exception_ends; [exact W|exact E|discriminate]).
        rewrite ended_trace in T by exact EN. injection T as <- <-.
        split; [intros _; apply Exists_cons_hd; reflexivity|]. intros _. apply WS. reflexivity.
      - assert (NX : x <> Exn E_cannot_read_page).
        { intros X. apply WS in X. congruence. }
        rewrite (IH r1 t2 r2); [|congruence|exact W1|exact (watch_fresh _ _ _ WS NX)|exact T].
        split; [apply Exists_cons_tl|]. intros X. inversion X; [|assumption].
        destruct NX. assumption. }
    destruct x as [a|e0| | |];
      try (destruct (trace c (watched src) ops (Some r1)) as [t2 r2] eqn:T;
           injection H as <- ->; apply CONT; reflexivity);
      injection H as <- <-.
    all: destruct WS as [_ WS];
      change (source_failed r1) with (snd (ps_is (p_of r1))); rewrite <- WS;
      (split; [discriminate|]); intros X; inversion X as [? ? X1|? ? X1]; subst;
      [discriminate X1|inversion X1].
Qed.

Lemma watch_metadata : forall fuel p m p' m', fresh_p p ->
  metadata_loop c (watched src) (h_endianness h) (h_format h) (h_page_length h) fuel p m
  = Ok (p', m') -> fresh_p p'.
Proof.
  induction fuel as [|fuel IH]; intros p m p' m' F H; cbn [metadata_loop] in H; [discriminate|].
  destruct (read_page c (watched src) _ _ _ p) as [y p1] eqn:R.
  apply watch_read_page in R; [|exact P|exact F].
  destruct y as [[|]| | | |]; try discriminate.
  - assert (F1 : fresh_p p1) by (eapply watch_fresh; [exact R|discriminate]).
    binv H. destruct x as [m1 [|]].
    + injection H as <- <-. exact F1.
    + apply (IH p1 m1 p' m' F1 H).
  - injection H as <- <-. eapply watch_fresh; [exact R|discriminate].
Qed.

End Watched.

Lemma watched_flag : forall S c (src : source S) b s n off s' b',
  read_stream c (watched src) b s n off = (Ok true, s', b') -> snd s' = snd s.
Proof.
  intros S c src b s n off s' b' H. unfold read_stream in H.
  destruct (resize _ _ _); try discriminate. cbn [src_read watched] in H.
  destruct (src_read src (fst s) n) as [[s1 data] ok].
  destruct (if lenN data =? 0 then _ else _); try discriminate.
  injection H as -> <- _. cbn. apply orb_false_r.
Qed.

Lemma good_read_wf : forall S c (src : source S) b s n off s' b', good_source src ->
  wf_mbuf b -> off + n < W64 -> read_stream c src b s n off = (Ok true, s', b') -> wf_mbuf b'.
Proof.
  intros S c src b s n off s' b' G W L H.
  destruct (src_read src s n) as [[s1 data] ok] eqn:R. destruct (G _ _ _ _ _ R) as [D _].
  assert (AL : (off + n <= max_alloc c \/ off + n <= msize b)
               \/ (max_alloc c < off + n /\ msize b < off + n)) by lia.
  destruct AL as [AL|[A1 A2]].
  - destruct (read_stream_spec _ c src b s n off _ _ _ W L AL R D) as (b1 & RS & WB & _).
    rewrite RS in H. injection H as _ _ <-. exact WB.
  - rewrite read_stream_bad_alloc in H by assumption. discriminate.
Qed.

Lemma good_watched : forall S (src : source S), good_source src -> good_source (watched src).
Proof.
  intros S src G [s f] n s' data ok H. cbn [src_read watched fst snd] in H.
  destruct (src_read src s n) as [[s1 d1] ok1] eqn:R. injection H as _ <- <-.
  exact (G _ _ _ _ _ R).
Qed.

Lemma header_wf : forall S c (src : source S) s h s2 b, good_source src ->
  max_alloc c < row_limit -> open_header c src s = Ok (h, s2, b) -> wf_mbuf b.
Proof.
  intros S c src s h s2 b G M H. apply open_header_inv in H.
  destruct H as (s1 & b1 & hl & R1 & HL & R2 & _).
  assert (W1 : wf_mbuf b1).
  { eapply good_read_wf; [exact G|apply wf_empty| |exact R1]. reflexivity. }
  destruct (N.le_gt_cases HEADER_SIZE hl) as [L|L].
  - rewrite sub64_small in R2 by (unfold HEADER_SIZE, W64 in *; lia).
    eapply good_read_wf; [exact G|exact W1| |exact R2]. unfold HEADER_SIZE, W64 in *. lia.
  - exfalso. pose proof (read_stream_mem _ c src empty_mbuf s HEADER_SIZE 0 _ _ _ ltac:(cbn; lia) R1) as L1.
    unfold read_stream in R2.
    destruct (resize c b1 _) as [b2| | | |] eqn:RZ; try discriminate.
    apply resize_mem in RZ; [|exact L1].
    destruct (src_read src s1 _) as [[s3 data] ok] eqn:R. destruct (G _ _ _ _ _ R) as [_ D].
    destruct (N.eqb_spec (lenN data) 0) as [Z|Z].
    + injection R2 as -> _ _. specialize (D eq_refl). revert D. rewrite Z.
      unfold sub64, u64, HEADER_SIZE, W64 in *. lia.
    + unfold write_cells in R2. destruct (N.leb_spec (HEADER_SIZE + lenN (map Some data)) (lenN (mem b2)));
        [|discriminate].
      injection R2 as -> _ _. specialize (D eq_refl). rewrite lenN_map in *.
      unfold sub64, u64, HEADER_SIZE, row_limit, W64 in *. lia.
Qed.

Lemma watch_open : forall S c (src : source S) flt s r, good_source src ->
  max_alloc c < row_limit -> opened c (watched src) flt (s, false) r ->
  fresh_p S (p_of S r) /\ h_page_length (rs_h r) < W64.
Proof.
  intros S c src flt s r G M [ev O]. apply open_reader_inv in O.
  destruct O as (s1 & b1 & p & m & H1 & H2 & H3 & H4 & _).
  pose proof (header_wf _ _ _ _ _ _ _ (good_watched _ _ G) M H1) as W.
  apply open_header_inv in H1. destruct H1 as (s2 & b2 & hl & R1 & _ & R2 & PL).
  assert (PL' : h_page_length (rs_h r) < W64) by (unfold W64; lia).
  apply watched_flag in R1. apply watched_flag in R2.
  apply (watch_metadata S c src G (rs_h r) PL') in H2.
  - split; [|exact PL']. unfold p_of. unfold read_data in H4. binv H4.
    destruct (m_data_subheaders m).
    + binv H4. injection H4 as <-. exact H2.
    + injection H4 as <-. exact H2.
  - split; [exact W|]. cbn [ps_is]. rewrite R2, R1. reflexivity.
Qed.

Lemma failure_reported : forall S c (src : source S) flt s r0 ops t r, good_source src ->
  max_alloc c < row_limit -> opened c (watched src) flt (s, false) r0 ->
  trace c (watched src) ops (Some r0) = (t, Some r) ->
  source_failed r0 = false /\ (source_failed r = true <-> Exists read_failed t).
Proof.
  intros S c src flt s r0 ops t r G M O T.
  destruct (watch_open _ _ _ _ _ _ G M O) as [F PL].
  destruct (opened_wf _ _ _ _ _ _ M O) as [W _].
  split; [apply F|].
  eapply (watch_trace S c src G (rs_h r0) PL ops r0 t r eq_refl W F T).
Qed.

(** Watching a source changes nothing. *)
Definition forget {S} (p : pstate (S * bool)) : pstate S :=
  PState (fst (ps_is p)) (ps_buf p) (ps_hdr p).

Lemma watched_stream : forall S c (src : source S) b s n off,
  read_stream c src b (fst s) n off
  = let '(x, s', b') := read_stream c (watched src) b s n off in (x, fst s', b').
Proof.
  intros. unfold read_stream. destruct (resize _ _ _); try reflexivity.
  cbn [src_read watched]. destruct (src_read src (fst s) n) as [[s1 data] ok].
  destruct (if lenN data =? 0 then _ else _); reflexivity.
Qed.

Lemma watched_header : forall S c (src : source S) s,
  open_header c src (fst s)
  = match open_header c (watched src) s with
    | Ok (h, s', b) => Ok (h, fst s', b)
    | Exn e => Exn e
    | Abort => Abort
    | Undef u => Undef u
    | Fuel => Fuel
    end.
Proof.
  intros S c src s. unfold open_header, check_header, check_header_ctor.
  rewrite (watched_stream S c src empty_mbuf s).
  destruct (read_stream c (watched src) empty_mbuf s HEADER_SIZE 0) as [[y s1] b1].
  destruct y as [[|]| | | |]; cbn [bind]; try reflexivity.
  destruct (check_magic_number b1); cbn [bind]; try reflexivity.
  unfold set_aligns_endianness.
  destruct (get_byte b1 32); cbn [bind]; try reflexivity.
  destruct (get_byte b1 35); cbn [bind]; try reflexivity.
  destruct (get_byte b1 37); cbn [bind]; try reflexivity.
  unfold read_header. cbn [ch_is ch_buf ch_align1 ch_align2 ch_big ch_64].
  unfold set_header_length_and_read.
  destruct (get_uint32 _ b1 _) as [hl| | | |]; cbn [bind]; try reflexivity.
  destruct (fmt_assert c (HEADER_SIZE <=? hl)); cbn [bind]; try reflexivity.
  rewrite (watched_stream S c src b1 s1).
  destruct (read_stream c (watched src) b1 s1 (hl -! HEADER_SIZE) HEADER_SIZE) as [[y s2] b2].
  destruct y as [[|]| | | |]; cbn [bind]; try reflexivity.
  destruct (set_header _ _ _ _ _ _ _); reflexivity.
Qed.

Lemma watched_same : forall S nd ma k (src : source S) flt s,
  let c := Cfg nd ma k in
  same_outcome (fun x y => snd x = snd y /\ forall ops,
      fst (trace c (watched src) ops (Some (fst x))) = fst (trace c src ops (Some (fst y))))
    (open_reader c (watched src) flt (s, false)) (open_reader c src flt s).
Proof.
  intros S nd ma k src flt s c.
  pose proof (watched_header S c src (s, false)) as WH. cbn [fst] in WH.
  destruct (open_header c (watched src) (s, false)) as [[[h s1] b]| | | |] eqn:H;
    try (unfold open_reader; rewrite H, WH; cbn; auto; fail).
  set (R := fun (n : nat) (p : pstate (S * bool)) (q : pstate S) => q = forget p).
  assert (RS : forall n p q, R n p q ->
    exists x p' q', read_page (Cfg nd ma k) (watched src) (h_endianness h) (h_format h)
                      (h_page_length h) p = (x, p')
    /\ read_page (Cfg nd ma k) src (h_endianness h) (h_format h) (h_page_length h) q = (x, q')
    /\ match x with
       | Ok true => exists m, ((m < n)%nat \/ k = k) /\ R m p' q' /\ ps_buf p' = ps_buf q'
                              /\ ps_hdr p' = ps_hdr q'
       | Ok false => ps_hdr p' = reset_page_header /\ ps_hdr q' = reset_page_header
       | _ => True
       end).
  { intros n p q ->. unfold read_page. cbn [forget ps_is ps_buf].
    change (src_eof (watched src) (ps_is p)) with (src_eof src (fst (ps_is p))).
    destruct (src_eof src (fst (ps_is p))); [do 3 eexists; repeat split|].
    rewrite (watched_stream S _ src (ps_buf p) (ps_is p)).
    destruct (read_stream _ (watched src) _ _ _ _) as [[y s'] b'].
    destruct y as [[|]| | | |]; try (do 3 eexists; (split; [reflexivity|]); split; [reflexivity|exact I]).
    - destruct (get_page_header _ _ b');
        try (do 3 eexists; (split; [reflexivity|]); split; [reflexivity|exact I]).
      do 3 eexists; (split; [reflexivity|]); (split; [reflexivity|]). exists n.
      split; [auto|]. split; [reflexivity|]. split; reflexivity.
    - change (src_eof (watched src) s') with (src_eof src (fst s')).
      destruct (src_eof src (fst s')); do 3 eexists; (split; [reflexivity|]); (split; [reflexivity|]).
      + split; reflexivity.
      + exact I. }
  pose proof (open_bisim _ _ (watched src) src nd ma k k h R RS flt (s, false) s s1 (fst s1) b 0%nat
                H WH eq_refl ltac:(left; reflexivity)) as OB. fold c in OB.
  destruct (open_reader c (watched src) flt (s, false)) as [[r1 ev]| | | |]; [|rewrite OB; cbn; auto..].
  destruct OB as (r2 & E2 & RR). rewrite E2. cbn [same_outcome fst snd].
  split; [reflexivity|]. intros ops.
  apply (trace_bisim _ _ (watched src) src nd ma k k h R RS ops r1 r2 RR).
Qed.

(** After a failure: nothing more is pushed, the end is reported. *)
Lemma failure_is_end : forall S c (src : source S) o r r' ev ops, wf_r r ->
  step c src o r = (Exn E_cannot_read_page, r', ev) ->
  trace c src ops (Some r')
  = (map (fun o => (o, Ok (end_answer o), end_events o)) ops, Some r')
  /\ (pushes o = true ->
      current_row_index (Some r') = current_row_index (Some r) + lenN (rows_of ev)).
Proof.
  intros S c src o r r' ev ops W H. split.
  - apply ended_trace. eapply exception_ends; [exact W|exact H|discriminate].
  - assert (RO : forall l : list event, only_rows l -> lenN (rows_of l) = lenN l).
    { induction l as [|e l IH]; intros O; [reflexivity|].
      pose proof (Forall_inv O) as O1. apply Forall_inv_tail in O. specialize (IH O).
      destruct e as [? ?|n p|]; try discriminate O1.
      change (rows_of (EvRow n p :: l)) with ((n, p) :: rows_of l).
      rewrite !lenN_cons, IH. reflexivity. }
    intros PU. destruct o; try discriminate; cbn [step] in H.
    + destruct (read_row c src r) as [[y r1] ev1] eqn:R. injection H as H <- <-.
      apply read_row_props in R; [|exact W]. destruct R as (_ & _ & _ & R).
      destruct y as [[|]| | | |]; try discriminate. injection H as ->.
      unfold read_row in *. destruct R as (-> & [[R _]|[R _]]); [discriminate|].
      cbn. unfold at_row in R. lia.
    + destruct (read_rows c src _ r) as [[y r1] ev1] eqn:R. injection H as H <- <-.
      apply read_rows_props in R; [|exact W].
      destruct R as (_ & _ & _ & k & rows & R1 & _ & R2 & R).
      destruct y as [[|]| | | |]; try discriminate. injection H as ->.
      destruct R as (_ & -> & [[R _]|[R _]]); [discriminate|].
      rewrite RO by exact R1. unfold lenN. rewrite R2. exact R.
    + rewrite (read_all_rows _ _ _ r (Datatypes.S (N.to_nat (left_rows r)))) in H by (auto; lia).
      destruct (read_rows c src _ r) as [[y r1] ev1] eqn:R. injection H as H <- <-.
      apply read_rows_props in R; [|exact W].
      destruct R as (_ & _ & _ & k & rows & R1 & _ & R2 & R).
      destruct y as [[|]| | | |]; try discriminate. injection H as ->.
      destruct R as (_ & -> & [[R _]|[R _]]); [discriminate|].
      rewrite RO by exact R1. unfold lenN. rewrite R2. exact R.
Qed.

(** ** Pages of length zero *)

Lemma endless_loop : forall c src e f fuel m (p p1 : pstate fstate),
  read_page c src e f 0 p = (Ok true, p1) -> read_page c src e f 0 p1 = (Ok true, p1) ->
  is_page_meta_mix_amd (ph_type (ps_hdr p1)) = false ->
  is_page_data_mix (ph_type (ps_hdr p1)) = false ->
  metadata_loop c src e f 0 fuel p m = Fuel.
Proof.
  intros c src e f. induction fuel as [|fuel IH]; intros m p p1 H1 H2 T1 T2; [reflexivity|].
  cbn [metadata_loop]. rewrite H1. unfold process_page. rewrite T1, T2. cbn [bind].
  apply (IH m p1 p1); assumption.
Qed.

Lemma endless : forall nd k,
  open_reader (Cfg nd 100000 k) file_source None (file_open zero_page_file) = Fuel.
Proof.
  intros nd k.
  assert (H : exists h s b, open_header (Cfg nd 100000 k) file_source (file_open zero_page_file)
      = Ok (h, s, b) /\ h_page_length h = 0 /\
      exists p1, read_page (Cfg nd 100000 k) file_source (h_endianness h) (h_format h) 0
                   (PState s b reset_page_header) = (Ok true, p1)
        /\ read_page (Cfg nd 100000 k) file_source (h_endianness h) (h_format h) 0 p1 = (Ok true, p1)
        /\ is_page_meta_mix_amd (ph_type (ps_hdr p1)) = false
        /\ is_page_data_mix (ph_type (ps_hdr p1)) = false).
  { destruct nd; do 3 eexists; (split; [vm_compute; reflexivity|]); (split; [reflexivity|]);
      eexists; (split; [vm_compute; reflexivity|]); (split; [vm_compute; reflexivity|]);
      split; reflexivity. }
  destruct H as (h & s & b & H & PL & p1 & R1 & R2 & T1 & T2).
  unfold open_reader. rewrite H. cbn [bind]. unfold set_metadata. rewrite PL.
  rewrite (endless_loop _ _ _ _ _ _ _ p1 R1 R2 T1 T2). reflexivity.
Qed.
