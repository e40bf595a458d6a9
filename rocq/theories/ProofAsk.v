(** Proofs about the conversation of a Reader with its source. *)
From Verif Require Import Base Types Buffer Page Column Header Metadata Decomp Data Reader
  Lemmas SpecBuffer ProofBuffer SpecReader ProofReader ProofMetaInv ProofBisim ProofInside SpecAsk.
From Coq Require Import ZifyBool ZifyNat ZifyN.
Local Open Scope N_scope.

(** ** Conversations *)

Lemma t_eof : forall S (src : source S) s b t s', src_eof src s = b -> talks src s t s' ->
  talks src s (AskEof b :: t) s'.
Proof. intros S src s b t s' <- H. constructor. exact H. Qed.

Lemma t_eof_inv : forall S (src : source S) s b t s', talks src s (AskEof b :: t) s' ->
  src_eof src s = b /\ talks src s t s'.
Proof. intros S src s b t s' H. inversion H; subst. auto. Qed.

Lemma t_read_inv : forall S (src : source S) s n d ok t s', talks src s (AskRead n d ok :: t) s' ->
  exists s1, src_read src s n = (s1, d, ok) /\ talks src s1 t s'.
Proof. intros S src s n d ok t s' H. inversion H; subst. eauto. Qed.

Lemma t_nil_inv : forall S (src : source S) s s', talks src s [] s' -> s' = s.
Proof. intros S src s s' H. inversion H. reflexivity. Qed.

Lemma talks_app : forall S (src : source S) t1 t2 s s' s'', talks src s t1 s' ->
  talks src s' t2 s'' -> talks src s (t1 ++ t2) s''.
Proof.
  intros S src t1 t2 s s' s'' H. induction H; intros K; cbn; [exact K| |].
  - constructor. auto.
  - econstructor; eauto.
Qed.

Lemma talks_app_inv : forall S (src : source S) t1 t2 s s'', talks src s (t1 ++ t2) s'' ->
  exists s', talks src s t1 s' /\ talks src s' t2 s''.
Proof.
  intros S src t1 t2. induction t1 as [|[b|n d ok] t1 IH]; intros s s'' H; cbn in H.
  - exists s. split; [constructor|exact H].
  - apply t_eof_inv in H. destruct H as [E H]. destruct (IH _ _ H) as [s' [A B]].
    exists s'. split; [apply t_eof; auto|exact B].
  - apply t_read_inv in H. destruct H as [s1 [E H]]. destruct (IH _ _ H) as [s' [A B]].
    exists s'. split; [econstructor; eauto|exact B].
Qed.

Lemma paging_app : forall plen e t1 t2, paging plen false t1 -> paging plen e t2 ->
  paging plen e (t1 ++ t2).
Proof.
  intros plen e t1 t2 H. remember false as b eqn:B. revert B.
  induction H; intros B K; try discriminate; cbn; [exact K|]. constructor; auto.
Qed.

(** ** One page *)

Definition moved {S1 S2} (p : pstate S1) (s : S2) : pstate S2 := PState s (ps_buf p) (ps_hdr p).

Lemma read_page_talks : forall S c (src : source S) e f plen p x p',
  read_page c src e f plen p = (x, p') ->
  exists t g, talks src (ps_is p) t (ps_is p')
  /\ (forall S2 (src2 : source S2) s2 s2', talks src2 s2 t s2' ->
        read_page c src2 e f plen (moved p s2) = (x, moved p' s2'))
  /\ (good_source src -> plen < W64 -> wf_p p ->
        wf_p p' /\ paging plen g t /\ (g = true -> x <> Ok true)).
Proof.
  intros S c src e f plen p x p' H.
  assert (WF : plen < W64 -> wf_p p -> wf_p p').
  { intros L W. apply (read_page_room S c src e f plen p x p' L W H). }
  unfold read_page in H. destruct (src_eof src (ps_is p)) eqn:E.
  { injection H as <- <-. exists [AskEof true], true. cbn [ps_is ps_buf ps_hdr].
    split; [apply t_eof; [exact E|constructor]|]. split.
    - intros S2 src2 s2 s2' T. apply t_eof_inv in T. destruct T as [T1 T]. apply t_nil_inv in T.
      subst s2'. unfold read_page, moved. cbn [ps_is ps_buf ps_hdr]. rewrite T1. reflexivity.
    - intros G L W. split; [auto|]. split; [constructor|discriminate]. }
  unfold read_stream in H.
  destruct (resize c (ps_buf p) (0 +! plen)) as [b1| | | |] eqn:R;
    try (injection H as <- <-; exists [AskEof false], true; cbn [ps_is ps_buf ps_hdr];
    split; [apply t_eof; [exact E|constructor]|]; split;
    [ intros S2 src2 s2 s2' T; apply t_eof_inv in T; destruct T as [T1 T]; apply t_nil_inv in T;
      subst s2'; unfold read_page, read_stream, moved; cbn [ps_is ps_buf ps_hdr]; rewrite T1, R; reflexivity
    | intros G L W; split; [auto|]; split; [constructor|discriminate]]; fail).
  destruct (src_read src (ps_is p) plen) as [[s1 data] ok] eqn:Q.
  destruct (if lenN data =? 0 then Ok (mem b1) else write_cells (mem b1) 0 (map Some data))
    as [m| | | |] eqn:K.
  2-5: injection H as <- <-; exists [AskEof false; AskRead plen data ok], false; cbn [ps_is ps_buf ps_hdr];
    split; [apply t_eof; [exact E|]; econstructor; [exact Q|constructor]|]; split;
    [ intros S2 src2 s2 s2' T; apply t_eof_inv in T; destruct T as [T1 T]; apply t_read_inv in T;
      destruct T as [s3 [T2 T]]; apply t_nil_inv in T;
      subst s2'; unfold read_page, read_stream, moved; cbn [ps_is ps_buf ps_hdr]; rewrite T1, R, T2, K; reflexivity
    | intros G L W; exfalso;
      destruct (resize_wf _ _ _ _ W R) as [W1 W2]; destruct (G _ _ _ _ _ Q) as [G1 _];
      rewrite add64_small in W2 by lia; unfold wf_mbuf in W1;
      destruct (lenN data =? 0); [discriminate|];
      rewrite write_cells_Ok in K by (rewrite lenN_map; lia); discriminate].
  destruct ok.
  - exists [AskEof false; AskRead plen data true], false.
    assert (T : ps_is p' = s1).
    { destruct (get_page_header e f (MBuf m (msize b1))); injection H as _ <-; reflexivity. }
    rewrite T. split; [apply t_eof; [exact E|]; econstructor; [exact Q|constructor]|]. split.
    + intros S2 src2 s2 s2' U. apply t_eof_inv in U. destruct U as [T1 U]. apply t_read_inv in U.
      destruct U as [s3 [T2 U]]. apply t_nil_inv in U. subst s2'.
      unfold read_page, read_stream, moved. cbn [ps_is ps_buf ps_hdr]. rewrite T1, R, T2, K.
      destruct (get_page_header e f (MBuf m (msize b1))); injection H as <- <-; reflexivity.
    + intros G L W. split; [auto|]. destruct (G _ _ _ _ _ Q) as [_ G2].
      split; [constructor; [auto|constructor]|discriminate].
  - exists [AskEof false; AskRead plen data false; AskEof (src_eof src s1)], true.
    assert (T : ps_is p' = s1).
    { destruct (src_eof src s1); injection H as _ <-; reflexivity. }
    rewrite T. split; [apply t_eof; [exact E|]; econstructor; [exact Q|]; apply t_eof; [reflexivity|constructor]|].
    split.
    + intros S2 src2 s2 s2' U. apply t_eof_inv in U. destruct U as [T1 U]. apply t_read_inv in U.
      destruct U as [s3 [T2 U]]. apply t_eof_inv in U. destruct U as [T3 U]. apply t_nil_inv in U. subst s2'.
      unfold read_page, read_stream, moved. cbn [ps_is ps_buf ps_hdr]. rewrite T1, R, T2, K, T3.
      destruct (src_eof src s1); injection H as <- <-; reflexivity.
    + intros G L W. split; [auto|]. destruct (G _ _ _ _ _ Q) as [G1 _].
      split; [constructor; exact G1|]. intros _. destruct (src_eof src s1); injection H as <- <-; discriminate.
Qed.

Lemma next_page_talks : forall S c (src : source S) e f plen md fuel p x p',
  read_next_page c src e f plen md fuel p = (x, p') ->
  exists t g, talks src (ps_is p) t (ps_is p')
  /\ (forall S2 (src2 : source S2) s2 s2', talks src2 s2 t s2' ->
        read_next_page c src2 e f plen md fuel (moved p s2) = (x, moved p' s2'))
  /\ (good_source src -> plen < W64 -> wf_p p ->
        wf_p p' /\ paging plen g t /\ (g = true -> forall pg, x <> Ok (Some pg))).
Proof.
  intros S c src e f plen md. induction fuel as [|fuel IH]; intros p x p' H.
  { injection H as <- <-. exists [], false. split; [constructor|]. split.
    - intros S2 src2 s2 s2' T. apply t_nil_inv in T. subst. reflexivity.
    - intros _ _ W. split; [exact W|]. split; [constructor|discriminate]. }
  cbn [read_next_page] in H. destruct (read_page c src e f plen p) as [y p1] eqn:R.
  apply read_page_talks in R. destruct R as (t & g & T & RE & SH).
  destruct y as [[|]| | | |];
    try (injection H as <- <-; exists t, g; split; [exact T|]; split;
         [intros S2 src2 s2 s2' U; cbn [read_next_page]; rewrite (RE _ _ _ _ U); reflexivity
         |intros G L W; destruct (SH G L W) as (A & B & _); split; [exact A|]; split; [exact B|discriminate]]; fail).
  destruct (build_page e f md (ps_buf p1) (ps_hdr p1)) as [[pg|]| | | |] eqn:BP;
    try (injection H as <- <-; exists t, g; split; [exact T|]; split;
         [intros S2 src2 s2 s2' U; cbn [read_next_page]; rewrite (RE _ _ _ _ U);
          cbn [moved ps_buf ps_hdr]; rewrite BP; reflexivity
         |intros G L W; destruct (SH G L W) as (A & B & C); split; [exact A|]; split; [exact B|];
          intros Z; exfalso; exact (C Z eq_refl)]; fail).
  destruct (IH _ _ _ H) as (t' & g' & T' & RE' & SH').
  exists (t ++ t'), g'. split; [eapply talks_app; eauto|]. split.
  - intros S2 src2 s2 s2' U. apply talks_app_inv in U. destruct U as [s3 [U1 U2]].
    cbn [read_next_page]. rewrite (RE _ _ _ _ U1). cbn [moved ps_buf ps_hdr]. rewrite BP.
    exact (RE' _ _ _ _ U2).
  - intros G L W. destruct (SH G L W) as (A & B & C). destruct (SH' G L A) as (A' & B' & C').
    split; [exact A'|]. split; [|exact C']. apply paging_app; [|exact B'].
    destruct g; [destruct (C eq_refl eq_refl)|exact B].
Qed.

(** ** Operations on the data *)

Definition d_moved {S1 S2} (d : dstate S1) (s : S2) : dstate S2 :=
  DState (moved (ds_p d) s) (ds_dec d) (ds_row d) (ds_page d).

(** An operation, for every kind of source. *)
Definition dop (X : Type) : Type := forall S, source S -> dstate S -> X * dstate S.

Definition talky {X} (plen : N) (f : dop X) : Prop := forall S (src : source S) d x d',
  f S src d = (x, d') ->
  exists t g, talks src (ps_is (ds_p d)) t (ps_is (ds_p d'))
  /\ (forall S2 (src2 : source S2) s2 s2', talks src2 s2 t s2' ->
        f S2 src2 (d_moved d s2) = (x, d_moved d' s2'))
  /\ (ds_page d = None -> t = [] /\ ds_page d' = None)
  /\ (good_source src -> plen < W64 -> wf_p (ds_p d) ->
        wf_p (ds_p d') /\ paging plen g t /\ (g = true -> ds_page d' = None)).

Lemma talky_ext : forall X plen (f g : dop X), (forall S src d, f S src d = g S src d) ->
  talky plen g -> talky plen f.
Proof.
  intros X plen f g E H S src d x d' K. rewrite E in K. destruct (H _ _ _ _ _ K) as (t & e & A & B & C & D).
  exists t, e. split; [exact A|]. split; [|auto]. intros. rewrite E. auto.
Qed.

(** An operation which does not use the source. *)
Lemma talky_quiet : forall X plen (f : dop X),
  (forall S (src : source S) d x d', f S src d = (x, d') ->
     ps_is (ds_p d') = ps_is (ds_p d) /\ ps_buf (ds_p d') = ps_buf (ds_p d)
     /\ (ds_page d = None -> ds_page d' = None)
     /\ forall S2 (src2 : source S2) s2, f S2 src2 (d_moved d s2) = (x, d_moved d' s2)) ->
  talky plen f.
Proof.
  intros X plen f H S src d x d' K. destruct (H _ _ _ _ _ K) as (A & B & C & D).
  exists [], false. rewrite A. split; [constructor|]. split.
  - intros S2 src2 s2 s2' T. apply t_nil_inv in T. subst. apply D.
  - split; [auto|]. intros _ _ W. unfold wf_p in *. rewrite B. split; [exact W|]. split; [constructor|discriminate].
Qed.

Lemma talky_ret : forall X plen (x : X), talky plen (fun S _ d => (x, d)).
Proof.
  intros X plen x. apply talky_quiet. intros S src d y d' H. injection H as <- <-.
  split; [reflexivity|]. split; [reflexivity|]. split; [auto|]. reflexivity.
Qed.

Lemma talky_bind : forall X Y plen (f : dop X) (g : X -> dop Y), talky plen f ->
  (forall x, talky plen (g x)) ->
  talky plen (fun S src d => let '(x, d1) := f S src d in g x S src d1).
Proof.
  intros X Y plen f g HF HG S src d y d' K. destruct (f S src d) as [x d1] eqn:E.
  destruct (HF _ _ _ _ _ E) as (t & e & A & B & C & D).
  destruct (HG x _ _ _ _ _ K) as (t' & e' & A' & B' & C' & D').
  exists (t ++ t'), (orb e e'). split; [eapply talks_app; eauto|]. split.
  { intros S2 src2 s2 s2' U. apply talks_app_inv in U. destruct U as [s3 [U1 U2]].
    rewrite (B _ _ _ _ U1). apply B'. exact U2. }
  split.
  { intros N. destruct (C N) as [-> N1]. destruct (C' N1) as [-> N2]. auto. }
  intros G L W. destruct (D G L W) as (W1 & P1 & N1). destruct (D' G L W1) as (W2 & P2 & N2).
  split; [exact W2|]. destruct e; cbn [orb].
  - destruct (C' (N1 eq_refl)) as [-> N3]. rewrite app_nil_r. auto.
  - split; [apply paging_app; assumption|exact N2].
Qed.

(** What is computed from the result. *)
Lemma talky_map : forall X Y plen (f : dop X) (k : X -> Y), talky plen f ->
  talky plen (fun S src d => let '(x, d1) := f S src d in (k x, d1)).
Proof. intros X Y plen f k H. apply talky_bind; [exact H|]. intros x. apply talky_ret. Qed.

(** An operation chosen by the row reached. *)
Lemma talky_row : forall X plen (f : N -> dop X), (forall i, talky plen (f i)) ->
  talky plen (fun S src d => f (ds_row d) S src d).
Proof. intros X plen f H S src d x d' K. apply (H (ds_row d) S src d x d' K). Qed.

Section Ops.
Variables (c : cfg) (h : header) (md : metadata).
Let plen := h_page_length h.

Lemma data_next_talky : talky plen (fun S src d => data_next c src h md d).
Proof.
  intros S src d x d' H. unfold data_next in H.
  destruct (ds_row d =? md_row_count md) eqn:E.
  { injection H as <- <-. exists [], false. split; [constructor|]. split.
    - intros S2 src2 s2 s2' U. apply t_nil_inv in U. subst. unfold data_next.
      cbn [d_moved ds_row]. rewrite E. reflexivity.
    - split; [auto|]. intros _ _ W. split; [exact W|]. split; [constructor|discriminate]. }
  destruct (ds_page d) as [pg|] eqn:P.
  2: { injection H as <- <-. exists [], false. split; [constructor|]. split.
       - intros S2 src2 s2 s2' U. apply t_nil_inv in U. subst. unfold data_next.
         cbn [d_moved ds_row ds_page]. rewrite E, P. reflexivity.
       - split; [auto|]. intros _ _ W. split; [exact W|]. split; [constructor|discriminate]. }
  destruct (page_next pg) eqn:N.
  2: { injection H as <- <-. exists [], false. split; [constructor|]. split.
       - intros S2 src2 s2 s2' U. apply t_nil_inv in U. subst. unfold data_next.
         cbn [d_moved ds_row ds_page]. rewrite E, P, N. reflexivity.
       - split; [discriminate|]. intros _ _ W. split; [exact W|]. split; [constructor|discriminate]. }
  destruct (read_next_page c src (h_endianness h) (h_format h) (h_page_length h) md
              (page_fuel c) (ds_p d)) as [y p'] eqn:R.
  destruct (next_page_talks _ _ _ _ _ _ _ _ _ _ _ R) as (t & g & A & B & C).
  assert (I : ps_is (ds_p d') = ps_is p').
  { destruct y as [[pg'|]| | | |]; injection H as _ <-; reflexivity. }
  exists t, g. rewrite I. split; [exact A|]. split; [|split; [discriminate|]].
  - intros S2 src2 s2 s2' U. unfold data_next. cbn [d_moved ds_row ds_page ds_p]. rewrite E, P, N.
    rewrite (B _ _ _ _ U). destruct y as [[pg'|]| | | |]; injection H as <- <-; reflexivity.
  - intros G L W. destruct (C G L W) as (C1 & C2 & C3).
    assert (J : ds_p d' = p').
    { destruct y as [[pg'|]| | | |]; injection H as _ <-; reflexivity. }
    rewrite J. split; [exact C1|]. split; [exact C2|]. intros Z. specialize (C3 Z).
    destruct y as [[pg'|]| | | |]; injection H as _ <-; try reflexivity. destruct (C3 pg' eq_refl).
Qed.

Lemma data_read_line_talky : talky plen (fun S (_ : source S) d => data_read_line d).
Proof.
  apply talky_quiet. intros S src d x d' H. unfold data_read_line in H.
  destruct (ds_page d) as [pg|] eqn:P; injection H as <- <-.
  - split; [reflexivity|]. split; [reflexivity|]. split; [discriminate|].
    intros S2 src2 s2. unfold data_read_line. cbn [d_moved ds_page]. rewrite P. reflexivity.
  - split; [reflexivity|]. split; [reflexivity|]. split; [auto|].
    intros S2 src2 s2. unfold data_read_line. cbn [d_moved ds_page]. rewrite P. reflexivity.
Qed.

Lemma extract_talky : forall off len,
  talky plen (fun S (_ : source S) d => extract_row_values c h md off len d).
Proof.
  intros off len. apply talky_quiet. intros S src d x d' H. unfold extract_row_values in H.
  assert (Z : forall S2 (src2 : source S2) (s2 : S2),
    extract_row_values c h md off len (d_moved d s2) = (x, d_moved d' s2)
    /\ ds_p d' = ds_p d /\ ds_page d' = ds_page d).
  { intros S2 src2 s2. unfold extract_row_values. cbn [d_moved moved ds_p ps_buf ds_dec].
    destruct (fmt_assert c _); try (injection H as <- <-; auto; fail).
    destruct (len <? md_row_length md); [|injection H as <- <-; auto].
    destruct (ds_dec d) as [|dst|dst]; [injection H as <- <-; auto| |];
      (destruct (read_cells _ _ _) as [w| | | |]; try (injection H as <- <-; auto; fail)).
    - destruct (rdc w dst) as [y dst']. injection H as <- <-. auto.
    - destruct (rle w dst) as [y dst']. injection H as <- <-. auto. }
  destruct (Z _ src (ps_is (ds_p d))) as (_ & Z2 & Z3). rewrite Z2, Z3.
  split; [reflexivity|]. split; [reflexivity|]. split; [auto|]. intros S2 src2 s2. apply (Z S2 src2 s2).
Qed.

Lemma read_line_talky : talky plen (fun S src d => read_line c src h md d).
Proof.
  apply (talky_ext _ _ _ (fun S src d => let '(x, d1) := data_next c src h md d in
    (match x return dop (res (option pview)) with
     | Ok true => fun S src d1 => let '(y, d2) := data_read_line d1 in
         (match y return dop (res (option pview)) with
          | Ok (off, len) => fun S src d2 => let '(r, d3) := extract_row_values c h md off len d2 in
                                             (v <- r ;; Ok (Some v), d3)
          | Exn ex => fun S src d2 => (Exn ex, d2)
          | Abort => fun S src d2 => (Abort, d2)
          | Undef u => fun S src d2 => (Undef u, d2)
          | Fuel => fun S src d2 => (Fuel, d2)
          end) S src d2
     | Ok false => fun S src d => (Ok None, d)
     | Exn ex => fun S src d2 => (Exn ex, d2)
     | Abort => fun S src d2 => (Abort, d2)
     | Undef u => fun S src d2 => (Undef u, d2)
     | Fuel => fun S src d2 => (Fuel, d2)
     end) S src d1)).
  { intros S src d. unfold read_line. destruct (data_next c src h md d) as [[[|]| | | |] d1]; try reflexivity.
    destruct (data_read_line d1) as [[[off len]| | | |] d2]; reflexivity. }
  apply talky_bind; [exact data_next_talky|]. intros [[|]| | | |]; try apply talky_ret.
  apply talky_bind; [exact data_read_line_talky|]. intros [[off len]| | | |]; try apply talky_ret.
  apply talky_map. apply extract_talky.
Qed.

Lemma data_skip_talky : forall n, talky plen (fun S src d => data_skip c src h md n d).
Proof.
  induction n as [|n IH]; [apply talky_ret|].
  apply (talky_ext _ _ _ (fun S src d => let '(x, d1) := data_next c src h md d in
    (match x return dop (res bool) with
     | Ok true => fun S src d1 => let '(y, d2) := data_read_line d1 in
         (match y return dop (res bool) with
          | Ok _ => fun S src d2 => data_skip c src h md n d2
          | Exn ex => fun S src d2 => (Exn ex, d2)
          | Abort => fun S src d2 => (Abort, d2)
          | Undef u => fun S src d2 => (Undef u, d2)
          | Fuel => fun S src d2 => (Fuel, d2)
          end) S src d2
     | Ok false => fun S src d => (Ok false, d)
     | Exn ex => fun S src d2 => (Exn ex, d2)
     | Abort => fun S src d2 => (Abort, d2)
     | Undef u => fun S src d2 => (Undef u, d2)
     | Fuel => fun S src d2 => (Fuel, d2)
     end) S src d1)).
  { intros S src d. cbn [data_skip]. destruct (data_next c src h md d) as [[[|]| | | |] d1]; try reflexivity.
    destruct (data_read_line d1) as [[[off len]| | | |] d2]; reflexivity. }
  apply talky_bind; [exact data_next_talky|]. intros [[|]| | | |]; try apply talky_ret.
  apply talky_bind; [exact data_read_line_talky|]. intros [y| | | |]; try apply talky_ret. exact IH.
Qed.

(** The operations of the reader, on its data. *)
Definition on_data {X} (f : forall S, source S -> rstate S -> X * rstate S * list event)
  : dop (X * list event) := fun S src d =>
  let '(x, r', ev) := f S src (RState h md d) in ((x, ev), rs_d r').

Definition keeps {X} (f : forall S, source S -> rstate S -> X * rstate S * list event) : Prop :=
  forall S src d x r' ev, f S src (RState h md d) = (x, r', ev) -> r' = RState h md (rs_d r').

Lemma read_row_keeps : keeps (fun S src r => read_row c src r).
Proof.
  intros S src d x r' ev H. unfold read_row in H. cbn [rs_h rs_md rs_d] in H.
  destruct (read_line c src h md d) as [[[p|]| | | |] d']; injection H as <- <- <-; reflexivity.
Qed.

Definition row_at (i : N) : dop (res bool * list event) := fun S src d =>
  let '(x, d') := read_line c src h md d in
  (match x with
   | Ok None => (Ok false, [EvEnd])
   | Ok (Some p) => (Ok true, [EvRow i p])
   | Exn ex => (Exn ex, [])
   | Abort => (Abort, [])
   | Undef u => (Undef u, [])
   | Fuel => (Fuel, [])
   end, d').

Lemma read_row_talky : talky plen (on_data (fun S src r => read_row c src r)).
Proof.
  apply (talky_ext _ _ _ (fun S src d => row_at (ds_row d) S src d)).
  { intros S src d. unfold on_data, row_at, read_row. cbn [rs_h rs_md rs_d].
    destruct (read_line c src h md d) as [[[p|]| | | |] d']; reflexivity. }
  apply talky_row. intros i. apply (talky_map _ _ _ (fun S src d => read_line c src h md d)).
  exact read_line_talky.
Qed.

Lemma read_rows_keeps : forall n, keeps (fun S src r => read_rows c src n r).
Proof.
  induction n as [|n IH]; intros S src d x r' ev H; cbn [read_rows] in H.
  - injection H as <- <- <-. reflexivity.
  - destruct (read_row c src (RState h md d)) as [[y r1] ev1] eqn:E. apply read_row_keeps in E.
    destruct y as [[|]| | | |]; try (injection H as <- <- <-; exact E).
    rewrite E in H. destruct (read_rows c src n (RState h md (rs_d r1))) as [[z r2] ev2] eqn:E2.
    injection H as <- <- <-. apply IH in E2. exact E2.
Qed.

Lemma read_rows_talky : forall n, talky plen (on_data (fun S src r => read_rows c src n r)).
Proof.
  induction n as [|n IH]; [apply talky_ret|].
  apply (talky_ext _ _ _ (fun S src d =>
    let '(x, d1) := on_data (fun S src r => read_row c src r) S src d in
    (match x return dop (res bool * list event) with
     | (Ok true, ev) => fun S src d1 =>
         let '(y, d2) := on_data (fun S src r => read_rows c src n r) S src d1 in
         ((fst y, ev ++ snd y), d2)
     | (x, ev) => fun S src d1 => ((x, ev), d1)
     end) S src d1)).
  { intros S src d. unfold on_data. cbn [read_rows].
    destruct (read_row c src (RState h md d)) as [[y r1] ev1] eqn:E. apply read_row_keeps in E.
    destruct y as [[|]| | | |]; try reflexivity. rewrite <- E.
    destruct (read_rows c src n r1) as [[z r2] ev2]. reflexivity. }
  apply talky_bind; [exact read_row_talky|]. intros [[[|]| | | |] ev]; try apply talky_ret.
  apply talky_map. exact IH.
Qed.

Lemma read_all_loop_keeps : forall n, keeps (fun S src r => read_all_loop c src n r).
Proof.
  induction n as [|n IH]; intros S src d x r' ev H; cbn [read_all_loop] in H.
  - injection H as <- <- <-. reflexivity.
  - destruct (read_row c src (RState h md d)) as [[y r1] ev1] eqn:E. apply read_row_keeps in E.
    destruct y as [[|]| | | |]; try (injection H as <- <- <-; exact E).
    rewrite E in H. destruct (read_all_loop c src n (RState h md (rs_d r1))) as [[z r2] ev2] eqn:E2.
    injection H as <- <- <-. apply IH in E2. exact E2.
Qed.

Lemma read_all_loop_talky : forall n, talky plen (on_data (fun S src r => read_all_loop c src n r)).
Proof.
  induction n as [|n IH]; [apply talky_ret|].
  apply (talky_ext _ _ _ (fun S src d =>
    let '(x, d1) := on_data (fun S src r => read_row c src r) S src d in
    (match x return dop (res unit * list event) with
     | (Ok true, ev) => fun S src d1 =>
         let '(y, d2) := on_data (fun S src r => read_all_loop c src n r) S src d1 in
         ((fst y, ev ++ snd y), d2)
     | (Ok false, ev) => fun S src d1 => ((Ok tt, ev), d1)
     | (Exn ex, ev) => fun S src d1 => ((Exn ex, ev), d1)
     | (Abort, ev) => fun S src d1 => ((Abort, ev), d1)
     | (Undef u, ev) => fun S src d1 => ((Undef u, ev), d1)
     | (Fuel, ev) => fun S src d1 => ((Fuel, ev), d1)
     end) S src d1)).
  { intros S src d. unfold on_data. cbn [read_all_loop].
    destruct (read_row c src (RState h md d)) as [[y r1] ev1] eqn:E. apply read_row_keeps in E.
    destruct y as [[|]| | | |]; try reflexivity. rewrite <- E.
    destruct (read_all_loop c src n r1) as [[z r2] ev2]. reflexivity. }
  apply talky_bind; [exact read_row_talky|]. intros [[[|]| | | |] ev]; try apply talky_ret.
  apply talky_map. exact IH.
Qed.

Lemma step_keeps : forall o, keeps (fun S src r => step c src o r).
Proof.
  intros o S src d x r' ev H. destruct o; cbn [step] in H.
  - destruct (read_row c src (RState h md d)) as [[y r1] ev1] eqn:E. injection H as <- <- <-.
    apply read_row_keeps in E. exact E.
  - destruct (read_rows c src (N.to_nat n) (RState h md d)) as [[y r1] ev1] eqn:E. injection H as <- <- <-.
    apply read_rows_keeps in E. exact E.
  - unfold read_all in H. match type of H with context [read_all_loop c src ?k ?r] =>
      destruct (read_all_loop c src k r) as [[y r1] ev1] eqn:E end. injection H as <- <- <-.
    apply read_all_loop_keeps in E. exact E.
  - unfold skip in H. cbn [rs_h rs_md rs_d] in H. destruct (data_skip c src h md (N.to_nat n) d).
    injection H as <- <- <-. reflexivity.
  - unfold read_row_no_sink in H. cbn [rs_h rs_md rs_d] in H. destruct (read_line c src h md d).
    injection H as <- <- <-. reflexivity.
  - injection H as <- <- <-. reflexivity.
Qed.

Definition all_at (i : N) : dop (res out * list event) := fun S src d =>
  let '(x, d1) := on_data (fun S src r => read_all_loop c src
                     (Datatypes.S (N.to_nat (md_row_count md - i))) r) S src d in
  ((rmap (fun _ => OUnit) (fst x), snd x), d1).

Lemma step_talky : forall o, talky plen (on_data (fun S src r => step c src o r)).
Proof.
  intros [|n| |n| |].
  - apply (talky_ext _ _ _ (fun S src d =>
      let '(x, d1) := on_data (fun S src r => read_row c src r) S src d in
      ((rmap OBool (fst x), snd x), d1))).
    { intros S src d. unfold on_data. cbn [step]. destruct (read_row _ _ _) as [[y r1] ev1]. reflexivity. }
    apply talky_map. exact read_row_talky.
  - apply (talky_ext _ _ _ (fun S src d =>
      let '(x, d1) := on_data (fun S src r => read_rows c src (N.to_nat n) r) S src d in
      ((rmap OBool (fst x), snd x), d1))).
    { intros S src d. unfold on_data. cbn [step]. destruct (read_rows _ _ _ _) as [[y r1] ev1]. reflexivity. }
    apply talky_map. apply read_rows_talky.
  - apply (talky_ext _ _ _ (fun S src d => all_at (ds_row d) S src d)).
    { intros S src d. unfold all_at, on_data. cbn [step]. unfold read_all. cbn [rs_md rs_d].
      destruct (read_all_loop _ _ _ _) as [[y r1] ev1]. reflexivity. }
    apply talky_row. intros i. apply (talky_map _ _ _ (on_data (fun S src r => read_all_loop c src _ r))).
    apply read_all_loop_talky.
  - apply (talky_ext _ _ _ (fun S src d =>
      let '(x, d1) := data_skip c src h md (N.to_nat n) d in
      ((rmap OBool x, match x with Ok false => [EvEnd] | _ => [] end), d1))).
    { intros S src d. unfold on_data. cbn [step]. unfold skip. cbn [rs_h rs_md rs_d].
      destruct (data_skip _ _ _ _ _ _) as [y d1]. reflexivity. }
    apply (talky_map _ _ _ (fun S src d => data_skip c src h md (N.to_nat n) d)
             (fun x => (rmap OBool x, match x with Ok false => [EvEnd] | _ => [] end))).
    apply data_skip_talky.
  - apply (talky_ext _ _ _ (fun S src d =>
      let '(x, d1) := read_line c src h md d in ((rmap OPtr x, []), d1))).
    { intros S src d. unfold on_data. cbn [step]. unfold read_row_no_sink. cbn [rs_h rs_md rs_d].
      destruct (read_line _ _ _ _ _) as [y d1]. reflexivity. }
    apply (talky_map _ _ _ (fun S src d => read_line c src h md d) (fun x => (rmap OPtr x, []))).
    exact read_line_talky.
  - apply talky_ret.
Qed.

(** A history. *)
Definition history (ops : list op) : dop (list entry) := fun S src d =>
  match trace c src ops (Some (RState h md d)) with
  | (l, Some r) => (l, rs_d r)
  | (l, None) => (l, d)
  end.

Lemma trace_keeps : forall ops S (src : source S) d l r',
  trace c src ops (Some (RState h md d)) = (l, r') -> exists d', r' = Some (RState h md d').
Proof.
  induction ops as [|o ops IH]; intros S src d l r' H; cbn [trace reader_step] in H.
  - injection H as <- <-. eauto.
  - destruct (step c src o (RState h md d)) as [[x r1] ev] eqn:E. apply step_keeps in E. rewrite E in H.
    destruct x; try (injection H as <- <-; eauto; fail);
      (match type of H with context [trace c src ops ?r] =>
         destruct (trace c src ops r) as [l2 r2] eqn:E2 end); injection H as <- <-; eapply IH; eauto.
Qed.

Lemma history_talky : forall ops, talky plen (history ops).
Proof.
  induction ops as [|o ops IH]; [apply talky_ret|].
  apply (talky_ext _ _ _ (fun S src d =>
    let '(x, d1) := on_data (fun S src r => step c src o r) S src d in
    (match fst x return dop (list entry) with
     | Ok _ | Exn _ => fun S src d1 => let '(l, d2) := history ops S src d1 in ((o, fst x, snd x) :: l, d2)
     | _ => fun S src d1 => ([(o, fst x, snd x)], d1)
     end) S src d1)).
  { intros S src d. unfold on_data, history at 1. cbn [trace reader_step].
    destruct (step c src o (RState h md d)) as [[x r1] ev] eqn:E. apply step_keeps in E.
    destruct x; cbn [fst snd]; try reflexivity; unfold history; rewrite <- E;
      destruct (trace c src ops (Some r1)) as [l2 r2] eqn:E2; rewrite E in E2; apply trace_keeps in E2;
      destruct E2 as [d2 ->]; reflexivity. }
  apply talky_bind; [apply step_talky|]. intros [[y|e| |u|] ev]; cbn [fst snd]; try apply talky_ret;
    apply (talky_map _ _ _ (history ops)); exact IH.
Qed.

End Ops.

(** ** The constructor *)

Lemma read_stream_talks : forall S c (src : source S) b s n off x s' b',
  read_stream c src b s n off = (x, s', b') ->
  exists t, talks src s t s'
  /\ (forall S2 (src2 : source S2) s2 s2', talks src2 s2 t s2' ->
        read_stream c src2 b s2 n off = (x, s2', b'))
  /\ (forall ok, x = Ok ok -> exists d, t = [AskRead n d ok] /\ src_read src s n = (s', d, ok)).
Proof.
  intros S c src b s n off x s' b' H. unfold read_stream in H.
  destruct (resize c b (off +! n)) as [b1| | | |] eqn:R;
    try (injection H as <- <- <-; exists []; split; [constructor|]; split;
    [ intros S2 src2 s2 s2' T; apply t_nil_inv in T; subst s2'; unfold read_stream; rewrite R; reflexivity
    | discriminate ]; fail).
  destruct (src_read src s n) as [[s1 data] ok] eqn:Q. exists [AskRead n data ok].
  assert (I : s' = s1).
  { destruct (if lenN data =? 0 then Ok (mem b1) else write_cells (mem b1) off (map Some data));
      injection H as _ <- _; reflexivity. }
  subst s1. split; [econstructor; [exact Q|constructor]|]. split.
  - intros S2 src2 s2 s2' T. apply t_read_inv in T. destruct T as [s3 [T1 T]]. apply t_nil_inv in T. subst s2'.
    unfold read_stream. rewrite R, T1.
    destruct (if lenN data =? 0 then Ok (mem b1) else write_cells (mem b1) off (map Some data));
      injection H as <- <-; reflexivity.
  - intros ok' Z. exists data.
    destruct (if lenN data =? 0 then Ok (mem b1) else write_cells (mem b1) off (map Some data));
      injection H as <- _; try discriminate. injection Z as <-. auto.
Qed.

Definition at_source {A B S2} (k : A -> S2 -> B) (x : res A) (s : S2) : res B := y <- x ;; Ok (k y s).

Lemma open_header_talks : forall S c (src : source S) s,
  exists t s', talks src s t s'
  /\ (forall S2 (src2 : source S2) s2 s2', talks src2 s2 t s2' ->
        open_header c src2 s2 = at_source (fun '(h, _, b) z => (h, z, b)) (open_header c src s) s2')
  /\ (forall h z b, open_header c src s = Ok (h, z, b) -> z = s' /\ exists d1 d2 s1,
        t = [AskRead 288 d1 true; AskRead (h_header_length h -! 288) d2 true]
        /\ src_read src s 288 = (s1, d1, true)
        /\ src_read src s1 (h_header_length h -! 288) = (s', d2, true)).
Proof.
  intros S c src s. unfold open_header, check_header, check_header_ctor.
  destruct (read_stream c src empty_mbuf s HEADER_SIZE 0) as [[x s1] b1] eqn:R1.
  destruct (read_stream_talks _ _ _ _ _ _ _ _ _ _ R1) as (t & T & RE & SH).
  destruct x as [[|]| | | |]; cbn [bind];
    try (exists t, s1; split; [exact T|]; split; [|discriminate];
         intros S2 src2 s2 s2' U; rewrite (RE _ _ _ _ U); reflexivity).
  destruct (SH true eq_refl) as [d1 [-> Q1]].
  destruct (check_magic_number b1) eqn:M; cbn [bind];
    try (eexists; eexists; split; [exact T|]; split; [|discriminate];
         intros S2 src2 s2 s2' U; rewrite (RE _ _ _ _ U); cbn [bind]; rewrite M; reflexivity).
  unfold set_aligns_endianness.
  destruct (get_byte b1 32) as [b32| | | |] eqn:G1; cbn [bind];
    try (eexists; eexists; split; [exact T|]; split; [|discriminate];
         intros S2 src2 s2 s2' U; rewrite (RE _ _ _ _ U); cbn [bind]; rewrite M; cbn [bind]; rewrite G1; reflexivity).
  destruct (get_byte b1 35) as [b35| | | |] eqn:G2; cbn [bind];
    try (eexists; eexists; split; [exact T|]; split; [|discriminate];
         intros S2 src2 s2 s2' U; rewrite (RE _ _ _ _ U); cbn [bind]; rewrite M; cbn [bind]; rewrite G1; cbn [bind];
         rewrite G2; reflexivity).
  destruct (get_byte b1 37) as [b37| | | |] eqn:G3; cbn [bind];
    try (eexists; eexists; split; [exact T|]; split; [|discriminate];
         intros S2 src2 s2 s2' U; rewrite (RE _ _ _ _ U); cbn [bind]; rewrite M; cbn [bind]; rewrite G1; cbn [bind];
         rewrite G2; cbn [bind]; rewrite G3; reflexivity).
  set (a1 := if beq b35 x33 then 4 else 0). set (a2 := if beq b32 x33 then 4 else 0).
  set (big := negb (beq b37 x01)). set (is64 := beq b32 x33).
  assert (Z : forall S2 (src2 : source S2) s2 s3, read_stream c src2 empty_mbuf s2 HEADER_SIZE 0 = (Ok true, s3, b1) ->
    (ch <- ('(s', b) <- match read_stream c src2 empty_mbuf s2 HEADER_SIZE 0 with
                        | (Ok true, s'0, b) => Ok (s'0, b)
                        | (Ok false, _, _) => Exn E_header_too_short
                        | (Exn e, _, _) => Exn e
                        | (Abort, _, _) => Abort
                        | (Undef u, _, _) => Undef u
                        | (Fuel, _, _) => Fuel
                        end ;;
            _ <- check_magic_number b ;;
            b0 <- get_byte b 32 ;;
            b2 <- get_byte b 35 ;;
            b3 <- get_byte b 37 ;;
            Ok (CheckHeader s' b (if beq b2 x33 then 4 else 0) (if beq b0 x33 then 4 else 0)
                  (negb (beq b3 x01)) (beq b0 x33))) ;;
     read_header c src2 ch) = read_header c src2 (CheckHeader s3 b1 a1 a2 big is64)).
  { intros S2 src2 s2 s3 K. rewrite K. cbn [bind]. rewrite M. cbn [bind]. rewrite G1. cbn [bind].
    rewrite G2. cbn [bind]. rewrite G3. reflexivity. }
  unfold read_header. cbn [ch_is ch_buf ch_align1 ch_align2 ch_big ch_64].
  set (e := if big then Big else Little). set (f := if is64 then Bit64 else Bit32).
  unfold set_header_length_and_read.
  destruct (get_uint32 e b1 (196 + a1)) as [hl| | | |] eqn:G4; cbn [bind];
    try (eexists; eexists; split; [exact T|]; split; [|discriminate];
         intros S2 src2 s2 s2' U; etransitivity; [exact (Z _ _ _ _ (RE _ _ _ _ U))|]; unfold read_header;
         cbn [ch_is ch_buf ch_align1 ch_align2 ch_big ch_64]; unfold set_header_length_and_read;
         fold e; rewrite G4; reflexivity).
  destruct (fmt_assert c (HEADER_SIZE <=? hl)) eqn:FA; cbn [bind];
    try (eexists; eexists; split; [exact T|]; split; [|discriminate];
         intros S2 src2 s2 s2' U; etransitivity; [exact (Z _ _ _ _ (RE _ _ _ _ U))|]; unfold read_header;
         cbn [ch_is ch_buf ch_align1 ch_align2 ch_big ch_64]; unfold set_header_length_and_read;
         fold e; rewrite G4; cbn [bind]; rewrite FA; reflexivity).
  destruct (read_stream c src b1 s1 (hl -! HEADER_SIZE) HEADER_SIZE) as [[x2 s2] b2] eqn:R2.
  destruct (read_stream_talks _ _ _ _ _ _ _ _ _ _ R2) as (t2 & T2 & RE2 & SH2).
  destruct x2 as [[|]| | | |]; cbn [bind];
    try (exists ([AskRead HEADER_SIZE d1 true] ++ t2), s2; split; [exact (talks_app _ _ _ _ _ _ _ T T2)|];
         split; [|discriminate];
         intros S2 src2 z2 z2' U; apply talks_app_inv in U; destruct U as [z3 [U1 U2]];
         etransitivity; [exact (Z _ _ _ _ (RE _ _ _ _ U1))|]; unfold read_header;
         cbn [ch_is ch_buf ch_align1 ch_align2 ch_big ch_64]; unfold set_header_length_and_read;
         fold e; rewrite G4; cbn [bind]; rewrite FA; cbn [bind]; rewrite (RE2 _ _ _ _ U2); reflexivity).
  exists ([AskRead HEADER_SIZE d1 true] ++ t2), s2. split; [exact (talks_app _ _ _ _ _ _ _ T T2)|].
  split.
  - intros S2 src2 z2 z2' U; apply talks_app_inv in U; destruct U as [z3 [U1 U2]];
         etransitivity; [exact (Z _ _ _ _ (RE _ _ _ _ U1))|]; unfold read_header;
         cbn [ch_is ch_buf ch_align1 ch_align2 ch_big ch_64]; unfold set_header_length_and_read;
         fold e; rewrite G4; cbn [bind]; rewrite FA; cbn [bind]; rewrite (RE2 _ _ _ _ U2); cbn [bind]; fold f.
    destruct (set_header c e f b2 a1 (a1 + a2) hl); reflexivity.
  - intros h z b H. destruct (set_header c e f b2 a1 (a1 + a2) hl) as [h'| | | |] eqn:SHD; try discriminate.
    cbn [bind] in H. injection H as <- <- <-. split; [reflexivity|].
    assert (HL : h_header_length h' = hl).
    { clear -SHD. unfold set_header in SHD. repeat binv SHD. injection SHD as <-. reflexivity. }
    rewrite HL. destruct (SH2 true eq_refl) as [d2 [-> Q2]].
    exists d1, d2, s1. split; [reflexivity|]. split; [exact Q1|exact Q2].
Qed.

Lemma metadata_talks : forall c e f plen fuel S (src : source S) p m,
  exists t s', talks src (ps_is p) t s'
  /\ (forall S2 (src2 : source S2) s2 s2', talks src2 s2 t s2' ->
        metadata_loop c src2 e f plen fuel (moved p s2) m
        = at_source (fun '(p', m') z => (moved p' z, m')) (metadata_loop c src e f plen fuel p m) s2')
  /\ (forall p' m', metadata_loop c src e f plen fuel p m = Ok (p', m') -> ps_is p' = s'
        /\ (good_source src -> plen < W64 -> wf_p p -> m_data_subheaders m = [] ->
              wf_p p' /\ exists g, paging plen g t
              /\ (g = true -> ps_hdr p' = reset_page_header /\ m_data_subheaders m' = []))).
Proof.
  intros c e f plen. induction fuel as [|fuel IH]; intros S src p m.
  { exists [], (ps_is p). split; [constructor|]. split; [|discriminate]. reflexivity. }
  cbn [metadata_loop]. destruct (read_page c src e f plen p) as [y p1] eqn:R.
  assert (HR : y = Ok false -> ps_hdr p1 = reset_page_header).
  { intros ->. unfold read_page in R. destruct (src_eof _ _); [injection R as <-; reflexivity|].
    destruct (read_stream _ _ _ _ _ _) as [[[[|]| | | |] s3] b3]; try discriminate.
    - destruct (get_page_header e f b3); discriminate.
    - destruct (src_eof src s3); [injection R as <-; reflexivity|discriminate]. }
  apply read_page_talks in R. destruct R as (t & g & T & RE & SH).
  destruct y as [[|]| | | |].
  2: { exists t, (ps_is p1). split; [exact T|]. split.
       - intros S2 src2 s2 s2' U. rewrite (RE _ _ _ _ U). reflexivity.
       - intros p' m' Z. injection Z as <- <-. split; [reflexivity|]. intros G L W D.
         destruct (SH G L W) as (A & B & C). split; [exact A|]. exists g. split; [exact B|]. auto. }
  2-5: exists t, (ps_is p1); split; [exact T|]; split; [|discriminate];
       intros S2 src2 s2 s2' U; rewrite (RE _ _ _ _ U); reflexivity.
  destruct (process_page e f (ps_buf p1) (ps_hdr p1) m) as [[m1 stop]| | | |] eqn:PP; cbn [bind];
    try (exists t, (ps_is p1); split; [exact T|]; split; [|discriminate];
         intros S2 src2 s2 s2' U; rewrite (RE _ _ _ _ U); cbn [moved ps_buf ps_hdr]; rewrite PP; reflexivity).
  destruct stop.
  - exists t, (ps_is p1). split; [exact T|]. split.
    + intros S2 src2 s2 s2' U. rewrite (RE _ _ _ _ U). cbn [moved ps_buf ps_hdr]. rewrite PP. reflexivity.
    + intros p' m' Z. injection Z as <- <-. split; [reflexivity|]. intros G L W D.
      destruct (SH G L W) as (A & B & C). split; [exact A|]. exists g. split; [exact B|].
      intros Z. destruct (C Z eq_refl).
  - destruct (IH S src p1 m1) as (t' & s' & T' & RE' & SH').
    exists (t ++ t'), s'. split; [eapply talks_app; eauto|]. split.
    + intros S2 src2 s2 s2' U. apply talks_app_inv in U. destruct U as [s3 [U1 U2]].
      rewrite (RE _ _ _ _ U1). cbn [moved ps_buf ps_hdr]. rewrite PP. cbn [bind].
      exact (RE' _ _ _ _ U2).
    + intros p' m' Z. destruct (SH' _ _ Z) as [Z1 Z2]. split; [exact Z1|]. intros G L W D.
      destruct (SH G L W) as (A & B & C).
      destruct (process_page_found _ _ _ _ _ _ _ D PP) as [X|X]; [discriminate|].
      destruct (Z2 G L A X) as (A' & g' & B' & C'). split; [exact A'|]. exists g'. split; [|exact C'].
      apply paging_app; [|exact B']. destruct g; [destruct (C eq_refl eq_refl)|exact B].
Qed.

Definition r_moved {S1 S2} (r : rstate S1) (s : S2) : rstate S2 := RState (rs_h r) (rs_md r) (d_moved (rs_d r) s).

Lemma open_talks : forall S c (src : source S) flt s,
  exists t s', talks src s t s'
  /\ (forall S2 (src2 : source S2) s2 s2', talks src2 s2 t s2' ->
        open_reader c src2 flt s2
        = at_source (fun '(r, ev) z => (r_moved r z, ev)) (open_reader c src flt s) s2')
  /\ (forall r ev, open_reader c src flt s = Ok (r, ev) -> source_at r = s'
        /\ (good_source src -> exists d1 d2 g t', let h := rs_h r in
              t = AskRead 288 d1 true :: AskRead (h_header_length h -! 288) d2 true :: t'
              /\ lenN d1 = 288 /\ lenN d2 = h_header_length h -! 288
              /\ h_page_length h < W64 /\ wf_p (ds_p (rs_d r))
              /\ paging (h_page_length h) g t' /\ (g = true -> ds_page (rs_d r) = None))).
Proof.
  intros S c src flt s. unfold open_reader.
  destruct (open_header_talks S c src s) as (t & s1 & T & RE & SH).
  destruct (open_header c src s) as [[[h z] b]| | | |] eqn:OH; cbn [bind];
    try (exists t, s1; split; [exact T|]; split; [|discriminate];
         intros S2 src2 s2 s2' U; rewrite (RE _ _ _ _ U); reflexivity).
  destruct (SH _ _ _ eq_refl) as [-> (d1 & d2 & s3 & Et & Q1 & Q2)].
  pose proof (header_room _ _ _ _ _ _ _ OH) as [WB PL].
  unfold set_metadata.
  destruct (metadata_talks c (h_endianness h) (h_format h) (h_page_length h) (page_fuel c) S src
              (PState s1 b reset_page_header) empty_mstate) as (t2 & s2 & T2 & RE2 & SH2).
  cbn [ps_is] in T2. unfold moved at 1 in RE2. cbn [ps_buf ps_hdr] in RE2.
  destruct (metadata_loop c src (h_endianness h) (h_format h) (h_page_length h) (page_fuel c)
              (PState s1 b reset_page_header) empty_mstate) as [[p m]| | | |] eqn:ML; cbn [bind];
    try (exists (t ++ t2), s2; split; [eapply talks_app; eauto|]; split; [|discriminate];
         intros S2 src2 z2 z2' U; apply talks_app_inv in U; destruct U as [z3 [U1 U2]];
         rewrite (RE _ _ _ _ U1); cbn [bind at_source]; rewrite (RE2 _ _ _ _ U2); reflexivity).
  destruct (SH2 _ _ eq_refl) as [I2 W2]. cbn [at_source bind] in RE2.
  exists (t ++ t2), s2. split; [eapply talks_app; eauto|].
  destruct (create_columns c (h_endianness h) flt m) as [md| | | |] eqn:CC; cbn [bind];
    try (split; [|discriminate];
         intros S2 src2 z2 z2' U; apply talks_app_inv in U; destruct U as [z3 [U1 U2]];
         rewrite (RE _ _ _ _ U1); cbn [bind at_source]; rewrite (RE2 _ _ _ _ U2); cbn [bind]; rewrite CC; reflexivity).
  assert (RD : forall S2 (src2 : source S2) z2 z2', talks src2 z2 (t ++ t2) z2' ->
    ('(h0, s0, b0) <- open_header c src2 z2 ;;
     '(p0, md0, dsh0) <- ('(p1, m1) <- metadata_loop c src2 (h_endianness h0) (h_format h0) (h_page_length h0)
                            (page_fuel c) (PState s0 b0 reset_page_header) empty_mstate ;;
                          d <- create_columns c (h_endianness h0) flt m1 ;; Ok (p1, d, m_data_subheaders m1)) ;;
     d <- read_data c h0 md0 p0 dsh0 ;; Ok (RState h0 md0 d, [EvProps h0 md0]))
    = (d <- read_data c h md (moved p z2') (m_data_subheaders m) ;; Ok (RState h md d, [EvProps h md]))).
  { intros S2 src2 z2 z2' U. apply talks_app_inv in U. destruct U as [z3 [U1 U2]].
    rewrite (RE _ _ _ _ U1). cbn [bind at_source]. rewrite (RE2 _ _ _ _ U2). cbn [bind]. rewrite CC. reflexivity. }
  assert (RD2 : forall S2 (z2 : S2), read_data c h md (moved p z2) (m_data_subheaders m)
    = at_source d_moved (read_data c h md p (m_data_subheaders m)) z2).
  { intros S2 z2. unfold read_data. destruct (make_decompressor c (md_compression md) (md_row_length md)); try reflexivity.
    cbn [bind]. destruct (m_data_subheaders m); [|reflexivity]. cbn [moved ps_buf ps_hdr].
    destruct (build_page (h_endianness h) (h_format h) md (ps_buf p) (ps_hdr p)); reflexivity. }
  split.
  - intros S2 src2 z2 z2' U. rewrite (RD _ _ _ _ U), RD2.
    destruct (read_data c h md p (m_data_subheaders m)); reflexivity.
  - intros r ev H. binv H. injection H as <- <-. unfold source_at. cbn [rs_d rs_h].
    assert (DP : ds_p x = p).
    { unfold read_data in E. binv E. destruct (m_data_subheaders m); [|injection E as <-; reflexivity].
      binv E. injection E as <-. reflexivity. }
    rewrite DP. split; [exact I2|]. intros G.
    destruct (W2 G PL WB eq_refl) as (A & g & B & C).
    exists d1, d2, g, t2. cbv zeta. rewrite Et. split; [reflexivity|].
    split; [apply (G _ _ _ _ _ Q1); reflexivity|]. split; [apply (G _ _ _ _ _ Q2); reflexivity|].
    split; [exact PL|]. split; [exact A|]. split; [exact B|].
    intros Z. destruct (C Z) as [C1 C2]. unfold read_data in E. binv E. rewrite C2 in E. binv E.
    injection E as <-. cbn [ds_page]. rewrite C1 in E1. cbn in E1. injection E1 as <-. reflexivity.
Qed.

(** ** C101 *)
Lemma source_asked : forall S c (src : source S) flt s r0 ev ops l r, good_source src ->
  open_reader c src flt s = Ok (r0, ev) -> trace c src ops (Some r0) = (l, Some r) ->
  let h := rs_h r0 in
  exists d1 d2 g t,
    talks src s (AskRead 288 d1 true :: AskRead (h_header_length h -! 288) d2 true :: t) (source_at r)
    /\ lenN d1 = 288 /\ lenN d2 = h_header_length h -! 288
    /\ paging (h_page_length h) g t
    /\ (g = true \/ current_row_index (Some r) = md_row_count (rs_md r0) -> forall o, reader_step c src o (Some r) = (Ok (end_answer o), Some r, end_events o)).
Proof.
  intros S c src flt s r0 ev ops l r G O T h.
  destruct (open_talks S c src flt s) as (t & s' & A & _ & B). destruct (B _ _ O) as [I X]. clear B.
  destruct (X G) as (d1 & d2 & g & t1 & E & L1 & L2 & PL & W & P & N). subst s' t.
  destruct r0 as [h0 md d]. cbn [rs_h rs_d] in *. unfold source_at in *. cbn [rs_d] in *.
  assert (H : history c h0 md ops S src d = (l, rs_d r)).
  { unfold history. rewrite T. reflexivity. }
  destruct (history_talky c h0 md ops S src d l (rs_d r) H) as (t2 & g2 & T2 & _ & C2 & D2).
  destruct (D2 G PL W) as (W2 & P2 & N2).
  exists d1, d2, (orb g g2), (t1 ++ t2). split; [|split; [exact L1|split; [exact L2|split]]].
  - exact (talks_app _ _ _ _ _ _ _ A T2).
  - destruct g; cbn [orb].
    + destruct (C2 (N eq_refl)) as [-> _]. rewrite app_nil_r. exact P.
    + apply paging_app; assumption.
  - intros Z o. destruct (trace_keeps _ _ _ _ _ _ _ _ _ T) as [d' K]. injection K as ->.
    cbn [reader_step]. rewrite ended_step; [reflexivity|]. cbn [rs_d rs_md] in *.
    destruct Z as [Z|Z]; [|left; exact Z]. right. cbn [rs_d].
    destruct g; cbn [orb] in Z; [destruct (C2 (N eq_refl)) as [_ K]; exact K|auto].
Qed.

(** ** C102 *)
Lemma session_answers : forall S c (src : source S) flt s ops,
  exists t s', talks src s t s'
  /\ (forall r0 ev l r, open_reader c src flt s = Ok (r0, ev) ->
        trace c src ops (Some r0) = (l, Some r) -> s' = source_at r)
  /\ forall S2 (src2 : source S2) s2 s2', talks src2 s2 t s2' ->
       session c src2 flt s2 ops = session c src flt s ops.
Proof.
  intros S c src flt s ops.
  destruct (open_talks S c src flt s) as (t & s' & A & RE & B). unfold session.
  destruct (open_reader c src flt s) as [[r0 ev]| | | |] eqn:O;
    try (exists t, s'; split; [exact A|]; split; [discriminate|];
         intros S2 src2 s2 s2' U; rewrite (RE _ _ _ _ U); reflexivity).
  destruct (B _ _ eq_refl) as [I _]. clear B. subst s'.
  destruct r0 as [h md d]. unfold source_at in *. cbn [rs_d] in *.
  destruct (trace c src ops (Some (RState h md d))) as [l r] eqn:T.
  destruct (trace_keeps _ _ _ _ _ _ _ _ _ T) as [d' ->].
  assert (H : history c h md ops S src d = (l, d')) by (unfold history; rewrite T; reflexivity).
  destruct (history_talky c h md ops S src d l d' H) as (t2 & g2 & T2 & RE2 & _).
  exists (t ++ t2), (ps_is (ds_p d')). split; [exact (talks_app _ _ _ _ _ _ _ A T2)|]. split.
  - intros r0 ev' l' r Z1 Z2. injection Z1 as <- <-. rewrite T in Z2. injection Z2 as <- <-. reflexivity.
  - intros S2 src2 s2 s2' U. apply talks_app_inv in U. destruct U as [s3 [U1 U2]].
    rewrite (RE _ _ _ _ U1). cbn [at_source bind r_moved rs_h rs_md rs_d fst].
    pose proof (RE2 _ _ _ _ U2) as K. unfold history in K.
    change (r_moved (RState h md d) s3) with (RState h md (d_moved d s3)).
    destruct (trace c src2 ops (Some (RState h md (d_moved d s3)))) as [l' [r'|]]; injection K as <- _; reflexivity.
Qed.

(** Files with the same beginning. *)
Lemma file_talks_shorter : forall t s s', talks file_source s t s' ->
  (fs_eof s = true -> fs_eof s' = true)
  /\ (lenN (fs_rest s') <= lenN (fs_rest s)).
Proof.
  intros t s s' H. remember file_source as src eqn:E. induction H; subst.
  - split; [auto|lia].
  - exact IHtalks.
  - destruct IHtalks as [A B]. cbn [file_source src_read] in H. unfold file_read in H.
    assert (K : (fs_eof s = true -> fs_eof s1 = true) /\ lenN (fs_rest s1) <= lenN (fs_rest s)).
    { destruct (fs_eof s) eqn:FE; cbn [orb] in H.
      { injection H as <- _ _. cbn. split; [auto|lia]. }
      destruct (fs_fail s); [injection H as <- _ _; cbn; split; [auto|lia]|].
      destruct (_ <=? n); [injection H as <- _ _; cbn; split; [auto|lia]|].
      destruct (n <=? _); injection H as <- _ _; cbn [fs_eof fs_rest]; (split; [discriminate|]).
      - unfold lenN. rewrite skipn_length. lia.
      - unfold lenN. cbn. lia. }
    destruct K as [K1 K2]. split; [auto|lia].
Qed.

Lemma file_talks_same : forall t s s' x z1 z2, talks file_source s t s' ->
  fs_rest s = x ++ z1 -> fs_eof s' = false -> lenN z1 <= lenN (fs_rest s') ->
  exists s2', talks file_source (FState (x ++ z2) (fs_eof s) (fs_fail s)) t s2'.
Proof.
  intros t s s' x z1 z2 H. remember file_source as src eqn:E. revert x.
  induction H; intros x X F L; subst src.
  - eexists. constructor.
  - destruct (IHtalks x X F L) as [s2' K]. exists s2'. apply t_eof; [reflexivity|exact K].
  - pose proof (file_talks_shorter _ _ _ H0) as [M1 M2].
    assert (FE : fs_eof s1 = false) by (destruct (fs_eof s1); [rewrite M1 in F by reflexivity; discriminate|reflexivity]).
    cbn [file_source src_read] in H. unfold file_read in H. rewrite X in H.
    destruct (fs_eof s) eqn:SE; cbn [orb] in H; [injection H as <- _ _; discriminate|].
    destruct (fs_fail s) eqn:SF.
    { injection H as <- <- <-. cbn [fs_rest fs_eof fs_fail] in *.
      destruct (IHtalks x eq_refl F L) as [s2' K]. exists s2'. econstructor; [|exact K]. reflexivity. }
    destruct (2 ^ 63 <=? n) eqn:BIG; [injection H as <- _ _; discriminate|].
    destruct (N.leb_spec n (lenN (x ++ z1))) as [LE|LE]; [|injection H as <- _ _; discriminate].
    injection H as <- <- <-. cbn [fs_rest fs_eof fs_fail] in *.
    assert (NX : n <= lenN x).
    { unfold lenN in *. rewrite skipn_length in M2. rewrite app_length in *. lia. }
    assert (SK : forall z : bytes, skipn (N.to_nat n) (x ++ z) = skipn (N.to_nat n) x ++ z).
    { intros z. rewrite skipn_app. unfold lenN in NX. replace (N.to_nat n - length x)%nat with 0%nat by lia. reflexivity. }
    destruct (IHtalks (skipn (N.to_nat n) x) (SK z1) F L) as [s2' K]. exists s2'.
    econstructor; [|exact K]. cbn [file_source src_read]. unfold file_read. cbn [fs_eof fs_fail fs_rest orb].
    rewrite BIG. destruct (N.leb_spec n (lenN (x ++ z2))) as [LE2|LE2];
      [|exfalso; unfold lenN in *; rewrite app_length in *; lia].
    rewrite SK. f_equal. f_equal. rewrite !firstn_app. unfold lenN in NX.
    replace (N.to_nat n - length x)%nat with 0%nat by lia. reflexivity.
Qed.

Lemma same_beginning : forall c flt a z1 z2 ops r0 ev l r,
  open_reader c file_source flt (file_open (a ++ z1)) = Ok (r0, ev) ->
  trace c file_source ops (Some r0) = (l, Some r) ->
  fs_eof (source_at r) = false -> lenN z1 <= lenN (fs_rest (source_at r)) ->
  session c file_source flt (file_open (a ++ z2)) ops = Ok (ev, l).
Proof.
  intros c flt a z1 z2 ops r0 ev l r O T F L.
  destruct (session_answers _ c file_source flt (file_open (a ++ z1)) ops) as (t & s' & A & B & C).
  rewrite (B _ _ _ _ O T) in A.
  destruct (file_talks_same t _ _ a z1 z2 A eq_refl F L) as [s2' K].
  etransitivity; [exact (C _ _ _ _ K)|]. unfold session. rewrite O, T. reflexivity.
Qed.

(** ** Pages are asked for when they are needed *)

Definition left_d {S} (d : dstate S) : N :=
  match ds_page d with
  | Some pg => match pg_kind pg with
               | PMeta l => lenN l - pg_row pg
               | PRows n _ _ => n - pg_row pg
               end
  | None => 0
  end.

Lemma next_lazy : forall S c (src : source S) h md d x d', 1 <= left_d d ->
  data_next c src h md d = (x, d') -> d' = d.
Proof.
  intros S c src h md d x d' L H. unfold data_next in H. unfold left_d in L.
  destruct (_ =? _); [injection H as _ <-; reflexivity|].
  destruct (ds_page d) as [pg|]; [|injection H as _ <-; reflexivity].
  assert (N : page_next pg = false).
  { unfold page_next. destruct (pg_kind pg); apply N.eqb_neq; lia. }
  rewrite N in H. injection H as _ <-. reflexivity.
Qed.

Lemma add64_le : forall a b, a +! b <= a + b.
Proof. intros a b. unfold add64. apply N.mod_le. unfold W64. discriminate. Qed.

Lemma line_lazy : forall S (d : dstate S) x d', data_read_line d = (x, d') ->
  ds_p d' = ds_p d /\ left_d d - 1 <= left_d d'.
Proof.
  intros S d x d' H. unfold data_read_line in H. unfold left_d.
  destruct (ds_page d) as [pg|] eqn:P; injection H as _ <-; [|rewrite P; split; [reflexivity|lia]].
  cbn [ds_p ds_page page_inc pg_kind pg_row]. split; [reflexivity|].
  pose proof (add64_le (pg_row pg) 1). destruct (pg_kind pg); lia.
Qed.

Lemma extract_lazy : forall S c h md off len (d : dstate S) x d',
  extract_row_values c h md off len d = (x, d') -> ds_p d' = ds_p d /\ ds_page d' = ds_page d.
Proof.
  intros S c h md off len d x d' H. unfold extract_row_values in H.
  destruct (fmt_assert c _); try (injection H as _ <-; auto; fail).
  destruct (len <? md_row_length md); [|injection H as _ <-; auto].
  destruct (ds_dec d) as [|dst|dst]; [injection H as _ <-; auto| |];
    (destruct (read_cells _ _ _) as [w| | | |]; try (injection H as _ <-; auto; fail)).
  - destruct (rdc w dst) as [y dst']. injection H as _ <-. auto.
  - destruct (rle w dst) as [y dst']. injection H as _ <-. auto.
Qed.

Lemma read_line_lazy : forall S c (src : source S) h md d x d', 1 <= left_d d ->
  read_line c src h md d = (x, d') -> ds_p d' = ds_p d /\ left_d d - 1 <= left_d d'.
Proof.
  intros S c src h md d x d' L H. unfold read_line in H.
  destruct (data_next c src h md d) as [y d1] eqn:E. apply next_lazy in E; [|exact L]. subst d1.
  destruct y as [[|]| | | |]; try (injection H as _ <-; split; [reflexivity|lia]).
  destruct (data_read_line d) as [z d2] eqn:E. apply line_lazy in E. destruct E as [E1 E2].
  destruct z as [[off len]| | | |]; try (injection H as _ <-; auto; fail).
  destruct (extract_row_values c h md off len d2) as [w d3] eqn:E. apply extract_lazy in E.
  destruct E as [E3 E4]. injection H as _ <-. unfold left_d in *. rewrite E3, E4. auto.
Qed.

Lemma skip_lazy : forall S c (src : source S) h md n d x d', N.of_nat n <= left_d d ->
  data_skip c src h md n d = (x, d') -> ds_p d' = ds_p d.
Proof.
  intros S c src h md. induction n as [|n IH]; intros d x d' L H; cbn [data_skip] in H.
  { injection H as _ <-. reflexivity. }
  destruct (data_next c src h md d) as [y d1] eqn:E. apply next_lazy in E; [|lia]. subst d1.
  destruct y as [[|]| | | |]; try (injection H as _ <-; reflexivity).
  destruct (data_read_line d) as [z d2] eqn:E. apply line_lazy in E. destruct E as [E1 E2].
  destruct z as [[off len]| | | |]; try (injection H as _ <-; auto; fail).
  rewrite <- E1. eapply IH; [|exact H]. lia.
Qed.

Lemma read_row_lazy : forall S c (src : source S) r x r' ev, 1 <= rows_left r ->
  read_row c src r = (x, r', ev) -> ds_p (rs_d r') = ds_p (rs_d r) /\ rows_left r - 1 <= rows_left r'.
Proof.
  intros S c src r x r' ev L H. unfold read_row in H.
  destruct (read_line c src (rs_h r) (rs_md r) (rs_d r)) as [y d'] eqn:E. apply read_line_lazy in E; [|exact L].
  destruct y as [[p|]| | | |]; injection H as _ <- _; exact E.
Qed.

Lemma read_rows_lazy : forall S c (src : source S) n r x r' ev, N.of_nat n <= rows_left r ->
  read_rows c src n r = (x, r', ev) -> ds_p (rs_d r') = ds_p (rs_d r).
Proof.
  intros S c src. induction n as [|n IH]; intros r x r' ev L H; cbn [read_rows] in H.
  { injection H as _ <- _. reflexivity. }
  destruct (read_row c src r) as [[y r1] ev1] eqn:E. apply read_row_lazy in E; [|lia].
  destruct E as [E1 E2]. destruct y as [[|]| | | |]; try (injection H as _ <- _; exact E1).
  destruct (read_rows c src n r1) as [[z r2] ev2] eqn:E. injection H as _ <- _.
  rewrite <- E1. eapply IH; [|exact E]. lia.
Qed.

Lemma asked_when_needed : forall S c (src : source S) o k r x r' ev, wanted o = Some k ->
  k <= rows_left r -> step c src o r = (x, r', ev) -> source_at r' = source_at r.
Proof.
  intros S c src o k r x r' ev W L H. unfold source_at. f_equal.
  destruct o as [|n| |n| |]; cbn [wanted] in W; try discriminate; injection W as <-; cbn [step] in H.
  - destruct (read_row c src r) as [[y r1] ev1] eqn:E. injection H as _ <- _.
    eapply read_row_lazy; eauto.
  - destruct (read_rows c src (N.to_nat n) r) as [[y r1] ev1] eqn:E. injection H as _ <- _.
    eapply read_rows_lazy; [|exact E]. lia.
  - unfold skip in H. destruct (data_skip c src (rs_h r) (rs_md r) (N.to_nat n) (rs_d r)) as [y d1] eqn:E.
    injection H as _ <- _. cbn [rs_d]. eapply skip_lazy; [|exact E].
    change (left_d (rs_d r)) with (rows_left r). lia.
  - unfold read_row_no_sink in H.
    destruct (read_line c src (rs_h r) (rs_md r) (rs_d r)) as [y d1] eqn:E. injection H as _ <- _. cbn [rs_d].
    eapply read_line_lazy; [|exact E]. exact L.
  - injection H as _ <- _. reflexivity.
Qed.

(** ** Files are read once *)

Lemma file_pieces : forall s t s', talks file_source s t s' -> pieces t ++ fs_rest s' = fs_rest s.
Proof.
  intros s t s' H. induction H as [s|s t s' H IH|s n s1 data ok t s' R H IH]; cbn [pieces]; [reflexivity|exact IH|].
  rewrite <- app_assoc, IH. cbn [file_source src_read] in R. unfold file_read in R.
  destruct (fs_eof s || fs_fail s); [injection R as <- <- _; reflexivity|].
  destruct (2 ^ 63 <=? n); [injection R as <- <- _; reflexivity|].
  destruct (n <=? lenN (fs_rest s)); injection R as <- <- _; cbn [fs_rest].
  - apply firstn_skipn.
  - apply app_nil_r.
Qed.

Lemma paging_lengths : forall plen g t, paging plen g t -> lengths t <= lenN (pieces t) + plen.
Proof.
  intros plen g t H. induction H as [|d e t L H IH| |d b L|]; cbn [lengths pieces]; try lia.
  unfold lenN in *. rewrite app_length. lia.
Qed.

Lemma read_once : forall c flt content r0 ev ops l r,
  open_reader c file_source flt (file_open content) = Ok (r0, ev) ->
  trace c file_source ops (Some r0) = (l, Some r) ->
  exists t, talks file_source (file_open content) t (source_at r)
  /\ pieces t ++ fs_rest (source_at r) = content
  /\ lengths t <= lenN content + h_page_length (rs_h r0).
Proof.
  intros c flt content r0 ev ops l r O T.
  destruct (source_asked _ _ _ _ _ _ _ _ _ _ ProofBuffer.file_source_good O T)
    as (d1 & d2 & g & t & K & L1 & L2 & P & _).
  eexists. split; [exact K|]. pose proof (file_pieces _ _ _ K) as F. cbn [file_open fs_rest] in F.
  split; [exact F|]. cbn [pieces lengths] in *. apply paging_lengths in P.
  rewrite <- F. unfold lenN in *. rewrite !app_length. lia.
Qed.
