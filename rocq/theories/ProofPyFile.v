From Verif Require Import SpecHeader SpecMeta SpecConform ProofConform.
From Verif Require Import PyObjects Base Lemmas Types Buffer Page Column Header Metadata Decomp Data Reader Drive
  Sinks Callbacks Python SpecUtf8 SpecPyObjects ProofPyObjects SpecReader SpecDrive SpecSinks SpecFile SpecRoundtrip SpecCells SpecTable SpecPython
  ProofValues ProofReader ProofDrive ProofPyChunks ProofCells ProofTable ProofPython.
Local Open Scope N_scope.

Lemma cell_unique : forall c p v w, cell_value c p v -> cell_value c p w -> v = w.
Proof.
  intros c p v w V W. destruct v, w; cbn in V, W; destruct V as [T V], W as [T' W]; congruence.
Qed.

Lemma cell_known : forall c p v, cell_value c p v -> known c = true.
Proof. intros c p v V. unfold known. destruct v; destruct V as [T _]; rewrite T; reflexivity. Qed.

Lemma wanted_filter : forall inc exc c, py_filter inc exc c = true <-> wanted inc exc (c_name c).
Proof.
  intros inc exc c. unfold py_filter, include_exclude_accept, wanted.
  assert (E : forall s, negb (in_set (c_name c) s) = true <-> ~ In (c_name c) s).
  { intros s. rewrite negb_true_iff. apply iff_false, in_set_In. }
  destruct inc as [[|a l]|]; try apply in_set_In; (destruct exc as [[|b m]|]; [tauto|apply E|tauto]).
Qed.

(** A row in the columns which are kept. *)
Lemma shown_kept : forall inc exc cols vs p, shown (Some (py_filter inc exc)) cols vs p ->
  exists vs', kept (wanted inc exc) (map c_name cols) vs vs'
  /\ Forall2 (fun v col => exists x, cell_value col p x /\ value_is v x) vs' (filter (py_filter inc exc) cols).
Proof.
  intros inc exc cols vs p H. unfold shown in H.
  induction H as [|v col vs cols S H (vs' & K & F)]; [exists []; split; constructor|].
  cbn [map filter]. destruct (py_filter inc exc col) eqn:E.
  - exists (v :: vs'). split; [constructor; [apply wanted_filter; exact E|exact K]|].
    constructor; [|exact F]. destruct (S eq_refl) as (S1 & _). exact S1.
  - exists vs'. split; [|exact F]. constructor; [|exact K]. rewrite <- wanted_filter. congruence.
Qed.

Lemma kept_names : forall inc exc cols, kept (wanted inc exc) (map c_name cols) (map c_name cols)
  (map c_name (filter (py_filter inc exc) cols)).
Proof.
  intros inc exc. induction cols as [|c cols IH]; [constructor|]. cbn [map filter].
  destruct (py_filter inc exc c) eqn:E.
  - constructor; [apply wanted_filter; exact E|exact IH].
  - constructor; [|exact IH]. rewrite <- wanted_filter. congruence.
Qed.

Lemma kept_sub : forall A w ns (l l' : list A), kept w ns l l' -> forall a, In a l' -> In a l.
Proof. intros A w ns l l' K. induction K; intros x I; cbn in *; intuition. Qed.

Lemma kept_nodup : forall A w ns (l l' : list A), kept w ns l l' -> NoDup l -> NoDup l'.
Proof.
  intros A w ns l l' K. induction K; intros N; inversion N; subst; [constructor| |auto].
  constructor; [|auto]. intros I. apply H2. apply (kept_sub _ _ _ _ _ K). exact I.
Qed.

Lemma nth_Forall2 : forall A B (R : A -> B -> Prop) l m, Forall2 R l m ->
  forall i a, nth_error l i = Some a -> exists b, nth_error m i = Some b /\ R a b.
Proof.
  intros A B R l m F. induction F as [|x y l m H F IH]; intros [|i] a E; cbn in *; try discriminate; eauto.
  injection E as <-. eauto.
Qed.

Lemma nth_Forall2_r : forall A B (R : A -> B -> Prop) l m, Forall2 R l m ->
  forall i b, nth_error m i = Some b -> exists a, nth_error l i = Some a /\ R a b.
Proof.
  intros A B R l m F. induction F as [|x y l m H F IH]; intros [|i] a E; cbn in *; try discriminate; eauto.
  injection E as <-. eauto.
Qed.

(** The frame of the rows is the frame of the contents. *)
Lemma frame_contents : forall cs rows f contents,
  Forall2 (fun vs r => Forall2 (fun v col => exists x, cell_value col (snd r) x /\ value_is v x) vs cs) contents rows ->
  frame_is cs rows f -> frame_holds (map c_name cs) contents f.
Proof.
  intros cs rows f contents V F. split; [|split].
  - clear V. induction F as [|c col cs f (N & _) F IH]; [reflexivity|]. cbn. rewrite N, IH. reflexivity.
  - apply Forall_forall. intros col I. destruct (In_nth_error _ _ I) as (j & J).
    destruct (nth_Forall2_r _ _ _ _ _ F _ _ J) as (c & _ & _ & L).
    rewrite (Forall2_len _ _ _ _ _ V), <- (Forall2_len _ _ _ _ _ L). reflexivity.
  - intros i j vs v col I J K.
    destruct (nth_Forall2 _ _ _ _ _ V _ _ I) as (r & R & H).
    destruct (nth_Forall2 _ _ _ _ _ H _ _ J) as (c & C & x & X & Y).
    destruct (nth_Forall2 _ _ _ _ _ F _ _ C) as (col' & C' & _ & L).
    rewrite K in C'. injection C' as <-.
    destruct (nth_Forall2 _ _ _ _ _ L _ _ R) as (y & E & v' & CV & ->).
    exists v'. split; [exact E|]. rewrite <- (cell_unique _ _ _ _ X CV). exact Y.
Qed.

Lemma frame_objects : forall cs rows f contents,
  Forall2 (fun vs r => Forall2 (fun v col => exists x, cell_value col (snd r) x /\ value_is v x) vs cs) contents rows ->
  Forall (Forall on_calendar) contents ->
  frame_is cs rows f -> frame_shows (map c_name cs) contents f.
Proof.
  intros cs rows f contents V OC F. destruct (frame_contents _ _ _ _ V F) as (H1 & H2 & _).
  split; [exact H1|]. split; [exact H2|].
  intros i j vs v col I J K.
  destruct (nth_Forall2 _ _ _ _ _ V _ _ I) as (r & R & H).
  destruct (nth_Forall2 _ _ _ _ _ H _ _ J) as (c & C & x & X & Y).
  destruct (nth_Forall2 _ _ _ _ _ F _ _ C) as (col' & C' & _ & L).
  rewrite K in C'. injection C' as <-.
  destruct (nth_Forall2 _ _ _ _ _ L _ _ R) as (y & E & v' & CV & ->).
  rewrite <- (cell_unique _ _ _ _ X CV) in E.
  assert (OV : on_calendar v).
  { rewrite Forall_forall in OC. specialize (OC vs (nth_error_In _ _ I)). rewrite Forall_forall in OC.
    apply OC. apply (nth_error_In _ _ J). }
  destruct (content_object c (snd r) v x OV X Y) as (o & T & B). exists x, o. auto.
Qed.

Lemma holds_calendar : forall c e fields contents file, holds_table c e fields contents file ->
  Forall (Forall on_calendar) contents.
Proof.
  intros c e fields contents file (rows & RO & _). induction RO as [|vs row ct rw R RO IH]; constructor; [|exact IH].
  clear - R. induction R as [|d v fields vs (b & l & a & _ & _ & S) R IH]; constructor; [|exact IH].
  exact (stored_calendar e d v l S).
Qed.

Lemma kept_calendar : forall w ns contents contents', Forall2 (kept w ns) contents contents' ->
  Forall (Forall on_calendar) contents -> Forall (Forall on_calendar) contents'.
Proof.
  intros w ns contents contents' K. induction K as [|vs vs' ct ct' K1 K IH]; intros H; constructor;
    inversion H; subst; auto.
  rewrite Forall_forall in *. intros v I. apply H2. apply (kept_sub _ _ _ _ _ K1 _ I).
Qed.

Lemma holds_count : forall c e fields contents file, holds_table c e fields contents file -> lenN contents < W64.
Proof.
  intros c e fields contents file (rows & RO & H).
  assert (W : forall f, word_limit f <= W64) by (intros []; vm_compute; discriminate).
  assert (B : lenN rows < W64).
  { destruct H as [f sh hlen plen name t <- <- H1 H2 H3 H4|f sh hlen plen name k rl first pages H1 H2 H3 H4|file H _].
    - destruct H2 as (_ & _ & _ & H2 & _). specialize (W f). lia.
    - destruct H2 as (_ & _ & _ & _ & H2 & _). specialize (W f). lia.
    - exact (file_count _ _ _ _ _ H). }
  unfold lenN in *. rewrite (Forall2_len _ _ _ _ _ RO). exact B.
Qed.

Lemma kept_rows : forall inc exc cols contents rows,
  Forall2 (fun vs (r : N * pview) => shown (Some (py_filter inc exc)) cols vs (snd r)) contents rows ->
  exists contents', Forall2 (kept (wanted inc exc) (map c_name cols)) contents contents'
  /\ Forall2 (fun vs r => Forall2 (fun v col => exists x, cell_value col (snd r) x /\ value_is v x) vs
                (filter (py_filter inc exc) cols)) contents' rows.
Proof.
  intros inc exc cols contents rows H. induction H as [|vs r contents rows S H (cs & K & F)].
  - exists []. split; constructor.
  - destruct (shown_kept _ _ _ _ _ S) as (vs' & K1 & F1). exists (vs' :: cs). split; constructor; assumption.
Qed.

Lemma read_objects : forall c cls size inc exc e fields contents file, holds_table c e fields contents file ->
  NoDup (map fd_name fields) -> Forall (fun n => wanted inc exc n -> utf8_text n) (map fd_name fields) ->
  contents <> [] ->
  exists p f names contents', read_sas c file_source cls size inc exc (file_open file) = (Ok tt, p)
    /\ fst (py_df cls p) = Ok (Some f)
    /\ kept (wanted inc exc) (map fd_name fields) (map fd_name fields) names
    /\ Forall2 (kept (wanted inc exc) (map fd_name fields)) contents contents'
    /\ frame_holds names contents' f /\ frame_shows names contents' f.
Proof.
  intros c cls size inc exc e fields contents file H ND UT NE.
  destruct (file_back c (Some (py_filter inc exc)) e fields contents file H) as (r & cols & evs & O & MC & CF & TR & EV).
  pose proof (names_fields e fields cols CF) as NF. unfold names_of in NF.
  destruct EV as (rows & -> & _ & SH).
  destruct (kept_rows _ _ _ _ _ SH) as (contents' & K & V).
  pose proof (kept_names inc exc cols) as KN. rewrite NF in K, KN.
  assert (LR : length contents' = length rows) by (eapply Forall2_len; exact V).
  assert (RN : rows <> []).
  { intros E. subst rows. inversion SH; subst. contradiction. }
  assert (NA : named (md_columns (rs_md r))).
  { rewrite MC. split.
    - destruct V as [|vs0 r0 ct rw V0 _]; [contradiction|]. clear - V0.
      induction V0 as [|v col vs cs (x & X & _) V0 IH]; constructor; [eapply cell_known; exact X|exact IH].
    - split; [eapply kept_nodup; [exact KN|exact ND]|].
      apply Forall_forall. intros col I. apply filter_In in I. destruct I as [I W].
      rewrite Forall_forall in UT. apply UT; [|apply wanted_filter; exact W].
      rewrite <- NF. apply in_map. exact I. }
  assert (OC : Forall (Forall on_calendar) contents').
  { eapply kept_calendar; [exact K|]. eapply holds_calendar. exact H. }
  assert (RD : showable (md_columns (rs_md r)) rows).
  { rewrite MC. clear - V OC.
    induction V as [|vs r0 ct rw V0 V IH]; constructor; inversion OC as [|? ? O1 O2]; subst; [|exact (IH O2)].
    clear - V0 O1. induction V0 as [|v col vs cs (x & X & Y) V0 IH]; constructor;
      inversion O1 as [|? ? O2 O3]; subst; [|exact (IH O3)].
    intros _. exists x. split; [exact X|]. eapply content_calendar; eassumption. }
  assert (LN : lenN rows < W64).
  { pose proof (holds_count _ _ _ _ _ H) as B. unfold lenN in *. rewrite <- (Forall2_len _ _ _ _ _ SH). exact B. }
  assert (RA : exists r1, read_all c file_source r = (Ok tt, r1, SpecSinks.pushes rows ++ [EvEnd])).
  { cbn [trace reader_step step] in TR. unfold reader_step, step in TR.
    destruct (read_all c file_source r) as [[x r1] ev] eqn:RA. destruct x; cbn in TR; try discriminate TR.
    - injection TR as TR. subst ev. exists r1. destruct a. reflexivity.
     }
  destruct RA as (r1 & RA).
  destruct (read_sas_frame _ _ _ cls size inc exc _ _ _ _ _ O RA NA RD LN) as (p & f & RS & FI & DF & _).
  exists p, f, (map c_name (filter (py_filter inc exc) cols)), contents'.
  split; [exact RS|]. split.
  { rewrite DF. destruct cls, rows; try reflexivity; contradiction. }
  split; [exact KN|]. split; [exact K|].
  assert (FR : frame_is (filter (py_filter inc exc) cols) rows f) by (rewrite <- MC; apply FI; left; exact RN).
  split; [apply (frame_contents _ rows)|apply (frame_objects _ rows)]; assumption.
Qed.

Lemma read_file : forall c cls size inc exc e fields contents file, holds_table c e fields contents file ->
  NoDup (map fd_name fields) -> Forall (fun n => wanted inc exc n -> utf8_text n) (map fd_name fields) ->
  contents <> [] ->
  exists p f names contents', read_sas c file_source cls size inc exc (file_open file) = (Ok tt, p)
    /\ fst (py_df cls p) = Ok (Some f)
    /\ kept (wanted inc exc) (map fd_name fields) (map fd_name fields) names
    /\ Forall2 (kept (wanted inc exc) (map fd_name fields)) contents contents'
    /\ frame_holds names contents' f.
Proof.
  intros c cls size inc exc e fields contents file H ND UT NE.
  destruct (read_objects c cls size inc exc e fields contents file H ND UT NE) as (p & f & ns & ct & A & B & C & D & E & _).
  exists p, f, ns, ct. auto.
Qed.

Lemma read_shown : forall c cls size inc exc e fields contents file, holds_table c e fields contents file ->
  NoDup (map fd_name fields) -> Forall (fun n => wanted inc exc n -> utf8_text n) (map fd_name fields) ->
  contents <> [] ->
  exists p f names contents', read_sas c file_source cls size inc exc (file_open file) = (Ok tt, p)
    /\ fst (py_df cls p) = Ok (Some f)
    /\ kept (wanted inc exc) (map fd_name fields) (map fd_name fields) names
    /\ Forall2 (kept (wanted inc exc) (map fd_name fields)) contents contents'
    /\ frame_shows names contents' f.
Proof.
  intros c cls size inc exc e fields contents file H ND UT NE.
  destruct (read_objects c cls size inc exc e fields contents file H ND UT NE) as (p & f & ns & ct & A & B & C & D & _ & E).
  exists p, f, ns, ct. auto.
Qed.
