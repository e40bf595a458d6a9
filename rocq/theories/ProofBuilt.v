(** Every column of a reader has been made from a stored kind (number or string), its
    length and its format; its bytes are read in the byte order of the file. *)
From Verif Require Import Base Types Float DateTime Buffer Page Header Column Decomp Metadata Data Reader Lemmas
  SpecValues ProofValues SpecReader ProofMetaInv.
Local Open Scope N_scope.

Definition kinds_ok (m : mstate) : Prop :=
  Forall (fun t => t = TNumber \/ t = TString) (m_types m) /\ md_columns (m_md m) = [].

Lemma attrs_kinds : forall e f b fuel off mx acc l,
  Forall (fun t => t = TNumber \/ t = TString) (map snd acc) ->
  attrs_loop e f b fuel off mx acc = Ok l ->
  Forall (fun t => t = TNumber \/ t = TString) (map snd l).
Proof.
  intros e f b. induction fuel as [|fuel IH]; intros off mx acc l A H; cbn [attrs_loop] in H;
    destruct (off <=? mx); try discriminate; try (injection H as <-; exact A).
  do 3 binv H. apply IH in H; [exact H|]. rewrite map_app. apply Forall_app. split; [exact A|].
  constructor; [|constructor]. cbn [snd]. destruct (_ =? 1); auto.
Qed.

Lemma kinds_ok_step : forall e f b m sh m' d, kinds_ok m ->
  process_subheader e f b m sh = Ok (m', d) -> kinds_ok m'.
Proof.
  intros e f b m sh m' d H P. unfold process_subheader in P. binv P.
  destruct (match_signature (ROW_SIZE_SUBHEADER f) x).
  { binv P. injection P as <- _. unfold process_ROW_SIZE in E0. apply (proj1 (noexcept_Ok _ _ _)) in E0.
    do 8 binv E0. injection E0 as <-. exact H. }
  destruct (match_signature (COLUMN_SIZE_SUBHEADER f) x).
  { binv P. injection P as <- _. unfold process_COLUMN_SIZE in E0. apply (proj1 (noexcept_Ok _ _ _)) in E0.
    binv E0. injection E0 as <-. exact H. }
  destruct (match_signature (SUBHEADER_COUNTS_SUBHEADER f) x).
  { injection P as <- _. exact H. }
  destruct (match_signature (COLUMN_TEXT_SUBHEADER f) x).
  { binv P. injection P as <- _. unfold process_COLUMN_TEXT in E0. apply (proj1 (noexcept_Ok _ _ _)) in E0.
    do 2 binv E0. destruct (m_texts m).
    - binv E0. destruct x3.
      + binv E0. injection E0 as <-. exact H.
      + destruct (bytes_eqb _ _).
        * binv E0. injection E0 as <-. exact H.
        * destruct (0 <? md_lcs (m_md m)); [binv E0|]; injection E0 as <-; exact H.
    - injection E0 as <-. exact H. }
  destruct (match_signature (COLUMN_NAME_SUBHEADER f) x).
  { binv P. injection P as <- _. unfold process_COLUMN_NAME in E0. apply (proj1 (noexcept_Ok _ _ _)) in E0.
    binv E0. injection E0 as <-. exact H. }
  destruct (match_signature (COLUMN_ATTRIBUTES_SUBHEADER f) x).
  { binv P. injection P as <- _. unfold process_COLUMN_ATTRIBUTES in E0.
    apply (proj1 (noexcept_Ok _ _ _)) in E0. binv E0. injection E0 as <-.
    destruct H as [H1 H2]. split; [|exact H2]. cbn [m_types]. apply Forall_app. split; [exact H1|].
    apply attrs_kinds in E1; [exact E1|constructor]. }
  destruct (match_signature (FORMAT_AND_LABEL_SUBHEADER f) x).
  { binv P. injection P as <- _. unfold process_FORMAT_AND_LABEL in E0.
    apply (proj1 (noexcept_Ok _ _ _)) in E0. do 7 binv E0. injection E0 as <-. exact H. }
  destruct (match_signature (COLUMN_LIST_SUBHEADER f) x).
  { injection P as <- _. exact H. }
  destruct (data_subheader_check _ _); injection P as <- _; exact H.
Qed.

Lemma create_built : forall e flt m n fuel i acc l,
  Forall (fun t => t = TNumber \/ t = TString) (m_types m) ->
  Forall (fun col => built_column col /\ fm_endian (c_fm col) = e) acc ->
  create_loop e flt m n fuel i acc = Ok l ->
  Forall (fun col => built_column col /\ fm_endian (c_fm col) = e) l.
Proof.
  intros e flt m n. induction fuel as [|fuel IH]; intros i acc l T A H; cbn [create_loop] in H;
    destruct (N.of_nat i <? n); try discriminate; try (injection H as <-; exact A).
  do 6 binv H. apply IH in H; [exact H|exact T|].
  assert (K : x4 = TNumber \/ x4 = TString).
  { unfold at_ in E4. destruct (nth_error (m_types m) i) eqn:N; [|discriminate]. injection E4 as <-.
    apply nth_error_In in N. rewrite Forall_forall in T. exact (T _ N). }
  match goal with |- context [if ?b then _ else _] => destruct b end; [|exact A].
  apply Forall_app. split; [exact A|]. constructor; [|constructor]. split; [|reflexivity].
  exists x4. split; [exact K|reflexivity].
Qed.

Lemma opened_built : forall S c (src : source S) flt s r, opened c src flt s r ->
  Forall (fun col => built_column col /\ fm_endian (c_fm col) = h_endianness (rs_h r)) (md_columns (rs_md r)).
Proof.
  intros S c src flt s r [ev H]. apply open_reader_inv in H.
  destruct H as [s1 [b1 [p [m [_ [H [C _]]]]]]].
  apply (metadata_loop_inv _ kinds_ok) in H; [|apply kinds_ok_step|split; [constructor|reflexivity]].
  destruct H as [H1 H2]. apply create_columns_md in C. destruct C as [cols [-> C]]. cbn [md_columns].
  apply create_built in C; [exact C|exact H1|]. rewrite H2. constructor.
Qed.
