(** The arguments of read_sas in R. *)
From Verif Require Import Base Types Buffer Page Header Column Metadata Decomp Data Reader Drive Sinks
  Callbacks RPackage Cli PyArgs RArgs Lemmas SpecDecomp SpecReader SpecDrive SpecSinks SpecCallbacks
  SpecFile SpecRoundtrip SpecCells SpecTable SpecPython SpecRPackage SpecPyArgs SpecRArgs ProofPyArgs ProofRFile.
Local Open Scope N_scope.

Lemma r_set_names : forall fault arg l, r_names arg l -> r_list_to_set fault arg = Ok l.
Proof.
  intros fault arg l [|k]; cbn [r_list_to_set]; [reflexivity|]. rewrite map_map. cbn [r_string].
  rewrite map_id. reflexivity.
Qed.

Lemma r_mentioned : forall arg l n, r_names arg l -> (In n l <-> r_mentions arg n).
Proof.
  intros arg l n [|k].
  - split; [intros []|]. intros (l' & E & _). discriminate E.
  - split.
    + intros I. exists (map Some k). split; [reflexivity|]. apply in_map. exact I.
    + intros (l' & E & I). injection E as <-. apply in_map_iff in I. destruct I as (m & E & I).
      injection E as ->. exact I.
Qed.

Lemma r_empty : forall arg l, r_names arg l -> (l = [] <-> r_without arg).
Proof.
  intros arg l [|k]; unfold r_without; [split; auto|]. split.
  - intros ->. right. reflexivity.
  - intros [E|E]; [discriminate E|]. injection E as E. apply map_eq_nil in E. exact E.
Qed.

Lemma r_wanted_chosen : forall inc exc li le n, r_names inc li -> r_names exc le ->
  (wanted (Some li) (Some le) n <-> r_chosen inc exc n).
Proof.
  intros inc exc li le n I E. unfold r_chosen.
  rewrite <- (r_mentioned _ _ n I), <- (r_mentioned _ _ n E), <- (r_empty _ _ I).
  unfold wanted. destruct li as [|x li].
  - destruct le as [|y le]; cbn [In]; intuition congruence.
  - split; [intros H; left; split; [discriminate|exact H]|]. intros [[_ H]|[H _]]; [exact H|discriminate H].
Qed.

Lemma r_arguments_read : forall c first fs mk cls size file inc exc content li le,
  r_file_for fs file content -> r_names inc li -> r_names exc le ->
  r_read_args c first fs mk cls size file inc exc
  = r_read c file_source mk cls size (Some li) (Some le) (file_open content).
Proof.
  intros c first fs mk cls size file inc exc content li le (name & -> & Z & H) LI LE.
  unfold r_read_args. cbn [r_file_name bind r_string]. unfold r_source_and_filter, open_file, r_filter_args.
  rewrite (c_string_until name name) by (split; [exact Z|left; reflexivity]).
  rewrite (has_file_get _ _ _ H), (r_set_names _ _ _ LI), (r_set_names _ _ _ LE).
  destruct first; reflexivity.
Qed.

Lemma r_arguments_table : forall c first fs mk size file inc exc li le e fields contents content,
  r_file_for fs file content -> r_names inc li -> r_names exc le ->
  holds_table c e fields contents content -> contents <> [] -> lenN contents <= r_rows_limit ->
  exists p f js, r_read_args c first fs mk RSinkWholeData size file inc exc = (Ok tt, p)
    /\ r_df p = Some f
    /\ NoDup js
    /\ (forall j, In j js <-> exists d, nth_error fields j = Some d /\ r_chosen inc exc (fd_name d))
    /\ Forall2 (r_column_is fields contents) js f.
Proof.
  intros c first fs mk size file inc exc li le e fields contents content F LI LE H NE LN.
  rewrite (r_arguments_read c first fs mk RSinkWholeData size file inc exc content li le F LI LE).
  destruct (r_read_file c mk size (Some li) (Some le) e fields contents content H NE LN)
    as (p & f & js & R & D & ND & J & C).
  exists p, f, js. split; [exact R|]. split; [exact D|]. split; [exact ND|]. split; [|exact C].
  intros j. rewrite J. split; intros (d & N & W); exists d; (split; [exact N|]);
    apply (r_wanted_chosen inc exc li le _ LI LE); exact W.
Qed.

Lemma r_wrong : forall c first fs mk cls size name inc exc,
  ~ In x00 name -> inc = RArgOther \/ exc = RArgOther ->
  exists e, r_read_args c first fs mk cls size (RArgChars [Some name]) inc exc = (Exn e, r_nothing)
  /\ ((e = E_r_include /\ inc = RArgOther) \/ (e = E_r_exclude /\ inc <> RArgOther /\ exc = RArgOther)
      \/ (first = false /\ e = E_not_a_valid_file /\ forall content, ~ has_file fs name content)).
Proof.
  intros c first fs mk cls size name inc exc Z W.
  unfold r_read_args. cbn [r_file_name bind r_string]. unfold r_source_and_filter, open_file.
  rewrite (c_string_until name name) by (split; [exact Z|left; reflexivity]).
  assert (F : exists e, r_filter_args inc exc = Exn e
    /\ ((e = E_r_include /\ inc = RArgOther) \/ (e = E_r_exclude /\ inc <> RArgOther /\ exc = RArgOther))).
  { unfold r_filter_args. destruct inc as [|l|]; cbn [r_list_to_set bind].
    - destruct W as [W|W]; [discriminate W|]. subst exc. exists E_r_exclude. split; [reflexivity|]. right.
      split; [reflexivity|]. split; [discriminate|reflexivity].
    - destruct W as [W|W]; [discriminate W|]. subst exc. exists E_r_exclude. split; [reflexivity|]. right.
      split; [reflexivity|]. split; [discriminate|reflexivity].
    - exists E_r_include. auto. }
  destruct F as (e & F & K). rewrite F. destruct first; cbn [bind]; [exists e; split; [reflexivity|tauto]|].
  destruct (fs_get fs name) as [content|] eqn:G; cbn [bind]; [exists e; split; [reflexivity|tauto]|].
  exists E_not_a_valid_file. split; [reflexivity|]. right. right. split; [reflexivity|]. split; [reflexivity|].
  intros content H. apply has_file_get in H. congruence.
Qed.
