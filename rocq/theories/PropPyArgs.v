(** The arguments of read_sas in Python (C103). *)
From Verif Require Import PyObjects Base Types Buffer Page Column Header Metadata Decomp Data Reader Drive Sinks
  Utf8 Callbacks Python Cli PyArgs SpecDecomp SpecReader SpecDrive SpecSinks SpecCallbacks SpecFile SpecRoundtrip
  SpecCells SpecTable SpecUtf8 SpecPyObjects SpecPython SpecPyArgs Samples
  ProofUtf8 ProofFileCheck ProofPython ProofPyFile ProofPyArgs PropSinks PropCells PropPython.
Local Open Scope N_scope.

(** C103.  read_sas(file, sink, include, exclude): with the file found and good arguments, df
    is the table of the chosen columns; whichever of the source and the filter is made first. *)
Theorem C103_table_partial : forall c first fs cls size n file inc exc li le e fields contents content,
  file_for fs file content -> good_size size n -> arg_names inc li -> arg_names exc le ->
  holds_table c e fields contents content -> NoDup (map fd_name fields) ->
  Forall (fun n => chosen inc exc n -> utf8_text n) (map fd_name fields) -> contents <> [] ->
  exists p f names contents', py_read c first fs cls size file inc exc = (Ok tt, p)
    /\ fst (py_df cls p) = Ok (Some f)
    /\ kept (chosen inc exc) (map fd_name fields) (map fd_name fields) names
    /\ Forall2 (kept (chosen inc exc) (map fd_name fields)) contents contents'
    /\ frame_holds names contents' f.
Proof. exact arguments_table. Qed.
Print Assumptions C103_table_partial.

(** A column whose name is the text [t] is chosen by a list of texts exactly when [t] is one of
    them, whatever exclude is: neither order nor repetition counts. *)
Theorem C103_texts : forall texts t n exc, text_bytes t n -> Forall (Forall character) texts -> texts <> [] ->
  (chosen (ArgList (map ItemStr texts)) exc n <-> In t texts).
Proof. exact texts_choose. Qed.
Print Assumptions C103_texts.

(** The outcome of every pair of arguments; the first one is looked at first. *)
Theorem C103_arguments : forall inc exc,
  (forall li le, arg_names inc li -> arg_names exc le -> py_filter_args inc exc = Ok (li, le))
  /\ (inc = ArgOther -> py_filter_args inc exc = Exn E_include_list)
  /\ (forall items, inc = ArgList items -> bad_element items -> py_filter_args inc exc = Exn E_include_element)
  /\ (forall li, arg_names inc li ->
      (exc = ArgOther -> py_filter_args inc exc = Exn E_exclude_list)
      /\ forall items, exc = ArgList items -> bad_element items -> py_filter_args inc exc = Exn E_exclude_element).
Proof. exact filter_arguments. Qed.
Print Assumptions C103_arguments.

(** With a wrong argument nothing is read and the sink object is told nothing: RuntimeError, or
    the exception of a missing file when the source is made first. *)
Theorem C103_wrong : forall c first fs cls size n file name inc exc,
  item_name file name -> good_size size n ->
  ((forall l, ~ arg_names inc l) \/ (forall l, ~ arg_names exc l)) ->
  exists e, py_read c first fs cls size file inc exc = (Exn e, py_nothing)
  /\ (fault_of e \/ first = false /\ e = E_not_a_valid_file /\ forall content, ~ file_for fs file content).
Proof. exact wrong_arguments. Qed.
Print Assumptions C103_wrong.

Theorem C103_missing : forall c first fs cls size n file name inc exc li le,
  item_name file name -> good_size size n -> arg_names inc li -> arg_names exc le ->
  (forall content, ~ file_for fs file content) ->
  py_read c first fs cls size file inc exc = (Exn E_not_a_valid_file, py_nothing).
Proof. exact missing_file. Qed.
Print Assumptions C103_missing.

(** Two files; the names "a.sas7bdat" and, with an accent, "e" (two bytes in UTF-8). *)
Definition two_files : fsys := [(bs "a.sas7bdat", sample_file); ([xc3; xa9], phones_file)].
Definition str (s : bytes) : pyitem := ItemStr (map b2n s).

Definition df_with (first : bool) (file : pyitem) (inc exc : pyarg) : res (option frame) :=
  match py_read sample_cfg first two_files SinkByChunk (SizeInt 4) file inc exc with
  | (Ok _, p) => fst (py_df SinkByChunk p)
  | (Exn e, _) => Exn e
  | (Abort, _) => Abort
  | (Undef u, _) => Undef u
  | (Fuel, _) => Fuel
  end.
Definition names_in (x : res (option frame)) : res (list bytes) :=
  rmap (fun o => match o with Some f => map fst f | None => [] end) x.

Example C103_hypotheses : file_for two_files (str (bs "a.sas7bdat")) sample_file
  /\ file_for two_files (ItemStr [0xE9]) phones_file
  /\ good_size (SizeInt 4) 4
  /\ arg_names (ArgList [str (bs "NAME"); ItemBytes (bs "x")]) [bs "NAME"; bs "x"]
  /\ bad_element [str (bs "NAME"); ItemOther] /\ bad_element [ItemStr [0xD800]]
  /\ text_bytes [0x54; 0xE9] [x54; xc3; xa9].
Proof.
  assert (A : forall u, u < 0x80 -> character u) by (intros u H; left; lia).
  split.
  { exists (bs "a.sas7bdat"), (bs "a.sas7bdat"). split.
    - apply name_text. split; [repeat constructor; left; vm_compute; reflexivity|reflexivity].
    - split; [split; [cbn; intuition discriminate|left; reflexivity]|].
      exists [], [([xc3; xa9], phones_file)]. split; [reflexivity|intros []]. }
  split.
  { exists [xc3; xa9], [xc3; xa9]. split.
    - apply name_text. split; [repeat constructor; left; lia|reflexivity].
    - split; [split; [cbn; intuition discriminate|left; reflexivity]|].
      exists [(bs "a.sas7bdat", sample_file)], []. split; [reflexivity|]. cbn. intuition discriminate. }
  split; [split; reflexivity|]. split.
  { constructor. constructor; [|constructor; [|constructor]].
    - apply name_text. split; [repeat constructor; left; vm_compute; reflexivity|reflexivity].
    - apply name_bytes. }
  split; [exists ItemOther; split; [right; left; reflexivity|intros n H; inversion H]|].
  split.
  { exists (ItemStr [0xD800]). split; [left; reflexivity|]. intros n H. inversion H as [? ? [F _]|]; subst.
    inversion F as [|? ? C]; subst. unfold character in C. lia. }
  split; [repeat constructor; left; lia|reflexivity].
Qed.

Example C103_case : forall first,
  names_in (df_with first (str (bs "a.sas7bdat")) ArgNone ArgNone) = Ok [bs "ID"; bs "NAME"]
  /\ names_in (df_with first (str (bs "a.sas7bdat")) (ArgList [str (bs "NAME"); str (bs "X"); str (bs "NAME")]) ArgNone)
     = Ok [bs "NAME"]
  /\ names_in (df_with first (str (bs "a.sas7bdat")) (ArgList []) (ArgList [ItemBytes (bs "ID")])) = Ok [bs "NAME"]
  /\ df_with first (str (bs "a.sas7bdat")) ArgOther (ArgList [ItemOther]) = Exn E_include_list
  /\ df_with first (str (bs "a.sas7bdat")) ArgNone (ArgList [str (bs "ID"); ItemOther]) = Exn E_exclude_element
  /\ df_with first (str (bs "b.sas7bdat")) ArgNone ArgNone = Exn E_not_a_valid_file
  /\ df_with first ItemOther ArgNone ArgNone = Exn E_type_error.
Proof. intros []; vm_compute; repeat split; reflexivity. Qed.

(** False: a column which has no name in UTF-8 can be excluded by the text of its name.  The
    file is then not read; it is when the bytes of the name are given. *)
Theorem C103_latin_refuted : exists fields contents file,
  holds_table sample_cfg Big fields contents file
  /\ map fd_name fields = [[x54; xe9; x6c]; bs "B"] (* in Latin-1 *)
  /\ (forall first, fst (py_read sample_cfg first [(bs "f", file)] SinkByRow SizeOther (str (bs "f")) ArgNone
                          (ArgList [ItemStr [0x54; 0xE9; 0x6C]])) = Exn E_unicode_error)
  /\ (forall first, fst (py_read sample_cfg first [(bs "f", file)] SinkByRow SizeOther (str (bs "f")) ArgNone
                          (ArgList [ItemBytes [x54; xe9; x6c]])) = Ok tt).
Proof.
  exists phones, [[Text (bs "ab"); Text (bs "cd")]], phones_file. split; [apply phones_holds|].
  split; [reflexivity|]. split; intros []; vm_compute; reflexivity.
Qed.
Print Assumptions C103_latin_refuted.

(** False: what is read is the file called like that.  A name with a zero character is cut there. *)
Theorem C103_name_refuted : exists fs name file,
  ~ In name (map fst fs) /\ In file (map snd fs)
  /\ forall first cls, fst (py_read sample_cfg first fs cls (SizeInt 4) (ItemBytes name) ArgNone ArgNone) = Ok tt.
Proof.
  exists [(bs "f", sample_file)], (bs "f" ++ [x00] ++ bs "g"), sample_file.
  split; [cbn; intuition discriminate|]. split; [left; reflexivity|].
  intros [] []; vm_compute; reflexivity.
Qed.
Print Assumptions C103_name_refuted.
