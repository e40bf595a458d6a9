(** The arguments of read_sas in R (C104). *)
From Verif Require Import Base Types Buffer Page Column Header Metadata Decomp Data Reader Drive Sinks
  Callbacks RPackage Cli PyArgs RArgs SpecDecomp SpecReader SpecDrive SpecSinks SpecCallbacks SpecFile SpecRoundtrip
  SpecCells SpecTable SpecPython SpecRPackage SpecPyArgs SpecRArgs Samples ProofRArgs PropSinks PropCells PropRPackage.
Local Open Scope N_scope.

(** C104.  read_sas(file, include, exclude) in R: df is the table of the chosen columns. *)
Theorem C104_table_partial : forall c first fs mk size file inc exc li le e fields contents content,
  r_file_for fs file content -> r_names inc li -> r_names exc le ->
  holds_table c e fields contents content -> contents <> [] -> lenN contents <= r_rows_limit ->
  exists p f js, r_read_args c first fs mk RSinkWholeData size file inc exc = (Ok tt, p)
    /\ r_df p = Some f
    /\ NoDup js
    /\ (forall j, In j js <-> exists d, nth_error fields j = Some d /\ r_chosen inc exc (fd_name d))
    /\ Forall2 (r_column_is fields contents) js f.
Proof. exact r_arguments_table. Qed.
Print Assumptions C104_table_partial.

(** With something else than NULL or a character vector nothing is read and the sink object is
    told nothing. *)
Theorem C104_wrong : forall c first fs mk cls size name inc exc,
  ~ In x00 name -> inc = RArgOther \/ exc = RArgOther ->
  exists e, r_read_args c first fs mk cls size (RArgChars [Some name]) inc exc = (Exn e, r_nothing)
  /\ ((e = E_r_include /\ inc = RArgOther) \/ (e = E_r_exclude /\ inc <> RArgOther /\ exc = RArgOther)
      \/ (first = false /\ e = E_not_a_valid_file /\ forall content, ~ has_file fs name content)).
Proof. exact r_wrong. Qed.
Print Assumptions C104_wrong.

(** A table with a column called NA. *)
Definition regions : list field_desc :=
  [FieldDesc (bs "EU") [] [] 0 2 false; FieldDesc (bs "NA") [] [] 2 2 false].
Definition regions_file : bytes := file_bytes Big Bit32 false 320 800 (bs "REGIONS") (Table regions 4 [bs "abcd"] []).

Definition r_with (first : bool) (fs : fsys) (file inc exc : rarg) : res (list bytes) :=
  match r_read_args sample_cfg first fs (fun l => l) RSinkWholeData 0 file inc exc with
  | (Ok _, p) => Ok (match r_df p with Some f => map fst f | None => [] end)
  | (Exn e, _) => Exn e
  | (Abort, _) => Abort
  | (Undef u, _) => Undef u
  | (Fuel, _) => Fuel
  end.

Definition r_files : fsys := [(bs "a", sample_file); (bs "r", regions_file)].

Example C104_hypotheses : r_file_for r_files (RArgChars [Some (bs "r")]) regions_file
  /\ r_names (RArgChars [Some (bs "EU"); Some (bs "ID")]) [bs "EU"; bs "ID"] /\ r_names RArgNull [].
Proof.
  split.
  - exists (bs "r"). split; [reflexivity|]. split; [cbn; intuition discriminate|].
    exists [(bs "a", sample_file)], []. split; [reflexivity|]. cbn. intuition discriminate.
  - split; [apply (r_names_chars [bs "EU"; bs "ID"])|constructor].
Qed.

Example C104_case : forall first, let name n := RArgChars [Some n] in
  r_with first r_files (name (bs "a")) RArgNull RArgNull = Ok [bs "ID"; bs "NAME"]
  /\ r_with first r_files (name (bs "a")) (RArgChars [Some (bs "NAME"); Some (bs "X")]) RArgNull = Ok [bs "NAME"]
  /\ r_with first r_files (name (bs "a")) (RArgChars []) (RArgChars [Some (bs "ID")]) = Ok [bs "NAME"]
  /\ r_with first r_files (name (bs "a")) RArgNull RArgOther = Exn E_r_exclude
  /\ r_with first r_files (name (bs "b")) RArgNull RArgNull = Exn E_not_a_valid_file.
Proof. intros []; vm_compute; auto 10. Qed.

(** False: NA is no name.  It is taken as the text "NA", and chooses the column called so. *)
Theorem C104_na_refuted : exists file, forall first,
  r_with first [(bs "r", file)] (RArgChars [Some (bs "r")]) (RArgChars [None]) RArgNull = Ok [bs "NA"]
  /\ r_with first [(bs "r", file)] (RArgChars [Some (bs "r")]) RArgNull (RArgChars [None]) = Ok [bs "EU"]
  /\ r_with first [(bs "NA", file)] (RArgChars [None]) RArgNull RArgNull = Ok [bs "EU"; bs "NA"].
Proof. exists regions_file. intros []; vm_compute; auto. Qed.
Print Assumptions C104_na_refuted.
