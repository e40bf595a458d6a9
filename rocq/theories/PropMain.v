(** The command line program over a list of files (C105). *)
From Verif Require Import Base Types Buffer Header Column Metadata Reader Sinks Callbacks Cli Main
  SpecDecomp SpecNumber SpecValues SpecFile SpecRoundtrip SpecCells SpecTable SpecMain Samples ProofMain PropCells.
Local Open Scope N_scope.

(** C105.  Files which hold tables, or which cannot be opened: the texts of the tables in
    the order of the arguments, each with the first rows that are asked for, up to the
    first file which cannot be opened or the first cell without a text; there the process
    is terminated (or, for a missing time, is undefined).  No file is changed.  The full
    statement shows each file that can be read, whatever the others are. *)
Theorem C105_print_partial : forall c props sink_first nlines fs files out, max_alloc c < row_limit ->
  Forall (table_or_refused c fs) files ->
  exists text en x, shows c props nlines fs files text en
    /\ run_main c props sink_first (CmdPrint nlines) files (World fs out) = (x, World fs (out ++ text))
    /\ process_ends en x.
Proof. exact main_printed. Qed.
Print Assumptions C105_print_partial.

Definition folder : fsys := [(bs "ann", ann_file); (bs "people", people_file); (bs "note", bs "hello")].

Lemma folder_files : Forall (table_or_refused sample_cfg folder) [bs "ann"; bs "people"; bs "note"; bs "none"].
Proof.
  assert (NB : Forall (fun d => ~ In x7b (fd_name d) /\ ~ In x7d (fd_name d)) people) by apply C75_case.
  constructor; [|constructor; [|constructor; [|constructor; [|constructor]]]].
  - left. exists ann_file, people, [ann]. split; [vm_compute; reflexivity|].
    split; [exists Big; apply C75_case|exact NB].
  - left. exists people_file, people, [ann; nobody]. split; [vm_compute; reflexivity|].
    split; [exists Big; apply C73_case|exact NB].
  - right. right. exists (bs "hello"). eexists. split; [vm_compute; reflexivity|vm_compute; reflexivity].
  - right. left. vm_compute. reflexivity.
Qed.

Definition names_line : bytes := bs "#,NAME,AGE,PAY,BORN,SEEN,AT,RATE" ++ [x0a].
Definition ann_line : bytes :=
  bs "0,Ann,-3,1.500000,1960-01-02,1960-01-02 00:00:00.250000,00:00:00.100000,1.500000" ++ [x0a].

(** One row of each of three files; without --nlines the second file, in which a date is
    missing, ends the process. *)
Example C105_case :
  run_main sample_cfg (fun _ _ => bs "P") false (CmdPrint (Some 1%Z)) [bs "people"; bs "ann"; bs "people"] (World folder [])
  = (Ok tt, World folder (bs "P" ++ names_line ++ ann_line ++ bs "P" ++ names_line ++ ann_line ++ bs "P" ++ names_line ++ ann_line))
  /\ run_main sample_cfg (fun _ _ => bs "P") false (CmdPrint None) [bs "ann"; bs "people"; bs "ann"] (World folder [])
     = (Abort, World folder (bs "P" ++ names_line ++ ann_line ++ bs "P" ++ names_line ++ ann_line ++ bs "1,,7,nan"))
  /\ run_main sample_cfg (fun _ _ => bs "P") false (CmdPrint (Some 0%Z)) [bs "ann"; bs "note"; bs "ann"] (World folder [])
     = (Abort, World folder (bs "P" ++ names_line)).
Proof. vm_compute. auto. Qed.

(** False: each file which can be printed is printed; not after one which cannot. *)
Theorem C105_each_file_refuted : exists c props fs files good text, In good files
  /\ fst (run_main c props false (CmdPrint None) [good] (World fs [])) = Ok tt
  /\ w_out (snd (run_main c props false (CmdPrint None) [good] (World fs []))) = text /\ text <> []
  /\ Forall (table_or_refused c fs) files
  /\ run_main c props false (CmdPrint None) files (World fs []) = (Abort, World fs []).
Proof.
  exists sample_cfg, (fun _ _ => []), folder, [bs "none"; bs "ann"], (bs "ann"). eexists.
  split; [right; left; reflexivity|]. split; [vm_compute; reflexivity|]. split; [vm_compute; reflexivity|].
  split; [discriminate|]. split; [|vm_compute; reflexivity].
  pose proof folder_files as F. constructor; [|constructor; [|constructor]];
    [|inversion F; assumption].
  do 3 (apply Forall_inv_tail in F). inversion F; assumption.
Qed.
Print Assumptions C105_each_file_refuted.

(** The arguments are taken one after the other, by any command and whatever the files are:
    nothing is done for the arguments behind one which fails, and those before it do not
    depend on it. *)
Theorem C105_in_order : forall c props sink_first cmd before behind w,
  run_main c props sink_first cmd (before ++ behind) w
  = let '(x, w') := run_main c props sink_first cmd before w in
    match x with Ok _ => run_main c props sink_first cmd behind w' | _ => (x, w') end.
Proof. exact main_app. Qed.
Print Assumptions C105_in_order.

(** null reads the tables, shows nothing and changes nothing; missing values do not matter. *)
Theorem C105_null : forall c props sink_first files fs out,
  Forall (fun name => exists e fields contents file,
            fs_get fs name = Some file /\ holds_table c e fields contents file) files ->
  run_main c props sink_first CmdNull files (World fs out) = (Ok tt, World fs out).
Proof. exact main_null. Qed.
Print Assumptions C105_null.

Example C105_null_case :
  run_main sample_cfg (fun _ _ => bs "P") false CmdNull [bs "ann"; bs "people"] (World folder []) = (Ok tt, World folder [])
  /\ fst (run_main sample_cfg (fun _ _ => bs "P") false CmdNull [bs "ann"; bs "note"] (World folder [])) = Abort.
Proof. vm_compute. auto. Qed.

(** csv never succeeds: the first file is emptied and the process is terminated; no other
    file is made, read or changed. *)
Theorem C105_csv : forall c props sink_first name rest fs out, 288 <= max_alloc c ->
  exists fs', run_main c props sink_first CmdCsv (name :: rest) (World fs out) = (Abort, World fs' out)
    /\ (forall other, other <> name -> fs_get fs' other = fs_get fs other)
    /\ (fs_get fs name <> None -> fs_get fs' name = Some []).
Proof. exact main_csv. Qed.
Print Assumptions C105_csv.

Theorem C105_csv_refuted : exists c fs name, fs_get fs name <> None
  /\ (forall props, fst (run_main c props false (CmdPrint None) [name] (World fs [])) = Ok tt)
  /\ forall props sink_first, exists w,
       run_main c props sink_first CmdCsv [name] (World fs []) = (Abort, w)
       /\ fs_get (w_files w) name = Some [] /\ fs_get (w_files w) (get_csv_filename name) = None.
Proof.
  exists sample_cfg, [(bs "ann.sas7bdat", ann_file)], (bs "ann.sas7bdat"). split; [vm_compute; discriminate|].
  split; [intros props; vm_compute; reflexivity|].
  intros props [|]; eexists; (split; [vm_compute; reflexivity|]); vm_compute; auto.
Qed.
Print Assumptions C105_csv_refuted.

(** The name that is computed for the csv file (and not used): the last part of a name
    after a dot is replaced. *)
Theorem C105_name_partial : forall stem ext, ~ In x2e ext ->
  get_csv_filename (stem ++ [x2e] ++ ext) = stem ++ bs ".csv".
Proof. exact csv_name_replaced. Qed.
Print Assumptions C105_name_partial.

Example C105_name_case :
  get_csv_filename (bs "data/ann.v2.sas7bdat") = bs "data/ann.v2.csv" /\ ~ In x2e (bs "sas7bdat").
Proof. split; [vm_compute; reflexivity|]. vm_compute. intuition discriminate. Qed.

(** False for a name without a dot, and for a directory with one: neither the extension
    nor the directory is that of a csv file beside the input. *)
Theorem C105_name_refuted :
  (exists name, ~ In x2e name /\ get_csv_filename name <> name ++ bs ".csv")
  /\ exists dir name, ~ In x2f name /\ ~ In x2e name
       /\ forall rest, get_csv_filename (dir ++ bs "/" ++ name) <> dir ++ bs "/" ++ rest.
Proof.
  split.
  - exists (bs "ann"). split; [vm_compute; intuition discriminate|vm_compute; discriminate].
  - exists (bs "study.1"), (bs "ann"). split; [vm_compute; intuition discriminate|].
    split; [vm_compute; intuition discriminate|]. intros rest. vm_compute. discriminate.
Qed.
Print Assumptions C105_name_refuted.
