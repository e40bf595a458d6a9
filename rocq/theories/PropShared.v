From Verif Require Import Base Types Buffer Page Column Header Metadata Decomp Data Reader Drive Sinks Callbacks Shared
  SpecFile SpecShared ProofShared Samples PropCells PropAgain.
Local Open Scope N_scope.

(** C124.  One csv sink, or one print sink, given by name to several Readers.  When these are used one
    after the other every call answers as with a sink of its own, and the stream has the text of each,
    one behind the other; whatever the columns of the sink were before. *)
Theorem C124_csv : forall f S c (src : source S) l cs,
  let u := shared_run c src (csv_sink f) (one_after_other 0 l) [] (cs, []) in
  (fst (fst u), snd (snd u)) = in_turn c src (csv_sink f) l.
Proof. exact csv_turns. Qed.
Print Assumptions C124_csv.

Theorem C124_print : forall props S c (src : source S) l cs,
  let u := shared_run c src (print_sink props) (one_after_other 0 l) [] (cs, []) in
  (fst (fst u), snd (snd u)) = in_turn c src (print_sink props) l.
Proof. exact print_turns. Qed.
Print Assumptions C124_print.

(** The calls of the Readers in any order: as with a sink object for each of them on the same stream,
    when the files have the same columns.  (Full claim: without this condition.) *)
Theorem C124_mixed_partial : forall f props S c (src : source S) cs calls cs0 out, have_columns c src cs calls ->
  (let u := shared_run c src (csv_sink f) calls [] (cs0, out) in
   let v := own_run c src (csv_sink f) calls [] out in
   fst (fst u) = fst (fst v) /\ snd (snd u) = snd v)
  /\ (let u := shared_run c src (print_sink props) calls [] (cs0, out) in
      let v := own_run c src (print_sink props) calls [] out in
      fst (fst u) = fst (fst v) /\ snd (snd u) = snd v).
Proof. exact same_columns_both. Qed.
Print Assumptions C124_mixed_partial.

(** Programs with two files. *)
Definition csv_shared (calls : list (call fstate)) : list answer * bytes :=
  let '(t, _, st) := shared_run sample_cfg file_source (csv_sink short_formats) calls [] ([], []) in (t, snd st).
Definition csv_own (calls : list (call fstate)) : list answer * bytes :=
  let '(t, _, text) := own_run sample_cfg file_source (csv_sink short_formats) calls [] [] in (t, text).

Definition make (file : bytes) : call fstate := COpen None (file_open file).
Definition made : answer := AMade (Ok tt).
Definition line (t : bytes) : bytes := t ++ [x0a].
Definition pair_text (a b : bytes) : bytes :=
  line (csv_quoted a ++ comma ++ csv_quoted b) ++ line (bs """ab"",""cd""") ++ line (bs """ef"",""gh""").
Definition single_text : bytes := line (bs """C""") ++ line (bs """xy""").

Example C124_case :
  csv_shared (one_after_other 0 [Session None (file_open (pair_of (bs "A") (bs "B"))) [OpReadAll];
                                 Session None (file_open []) [OpReadAll];
                                 Session None (file_open single) [OpReadAll]])
  = ([made; ADone (Ok OUnit); AMade (Exn E_header_too_short); made; ADone (Ok OUnit)],
     pair_text (bs "A") (bs "B") ++ single_text)
  /\ csv_shared [make single; make single; COp 0 OpReadAll; COp 1 OpReadAll]
     = ([made; made; ADone (Ok OUnit); ADone (Ok OUnit)],
        line (bs """C""") ++ single_text ++ line (bs """xy""")).
Proof. vm_compute. auto. Qed.

(** [single] meets the hypothesis of the second theorem. *)
Example C124_columns : exists cs, cs <> [] /\ have_columns sample_cfg file_source cs
  [make single; make single; COp 0 OpReadRow; COp 1 OpReadAll; COp 0 OpReadAll].
Proof.
  destruct (open_reader sample_cfg file_source None (file_open single)) as [[r0 ev0]| | | |] eqn:O;
    try (vm_compute in O; discriminate O).
  exists (md_columns (rs_md r0)). split; [vm_compute in O; injection O as <- _; discriminate|].
  repeat constructor; intros r ev E; rewrite O in E; injection E as <- _; reflexivity.
Qed.

(** False for any order of the calls: the row of one file is written with the columns of the other. *)
Theorem C124_columns_refuted : exists calls,
  csv_own calls = ([made; made; ADone (Ok (OBool true))],
    line (bs """A"",""B""") ++ line (bs """C""") ++ line (bs """ab"",""cd"""))
  /\ csv_shared calls = ([made; made; ADone (Ok (OBool true))],
    line (bs """A"",""B""") ++ line (bs """C""") ++ line (bs """ab""")).
Proof.
  exists [make (pair_of (bs "A") (bs "B")); make single; COp 0 OpReadRow]. vm_compute. auto.
Qed.
Print Assumptions C124_columns_refuted.

(** And it is undefined: the sink reads behind the page, when the other file has longer rows. *)
Definition wide : bytes :=
  file_bytes Big Bit32 false 320 2400 (bs "WIDE")
    (Table [FieldDesc (bs "W") [] [] 1500 2 false] 1502 [repeat x41 1502] []).

Theorem C124_outside_refuted : exists calls,
  fst (csv_own calls) = [made; made; ADone (Ok (OBool true))]
  /\ fst (csv_shared calls) = [made; made; ADone (Undef UB_oob_read)].
Proof. exists [make single; make wide; COp 0 OpReadRow]. vm_compute. auto. Qed.
Print Assumptions C124_outside_refuted.

(** Also when the second file could not be opened: a name which fmt refuses leaves the print sink with the
    columns of this file. *)
Definition braces : bytes :=
  file_bytes Big Bit32 false 320 800 (bs "BRACE") (Table [FieldDesc (bs "{") [] [] 0 1 false] 1 [bs "q"] []).

Theorem C124_failed_refuted : exists calls,
  (let '(t, _, text) := own_run sample_cfg file_source (print_sink (fun _ _ => [])) calls [] [] in (t, text))
  = ([made; AMade (Exn E_format_error); ADone (Ok (OBool true))], line (bs "#,A,B") ++ bs "#," ++ line (bs "0,ab,cd"))
  /\ (let '(t, _, st) := shared_run sample_cfg file_source (print_sink (fun _ _ => [])) calls [] ([], []) in (t, snd st))
  = ([made; AMade (Exn E_format_error); ADone (Ok (OBool true))], line (bs "#,A,B") ++ bs "#," ++ line (bs "0,a")).
Proof. exists [make (pair_of (bs "A") (bs "B")); make braces; COp 0 OpReadRow]. vm_compute. auto. Qed.
Print Assumptions C124_failed_refuted.
