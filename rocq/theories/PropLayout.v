(** C119: the layout of a file does not change the table which is read. *)
From Verif Require Import Base Types Column Header Metadata Buffer Page Decomp Data Reader Sinks
  SpecValues SpecDecomp SpecReader SpecFile SpecRoundtrip SpecSinks SpecCells SpecTable SpecLayout Samples
  ProofFileCheck ProofLayout PropCells.
Local Open Scope N_scope.

(** C119.  Two files which hold the same table: the same fields for a user ([same_field]) and
    the same contents.  Byte order, 32 or 64 bits, page lengths, kind of the pages,
    compression, place and width of the fields may all be different, and so may the builds.
    Then the rows have the same indices and, column by column, the same name, label,
    format, type, value and text.  Full statement: for every table; here for those of
    [holds_table] (see C73), with a row, since the type of a column without content depends
    on its width ([C119_no_row_refuted]). *)
Theorem C119_rows_partial : forall c c' flt e e' fs fs' contents file file',
  holds_table c e fs contents file -> holds_table c' e' fs' contents file' ->
  Forall2 same_field fs fs' -> contents <> [] -> by_facts flt ->
  exists r r' rows rows',
    open_reader c file_source flt (file_open file) = Ok (r, [EvProps (rs_h r) (rs_md r)])
    /\ open_reader c' file_source flt (file_open file') = Ok (r', [EvProps (rs_h r') (rs_md r')])
    /\ fst (trace c file_source [OpReadAll] (Some r)) = [(OpReadAll, Ok OUnit, pushes rows ++ [EvEnd])]
    /\ fst (trace c' file_source [OpReadAll] (Some r')) = [(OpReadAll, Ok OUnit, pushes rows' ++ [EvEnd])]
    /\ length rows = length contents
    /\ md_row_count (rs_md r) = md_row_count (rs_md r')
    /\ map column_facts (md_columns (rs_md r)) = map column_facts (md_columns (rs_md r'))
    /\ Forall2 (same_row (md_columns (rs_md r)) (md_columns (rs_md r'))) rows rows'.
Proof. exact layout_rows. Qed.
Print Assumptions C119_rows_partial.

(** So the csv text is the same, whatever the texts contain, and so are the lines of the
    print sink (or its failure) and what Python and R are given. *)
Theorem C119_outputs_partial : forall c c' flt e e' fs fs' contents file file',
  holds_table c e fs contents file -> holds_table c' e' fs' contents file' ->
  Forall2 same_field fs fs' -> contents <> [] -> by_facts flt ->
  exists r r' evs evs',
    open_reader c file_source flt (file_open file) = Ok (r, [EvProps (rs_h r) (rs_md r)])
    /\ open_reader c' file_source flt (file_open file') = Ok (r', [EvProps (rs_h r') (rs_md r')])
    /\ fst (trace c file_source [OpReadAll] (Some r)) = [(OpReadAll, Ok OUnit, evs)]
    /\ fst (trace c' file_source [OpReadAll] (Some r')) = [(OpReadAll, Ok OUnit, evs')]
    /\ same_outputs (EvProps (rs_h r) (rs_md r) :: evs) (EvProps (rs_h r') (rs_md r') :: evs').
Proof. exact layout_outputs. Qed.
Print Assumptions C119_outputs_partial.

(** A text and a number: on 4 and 8 bytes in a big-endian 32 bit file; on 6 and 3 bytes,
    the number first, in a little-endian 64 bit file. *)
Definition wide : list field_desc :=
  [FieldDesc (bs "NAME") (bs "Who") [] 0 4 false; FieldDesc (bs "RATE") [] (bs "BEST") 4 8 true].
Definition narrow : list field_desc :=
  [FieldDesc (bs "NAME") (bs "Who") [] 3 6 false; FieldDesc (bs "RATE") [] (bs "BEST") 0 3 true].
Definition rated : list (list content) :=
  [[Text (bs "a""b"); Real 4609434218613702656]; [Text []; Real 0]].
Definition wide_file : bytes :=
  file_bytes Big Bit32 false 320 2000 (bs "WIDE")
    (Table wide 12 [bs "a""b " ++ write_int Big 8 4609434218613702656; bs "    " ++ write_int Big 8 0] []).
Definition narrow_file : bytes :=
  file_bytes Little Bit64 true 512 4000 (bs "NARROW")
    (Table narrow 9 [write_int Little 3 4192256 ++ bs "a""b   "] [[write_int Little 3 0 ++ bs "      "]]).

Lemma rated_room : forall h plen p, h <= 512 -> plen <= 4000 -> p <= 2 -> room sample_cfg h plen 2 p.
Proof.
  intros h plen p H P Q. unfold room, row_limit. split; [vm_compute; reflexivity|]. split; [cbn; lia|].
  split; [cbn; lia|]. split; [vm_compute; discriminate|]. cbn. lia.
Qed.

Example C119_case :
  holds_table sample_cfg Big wide rated wide_file /\ holds_table sample_cfg Little narrow rated narrow_file
  /\ Forall2 same_field wide narrow /\ rated <> [] /\ wide <> narrow
  /\ let text file := match open_reader sample_cfg file_source None (file_open file) with
       | Ok (r, ev) => csv_run short_formats (ev ++ concat (map snd (fst (trace sample_cfg file_source [OpReadAll] (Some r)))))
       | _ => Fuel
       end in
     text wide_file = text narrow_file
     /\ text wide_file = Ok (bs """NAME"",""RATE""" ++ [x0a] ++ bs """a""b"",1.5" ++ [x0a] ++ bs """"",0" ++ [x0a]).
Proof.
  assert (U : unpadded (bs "a""b")).
  { right. exists (bs "a"""), x62. split; [reflexivity|]. intros K. vm_compute in K. intuition discriminate. }
  assert (BL : forall n, Forall (fun b => b = x20 \/ b = x00) (repeat x20 n)) by (induction n; constructor; auto).
  assert (N : forall n o w, is_number (FieldDesc n [] (bs "BEST") o w true)) by exact is_number_best.
  split.
  { exists [bs "a""b " ++ write_int Big 8 4609434218613702656; bs "    " ++ write_int Big 8 0]. split.
    - constructor; [|constructor; [|constructor]]; constructor; [|constructor; [|constructor]| |constructor; [|constructor]].
      + exists [], (bs "a""b" ++ repeat x20 1), (write_int Big 8 4609434218613702656).
        split; [reflexivity|]. split; [reflexivity|]. apply st_text; [reflexivity|exact U|reflexivity|apply BL].
      + exists (bs "a""b "), (write_int Big 8 4609434218613702656), []. split; [reflexivity|]. split; [reflexivity|].
        apply st_real; [reflexivity|cbn; lia|apply N|]. split; [reflexivity|]. exists 4609434218613702656. split; reflexivity.
      + exists [], ([] ++ repeat x20 4), (write_int Big 8 0). split; [reflexivity|]. split; [reflexivity|].
        apply st_text; [reflexivity|left; reflexivity|reflexivity|apply BL].
      + exists (bs "    "), (write_int Big 8 0), []. split; [reflexivity|]. split; [reflexivity|].
        apply st_real; [reflexivity|cbn; lia|apply N|]. split; [reflexivity|]. exists 0. split; reflexivity.
    - apply (plain_rows _ _ _ _ Bit32); [reflexivity|reflexivity|apply good_sizesb_ok; vm_compute; reflexivity
        |apply good_tableb_ok; vm_compute; reflexivity|apply rated_room; cbn; lia|].
      left. apply no_compression_nameb_ok. vm_compute. reflexivity. }
  split.
  { exists [write_int Little 3 4192256 ++ bs "a""b   "; write_int Little 3 0 ++ bs "      "]. split.
    - constructor; [|constructor; [|constructor]]; constructor; [|constructor; [|constructor]| |constructor; [|constructor]].
      + exists (write_int Little 3 4192256), (bs "a""b" ++ repeat x20 3), [].
        split; [reflexivity|]. split; [reflexivity|]. apply st_text; [reflexivity|exact U|reflexivity|apply BL].
      + exists [], (write_int Little 3 4192256), (bs "a""b   "). split; [reflexivity|]. split; [reflexivity|].
        apply st_real; [reflexivity|cbn; lia|apply N|]. split; [reflexivity|]. exists 4192256. split; reflexivity.
      + exists (write_int Little 3 0), ([] ++ repeat x20 6), []. split; [reflexivity|]. split; [reflexivity|].
        apply st_text; [reflexivity|left; reflexivity|reflexivity|apply BL].
      + exists [], (write_int Little 3 0), (bs "      "). split; [reflexivity|]. split; [reflexivity|].
        apply st_real; [reflexivity|cbn; lia|apply N|]. split; [reflexivity|]. exists 0. split; reflexivity.
    - apply (plain_rows _ _ _ _ Bit64); [reflexivity|reflexivity|apply good_sizesb_ok; vm_compute; reflexivity
        |apply good_tableb_ok; vm_compute; reflexivity|apply rated_room; cbn; lia|].
      left. apply no_compression_nameb_ok. vm_compute. reflexivity. }
  split; [repeat constructor|]. split; [discriminate|]. split; [discriminate|]. vm_compute. auto.
Qed.

(** The table with a column of each type, and missing values, in two layouts. *)
Example C119_people :
  holds_table sample_cfg Big people [ann; nobody] people_file
  /\ holds_table sample_cfg Little people [ann; nobody] people_file_64 /\ Forall2 same_field people people.
Proof. split; [apply C73_case|]. split; [apply C73_case|]. repeat constructor. Qed.

(** Without a row: the type said of a column is a matter of its width. *)
Theorem C119_no_row_refuted : exists fs fs' file file' r r' ev ev',
  holds_table sample_cfg Big fs [] file /\ holds_table sample_cfg Big fs' [] file' /\ Forall2 same_field fs fs'
  /\ open_reader sample_cfg file_source None (file_open file) = Ok (r, ev)
  /\ open_reader sample_cfg file_source None (file_open file') = Ok (r', ev')
  /\ map c_type (md_columns (rs_md r)) = [TInteger] /\ map c_type (md_columns (rs_md r')) = [TNumber].
Proof.
  exists [FieldDesc (bs "N") [] [] 0 2 true], [FieldDesc (bs "N") [] [] 0 8 true].
  exists (file_bytes Big Bit32 false 320 800 (bs "T") (Table [FieldDesc (bs "N") [] [] 0 2 true] 2 [] [])),
    (file_bytes Big Bit32 false 320 800 (bs "T") (Table [FieldDesc (bs "N") [] [] 0 8 true] 8 [] [])).
  assert (RM : room sample_cfg 320 800 1 1).
  { unfold room, row_limit. split; [vm_compute; reflexivity|]. split; [cbn; lia|].
    split; [cbn; lia|]. split; [vm_compute; discriminate|]. cbn. lia. }
  eexists _, _, _, _.
  split; [|split; [|split; [repeat constructor|split; [vm_compute; reflexivity|split; [vm_compute; reflexivity|vm_compute; auto]]]]].
  - exists []. split; [constructor|].
    apply (plain_rows _ _ _ _ Bit32); [reflexivity|reflexivity|apply good_sizesb_ok; vm_compute; reflexivity
      |apply good_tableb_ok; vm_compute; reflexivity|exact RM|]. left. apply no_compression_nameb_ok. vm_compute. reflexivity.
  - exists []. split; [constructor|].
    apply (plain_rows _ _ _ _ Bit32); [reflexivity|reflexivity|apply good_sizesb_ok; vm_compute; reflexivity
      |apply good_tableb_ok; vm_compute; reflexivity|exact RM|]. left. apply no_compression_nameb_ok. vm_compute. reflexivity.
Qed.
Print Assumptions C119_no_row_refuted.
