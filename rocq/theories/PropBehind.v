(** C120: what stands behind the last row of a file. *)
From Verif Require Import Base Types Column Header Metadata Buffer Page Decomp Data Reader
  SpecReader SpecFile SpecConform SpecAsk Samples ProofConformCheck ProofBehind PropNamed.
Local Open Scope N_scope.

(** C120.  A file which announces rows, of whatever content, and a history after which all
    of them were delivered: bytes behind the end of the file (more rows, garbage, a part of
    a page) change nothing of what the constructor said, of the answers and of what the
    sink received. *)
Theorem C120_delivered : forall c flt content extra ops r0 ev l r,
  open_reader c file_source flt (file_open content) = Ok (r0, ev) ->
  trace c file_source ops (Some r0) = (l, Some r) ->
  md_row_count (rs_md r0) <> 0 -> current_row_index (Some r) = md_row_count (rs_md r0) ->
  session c file_source flt (file_open (content ++ extra)) ops = Ok (ev, l).
Proof. exact behind_all. Qed.
Print Assumptions C120_delivered.

(** For the files which hold a table with at least one row, over every history. *)
Theorem C120_table : forall c flt content fields rows extra ops,
  conforms c content fields rows -> rows <> [] ->
  session c file_source flt (file_open (content ++ extra)) ops
  = session c file_source flt (file_open content) ops.
Proof. exact behind_table. Qed.
Print Assumptions C120_table.

Definition one_more : bytes :=
  page_bytes Big Bit32 800 type_data 1 [] [bs "GGGGGGGGyz01"].

(** The rows of a session, as texts. *)
Definition told (content : bytes) (ops : list op) : res (N * list (N * bytes)) :=
  match open_reader sample_cfg file_source None (file_open content) with
  | Ok (r, _) => Ok (lenN (md_columns (rs_md r)), 
      flat_map (fun x => snd (fst x)) (short 12 (fst (trace sample_cfg file_source ops (Some r)))))
  | Exn e => Exn e
  | Abort => Abort
  | Undef u => Undef u
  | Fuel => Fuel
  end.

Example C120_case : conforms sample_cfg sample_file sample_fields (t_rows sample_table)
  /\ t_rows sample_table <> []
  /\ told (sample_file ++ one_more) [OpReadRows 4; OpSkip 1; OpReadAll; OpReadAll]
     = Ok (2, [(0, bs "AAAAAAAAabcd"); (1, bs "BBBBBBBBefgh"); (2, bs "CCCCCCCCijkl"); (3, bs "DDDDDDDDmnop");
               (5, bs "FFFFFFFFuvwx")]).
Proof.
  split; [apply conforming_ok; vm_compute; reflexivity|]. split; [discriminate|]. vm_compute. reflexivity.
Qed.

(** Without rows the description is looked for up to the end of the file: what stands
    there is taken as a part of it, so that a table of two columns becomes one of one
    column, ... *)
Theorem C120_no_row_refuted : exists content extra,
  conforms sample_cfg content sample_fields []
  /\ told content [OpReadAll] = Ok (2, []) /\ told (content ++ extra) [OpReadAll] = Ok (1, []).
Proof.
  exists no_rows_file, (page_bytes Big Bit32 800 type_meta 0 [plain (column_size_subheader Big Bit32 1)] []).
  split; [apply conforming_ok; vm_compute; reflexivity|]. split; vm_compute; reflexivity.
Qed.
Print Assumptions C120_no_row_refuted.

(** ... and when fewer rows are stored than announced, what follows becomes rows, although
    the header says how many pages there are (here 3, the third of which is missing). *)
Theorem C120_missing_refuted : exists content extra,
  content = firstn 1920 sample_file
  /\ told content [OpReadAll]
     = Ok (2, [(0, bs "AAAAAAAAabcd"); (1, bs "BBBBBBBBefgh"); (2, bs "CCCCCCCCijkl"); (3, bs "DDDDDDDDmnop");
               (4, bs "EEEEEEEEqrst")])
  /\ told (content ++ extra) [OpReadAll]
     = Ok (2, [(0, bs "AAAAAAAAabcd"); (1, bs "BBBBBBBBefgh"); (2, bs "CCCCCCCCijkl"); (3, bs "DDDDDDDDmnop");
               (4, bs "EEEEEEEEqrst"); (5, bs "GGGGGGGGyz01")]).
Proof. exists (firstn 1920 sample_file), one_more. split; [reflexivity|]. split; vm_compute; reflexivity. Qed.
Print Assumptions C120_missing_refuted.
