(** The texts of the columns, wherever they are in the file (SpecTexts). *)
From Verif Require Import Base Types DateTime Buffer Header Page Column Decomp Metadata Data Reader SpecValues SpecHeader
  SpecDecomp SpecReader SpecPages SpecMeta SpecFile SpecRoundtrip SpecConform SpecTexts ProofColumns ProofConform ProofConformCheck
  ProofTexts ProofFits Samples.
Local Open Scope N_scope.

(** ** C97: the texts of the columns are found wherever their blocks are *)

(** The full statement is that the name, format and label of a column are the texts which
    its references mean in the text blocks of the file, that is [text_of (all_blocks ly pages) r].
    They are when the block is before the reference; else they are empty, and nothing tells
    it. *)
Theorem C97_texts_partial : forall c flt content h s b,
  open_header c file_source (file_open content) = Ok (h, s, b) -> described c content h ->
  let ly := layout_of h empty_metadata in
  let pages := file_pages content h in
  let text := fun refs i t => exists n r, nth_error (counted ly (refs ly) 0 (all_subs ly pages)) i = Some (n, r)
                /\ t = (if block_no r <? n then text_of (all_blocks ly pages) r else []) in
  open_reader c file_source flt (file_open content) = Exn E_out_of_range
  \/ exists r cols, open_reader c file_source flt (file_open content) = Ok (r, [EvProps (rs_h r) (rs_md r)])
     /\ md_columns (rs_md r) = (match flt with Some p => filter p cols | None => cols end)
     /\ forall i col, nth_error cols i = Some col ->
          text name_refs i (c_name col) /\ text format_refs i (c_format col) /\ text label_refs i (c_label col).
Proof. exact column_texts. Qed.
Print Assumptions C97_texts_partial.

(** A page which is inserted behind the start of the data, and whose type is not one of 0,
    256, 512 and 640 (1024 is that of the pages with an amended description), changes nothing:
    whatever it says, the file holds the same table, and is read as it (C90). *)
Theorem C97_late_page : forall c front pg back fields rows n,
  conforms c (front ++ back) fields rows ->
  lenN front = header_length_field front + n * page_length_field front -> 288 <= lenN front ->
  lenN pg = page_length_field front ->
  Exists (fun q => begins (full_layout (front ++ back)) q = true) (pages_in front) ->
  ~ In (page_type (base_layout front) pg) [0; 256; 512; 640] ->
  (S (length (pages_in (front ++ back))) < page_fuel c)%nat ->
  said (front ++ pg ++ back) = said (front ++ back) /\ conforms c (front ++ pg ++ back) fields rows.
Proof. exact late_page. Qed.
Print Assumptions C97_late_page.

(** A file whose labels are in a second text block on a page behind the rows, as in
    data_AHS2013/owner.sas7bdat of the test files. *)
Definition amended_front : bytes :=
  let e := Little in let f := Bit32 in
  header_bytes e f true 400 800 2 (bs "AMENDED")
  ++ page_bytes e f 800 type_mix 2
       [plain (row_size_subheader e f 12 2 2 0 2 0 0);
        plain (column_size_subheader e f 2);
        plain (text_subheader e f (text_block e [] (bs "IDBESTNAME")));
        plain (names_subheader e f [(0, 28, 2); (0, 34, 4)]);
        plain (attributes_subheader e f [(0, 8, true); (8, 4, false)]);
        plain (format_label_subheader e f (0, 30, 4) (1, 28, 6));
        plain (format_label_subheader e f (0, 0, 0) (1, 34, 8))]
       [bs "AAAAAAAAabcd"; bs "BBBBBBBBefgh"].

Definition amended_page : bytes :=
  page_bytes Little Bit32 800 1024 0
    [plain (text_subheader Little Bit32 (text_block Little [] (bs "The idThe name")))] [].

Definition unlabelled : list field_desc :=
  [FieldDesc (bs "ID") [] (bs "BEST") 0 8 true; FieldDesc (bs "NAME") [] [] 8 4 false].

(** The table which the reader gives: the labels are empty. *)
Example C97_case :
  conforms sample_cfg amended_front unlabelled [bs "AAAAAAAAabcd"; bs "BBBBBBBBefgh"]
  /\ lenN amended_front = header_length_field amended_front + 1 * page_length_field amended_front
  /\ lenN amended_page = page_length_field amended_front
  /\ Exists (fun q => begins (full_layout (amended_front ++ [])) q = true) (pages_in amended_front)
  /\ page_type (base_layout amended_front) amended_page = 1024
  /\ (S (length (pages_in (amended_front ++ []))) < page_fuel sample_cfg)%nat.
Proof.
  split; [apply conforming_ok; vm_compute; reflexivity|]. split; [vm_compute; reflexivity|]. split; [vm_compute; reflexivity|].
  rewrite app_nil_r. split.
  { replace (pages_in amended_front) with [skipn 400 amended_front] by (vm_compute; reflexivity).
    constructor. vm_compute. reflexivity. }
  split; [vm_compute; reflexivity|]. vm_compute. repeat constructor.
Qed.

(** C97 is false of the code: the references of the labels of this file mean "The id" and
    "The name", and the labels of the reader are empty. *)
Theorem C97_labels_refuted : exists content h s b r,
  open_header sample_cfg file_source (file_open content) = Ok (h, s, b) /\ described sample_cfg content h
  /\ (let ly := layout_of h empty_metadata in
      let pages := file_pages content h in
      map (fun x => text_of (all_blocks ly pages) (snd x)) (counted ly (label_refs ly) 0 (all_subs ly pages))
      = [bs "The id"; bs "The name"])
  /\ open_reader sample_cfg file_source None (file_open content) = Ok (r, [EvProps (rs_h r) (rs_md r)])
  /\ map c_label (md_columns (rs_md r)) = [[]; []].
Proof.
  exists (amended_front ++ amended_page).
  destruct (open_header sample_cfg file_source (file_open (amended_front ++ amended_page))) as [[[h s] b]| | | |] eqn:E;
    try (vm_compute in E; discriminate).
  destruct (open_reader sample_cfg file_source None (file_open (amended_front ++ amended_page))) as [[r ev]| | | |] eqn:E2;
    try (vm_compute in E2; discriminate).
  exists h, s, b, r. split; [reflexivity|]. vm_compute in E. injection E as <- <- <-. vm_compute in E2. injection E2 as <- <-.
  split; [apply describedb_ok; vm_compute; reflexivity|]. split; [vm_compute; reflexivity|].
  split; [reflexivity|vm_compute; reflexivity].
Qed.
Print Assumptions C97_labels_refuted.
