(** C130: where the header of a page is taken from. *)
From Verif Require Import Base Types Buffer Page Column Header Metadata Decomp Data Reader
  SpecBuffer SpecValues SpecHeader SpecReader SpecFile Samples SpecTinyPage ProofOpen ProofPages ProofTinyPage.
Local Open Scope N_scope.

(** If a page is long enough to hold its type and its two counts, these are the numbers stored in
    the bytes which were read for it, whatever the buffer has held before. *)
Theorem C130_own : forall S c (src : source S) e f plen p p', good_source src ->
  type_place f + 6 <= plen -> read_page c src e f plen p = (Ok true, p') ->
  exists d, src_read src (ps_is p) plen = (ps_is p', d, true) /\ lenN d = plen
  /\ ph_type (ps_hdr p') = value_of e (field d (type_place f) 2)
  /\ ph_block_count (ps_hdr p') = value_of e (field d (type_place f + 2) 2)
  /\ ph_subheaders_count (ps_hdr p') = value_of e (field d (type_place f + 4) 2).
Proof. exact own_header. Qed.
Print Assumptions C130_own.

(** A file whose pages end before the place of the type, if it is opened at all, has neither
    columns nor rows, and each call finds the end of the data. *)
Theorem C130_short_partial : forall c flt content r ev,
  open_reader c file_source flt (file_open content) = Ok (r, ev) ->
  h_page_length (rs_h r) <= type_place (h_format (rs_h r)) ->
  md_columns (rs_md r) = [] /\ md_row_count (rs_md r) = 0
  /\ forall ops, trace c file_source ops (Some r) = (nothing ops, Some r).
Proof. exact short_pages. Qed.
Print Assumptions C130_short_partial.

(** Files with pages of [n] bytes. *)
Definition tiny_file (n k : N) (rest : bytes) : bytes :=
  header_bytes Big Bit32 false 320 n k (bs "TINY") ++ rest.

(** "A file whose pages cannot hold a page header is refused" is false: with pages of 8 bytes the
    type of each page is taken from the header of the file, which the same buffer has held, and the
    file is opened as one without columns, whatever is in its pages. *)
Theorem C130_refused_refuted : exists c content r ev,
  open_reader c file_source None (file_open content) = Ok (r, ev)
  /\ h_page_length (rs_h r) < type_place (h_format (rs_h r))
  /\ content <> [] /\ md_columns (rs_md r) = []
  /\ trace c file_source [OpReadRow; OpReadAll] (Some r) = (nothing [OpReadRow; OpReadAll], Some r).
Proof.
  exists sample_cfg, (tiny_file 8 3 (bs "aaaaaaaabbbbbbbbcccccccc")).
  destruct (open_reader sample_cfg file_source None (file_open (tiny_file 8 3 (bs "aaaaaaaabbbbbbbbcccccccc"))))
    as [[r ev]| | | |] eqn:E; [|vm_compute in E; discriminate..].
  exists r, ev. vm_compute in E. injection E as <- _. vm_compute. repeat split; discriminate.
Qed.
Print Assumptions C130_refused_refuted.

(** In pages of 18 bytes the type is their own, but the counts are not: the header of the first
    page has a count although all its bytes behind the type, if there were any, are zero. *)
Theorem C130_counts_refuted : exists c content r ev,
  open_reader c file_source None (file_open content) = Ok (r, ev)
  /\ h_page_length (rs_h r) = type_place (h_format (rs_h r)) + 2
  /\ field content (h_header_length (rs_h r) + type_place (h_format (rs_h r))) 6 = [x01; x00; x00; x00; x00; x00]
  /\ ph_type (ps_hdr (ds_p (rs_d r))) = 256
  /\ ph_block_count (ps_hdr (ds_p (rs_d r))) <> 0.
Proof.
  pose (content := tiny_file 18 2 (zeros 16 ++ [x01; x00] ++ zeros 30)).
  exists sample_cfg, content.
  destruct (open_reader sample_cfg file_source None (file_open content)) as [[r ev]| | | |] eqn:E; [|vm_compute in E; discriminate..].
  exists r, ev. vm_compute in E. injection E as <- _. vm_compute. repeat split; discriminate.
Qed.
Print Assumptions C130_counts_refuted.

(** The type and the counts of the first page of the sample, which begins at byte 320, read by a
    buffer which has held other bytes. *)
Example C130_case :
  let p := PState (FState (skipn 320 sample_file) false false) (MBuf (map Some (bs "something else")) 14) (PageHeader 7 7 7) in
  let '(o, p') := read_page sample_cfg file_source Big Bit32 800 p in
  o = Ok true /\ ps_hdr p' = PageHeader 512 2 7.
Proof. vm_compute. split; reflexivity. Qed.
