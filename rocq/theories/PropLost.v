(** C121: rows which stand in a file in one of the two forms. *)
From Verif Require Import Base Types Column Header Metadata Buffer Page Decomp Data Reader
  SpecReader SpecFile SpecPages SpecLost Samples ProofCheck ProofLost.
Local Open Scope N_scope.

(** C121.  Full statement: all the rows of a readable file, those of the pages of rows and
    those in the subheader tables, are delivered.  It holds when no mix page has rows in
    both forms and no amendment page behind the beginning of the data has rows. *)
Theorem C121_all_partial : forall c flt content r ops,
  opened c file_source flt (file_open content) r -> readable c content r ->
  let ly := layout_of (rs_h r) (rs_md r) in
  let pages := file_pages content (rs_h r) in
  one_form ly false pages ->
  let cu := (0, firstn (N.to_nat (md_row_count (rs_md r))) (all_rows ly false pages)) in
  seen (md_row_length (rs_md r)) (fst (trace c file_source ops (Some r))) = fst (cur_trace ops cu)
  /\ current_row_index (snd (trace c file_source ops (Some r))) = fst (snd (cur_trace ops cu)).
Proof. exact all_delivered. Qed.
Print Assumptions C121_all_partial.

(** The rows delivered, and those which stand on the pages. *)
Definition delivered (content : bytes) : list (N * bytes) :=
  flat_map (fun x => snd (fst x)) (fst (sample_trace content [OpReadAll])).
Definition standing (content : bytes) : list (res bytes) :=
  match reader_of sample_cfg content with
  | Some r => all_rows (layout_of (rs_h r) (rs_md r)) false (file_pages content (rs_h r))
  | None => []
  end.
Definition readable_file (content : bytes) : Prop :=
  exists r, reader_of sample_cfg content = Some r /\ readableb sample_cfg content r = true.

(** A compressed file with a page of each kind: rows in the table of the first page, a data
    page, a meta page. *)
Definition each_form (first_type : N) (first_rows : list bytes) (next : list bytes) : bytes :=
  header_bytes Big Bit32 false 320 900 4 (bs "FORMS")
  ++ page_bytes Big Bit32 900 first_type 1
       (description Big Bit32 (bs "SASYZCRL") sample_fields 12 4 1 ++ [compressed_row (bs "AAAAAAAAabcd")])
       first_rows
  ++ concat next.

Definition data_part : bytes := page_bytes Big Bit32 900 type_data 1 [] [bs "BBBBBBBBefgh"].
Definition meta_part : bytes := page_bytes Big Bit32 900 type_meta 0 [compressed_row (bs "CCCCCCCCijkl")] [].

Definition forms_file : bytes := each_form type_meta [] [data_part; meta_part].

Example C121_case : readable_file forms_file
  /\ match reader_of sample_cfg forms_file with
     | Some r => one_form (layout_of (rs_h r) (rs_md r)) false (file_pages forms_file (rs_h r))
     | None => False
     end
  /\ standing forms_file = [Ok (bs "AAAAAAAAabcd"); Ok (bs "BBBBBBBBefgh"); Ok (bs "CCCCCCCCijkl")]
  /\ delivered forms_file = [(0, bs "AAAAAAAAabcd"); (1, bs "BBBBBBBBefgh"); (2, bs "CCCCCCCCijkl")].
Proof.
  split; [eexists; split; vm_compute; reflexivity|].
  split; [vm_compute; repeat split; intros [K|[K _]]; discriminate K|]. split; vm_compute; reflexivity.
Qed.

(** A mix page with rows in both forms: when the data begin on it, the row behind its table
    is lost (DDDDDDDDmnop); ... *)
Theorem C121_first_mix_refuted : exists content, readable_file content
  /\ standing content = [Ok (bs "DDDDDDDDmnop"); Ok (bs "AAAAAAAAabcd"); Ok (bs "BBBBBBBBefgh")]
  /\ delivered content = [(0, bs "AAAAAAAAabcd"); (1, bs "BBBBBBBBefgh")].
Proof.
  exists (each_form type_mix [bs "DDDDDDDDmnop"] [data_part]).
  split; [eexists; split; vm_compute; reflexivity|]. split; vm_compute; reflexivity.
Qed.
Print Assumptions C121_first_mix_refuted.

(** ... on a later page those of the table are (CCCCCCCCijkl). *)
Theorem C121_later_mix_refuted : exists content, readable_file content
  /\ standing content = [Ok (bs "AAAAAAAAabcd"); Ok (bs "DDDDDDDDmnop"); Ok (bs "CCCCCCCCijkl"); Ok (bs "BBBBBBBBefgh")]
  /\ delivered content = [(0, bs "AAAAAAAAabcd"); (1, bs "DDDDDDDDmnop"); (2, bs "BBBBBBBBefgh")].
Proof.
  exists (each_form type_meta []
    [page_bytes Big Bit32 900 type_mix 1 [compressed_row (bs "CCCCCCCCijkl")] [bs "DDDDDDDDmnop"]; data_part]).
  split; [eexists; split; vm_compute; reflexivity|]. split; vm_compute; reflexivity.
Qed.
Print Assumptions C121_later_mix_refuted.

(** An amendment page with rows: they are read when the data begin on it, and lost
    afterwards. *)
Theorem C121_amendment_refuted : exists content, readable_file content
  /\ standing content = [Ok (bs "AAAAAAAAabcd"); Ok (bs "CCCCCCCCijkl"); Ok (bs "BBBBBBBBefgh")]
  /\ delivered content = [(0, bs "AAAAAAAAabcd"); (1, bs "BBBBBBBBefgh")].
Proof.
  exists (each_form 1024 [] [page_bytes Big Bit32 900 1024 0 [compressed_row (bs "CCCCCCCCijkl")] []; data_part]).
  split; [eexists; split; vm_compute; reflexivity|]. split; vm_compute; reflexivity.
Qed.
Print Assumptions C121_amendment_refuted.

(** A row which comes before the text block of the description in the table of its page:
    the compression is not known yet, so that it is not taken as a row, and since the data
    are not thought to begin there the page is left for the next one. *)
Definition late_text_file : bytes :=
  header_bytes Big Bit32 false 320 900 2 (bs "LATE")
  ++ page_bytes Big Bit32 900 type_meta 0
       (compressed_row (bs "AAAAAAAAabcd")
        :: description Big Bit32 (bs "SASYZCRL") sample_fields 12 4 0) []
  ++ data_part.

Theorem C121_late_text_refuted : exists content,
  standing content = [Ok (bs "AAAAAAAAabcd"); Ok (bs "BBBBBBBBefgh")]
  /\ delivered content = [(0, bs "BBBBBBBBefgh")].
Proof. exists late_text_file. split; vm_compute; reflexivity. Qed.
Print Assumptions C121_late_text_refuted.
