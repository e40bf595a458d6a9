(** C131: pages of a type which the library does not know. *)
From Verif Require Import Base Types Buffer Page Column Header Metadata Decomp Data Reader
  SpecBuffer SpecReader SpecFile SpecPages SpecNamed Samples ProofOpen ProofPages ProofRows ProofCheck SpecForeign ProofForeign.
Local Open Scope N_scope.

(** Such pages, put anywhere in front of the page where the data begin, leave no trace: the Reader
    is the same in all its parts, and so is what the sink is told. *)
Theorem C131_passed_over : forall c flt front l l' pg post n r ev,
  let file k := front ++ concat (k ++ pg :: post) in
  open_reader c file_source flt (file_open (file l)) = Ok (r, ev) -> readable c (file l) r ->
  let ly := layout_of (rs_h r) (rs_md r) in
  lenN front = h_header_length (rs_h r) ->
  Forall (fun q => lenN q = h_page_length (rs_h r)) (l ++ pg :: post) ->
  no_data ly l -> rows_on ly (l ++ pg :: post) <> [] -> mixed_in ly n l l' ->
  open_reader (more_fuel n c) file_source flt (file_open (file l')) = Ok (r, ev).
Proof. exact foreign_read. Qed.
Print Assumptions C131_passed_over.

(** The header and the pages of the sample whose description has a page of its own. *)
Definition f_front : bytes := firstn 320 empty_first_file.
Definition f_page (k : nat) : bytes := firstn 800 (skipn (320 + k * 800) empty_first_file).
(** The same page with another type. *)
Definition typed (t : N) (pg : bytes) : bytes := firstn 16 pg ++ put16 Big t ++ skipn 18 pg.

Definition METC : N := 16384.

Example C131_case :
  match reader_of sample_cfg empty_first_file with
  | Some r =>
      let ly := layout_of (rs_h r) (rs_md r) in
      readableb sample_cfg empty_first_file r = true
      /\ f_front ++ concat [f_page 0; f_page 1; f_page 2] = empty_first_file
      /\ lenN f_front = h_header_length (rs_h r)
      /\ map lenN [f_page 0; f_page 1; f_page 2] = repeat (h_page_length (rs_h r)) 3
      /\ begins ly (f_page 0) = false /\ lenN (rows_on ly [f_page 0; f_page 1; f_page 2]) = 2
      /\ mixed_in ly 2 [f_page 0] [typed METC (f_page 0); f_page 0; typed 7 (f_page 2)]
      /\ reader_of (more_fuel 2 sample_cfg)
           (f_front ++ concat [typed METC (f_page 0); f_page 0; typed 7 (f_page 2); f_page 1; f_page 2]) = Some r
  | None => False
  end.
Proof.
  destruct (reader_of sample_cfg empty_first_file) as [r|] eqn:E; [|vm_compute in E; discriminate].
  vm_compute in E. injection E as <-.
  split; [vm_compute; reflexivity|]. split; [vm_compute; reflexivity|]. split; [vm_compute; reflexivity|].
  split; [vm_compute; reflexivity|]. split; [vm_compute; reflexivity|]. split; [vm_compute; reflexivity|].
  split; [|vm_compute; reflexivity].
  apply mixed_foreign; [vm_compute; reflexivity|vm_compute; intuition discriminate|].
  apply mixed_page. apply mixed_foreign; [vm_compute; reflexivity|vm_compute; intuition discriminate|]. constructor.
Qed.

(** "Pages of descriptions are read whatever type marks them" is false of METC pages, a type which
    src/page.hpp:25 names and nothing uses: with its description on such a page the file is opened
    as one without columns. *)
Theorem C131_metc_refuted : exists c front pg l r r',
  opened c file_source None (file_open (front ++ concat (pg :: l))) r
  /\ opened c file_source None (file_open (front ++ concat (typed METC pg :: l))) r'
  /\ lenN (md_columns (rs_md r)) = 2 /\ md_row_count (rs_md r) = 2
  /\ md_columns (rs_md r') = [] /\ md_row_count (rs_md r') = 0.
Proof.
  destruct (reader_of sample_cfg (f_front ++ concat [f_page 0; f_page 1; f_page 2])) as [r|] eqn:E; [|vm_compute in E; discriminate].
  destruct (reader_of sample_cfg (f_front ++ concat [typed METC (f_page 0); f_page 1; f_page 2])) as [r'|] eqn:E'; [|vm_compute in E'; discriminate].
  exists sample_cfg, f_front, (f_page 0), [f_page 1; f_page 2], r, r'.
  split; [apply reader_of_opened; exact E|]. split; [apply reader_of_opened; exact E'|].
  vm_compute in E, E'. injection E as <-. injection E' as <-. vm_compute. repeat split.
Qed.
Print Assumptions C131_metc_refuted.
