(** C125: how far a changed byte in the rows of a data page reaches. *)
From Verif Require Import Base Types SpecFile Buffer Page Column Header Metadata Decomp
  Data Reader SpecReader SpecValues SpecHeader SpecConform SpecDamage Samples ProofDamage.
Local Open Scope N_scope.

(** C125.  In both builds and with any filter: a file is opened, and one of its bytes, on a
    whole page of type 256 which announces rows and behind the header of this page, is
    replaced by another.  Then the changed file is opened too, with the same properties;
    every history of calls has the same outcomes on both and the sink is told the same
    indices; the rows handed out, to the sink or as results, are the same but for at most
    one, and this one differs in one byte.  Rows of 2^47 bytes and more are left out:
    places on the page are computed modulo 2^64. *)
Theorem C125_one_row : forall c flt a x y b r,
  opened c file_source flt (file_open (a ++ x :: b)) r ->
  in_data_page (a ++ x :: b) (lenN a) -> md_row_length (rs_md r) < 2 ^ 47 ->
  exists r', opened c file_source flt (file_open (a ++ y :: b)) r'
    /\ rs_h r' = rs_h r /\ rs_md r' = rs_md r
    /\ forall ops,
       let (t, z) := trace c file_source ops (Some r) in
       let (t', z') := trace c file_source ops (Some r') in
       map bare_entry t' = map bare_entry t
       /\ one_row (rows_out (md_row_length (rs_md r)) t) (rows_out (md_row_length (rs_md r)) t')
       /\ current_row_index z' = current_row_index z.
Proof. exact damage. Qed.
Print Assumptions C125_one_row.

(** The sample file: byte 1164 is the first letter of NAME in row 3, the second row of the
    first data page; and what a caller gets who reads a row, skips one, takes one without
    the sink, reads two more and then the rest. *)
Definition letter : bytes := firstn 1164 sample_file ++ x4d :: skipn 1165 sample_file.
Definition calls : list op := [OpReadRow; OpSkip 1; OpNoSink; OpReadRows 2; OpReadAll].

Example C125_case :
  sample_file = firstn 1164 sample_file ++ x6d :: skipn 1165 sample_file
  /\ in_data_page sample_file 1164
  /\ (exists r r', reader_of sample_cfg sample_file = Some r /\ reader_of sample_cfg letter = Some r'
        /\ md_row_length (rs_md r) = 12
        /\ rows_out 12 (fst (trace sample_cfg file_source calls (Some r)))
           = map (map Some) [bs "AAAAAAAAabcd"; bs "CCCCCCCCijkl"; bs "DDDDDDDDmnop";
                             bs "EEEEEEEEqrst"; bs "FFFFFFFFuvwx"]
        /\ rows_out 12 (fst (trace sample_cfg file_source calls (Some r')))
           = map (map Some) [bs "AAAAAAAAabcd"; bs "CCCCCCCCijkl"; bs "DDDDDDDDMnop";
                             bs "EEEEEEEEqrst"; bs "FFFFFFFFuvwx"]).
Proof.
  split; [vm_compute; reflexivity|]. split.
  { exists 1, 44. vm_compute. repeat split; discriminate. }
  do 2 eexists. split; [vm_compute; reflexivity|]. split; [vm_compute; reflexivity|].
  vm_compute. repeat split; reflexivity.
Qed.

(** In the header of the page it is another matter: byte 1139, the number of rows of this
    page, is 3.  With 1 instead two rows are lost, and the last row comes as row 3. *)
Definition fewer : bytes := firstn 1139 sample_file ++ x01 :: skipn 1140 sample_file.

Example C125_page_header_case :
  sample_trace fewer [OpReadAll]
     = ([(Ok OUnit,
          [(0, bs "AAAAAAAAabcd"); (1, bs "BBBBBBBBefgh"); (2, bs "CCCCCCCCijkl");
           (3, bs "FFFFFFFFuvwx")], 1)], 4)
  /\ sample_trace sample_file [OpReadAll]
     = ([(Ok OUnit,
          [(0, bs "AAAAAAAAabcd"); (1, bs "BBBBBBBBefgh"); (2, bs "CCCCCCCCijkl");
           (3, bs "DDDDDDDDmnop"); (4, bs "EEEEEEEEqrst"); (5, bs "FFFFFFFFuvwx")], 1)], 6).
Proof. vm_compute. repeat split; reflexivity. Qed.
