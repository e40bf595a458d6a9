(** C118: what the words of the header have to do with the rows. *)
From Verif Require Import Base Types SpecFile Buffer Page Column Header Metadata Decomp
  Data Reader SpecReader SpecValues SpecHeader SpecSource SpecWords Samples ProofHeader ProofWords.
Local Open Scope N_scope.

(** C118.  In both builds and with any filter: two files whose headers have the same
    length and announce the same format, byte order and page length, and which have the
    same bytes behind the header, are read in the same way, whatever else their headers
    say.  They are both refused for the same reason, or both opened, with the same
    metadata; then every call has the same outcome on both and tells the sink the same.
    [header_dates_ok]: the two dates can be converted, see C50.  Full statement: without
    [header_length_field f1 <= page_length_field f1]; see [C118_short_refuted]. *)
Theorem C118_words_partial : forall c flt f1 f2,
  has_magic f1 -> has_magic f2 -> header_dates_ok f1 -> header_dates_ok f2 ->
  same_but_words f1 f2 ->
  288 + shift2 f1 <= header_length_field f1 <= page_length_field f1 ->
  header_length_field f1 <= lenN f1 -> header_length_field f2 <= lenN f2 ->
  same_outcome (same_but_header c file_source f1 f2)
    (open_reader c file_source flt (file_open f1))
    (open_reader c file_source flt (file_open f2)).
Proof. exact words. Qed.
Print Assumptions C118_words_partial.

(** The sample file, and the same with other words in its header: bytes 39 (platform), 70
    (encoding), 84 (no meaning), the name, the type, a date in 2020, the number of pages,
    the release, the name of the operating system. *)
Definition other_words : bytes :=
  patch 39 [x32] (patch 70 [x3e] (patch 84 (bs "SAS FILE") (patch 92 (bs "OTHER_NAME")
  (patch 156 (bs "VIEW") (patch 172 [x41; xdc; x39; xa6; x80; x00; x00; x00]
  (patch 204 [x00; x00; x00; x63] (patch 216 (bs "9.0401M6") (patch 272 (bs "X64_10PRO")
  sample_file)))))))).

(** Both are opened; the properties say other things; the rows are the same. *)
Example C118_case :
  has_magic sample_file /\ has_magic other_words
  /\ header_dates_ok sample_file /\ header_dates_ok other_words
  /\ same_but_words sample_file other_words
  /\ 288 + shift2 sample_file <= header_length_field sample_file <= page_length_field sample_file
  /\ header_length_field sample_file <= lenN sample_file
  /\ header_length_field other_words <= lenN other_words
  /\ (exists r1 r2, reader_of sample_cfg sample_file = Some r1
        /\ reader_of sample_cfg other_words = Some r2
        /\ h_dataset_name (rs_h r1) = bs "SAMPLE" /\ h_dataset_name (rs_h r2) = bs "OTHER_NAME"
        /\ h_page_count (rs_h r2) = 99 /\ h_platform (rs_h r1) <> h_platform (rs_h r2)
        /\ h_date_modified (rs_h r1) <> h_date_modified (rs_h r2)
        /\ h_encoding (rs_h r1) <> h_encoding (rs_h r2)
        /\ sample_trace other_words [OpReadAll]
           = ([(Ok OUnit,
                [(0, bs "AAAAAAAAabcd"); (1, bs "BBBBBBBBefgh"); (2, bs "CCCCCCCCijkl");
                 (3, bs "DDDDDDDDmnop"); (4, bs "EEEEEEEEqrst"); (5, bs "FFFFFFFFuvwx")], 1)], 6)
        /\ sample_trace sample_file [OpReadAll] = sample_trace other_words [OpReadAll]).
Proof.
  split; [vm_compute; reflexivity|]. split; [vm_compute; reflexivity|].
  split; [do 2 eexists; split; vm_compute; reflexivity|].
  split; [do 2 eexists; split; vm_compute; reflexivity|].
  split; [constructor; vm_compute; reflexivity|].
  split; [vm_compute; split; discriminate|].
  split; [vm_compute; discriminate|]. split; [vm_compute; discriminate|].
  do 2 eexists. split; [vm_compute; reflexivity|]. split; [vm_compute; reflexivity|].
  vm_compute. repeat split; try reflexivity; discriminate.
Qed.

(** C118 without the condition on the lengths: the page is read over the header and does
    not cover it.  The last row of the page, of which a part would be behind the page, is
    completed with bytes of the header. *)
Theorem C118_short_refuted : exists f1 f2,
  has_magic f1 /\ has_magic f2 /\ header_dates_ok f1 /\ header_dates_ok f2
  /\ same_but_words f1 f2
  /\ 288 + shift2 f1 <= header_length_field f1 /\ page_length_field f1 < header_length_field f1
  /\ header_length_field f1 <= lenN f1 /\ header_length_field f2 <= lenN f2
  /\ ~ same_outcome (same_but_header sample_cfg file_source f1 f2)
         (open_reader sample_cfg file_source None (file_open f1))
         (open_reader sample_cfg file_source None (file_open f2)).
Proof. exact short_words. Qed.
Print Assumptions C118_short_refuted.

Example C118_short_case :
  let f2 := patch 800 (bs "XXXX") short_pages in
  let last_row f := match fst (sample_trace f [OpSkip 64; OpReadRow]) with
                    | [_; (_, [(64, row)], _)] => Some row
                    | _ => None
                    end in
  last_row short_pages = Some [x00; x00; x00; x00; x00; x00; x00; x00; x00; x00; x00; x00]
  /\ last_row f2 = Some (x00 :: x00 :: x00 :: x00 :: x00 :: x00 :: x00 :: x00 :: bs "XXXX").
Proof. vm_compute. auto. Qed.
